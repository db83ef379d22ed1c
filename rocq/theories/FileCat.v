(** * The catalogue lists every record once. *)
From Coq Require Import ZArith List Lia Bool Arith.
From Verif Require Import Base PackModel PackProps HashModel FileModel FileLemmas FileScan FileInv FileDir FileLook FileRead FileAlloc FileBin FileSlot FileUpd FileStep FileWrite FileExist FileOps.
Import ListNotations.
Open Scope Z_scope.

Definition liveb (e : entry) : bool := zcompareRecordStatus (e_status e) 0.
Definition name_of (e : entry) : list Z := fort_to_c (e_path e).
Definition names (es : list entry) : list (list Z) := map name_of (filter liveb es).
Notation ln l := (Z.of_nat (length l)).

Lemma cat_bin_encs (isize ls next : Z) : forall es fuel icount acc z,
  Forall shape es -> icount + zlen (encs es) + z + 1 = isize -> 1 <= z -> (length es < fuel)%nat ->
  ln acc + ln (names es) <= ls ->
  cat_bin fuel isize ls (encs es ++ repeat 0 (Z.to_nat z) ++ [next]) icount acc = Some (acc ++ names es).
Proof.
  induction es as [|e t IH]; intros fuel icount acc z HS Hsz Hz Hf HL; (destruct fuel as [|fuel]; [cbn [length] in Hf; lia|]).
  - cbn [encs flat_map app cat_bin names filter map]. rewrite app_nil_r. destruct (Z.to_nat z) eqn:E; [lia|]. reflexivity.
  - inversion_clear HS as [|? ? He Ht]. pose proof (shape_words e He) as Hw. pose proof (shape_unpack e He) as Hu.
    assert (Hl : zlen (e_words e) = numberLongsInBytes (e_len e)) by apply He.
    rewrite encs_cons in Hsz |- *. rewrite zlen_app, zlen_enc in Hsz.
    unfold enc at 1. cbn [app cat_bin]. rewrite eqb_f by apply He. rewrite Hu. cbv zeta.
    pose proof (zlen_nonneg (encs t)) as Hnn.
    assert (EP : firstn (Z.to_nat (e_len e)) (bytes_of_words ((e_words e ++ encs t) ++ repeat 0 (Z.to_nat z) ++ [next])) = e_path e).
    { unfold e_path. rewrite <- !app_assoc. unfold bytes_of_words at 1. rewrite flat_map_app. fold (bytes_of_words (e_words e)).
      assert (HB : (Z.to_nat (e_len e) <= length (bytes_of_words (e_words e)))%nat).
      { rewrite bytes_of_words_length. pose proof (nlib_bounds (e_len e)). unfold zlen in Hl. destruct He as (_ & HH & _). lia. }
      rewrite firstn_app. replace (Z.to_nat (e_len e) - _)%nat with 0%nat by lia. rewrite firstn_O, app_nil_r. reflexivity. }
    rewrite EP. change (zcompareRecordStatus (e_status e) ST_VALID) with (liveb e). unfold names in *. cbn [filter] in *.
    assert (SK : skipn (Z.to_nat (7 + zlen (e_words e)))
              (e_hash e :: e_status e :: i4toi8 false (e_len e) (zlen (e_words e)) :: e_info e :: e_tc e :: e_lw e :: e_dates e ::
               (e_words e ++ encs t) ++ repeat 0 (Z.to_nat z) ++ [next]) = encs t ++ repeat 0 (Z.to_nat z) ++ [next]).
    { replace (Z.to_nat (7 + zlen (e_words e))) with (7 + length (e_words e))%nat by (unfold zlen; lia).
      cbn [Nat.add skipn]. rewrite <- !app_assoc. rewrite skipn_app, skipn_all, Nat.sub_diag. reflexivity. }
    assert (ET : isize - 2 <= icount + 7 + zlen (e_words e) -> t = []).
    { intros Eend. assert (HZ : zlen (encs t) = 0) by lia. apply zlen_nil in HZ.
      destruct t as [|e' t']; [reflexivity|]; rewrite encs_cons in HZ; discriminate. }
    destruct (liveb e) eqn:EL; cbn [andb map length] in *.
    + rewrite leb_f by lia. destruct (isize - 2 <=? icount + 7 + zlen (e_words e)) eqn:Eend; bz.
      * rewrite (ET Eend). reflexivity.
      * rewrite SK, IH; auto; [rewrite <- app_assoc; reflexivity|lia|cbn [length] in Hf; lia|rewrite app_length; cbn [length]; lia].
    + destruct (isize - 2 <=? icount + 7 + zlen (e_words e)) eqn:Eend; bz.
      * rewrite (ET Eend). cbn. rewrite app_nil_r. reflexivity.
      * rewrite SK, IH; auto; [lia|cbn [length] in Hf; lia].
Qed.

Lemma Forall2_choice {A B} (R : A -> B -> Prop) : forall l, (forall a, In a l -> exists b, R a b) -> exists l', Forall2 R l l'.
Proof.
  induction l as [|a t IH]; intros H; [exists []; constructor|].
  destruct (H a (or_introl eq_refl)) as [b Hb]. destruct IH as [t' Ht]; [intros x Hx; apply H; right; exact Hx|]. exists (b :: t'). constructor; assumption.
Qed.

Lemma F2_length {A B} (R : A -> B -> Prop) l l' : Forall2 R l l' -> length l = length l'.
Proof. induction 1; cbn; congruence. Qed.

Lemma setH_same s : s_dhdr s = s_hdr s -> setH (s_dhdr s) s = OK tt s.
Proof. intros E. unfold setH. rewrite E. destruct s as [a b d e f]. cbn [s_disk s_dhdr s_log s_hdr s_ifl] in *. subst. reflexivity. Qed.

(** ** The walk *)
Section CAT.
Variables (c : cfg) (s : st) (own : Z -> tag) (ch : chains) (blocks : list Z).
Hypothesis (WF : wf_cfg c) (RP : Rep c s own ch blocks).
Let bs := c_binSize c.

(** A bin of the directory: chain, place in the chain, entries. *)
Definition vbin : Type := Z * nat * list entry.
Definition holds (a : Z) (v : vbin) : Prop :=
  let '(h, i, es) := v in 0 <= h < c_maxHash c /\ nth_error (ch h) i = Some (a, es).
Definition ventries (vis : list vbin) : list entry := flat_map snd vis.
Fixpoint slots (a : Z) (u : nat) : list Z := match u with O => [] | S k => a :: slots (a + bs) k end.

Lemma names_app a b : names (a ++ b) = names a ++ names b.
Proof. unfold names. rewrite filter_app, map_app. reflexivity. Qed.

Lemma ventries_app a b : ventries (a ++ b) = ventries a ++ ventries b.
Proof. apply flat_map_app. Qed.

Lemma zgetw_in a n : 0 <= a <= h_fileSize (s_hdr s) -> 0 <= n <= 1000 -> zgetw a n s = OK (words (s_disk s) a n) s.
Proof. intros H1 H2. unfold zgetw. rewrite (ltb_f a 0) by lia. rewrite (ltb_f _ a) by lia. rewrite (ltb_f 10000000) by lia. reflexivity. Qed.

Lemma cat_bins_run ls : forall vis a r acc,
  Forall2 holds (slots a (length vis)) vis -> (length vis <= r)%nat ->
  (length vis = r \/ (let x := a + Z.of_nat (length vis) * bs in 0 <= x <= h_fileSize (s_hdr s) /\ s_disk s x = 0)) ->
  ln acc + ln (names (ventries vis)) <= ls ->
  cat_bins r c ls a acc s = OK (a + Z.of_nat (length vis) * bs, acc ++ names (ventries vis)) s.
Proof.
  pose proof WF as (W1 & W2 & W3 & W4 & W5).
  induction vis as [|v vis IH]; intros a r acc HF Hr HE HL.
  - cbn [length ventries flat_map names filter map] in *. rewrite app_nil_r, Z.mul_0_l, Z.add_0_r.
    destruct r as [|r]; [reflexivity|]. destruct HE as [HE|[H1 H2]]; [discriminate|]. rewrite Z.mul_0_l, Z.add_0_r in H1, H2.
    cbn [cat_bins]. rewrite bindM_OK with (a := words (s_disk s) a bs) (s' := s) by (apply zgetw_in; unfold bs; lia).
    pose proof (words_nth (s_disk s) a bs 0 ltac:(unfold bs; lia)) as Q. change (Z.to_nat 0) with 0%nat in Q. rewrite Z.add_0_r in Q. rewrite Q, H2. reflexivity.
  - cbn [length slots] in *. inversion HF as [|? ? ? ? Hv Ht]; subst. destruct v as [[h i] es]. destruct Hv as [Hh Hi].
    destruct (rep_bin c s own ch blocks WF RP h i a es Hh Hi) as [B1 B2].
    destruct (dk_bin _ _ _ _ _ _ (rp_dsk _ _ _ _ _ RP) h i a es Hh Hi) as (_ & _ & B3 & B4 & B5).
    destruct r as [|r]; [lia|]. cbn [cat_bins]. rewrite bindM_OK with (a := words (s_disk s) a bs) (s' := s) by (apply zgetw_in; unfold bs; lia).
    fold bs in B3. rewrite B3. unfold ventries in *. cbn [flat_map snd] in *. fold (ventries vis) in *. rewrite names_app, app_length in HL.
    assert (NE : es <> []) by (intros ->; exact (rp_bins _ _ _ _ _ RP h i a Hh Hi)).
    destruct es as [|e t] eqn:EE; [congruence|]. rewrite <- EE in *.
    assert (SH : Forall shape es) by (eapply Forall_impl; [|exact B5]; intros x Hx; apply Hx).
    assert (N0 : nth 0 (bin_words bs es (next_addr 0 (ch h) i)) 0 =? 0 = false).
    { rewrite EE. unfold bin_words. rewrite encs_cons. unfold enc. cbn [app nth]. apply eqb_f. rewrite EE in SH. inversion SH as [|? ? He _]; apply He. }
    rewrite N0. pose proof (length_encs es) as LE. pose proof (zlen_nonneg (encs es)) as LN.
    pose proof (bin_words_length bs es (next_addr 0 (ch h) i) ltac:(unfold bs; lia)) as BL.
    assert (CB : cat_bin (length (bin_words bs es (next_addr 0 (ch h) i))) bs ls (bin_words bs es (next_addr 0 (ch h) i)) 0 acc = Some (acc ++ names es)).
    { unfold bin_words at 2. fold bs in B4. apply cat_bin_encs; auto; try lia. unfold zlen in *. lia. }
    fold bs. rewrite CB. rewrite IH; [rewrite names_app, app_assoc; f_equal; f_equal; lia|exact Ht|lia| |rewrite app_length; lia].
    destruct HE as [HE|[H1 H2]]; [left; lia|right]. replace (a + bs + Z.of_nat (length vis) * bs) with (a + Z.of_nat (S (length vis)) * bs) by lia. split; assumption.
Qed.

Definition used (bl : list Z) : nat := Z.to_nat (match bl with [] | [_] => c_bpb c - h_binsRemain (s_hdr s) | _ => c_bpb c end).
Fixpoint addrs (bl : list Z) : list Z :=
  match bl with [] => [] | b :: t => slots b (used bl) ++ addrs t end.

Lemma slots_length a : forall u, length (slots a u) = u.
Proof. intros u. revert a. induction u as [|u IH]; intros a; cbn; [reflexivity|f_equal; apply IH]. Qed.
Lemma slots_in a u x : In x (slots a u) <-> exists m, 0 <= m < Z.of_nat u /\ x = a + m * bs.
Proof.
  revert a. induction u as [|u IH]; intros a; cbn [slots In].
  - split; [tauto|]. intros (m & H & _). lia.
  - rewrite IH. split.
    + intros [<-|(m & H & ->)]; [exists 0; lia|exists (m + 1); lia].
    + intros (m & H & ->). destruct (Z.eq_dec m 0) as [->|N]; [left; lia|right; exists (m - 1); lia].
Qed.

Lemma cat_blocks_run ls : forall bl pre acc fuel b t vis, blocks = pre ++ bl -> bl = b :: t ->
  Forall2 holds (addrs bl) vis -> (length bl <= fuel)%nat -> ln acc + ln (names (ventries vis)) <= ls ->
  cat_blocks fuel c ls b acc s = OK (acc ++ names (ventries vis)) s.
Proof.
  pose proof WF as (W1 & W2 & W3 & W4 & W5). pose proof (rp_al _ _ _ _ _ RP) as AL.
  induction bl as [|b0 bl IH]; intros pre acc fuel b t vis EB EL HF Hfu HL; [discriminate|]. inversion EL; subst b0 bl. clear EL.
  destruct fuel as [|fuel]; [cbn [length] in Hfu; lia|]. cbn [addrs] in HF. apply Forall2_app_inv_l in HF. destruct HF as (v1 & v2 & F1 & F2 & ->).
  assert (L1 : length v1 = used (b :: t)) by (rewrite <- (F2_length _ _ _ F1); apply slots_length).
  rewrite ventries_app in HL |- *. rewrite names_app, app_length in HL.
  assert (NB : nth_error blocks (length pre) = Some b) by (rewrite EB, nth_error_app2, Nat.sub_diag by lia; reflexivity).
  destruct (al_link _ _ _ _ _ _ AL _ _ NB) as (K1 & K2 & K3). pose proof (al_rem _ _ _ _ _ _ AL) as RM.
  destruct (al_blk _ _ _ _ _ _ AL) as (bs0 & bl0 & Q1 & Q2).
  assert (LF : b + c_bpb c * c_binSize c < h_fileSize (s_hdr s)).
  { destruct (Z_lt_le_dec (b + c_bpb c * c_binSize c) (h_fileSize (s_hdr s))) as [Q|Q]; [exact Q|]. rewrite (al_free _ _ _ _ _ _ AL _ Q) in K2. discriminate. }
  assert (LAST : t = [] -> bl0 = b).
  { intros ->. rewrite EB in Q1. apply app_inj_tail in Q1. symmetry. apply Q1. }
  assert (US : Z.of_nat (used (b :: t)) <= c_bpb c) by (unfold used; destruct t; lia).
  assert (STOP : let x := b + Z.of_nat (used (b :: t)) * bs in 0 <= x <= h_fileSize (s_hdr s) /\
     s_disk s x = nth 0 t 0 /\ (used (b :: t) <> Z.to_nat (c_bpb c) -> s_disk s x = 0)).
  { cbv zeta. assert (Z.of_nat (used (b :: t)) * bs <= c_bpb c * bs) by (unfold bs; nia). unfold bs in *. split; [nia|].
    assert (NX : nth (S (length pre)) blocks 0 = nth 0 t 0).
    { rewrite EB, app_nth2 by lia. replace (S (length pre) - length pre)%nat with 1%nat by lia. reflexivity. }
    destruct t as [|b1 t1].
    - unfold used. rewrite Z2Nat.id by lia. specialize (LAST eq_refl). subst bl0. cbn [nth].
      destruct (Z.eq_dec (h_binsRemain (s_hdr s)) 0) as [Z0|Z0].
      + rewrite Z0, Z.sub_0_r. split; [rewrite K3; exact NX|congruence].
      + rewrite <- Q2. destruct (al_spare _ _ _ _ _ _ AL (h_nextBin (s_hdr s)) ltac:(nia)) as [_ ->]. auto.
    - unfold used. rewrite Z2Nat.id by lia. split; [rewrite K3; exact NX|congruence]. }
  destruct STOP as (S1 & S2 & S3).
  cbn [cat_blocks]. rewrite bindM_OK with (a := (b + Z.of_nat (length v1) * bs, acc ++ names (ventries v1))) (s' := s).
  2:{ apply cat_bins_run; [rewrite L1; exact F1|lia| |lia]. cbv zeta. rewrite L1.
      destruct (Nat.eq_dec (used (b :: t)) (Z.to_nat (c_bpb c))) as [E|E]; [left; exact E|right; auto]. }
  cbn [fst snd]. rewrite L1. rewrite bindM_OK with (a := words (s_disk s) (b + Z.of_nat (used (b :: t)) * bs) 1) (s' := s) by (apply zgetw_in; lia).
  pose proof (words_nth (s_disk s) (b + Z.of_nat (used (b :: t)) * bs) 1 0 ltac:(lia)) as Q. change (Z.to_nat 0) with 0%nat in Q. rewrite Z.add_0_r in Q. rewrite Q, S2.
  destruct t as [|b1 t1].
  - cbn [nth]. rewrite Z.eqb_refl. cbn [addrs] in F2. inversion F2; subst. unfold ventries. cbn [flat_map names filter map app]. rewrite !app_nil_r. reflexivity.
  - cbn [nth]. assert (NB1 : nth_error blocks (S (length pre)) = Some b1).
    { rewrite EB, nth_error_app2 by lia. replace (S (length pre) - length pre)%nat with 1%nat by lia. reflexivity. }
    destruct (al_link _ _ _ _ _ _ AL _ _ NB1) as (K1' & _). rewrite eqb_f by lia.
    rewrite (IH (pre ++ [b]) (acc ++ names (ventries v1)) fuel b1 t1 v2).
    + rewrite names_app, app_assoc. reflexivity.
    + rewrite EB, <- app_assoc. reflexivity.
    + reflexivity.
    + exact F2.
    + cbn [length] in *. lia.
    + rewrite app_length. lia.
Qed.

(** ** Every bin is met once *)
Lemma last_cases (l : list Z) j b : nth_error l j = Some b -> (S j < length l)%nat \/ (S j = length l /\ exists l0, l = l0 ++ [b]).
Proof.
  intros H. pose proof (nth_error_lt _ _ _ H) as L. destruct (Nat.eq_dec (S j) (length l)) as [E|E]; [right|left; lia]. split; [exact E|].
  destruct (exists_last (l := l)) as (l0 & x & EQ); [destruct l; [cbn in L; lia|discriminate]|]. exists l0. rewrite EQ in H |- *.
  rewrite EQ, app_length in E. cbn in E. rewrite nth_error_app2 in H by lia. replace (j - length l0)%nat with 0%nat in H by lia. cbn in H. congruence.
Qed.

Lemma slot_own j b m : nth_error blocks j = Some b -> 0 <= m < c_bpb c -> own (b + m * bs) = TSpare \/ exists h i, own (b + m * bs) = TBin h i.
Proof.
  intros Hj Hm. pose proof WF as (W1 & W2 & W3 & W4 & W5). pose proof (rp_al _ _ _ _ _ RP) as AL.
  assert (U : ((S j < length blocks)%nat \/ m < c_bpb c - h_binsRemain (s_hdr s)) -> exists h i, own (b + m * bs) = TBin h i).
  { intros Q. destruct (al_used _ _ _ _ _ _ AL j b m Hj Hm Q) as (h & i & es & Hh & Hi).
    destruct (dk_bin _ _ _ _ _ _ (rp_dsk _ _ _ _ _ RP) h i _ es Hh Hi) as (_ & O & _). exists h, i. apply O. unfold bs. lia. }
  destruct (last_cases _ _ _ Hj) as [L|[L (l0 & EQ)]]; [right; apply U; left; exact L|].
  destruct (Z_lt_le_dec m (c_bpb c - h_binsRemain (s_hdr s))) as [Q|Q]; [right; apply U; right; exact Q|left].
  destruct (al_blk _ _ _ _ _ _ AL) as (bs0 & bl0 & Q1 & Q2). rewrite EQ in Q1. apply app_inj_tail in Q1. destruct Q1 as [_ <-].
  pose proof (al_rem _ _ _ _ _ _ AL). refine (proj1 (al_spare _ _ _ _ _ _ AL _ _)). rewrite Q2. unfold bs. nia.
Qed.

Lemma block_inj j j' b m m' b' : nth_error blocks j = Some b -> nth_error blocks j' = Some b' -> 0 <= m < c_bpb c -> 0 <= m' < c_bpb c ->
  b + m * bs = b' + m' * bs -> j = j' /\ m = m'.
Proof.
  intros Hj Hj' Hm Hm' E. pose proof WF as (W1 & W2 & W3 & W4 & W5). pose proof (rp_al _ _ _ _ _ RP) as AL.
  assert (NO : forall j0 j1 b0 b1 k k', nth_error blocks j0 = Some b0 -> nth_error blocks j1 = Some b1 -> 0 <= k < c_bpb c -> 0 <= k' < c_bpb c ->
      b0 + k * bs = b1 + k' * bs -> k < k' -> False).
  { intros j0 j1 b0 b1 k k' H0 H1 K0 K1 EE LT. destruct (al_link _ _ _ _ _ _ AL _ _ H1) as (_ & O & _).
    assert (EQ : b1 + c_bpb c * c_binSize c = b0 + (c_bpb c + k - k') * bs) by (unfold bs in *; nia). rewrite EQ in O.
    destruct (slot_own j0 b0 (c_bpb c + k - k') H0 ltac:(lia)) as [Q|(h & i & Q)]; rewrite Q in O; discriminate. }
  destruct (Z.lt_trichotomy m m') as [L|[L|L]]; [exfalso; exact (NO j j' b b' m m' Hj Hj' Hm Hm' E L)| |exfalso; exact (NO j' j b' b m' m Hj' Hj Hm' Hm (eq_sym E) L)].
  split; [|exact L]. subst m'. assert (b' = b) by lia. subst b'. clear E.
  (* equal blocks have equal successors, down to the last one *)
  assert (X : forall n j j' b, (n + j = length blocks)%nat -> (j < j')%nat -> nth_error blocks j = Some b -> nth_error blocks j' = Some b -> False).
  { clear - AL. intros n. induction n as [|n IH]; intros j j' b En L H1 H2; [apply nth_error_lt in H1; lia|].
    destruct (al_link _ _ _ _ _ _ AL _ _ H1) as (_ & _ & E1). destruct (al_link _ _ _ _ _ _ AL _ _ H2) as (_ & _ & E2). rewrite E1 in E2.
    pose proof (nth_error_lt _ _ _ H2) as LL.
    destruct (nth_error blocks (S j)) as [b1|] eqn:N1; [|apply nth_error_None in N1; lia].
    rewrite (nth_error_nth _ _ 0 N1) in E2. destruct (al_link _ _ _ _ _ _ AL _ _ N1) as (P1 & _).
    destruct (nth_error blocks (S j')) as [b2|] eqn:N2.
    - rewrite (nth_error_nth _ _ 0 N2) in E2. subst b2. apply (IH (S j) (S j') b1); auto; lia.
    - apply nth_error_None in N2. rewrite nth_overflow in E2 by lia. lia. }
  destruct (Nat.lt_trichotomy j j') as [L|[L|L]]; [exfalso|exact L|exfalso].
  - apply (X (length blocks - j)%nat j j' b); auto. pose proof (nth_error_lt _ _ _ Hj). lia.
  - apply (X (length blocks - j')%nat j' j b); auto. pose proof (nth_error_lt _ _ _ Hj'). lia.
Qed.

Lemma slots_nodup a u : NoDup (slots a u).
Proof.
  pose proof WF as (W1 & W2 & W3 & W4 & W5). revert a. induction u as [|u IH]; intros a; cbn [slots]; constructor; [|apply IH].
  rewrite slots_in. intros (m & H & E). unfold bs in *. nia.
Qed.
Lemma nodup_app {A} (l1 l2 : list A) : NoDup l1 -> NoDup l2 -> (forall x, In x l1 -> In x l2 -> False) -> NoDup (l1 ++ l2).
Proof.
  intros H1 H2 H. induction H1 as [|x l1 Hx H1 IH]; [exact H2|]. cbn. constructor.
  - rewrite in_app_iff. intros [Q|Q]; [exact (Hx Q)|apply (H x); [left; reflexivity|exact Q]].
  - apply IH. intros y Hy. apply H. right. exact Hy.
Qed.
Lemma addrs_in : forall bl pre x, blocks = pre ++ bl -> In x (addrs bl) ->
  exists j b m, (length pre <= j)%nat /\ nth_error blocks j = Some b /\ 0 <= m < c_bpb c /\ x = b + m * bs /\
    ((S j < length blocks)%nat \/ m < c_bpb c - h_binsRemain (s_hdr s)).
Proof.
  pose proof (al_rem _ _ _ _ _ _ (rp_al _ _ _ _ _ RP)) as RM.
  induction bl as [|b t IH]; intros pre x EB Hx; cbn [addrs] in Hx; [destruct Hx|]. apply in_app_iff in Hx. destruct Hx as [Hx|Hx].
  - rewrite slots_in in Hx. destruct Hx as (m & Hm & ->). exists (length pre), b, m. split; [lia|]. split; [rewrite EB, nth_error_app2, Nat.sub_diag by lia; reflexivity|].
    unfold used in Hm. rewrite EB, app_length. cbn [length]. destruct t as [|b1 t]; [split; [lia|]; split; [reflexivity|right; lia]|]. split; [lia|]. split; [reflexivity|left; cbn [length]; lia].
  - destruct (IH (pre ++ [b]) x) as (j & b' & m & H1 & H2); [rewrite EB, <- app_assoc; reflexivity|exact Hx|]. exists j, b', m. rewrite app_length in H1. cbn in H1. split; [lia|exact H2].
Qed.
Lemma addrs_nodup : forall bl pre, blocks = pre ++ bl -> NoDup (addrs bl).
Proof.
  induction bl as [|b t IH]; intros pre EB; cbn [addrs]; [constructor|]. apply nodup_app; [apply slots_nodup|apply (IH (pre ++ [b])); rewrite EB, <- app_assoc; reflexivity|].
  intros x H1 H2. destruct (addrs_in t (pre ++ [b]) x) as (j & b' & m & L1 & L2 & L3 & L4 & _); [rewrite EB, <- app_assoc; reflexivity|exact H2|].
  destruct (addrs_in (b :: t) pre x EB) as (j0 & b0 & m0 & _ & Z2 & Z3 & Z4 & _); [cbn [addrs]; apply in_or_app; left; exact H1|].
  rewrite slots_in in H1. destruct H1 as (m1 & Hm1 & E1).
  assert (NB : nth_error blocks (length pre) = Some b) by (rewrite EB, nth_error_app2, Nat.sub_diag by lia; reflexivity).
  assert (m1 < c_bpb c) by (pose proof (al_rem _ _ _ _ _ _ (rp_al _ _ _ _ _ RP)); unfold used in Hm1; destruct t; lia).
  destruct (block_inj (length pre) j b m1 m b' NB L2 ltac:(lia) L3 ltac:(congruence)) as [Q _]. rewrite app_length in L1. cbn in L1. lia.
Qed.
Lemma addrs_all : forall bl pre j b m, blocks = pre ++ bl -> (length pre <= j)%nat -> nth_error blocks j = Some b -> 0 <= m < c_bpb c ->
  ((S j < length blocks)%nat \/ m < c_bpb c - h_binsRemain (s_hdr s)) -> In (b + m * bs) (addrs bl).
Proof.
  pose proof (al_rem _ _ _ _ _ _ (rp_al _ _ _ _ _ RP)) as RM.
  induction bl as [|b0 t IH]; intros pre j b m EB Hj Hb Hm HU.
  - exfalso. apply nth_error_lt in Hb. rewrite EB, app_nil_r in Hb. lia.
  - cbn [addrs]. apply in_or_app. destruct (Nat.eq_dec j (length pre)) as [->|N].
    + left. rewrite EB, nth_error_app2, Nat.sub_diag in Hb by lia. cbn in Hb. inversion Hb; subst b0. apply slots_in. exists m. split; [|reflexivity].
      rewrite EB, app_length in HU. unfold used. cbn [length] in HU. destruct t as [|b1 t]; [cbn in HU; lia|lia].
    + right. apply (IH (pre ++ [b0]) j); auto; [rewrite EB, <- app_assoc; reflexivity|rewrite app_length; cbn; lia].
Qed.

(** ** Keys of the live entries *)
Lemma liveb_live h e : eok c h e -> (liveb e = true <-> live e).
Proof.
  intros (_ & _ & ST). unfold storing in ST. unfold liveb, live in *. destruct ST as [[E|[E|E]]|E]; rewrite E; cbn; intuition (congruence || lia).
Qed.
Definition keys (es : list entry) : list (list Z) := map (fun e => key (e_path e)) (filter liveb es).

Lemma filter_map_nodup {A B} (f : A -> B) (p : A -> bool) : forall l,
  (forall i j x y, nth_error l i = Some x -> nth_error l j = Some y -> p x = true -> p y = true -> f x = f y -> i = j) ->
  NoDup (map f (filter p l)).
Proof.
  induction l as [|x t IH]; intros H; cbn [filter map]; [constructor|].
  assert (IHt : NoDup (map f (filter p t))).
  { apply IH. intros i j y z H1 H2 P1 P2 E. specialize (H (S i) (S j) y z H1 H2 P1 P2 E). lia. }
  destruct (p x) eqn:E; [|exact IHt]. cbn [map]. constructor; [|exact IHt]. intros Q. apply in_map_iff in Q. destruct Q as (y & E1 & E2).
  apply filter_In in E2. destruct E2 as [E2 E3]. apply In_nth_error in E2. destruct E2 as [j E2].
  specialize (H 0%nat (S j) x y eq_refl E2 E E3 (eq_sym E1)). discriminate.
Qed.

Lemma vis_entry vis as_ : Forall2 holds as_ vis -> forall e, In e (ventries vis) -> exists h i k es, In (h, i, es) vis /\ 0 <= h < c_maxHash c /\
  nth_error es k = Some e /\ entry_at ch (h, i, k) = Some e /\ eok c h e.
Proof.
  intros HF e He. unfold ventries in He. apply in_flat_map in He. destruct He as ([[h i] es] & Hv & He). cbn [snd] in He.
  assert (exists a, holds a (h, i, es)) as (a & Hh & Hi).
  { clear He. induction HF as [|x y l l' Hxy HF IH]; [destruct Hv|]. destruct Hv as [->|Hv]; [eauto|auto]. }
  apply In_nth_error in He. destruct He as [k Hk]. exists h, i, k, es. split; [exact Hv|]. split; [exact Hh|]. split; [exact Hk|].
  assert (HE : entry_at ch (h, i, k) = Some e) by (unfold entry_at; rewrite Hi; exact Hk). split; [exact HE|].
  eapply Dsk_eok; [apply (rp_dsk _ _ _ _ _ RP)|exact Hh|exact HE].
Qed.

Lemma vis_nodup as_ vis : Forall2 holds as_ vis -> NoDup as_ -> NoDup (keys (ventries vis)).
Proof.
  intros HF ND. induction HF as [|a [[h i] es] as_ vis Hv HF IH]; [constructor|]. inversion_clear ND as [|? ? NI ND']. specialize (IH ND').
  unfold ventries, keys in *. cbn [flat_map snd]. rewrite filter_app, map_app. fold (ventries vis) in *. destruct Hv as [Hh Hi].
  assert (EA : forall k e, nth_error es k = Some e -> entry_at ch (h, i, k) = Some e) by (intros k e Hk; unfold entry_at; rewrite Hi; exact Hk).
  assert (EO : forall k e, nth_error es k = Some e -> eok c h e) by (intros k e Hk; eapply Dsk_eok; [apply (rp_dsk _ _ _ _ _ RP)|exact Hh|apply EA; exact Hk]).
  apply nodup_app; [|exact IH|].
  - apply filter_map_nodup. intros k k' x y Hx Hy Px Py E. apply (liveb_live h) in Px; [|eapply EO; eauto]. apply (liveb_live h) in Py; [|eapply EO; eauto].
    exact (proj2 (rp_uniq _ _ _ _ _ RP h i k x i k' y Hh (EA _ _ Hx) (EA _ _ Hy) Px Py E)).
  - intros q H1 H2. apply in_map_iff in H1. destruct H1 as (x & X1 & X2). apply filter_In in X2. destruct X2 as [X2 X3]. apply In_nth_error in X2. destruct X2 as [k X2].
    apply in_map_iff in H2. destruct H2 as (y & Y1 & Y2). apply filter_In in Y2. destruct Y2 as [Y2 Y3].
    destruct (vis_entry vis as_ HF y Y2) as (h' & i' & k' & es' & V1 & V2 & V3 & V4 & V5).
    pose proof (EO _ _ X2) as OX. apply (liveb_live h _ OX) in X3. apply (liveb_live h' _ V5) in Y3.
    assert (h' = h). { destruct OX as (_ & O1 & _). destruct V5 as (_ & O2 & _). rewrite (zhash_key _ _ (e_path y) (e_path x)) in O2 by congruence. congruence. }
    subst h'. destruct (rp_uniq _ _ _ _ _ RP h i k x i' k' y Hh (EA _ _ X2) V4 X3 Y3 ltac:(congruence)) as [-> _].
    apply NI. clear - HF V1 Hi. induction HF as [|x [[h0 i0] es0] l l' Hxy HF IH]; [destruct V1|]. destruct V1 as [E|V1]; [|right; auto].
    inversion E; subst. destruct Hxy as [_ Q]. rewrite Q in Hi. inversion Hi. left. reflexivity.
Qed.

(** zcatalog lists exactly the live records, each once. *)
Lemma rep_catalog : 0 <= h_numRenames (s_hdr s) -> 0 <= h_numDeletes (s_hdr s) ->
  (exists ks, (forall p ct, Live c ch p ct -> In (key p) ks) /\ ln ks <= h_numRecords (s_hdr s)) ->
  exists vl, zcatalog c s = OK (map name_of vl) s /\ NoDup (map (fun e => key (e_path e)) vl) /\
    (forall e, In e vl -> exists h i k, 0 <= h < c_maxHash c /\ entry_at ch (h, i, k) = Some e /\ live e) /\
    (forall h i k e, 0 <= h < c_maxHash c -> entry_at ch (h, i, k) = Some e -> live e -> In e vl).
Proof.
  intros HR HD (ks & K1 & K2). pose proof (rp_al _ _ _ _ _ RP) as AL. pose proof WF as (W1 & W2 & W3 & W4 & W5).
  destruct (Forall2_choice holds (addrs blocks)) as [vis HF].
  { intros a Ha. destruct (addrs_in blocks [] a eq_refl Ha) as (j & b & m & _ & H2 & H3 & -> & H5).
    destruct (al_used _ _ _ _ _ _ AL j b m H2 H3 H5) as (h & i & es & Hh & Hi). exists (h, i, es). split; assumption. }
  pose proof (vis_nodup _ _ HF (addrs_nodup blocks [] eq_refl)) as ND.
  assert (LE : ln (names (ventries vis)) <= h_numRecords (s_hdr s)).
  { unfold names. rewrite map_length. unfold keys in ND. etransitivity; [|exact K2]. apply inj_le.
    rewrite <- (map_length (fun e => key (e_path e))). apply NoDup_incl_length; [exact ND|]. intros q Hq. apply in_map_iff in Hq. destruct Hq as (e & <- & He).
    apply filter_In in He. destruct He as [He HV]. destruct (vis_entry vis _ HF e He) as (h & i & k & es & _ & Hh & _ & HE & HO).
    apply (liveb_live h e HO) in HV. apply (K1 (e_path e) (e_ct e)). exists h, i, k, e. auto. }
  assert (NB : exists b t, blocks = b :: t).
  { destruct (al_blk _ _ _ _ _ _ AL) as (bs0 & b & Q1 & _). rewrite Q1. destruct bs0 as [|b0 bs0]; cbn [app]; eexists; eexists; reflexivity. }
  destruct NB as (b & t & EB).
  exists (filter liveb (ventries vis)). split; [|split; [exact ND|split]].
  - assert (SE : setH (s_dhdr s) s = OK tt s) by apply setH_same, (rp_hdr _ _ _ _ _ RP).
    unfold zcatalog. cbv zeta. rewrite (bindM_OK _ _ _ _ _ SE).
    rewrite (rp_hdr _ _ _ _ _ RP). replace (c_firstBin c) with b by (rewrite <- (al_first _ _ _ _ _ _ AL), EB; reflexivity).
    change (map name_of (filter liveb (ventries vis))) with ([] ++ names (ventries vis)).
    apply (cat_blocks_run _ blocks [] [] _ b t vis eq_refl EB HF); [|cbn [length]; lia].
    pose proof (al_cap _ _ _ _ _ _ AL). pose proof (al_fs _ _ _ _ _ _ AL).
    assert (ln blocks <= ln blocks * c_bpb c) by nia. assert (ln blocks * c_bpb c <= ln blocks * c_bpb c * c_binSize c) by nia. lia.
  - intros e He. apply filter_In in He. destruct He as [He HV]. destruct (vis_entry vis _ HF e He) as (h & i & k & es & _ & Hh & _ & HE & HO).
    exists h, i, k. split; [exact Hh|]. split; [exact HE|]. apply (liveb_live h e HO), HV.
  - intros h i k e Hh HE HV. apply filter_In. split; [|apply (liveb_live h); [eapply Dsk_eok; [apply (rp_dsk _ _ _ _ _ RP)|exact Hh|exact HE]|exact HV]].
    destruct (entry_at_bin _ _ _ _ _ HE) as (a & es & E1 & E2).
    destruct (al_slot _ _ _ _ _ _ AL h i a es Hh E1) as (j & b' & m & S1 & S2 & S3 & ->).
    pose proof (addrs_all blocks [] j b' m eq_refl ltac:(cbn; lia) S1 S2 S3) as IA.
    assert (exists v, In v vis /\ holds (b' + m * bs) v) as ([[h' i'] es'] & V1 & V2 & V3).
    { clear - HF IA. induction HF as [|x v l l' Hxy HF IH]; [destruct IA|]. destruct IA as [<-|IA]; [exists v; cbn; auto|]. destruct (IH IA) as (v' & ? & ?). exists v'. cbn; auto. }
    destruct (dk_bin _ _ _ _ _ _ (rp_dsk _ _ _ _ _ RP) h i _ es Hh E1) as (_ & O1 & _). destruct (dk_bin _ _ _ _ _ _ (rp_dsk _ _ _ _ _ RP) h' i' _ es' V2 V3) as (_ & O2 & _).
    specialize (O1 (b' + m * bs) ltac:(unfold bs; lia)). specialize (O2 (b' + m * bs) ltac:(unfold bs; lia)). rewrite O1 in O2. inversion O2; subst h' i'.
    assert (es' = es) by congruence. subst es'. unfold ventries. apply in_flat_map. exists (h, i, es). split; [exact V1|]. cbn. eapply nth_error_In; eauto.
Qed.
End CAT.
