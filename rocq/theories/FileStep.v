(** * Building blocks of the file operations: entry updates, file space, the six data sections; the invariant [Rep]. *)
From Coq Require Import ZArith List Lia Bool Arith.
From Verif Require Import Base PackModel PackProps HashModel FileModel FileLemmas FileScan FileInv FileDir FileLook FileRead FileAlloc FileBin FileSlot FileUpd.
Import ListNotations.
Open Scope Z_scope.

(** ** Rewriting part of an entry *)
Lemma words_put_part d a n ws N W : words d a N = W -> 0 <= n -> n + zlen ws <= N ->
  words (put d (a + n) ws) a N = firstn (Z.to_nat n) W ++ ws ++ skipn (Z.to_nat (n + zlen ws)) W.
Proof.
  intros HW H1 H2. pose proof (zlen_nonneg ws) as H3.
  assert (LW : length W = Z.to_nat N) by (rewrite <- HW; apply words_length).
  apply words_of_nth.
  - rewrite !app_length, firstn_length, skipn_length. unfold zlen in *. lia.
  - intros k Hk.
    assert (DW : d (a + k) = nth (Z.to_nat k) W 0) by (rewrite <- HW, words_nth by lia; reflexivity).
    destruct (Z.lt_ge_cases k n) as [L|L].
    + rewrite put_out by lia. rewrite DW. rewrite app_nth1 by (rewrite firstn_length; lia).
      rewrite <- (firstn_skipn (Z.to_nat n) W) at 1. rewrite app_nth1 by (rewrite firstn_length; lia). reflexivity.
    + rewrite app_nth2 by (rewrite firstn_length; lia). rewrite firstn_length. replace (Nat.min (Z.to_nat n) (length W)) with (Z.to_nat n) by lia.
      destruct (Z.lt_ge_cases k (n + zlen ws)) as [L2|L2].
      * rewrite put_in by lia. rewrite app_nth1 by (unfold zlen in *; lia). f_equal. lia.
      * rewrite put_out by lia. rewrite DW. rewrite app_nth2 by (unfold zlen in *; lia).
        rewrite <- (firstn_skipn (Z.to_nat (n + zlen ws)) W) at 1.
        rewrite app_nth2 by (rewrite firstn_length; lia). rewrite firstn_length. f_equal. unfold zlen in *. lia.
Qed.

Lemma words_put_entry isize d a es k e e' j ws next : nth_error es k = Some e -> zlen (encs es) <= isize - 2 ->
  words d a isize = bin_words isize es next ->
  0 <= j -> j + zlen ws <= zlen (enc e) ->
  enc e' = firstn (Z.to_nat j) (enc e) ++ ws ++ skipn (Z.to_nat (j + zlen ws)) (enc e) ->
  words (put d (a + (zlen (encs (firstn k es)) + j)) ws) a isize = bin_words isize (lset es k e') next /\
  zlen (encs (lset es k e')) = zlen (encs es).
Proof.
  intros Hk HL HW Hj Hn HE. destruct (nth_error_split es k Hk) as (l1 & l2 & -> & L). subst k.
  pose proof (zlen_nonneg ws) as NW.
  assert (LE : zlen (enc e') = zlen (enc e)).
  { rewrite HE, !zlen_app. unfold zlen in *. rewrite firstn_length, skipn_length. lia. }
  rewrite lset_app. rewrite firstn_app, Nat.sub_diag, firstn_all. cbn [firstn]. rewrite app_nil_r.
  split; [|rewrite !encs_app, !encs_cons, !zlen_app; lia].
  rewrite encs_app, encs_cons, !zlen_app in HL. pose proof (zlen_nonneg (encs l2)).
  rewrite (words_put_part d a _ ws isize _ HW) by (pose proof (zlen_nonneg (encs l1)); lia).
  unfold bin_words. rewrite !encs_app, !encs_cons. rewrite <- !app_assoc. rewrite HE.
  assert (Z1 : zlen (encs l1 ++ enc e ++ encs l2) = zlen (encs l1 ++ (firstn (Z.to_nat j) (enc e) ++ ws ++ skipn (Z.to_nat (j + zlen ws)) (enc e)) ++ encs l2)).
  { rewrite <- HE. rewrite !zlen_app. lia. }
  rewrite Z1. set (R := repeat 0 _ ++ [next]).
  set (A := encs l1). assert (LA : Z.to_nat (zlen A + j) = (length A + Z.to_nat j)%nat) by (unfold zlen; lia). rewrite LA.
  assert (LB : Z.to_nat (zlen A + j + zlen ws) = (length A + Z.to_nat (j + zlen ws))%nat) by (unfold zlen in *; lia). rewrite LB.
  rewrite firstn_app. rewrite (firstn_all2 A) by lia. replace (length A + Z.to_nat j - length A)%nat with (Z.to_nat j) by lia.
  rewrite <- app_assoc. f_equal.
  rewrite skipn_app. rewrite (skipn_all2 A) by lia. replace (length A + Z.to_nat (j + zlen ws) - length A)%nat with (Z.to_nat (j + zlen ws)) by lia.
  cbn [app]. rewrite firstn_app. replace (Z.to_nat j - length (enc e))%nat with 0%nat by (unfold zlen in *; lia). cbn [firstn]. rewrite app_nil_r.
  rewrite <- app_assoc. f_equal. rewrite <- app_assoc. f_equal.
  rewrite skipn_app. replace (Z.to_nat (j + zlen ws) - length (enc e))%nat with 0%nat by (unfold zlen in *; lia). cbn [skipn]. rewrite <- ?app_assoc. reflexivity.
Qed.

Definition same_name (e e' : entry) : Prop := e_hash e' = e_hash e /\ e_len e' = e_len e /\ e_words e' = e_words e.
Lemma same_name_path e e' : same_name e e' -> e_path e' = e_path e.
Proof. intros (E1 & E2 & E3). unfold e_path. rewrite E2, E3. reflexivity. Qed.
Lemma same_name_eok c h e e' : same_name e e' -> eok c h e -> storing e' \/ e_status e' = 12 -> eok c h e'.
Proof.
  intros SN (S1 & S2 & S3) HS. split; [|split; [|exact HS]].
  - destruct SN as (E1 & E2 & E3). unfold shape in *. rewrite E1, E2, E3. exact S1.
  - rewrite (same_name_path _ _ SN). destruct SN as (E1 & _). rewrite E1. exact S2.
Qed.

Lemma entry_lset ch h i k a es e e' h' i' k' : nth_error (ch h) i = Some (a, es) -> nth_error es k = Some e ->
  entry_at (setb ch h i (a, lset es k e')) (h', i', k') =
    if (h' =? h) && (i =? i')%nat && (k =? k')%nat then Some e' else entry_at ch (h', i', k').
Proof.
  intros Hi Hk. rewrite (entry_setb ch h i a es _ h' i' k' Hi). destruct ((h' =? h) && (i =? i')%nat) eqn:E; cbn [andb]; [|reflexivity].
  rewrite lset_nth by (eapply nth_error_lt; eauto). destruct (k =? k')%nat; [reflexivity|].
  apply andb_prop in E. destruct E as [E1 E2]. bz. apply Nat.eqb_eq in E2. subst. unfold entry_at. rewrite Hi. reflexivity.
Qed.
Lemma entry_lset_same ch h i k a es e e' : nth_error (ch h) i = Some (a, es) -> nth_error es k = Some e ->
  entry_at (setb ch h i (a, lset es k e')) (h, i, k) = Some e'.
Proof. intros. rewrite (entry_lset ch h i k a es e) by assumption. rewrite Z.eqb_refl, !Nat.eqb_refl. reflexivity. Qed.
Lemma entry_lset_other ch h i k a es e e' p : nth_error (ch h) i = Some (a, es) -> nth_error es k = Some e -> p <> (h, i, k) ->
  entry_at (setb ch h i (a, lset es k e')) p = entry_at ch p.
Proof.
  intros Hi Hk HN. destruct p as [[h' i'] k']. rewrite (entry_lset ch h i k a es e) by assumption.
  destruct ((h' =? h) && (i =? i')%nat && (k =? k')%nat) eqn:E; [|reflexivity]. exfalso. apply HN.
  apply andb_prop in E. destruct E as [E E3]. apply andb_prop in E. destruct E as [E1 E2]. bz. apply Nat.eqb_eq in E2, E3. congruence.
Qed.

(** Entry [e] becomes [e']: same name; its record is exempt, or [e'] describes the same record, or points to none. *)
Lemma Ctx_setentry c fs0 L0 K d d' own ch dang ex h i k a es e e' :
  Ctx c fs0 L0 K d own ch dang ex -> 0 <= h < c_maxHash c ->
  nth_error (ch h) i = Some (a, es) -> nth_error es k = Some e -> same_name e e' ->
  storing e' \/ e_status e' = 12 -> K (key (e_path e)) ->
  (ex = Some (h, i, k) \/ (storing e' -> storing e /\ same_rec e e')) ->
  (forall x, own x <> TBin h i -> d' x = d x) ->
  words d' a (c_binSize c) = bin_words (c_binSize c) (lset es k e') (next_addr (dang h) (ch h) i) ->
  zlen (encs (lset es k e')) <= c_binSize c - 2 ->
  Ctx c fs0 L0 K d' own (setb ch h i (a, lset es k e')) dang ex.
Proof.
  intros [DK LM KP] Hh Hi Hk SN HST HK HEX HD HW HZ.
  destruct (dk_bin _ _ _ _ _ _ DK h i a es Hh Hi) as (_ & _ & _ & _ & F). rewrite Forall_forall in F.
  split.
  - apply Dsk_setbin with (d := d) (es := es); auto.
    + apply Forall_forall. intros x Hx. apply In_nth_error in Hx. destruct Hx as [j Hj].
      rewrite lset_nth in Hj by (eapply nth_error_lt; eauto). destruct (k =? j)%nat eqn:E.
      * inversion Hj; subst x. eapply same_name_eok; eauto. apply F. eapply nth_error_In; eauto.
      * apply F. eapply nth_error_In; eauto.
    + intros j x Hj HS HX. rewrite lset_nth in Hj by (eapply nth_error_lt; eauto). destruct (k =? j)%nat eqn:E.
      * inversion Hj; subst x. apply Nat.eqb_eq in E. subst j. destruct HEX as [Q|Q]; [contradiction|]. exists e. split; [exact Hk|]. apply Q, HS.
      * exists x. repeat split; auto.
  - destruct LM as [M1 M2 M3 M4]. split; auto.
    + intros h' i' a' es' Hh' Hi'. rewrite setb_at in Hi' by (eapply nth_error_lt; eauto).
      assert (LEN : length (setb ch h i (a, lset es k e') h') = length (ch h')) by (unfold setb; destruct (h' =? h) eqn:Eh; [bz; subst; apply lset_length|reflexivity]).
      destruct ((h' =? h) && (i =? i')%nat) eqn:E; [|destruct (M3 h' i' a' es' Hh' Hi') as [Q|[Q1 Q2]]; [left; exact Q|right]; rewrite LEN; split; auto].
      inversion Hi'; subst a' es'. apply andb_prop in E. destruct E as [E1 E2]. bz. apply Nat.eqb_eq in E2. subst h' i'.
      destruct (M3 h i a es Hh Hi) as [Q|[Q1 Q2]]; [left; exact Q|right]. rewrite LEN. split; [exact Q1|].
      intros k' x Hx. rewrite lset_nth in Hx by (eapply nth_error_lt; eauto). destruct (k =? k')%nat eqn:E; [|eauto].
      apply Nat.eqb_eq in E. subst k'. eauto.
    + intros h' Hh'. unfold setb. destruct (h' =? h) eqn:Eh; [bz; subst; rewrite lset_length|]; auto.
  - destruct KP as [K1 K2 K3]. pose proof (same_name_path _ _ SN) as PE. split.
    + intros h' i' k' x Hh' Hx HL HN. rewrite (entry_lset ch h i k a es e) in Hx by assumption.
      destruct ((h' =? h) && (i =? i')%nat && (k =? k')%nat); [|eauto]. inversion Hx; subst x. rewrite PE in HN. contradiction.
    + intros h' i1 k1 e1 i2 k2 e2 Hh' E1 E2 V1 V2 EK NK.
      rewrite (entry_lset ch h i k a es e) in E1, E2 by assumption.
      destruct ((h' =? h) && (i =? i1)%nat && (k =? k1)%nat); [inversion E1; subst e1; rewrite PE in NK; contradiction|].
      destruct ((h' =? h) && (i =? i2)%nat && (k =? k2)%nat); [inversion E2; subst e2; rewrite EK, PE in NK; contradiction|].
      eapply K2; eauto.
    + intros p ct HNK HL. destruct (K3 p ct HNK HL) as (h' & i' & k' & x & Hh' & Hx & HV' & EK & EC).
      exists h', i', k', x. split; [exact Hh'|]. split; [|auto]. rewrite entry_lset_other with (e := e); auto.
      intros Q. inversion Q; subst h' i' k'. unfold entry_at in Hx. rewrite Hi, Hk in Hx. inversion Hx; subst x. rewrite EK in HK. contradiction.
Qed.

Lemma Ctx_exempt c fs0 L0 K d own ch dang h i k e : Ctx c fs0 L0 K d own ch dang None -> 0 <= h < c_maxHash c ->
  entry_at ch (h, i, k) = Some e -> (live e -> K (key (e_path e))) -> Ctx c fs0 L0 K d own ch dang (Some (h, i, k)).
Proof.
  intros [DK LM KP] Hh HE HK. split; [apply Dsk_exempt; exact DK| |].
  - destruct LM as [M1 M2 M3 M4]. split; auto.
    + intros h' i' k' x Hx. destruct (M2 _ _ _ _ Hx) as [Q|Q]; [auto|discriminate].
    + intros h' i' a es Hh' Hi. destruct (M3 _ _ _ _ Hh' Hi) as [Q|[Q1 Q2]]; [auto|right]. split; [exact Q1|].
      intros k' e' Hk'. specialize (Q2 k' e' Hk'). discriminate.
  - destruct KP as [K1 K2 K3]. split; auto. intros h' i' k' e' Hh' HE' HL HN Q. inversion Q; subst. rewrite HE in HE'. inversion HE'; subst. auto.
Qed.

(** Entry updates keep the allocation state. *)
Lemma Alloc_setentry c d d' own ch hd blocks h i a es es' : Alloc c d own ch hd blocks ->
  nth_error (ch h) i = Some (a, es) ->
  (forall x, own x = TSpare \/ own x = TLink -> d' x = d x) ->
  Alloc c d' own (setb ch h i (a, es')) hd blocks.
Proof.
  intros AL Hi HD. eapply Alloc_ext; try exact AL; try reflexivity; try lia.
  - intros x Hx. split; auto.
  - apply (al_free _ _ _ _ _ _ AL).
  - apply (setb_bins ch h i a es _ Hi).
Qed.
Lemma Alloc_disk c d d' own ch hd blocks : Alloc c d own ch hd blocks ->
  (forall x, own x = TSpare \/ own x = TLink -> d' x = d x) -> Alloc c d' own ch hd blocks.
Proof.
  intros AL HD. eapply Alloc_ext; try exact AL; try reflexivity; try lia; auto. apply (al_free _ _ _ _ _ _ AL).
Qed.
Lemma Alloc_hdr c d own ch hd hd' blocks : Alloc c d own ch hd blocks -> same_space hd hd' -> Alloc c d own ch hd' blocks.
Proof.
  intros AL (E1 & E2 & E3). eapply Alloc_ext; try exact AL; auto; try lia. rewrite E1. apply (al_free _ _ _ _ _ _ AL).
Qed.

(** ** File space *)
Definition grow (n : Z) (hd : hdr) : hdr :=
  mkhdr (h_fileSize hd + n) (h_binsRemain hd) (h_nextBin hd) (h_numRecords hd) (h_numDeletes hd) (h_numRenames hd) (h_dead hd) (h_catSeq hd).

Lemma below_free c d own ch hd blocks x : Alloc c d own ch hd blocks -> own x <> TFree -> x < h_fileSize hd.
Proof.
  intros AL Hx. destruct (Z.lt_ge_cases x (h_fileSize hd)); [assumption|]. exfalso. apply Hx. apply (al_free _ _ _ _ _ _ AL). assumption.
Qed.
Lemma Alloc_grow c d own ch hd blocks n t : Alloc c d own ch hd blocks -> 0 <= n ->
  Alloc c d (retag own (h_fileSize hd) n t) ch (grow n hd) blocks.
Proof.
  intros AL Hn. eapply Alloc_ext; try exact AL; try reflexivity; cbn [grow h_fileSize]; try lia.
  - intros x Hx. split; [reflexivity|]. apply retag_out. left. eapply below_free; eauto. destruct Hx as [-> | ->]; discriminate.
  - intros x Hx. rewrite retag_out by lia. apply (al_free _ _ _ _ _ _ AL). lia.
Qed.
Lemma Ctx_grow c fs0 L0 K d own ch dang ex hd blocks n t : Ctx c fs0 L0 K d own ch dang ex -> Alloc c d own ch hd blocks ->
  (forall h i k, t = TRec h i k -> ex = Some (h, i, k)) ->
  Ctx c fs0 L0 K d (retag own (h_fileSize hd) n t) ch dang ex.
Proof.
  intros CX AL HT. eapply Ctx_ext; [exact CX|auto| |].
  - intros x Hx. apply retag_out. left. eapply below_free; eauto. apply critical_not in Hx. tauto.
  - intros x h i k Hx. unfold retag in Hx. destruct ((h_fileSize hd <=? x) && (x <? h_fileSize hd + n)); [right; auto|left; exact Hx].
Qed.

(** Words that an operation may overwrite without touching the directory or other records. *)
Lemma critical_own own h i k x : own x = TRec h i k -> ~ critical own (Some (h, i, k)) x.
Proof. unfold critical. intros ->. congruence. Qed.

(** ** Sections *)
Definition sec_ok (d : Z -> Z) (a : Z) (l : list Z) : Prop := ints_at d a (zlen l) = l.

Fixpoint secs_ok (d : Z -> Z) (a : Z) (ls : list (list Z)) : Prop :=
  match ls with [] => True | l :: t => sec_ok d a l /\ secs_ok d (a + lw l) t end.
Fixpoint lws (ls : list (list Z)) : Z := match ls with [] => 0 | l :: t => lw l + lws t end.
Lemma lws_nonneg ls : 0 <= lws ls.
Proof. induction ls as [|l t IH]; cbn [lws]; [lia|]. pose proof (lw_nonneg l). lia. Qed.
Lemma lws_app a b : lws (a ++ b) = lws a + lws b.
Proof. induction a as [|l t IH]; cbn [app lws]; [reflexivity|]. lia. Qed.
Lemma secs_ext d d' : forall ls a, (forall x, a <= x < a + lws ls -> d' x = d x) -> secs_ok d a ls -> secs_ok d' a ls.
Proof.
  induction ls as [|l t IH]; intros a HD H; cbn [secs_ok lws] in *; [exact I|]. destruct H as [H1 H2].
  pose proof (lw_nonneg l). pose proof (lws_nonneg t). split.
  - unfold sec_ok in *. rewrite <- H1 at 2. apply ints_at_ext. intros x Hx. apply HD. unfold lw in *. lia.
  - apply IH; [|exact H2]. intros x Hx. apply HD. lia.
Qed.
Lemma secs_app d : forall ls a l, secs_ok d a ls -> sec_ok d (a + lws ls) l -> secs_ok d a (ls ++ [l]).
Proof.
  induction ls as [|x t IH]; intros a l H1 H2; cbn [secs_ok lws app] in *.
  - rewrite Z.add_0_r in H2. auto.
  - destruct H1 as [H1 H3]. split; [exact H1|]. apply IH; [exact H3|]. rewrite <- Z.add_assoc. exact H2.
Qed.

(** State while the sections of record [p] are being written: [ls] are done. *)
Record Filling (c : cfg) (fs0 : Z) (L0 : list Z -> content -> Prop) (K : list Z -> Prop)
    (own : Z -> tag) (ch : chains) (p : pos) (blocks : list Z) (d0 : Z -> Z) (i0 : ifl) (h0 dh0 : hdr) (base cap : Z)
    (ls : list (list Z)) (s : st) : Prop := {
  fl_ctx : Ctx c fs0 L0 K (s_disk s) own ch (fun _ => 0) (Some p);
  fl_alloc : Alloc c (s_disk s) own ch (s_hdr s) blocks;
  fl_hdr : s_hdr s = h0; fl_dhdr : s_dhdr s = dh0; fl_ifl : s_ifl s = i0;
  fl_fs : fs0 <= h_fileSize (s_dhdr s);
  fl_base : 0 < base; fl_end : base + cap <= h_fileSize h0;
  fl_own : forall x, base <= x < base + cap -> own x = TR p;
  fl_out : forall x, x < base \/ base + cap <= x -> s_disk s x = d0 x;
  fl_secs : secs_ok (s_disk s) base ls }.

Lemma run_section c fs0 L0 K own ch h i k blocks d0 i0 h0 dh0 base cap ls l s E :
  Filling c fs0 L0 K own ch (h, i, k) blocks d0 i0 h0 dh0 base cap ls s ->
  int32s l -> zlen l <= 10000000 -> lws ls + lw l <= cap ->
  run (GI c fs0 L0 K) (zputi (base + lws ls) l) s
    (fun _ s' => Filling c fs0 L0 K own ch (h, i, k) blocks d0 i0 h0 dh0 base cap (ls ++ [l]) s') E.
Proof.
  intros [CX AL EH EDH EI HFS HB HEN HO HD HS] HI HL HC. pose proof (lws_nonneg ls) as LN. pose proof (lw_nonneg l) as LW.
  assert (G0 : GI c fs0 L0 K (s_disk s, s_dhdr s)) by (eapply Ctx_GI; eauto).
  pose proof HEN as HEN'. rewrite <- EH in HEN'. apply run_zputi; [exact G0|lia|lia|].
  intros d' HD'.
  assert (OUT : forall x, x < base + lws ls \/ base + lws ls + lw l <= x -> d' x = s_disk s x).
  { intros x Hx. rewrite HD'. apply put_out. rewrite zlen_pack. lia. }
  assert (CX' : Ctx c fs0 L0 K d' own ch (fun _ => 0) (Some (h, i, k))).
  { eapply Ctx_disk; [exact CX|]. intros x Hx. apply OUT.
    destruct (Z.lt_ge_cases x (base + lws ls)); [left; lia|]. destruct (Z.lt_ge_cases x (base + lws ls + lw l)); [|right; lia].
    exfalso. revert Hx. apply critical_own. apply HO. lia. }
  split; [eapply Ctx_GI; eauto|]. intros lg. split; cbn [s_disk s_dhdr s_hdr s_ifl]; auto.
  - eapply Alloc_disk; [exact AL|]. intros x Hx. apply OUT.
    destruct (Z.lt_ge_cases x (base + lws ls)); [left; lia|]. destruct (Z.lt_ge_cases x (base + lws ls + lw l)); [|right; lia].
    exfalso. rewrite (HO x) in Hx by lia. destruct Hx; discriminate.
  - intros x Hx. rewrite OUT by lia. apply HD, Hx.
  - apply secs_app.
    + eapply secs_ext; [|exact HS]. intros x Hx. apply OUT. lia.
    + unfold sec_ok. etransitivity; [|apply (ints_at_put (s_disk s) (base + lws ls) l HI)]. apply ints_at_ext. intros x _. apply HD'.
Qed.

(** ** Quiescent files *)
Record Rep (c : cfg) (s : st) (own : Z -> tag) (ch : chains) (blocks : list Z) : Prop := {
  rp_dsk : Dsk c (s_disk s) own ch (fun _ => 0) None;
  rp_al : Alloc c (s_disk s) own ch (s_hdr s) blocks;
  rp_hdr : s_dhdr s = s_hdr s;
  rp_uniq : forall h i k e i' k' e', 0 <= h < c_maxHash c ->
    entry_at ch (h, i, k) = Some e -> entry_at ch (h, i', k') = Some e' -> live e -> live e' ->
    key (e_path e) = key (e_path e') -> i = i' /\ k = k';
  rp_order : forall h i k e i' k' e', 0 <= h < c_maxHash c ->
    entry_at ch (h, i, k) = Some e -> entry_at ch (h, i', k') = Some e' -> live e -> e_status e' = 11 ->
    key (e_path e) = key (e_path e') -> pos_lt i k i' k';
  rp_bins : forall h i a, 0 <= h < c_maxHash c -> nth_error (ch h) i <> Some (a, []) }.

(** Record [ct] is stored under the name [p]; [ct] can be restored under the name [p]. *)
Definition Live (c : cfg) (ch : chains) (p : list Z) (ct : content) : Prop :=
  exists h i k e, 0 <= h < c_maxHash c /\ entry_at ch (h, i, k) = Some e /\ live e /\ key (e_path e) = key p /\ e_ct e = ct.
Definition Dead (c : cfg) (ch : chains) (p : list Z) (ct : content) : Prop :=
  exists h i k e, 0 <= h < c_maxHash c /\ entry_at ch (h, i, k) = Some e /\ e_status e = 11 /\ key (e_path e) = key p /\ e_ct e = ct.

Section REP.
Variables (c : cfg) (s : st) (own : Z -> tag) (ch : chains) (blocks : list Z).
Hypothesis WF : wf_cfg c.
Hypothesis RP : Rep c s own ch blocks.
Let fs := h_fileSize (s_hdr s).

Lemma rep_bin h i a es : 0 <= h < c_maxHash c -> nth_error (ch h) i = Some (a, es) -> 100 <= a /\ a + c_binSize c <= fs.
Proof.
  intros Hh Hi. destruct (dk_bin _ _ _ _ _ _ (rp_dsk _ _ _ _ _ RP) h i a es Hh Hi) as (B1 & B2 & _). split; [exact B1|].
  destruct WF as (_ & _ & W3 & _).
  assert (a + c_binSize c - 1 < fs); [|lia]. eapply below_free; [exact (rp_al _ _ _ _ _ RP)|]. rewrite B2 by lia. discriminate.
Qed.
Lemma rep_len h : 0 <= h < c_maxHash c -> Z.of_nat (length (ch h)) <= fs.
Proof.
  intros Hh. pose proof (al_len _ _ _ _ _ _ (rp_al _ _ _ _ _ RP) h Hh). pose proof (al_cap _ _ _ _ _ _ (rp_al _ _ _ _ _ RP)) as A.
  pose proof (al_rem _ _ _ _ _ _ (rp_al _ _ _ _ _ RP)). destruct WF as (_ & _ & W3 & W4 & _). fold fs in A. nia.
Qed.
Lemma rep_rec x h i k : own x = TRec h i k -> x < fs.
Proof. intros Hx. eapply below_free; [exact (rp_al _ _ _ _ _ RP)|]. rewrite Hx. discriminate. Qed.
Lemma rep_hash : c_hashStart c + c_maxHash c <= fs.
Proof. apply (al_hash _ _ _ _ _ _ (rp_al _ _ _ _ _ RP)). Qed.

Lemma rep_ctx K : Ctx c fs (Live c ch) K (s_disk s) own ch (fun _ => 0) None.
Proof.
  split; [apply (rp_dsk _ _ _ _ _ RP)| |].
  - split; [apply rep_hash| | |].
    + intros h i k x Hx. left. eapply rep_rec; eauto.
    + intros h i a es Hh Hi. left. destruct (rep_bin h i a es Hh Hi). destruct WF as (_ & _ & W3 & _). lia.
    + intros h Hh. pose proof (rep_len h Hh). lia.
  - split.
    + intros; discriminate.
    + intros h i k e i' k' e' Hh H1 H2 V1 V2 EK _. eapply (rp_uniq _ _ _ _ _ RP); eauto.
    + intros p ct _ HL. exact HL.
Qed.
Lemma rep_good K : GI c fs (Live c ch) K (s_disk s, s_dhdr s).
Proof. eapply Ctx_GI; [apply rep_ctx|]. rewrite (rp_hdr _ _ _ _ _ RP). apply Z.le_refl. Qed.

(** A name is looked up in one chain only. *)
Lemma entry_chain p h hash h' i k e : zhash (c_detune c) (c_maxHash c) p = Ok (h, hash) -> 0 <= h' < c_maxHash c ->
  entry_at ch (h', i, k) = Some e -> key (e_path e) = key p -> h' = h.
Proof.
  intros HP Hh HE HK. pose proof (Dsk_eok _ _ _ _ _ _ _ _ _ _ (rp_dsk _ _ _ _ _ RP) Hh HE) as (_ & Q & _).
  rewrite (zhash_key _ _ _ _ HK), HP in Q. inversion Q; reflexivity.
Qed.
Lemma live_fun p ct ct' : Live c ch p ct -> Live c ch p ct' -> ct = ct'.
Proof.
  intros (h & i & k & e & Hh & HE & HV & HK & <-) (h' & i' & k' & e' & Hh' & HE' & HV' & HK' & <-).
  destruct (zhash_ok c p WF) as (t & hs & HZ & HT & _).
  rewrite (entry_chain p t hs h i k e) in * by assumption. rewrite (entry_chain p t hs h' i' k' e') in * by assumption.
  destruct (rp_uniq _ _ _ _ _ RP t i k e i' k' e' HT HE HE' HV HV') as [-> ->]; [congruence|]. congruence.
Qed.
End REP.

(** ** Content of a write request *)
Definition content_of (x : xfer) : content :=
  mkcontent (x_type x) (x_ih x) (x_h2 x) (x_uh x) (x_v1 x) (x_v2 x) (x_v3 x)
    (if x_num x <? 0 then 0 else x_num x)
    (if 0 <? x_logical x then x_logical x else if x_num x <? 0 then 0 else x_num x).
Definition sections (x : xfer) : list (list Z) := [x_ih x; x_h2 x; x_uh x; x_v1 x; x_v2 x; x_v3 x].
Definition request_ok (x : xfer) : Prop :=
  zlen (x_path x) <= 392 /\ is_bytes (x_path x) /\ in32 (x_type x) /\
  Forall (fun l => int32s l /\ zlen l <= 10000000) (sections x).

Lemma lws_sections x : lws (sections x) = lw (x_ih x) + lw (x_h2 x) + lw (x_uh x) + lw (x_v1 x) + lw (x_v2 x) + lw (x_v3 x).
Proof. unfold sections. cbn [lws]. lia. Qed.

(** Info block laid out by [lay_info]. *)
Lemma lay_info_spec f a x alloc g cap : request_ok x ->
  (forall k, In k [13; 14; 15; 16; 17; 18; 19; 20; 21; 22; 23; 24; 25; 26; 27] -> g k = lay_info f a x alloc k) ->
  lws (sections x) <= cap -> 2 * (lw (x_ih x) + lw (x_h2 x) + lw (x_uh x)) + alloc <= 2 * cap ->
  g 13 = a /\ lay_ok g cap /\
  forall d, secs_ok d a (sections x) -> fst (i8toi4 false (g 4)) = x_type x -> rec_content d g = content_of x.
Proof.
  intros (R1 & R2 & R3 & R4) HG HC HA. unfold sections in R4.
  inversion R4 as [|? ? [_ B1] R5]. inversion R5 as [|? ? [_ B2] R6]. inversion R6 as [|? ? [_ B3] R7].
  inversion R7 as [|? ? [_ B4] R8]. inversion R8 as [|? ? [_ B5] R9]. inversion R9 as [|? ? [_ B6] _]. subst.
  rewrite lws_sections in HC.
  assert (E13 : g 13 = a) by (rewrite HG by (cbn; tauto); reflexivity).
  assert (E14 : g 14 = zlen (x_ih x)) by (rewrite HG by (cbn; tauto); reflexivity).
  assert (E15 : g 15 = a + lw (x_ih x)) by (rewrite HG by (cbn; tauto); reflexivity).
  assert (E16 : g 16 = zlen (x_h2 x)) by (rewrite HG by (cbn; tauto); reflexivity).
  assert (E17 : g 17 = a + lw (x_ih x) + lw (x_h2 x)) by (rewrite HG by (cbn; tauto); reflexivity).
  assert (E18 : g 18 = zlen (x_uh x)) by (rewrite HG by (cbn; tauto); reflexivity).
  assert (E19 : g 19 = a + lw (x_ih x) + lw (x_h2 x) + lw (x_uh x)) by (rewrite HG by (cbn; tauto); reflexivity).
  assert (E20 : g 20 = zlen (x_v1 x)) by (rewrite HG by (cbn; tauto); reflexivity).
  assert (E21 : g 21 = a + lw (x_ih x) + lw (x_h2 x) + lw (x_uh x) + lw (x_v1 x)) by (rewrite HG by (cbn; tauto); reflexivity).
  assert (E22 : g 22 = zlen (x_v2 x)) by (rewrite HG by (cbn; tauto); reflexivity).
  assert (E23 : g 23 = a + lw (x_ih x) + lw (x_h2 x) + lw (x_uh x) + lw (x_v1 x) + lw (x_v2 x)) by (rewrite HG by (cbn; tauto); reflexivity).
  assert (E24 : g 24 = zlen (x_v3 x)) by (rewrite HG by (cbn; tauto); reflexivity).
  assert (E25 : g 25 = alloc) by (rewrite HG by (cbn; tauto); reflexivity).
  assert (E26 : g 26 = if x_num x <? 0 then 0 else x_num x) by (rewrite HG by (cbn; tauto); reflexivity).
  assert (E27 : g 27 = if 0 <? x_logical x then x_logical x else if x_num x <? 0 then 0 else x_num x) by (rewrite HG by (cbn; tauto); reflexivity).
  split; [exact E13|]. split.
  - unfold lay_ok. rewrite E13, E14, E15, E16, E17, E18, E19, E20, E21, E22, E23, E24, E25.
    pose proof (zlen_nonneg (x_ih x)). pose proof (zlen_nonneg (x_h2 x)). pose proof (zlen_nonneg (x_uh x)).
    pose proof (zlen_nonneg (x_v1 x)). pose proof (zlen_nonneg (x_v2 x)). pose proof (zlen_nonneg (x_v3 x)).
    unfold cnt_ok. unfold lw in *. repeat split; lia.
  - intros d HS HT. unfold rec_content, content_of. rewrite E13, E14, E15, E16, E17, E18, E19, E20, E21, E22, E23, E24, E26, E27, HT.
    unfold sections in HS. cbn [secs_ok] in HS. unfold sec_ok in HS. rewrite <- !Z.add_assoc in *.
    destruct HS as (S1 & S2 & S3 & S4 & S5 & S6 & _). rewrite <- ?Z.add_assoc in *. congruence.
Qed.
