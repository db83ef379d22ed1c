(** * Lookup and reading on a well-formed file. *)
From Coq Require Import ZArith List Lia Bool Arith.
From Verif Require Import Base PackModel PackProps HashModel FileModel FileLemmas FileScan FileInv FileDir.
Import ListNotations.
Open Scope Z_scope.

(** ** The hash is defined and in range *)
Lemma hash_char_nonneg c : 0 <= hash_char c.
Proof.
  unfold hash_char, toupper. destruct ((c <? 32) || (127 <? c)) eqn:E; [lia|].
  apply orb_false_elim in E. destruct E. bz. destruct ((97 <=? c) && (c <=? 122)) eqn:E2; bz; lia.
Qed.
Lemma hash_moves_nonneg ibit : forall fuel i2 ineed ihave it, 0 <= i2 -> 0 <= it ->
  let '(i2', _, it') := hash_moves fuel ibit i2 ineed ihave it in 0 <= i2' /\ 0 <= it'.
Proof.
  induction fuel as [|f IH]; intros i2 ineed ihave it H1 H2; cbn [hash_moves]; [auto|].
  destruct (0 <? ihave); [|auto].
  set (im := if ihave <? ineed then ihave else ineed).
  assert (HS : 0 <= Z.shiftl i2 im) by (apply Z.shiftl_nonneg; exact H1).
  destruct (ineed - im <=? 0).
  - apply IH.
    + apply Z.rem_nonneg; lia.
    + apply Z.lxor_nonneg. split; intros _; [|exact H2]. apply Z.quot_pos; lia.
  - apply IH; assumption.
Qed.
Lemma hash_bytes_nonneg ibit : forall l i2 ineed it, Forall (fun c => 0 <= c) l -> 0 <= i2 -> 0 <= it ->
  0 <= hash_bytes l ibit i2 ineed it.
Proof.
  induction l as [|c t IH]; intros i2 ineed it HL H1 H2; cbn [hash_bytes]; [assumption|].
  inversion_clear HL as [|? ? Hc Ht].
  pose proof (hash_moves_nonneg ibit 9 (i2 + c) ineed 8 it ltac:(lia) H2) as HM.
  destruct (hash_moves 9 ibit (i2 + c) ineed 8 it) as [[i2' n'] it']. apply IH; tauto.
Qed.
Lemma firstn_Forall {A} (P : A -> Prop) n l : Forall P l -> Forall P (firstn n l).
Proof. intros H. rewrite <- (firstn_skipn n l) in H. apply Forall_app in H. apply H. Qed.
Lemma table_hash_range m p : 2 <= m -> exists t, table_hash m p = Ok t /\ 0 <= t < m.
Proof.
  intros H. unfold table_hash. assert (B : 1 <= hash_bits m).
  { unfold hash_bits. pose proof (Z.log2_up_le_mono 2 m H) as Q. change (Z.log2_up 2) with 1 in Q. exact Q. }
  rewrite eqb_f by lia. eexists. split; [reflexivity|].
  match goal with |- _ <= Z.rem ?a _ < _ => assert (Q : 0 <= a) end.
  { apply hash_bytes_nonneg; [|lia|lia]. apply firstn_Forall, Forall_app. split.
    - apply Forall_forall. intros x Hx. apply in_map_iff in Hx. destruct Hx as (y & <- & _). apply hash_char_nonneg.
    - apply Forall_forall. intros x Hx. apply repeat_spec in Hx. lia. }
  pose proof (Z.rem_bound_pos _ m Q ltac:(lia)). lia.
Qed.
Lemma zhash_ok c p : wf_cfg c -> exists t h, zhash (c_detune c) (c_maxHash c) p = Ok (t, h) /\ 0 <= t < c_maxHash c /\ h <> 0.
Proof.
  intros (W1 & W2 & _). unfold zhash. destruct (table_hash_range (c_maxHash c) p W1) as (t & -> & Ht). cbn [bind].
  destruct (c_detune c); [specialize (W2 eq_refl); exists 3, 1234; repeat split; lia|].
  exists t, (path_hash p). repeat split; try lia. unfold path_hash.
  destruct (hash31 0 (map hash_char p) =? 0) eqn:E; bz; lia.
Qed.

(** ** Positions *)
Definition pos_lt (i k i' k' : nat) : Prop := (i < i')%nat \/ (i = i' /\ (k < k')%nat).

Lemma pickc_first f : forall l i k a es e, nth_error l i = Some (a, es) -> nth_error es k = Some e -> f e = true ->
  (forall i' k' a' es' e', pos_lt i' k' i k -> nth_error l i' = Some (a', es') -> nth_error es' k' = Some e' -> f e' = false) ->
  pickc f l = Some (a, zlen (encs (firstn k es)), e).
Proof.
  induction l as [|[a0 es0] t IH]; intros i k a es e Hi Hk Hf HB; [destruct i; discriminate|]. cbn [pickc].
  destruct i as [|i]; cbn [nth_error] in Hi.
  - inversion Hi; subst a0 es0.
    assert (HP : forall l1 off l2, (forall k' e', nth_error l1 k' = Some e' -> f e' = false) ->
                 pick f off (l1 ++ e :: l2) = Some (off + zlen (encs l1), e)).
    { clear -Hf. induction l1 as [|x t1 IH1]; intros off l2 HB1; cbn [app pick].
      - rewrite Hf. unfold zlen. cbn. do 2 f_equal. lia.
      - rewrite (HB1 0%nat x eq_refl). rewrite IH1 by (intros k' e' He; exact (HB1 (S k') e' He)).
        rewrite encs_cons, zlen_app. do 2 f_equal. lia. }
    pose proof (nth_error_split es k Hk) as (l1 & l2 & E & L). subst es k.
    rewrite firstn_app, Nat.sub_diag, firstn_all. cbn [firstn]. rewrite app_nil_r.
    rewrite HP; [reflexivity|]. intros k' e' He.
    assert (K : (k' < length l1)%nat) by (eapply nth_error_lt; eauto).
    apply (HB 0%nat k' a (l1 ++ e :: l2) e'); [right; lia|reflexivity|]. rewrite nth_error_app1 by lia. assumption.
  - destruct (pick f 0 es0) as [[o e0]|] eqn:E.
    + apply pick_spec in E. destruct E as (k0 & K1 & _ & K3 & _).
      rewrite (HB 0%nat k0 a0 es0 e0) in K3; [discriminate|left; lia|reflexivity|assumption].
    + apply (IH i); auto. intros i' k' a' es' e' HL H1 H2. apply (HB (S i') k' a' es' e'); auto.
      destruct HL as [HL|[-> HL]]; [left; lia|right; lia].
Qed.

(** ** Matching entries *)
Lemma e_path_length e : shape e -> length (e_path e) = Z.to_nat (e_len e).
Proof.
  intros (_ & H & L). unfold e_path. rewrite firstn_length, bytes_of_words_length.
  pose proof (nlib_bounds (e_len e)). unfold zlen in L. lia.
Qed.
Lemma key_app_inj p q : key p = key q -> length p = length q.
Proof. intros H. rewrite <- (key_length p), H. apply key_length. Qed.

Lemma hitb_iff c h path hash e : eok c h e -> zlen path <= 392 ->
  zhash (c_detune c) (c_maxHash c) path = Ok (h, hash) ->
  hitb path hash (zlen path) e = true <-> key (e_path e) = key path.
Proof.
  intros (SH & HH & _) HL HP. unfold hitb. pose proof (e_path_length e SH) as EL. destruct SH as (_ & SL & SW).
  pose proof (nlib_bounds (e_len e)) as NB. unfold zlen in *. rewrite Nat2Z.id.
  assert (BL : length (bytes_of_words (e_words e)) = (8 * length (e_words e))%nat) by apply bytes_of_words_length.
  split.
  - intros H. bz. rewrite string_compare_spec in H0 by lia. rewrite firstn_all in H0.
    unfold e_path. rewrite H1. rewrite Nat2Z.id. symmetry. assumption.
  - intros H. pose proof (key_app_inj _ _ H) as L.
    assert (E : e_hash e = hash) by (rewrite (zhash_key _ _ _ _ H), HP in HH; inversion HH; reflexivity).
    rewrite E, Z.eqb_refl. rewrite eqb_t by lia. cbn [andb]. rewrite string_compare_spec by lia. rewrite firstn_all.
    unfold e_path in H. replace (Z.to_nat (e_len e)) with (length path) in H by lia. symmetry. assumption.
Qed.

(** Status filter of a lookup: 0, 1 (valid records) or 11 (deleted records). *)
Definition sel (wanted : Z) (e : entry) : Prop := if wanted =? 11 then e_status e = 11 else live e.
Lemma stok_iff wanted e : wanted = 0 \/ wanted = 1 \/ wanted = 11 -> storing e \/ e_status e = 12 ->
  stok wanted e = true <-> sel wanted e.
Proof.
  unfold sel, live. intros HW HE.
  destruct HE as [[H|[H|H]]|H]; unfold stok, zcompareRecordStatus; rewrite H; destruct HW as [->|[->| ->]]; cbn;
    split; intros Q; try reflexivity; try discriminate; try lia; tauto.
Qed.
Lemma matchb_iff c h path hash wanted e : eok c h e -> zlen path <= 392 -> wanted = 0 \/ wanted = 1 \/ wanted = 11 ->
  zhash (c_detune c) (c_maxHash c) path = Ok (h, hash) ->
  matchb path wanted hash (zlen path) e = true <-> key (e_path e) = key path /\ sel wanted e.
Proof.
  intros HE HL HW HP. unfold matchb. rewrite andb_true_iff, (hitb_iff c h) by assumption.
  rewrite stok_iff; [tauto|assumption|apply HE].
Qed.

(** ** zcheckInternal *)
(** Parameters of the lookup left in ifltab. *)
Definition looked (c : cfg) (path : list Z) (h hash : Z) (i i' : ifl) : Prop :=
  i_hash i' = hash /\ i_len i' = zlen path /\ i_addTable i' = h + c_hashStart c /\
  i_firstDate i' = i_firstDate i /\ i_lastDate i' = i_lastDate i /\
  forall k, k <> 0 -> i_info i' k = i_info i k.

Definition start_ifl (c : cfg) (path : list Z) (h hash hb : Z) (i : ifl) : ifl :=
  set_hashBin hb (mkifl hash (h + c_hashStart c) (zlen path) (i_hashBin i) 0 0 0
                   (i_pathBinAdd i) (i_status i) (i_pathLen i) (i_infoAddInBin i) (i_typeCat i) (i_lastWrite i)
                   (i_dates i) (i_firstDate i) (i_lastDate i) (i_bin i)
                   (fun k => if k =? 0 then 0 else i_info i k)).

Lemma zcheckInternal_eq c path wanted h hash s : zlen path <= 392 ->
  zhash (c_detune c) (c_maxHash c) path = Ok (h, hash) -> 0 <= h + c_hashStart c <= h_fileSize (s_hdr s) + 100000 ->
  let hb := s_disk s (h + c_hashStart c) in
  zcheckInternal c path wanted s =
    let s0 := mkst (s_disk s) (s_dhdr s) (s_log s) (s_hdr s) (start_ifl c path h hash hb (s_ifl s)) in
    if hb =? 0 then OK false s0 else chase (S (Z.to_nat (h_fileSize (s_hdr s)))) c path wanted hb s0.
Proof.
  intros HL HP HA hb. unfold zcheckInternal, path_len. unfold zlen in *. rewrite Z.min_l by lia.
  rewrite Nat2Z.id, firstn_all, HP. cbn [liftR]. unfold bindM, ret, modI, getI, setI, getH, zgetw. cbn [fst snd s_hdr s_ifl s_disk s_log s_dhdr].
  unfold bindM. cbn [s_hdr s_ifl s_disk s_log s_dhdr].
  rewrite (ltb_f _ 0) by lia. rewrite ltb_f by lia. cbn [orb]. change (10000000 <? 2 * 1) with false. cbv iota.
  change (words (s_disk s) (h + c_hashStart c) 1) with [s_disk s (h + c_hashStart c + 0)]. rewrite Z.add_0_r. fold hb. cbn [nth s_hdr s_ifl s_disk s_log s_dhdr].
  fold (start_ifl c path h hash hb (s_ifl s)). destruct (hb =? 0); reflexivity.
Qed.

Lemma Dsk_bin_ok c d own ch dang ex h n fs z :
  Dsk c d own ch dang ex -> 0 <= h < c_maxHash c ->
  (forall i a es, (i < n)%nat -> nth_error (ch h) i = Some (a, es) -> a <= fs + 100000) ->
  z = head_addr (dang h) (skipn n (ch h)) -> (n <= length (ch h))%nat ->
  bin_ok (c_binSize c) fs z d (firstn n (ch h)).
Proof.
  intros [DH DB DR] Hh HA HZ Hn i a es Hi.
  assert (LI : (i < n)%nat) by (apply nth_error_lt in Hi; rewrite firstn_length in Hi; lia).
  assert (Hi' : nth_error (ch h) i = Some (a, es)).
  { rewrite <- (firstn_skipn n (ch h)). rewrite nth_error_app1; [assumption|]. rewrite firstn_length. lia. }
  destruct (DB h i a es Hh Hi') as (B1 & B2 & B3 & B4 & B5).
  split; [split; [lia|apply (HA i a es LI Hi')]|]. split; [|split; [assumption|]].
  - rewrite B3. f_equal. rewrite !next_addr_nth, HZ, head_addr_nth.
    rewrite <- (firstn_skipn n (ch h)) at 1. rewrite map_app.
    destruct (Nat.eq_dec (S i) n) as [E|E].
    + rewrite app_nth2 by (rewrite maplen, firstn_length; lia).
      rewrite (nth_overflow (map fst (firstn n (ch h)))) by (rewrite maplen, firstn_length; lia).
      rewrite maplen, firstn_length. replace (S i - Nat.min n (length (ch h)))%nat with 0%nat by lia. reflexivity.
    + rewrite app_nth1 by (rewrite maplen, firstn_length; lia). apply nth_indep. rewrite maplen, firstn_length. lia.
  - eapply Forall_impl; [|exact B5]. intros e He. apply He.
Qed.

Lemma zcheck_found c d own ch dang ex h hash path wanted i k a es e s :
  wf_cfg c -> Dsk c d own ch dang ex -> s_disk s = d -> zlen path <= 392 ->
  zhash (c_detune c) (c_maxHash c) path = Ok (h, hash) -> 0 <= h < c_maxHash c ->
  wanted = 0 \/ wanted = 1 \/ wanted = 11 ->
  nth_error (ch h) i = Some (a, es) -> nth_error es k = Some e -> key (e_path e) = key path -> sel wanted e ->
  (forall i' k' e', pos_lt i' k' i k -> entry_at ch (h, i', k') = Some e' -> key (e_path e') = key path -> ~ sel wanted e') ->
  c_hashStart c + h <= h_fileSize (s_hdr s) + 100000 ->
  (forall i' a' es', (i' <= i)%nat -> nth_error (ch h) i' = Some (a', es') -> a' <= h_fileSize (s_hdr s) + 100000) ->
  Z.of_nat i <= h_fileSize (s_hdr s) ->
  exists s', zcheckInternal c path wanted s = OK true s' /\ same_file s s' /\ looked c path h hash (s_ifl s) (s_ifl s') /\
    i_hashBin (s_ifl s') = head_addr (dang h) (ch h) /\
    i_binCur (s_ifl s') = a /\ found_at a (s_ifl s') (zlen (encs (firstn k es))) e.
Proof.
  intros WF DK ED HL HP Hh HW Hi Hk HK HS HF HA HB HI.
  pose proof WF as (W1 & W2 & W3 & W4 & W5).
  destruct (dk_hash _ _ _ _ _ _ DK h Hh) as [_ HD].
  rewrite (zcheckInternal_eq c path wanted h hash s) by (assumption || lia). rewrite ED. rewrite (Z.add_comm h), HD. cbv zeta.
  set (n := S i).
  assert (Hn : (n <= length (ch h))%nat) by (apply nth_error_lt in Hi; unfold n; lia).
  assert (Hi2 : nth_error (firstn n (ch h)) i = Some (a, es)).
  { rewrite <- (firstn_skipn n (ch h)) in Hi. rewrite nth_error_app1 in Hi; [assumption|]. rewrite firstn_length. unfold n. lia. }
  pose proof (Dsk_bin_ok c d own ch dang ex h n (h_fileSize (s_hdr s)) _ DK Hh ltac:(intros i' a' es' L1 L2; apply (HB i' a' es'); [unfold n in L1; lia|assumption]) eq_refl Hn) as BK.
  assert (HH : head_addr (dang h) (ch h) = head_addr 0 (firstn n (ch h))).
  { unfold n. destruct (ch h) as [|[a0 es0] t]; [destruct i; discriminate|reflexivity]. }
  assert (LF : length (firstn n (ch h)) = n) by (rewrite firstn_length; lia).
  destruct (firstn n (ch h)) as [|[a0 es0] t] eqn:EF; [discriminate|]. rewrite HH. cbn [head_addr].
  assert (Ha0 : 0 < a0) by apply (BK 0%nat a0 es0 eq_refl). rewrite eqb_f by lia.
  set (s0 := mkst _ _ _ _ _).
  assert (EOK : forall i' a' es' e', nth_error (ch h) i' = Some (a', es') -> In e' es' -> eok c h e').
  { intros i' a' es' e' E1 E2. destruct (dk_bin _ _ _ _ _ _ DK h i' a' es' Hh E1) as (_ & _ & _ & _ & F).
    rewrite Forall_forall in F. apply F, E2. }
  pose proof (chase_spec c path wanted (head_addr (dang h) (skipn n (ch h))) t (S (Z.to_nat (h_fileSize (s_hdr s)))) a0 es0 s0 W3) as CS.
  change (s_hdr s0) with (s_hdr s) in CS. change (s_disk s0) with d in CS.
  change (i_hash (s_ifl s0)) with hash in CS. change (i_len (s_ifl s0)) with (zlen path) in CS.
  specialize (CS BK ltac:(split; [apply zlen_nonneg|assumption]) ltac:(cbn [length] in LF; unfold n in LF; lia)).
  rewrite (pickc_first _ ((a0, es0) :: t) i k a es e) in CS; [| assumption|assumption| |].
  - destruct CS as (s' & E1 & SF & SW & BC & FA). exists s'. split; [exact E1|].
    split; [eapply same_file_trans; [|exact SF]; unfold same_file; cbn; auto|].
    destruct SW as (w1 & w2 & w3 & w4 & w5 & w6 & w7).
    split; [|split; [rewrite w4; reflexivity|tauto]]. unfold looked. rewrite w1, w2, w3, w5, w6, w7.
    repeat split; try reflexivity. intros j Hj. cbn. rewrite eqb_f by assumption. reflexivity.
  - apply (matchb_iff c h); try assumption; [eapply EOK; [exact Hi|eapply nth_error_In; eauto]|tauto].
  - intros i' k' a' es' e' L1 L2 L3.
    assert (L2' : nth_error (ch h) i' = Some (a', es')).
    { rewrite <- (firstn_skipn n (ch h)), EF. rewrite nth_error_app1; [assumption|]. apply nth_error_lt in L2. assumption. }
    assert (EE : entry_at ch (h, i', k') = Some e') by (unfold entry_at; rewrite L2'; assumption).
    destruct (matchb path wanted hash (zlen path) e') eqn:EM; [|reflexivity]. exfalso.
    apply (matchb_iff c h) in EM; try assumption; [|eapply EOK; [exact L2'|eapply nth_error_In; eauto]].
    apply (HF i' k' e' L1 EE); tauto.
Qed.

Lemma roomc_skip len z : forall l, roomc len l = z -> z <> 0 ->
  exists i es, nth_error l i = Some (z, es) /\ existsb (roomb len) es = true /\
    forall i' a' es', (i' < i)%nat -> nth_error l i' = Some (a', es') -> existsb (roomb len) es' = false.
Proof.
  induction l as [|[a es] t IH]; intros H HZ; cbn [roomc] in H; [congruence|].
  destruct (existsb (roomb len) es) eqn:E.
  - subst. exists 0%nat, es. repeat split; auto. intros; lia.
  - destruct (IH H HZ) as (i & es' & H1 & H2 & H3). exists (S i), es'. repeat split; auto.
    intros [|i'] a' es1 Hi Hn; cbn [nth_error] in Hn; [inversion Hn; subst; assumption|eapply H3; eauto; lia].
Qed.
Lemma roomc_zero len : forall l, (forall a es, In (a, es) l -> a <> 0) -> roomc len l = 0 ->
  forall a es, In (a, es) l -> existsb (roomb len) es = false.
Proof.
  induction l as [|[a es] t IH]; intros HN H a' es' Hin; [destruct Hin|]. cbn [roomc] in H.
  destruct (existsb (roomb len) es) eqn:E.
  - exfalso. apply (HN a es); [left; reflexivity|assumption].
  - destruct Hin as [Q|Q]; [inversion Q; subst; assumption|]. eapply IH; eauto. intros; eapply HN; right; eauto.
Qed.

Lemma zcheck_none c d own ch dang ex h hash path wanted s :
  wf_cfg c -> Dsk c d own ch dang ex -> s_disk s = d -> zlen path <= 392 ->
  zhash (c_detune c) (c_maxHash c) path = Ok (h, hash) -> 0 <= h < c_maxHash c ->
  wanted = 0 \/ wanted = 1 \/ wanted = 11 -> dang h = 0 ->
  (forall i k e, entry_at ch (h, i, k) = Some e -> key (e_path e) = key path -> ~ sel wanted e) ->
  c_hashStart c + h <= h_fileSize (s_hdr s) + 100000 ->
  (forall i a es, nth_error (ch h) i = Some (a, es) -> a <= h_fileSize (s_hdr s) + 100000) ->
  Z.of_nat (length (ch h)) <= h_fileSize (s_hdr s) ->
  exists s', zcheckInternal c path wanted s = OK false s' /\ same_file s s' /\ looked c path h hash (s_ifl s) (s_ifl s') /\
    i_hashBin (s_ifl s') = head_addr 0 (ch h) /\ i_withSpace (s_ifl s') = roomc (zlen path) (ch h) /\
    match ch h with
    | [] => True
    | b :: t => i_binCur (s_ifl s') = fst (last_b t b) /\
                i_bin (s_ifl s') = bin_words (c_binSize c) (snd (last_b t b)) 0
    end.
Proof.
  intros WF DK ED HL HP Hh HW HG HF HA HB HI.
  pose proof WF as (W1 & W2 & W3 & W4 & W5).
  destruct (dk_hash _ _ _ _ _ _ DK h Hh) as [_ HD].
  rewrite (zcheckInternal_eq c path wanted h hash s) by (assumption || lia). rewrite ED. rewrite (Z.add_comm h), HD, HG. cbv zeta.
  pose proof (Dsk_bin_ok c d own ch dang ex h (length (ch h)) (h_fileSize (s_hdr s)) 0 DK Hh ltac:(intros i' a' es' L1 L2; apply (HB i' a' es' L2)) ltac:(rewrite skipn_all; symmetry; exact HG) ltac:(lia)) as BK.
  rewrite firstn_all in BK.
  assert (EOK : forall i' a' es' e', nth_error (ch h) i' = Some (a', es') -> In e' es' -> eok c h e').
  { intros i' a' es' e' E1 E2. destruct (dk_bin _ _ _ _ _ _ DK h i' a' es' Hh E1) as (_ & _ & _ & _ & F).
    rewrite Forall_forall in F. apply F, E2. }
  destruct (ch h) as [|[a0 es0] t] eqn:EC; cbn [head_addr].
  - rewrite Z.eqb_refl. eexists. split; [reflexivity|]. split; [unfold same_file; cbn; auto|]. cbn [s_ifl].
    split; [|split; [reflexivity|split; [reflexivity|exact I]]]. unfold looked. cbn.
    repeat split; try reflexivity. intros j Hj. rewrite eqb_f by assumption. reflexivity.
  - assert (Ha0 : 0 < a0) by apply (BK 0%nat a0 es0 eq_refl). rewrite eqb_f by lia.
    set (s0 := mkst _ _ _ _ _).
    pose proof (chase_spec c path wanted 0 t (S (Z.to_nat (h_fileSize (s_hdr s)))) a0 es0 s0 W3) as CS.
    change (s_hdr s0) with (s_hdr s) in CS. change (s_disk s0) with d in CS.
    change (i_hash (s_ifl s0)) with hash in CS. change (i_len (s_ifl s0)) with (zlen path) in CS.
    specialize (CS BK ltac:(split; [apply zlen_nonneg|assumption]) ltac:(cbn [length] in HI; lia)).
    assert (PN : pickc (matchb path wanted hash (zlen path)) ((a0, es0) :: t) = None).
    { apply pickc_none. intros a' es' e' I1 I2. apply In_nth_error in I1. destruct I1 as [i' I1].
      destruct (matchb path wanted hash (zlen path) e') eqn:EM; [|reflexivity]. exfalso.
      apply (matchb_iff c h) in EM; try assumption; [|eapply EOK; eauto].
      apply In_nth_error in I2. destruct I2 as [k' I2]. apply (HF i' k' e'); [|tauto|tauto].
      unfold entry_at. rewrite EC, I1. assumption. }
    rewrite PN in CS. destruct (CS eq_refl) as (s' & E1 & SF & SW & BC & BN & WS). exists s'. split; [exact E1|].
    split; [eapply same_file_trans; [|exact SF]; unfold same_file; cbn; auto|].
    destruct SW as (w1 & w2 & w3 & w4 & w5 & w6 & w7).
    split; [|split; [rewrite w4; reflexivity|split; [rewrite WS; reflexivity|auto]]].
    unfold looked. rewrite w1, w2, w3, w5, w6, w7. repeat split; try reflexivity.
    intros j Hj. cbn. rewrite eqb_f by assumption. reflexivity.
Qed.
