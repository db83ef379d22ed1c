(** * Context kept by every step of an operation; allocation of file space and of bins. *)
From Coq Require Import ZArith List Lia Bool Arith.
From Verif Require Import Base PackModel PackProps HashModel FileModel FileLemmas FileScan FileInv FileDir FileLook FileRead.
Import ListNotations.
Open Scope Z_scope.

(** ** Context *)
(** [fs0]: end of file at the start of the operation.  Everything but the record being changed lies below it. *)
Record Lim (c : cfg) (fs0 : Z) (own : Z -> tag) (ch : chains) (ex : option pos) : Prop := {
  lm_hash : c_hashStart c + c_maxHash c <= fs0;
  lm_rec : forall h i k x, own x = TRec h i k -> x < fs0 \/ ex = Some (h, i, k);
  lm_bin : forall h i a es, 0 <= h < c_maxHash c -> nth_error (ch h) i = Some (a, es) ->
    a < fs0 \/ (S i = length (ch h) /\ forall k e, nth_error es k = Some e -> ex = Some (h, i, k));
  lm_len : forall h, 0 <= h < c_maxHash c -> Z.of_nat (length (ch h)) <= fs0 + 1 }.

(** [L0 path content]: the records of the file when the operation starts; [K]: keys the operation may change. *)
Record Keep (c : cfg) (L0 : list Z -> content -> Prop) (K : list Z -> Prop) (ch : chains) (ex : option pos) : Prop := {
  kp_ex : forall h i k e, 0 <= h < c_maxHash c -> entry_at ch (h, i, k) = Some e -> live e -> ~ K (key (e_path e)) ->
    ex <> Some (h, i, k);
  kp_uniq : forall h i k e i' k' e', 0 <= h < c_maxHash c ->
    entry_at ch (h, i, k) = Some e -> entry_at ch (h, i', k') = Some e' -> live e -> live e' ->
    key (e_path e) = key (e_path e') -> ~ K (key (e_path e)) -> i = i' /\ k = k';
  kp_L0 : forall p ct, ~ K (key p) -> L0 p ct ->
    exists h i k e, 0 <= h < c_maxHash c /\ entry_at ch (h, i, k) = Some e /\ live e /\ key (e_path e) = key p /\ e_ct e = ct }.

Record Ctx (c : cfg) (fs0 : Z) (L0 : list Z -> content -> Prop) (K : list Z -> Prop)
    (d : Z -> Z) (own : Z -> tag) (ch : chains) (dang : Z -> Z) (ex : option pos) : Prop := {
  cx_dsk : Dsk c d own ch dang ex;
  cx_lim : Lim c fs0 own ch ex;
  cx_keep : Keep c L0 K ch ex }.

(** A file image from which every record outside [K] can be read. *)
Definition GI (c : cfg) (fs0 : Z) (L0 : list Z -> content -> Prop) (K : list Z -> Prop) (im : image) : Prop :=
  fs0 <= h_fileSize (snd im) /\ exists own ch dang ex, Ctx c fs0 L0 K (fst im) own ch dang ex.

Lemma Ctx_GI c fs0 L0 K d dh own ch dang ex : Ctx c fs0 L0 K d own ch dang ex -> fs0 <= h_fileSize dh -> GI c fs0 L0 K (d, dh).
Proof. intros H1 H2. split; [exact H2|]. exists own, ch, dang, ex. exact H1. Qed.

Lemma GI_read c fs0 L0 K im s p ct : wf_cfg c -> GI c fs0 L0 K im -> s_disk s = fst im -> s_hdr s = snd im ->
  zlen p <= 392 -> ~ K (key p) -> L0 p ct ->
  exists s', zreadInternal c p s = OK (Some ct) s' /\ same_file s s'.
Proof.
  intros WF (HF & own & ch & dang & ex & [DK LM KP]) ED EH HL HK H0.
  destruct (kp_L0 _ _ _ _ _ KP p ct HK H0) as (h & i & k & e & Hh & HE & HV & EK & <-).
  pose proof (Dsk_eok _ _ _ _ _ _ _ _ _ _ DK Hh HE) as (SH & HZ & _).
  destruct (entry_at_bin _ _ _ _ _ HE) as (a & es & E1 & E2).
  assert (HX : ex <> Some (h, i, k)) by (apply (kp_ex _ _ _ _ _ KP h i k e Hh HE HV); rewrite EK; exact HK).
  rewrite <- EH in HF. pose proof WF as (W1 & W2 & W3 & W4 & W5).
  assert (AB : a < fs0).
  { destruct (lm_bin _ _ _ _ _ LM h i a es Hh E1) as [Q|[_ Q]]; [exact Q|]. exfalso. apply HX, (Q k e E2). }
  assert (LI : (i < length (ch h))%nat) by (eapply nth_error_lt; eauto).
  pose proof (lm_len _ _ _ _ _ LM h Hh) as LL. pose proof (lm_hash _ _ _ _ _ LM) as LH.
  apply (zread_found c (fst im) own ch dang ex h (e_hash e) p i k a es e s); try assumption; try lia.
  - rewrite <- (zhash_key _ _ _ _ EK). exact HZ.
  - intros i' k' e' HLT HE' EK' HV'.
    destruct (kp_uniq _ _ _ _ _ KP h i k e i' k' e' Hh HE HE' HV HV') as [-> ->]; [congruence|rewrite EK; exact HK|].
    unfold pos_lt in HLT. lia.
  - intros i' a' es' Hi' E'. destruct (Nat.eq_dec i' i) as [->|NE].
    + rewrite E1 in E'. inversion E'; subst. lia.
    + destruct (lm_bin _ _ _ _ _ LM h i' a' es' Hh E') as [Q|[Q _]]; lia.
  - intros x Hx. destruct (lm_rec _ _ _ _ _ LM h i k x Hx) as [Q|Q]; [lia|contradiction].
Qed.

Lemma Ctx_ext c fs0 L0 K d d' own own' ch dang ex : Ctx c fs0 L0 K d own ch dang ex ->
  (forall x, critical own ex x -> d' x = d x) -> (forall x, critical own ex x -> own' x = own x) ->
  (forall x h i k, own' x = TRec h i k -> own x = TRec h i k \/ ex = Some (h, i, k)) ->
  Ctx c fs0 L0 K d' own' ch dang ex.
Proof.
  intros [DK LM KP] HD HO HR. split; [eapply Dsk_ext; eauto| |exact KP].
  destruct LM. split; auto. intros h i k x Hx. destruct (HR x h i k Hx) as [Q|Q]; [eauto|right; exact Q].
Qed.
Lemma Ctx_disk c fs0 L0 K d d' own ch dang ex : Ctx c fs0 L0 K d own ch dang ex ->
  (forall x, critical own ex x -> d' x = d x) -> Ctx c fs0 L0 K d' own ch dang ex.
Proof. intros H1 H2. eapply Ctx_ext; eauto. Qed.
Lemma Ctx_dang_ext c fs0 L0 K d own ch dang dang' ex : Ctx c fs0 L0 K d own ch dang ex ->
  (forall h, dang' h = dang h) -> Ctx c fs0 L0 K d own ch dang' ex.
Proof.
  intros [[DH DB DR] LM KP] HE. split; [|exact LM|exact KP]. split; auto.
  - intros h Hh. rewrite HE. auto.
  - intros h i a es Hh Hi. rewrite HE. auto.
Qed.

(** ** Blocks of bins and free space *)
Record Alloc (c : cfg) (d : Z -> Z) (own : Z -> tag) (ch : chains) (hd : hdr) (blocks : list Z) : Prop := {
  al_fs : 100 <= h_fileSize hd;
  al_free : forall x, h_fileSize hd <= x -> own x = TFree;
  al_rem : 0 <= h_binsRemain hd <= c_bpb c;
  al_blk : exists bs b, blocks = bs ++ [b] /\ h_nextBin hd = b + (c_bpb c - h_binsRemain hd) * c_binSize c;
  al_first : nth 0 blocks 0 = c_firstBin c;
  al_cap : Z.of_nat (length blocks) * c_bpb c * c_binSize c <= h_fileSize hd;
  al_spare : forall x, h_nextBin hd <= x < h_nextBin hd + h_binsRemain hd * c_binSize c -> own x = TSpare /\ d x = 0;
  al_link : forall j b, nth_error blocks j = Some b ->
    100 <= b /\ own (b + c_bpb c * c_binSize c) = TLink /\ d (b + c_bpb c * c_binSize c) = nth (S j) blocks 0;
  al_len : forall h, 0 <= h < c_maxHash c ->
    Z.of_nat (length (ch h)) <= Z.of_nat (length blocks) * c_bpb c - h_binsRemain hd;
  al_used : forall j b m, nth_error blocks j = Some b -> 0 <= m < c_bpb c ->
    (S j < length blocks)%nat \/ m < c_bpb c - h_binsRemain hd ->
    exists h i es, 0 <= h < c_maxHash c /\ nth_error (ch h) i = Some (b + m * c_binSize c, es);
  al_slot : forall h i a es, 0 <= h < c_maxHash c -> nth_error (ch h) i = Some (a, es) ->
    exists j b m, nth_error blocks j = Some b /\ 0 <= m < c_bpb c /\
      ((S j < length blocks)%nat \/ m < c_bpb c - h_binsRemain hd) /\ a = b + m * c_binSize c;
  al_hash : c_hashStart c + c_maxHash c <= h_fileSize hd }.

(** Same allocation state. *)
Definition same_space (h h' : hdr) : Prop :=
  h_fileSize h' = h_fileSize h /\ h_binsRemain h' = h_binsRemain h /\ h_nextBin h' = h_nextBin h.

Lemma Alloc_ext c d d' own own' ch ch' hd hd' blocks : Alloc c d own ch hd blocks ->
  h_binsRemain hd' = h_binsRemain hd -> h_nextBin hd' = h_nextBin hd -> h_fileSize hd <= h_fileSize hd' ->
  (forall x, own x = TSpare \/ own x = TLink -> d' x = d x /\ own' x = own x) ->
  (forall x, h_fileSize hd' <= x -> own' x = TFree) ->
  (forall h, map fst (ch' h) = map fst (ch h)) ->
  Alloc c d' own' ch' hd' blocks.
Proof.
  intros [A1 A2 A3 A4 A5 A6 A7 A8 A9 A10 A11 A12] E1 E2 E3 HX HF HM.
  assert (LN : forall h, length (ch' h) = length (ch h)) by (intros h; rewrite <- !maplen, HM; reflexivity).
  assert (NM : forall h i a es, nth_error (ch' h) i = Some (a, es) -> exists es', nth_error (ch h) i = Some (a, es')).
  { intros h i a es Hn. apply (map_nth_error fst) in Hn. rewrite HM in Hn. cbn [fst] in Hn.
    destruct (nth_error (ch h) i) as [[a' es']|] eqn:E.
    - apply (map_nth_error fst) in E. cbn [fst] in E. rewrite E in Hn. inversion Hn; subst. eauto.
    - apply nth_error_None in E. rewrite (proj2 (nth_error_None _ _)) in Hn; [discriminate|]. rewrite maplen. exact E. }
  assert (NM' : forall h i a es, nth_error (ch h) i = Some (a, es) -> exists es', nth_error (ch' h) i = Some (a, es')).
  { intros h i a es Hn. apply (map_nth_error fst) in Hn. rewrite <- HM in Hn. cbn [fst] in Hn.
    destruct (nth_error (ch' h) i) as [[a' es']|] eqn:E.
    - apply (map_nth_error fst) in E. cbn [fst] in E. rewrite E in Hn. inversion Hn; subst. eauto.
    - apply nth_error_None in E. rewrite (proj2 (nth_error_None _ _)) in Hn; [discriminate|]. rewrite maplen. exact E. }
  split; rewrite ?E1, ?E2; auto; try lia.
  - intros x Hx. destruct (A7 x Hx) as [Q1 Q2]. destruct (HX x (or_introl Q1)) as [Q3 Q4]. split; congruence.
  - intros j b Hj. destruct (A8 j b Hj) as (Q0 & Q1 & Q2). destruct (HX _ (or_intror Q1)) as [Q3 Q4].
    split; [exact Q0|]. split; congruence.
  - intros h Hh. rewrite LN. auto.
  - intros j b m Hj Hm HU. destruct (A10 j b m Hj Hm HU) as (h & i & es & Hh & Hn).
    destruct (NM' _ _ _ _ Hn) as (es' & Hn'). eauto.
  - intros h i a es Hh Hn. destruct (NM _ _ _ _ Hn) as (es' & Hn'). eauto.
Qed.

Definition retag (own : Z -> tag) (a n : Z) (t : tag) : Z -> tag :=
  fun x => if (a <=? x) && (x <? a + n) then t else own x.
Lemma retag_in own a n t x : a <= x < a + n -> retag own a n t x = t.
Proof. intros H. unfold retag. rewrite leb_t, ltb_t by lia. reflexivity. Qed.
Lemma retag_out own a n t x : x < a \/ a + n <= x -> retag own a n t x = own x.
Proof.
  unfold retag. intros [H|H]; [rewrite leb_f by lia; reflexivity|].
  destruct (a <=? x); [|reflexivity]. rewrite ltb_f by lia. reflexivity.
Qed.

(** A bin taken from the current block. *)
Lemma Alloc_take c d d' own ch hd blocks h : wf_cfg c -> 0 <= h < c_maxHash c ->
  Alloc c d own ch hd blocks -> 0 < h_binsRemain hd ->
  (forall x, own x = TSpare \/ own x = TLink -> d' x = d x) ->
  let nb := h_nextBin hd in
  Alloc c d' (retag own nb (c_binSize c) (TBin h (length (ch h)))) (addb ch h (nb, []))
    (set_bins (h_binsRemain hd - 1) (nb + c_binSize c) hd) blocks.
Proof.
  intros (W1 & W2 & W3 & W4 & W5) Hh [A1 A2 A3 A4 A5 A6 A7 A8 A9 A10 A11 A12] HR HD nb.
  destruct A4 as (bs & b & EB & EN). fold nb in EN.
  assert (LB : nth_error blocks (length bs) = Some b) by (rewrite EB, nth_error_app2, Nat.sub_diag by lia; reflexivity).
  assert (LL : length blocks = S (length bs)) by (rewrite EB, app_length; cbn; lia).
  assert (SP : forall x, nb <= x < nb + c_binSize c -> own x = TSpare) by (intros x Hx; apply A7; fold nb; nia).
  assert (RF : forall x t, own x = t -> t <> TSpare -> retag own nb (c_binSize c) (TBin h (length (ch h))) x = t).
  { intros x t Hx Ht. rewrite retag_out; [exact Hx|].
    destruct (Z.lt_ge_cases x nb); [left; assumption|]. destruct (Z.lt_ge_cases x (nb + c_binSize c)); [|right; assumption].
    exfalso. apply Ht. rewrite <- Hx. apply SP. lia. }
  split; cbn [set_bins h_fileSize h_binsRemain h_nextBin]; auto; try lia.
  - intros x Hx. apply RF; [auto|discriminate].
  - exists bs, b. split; [exact EB|]. lia.
  - intros x Hx. rewrite retag_out by (right; lia). destruct (A7 x) as [Q1 Q2]; [fold nb; lia|].
    split; [exact Q1|]. rewrite HD by auto. exact Q2.
  - intros j b' Hj. destruct (A8 j b' Hj) as (Q0 & Q1 & Q2). split; [exact Q0|].
    split; [apply RF; [exact Q1|discriminate]|]. rewrite HD by auto. exact Q2.
  - intros h' Hh'. specialize (A9 h' Hh'). unfold addb. destruct (h' =? h) eqn:E; [|lia]. bz. subst h'.
    rewrite app_length. cbn [length]. lia.
  - intros j b' m Hj Hm HU.
    destruct (Nat.eq_dec (S j) (length blocks)) as [EJ|NJ].
    + assert (j = length bs) by lia. subst j. rewrite LB in Hj. inversion Hj; subst b'.
      destruct (Z.eq_dec m (c_bpb c - h_binsRemain hd)) as [->|NM].
      * exists h, (length (ch h)), []. split; [exact Hh|]. rewrite addb_at, Z.eqb_refl, Nat.eqb_refl. cbn [andb]. rewrite EN. reflexivity.
      * destruct (A10 (length bs) b m LB Hm ltac:(right; lia)) as (h1 & i1 & es1 & Hh1 & Hn).
        exists h1, i1, es1. split; [exact Hh1|]. rewrite addb_at.
        destruct ((h1 =? h) && (i1 =? length (ch h))%nat) eqn:E; [|exact Hn].
        apply andb_prop in E. destruct E as [E1 E2]. bz. apply Nat.eqb_eq in E2. subst.
        rewrite (proj2 (nth_error_None (ch h) (length (ch h)))) in Hn by lia. discriminate.
    + assert (LJ : (j < length blocks)%nat) by (eapply nth_error_lt; eauto).
      destruct (A10 j b' m Hj Hm ltac:(left; lia)) as (h1 & i1 & es1 & Hh1 & Hn).
      exists h1, i1, es1. split; [exact Hh1|]. rewrite addb_at.
      destruct ((h1 =? h) && (i1 =? length (ch h))%nat) eqn:E; [|exact Hn].
      apply andb_prop in E. destruct E as [E1 E2]. bz. apply Nat.eqb_eq in E2. subst.
      rewrite (proj2 (nth_error_None (ch h) (length (ch h)))) in Hn by lia. discriminate.
  - intros h1 i1 a es Hh1 Hn. rewrite addb_at in Hn.
    destruct ((h1 =? h) && (i1 =? length (ch h))%nat) eqn:E.
    + inversion Hn; subst a es. exists (length bs), b, (c_bpb c - h_binsRemain hd). split; [exact LB|]. split; [lia|]. split; [right; lia|exact EN].
    + destruct (A11 h1 i1 a es Hh1 Hn) as (j & b' & m & Q1 & Q2 & Q3 & Q4). exists j, b', m. split; [exact Q1|]. split; [exact Q2|].
      split; [destruct Q3; [left; assumption|right; lia]|exact Q4].
Qed.

Definition own_block (c : cfg) (own : Z -> tag) (fs h : Z) (n : nat) : Z -> tag :=
  fun x => if x <? fs then own x
           else if x <? fs + c_binSize c then TBin h n
           else if x <? fs + c_bpb c * c_binSize c then TSpare
           else if x =? fs + c_bpb c * c_binSize c then TLink else TFree.

(** A new block of bins at the end of the file. *)
Lemma Alloc_block c d d' own ch hd hd' blocks h : wf_cfg c -> 0 <= h < c_maxHash c ->
  Alloc c d own ch hd blocks -> h_binsRemain hd = 0 ->
  let nb := h_fileSize hd in
  (forall x, own x = TLink -> x <> h_nextBin hd -> d' x = d x) -> d' (h_nextBin hd) = nb ->
  (forall x, nb <= x <= nb + c_bpb c * c_binSize c -> d' x = 0) ->
  h_fileSize hd' = nb + c_binSize c * c_bpb c + 1 -> h_binsRemain hd' = c_bpb c - 1 -> h_nextBin hd' = nb + c_binSize c ->
  Alloc c d' (own_block c own nb h (length (ch h))) (addb ch h (nb, [])) hd' (blocks ++ [nb]).
Proof.
  intros (W1 & W2 & W3 & W4 & W5) Hh [A1 A2 A3 A4 A5 A6 A7 A8 A9 A10 A11 A12] HR nb HD HN HZ E1 E2 E3.
  destruct A4 as (bs & b & EB & EN). rewrite HR, Z.sub_0_r in EN.
  assert (LB : nth_error blocks (length bs) = Some b) by (rewrite EB, nth_error_app2, Nat.sub_diag by lia; reflexivity).
  assert (LL : length blocks = S (length bs)) by (rewrite EB, app_length; cbn; lia).
  assert (P1 : c_binSize c <= c_bpb c * c_binSize c) by nia.
  assert (LO : forall x, own x <> TFree -> x < nb).
  { intros x Hx. destruct (Z.lt_ge_cases x nb); [assumption|]. exfalso. apply Hx. apply A2. assumption. }
  assert (OL : forall x, x < nb -> own_block c own nb h (length (ch h)) x = own x) by (intros x Hx; unfold own_block; rewrite ltb_t by lia; reflexivity).
  split; rewrite ?E1, ?E2, ?E3; auto; try lia.
  - intros x Hx. unfold own_block. rewrite ltb_f by lia. rewrite ltb_f by lia. rewrite ltb_f by lia. rewrite eqb_f by lia. reflexivity.
  - exists blocks, nb. split; [reflexivity|]. lia.
  - rewrite <- A5. rewrite EB. destruct bs; reflexivity.
  - rewrite app_length. cbn [length]. fold nb in A6. nia.
  - intros x Hx. split; [|apply HZ; lia]. unfold own_block. rewrite ltb_f by lia. rewrite ltb_f by lia. rewrite ltb_t by lia. reflexivity.
  - intros j b' Hj. destruct (Nat.eq_dec j (length blocks)) as [->|NJ].
    + rewrite nth_error_app2, Nat.sub_diag in Hj by lia. inversion Hj; subst b'. split; [exact A1|].
      split; [unfold own_block; rewrite ltb_f by lia; rewrite ltb_f by lia; rewrite ltb_f by lia; rewrite eqb_t by lia; reflexivity|].
      rewrite HZ by lia. rewrite nth_overflow by (rewrite app_length; cbn; lia). reflexivity.
    + assert (LJ : (j < length blocks)%nat) by (apply nth_error_lt in Hj; rewrite app_length in Hj; cbn in Hj; lia).
      rewrite nth_error_app1 in Hj by assumption. destruct (A8 j b' Hj) as (Q0 & Q1 & Q2).
      split; [exact Q0|]. split; [rewrite OL; [exact Q1|apply LO; rewrite Q1; discriminate]|].
      destruct (Nat.eq_dec j (length bs)) as [->|NJ'].
      * rewrite LB in Hj. inversion Hj; subst b'. rewrite <- EN, HN.
        rewrite app_nth2 by lia. replace (S (length bs) - length blocks)%nat with 0%nat by lia. reflexivity.
      * rewrite HD; [|exact Q1|].
        -- rewrite Q2. rewrite app_nth1 by lia. reflexivity.
        -- intros Q. rewrite EN in Q.
           destruct (A8 _ _ LB) as (R0 & R1 & R2). replace b' with b in Q2 by nia. rewrite R2 in Q2.
           rewrite nth_overflow in Q2 by lia.
           destruct (nth_error blocks (S j)) as [b2|] eqn:Ej; [|apply nth_error_None in Ej; lia].
           rewrite (nth_error_nth blocks (S j) 0 Ej) in Q2. destruct (A8 _ _ Ej) as (T0 & _). lia.
  - intros h' Hh'. specialize (A9 h' Hh'). rewrite HR in A9. rewrite app_length. cbn [length]. unfold addb.
    destruct (h' =? h) eqn:E; [bz; subst h'; rewrite app_length; cbn [length]; lia|lia].
  - intros j b' m Hj Hm HU. destruct (Nat.eq_dec j (length blocks)) as [->|NJ].
    + rewrite nth_error_app2, Nat.sub_diag in Hj by lia. inversion Hj; subst b'. rewrite app_length in HU. cbn [length] in HU.
      assert (m = 0) by lia. subst m. exists h, (length (ch h)), []. split; [exact Hh|].
      rewrite addb_at, Z.eqb_refl, Nat.eqb_refl. cbn [andb]. do 2 f_equal. lia.
    + assert (LJ : (j < length blocks)%nat) by (apply nth_error_lt in Hj; rewrite app_length in Hj; cbn in Hj; lia).
      rewrite nth_error_app1 in Hj by assumption.
      destruct (A10 j b' m Hj Hm ltac:(right; lia)) as (h1 & i1 & es1 & Hh1 & Hn).
      exists h1, i1, es1. split; [exact Hh1|]. rewrite addb_at.
      destruct ((h1 =? h) && (i1 =? length (ch h))%nat) eqn:E; [|exact Hn].
      apply andb_prop in E. destruct E as [F1 F2]. bz. apply Nat.eqb_eq in F2. subst.
      rewrite (proj2 (nth_error_None (ch h) (length (ch h)))) in Hn by lia. discriminate.
  - intros h1 i1 a es Hh1 Hn. rewrite addb_at in Hn.
    destruct ((h1 =? h) && (i1 =? length (ch h))%nat) eqn:E.
    + inversion Hn; subst a es. exists (length blocks), nb, 0. rewrite nth_error_app2, Nat.sub_diag by lia.
      split; [reflexivity|]. split; [lia|]. split; [right; lia|lia].
    + destruct (A11 h1 i1 a es Hh1 Hn) as (j & b' & m & Q1 & Q2 & Q3 & Q4). exists j, b', m.
      assert (LJ : (j < length blocks)%nat) by (eapply nth_error_lt; eauto).
      split; [rewrite nth_error_app1 by assumption; exact Q1|]. split; [exact Q2|]. split; [|exact Q4]. left.
      rewrite app_length. cbn [length]. lia.
Qed.
