(** * zreadInfo and zread on a well-formed file. *)
From Coq Require Import ZArith List Lia Bool Arith.
From Verif Require Import Base PackModel PackProps HashModel FileModel FileLemmas FileScan FileInv FileDir FileLook.
Import ListNotations.
Open Scope Z_scope.

(** Everything a successful lookup leaves in ifltab. *)
Definition seen (c : cfg) (path : list Z) (h hash hb a : Z) (es : list entry) (k : nat) (e : entry) (i i' : ifl) : Prop :=
  looked c path h hash i i' /\ i_hashBin i' = hb /\ i_binCur i' = a /\ found_at a i' (zlen (encs (firstn k es))) e.

Lemma entry_at_bin ch h i k e : entry_at ch (h, i, k) = Some e ->
  exists a es, nth_error (ch h) i = Some (a, es) /\ nth_error es k = Some e.
Proof. unfold entry_at. destruct (nth_error (ch h) i) as [[a es]|]; [eauto|discriminate]. Qed.
Lemma Dsk_eok c d own ch dang ex h i k e : Dsk c d own ch dang ex -> 0 <= h < c_maxHash c ->
  entry_at ch (h, i, k) = Some e -> eok c h e.
Proof.
  intros DK Hh HE. destruct (entry_at_bin _ _ _ _ _ HE) as (a & es & E1 & E2).
  destruct (dk_bin _ _ _ _ _ _ DK h i a es Hh E1) as (_ & _ & _ & _ & F). rewrite Forall_forall in F.
  apply F. eapply nth_error_In; eauto.
Qed.

Section FOUND.
Variables (c : cfg) (d : Z -> Z) (own : Z -> tag) (ch : chains) (dang : Z -> Z) (ex : option pos).
Variables (h hash : Z) (path : list Z) (i k : nat) (a : Z) (es : list entry) (e : entry) (s : st) (wanted : Z).
Hypothesis WF : wf_cfg c.
Hypothesis DK : Dsk c d own ch dang ex.
Hypothesis ED : s_disk s = d.
Hypothesis HL : zlen path <= 392.
Hypothesis HP : zhash (c_detune c) (c_maxHash c) path = Ok (h, hash).
Hypothesis Hh : 0 <= h < c_maxHash c.
Hypothesis HW : wanted = 0 \/ wanted = 11.
Hypothesis Hi : nth_error (ch h) i = Some (a, es).
Hypothesis Hk : nth_error es k = Some e.
Hypothesis HK : key (e_path e) = key path.
Hypothesis HS : sel wanted e.
Hypothesis HF : forall i' k' e', pos_lt i' k' i k -> entry_at ch (h, i', k') = Some e' ->
  key (e_path e') = key path -> ~ sel wanted e'.
Hypothesis HA : c_hashStart c + h <= h_fileSize (s_hdr s) + 100000.
Hypothesis HB : forall i' a' es', (i' <= i)%nat -> nth_error (ch h) i' = Some (a', es') -> a' <= h_fileSize (s_hdr s) + 100000.
Hypothesis HI : Z.of_nat i <= h_fileSize (s_hdr s).
Hypothesis HX : ex <> Some (h, i, k).
Hypothesis HO : forall x, own x = TRec h i k -> x <= h_fileSize (s_hdr s) + 100000.

Lemma found_entry : entry_at ch (h, i, k) = Some e.
Proof. unfold entry_at. rewrite Hi. exact Hk. Qed.
Lemma found_eok : eok c h e.
Proof. eapply Dsk_eok; eauto using found_entry. Qed.
Lemma found_len : e_len e = zlen path.
Proof.
  pose proof found_eok as (SH & _). pose proof (e_path_length e SH) as L. pose proof (key_app_inj _ _ HK).
  destruct SH as (_ & B & _). unfold zlen. lia.
Qed.
Lemma found_hash : e_hash e = hash.
Proof. destruct found_eok as (_ & Q & _). rewrite (zhash_key _ _ _ _ HK), HP in Q. inversion Q; reflexivity. Qed.
Lemma found_storing : storing e.
Proof. unfold sel, storing, live in *. destruct (wanted =? 11); tauto. Qed.
Lemma found_rec : rec_ok d own (TRec h i k) e.
Proof. apply (dk_rec _ _ _ _ _ _ DK); auto using found_entry, found_storing. Qed.

Lemma zreadInfo_found : exists s', zreadInfo c path wanted s = OK true s' /\ same_file s s' /\
  seen c path h hash (head_addr (dang h) (ch h)) a es k e
    (mkifl 0 0 0 0 0 0 0 0 0 0 0 0 0 0 (i_firstDate (s_ifl s)) (i_lastDate (s_ifl s)) [] (i_info (s_ifl s')))
    (s_ifl s') /\
  forall j, 0 <= j < numInfo (zlen path) -> i_info (s_ifl s') j = d (e_info e + j).
Proof.
  destruct (zcheck_found c d own ch dang ex h hash path wanted i k a es e s) as (s1 & E1 & SF & LK & HBn & BC & FA);
    try assumption; [tauto|].
  pose proof found_rec as (R1 & R2 & [R3 _] & _). cbv beta in R3. pose proof found_eok as (SH & _).
  pose proof (numInfo_bounds (e_len e) (proj1 (proj2 SH))) as NB. rewrite found_len in NB, R2.
  assert (IA : i_addInfo (s_ifl s1) = e_info e) by apply FA.
  assert (EQ : zreadInfo c path wanted s =
    (let s2 := mkst (s_disk s1) (s_dhdr s1) (s_log s1) (s_hdr s1)
       (set_info (fun j => nth (Z.to_nat j) (words d (e_info e) (numInfo (zlen path))) 0) (s_ifl s1)) in OK true s2)).
  { unfold zreadInfo. erewrite bindM_OK.
    2:{ instantiate (1 := s1). instantiate (1 := true). destruct (wanted =? 0) eqn:EW; [|exact E1]. bz. subst wanted.
        unfold zcheck. erewrite bindM_OK by exact E1. reflexivity. }
    cbv iota. unfold bindM at 1, getI at 1. cbv beta iota zeta.
    destruct LK as (K1 & K2 & _). rewrite K2, IA. rewrite Z.min_l by lia.
    assert (DE : s_disk s1 = d) by (destruct SF as [SF1 _]; congruence).
    assert (HE : s_hdr s1 = s_hdr s) by apply SF.
    assert (EI : e_info e <= h_fileSize (s_hdr s) + 100000) by (apply HO, R2; lia).
    unfold bindM, zgetw. rewrite HE, DE. rewrite ltb_f by lia. rewrite ltb_f by lia. cbn [orb]. rewrite ltb_f by lia.
    rewrite words_nth by lia. rewrite R3, K1, found_hash, Z.eqb_refl.
    unfold modI, bindM, getI, setI, ret. rewrite HE, DE. reflexivity. }
  rewrite EQ. eexists. split; [reflexivity|]. split; [exact SF|]. cbn [s_ifl]. split.
  - unfold seen. cbn. unfold looked in *. destruct LK as (K1 & K2 & K3 & K4 & K5 & K6). cbn. unfold found_at in *. cbn. tauto.
  - intros j Hj. cbn. apply words_nth. exact Hj.
Qed.
End FOUND.

Lemma read_section_eq d s a n : s_disk s = d -> 0 <= a -> cnt_ok n -> (0 < n -> a <= h_fileSize (s_hdr s) + 100000) ->
  read_section a n s = OK (ints_at d a n) s.
Proof.
  intros ED H0 H1 H2. unfold read_section. destruct (0 <? n) eqn:E; bz.
  - unfold zgeti. rewrite ltb_f by lia. rewrite ltb_f by lia. unfold cnt_ok in H1. rewrite (ltb_f n) by lia. rewrite ltb_f by lia.
    cbn [orb]. rewrite ED. reflexivity.
  - assert (n = 0) by (unfold cnt_ok in H1; lia). subst n. reflexivity.
Qed.
Lemma read_user_header_eq d s a n : s_disk s = d -> 0 <= a -> cnt_ok n -> (0 < n -> a <= h_fileSize (s_hdr s) + 100000) ->
  read_user_header a n s = OK (ints_at d a n) s.
Proof.
  intros ED H0 H1 H2. unfold read_user_header. unfold cnt_ok in H1. destruct (0 <? n) eqn:E; bz.
  - unfold bindM, zgeti. rewrite ltb_f by lia. rewrite ltb_f by lia.
    assert (B : 0 <= (if isOdd n then n + 1 else n) <= 10000000).
    { rewrite isOdd_spec by lia. destruct (Z.odd n) eqn:O; [|lia]. split; [lia|].
      destruct (Z.eq_dec n 10000000) as [->|]; [discriminate|lia]. }
    rewrite ltb_f by lia. rewrite ltb_f by lia. cbn [orb]. unfold ret. rewrite ED.
    rewrite ints_at_odd by lia. reflexivity.
  - assert (n = 0) by lia. subst n. reflexivity.
Qed.

(** zread returns the content of the first matching live entry. *)
Lemma zread_found c d own ch dang ex h hash path i k a es e s :
  wf_cfg c -> Dsk c d own ch dang ex -> s_disk s = d -> zlen path <= 392 ->
  zhash (c_detune c) (c_maxHash c) path = Ok (h, hash) -> 0 <= h < c_maxHash c ->
  nth_error (ch h) i = Some (a, es) -> nth_error es k = Some e -> key (e_path e) = key path -> live e ->
  (forall i' k' e', pos_lt i' k' i k -> entry_at ch (h, i', k') = Some e' -> key (e_path e') = key path -> ~ live e') ->
  c_hashStart c + h <= h_fileSize (s_hdr s) + 100000 ->
  (forall i' a' es', (i' <= i)%nat -> nth_error (ch h) i' = Some (a', es') -> a' <= h_fileSize (s_hdr s) + 100000) ->
  Z.of_nat i <= h_fileSize (s_hdr s) -> ex <> Some (h, i, k) ->
  (forall x, own x = TRec h i k -> x <= h_fileSize (s_hdr s) + 100000) ->
  exists s', zreadInternal c path s = OK (Some (e_ct e)) s' /\ same_file s s'.
Proof.
  intros WF DK ED HL HP Hh Hi Hk HK HS HF HA HB HI HX HO.
  destruct (zreadInfo_found c d own ch dang ex h hash path i k a es e s 0) as (s1 & E1 & SF & SN & IN); auto.
  assert (FE : entry_at ch (h, i, k) = Some e) by (unfold entry_at; rewrite Hi; exact Hk).
  assert (ST : storing e) by (unfold storing, live in *; tauto).
  pose proof (dk_rec _ _ _ _ _ _ DK h i k e Hh FE ST HX) as (R1 & R2 & R3 & cap & R4 & R5 & R6 & R7 & R8).
  assert (SH : shape e) by (eapply Dsk_eok; eauto).
  assert (LEN : e_len e = zlen path).
  { pose proof (e_path_length e SH). pose proof (key_app_inj _ _ HK). destruct SH as (_ & B & _). unfold zlen. lia. }
  pose proof (numInfo_bounds (e_len e) (proj1 (proj2 SH))) as NB. rewrite LEN in NB.
  exists s1. split; [|exact SF]. unfold zreadInternal.
  change ST_VALID with 0. erewrite bindM_OK by exact E1. cbn [negb]. cbv iota. erewrite bindM_OK by reflexivity. cbv zeta.
  assert (DE : s_disk s1 = d) by (destruct SF as [SF1 _]; congruence).
  assert (HE : s_hdr s1 = s_hdr s) by apply SF.
  rewrite !IN by lia. destruct R7 as (C1 & C2 & C3 & C4 & C5 & C6 & F1 & F2 & F3 & F4 & F5 & F6 & _).
  pose proof (cnt_words _ C1). pose proof (cnt_words _ C2). pose proof (cnt_words _ C3).
  pose proof (cnt_words _ C4). pose proof (cnt_words _ C5). pose proof (cnt_words _ C6).
  unfold bindM.
  rewrite (read_section_eq d s1 _ _ DE) by (assumption || lia || (rewrite HE; intros; apply HO, R4; lia)).
  rewrite (read_section_eq d s1 _ _ DE) by (assumption || lia || (rewrite HE; intros; apply HO, R4; lia)).
  rewrite (read_user_header_eq d s1 _ _ DE) by (assumption || lia || (rewrite HE; intros; apply HO, R4; lia)).
  rewrite (read_section_eq d s1 _ _ DE) by (assumption || lia || (rewrite HE; intros; apply HO, R4; lia)).
  rewrite (read_section_eq d s1 _ _ DE) by (assumption || lia || (rewrite HE; intros; apply HO, R4; lia)).
  rewrite (read_section_eq d s1 _ _ DE) by (assumption || lia || (rewrite HE; intros; apply HO, R4; lia)).
  unfold ret. rewrite <- R8. reflexivity.
Qed.

(** zreadInfo when there is no such record; [ztsPathCompatible path = None]: the E part is not x(x)MIN. *)
Lemma zreadInfo_none c d own ch dang ex h hash path wanted s :
  wf_cfg c -> Dsk c d own ch dang ex -> s_disk s = d -> zlen path <= 392 ->
  zhash (c_detune c) (c_maxHash c) path = Ok (h, hash) -> 0 <= h < c_maxHash c ->
  wanted = 0 \/ wanted = 11 -> dang h = 0 -> (wanted = 0 -> ztsPathCompatible path = None) ->
  (forall i k e, entry_at ch (h, i, k) = Some e -> key (e_path e) = key path -> ~ sel wanted e) ->
  c_hashStart c + h <= h_fileSize (s_hdr s) + 100000 ->
  (forall i a es, nth_error (ch h) i = Some (a, es) -> a <= h_fileSize (s_hdr s) + 100000) ->
  Z.of_nat (length (ch h)) <= h_fileSize (s_hdr s) ->
  exists s', zreadInfo c path wanted s = OK false s' /\ same_file s s' /\
    i_hash (s_ifl s') = hash /\ i_len (s_ifl s') = zlen path /\ i_addTable (s_ifl s') = h + c_hashStart c /\
    i_firstDate (s_ifl s') = i_firstDate (s_ifl s) /\ i_lastDate (s_ifl s') = i_lastDate (s_ifl s) /\
    i_hashBin (s_ifl s') = head_addr 0 (ch h) /\ i_withSpace (s_ifl s') = roomc (zlen path) (ch h) /\
    match ch h with
    | [] => True
    | b :: t => i_binCur (s_ifl s') = fst (last_b t b) /\
                i_bin (s_ifl s') = bin_words (c_binSize c) (snd (last_b t b)) 0
    end.
Proof.
  intros WF DK ED HL HP Hh HW HG HC HF HA HB HI.
  destruct (zcheck_none c d own ch dang ex h hash path wanted s) as (s1 & E1 & SF & LK & B1 & B2 & B3); auto; [tauto|].
  exists (mkst (s_disk s1) (s_dhdr s1) (s_log s1) (s_hdr s1) (set_info (upd (i_info (s_ifl s1)) 0 0) (s_ifl s1))).
  destruct LK as (K1 & K2 & K3 & K4 & K5 & _).
  split; [|split; [exact SF|cbn; auto 12]].
  unfold zreadInfo. rewrite bindM_OK with (a := false) (s' := s1); [reflexivity|].
  destruct (wanted =? 0) eqn:EW; [|exact E1]. bz. subst wanted.
  unfold zcheck. erewrite bindM_OK by exact E1. rewrite HC by reflexivity. reflexivity.
Qed.
