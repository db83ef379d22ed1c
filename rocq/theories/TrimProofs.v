(** * C50, proofs: the data part of trimming. *)
From Coq Require Import ZArith List Lia Bool ZifyBool.
From Verif Require Import Base DateSpec DateModel ArrayLib PackModel CStr CStrProofs PathSpec TextModel TextProps PdLoop TrimModel TrimSpec.
Import ListNotations.
Open Scope Z_scope.
Open Scope res_scope.

Lemma aget_nth (l : list Z) i : 0 <= i < alen l -> aget l i = Ok (nth (Z.to_nat i) l 0).
Proof.
  intros H. unfold aget, alen in *. destruct (i <? 0) eqn:E; [lia|]. rewrite (nth_error_nth' l 0) by lia. reflexivity.
Qed.
Lemma chk_ok z : 0 <= z <= INT_MAX -> chk32 z = Ok z.
Proof. intros H. apply chk32_ok. unfold in32, INT_MIN, INT_MAX in *. lia. Qed.
Lemma rows_all {A} (l : list A) d n : Z.of_nat (length l) = n * d -> rows l d 0 n = l.
Proof. intros H. unfold rows. cbn [Z.mul Z.to_nat skipn]. apply firstn_all2. lia. Qed.

Lemma slice_spec l d f n m : 0 <= f -> 0 <= n -> f + n <= m -> 0 <= d -> Z.of_nat (length l) = m * d -> m * d <= INT_MAX ->
  slice l d f n = Ok (rows l d f n).
Proof.
  intros Hf Hn Hm Hd HL HM. unfold slice. assert (0 <= f * d <= m * d /\ 0 <= n * d /\ f * d + n * d <= m * d) by nia.
  rewrite chk_ok by lia. cbn [bind]. unfold rows.
  rewrite <- (firstn_skipn (Z.to_nat (f * d)) l) at 1. rewrite <- (firstn_skipn (Z.to_nat (n * d)) (skipn (Z.to_nat (f * d)) l)) at 1.
  apply read_mid'; [rewrite firstn_length, skipn_length; lia|unfold alen; rewrite firstn_length; lia].
Qed.
Lemma slice_opt_spec o d f n m : 0 <= f -> 0 <= n -> f + n <= m ->
  (forall q, o = Some q -> 0 <= d /\ Z.of_nat (length q) = m * d /\ m * d <= INT_MAX) ->
  slice_opt o d f n = Ok (option_map (fun q => rows q d f n) o).
Proof.
  intros Hf Hn Hm H. destruct o as [q|]; [|reflexivity]. destruct (H q eq_refl) as (A & B & C). cbn [slice_opt option_map].
  rewrite (slice_spec q d f n m) by assumption. reflexivity.
Qed.

Lemma slen_alen (l : list Z) : slen l = alen l. Proof. reflexivity. Qed.
Lemma packed_pos l : l <> [] -> 0 < slen (packed l).
Proof. destruct l as [|s t]; [congruence|]. intros _. rewrite packed_cons, slen_app, slen_cons. pose proof (slen_nonneg s). pose proof (slen_nonneg (packed t)). lia. Qed.
Lemma packed_inj l1 l2 : Forall c_text l1 -> Forall c_text l2 -> packed l1 = packed l2 -> l1 = l2.
Proof.
  revert l2. induction l1 as [|s t IH]; intros [|u v] H1 H2 E.
  - reflexivity.
  - apply (f_equal slen) in E. pose proof (packed_pos (u :: v) ltac:(congruence)). change (slen (packed [])) with 0 in E. lia.
  - apply (f_equal slen) in E. pose proof (packed_pos (s :: t) ltac:(congruence)). change (slen (packed [])) with 0 in E. lia.
  - inversion H1 as [|? ? S1 T1]; subst. inversion H2 as [|? ? S2 T2]; subst. rewrite !packed_cons in E.
    assert (S : s = u /\ packed t = packed v).
    { clear - S1 S2 E. revert u S2 E. induction s as [|c s IH]; intros [|d u] S2 E; cbn [app] in E.
      - inversion E. auto.
      - inversion E. inversion S2; subst. lia.
      - inversion E. inversion S1; subst. lia.
      - inversion E; subst. inversion S1; subst. inversion S2; subst. destruct (IH H3 u H5 H1) as (-> & ->). auto. }
    destruct S as (-> & S). f_equal. apply IH; assumption.
Qed.
Lemma slice_notes_spec lines f n : Forall c_text lines -> 0 <= f -> 0 < n -> f + n <= Z.of_nat (length lines) ->
  slice_notes (Some (packed lines)) f n = Ok (Some (packed (rows lines 1 f n))).
Proof.
  intros H Hf Hn HL. unfold slice_notes. set (F := Z.to_nat f). set (A := firstn F lines). set (B := skipn F lines).
  assert (EL : lines = A ++ B) by (symmetry; apply firstn_skipn).
  assert (LA : length A = F) by (unfold A; rewrite firstn_length; lia). assert (LB : length B = (length lines - F)%nat) by (unfold B; apply skipn_length).
  assert (NB : B <> []) by (destruct B; [cbn in LB; lia|congruence]).
  assert (HB : Forall c_text B) by (rewrite EL in H; apply Forall_app in H; apply H).
  assert (E1 : (if f >? 0 then let* '(k, _) := copyLines (Some [0]) 0 (Some (packed lines)) (alen (packed lines)) f in Ok k else Ok 0) = Ok (slen (packed A))).
  { destruct (f >? 0) eqn:E.
    - unfold copyLines. change (0 <=? 0) with true. cbn [andb]. replace (alen (packed lines) <=? 0) with false
        by (pose proof (packed_pos lines ltac:(destruct lines; [cbn in *; lia|congruence])); rewrite slen_alen in *; lia).
      replace (alen (packed lines) >? 0) with true
        by (pose proof (packed_pos lines ltac:(destruct lines; [cbn in *; lia|congruence])); rewrite slen_alen in *; lia).
      pose proof (lines_end_spec lines (Z.to_nat f) [] [] (alen (packed lines)) H ltac:(lia)) as L. cbn [app] in L. rewrite app_nil_r in L. change (slen []) with 0 in L. rewrite !Z.add_0_l in L.
      rewrite L by (rewrite slen_alen; lia). cbn [bind]. reflexivity.
    - unfold A. replace F with O by lia. reflexivity. }
  rewrite E1. cbn [bind]. cbv zeta. rewrite EL, packed_app. rewrite <- !slen_alen, slen_app.
  replace (slen (packed A) + slen (packed B) - slen (packed A)) with (slen (packed B)) by lia.
  pose proof (packed_pos B NB) as PB. replace (slen (packed B) <? 0) with false by lia.
  assert (ES : skipn (Z.to_nat (slen (packed A))) (packed A ++ packed B) = packed B) by (apply sdrop_app). rewrite ES.
  set (N := Z.to_nat n). set (D := repeat 0 (Z.to_nat (slen (packed B)))).
  assert (AD : alen D = slen (packed B)) by (unfold D, alen; rewrite repeat_length; lia).
  pose proof (C38_copy_lines B [] N D HB ltac:(lia) NB ltac:(lia)) as C. cbv zeta in C. rewrite app_nil_r in C. destruct C as (C & _).
  replace (Z.of_nat N) with n in C by lia. rewrite AD in C. rewrite C. cbn [bind]. do 2 f_equal.
  assert (LE : slen (packed (firstn N B)) <= slen (packed B)).
  { rewrite <- (firstn_skipn N B) at 2. rewrite packed_app, slen_app. pose proof (slen_nonneg (packed (skipn N B))). lia. }
  rewrite Z.min_l by exact LE. unfold stake.
  set (Q := packed (firstn N B)). rewrite (firstn_all2 Q) by (unfold slen; lia).
  rewrite firstn_app. replace (Z.to_nat (slen Q)) with (length Q) by (unfold slen; lia). rewrite firstn_all, Nat.sub_diag, firstn_O, app_nil_r.
  unfold Q, rows. rewrite !Z.mul_1_r. fold F N. rewrite <- EL. reflexivity.
Qed.

Section D.
Variable miss : Z -> bool.
Lemma row_has_spec l cnt : forall pos, 0 <= pos -> pos + Z.of_nat cnt <= alen l ->
  exists b, row_has miss cnt l pos = Ok b /\ (b = true <-> exists j, 0 <= j < Z.of_nat cnt /\ miss (nth (Z.to_nat (pos + j)) l 0) = false).
Proof.
  induction cnt as [|cnt IH]; intros pos H0 H.
  - exists false. split; [reflexivity|]. split; [discriminate|]. intros (j & J & _). lia.
  - cbn [row_has]. rewrite aget_nth by lia. cbn [bind]. destruct (miss (nth (Z.to_nat pos) l 0)) eqn:E; cbn [negb].
    + destruct (IH (pos + 1)) as (b & Eb & Hb); [lia|lia|]. exists b. split; [exact Eb|]. rewrite Hb. split; intros (j & J & M).
      * exists (j + 1). split; [lia|]. rewrite <- M. do 3 f_equal. lia.
      * destruct (j =? 0) eqn:Z0; [assert (j = 0) by lia; subst; rewrite Z.add_0_r in M; congruence|]. exists (j - 1). split; [lia|]. rewrite <- M. do 3 f_equal. lia.
    + exists true. split; [reflexivity|]. split; [|reflexivity]. intros _. exists 0. rewrite Z.add_0_r. split; [lia|exact E].
Qed.
Lemma row_valid_spec t i : is_read t -> 0 <= i < num t -> exists b, row_valid miss (vals t) (depth t) i = Ok b /\ (b = true <-> has_value miss t i).
Proof.
  intros (N0 & D0 & LV & LM & _) Hi. unfold row_valid, has_value. unfold width in *. destruct (depth t =? 0) eqn:E.
  - rewrite aget_nth by (unfold alen; lia). cbn [bind]. eexists. split; [reflexivity|]. split.
    + intros H. exists 0. split; [lia|]. replace (i * 1 + 0) with i by lia. destruct (miss _); [discriminate|reflexivity].
    + intros (j & J & M). replace (i * 1 + j) with i in M by lia. rewrite M. reflexivity.
  - assert (0 <= i * depth t /\ i * depth t + depth t <= num t * depth t) by (clear - Hi D0 E; nia). rewrite chk_ok by lia. cbn [bind].
    destruct (row_has_spec (vals t) (Z.to_nat (depth t)) (i * depth t)) as (b & Eb & Hb); [lia|unfold alen; lia|]. exists b. split; [exact Eb|].
    rewrite Hb. rewrite Z2Nat.id by lia. reflexivity.
Qed.
Lemma scan_up_spec t : is_read t -> forall cnt i, 0 <= i -> i + Z.of_nat cnt = num t ->
  exists f, scan_up miss cnt (vals t) (depth t) i = Ok f /\
    ((f = -1 /\ forall x, i <= x < num t -> ~ has_value miss t x) \/
     (i <= f < num t /\ has_value miss t f /\ forall x, i <= x < f -> ~ has_value miss t x)).
Proof.
  intros R. induction cnt as [|cnt IH]; intros i H0 H.
  - exists (-1). split; [reflexivity|]. left. split; [reflexivity|]. intros x X. lia.
  - cbn [scan_up]. destruct (row_valid_spec t i R ltac:(lia)) as (b & Eb & Hb). rewrite Eb. cbn [bind]. destruct b.
    + exists i. split; [reflexivity|]. right. split; [lia|]. split; [apply Hb; reflexivity|]. intros x X. lia.
    + assert (NI : ~ has_value miss t i) by (rewrite <- Hb; discriminate).
      destruct (IH (i + 1)) as (f & Ef & Hf); [lia|lia|]. exists f. split; [exact Ef|]. destruct Hf as [(-> & Hf)|(B & Hf & Hl)].
      * left. split; [reflexivity|]. intros x X. destruct (x =? i) eqn:Y; [assert (x = i) by lia; subst; exact NI|apply Hf; lia].
      * right. split; [lia|]. split; [exact Hf|]. intros x X. destruct (x =? i) eqn:Y; [assert (x = i) by lia; subst; exact NI|apply Hl; lia].
Qed.
Lemma scan_down_spec t none : is_read t -> forall cnt, Z.of_nat cnt <= num t ->
  (exists x, 0 <= x < Z.of_nat cnt /\ has_value miss t x) ->
  exists l, scan_down miss cnt (vals t) (depth t) none = Ok l /\ 0 <= l < Z.of_nat cnt /\ has_value miss t l /\
    forall x, l < x < Z.of_nat cnt -> ~ has_value miss t x.
Proof.
  intros R. induction cnt as [|cnt IH]; intros H (x & X & HX); [lia|].
  cbn [scan_down]. destruct (row_valid_spec t (Z.of_nat cnt) R ltac:(lia)) as (b & Eb & Hb). rewrite Eb. cbn [bind]. destruct b.
  - exists (Z.of_nat cnt). split; [reflexivity|]. split; [lia|]. split; [apply Hb; reflexivity|]. intros y Y. lia.
  - assert (NI : ~ has_value miss t (Z.of_nat cnt)) by (rewrite <- Hb; discriminate).
    destruct IH as (l & El & L0 & Hl & Hy); [lia| |].
    + exists x. split; [|exact HX]. destruct (x =? Z.of_nat cnt) eqn:Y; [|lia]. assert (x = Z.of_nat cnt) by lia. subst. contradiction.
    + exists l. split; [exact El|]. split; [lia|]. split; [exact Hl|]. intros y Y. destruct (y =? Z.of_nat cnt) eqn:Z0; [assert (y = Z.of_nat cnt) by lia; subst; exact NI|apply Hy; lia].
Qed.
End D.
