(** * C55: sorted catalogues. *)
From Coq Require Import ZArith List Lia Bool ZifyBool Sorted Permutation.
From Verif Require Import Base ArrayLib CStr CStrProofs PathSpec PathModel PathProofs DateModel DateTextModel IntervalModel SortSpec SortModel SortProofs SortMerge CatSortSpec CatSortModel CatSortProofs CatSortLines CatSortRead.
Import ListNotations.
Open Scope Z_scope.

(** The sort of a text file: for every file whose lines are shorter than 268435456 bytes (whatever its size, in memory or through
    merged temporary files) the sorted file has the same lines, each as often as before, in order. *)
Theorem C55_sort : forall content, Forall (fun l => Z.of_nat (length l) < 268435456) (lines_of content) ->
  exists out, sortfiles content = Ok out /\ sorted_text content out.
Proof. intros content H. apply sortfiles_ok. exact H. Qed.
Print Assumptions C55_sort.

Lemma widths_eq w : partMax (sizes w) = pm_ (lA w) (lB w) (lC w) (lF w) (lD w) (lE w).
Proof. reflexivity. Qed.
Lemma nonneg w : fit_a_line w -> 0 <= lA w /\ 0 <= lB w /\ 0 <= lC w /\ 0 <= lD w /\ 0 <= lE w /\ 0 <= lF w.
Proof. intros (H & _). unfold sizes in H. repeat match goal with H : Forall _ (_ :: _) |- _ => inversion H; clear H; subst end. tauto. Qed.

(** A sorted catalogue names every record, each exactly once, and nothing else. *)
Theorem C55_complete_partial : forall junk w rs, alen junk = 7 -> fit_a_line w -> Forall sound_name rs -> Forall date_ok rs -> Z.of_nat (length rs) <= 2147483647 ->
  exists l, sortedCatalogue junk (sizes w) (map (fun r => (name r, kind r)) rs) = Ok (answer l) /\ Permutation rs l.
Proof.
  intros junk w rs J F SN DO B. destruct (nonneg w F) as (? & ? & ? & ? & ? & ?). destruct F as (_ & F).
  destruct (sorted_catalogue junk J (lA w) (lB w) (lC w) (lF w) (lE w) (lD w) (Z.max 12 (lE w))) with (rs := rs) as (es & E & P & _); auto; try lia.
  { apply Forall_forall. intros r _ _. lia. }
  exists (map (fun x => fst (fst x)) es). split; [|exact P]. unfold sortedCatalogue. rewrite widths_eq. etransitivity; [exact E|]. unfold answer. rewrite map_map. reflexivity.
Qed.
Print Assumptions C55_complete_partial.

(** ** Order *)
Lemma lex_cut a : forall b r s, length a = length b -> lex (a ++ r) (b ++ s) -> lex a b.
Proof. induction a as [|x a IH]; intros [|y b] r s L H; try discriminate L; [exact I|]. cbn [app lex] in *. destruct H as [H|(-> & H)]; [auto|right; split; [reflexivity|]; eapply IH; eauto]. Qed.
Lemma line_cut a b r s : length a = length b -> line_le (a ++ r) (b ++ s) -> a <> [] -> line_le a b.
Proof.
  intros L H N. destruct a as [|x a]; [congruence|]. destruct b as [|y b]; [discriminate L|]. cbn [app line_le] in *. destruct H as [H|(H1 & H)]; [auto|right; split; [exact H1|]]. exact (lex_cut (x :: a) (y :: b) r s L H).
Qed.
Lemma lex_drop p : forall a b, lex (p ++ a) (p ++ b) -> lex a b.
Proof. induction p as [|x p IH]; intros a b H; [exact H|]. cbn [app lex] in H. destruct H as [H|(_ & H)]; [lia|auto]. Qed.
Lemma line_drop p a b : p <> [] -> line_le (p ++ a) (p ++ b) -> lex a b.
Proof. intros N H. destruct p as [|x p]; [congruence|]. cbn [app line_le] in H. destruct H as [H|(_ & H)]; [lia|]. exact (lex_drop (x :: p) a b H). Qed.

Lemma fit_column w p : 0 <= w -> slen p <= w -> fit (w + 1) p = column w p.
Proof. intros W H. unfold fit, column. rewrite stake_all by lia. f_equal. f_equal. unfold slen in *. lia. Qed.

(** The columns of a record whose name is listed as it is (neither a time series nor a grid). *)
Definition columns_of (w : longest) (r : listed) : list Z :=
  column (lA w) (nth_part r 0) ++ column (lB w) (nth_part r 1) ++ column (lC w) (nth_part r 2) ++ column (lF w) (nth_part r 3) ++ column (lE w) (nth_part r 4) ++ column (lD w) (nth_part r 5).
(** No part is longer than its column.  (The D part has the column of F and the F part that of D.) *)
Definition in_columns (w : longest) (r : listed) : Prop :=
  slen (nth_part r 0) <= lA w /\ slen (nth_part r 1) <= lB w /\ slen (nth_part r 2) <= lC w /\ slen (nth_part r 3) <= lF w /\ slen (nth_part r 4) <= lE w /\ slen (nth_part r 5) <= lD w.

Lemma sorted_map {A B} (f : A -> B) (R : B -> B -> Prop) l : StronglySorted R (map f l) -> StronglySorted (fun x y => R (f x) (f y)) l.
Proof.
  induction l as [|x l IH]; intros H; [constructor|]. cbn [map] in H. inversion H; subst. constructor; [auto|]. apply Forall_map. assumption.
Qed.
Lemma sorted_weak {A} (P : A -> Prop) (R R' : A -> A -> Prop) l : (forall x y, P x -> P y -> R x y -> R' x y) -> Forall P l -> StronglySorted R l -> StronglySorted R' l.
Proof.
  intros H. induction l as [|x l IH]; intros F S; [constructor|]. inversion F; inversion S; subst. constructor; [auto|]. apply Forall_forall. intros y I. apply H; auto; [rewrite Forall_forall in H3; auto|]. rewrite Forall_forall in H7. auto.
Qed.
Lemma map_sorted {A B} (f : A -> B) (R : B -> B -> Prop) l : StronglySorted (fun x y => R (f x) (f y)) l -> StronglySorted R (map f l).
Proof. induction 1 as [|x l H IH F]; [constructor|]. cbn [map]. constructor; [exact IH|]. apply Forall_map. exact F. Qed.

(** Without time series and grids, when every part fits its column, the names come in the order of their columns. *)
Theorem C55_order_partial : forall junk w rs, alen junk = 7 -> fit_a_line w -> Forall sound_name rs -> Z.of_nat (length rs) <= 2147483647 ->
  Forall (fun r => is_series (kind r) = false /\ is_grid (kind r) = false /\ in_columns w r) rs ->
  exists l, sortedCatalogue junk (sizes w) (map (fun r => (name r, kind r)) rs) = Ok (answer l) /\ Permutation rs l /\
    StronglySorted (fun x y => line_le (columns_of w x) (columns_of w y)) l.
Proof.
  intros junk w rs J F SN B PL. destruct (nonneg w F) as (? & ? & ? & ? & ? & ?). destruct F as (_ & F).
  destruct (sorted_catalogue junk J (lA w) (lB w) (lC w) (lF w) (lE w) (lD w) (lE w)) with (rs := rs) as (es & E & P & KO & S); auto; try lia.
  { eapply Forall_impl; [|exact PL]. intros r (K1 & K2 & _). split; intros; congruence. }
  { eapply Forall_impl; [|exact PL]. intros r (K1 & _) K. congruence. }
  exists (map (fun x => fst (fst x)) es). split; [|split; [exact P|]].
  - unfold sortedCatalogue. rewrite widths_eq. etransitivity; [exact E|]. unfold answer. rewrite map_map. reflexivity.
  - apply map_sorted. apply sorted_map in S.
    assert (PL2 : Forall (fun x : entry => sound_name (fst (fst x)) /\ is_series (kind (fst (fst x))) = false /\ is_grid (kind (fst (fst x))) = false /\ in_columns w (fst (fst x))) es).
    { pose proof (Permutation_Forall P SN) as Q1. pose proof (Permutation_Forall P PL) as Q2. rewrite Forall_map in Q1, Q2. rewrite Forall_forall in *. intros x I. split; [apply Q1, I|apply Q2, I]. }
    assert (KE : Forall (fun x : entry => snd (fst x) = columns_of w (fst (fst x))) es).
    { rewrite Forall_forall in *. intros x I. specialize (PL2 x I). specialize (KO x I). destruct x as [[r K] i]. cbn [fst snd] in *. destruct PL2 as ((L6 & PP) & T1 & T2 & IC). destruct KO as (Ir & m & m' & KE & Hm & HM & _).
      assert (m = lE w) by lia. assert (m' = lE w) by lia. subst m m'. destruct r as [ps ty]. unfold name in KE. cbn [parts kind] in *. do 7 (destruct ps as [|? ps]; try discriminate L6).
      unfold pm_ in KE. rewrite sortpath_plain in KE; auto; try lia.
      - injection KE as KE. apply app_inv_tail in KE. rewrite <- KE. unfold columns_of, in_columns, nth_part in *. cbn [parts nth row flat_map fst snd] in *. rewrite !fit_column by lia. rewrite app_nil_r. reflexivity.
      - eapply Forall_impl; [|exact PP]. intros p Hp. apply (plain_clean p Hp).
      - repeat (apply Forall_cons; [lia|]). apply Forall_nil. }
    eapply (sorted_weak (fun x : entry => snd (fst x) = columns_of w (fst (fst x)) /\ entry_ok junk (lA w) (lB w) (lC w) (lF w) (lE w) (lD w) (lE w) x)); [| |exact S].
    + intros [[rx Kx] ix] [[ry Ky] iy] (Ex & (Ix & mx & mx' & _ & X1 & X2 & _ & XL)) (Ey & (Iy & my & my' & _ & Y1 & Y2 & _ & YL)) LE. unfold line_of in LE. cbn [fst snd] in *. rewrite <- Ex, <- Ey. eapply line_cut; [|exact LE|].
      * unfold slen in *. lia.
      * intros ->. change (slen []) with 0 in XL. lia.
    + rewrite Forall_forall in *. intros x I. split; [apply KE, I|apply KO, I].
Qed.
Print Assumptions C55_order_partial.

(** ** Dates of a time series *)
Lemma digits_lt D1 : forall D2 a b, length D1 = length D2 -> alldig D1 = true -> alldig D2 = true -> a < b -> digits_val a D1 < digits_val b D2.
Proof.
  induction D1 as [|x D1 IH]; intros [|y D2] a b L A1 A2 H; try discriminate L; [exact H|]. unfold alldig in *. cbn [forallb digits_val] in *. apply andb_true_iff in A1, A2. destruct A1 as (X & A1), A2 as (Y & A2). rewrite X, Y. apply is_digit_range in X, Y. apply IH; auto. lia.
Qed.
Lemma digits_le D1 : forall D2 a r s, length D1 = length D2 -> alldig D1 = true -> alldig D2 = true -> lex (D1 ++ r) (D2 ++ s) -> digits_val a D1 <= digits_val a D2.
Proof.
  induction D1 as [|x D1 IH]; intros [|y D2] a r s L A1 A2 H; try discriminate L; [cbn; lia|]. unfold alldig in *. cbn [forallb digits_val app lex] in *. apply andb_true_iff in A1, A2. destruct A1 as (X & A1), A2 as (Y & A2). rewrite X, Y. apply is_digit_range in X, Y. destruct H as [H|(-> & H)].
  - pose proof (digits_lt D1 D2 (a * 10 + (x - 48)) (a * 10 + (y - 48)) ltac:(auto) A1 A2 ltac:(lia)). lia.
  - eapply IH; eauto.
Qed.
Lemma fmt10_order w a b r s : 10 <= w -> 0 <= a <= 2147483647 -> 0 <= b <= 2147483647 -> lex (fit (w + 1) (stake 128 (fmt10 a)) ++ r) (fit (w + 1) (stake 128 (fmt10 b)) ++ s) -> a <= b.
Proof.
  intros W A B H. destruct (fmt10_nonneg a A) as (D1 & E1 & A1 & V1 & L1), (fmt10_nonneg b B) as (D2 & E2 & A2 & V2 & L2). rewrite E1, E2 in H. rewrite !stake_all in H by (rewrite slen_cons; lia). unfold fit in H. rewrite !stake_all in H by (rewrite slen_cons; lia). rewrite !slen_cons, L1, L2 in H.
  rewrite <- !app_assoc in H. cbn [app lex] in H. destruct H as [H|(_ & H)]; [lia|]. unfold dval in *. rewrite <- V1, <- V2. eapply digits_le; [|exact A1|exact A2|exact H]. unfold slen in *. lia.
Qed.

(** Records of one time series (the same A, B, C, E and F parts) come in the order of their dates, if the file has an F part of
    ten characters or more and an E part of twelve or more. *)
Theorem C55_dates_partial : forall junk w rs, alen junk = 7 -> fit_a_line w -> Forall sound_name rs -> Forall date_ok rs -> Z.of_nat (length rs) <= 2147483647 ->
  10 <= lF w -> 12 <= lE w ->
  exists l, sortedCatalogue junk (sizes w) (map (fun r => (name r, kind r)) rs) = Ok (answer l) /\ Permutation rs l /\
    forall x y jx jy, before l x y -> is_series (kind x) = true -> is_series (kind y) = true ->
      (forall k, k <> 3%nat -> nth_part x k = nth_part y k) ->
      dateToJulian (nth_part x 3) = Ok jx -> dateToJulian (nth_part y 3) = Ok jy -> jx <> UNDEFINED_TIME -> jy <> UNDEFINED_TIME ->
      -10000000 <= jx -> -10000000 <= jy -> jx <= jy.
Proof.
  intros junk w rs J F SN DO B F10 E12. destruct (nonneg w F) as (? & ? & ? & ? & ? & ?). destruct F as (_ & F).
  destruct (sorted_catalogue junk J (lA w) (lB w) (lC w) (lF w) (lE w) (lD w) (lE w)) with (rs := rs) as (es & E & P & KO & S); auto; try lia.
  { apply Forall_forall. intros r _ _. lia. }
  exists (map (fun x => fst (fst x)) es). split; [|split; [exact P|]].
  - unfold sortedCatalogue. rewrite widths_eq. etransitivity; [exact E|]. unfold answer. rewrite map_map. reflexivity.
  - intros x y jx jy (la & lb & lc & L) TX TY SAME DX DY UX UY NX NY.
    assert (exists ea ex eb ey ec, es = ea ++ ex :: eb ++ ey :: ec /\ fst (fst ex) = x /\ fst (fst ey) = y) as (ea & ex & eb & ey & ec & -> & <- & <-).
    { apply map_eq_app in L. destruct L as (ea & es1 & -> & <- & L). destruct es1 as [|ex es1]; [discriminate L|]. cbn [map] in L. injection L as L0 L. apply map_eq_app in L. destruct L as (eb & es2 & -> & <- & L). destruct es2 as [|ey ec]; [discriminate L|]. cbn [map] in L. injection L as L1 L2. exists ea, ex, eb, ey, ec. auto. }
    clear L. assert (IX : In ex (ea ++ ex :: eb ++ ey :: ec)) by (apply in_or_app; right; left; reflexivity). assert (IY : In ey (ea ++ ex :: eb ++ ey :: ec)) by (apply in_or_app; right; right; apply in_or_app; right; left; reflexivity).
    assert (LE : line_le (line_of ex) (line_of ey)).
    { apply sorted_map in S. clear -S. induction ea as [|z ea IH]; cbn [app] in S; inversion S; subst; [|auto]. rewrite Forall_forall in H2. apply H2. apply in_or_app. right. left. reflexivity. }
    pose proof (Permutation_Forall P SN) as Q1. pose proof (Permutation_Forall P DO) as Q2. rewrite Forall_map in Q1, Q2. rewrite Forall_forall in KO, Q1, Q2.
    pose proof (Q1 _ IX) as SX. pose proof (Q1 _ IY) as SY. pose proof (Q2 _ IX) as (OX & _). pose proof (Q2 _ IY) as (OY & _). apply KO in IX, IY. clear Q1 Q2 KO S P E. destruct ex as [[rx Kx] ix], ey as [[ry Ky] iy]. cbn [fst snd] in *.
    assert (KEY : forall r K i j, sound_name r -> is_series (kind r) = true -> entry_ok junk (lA w) (lB w) (lC w) (lF w) (lE w) (lD w) (lE w) (r, K, i) -> dateToJulian (nth_part r 3) = Ok j -> (j <> UNDEFINED_TIME -> -2147483647 <= j + 10000000 <= 2147483647) ->
      K = row [(nth_part r 0, lA w); (nth_part r 1, lB w); (nth_part r 2, lC w); (nth_part r 5, lD w); (step_field (nth_part r 4), lE w); (day_field (nth_part r 3) j, lF w)]).
    { clear - J F F10 E12 H H0 H1 H2 H3 H4. intros r K i j (L6 & PP) T (I & m & m' & KE & Hm & HM & _) DJ JR. assert (m = lE w) by lia. assert (m' = lE w) by lia. subst m m'. destruct r as [ps ty]. unfold name, nth_part in *. cbn [parts kind] in *. do 7 (destruct ps as [|? ps]; try discriminate L6). cbn [nth] in *.
      assert (CL : Forall (fun p => clean p /\ slen p <= 128) [l; l0; l1; l2; l3; l4]) by (eapply Forall_impl; [|exact PP]; intros p Hp; destruct (plain_clean p Hp) as (? & _ & ?); auto).
      assert (SM : step_max (lE w) l3 = lE w). { unfold step_max. destruct (step l3) as [n|] eqn:ST; [|reflexivity]. pose proof (step_range _ n ST). pose proof (fmt10_clean n ltac:(lia)) as (_ & Ln). rewrite stake_all by lia. lia. }
      unfold pm_ in KE. rewrite sortpath_series with (j := j) in KE; auto; rewrite ?SM in *; try lia.
      - injection KE as KE. apply app_inv_tail in KE. rewrite <- KE. reflexivity.
      - eapply Forall_impl; [|exact PP]. intros p Hp. apply (plain_clean p Hp).
      - repeat (apply Forall_cons; [lia|]). apply Forall_nil.
      - rewrite Forall_forall in CL. apply CL. cbn. tauto.
      - rewrite Forall_forall in CL. apply CL. cbn. tauto.
      - apply clean_nz. rewrite Forall_forall in CL. apply CL. cbn. tauto.
      - intros Q. specialize (JR Q). unfold in32, INT_MIN, INT_MAX. lia. }
    destruct (OX TX) as (j1 & D1 & R1), (OY TY) as (j2 & D2 & R2). rewrite DX in D1. rewrite DY in D2. injection D1 as <-. injection D2 as <-.
    rewrite (KEY rx Kx ix jx), (KEY ry Ky iy jy) in LE; auto. rewrite <- !(SAME 0%nat), <- !(SAME 1%nat), <- !(SAME 2%nat), <- !(SAME 4%nat), <- !(SAME 5%nat) in LE by lia. unfold line_of in LE. cbn [fst snd] in LE.
    unfold row in LE. cbn [flat_map fst snd] in LE. unfold day_field in LE. replace (jx =? UNDEFINED_TIME) with false in LE by lia. replace (jy =? UNDEFINED_TIME) with false in LE by lia. rewrite <- !app_assoc in LE.
    apply line_drop in LE; [|intros Q; apply (f_equal slen) in Q; rewrite fit_len in Q by lia; change (slen []) with 0 in Q; lia]. do 4 apply lex_drop in LE. apply fmt10_order in LE; [lia|lia| |]; [specialize (R1 UX)|specialize (R2 UY)]; lia.
Qed.
Print Assumptions C55_dates_partial.
