(** * Proofs about sorted catalogues: writing the lines, sorting them, reading them back. *)
From Coq Require Import ZArith List Lia Bool ZifyBool Sorted Permutation.
From Verif Require Import Base ArrayLib CStr CStrProofs PathSpec PathModel PathProofs DateModel DateTextModel IntervalModel SortSpec SortModel SortProofs SortMerge CatSortSpec CatSortModel CatSortProofs CatSortLines.
Import ListNotations.
Open Scope Z_scope.

Definition ch (c : Z) : Prop := c <> 0 /\ c <> 10.
Definition clean (t : list Z) : Prop := Forall ch t.
Lemma clean_nz t : clean t -> absent 0 t = true.
Proof. intros H. apply forallb_forall. intros x I. unfold clean in H. rewrite Forall_forall in H. destruct (H x I). lia. Qed.
Lemma clean_nl t : clean t -> has_newline t = false.
Proof. induction 1 as [|x l [A B] _ IH]; [reflexivity|]. unfold has_newline in *. cbn [existsb]. rewrite IH. replace (x =? 10) with false by lia. reflexivity. Qed.
Lemma clean_stake k t : clean t -> clean (stake k t).
Proof. intros H. apply Forall_forall. intros x I. unfold clean in H. rewrite Forall_forall in H. apply H. unfold stake in I. rewrite <- (firstn_skipn (Z.to_nat k) t). apply in_or_app. left. exact I. Qed.
Lemma clean_repeat n : clean (repeat 32 n).
Proof. apply Forall_forall. intros x I. apply repeat_spec in I. subst. split; lia. Qed.
Lemma clean_fit w t : clean t -> clean (fit w t).
Proof. intros H. apply Forall_app. split; [apply clean_stake; exact H|apply clean_repeat]. Qed.
Lemma clean_row cells : Forall (fun c => clean (fst c)) cells -> clean (row cells).
Proof. induction 1 as [|c l H _ IH]; [constructor|]. unfold row in *. cbn [flat_map]. apply Forall_app. split; [apply clean_fit; exact H|exact IH]. Qed.
Lemma clean_digits t : alldig t = true -> clean t.
Proof. intros H. apply Forall_forall. intros x I. unfold alldig in H. rewrite forallb_forall in H. specialize (H x I). apply is_digit_range in H. split; lia. Qed.
Lemma fmt10_clean i : -2147483647 <= i <= 2147483647 -> clean (fmt10 i) /\ 11 <= slen (fmt10 i) <= 12.
Proof.
  intros H. destruct (Z_lt_le_dec i 0).
  - destruct (fmt10_neg i ltac:(lia)) as (D & -> & A & _ & L). split; [|rewrite !slen_cons; lia]. constructor; [split; lia|]. constructor; [split; lia|]. apply clean_digits, A.
  - destruct (fmt10_nonneg i ltac:(lia)) as (D & -> & A & _ & L). split; [|rewrite !slen_cons; lia]. constructor; [split; lia|]. apply clean_digits, A.
Qed.
Lemma plain_clean p : plain_part p -> clean p /\ no_slash p /\ slen p <= 128.
Proof.
  intros (C & S & N & L). split; [|split; [exact S|unfold slen; lia]]. apply Forall_forall. intros x I. unfold c_text in C. rewrite Forall_forall in C. specialize (C x I). split; [lia|]. intros ->. auto.
Qed.

Lemma step_range e n : step e = Some n -> -5 <= n <= 31536000.
Proof.
  unfold step. destruct (find_name _ _) as [[nm v]|] eqn:F; [|discriminate]. intros H. injection H as <-. unfold find_name in F. apply find_some in F. destruct F as (I & _).
  assert (R : -5 <= v <= 31536000).
  { assert (A : forallb (fun p => (-5 <=? snd p) && (snd p <=? 31536000)) (itable 7) = true) by (vm_compute; reflexivity). rewrite forallb_forall in A. specialize (A _ I). cbn [snd] in A. lia. }
  destruct (tilde e); [|exact R]. unfold pseudo_block. destruct (v <? 1800), (v <? (if 7 =? 6 then 86400 else 21600)), (v <? 604800), (v <? 2592000); lia.
Qed.

(** the dates in the D part can be read without an overflow *)
Definition date_ok (r : listed) : Prop :=
  (is_series (kind r) = true -> exists j, dateToJulian (nth_part r 3) = Ok j /\ (j <> UNDEFINED_TIME -> -2147483647 <= j + 10000000 <= 2147483647)) /\
  (is_grid (kind r) = true -> exists x, spatialDateTime (nth_part r 3 ++ 47 :: nth_part r 4 ++ 47 :: nth_part r 5 ++ [47]) = Ok x /\ 
     forall j q, x = Some (j, q) -> -2147483647 <= j + 100000 <= 2147483647 /\ 0 <= q <= 2147483647).

Lemma rest_of_name a b c d e f : sdrop (nth 3 (positions6 (map slen [a; b; c; d; e; f])) 0) (path_text [a; b; c; d; e; f]) = d ++ 47 :: e ++ 47 :: f ++ [47].
Proof.
  unfold path_text. cbn [map concat]. cbn [positions6 map nth]. 
  replace (47 :: (a ++ [47]) ++ (b ++ [47]) ++ (c ++ [47]) ++ (d ++ [47]) ++ (e ++ [47]) ++ (f ++ [47]) ++ []) with ((47 :: a ++ [47] ++ b ++ [47] ++ c ++ [47]) ++ d ++ 47 :: e ++ 47 :: f ++ [47]) by (cbn [app]; repeat (rewrite <- !app_assoc; cbn [app]); rewrite ?app_nil_r; reflexivity).
  match goal with |- sdrop ?n (?l ++ ?r) = _ => replace n with (slen l); [apply sdrop_app|] end.
  repeat (rewrite ?slen_cons, ?slen_app). change (slen []) with 0. lia.
Qed.

Section SORT.
Variable junk : list Z.
Hypothesis J : alen junk = 7.
Variables (w0 w1 w2 w3 w4 w5 M : Z).
Hypothesis W0 : 0 <= w0. Hypothesis W1 : 0 <= w1. Hypothesis W2 : 0 <= w2. Hypothesis W3 : 0 <= w3. Hypothesis W4 : 0 <= w4. Hypothesis W5 : 0 <= w5.
Hypothesis M4 : w4 <= M.
(** an interval in seconds takes 12 characters *)
Definition e_room (r : listed) : Prop := is_series (kind r) = true -> 12 <= M.
Hypothesis WM : w0 + w1 + w2 + w3 + M + w5 <= 380.
Definition pm_ (m : Z) : list Z := [w0; w1; w2; w3; m; w5].

(** the line of a record is [K], the number, a NUL *)
Definition key_of (r : listed) (K : list Z) (i m m' : Z) : Prop :=
  zcatSortPath junk (name r) (kind r) (pm_ m) i = Ok (Some (K ++ fmt10 i), pm_ m') /\ w4 <= m <= m' /\ m' <= M /\ clean K /\ slen K = w0 + w1 + w2 + w3 + m' + w5 + 6.

Lemma key_exists r i m : sound_name r -> date_ok r -> e_room r -> 0 <= i <= 2147483647 -> w4 <= m <= M -> exists K m', key_of r K i m m'.
Proof.
  intros (L6 & PP) (DS & DG) M12 I Hm. destruct r as [ps ty]. unfold e_room in M12. cbn [parts kind] in *. unfold name. cbn [parts]. do 7 (destruct ps as [|? ps]; try discriminate L6). rename l into a, l0 into b, l1 into c, l2 into d, l3 into e, l4 into f. clear L6.
  unfold nth_part in DS, DG. cbn [parts kind nth] in DS, DG.
  assert (NS : Forall no_slash [a; b; c; d; e; f]) by (eapply Forall_impl; [|exact PP]; intros p Hp; apply (plain_clean p Hp)).
  assert (CL : Forall (fun p => clean p /\ slen p <= 128) [a; b; c; d; e; f]) by (eapply Forall_impl; [|exact PP]; intros p Hp; destruct (plain_clean p Hp) as (? & _ & ?); auto).
  pose proof (Forall_inv CL) as (Ca & La). apply Forall_inv_tail in CL. pose proof (Forall_inv CL) as (Cb & Lb). apply Forall_inv_tail in CL. pose proof (Forall_inv CL) as (Cc & Lc). apply Forall_inv_tail in CL. pose proof (Forall_inv CL) as (Cd & Ld). apply Forall_inv_tail in CL. pose proof (Forall_inv CL) as (Ce & Le). apply Forall_inv_tail in CL. pose proof (Forall_inv CL) as (Cf & Lf). clear CL.
  assert (FW : Forall (fun n => 0 <= n) [w0; w1; w2; w3; m; w5]) by (repeat constructor; lia).
  destruct (is_series ty) eqn:TS; [|destruct (is_grid ty) eqn:TG].
  - destruct (DS eq_refl) as (j & DJ & JR). cbn [kind] in M12. specialize (M12 eq_refl).
    assert (SM : m <= step_max m e <= M).
    { unfold step_max. destruct (step e) as [n|] eqn:ST; [|lia]. pose proof (step_range e n ST). pose proof (fmt10_clean n ltac:(lia)) as (_ & L). rewrite stake_all by lia. lia. }
    exists (row [(a, w0); (b, w1); (c, w2); (f, w5); (step_field e, step_max m e); (day_field d j, w3)]), (step_max m e). split; [|split; [lia|split; [lia|split]]].
    + apply (sortpath_series junk a b c d e f J NS w0 w1 w2 w3 m w5 FW ty i j); auto; [apply clean_nz, Ce|intros Q; specialize (JR Q); unfold in32, INT_MIN, INT_MAX; lia|lia].
    + apply clean_row. repeat (apply Forall_cons; [cbn [fst]|]); try apply Forall_nil; auto.
      * unfold step_field. destruct (step e) as [n|] eqn:ST; [|exact Ce]. pose proof (step_range e n ST). apply clean_stake, fmt10_clean. lia.
      * unfold day_field. destruct (j =? UNDEFINED_TIME) eqn:Q; [exact Cd|]. apply clean_stake, fmt10_clean. apply JR. lia.
    + rewrite row_len by (repeat (apply Forall_cons; [cbn [snd]; lia|]); apply Forall_nil). cbn [total fold_right snd]. lia.
  - destruct (DG eq_refl) as (x & SX & XR). exists (row [(a, w0); (b, w1); (c, w2); (grid_field d x, w3); (f, w5); (e, m)]), m. split; [|split; [lia|split; [lia|split]]].
    + apply (sortpath_grid junk a b c d e f J NS w0 w1 w2 w3 m w5 FW ltac:(lia) ty i x); auto; [rewrite rest_of_name; exact SX|]. intros j q E. specialize (XR j q E). unfold in32, INT_MIN, INT_MAX. lia.
    + apply clean_row. repeat (apply Forall_cons; [cbn [fst]|]); try apply Forall_nil; auto. unfold grid_field. destruct x as [[j q]|]; [|exact Cd]. destruct (XR j q eq_refl) as (X1 & X2). apply clean_stake, Forall_app. split; [apply fmt10_clean; lia|]. constructor; [split; lia|]. 
      unfold fmt_d. assert (Q60 : 0 <= q / 60 <= 2147483647) by (split; [apply Z.div_pos; lia|]; apply Z.div_le_upper_bound; lia). replace (q / 60 <? 0) with false by lia. apply clean_digits, dec_spec. exact Q60.
    + rewrite row_len by (repeat (apply Forall_cons; [cbn [snd]; lia|]); apply Forall_nil). cbn [total fold_right snd]. lia.
  - exists (row [(a, w0); (b, w1); (c, w2); (d, w3); (e, m); (f, w5)]), m. split; [|split; [lia|split; [lia|split]]].
    + apply (sortpath_plain junk a b c d e f J NS w0 w1 w2 w3 m w5 FW ltac:(lia) ty i); auto.
    + apply clean_row. repeat (apply Forall_cons; [cbn [fst]|]); try apply Forall_nil; auto.
    + rewrite row_len by (repeat (apply Forall_cons; [cbn [snd]; lia|]); apply Forall_nil). cbn [total fold_right snd]. lia.
Qed.

(** one line of the unsorted file: record, key, number *)
Definition entry : Type := listed * list Z * Z.
Definition line_of (x : entry) : list Z := snd (fst x) ++ fmt10 (snd x) ++ [0].
Definition entry_ok (x : entry) : Prop := let '(r, K, i) := x in 0 <= i <= 2147483647 /\ exists m m', key_of r K i m m'.

Fixpoint upto (i : Z) (n : nat) : list Z := match n with O => [] | S k => i :: upto (i + 1) k end.
Definition item (r : listed) : list Z * Z := (name r, kind r).

Lemma write_ok rs : Forall sound_name rs -> Forall date_ok rs -> Forall e_room rs -> forall m i, w4 <= m <= M -> 0 <= i -> i + Z.of_nat (length rs) <= 2147483647 ->
  exists es, write_keys junk (map item rs) (pm_ m) i = Ok (text_of (map line_of es)) /\ map (fun x => fst (fst x)) es = rs /\ map snd es = upto i (length rs) /\ Forall entry_ok es.
Proof.
  induction rs as [|r rs IH]; intros SN DO EO m i Hm Hi B.
  - exists []. auto.
  - inversion SN; inversion DO; inversion EO; subst. cbn [length] in B. destruct (key_exists r i m) as (K & m' & KO); auto; [lia|]. destruct (IH ltac:(auto) ltac:(auto) ltac:(auto) m' (i + 1)) as (es & E & A1 & A2 & A3); [destruct KO as (_ & ? & ? & _); lia|lia|lia|].
    exists ((r, K, i) :: es). cbn [map fst snd upto length]. split; [|split; [congruence|split; [congruence|]]].
    + cbn [write_keys item]. destruct KO as (KO & _). rewrite KO. cbn [bind]. rewrite E. cbn [bind]. f_equal. change (text_of (line_of (r, K, i) :: map line_of es)) with (((K ++ fmt10 i ++ [0]) ++ [10]) ++ text_of (map line_of es)). rewrite <- !app_assoc. cbn [app]. reflexivity.
    + constructor; [|exact A3]. split; [lia|eauto].
Qed.

Lemma line_facts x : entry_ok x -> has_newline (line_of x) = false /\ slen (line_of x) <= 398 /\ getLastInt (snd (fst x) ++ fmt10 (snd x)) = Ok (snd x) /\ cstr ((line_of x ++ [10]) ++ [0]) = Ok (snd (fst x) ++ fmt10 (snd x)).
Proof.
  destruct x as [[r K] i]. intros (I & m & m' & _ & B1 & B2 & C & L). unfold line_of. cbn [fst snd]. destruct (fmt10_clean i ltac:(lia)) as (C2 & _). destruct (fmt10_nonneg i I) as (D & F & _ & _ & LD).
  split; [|split; [|split]].
  - rewrite !has_newline_app, (clean_nl K C), (clean_nl _ C2). reflexivity.
  - rewrite !slen_app, L. rewrite F, slen_cons, LD. change (slen [0]) with 1. lia.
  - apply getLastInt_ok; [|exact I]. intros ->. change (slen []) with 0 in L. lia.
  - replace (((K ++ fmt10 i ++ [0]) ++ [10]) ++ [0]) with ((K ++ fmt10 i) ++ 0 :: [10; 0]) by (rewrite <- !app_assoc; reflexivity). apply TimeTextProps.cstr_app. apply clean_nz, Forall_app. auto.
Qed.

Lemma read_ok (names : list (list Z)) es : Forall entry_ok es -> Forall (fun x => aget names (snd x) = Ok (name (fst (fst x)))) es ->
  read_sorted (length es) (text_of (map line_of es)) names = Ok (Some (map (fun x => Some (name (fst (fst x)))) es)).
Proof.
  induction es as [|x es IH]; intros F G; [reflexivity|]. inversion F; inversion G; subst. destruct (line_facts x) as (N & L & GI & CS); [assumption|].
  cbn [length map read_sorted]. change (text_of (line_of x :: map line_of es)) with ((line_of x ++ [10]) ++ text_of (map line_of es)). rewrite <- app_assoc. cbn [app]. rewrite (fgets_line _ _ N) by (unfold slen in L; lia).
  destruct (line_of x ++ [10]) as [|c0 l0] eqn:E; [destruct (line_of x); discriminate|]. rewrite <- E in *. rewrite CS. cbn [bind]. rewrite GI. cbn [bind]. destruct x as [[r K] i]. cbn [fst snd] in *. replace (i >? -1) with true by (destruct H1 as (? & _); lia). rewrite H5. cbn [bind]. rewrite IH by assumption. reflexivity.
Qed.

Lemma upto_nth n : forall i k, (k < n)%nat -> nth_error (upto i n) k = Some (i + Z.of_nat k).
Proof. induction n as [|n IH]; intros i k L; [lia|]. destruct k; cbn [upto nth_error]; [f_equal; lia|]. rewrite IH by lia. f_equal. lia. Qed.
Lemma upto_in n : forall i x, In x (upto i n) -> i <= x < i + Z.of_nat n.
Proof. induction n as [|n IH]; intros i x H; [destruct H|]. destruct H as [<-|H]; [lia|]. specialize (IH _ _ H). lia. Qed.

Lemma sorted_catalogue rs : Forall sound_name rs -> Forall date_ok rs -> Forall e_room rs -> Z.of_nat (length rs) <= 2147483647 ->
  exists es : list entry, zcatInternalSort junk (pm_ w4) (map item rs) = Ok (Some (map (fun x => Some (name (fst (fst x)))) es)) /\
    Permutation rs (map (fun x => fst (fst x)) es) /\ Forall entry_ok es /\ StronglySorted line_le (map line_of es).
Proof.
  intros SN DO EO B. destruct (write_ok rs SN DO EO w4 0 ltac:(lia) ltac:(lia) ltac:(lia)) as (es & E & A1 & A2 & A3).
  assert (NL : Forall (fun l => has_newline l = false) (map line_of es)) by (apply Forall_map; eapply Forall_impl; [|exact A3]; intros x Hx; apply (line_facts x Hx)).
  destruct (sortfiles_ok (text_of (map line_of es))) as (out & SO & ls & OUT & P & SS).
  { unfold short. rewrite (lines_text _ NL). apply Forall_map. eapply Forall_impl; [|exact A3]. intros x Hx. destruct (line_facts x Hx) as (_ & L & _). cbv beta. lia. }
  rewrite (lines_text _ NL) in P. destruct (Permutation_map_inv _ _ (Permutation_sym P)) as (es' & -> & P'). exists es'.
  assert (F' : Forall entry_ok es') by (eapply Permutation_Forall; eassumption).
  assert (LE : length es = length rs) by (rewrite <- A1, map_length; reflexivity).
  split; [|split; [|split; [exact F'|exact SS]]].
  - unfold zcatInternalSort. rewrite E. cbn [bind]. rewrite SO. cbn [bind]. rewrite OUT. replace (length (map item rs)) with (length es') by (rewrite map_length, <- LE; symmetry; apply Permutation_length, P'). apply read_ok; [exact F'|].
    apply (Permutation_Forall P'). apply Forall_forall. intros x Ix. destruct (In_nth_error _ _ Ix) as (k & Nk).
    assert (Kb : (k < length rs)%nat) by (rewrite <- LE; apply nth_error_Some; congruence).
    pose proof (map_nth_error snd _ _ Nk) as S1. rewrite A2, upto_nth in S1 by exact Kb. injection S1 as S1. pose proof (map_nth_error (fun x => fst (fst x)) _ _ Nk) as S2. cbv beta in S2. rewrite A1 in S2.
    rewrite <- S1. unfold aget. replace (Z.of_nat k <? 0) with false by lia. rewrite Nat2Z.id. rewrite (map_nth_error fst _ _ (map_nth_error item _ _ S2)). reflexivity.
  - rewrite <- A1 at 1. apply Permutation_map. exact P'.
Qed.
End SORT.
