(** * Proofs about sorted catalogues: the text zcatSortPath writes for a name. *)
From Coq Require Import ZArith List Lia Bool ZifyBool Sorted Permutation.
From Verif Require Import Base ArrayLib CStr CStrProofs PathSpec PathModel PathProofs DateModel DateTextModel IntervalModel SortSpec SortModel SortProofs SortMerge CatSortSpec CatSortModel CatSortProofs.
Import ListNotations.
Open Scope Z_scope.

Section ONE.
Variables (junk : list Z) (a b c d e f : list Z).
Let ps := [a; b; c; d; e; f].
Hypothesis J : alen junk = 7.
Hypothesis NS : Forall no_slash ps.
Let pos := positions6 (map slen ps).
Let s := path_text ps.

Lemma part_at k p : nth_error ps k = Some p -> exists post, sdrop (nth k pos 0) s = p ++ 47 :: post /\ nth (S k) pos 0 - nth k pos 0 - 1 = slen p.
Proof.
  intros H. destruct (path_text_split ps k p H eq_refl) as (pre & post & E & P1 & P2 & _). exists post. unfold pos, s in *. rewrite (nth_error_nth _ _ _ P1), (nth_error_nth _ _ _ P2). split; [rewrite E; apply sdrop_app|lia].
Qed.
Lemma part_text k p : nth_error ps k = Some p -> stake (nth (S k) pos 0 - nth k pos 0 - 1) (sdrop (nth k pos 0) s) = p.
Proof. intros H. destruct (part_at k p H) as (post & E & L). rewrite E, L. apply stake_app. Qed.
Lemma part_copy k p : nth_error ps k = Some p -> slen p <= 128 -> stringCopy_val 129 (sdrop (nth k pos 0) s) (Some (nth (S k) pos 0 - nth k pos 0 - 1)) = p.
Proof.
  intros H L8. destruct (part_at k p H) as (post & E & L). rewrite E, L. unfold stringCopy_val. destruct (slen p <=? 0) eqn:Q; [destruct p; [reflexivity|unfold slen in Q; cbn [length] in Q; lia]|]. rewrite Z.min_l by lia. apply stake_app.
Qed.

Variables (w0 w1 w2 w3 w4 w5 : Z).
Hypothesis W : Forall (fun n => 0 <= n) [w0; w1; w2; w3; w4; w5].
Hypothesis WS : w0 + w1 + w2 + w3 + w4 + w5 <= 700.
Let pm := [w0; w1; w2; w3; w4; w5].

Lemma number_text i : 0 <= i <= 2147483647 -> stake 11 (fmt10 i) = fmt10 i /\ slen (fmt10 i) = 11.
Proof. intros H. destruct (fmt10_nonneg i H) as (D & -> & _ & _ & L). split; [apply stake_all|]; rewrite slen_cons; lia. Qed.

Ltac pt k := rewrite (part_text k _ eq_refl).
Lemma W' : 0 <= w0 /\ 0 <= w1 /\ 0 <= w2 /\ 0 <= w3 /\ 0 <= w4 /\ 0 <= w5.
Proof. repeat match goal with H : Forall _ (_ :: _) |- _ => inversion H; clear H; subst end. tauto. Qed.


(** what the fields hold *)
Definition tilde (e : list Z) : bool := match e with x :: _ => x =? 126 | [] => false end.
Definition step (e : list Z) : option Z := match find_name (itable 7) (sdrop (if tilde e then 1 else 0) e) with Some (_, n) => Some (if tilde e then pseudo_block 7 n else n) | None => None end.
Definition step_field (e : list Z) : list Z := match step e with Some n => stake 128 (fmt10 n) | None => e end.
Definition step_max (e : list Z) : Z := match step e with Some n => Z.max w4 (slen (stake 128 (fmt10 n))) | None => w4 end.
Definition day_field (j : Z) : list Z := if j =? UNDEFINED_TIME then d else stake 128 (fmt10 (j + 10000000)).
Definition grid_field (r : option (Z * Z)) : list Z := match r with Some (j, secs) => stake 128 (fmt10 (j + 100000) ++ 32 :: fmt_d (secs / 60)) | None => d end.

Ltac idx := 
  change (Z.to_nat 0) with 0%nat; change (Z.to_nat (0 + 1)) with 1%nat; change (Z.to_nat 1) with 1%nat; change (Z.to_nat (1 + 1)) with 2%nat; change (Z.to_nat 2) with 2%nat; change (Z.to_nat (2 + 1)) with 3%nat; change (Z.to_nat 3) with 3%nat; change (Z.to_nat (3 + 1)) with 4%nat; change (Z.to_nat 4) with 4%nat; change (Z.to_nat (4 + 1)) with 5%nat; change (Z.to_nat 5) with 5%nat; change (Z.to_nat (5 + 1)) with 6%nat; change (Z.to_nat 6) with 6%nat.
Ltac fall := repeat (apply Forall_cons; [unfold pm; cbv -[Z.le step_max]; lia|]); apply Forall_nil.

Lemma sortpath_plain ty i : is_series ty = false -> is_grid ty = false -> 0 <= i <= 2147483647 ->
  zcatSortPath junk s ty pm i = Ok (Some (row [(a, w0); (b, w1); (c, w2); (d, w3); (e, w4); (f, w5)] ++ fmt10 i), pm).
Proof.
  intros T1 T2 I. unfold is_series in T1. unfold is_grid in T2. unfold zcatSortPath. unfold s at 1. rewrite positions_spec by (try exact NS; try exact J; reflexivity). cbn [bind]. change (negb (7 =? 7)) with false. cbv iota zeta. fold pos. rewrite T1, T2. cbn [bind].
  idx.
  pt 0%nat. pt 1%nat. pt 2%nat. pt 3%nat. pt 4%nat. pt 5%nat. destruct (number_text i I) as (-> & L). pose proof W' as WW. rewrite toFixed_ok.
  - reflexivity.
  - discriminate.
  - fall.
  - rewrite L. unfold pm. cbv -[Z.add Z.lt step_max]. lia.
Qed.

Lemma sortpath_series ty i j : is_series ty = true -> 0 <= i <= 2147483647 -> slen d <= 128 -> slen e <= 128 -> absent 0 e = true ->
  dateToJulian d = Ok j -> (j <> UNDEFINED_TIME -> in32 (j + 10000000)) ->
  w0 + w1 + w2 + w3 + step_max e + w5 <= 700 -> 
  zcatSortPath junk s ty pm i = Ok (Some (row [(a, w0); (b, w1); (c, w2); (f, w5); (step_field e, step_max e); (day_field j, w3)] ++ fmt10 i), [w0; w1; w2; w3; step_max e; w5]).
Proof.
  intros T1 I LD LE AE DJ DR WM. unfold is_series in T1. unfold zcatSortPath. unfold s at 1. rewrite positions_spec by (try exact NS; try exact J; reflexivity). cbn [bind]. change (negb (7 =? 7)) with false. cbv iota zeta. fold pos. rewrite T1.
  idx. rewrite (part_copy 3 d eq_refl LD), (part_copy 4 e eq_refl LE). rewrite DJ. cbn [bind].
  pt 0%nat. pt 1%nat. pt 2%nat. pt 3%nat. pt 4%nat. pt 5%nat.
  assert (DF : (if j =? UNDEFINED_TIME then Ok d else let* j0 := chk32 (j + 10000000) in Ok (stake 128 (fmt10 j0))) = Ok (day_field j)).
  { unfold day_field. destruct (j =? UNDEFINED_TIME) eqn:Q; [reflexivity|]. rewrite chk32_ok by (apply DR; lia). reflexivity. }
  rewrite DF. cbn [bind]. clear DF.
  assert (EI : ztsGetStandardInterval 7 0 (e ++ [0]) 129 1 = Ok (match step e with Some n => mkItv (if n >? 0 then 0 else 1) n (e ++ [0]) 1 | None => mkItv (-1) 0 (e ++ [0]) 1 end)).
  { unfold ztsGetStandardInterval. change ((1 =? 1) || (1 =? 0)) with true. cbv iota. assert (CE : cstr (e ++ [0]) = Ok e) by (apply TimeTextProps.cstr_app; exact AE). rewrite CE. cbn [bind]. unfold step, tilde. destruct (find_name (itable 7) _) as [[nm n]|]; reflexivity. }
  rewrite EI. cbn [bind]. clear EI.
  assert (PM : (if iv_status (match step e with Some n => mkItv (if n >? 0 then 0 else 1) n (e ++ [0]) 1 | None => mkItv (-1) 0 (e ++ [0]) 1 end) =? -1 then (e, nth 4 pm 0)
     else (stake 128 (fmt10 (iv_secs (match step e with Some n => mkItv (if n >? 0 then 0 else 1) n (e ++ [0]) 1 | None => mkItv (-1) 0 (e ++ [0]) 1 end))),
           if slen (stake 128 (fmt10 (iv_secs (match step e with Some n => mkItv (if n >? 0 then 0 else 1) n (e ++ [0]) 1 | None => mkItv (-1) 0 (e ++ [0]) 1 end)))) >? nth 4 pm 0
           then slen (stake 128 (fmt10 (iv_secs (match step e with Some n => mkItv (if n >? 0 then 0 else 1) n (e ++ [0]) 1 | None => mkItv (-1) 0 (e ++ [0]) 1 end)))) else nth 4 pm 0)) = (step_field e, step_max e)).
  { unfold step_field, step_max. change (nth 4 pm 0) with w4. destruct (step e) as [n|]; [|reflexivity]. cbn [iv_status iv_secs]. replace ((if n >? 0 then 0 else 1) =? -1) with false by (destruct (n >? 0); reflexivity). destruct (slen (stake 128 (fmt10 n)) >? w4) eqn:Q; f_equal; lia. }
  rewrite PM. cbn [bind]. clear PM. cbv iota zeta. cbn [bind].
  destruct (number_text i I) as (-> & L). pose proof W' as WW. assert (0 <= step_max e) by (unfold step_max; destruct (step e); lia). rewrite toFixed_ok.
  - reflexivity.
  - discriminate.
  - fall.
  - rewrite L. unfold pm. cbv -[Z.add Z.lt step_max]. lia.
Qed.

Lemma sortpath_grid ty i r : is_grid ty = true -> 0 <= i <= 2147483647 -> spatialDateTime (sdrop (nth 3 pos 0) s) = Ok r -> (forall j q, r = Some (j, q) -> in32 (j + 100000)) ->
  zcatSortPath junk s ty pm i = Ok (Some (row [(a, w0); (b, w1); (c, w2); (grid_field r, w3); (f, w5); (e, w4)] ++ fmt10 i), pm).
Proof.
  intros T2 I SD SR. unfold is_grid in T2. assert (T1 : (100 <=? ty) && (ty <? 200) = false) by lia. unfold zcatSortPath. unfold s at 1. rewrite positions_spec by (try exact NS; try exact J; reflexivity). cbn [bind]. change (negb (7 =? 7)) with false. cbv iota zeta. fold pos. rewrite T1, T2.
  idx. rewrite SD. cbn [bind]. pt 0%nat. pt 1%nat. pt 2%nat. pt 3%nat. pt 4%nat. pt 5%nat.
  assert (DF : (match r with Some (j, secs) => let* j0 := chk32 (j + 100000) in Ok (stake 128 (fmt10 j0 ++ 32 :: fmt_d (secs / 60))) | None => Ok d end) = Ok (grid_field r)).
  { destruct r as [[j q]|]; [|reflexivity]. rewrite chk32_ok by (eapply SR; reflexivity). reflexivity. }
  rewrite DF. cbn [bind]. destruct (number_text i I) as (-> & L). pose proof W' as WW. rewrite toFixed_ok.
  - reflexivity.
  - discriminate.
  - fall.
  - rewrite L. unfold pm. cbv -[Z.add Z.lt step_max]. lia.
Qed.
End ONE.
