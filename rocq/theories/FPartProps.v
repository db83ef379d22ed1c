(** * C40: F-part tag normalisation. *)
From Coq Require Import String ZArith List Bool Lia ZifyBool Permutation.
From Verif Require Import Base ArrayLib HashModel CStr CStrProofs DateSpec DateTextModel PathModel IntervalSpec FPartModel FPartSpec.
Import ListNotations.
Local Notation length := List.length.
Local Notation concat := List.concat.
Open Scope Z_scope.
Open Scope res_scope.

(** ** pieces *)
Lemma cut_ne s : exists p r, cut s = p :: r.
Proof. induction s as [|c t (p & r & E)]; cbn [cut]; [eauto|]. destruct (c =? 124); [eauto|]. rewrite E. eauto. Qed.

Lemma strtok_cut s : forall cur, strtok_bar s cur = filter nonempty (match cut s with p :: r => (cur ++ p) :: r | [] => [] end).
Proof.
  induction s as [|c t IH]; intros cur; cbn [strtok_bar cut].
  - rewrite app_nil_r. destruct cur; reflexivity.
  - destruct (cut_ne t) as (p & r & E). destruct (c =? 124).
    + rewrite IH, E. cbn [app]. rewrite app_nil_r. destruct cur; reflexivity.
    + rewrite IH, E. rewrite <- app_assoc. reflexivity.
Qed.
Lemma strtok_pieces s : strtok_bar s [] = pieces s.
Proof. rewrite strtok_cut. unfold pieces. destruct (cut_ne s) as (p & r & ->). reflexivity. Qed.

Definition barfree (p : list Z) : Prop := ~ In 124 p.
Lemma cut_barfree s : Forall barfree (cut s).
Proof.
  induction s as [|c t IH]; cbn [cut]; [constructor; [intros []|constructor]|].
  destruct (c =? 124) eqn:E; [constructor; [intros []|exact IH]|].
  destruct (cut_ne t) as (p & r & X). rewrite X in *. inversion IH; subst. constructor; [|assumption].
  intros [H|H]; [lia|]. apply H1, H.
Qed.
Lemma pieces_prop s p : In p (pieces s) -> barfree p /\ p <> [].
Proof.
  unfold pieces. intros H. apply filter_In in H. destruct H as [H N]. split; [|destruct p; [discriminate|discriminate]].
  pose proof (cut_barfree s) as B. rewrite Forall_forall in B. apply B, H.
Qed.
Lemma cut_in s c : In c s -> c <> 124 -> exists p, In p (cut s) /\ In c p.
Proof.
  induction s as [|d t IH]; intros H N; [destruct H|]. cbn [cut]. destruct (d =? 124) eqn:E.
  - destruct H as [->|H]; [lia|]. destruct (IH H N) as (p & Hp & Hc). exists p. split; [right; exact Hp|exact Hc].
  - destruct (cut_ne t) as (p & r & X). rewrite X in *. destruct H as [->|H].
    + exists (c :: p). split; left; reflexivity.
    + destruct (IH H N) as (q & [<- |Hq] & Hc); [exists (d :: p); split; [left; reflexivity|right; exact Hc]|].
      exists q. split; [right; exact Hq|exact Hc].
Qed.
Lemma pieces_in s c : In c s -> c <> 124 -> exists p, In p (pieces s) /\ In c p.
Proof.
  intros H N. destruct (cut_in s c H N) as (p & Hp & Hc). exists p. split; [|exact Hc].
  apply filter_In. split; [exact Hp|]. destruct p; [destruct Hc|reflexivity].
Qed.
Lemma cut_app p r : barfree p -> cut (p ++ 124 :: r) = p :: cut r.
Proof.
  induction p as [|c p IH]; intros H; [reflexivity|]. cbn [app cut].
  destruct (c =? 124) eqn:E; [exfalso; apply H; left; lia|]. rewrite IH; [reflexivity|]. intros X. apply H. right. exact X.
Qed.
Lemma cut_one p : barfree p -> cut p = [p].
Proof.
  induction p as [|c p IH]; intros H; [reflexivity|]. cbn [cut].
  destruct (c =? 124) eqn:E; [exfalso; apply H; left; lia|]. rewrite IH; [reflexivity|]. intros X. apply H. right. exact X.
Qed.
Lemma pieces_app p r : barfree p -> p <> [] -> pieces (p ++ 124 :: r) = p :: pieces r.
Proof. intros H N. unfold pieces. rewrite cut_app by exact H. cbn [filter]. destruct p; [congruence|reflexivity]. Qed.

(** ** one piece *)
Lemma strchr_some p c i : strchr p c = Some i -> 0 <= i.
Proof. revert i. induction p as [|x p IH]; intros i H; [discriminate|]. cbn [strchr] in H. destruct (x =? c); [injection H; lia|].
  destruct (strchr p c) as [j|]; [|discriminate]. injection H as <-. specialize (IH j eq_refl). lia. Qed.
Lemma strchr_none p c : strchr p c = None <-> forallb (fun x => negb (x =? c)) p = true.
Proof.
  induction p as [|x p IH]; [cbn; tauto|]. cbn [strchr forallb]. destruct (x =? c); cbn [negb andb]; [split; discriminate|].
  destruct (strchr p c); rewrite <- IH; split; congruence.
Qed.
Lemma tagged_strchr p : strchr p 58 = Some 1 -> exists a v, p = a :: 58 :: v /\ a <> 58 /\ tagged p = Some (toupper a, v).
Proof.
  destruct p as [|a [|b v]]; cbn [strchr]; [discriminate| |].
  - destruct (a =? 58); discriminate.
  - destruct (a =? 58) eqn:A; [discriminate|]. destruct (b =? 58) eqn:B.
    + intros _. apply Z.eqb_eq in B. subst b. exists a, v. split; [reflexivity|]. split; [lia|]. cbn [tagged]. rewrite A. reflexivity.
    + destruct (strchr v 58) as [i|] eqn:E; [|discriminate]. intros H. pose proof (strchr_some _ _ _ E). injection H as H. lia.
Qed.
Lemma tagged_inv p t v : tagged p = Some (t, v) -> exists a, p = a :: 58 :: v /\ a <> 58 /\ t = toupper a /\ strchr p 58 = Some 1 /\ untaggedb p = false.
Proof.
  destruct p as [|a [|b w]]; cbn [tagged]; try discriminate. destruct (a =? 58) eqn:A; [discriminate|].
  destruct (b =? 58) eqn:B; [|discriminate]. cbn [negb andb]. intros H. injection H as <- <-. apply Z.eqb_eq in B. subst b.
  exists a. split; [reflexivity|]. split; [lia|]. split; [reflexivity|]. split; [cbn [strchr]; rewrite A; reflexivity|].
  unfold untaggedb. cbn [forallb]. rewrite A. reflexivity.
Qed.
Lemma untagged_tagged p : untaggedb p = true -> tagged p = None.
Proof. intros H. destruct (tagged p) as [[t v]|] eqn:E; [|reflexivity]. destruct (tagged_inv _ _ _ E) as (_ & _ & _ & _ & _ & U). congruence. Qed.

Definition good_tok (p : list Z) : Prop :=
  untaggedb p = true \/ exists t v, tagged p = Some (t, v) /\ In t canonical_order /\ validateFPartTag t v = true.

Lemma in_tags c : existsb (Z.eqb c) TAG_CHARACTERS = true <-> In c canonical_order.
Proof. unfold TAG_CHARACTERS, canonical_order. cbn [existsb In]. lia. Qed.

Definition ocnt {A} (o : option A) : nat := match o with Some _ => 1%nat | None => 0%nat end.

Lemma scan_ok toks : forall tags un, Forall good_tok toks -> NoDup (map fst (tags ++ tags_in toks)) ->
  (length (untagged_in toks) + ocnt un <= 1)%nat ->
  scan_tags toks tags un = (FP_SUCCESS, tags ++ tags_in toks, match un with Some u => Some u | None => hd_error (untagged_in toks) end).
Proof.
  induction toks as [|p toks IH]; intros tags un G N L; cbn [scan_tags tags_in].
  - rewrite app_nil_r. destruct un; reflexivity.
  - inversion G as [|? ? Gp Gt]; subst. destruct Gp as [U|(t & v & T & C & V)].
    + rewrite (untagged_tagged p U) in *. unfold untaggedb in U. pose proof (proj2 (strchr_none p 58) U) as S0. rewrite S0.
      cbn [untagged_in filter] in *. fold untaggedb in U. unfold untagged_in in *. cbn [filter] in L |- *.
      assert (U' : untaggedb p = true) by exact U. rewrite U' in *. cbn [length] in L.
      destruct un as [u|]; [cbn [ocnt] in L; lia|]. cbn [tags_in] in N. rewrite (untagged_tagged p U') in N.
      rewrite IH; [reflexivity|exact Gt|exact N|cbn [ocnt] in *; lia].
    + destruct (tagged_inv _ _ _ T) as (a & -> & Ha & -> & S1 & U). rewrite S1. change (negb (1 =? 1)) with false. cbn iota.
      change (nthc (a :: 58 :: v) 0) with a. change (sdrop 2 (a :: 58 :: v)) with v. cbn zeta.
      rewrite (proj2 (in_tags _) C). cbn [negb].
      cbn [tags_in] in N. rewrite T in N |- *.
      assert (X : existsb (fun tv => fst tv =? toupper a) tags = false).
      { destruct (existsb _ tags) eqn:E; [|reflexivity]. exfalso. apply existsb_exists in E. destruct E as (tv & Hin & E).
        rewrite map_app in N. cbn [map fst] in N. apply NoDup_remove_2 in N. apply N, in_or_app. left.
        apply Z.eqb_eq in E. rewrite <- E. apply in_map, Hin. }
      rewrite X, V. unfold untagged_in in *. cbn [filter] in L |- *. rewrite U in L |- *.
      rewrite IH; [rewrite <- app_assoc; reflexivity|exact Gt|rewrite <- app_assoc; exact N|exact L].
Qed.

Lemma scan_inv toks : forall tags un tags' un', NoDup (map fst tags) ->
  scan_tags toks tags un = (FP_SUCCESS, tags', un') ->
  Forall good_tok toks /\ NoDup (map fst (tags ++ tags_in toks)) /\ (length (untagged_in toks) + ocnt un <= 1)%nat.
Proof.
  induction toks as [|p toks IH]; intros tags un tags' un' N H; cbn [scan_tags tags_in] in *.
  - rewrite app_nil_r. split; [constructor|]. split; [exact N|]. destruct un; cbn; lia.
  - destruct (strchr p 58) as [i|] eqn:S0.
    + destruct (i =? 1) eqn:I; [|discriminate H]. cbn [negb] in H. apply Z.eqb_eq in I. subst i.
      destruct (tagged_strchr p S0) as (a & v & -> & Ha & T). rewrite T. change (nthc (a :: 58 :: v) 0) with a in H.
      change (sdrop 2 (a :: 58 :: v)) with v in H. cbn zeta in H.
      destruct (existsb (Z.eqb (toupper a)) TAG_CHARACTERS) eqn:C; [|discriminate H]. cbn [negb] in H.
      destruct (existsb (fun tv => fst tv =? toupper a) tags) eqn:R; [discriminate H|].
      destruct (validateFPartTag (toupper a) v) eqn:V.
      * destruct (tagged_inv _ _ _ T) as (_ & _ & _ & _ & _ & U).
        apply IH in H.
        -- destruct H as (H1 & H2 & H3). rewrite <- app_assoc in H2. cbn [app] in H2. split; [|split; [exact H2|]].
           ++ constructor; [|exact H1]. right. exists (toupper a), v. split; [exact T|]. split; [apply in_tags, C|exact V].
           ++ unfold untagged_in in *. cbn [filter]. rewrite U. exact H3.
        -- rewrite map_app. cbn [map fst]. apply (Permutation.Permutation_NoDup (l := toupper a :: map fst tags)).
           ++ apply Permutation.Permutation_cons_append.
           ++ constructor; [|exact N]. intros X. apply in_map_iff in X. destruct X as (tv & X & Hin).
              assert (existsb (fun tv => fst tv =? toupper a) tags = true); [|congruence].
              apply existsb_exists. exists tv. split; [exact Hin|lia].
      * exfalso. destruct (toupper a =? 67), (toupper a =? 84), (toupper a =? 86), (toupper a =? 82); discriminate H.
    + pose proof (proj1 (strchr_none p 58) S0) as U. fold (untaggedb p) in U.
      destruct un as [u|]; [discriminate H|]. apply IH in H; [|exact N]. destruct H as (H1 & H2 & H3).
      rewrite (untagged_tagged p U). split; [constructor; [left; exact U|exact H1]|]. split; [exact H2|].
      unfold untagged_in in *. cbn [filter]. rewrite U. cbn [length ocnt] in *. lia.
Qed.

(** ** writing the tags *)
Lemma lookup_none t tags : ~ In t (map fst tags) -> lookup t tags = None.
Proof.
  intros H. unfold lookup. destruct (find _ tags) as [tv|] eqn:E; [|reflexivity].
  apply find_some in E. destruct E as [E1 E2]. exfalso. apply H. apply Z.eqb_eq in E2. rewrite <- E2. apply in_map, E1.
Qed.
Lemma emit_one t tags : NoDup (map fst tags) ->
  flat_map (fun tv => if fst tv =? t then [fst tv; 58] ++ snd tv ++ [124] else []) tags =
  match lookup t tags with Some v => t :: 58 :: v ++ [124] | None => [] end.
Proof.
  induction tags as [|[u w] tags IH]; intros N; [reflexivity|]. cbn [flat_map fst snd map] in *. inversion N; subst.
  unfold lookup. cbn [find fst]. destruct (u =? t) eqn:E.
  - apply Z.eqb_eq in E. subst u. rewrite IH by assumption. rewrite (lookup_none t tags) by assumption. rewrite app_nil_r. reflexivity.
  - rewrite app_nil_l, IH by assumption. reflexivity.
Qed.
Lemma emit_spec tags : NoDup (map fst tags) -> emit_tags tags =
  concat (map (fun t => match lookup t tags with Some v => t :: 58 :: v ++ [124] | None => [] end) canonical_order).
Proof.
  intros N. unfold emit_tags. change TAG_CHARACTERS with canonical_order. rewrite flat_map_concat_map. f_equal.
  apply map_ext. intros t. apply emit_one, N.
Qed.
Lemma emit_ne tags t v : NoDup (map fst tags) -> In (t, v) tags -> In t canonical_order -> emit_tags tags <> [].
Proof.
  intros N H C. rewrite emit_spec by exact N.
  assert (L : exists w, lookup t tags = Some w).
  { unfold lookup. destruct (find (fun tv => fst tv =? t) tags) as [tv|] eqn:E; [eauto|].
    exfalso. pose proof (find_none _ _ E _ H) as X. cbn [fst] in X. rewrite Z.eqb_refl in X. discriminate. }
  destruct L as (w & L). apply in_split in C. destruct C as (l & r & C). rewrite C, map_app, concat_app. cbn [map concat]. rewrite L.
  intros X. apply app_eq_nil in X. destruct X as [_ X]. discriminate X.
Qed.

Definition ok_value (t : Z) (v : list Z) : Prop := validateFPartTag t v = true.

Lemma good_toks s : good_fpart ok_value s -> Forall good_tok (pieces s).
Proof.
  intros G. apply Forall_forall. intros p Hp. destruct (gf_pieces _ _ G p Hp) as [U|(t & v & T & C & V)]; [left; exact U|].
  right. exists t, v. split; [exact T|]. split; assumption.
Qed.

Lemma norm_good s : good_fpart ok_value s -> normalizeFPart s = Ok (FP_SUCCESS, Some (normal_form s)).
Proof.
  intros G. pose proof (gf_colon _ _ G) as HC. unfold normalizeFPart.
  destruct (slen s =? 0) eqn:E0; [destruct s; [destruct HC|unfold slen in E0; cbn [length] in E0; lia]|].
  destruct (strchr s 58) as [i|] eqn:S0.
  2: { exfalso. pose proof (proj1 (strchr_none s 58) S0) as X. rewrite forallb_forall in X. specialize (X 58 HC). discriminate. }
  rewrite strtok_pieces.
  rewrite scan_ok; [|apply good_toks, G|cbn [app]; apply (gf_once _ _ G)|cbn [ocnt]; pose proof (gf_rest _ _ G); lia].
  cbn [app].
  assert (B : (last s 0 =? 124) && (match hd_error (untagged_in (pieces s)) with Some _ => true | None => false end) = false).
  { destruct (last s 0 =? 124) eqn:E; [|reflexivity]. cbn [andb]. rewrite (gf_end _ _ G); [reflexivity|lia]. }
  rewrite B. clear B. change (negb (FP_SUCCESS =? FP_SUCCESS)) with false. cbn iota.
  assert (NE : emit_tags (tags_in (pieces s)) <> []).
  { destruct (pieces_in s 58 HC) as (p & Hp & Hc); [discriminate|].
    destruct (gf_pieces _ _ G p Hp) as [U|(t & v & T & C & V)].
    - exfalso. unfold untaggedb in U. rewrite forallb_forall in U. specialize (U 58 Hc). discriminate.
    - apply (emit_ne _ t v (gf_once _ _ G)); [|exact C]. clear - Hp T.
      induction (pieces s) as [|q l IH]; [destruct Hp|]. cbn [tags_in]. destruct Hp as [->|Hp].
      + rewrite T. left. reflexivity.
      + destruct (tagged q); [right|]; apply IH, Hp. }
  unfold normal_form. rewrite <- emit_spec by apply (gf_once _ _ G).
  destruct (emit_tags (tags_in (pieces s))) as [|c e]; [congruence|].
  pose proof (gf_rest _ _ G) as L. destruct (untagged_in (pieces s)) as [|u [|u' l]]; cbn [hd_error].
  - cbn [concat]. rewrite app_nil_r. reflexivity.
  - cbn [concat]. rewrite app_nil_r. reflexivity.
  - cbn [length] in L. lia.
Qed.

Lemma norm_bad s st o : normalizeFPart s = Ok (st, o) -> st = FP_SUCCESS -> good_fpart ok_value s.
Proof.
  intros H ->. unfold normalizeFPart in H. destruct (slen s =? 0); [discriminate H|].
  destruct (strchr s 58) as [i|] eqn:S0; [|discriminate H]. rewrite strtok_pieces in H.
  destruct (scan_tags (pieces s) [] None) as [[st0 tags] un] eqn:SC.
  destruct ((last s 0 =? 124) && match un with Some _ => true | None => false end) eqn:B; [discriminate H|].
  destruct (st0 =? FP_SUCCESS) eqn:E; cbn [negb] in H.
  2: { injection H as -> _. discriminate E. }
  apply Z.eqb_eq in E. subst st0. pose proof (scan_inv _ [] _ _ _ (NoDup_nil _) SC) as (G & N & L). cbn [app ocnt] in N, L.
  rewrite scan_ok in SC by (assumption || (cbn [app ocnt]; lia)). cbn [app] in SC. injection SC as <- <-.
  constructor.
  - destruct (in_dec Z.eq_dec 58 s) as [X|X]; [exact X|]. exfalso.
    assert (strchr s 58 = None); [|congruence]. apply strchr_none. apply forallb_forall. intros x Hx.
    destruct (x =? 58) eqn:Q; [|reflexivity]. exfalso. apply X. apply Z.eqb_eq in Q. subst x. exact Hx.
  - rewrite Forall_forall in G. intros p Hp. destruct (G p Hp) as [U|(t & v & T & C & V)]; [left; exact U|].
    right. exists t, v. split; [exact T|]. split; assumption.
  - exact N.
  - lia.
  - intros Hl. rewrite Hl in B. cbn [Z.eqb Pos.eqb andb] in B. destruct (untagged_in (pieces s)); [reflexivity|discriminate B].
Qed.

(** ** values *)
Lemma is_alnum_spec c : is_alnum c = true <-> digitp c \/ letterp c.
Proof. unfold is_alnum, is_digit, digitp, letterp. lia. Qed.
Lemma run_pairs_spec v : run_pairs v = true <-> run_ok v.
Proof.
  assert (G : forall n v, (length v <= n)%nat -> run_pairs v = true <-> run_ok v).
  { induction n as [|n IH]; intros w L.
    - destruct w; [|cbn in L; lia]. split; [constructor|reflexivity].
    - destruct w as [|a [|b t]]; [split; [constructor|reflexivity]| |].
      + split; [discriminate|]. intros H. inversion H.
      + cbn [run_pairs]. rewrite andb_true_iff, IH by (cbn [length] in L; lia). split.
        * intros [H1 H2]. destruct (a =? 45) eqn:A.
          -- apply Z.eqb_eq in A, H1. subst. constructor. exact H2.
          -- rewrite andb_true_iff, is_alnum_spec in H1. constructor; [tauto|unfold is_digit in H1; unfold digitp; lia|exact H2].
        * intros H. inversion H; subst.
          -- split; [reflexivity|assumption].
          -- split; [|assumption]. destruct (a =? 45) eqn:A; [unfold digitp, letterp in *; lia|].
             rewrite andb_true_iff, is_alnum_spec. split; [tauto|unfold is_digit; unfold digitp in *; lia]. }
  apply (G (length v)). lia.
Qed.

Lemma two_inv a b : is_digit a = true -> is_digit b = true -> [a; b] = two (b - 48 + 10 * (a - 48)) /\ 0 <= b - 48 + 10 * (a - 48) <= 99.
Proof.
  unfold is_digit, two. intros Ha Hb.
  assert (E : (b - 48 + 10 * (a - 48)) / 10 = a - 48) by (rewrite Z.mul_comm, Z.div_add by lia; rewrite Z.div_small by lia; lia).
  assert (F : (b - 48 + 10 * (a - 48)) mod 10 = b - 48) by (rewrite Z.mul_comm, Z.mod_add by lia; apply Z.mod_small; lia).
  rewrite E, F. split; [f_equal; [lia|f_equal; lia]|lia].
Qed.
Ltac Zify.zify_post_hook ::= Z.to_euclidean_division_equations.
Lemma two_digit n : 0 <= n <= 99 -> exists a b, two n = [a; b] /\ is_digit a = true /\ is_digit b = true /\ b - 48 + 10 * (a - 48) = n.
Proof. intros H. exists (48 + n / 10), (48 + n mod 10). unfold two, is_digit. split; [reflexivity|]. lia. Qed.
Ltac Zify.zify_post_hook ::= idtac.

Definition time_ok (yr mon day hr min : Z) : bool :=
  (if (mon =? 1) || (mon =? 3) || (mon =? 5) || (mon =? 7) || (mon =? 8) || (mon =? 10) || (mon =? 12) then day <=? 31
    else if (mon =? 4) || (mon =? 6) || (mon =? 9) || (mon =? 11) then day <=? 30
    else if mon =? 2 then (if is_leap yr then day <=? 29 else day <=? 28)
    else false) && negb ((hr >? 24) || ((hr =? 24) && (min >? 0))) && (min <=? 59).
Lemma time_ok_spec y mo d h mi : 0 <= y <= 9999 -> 0 <= mo <= 99 -> 0 <= d <= 99 -> 0 <= h <= 99 -> 0 <= mi <= 99 ->
  time_ok y mo d h mi = true <-> stamp_ok y mo d h mi.
Proof.
  intros Hy Hm Hd Hh Hi. unfold time_ok, stamp_ok.
  assert (L : is_leap y = leap y).
  { unfold is_leap, leap. rewrite !Z.rem_mod_nonneg by lia. reflexivity. }
  rewrite L. rewrite !andb_true_iff.
  assert (M : (if (mo =? 1) || (mo =? 3) || (mo =? 5) || (mo =? 7) || (mo =? 8) || (mo =? 10) || (mo =? 12) then d <=? 31
    else if (mo =? 4) || (mo =? 6) || (mo =? 9) || (mo =? 11) then d <=? 30
    else if mo =? 2 then (if leap y then d <=? 29 else d <=? 28) else false) = true <-> 1 <= mo <= 12 /\ d <= month_length y mo).
  { unfold month_length.
    destruct ((mo =? 1) || (mo =? 3) || (mo =? 5) || (mo =? 7) || (mo =? 8) || (mo =? 10) || (mo =? 12)) eqn:A.
    - destruct (mo =? 2) eqn:B; [lia|]. destruct ((mo =? 4) || (mo =? 6) || (mo =? 9) || (mo =? 11)) eqn:C; lia.
    - destruct ((mo =? 4) || (mo =? 6) || (mo =? 9) || (mo =? 11)) eqn:C.
      + destruct (mo =? 2) eqn:B; lia.
      + destruct (mo =? 2) eqn:B; [destruct (leap y); lia|]. split; [discriminate|]. intros [X _]. lia. }
  rewrite M. clear M L. split.
  - intros [[[H1 H2] H3] H4]. repeat split; try lia.
  - intros (_ & H1 & H2 & H3 & H4). repeat split; try lia.
Qed.

Lemma time_chars_stamp y mo d h mi rest : 0 <= y <= 9999 -> 0 <= mo <= 99 -> 0 <= d <= 99 -> 0 <= h <= 99 -> 0 <= mi <= 99 ->
  time_chars 0 (stamp y mo d h mi ++ rest) = time_chars 13 rest /\
  (forall s, s = stamp y mo d h mi ++ rest ->
   dig s 3 + 10 * dig s 2 + 100 * dig s 1 + 1000 * dig s 0 = y /\ dig s 5 + 10 * dig s 4 = mo /\ dig s 7 + 10 * dig s 6 = d /\
   dig s 10 + 10 * dig s 9 = h /\ dig s 12 + 10 * dig s 11 = mi).
Proof.
  intros Hy Hm Hd Hh Hi. unfold stamp.
  assert (Y1 : 0 <= y / 100 <= 99) by (split; [apply Z.div_pos; lia|apply Z.lt_succ_r, Z.div_lt_upper_bound; lia]).
  assert (Y2 : 0 <= y mod 100 <= 99) by (pose proof (Z.mod_pos_bound y 100 ltac:(lia)); lia).
  pose proof (Z.div_mod y 100 ltac:(lia)) as Y3.
  destruct (two_digit _ Y1) as (a1 & b1 & -> & A1 & B1 & E1). destruct (two_digit _ Y2) as (a2 & b2 & -> & A2 & B2 & E2).
  destruct (two_digit _ Hm) as (a3 & b3 & -> & A3 & B3 & E3). destruct (two_digit _ Hd) as (a4 & b4 & -> & A4 & B4 & E4).
  destruct (two_digit _ Hh) as (a5 & b5 & -> & A5 & B5 & E5). destruct (two_digit _ Hi) as (a6 & b6 & -> & A6 & B6 & E6).
  cbn [app time_chars Nat.eqb]. rewrite A1, B1, A2, B2, A3, B3, A4, B4, A5, B5, A6, B6. split; [reflexivity|].
  intros s ->. unfold dig, nthc. cbn [nth]. lia.
Qed.
Lemma stamp_len y mo d h mi : slen (stamp y mo d h mi) = 13. Proof. reflexivity. Qed.

Lemma time_chars_inv s : time_chars 0 s = true -> 13 <= slen s -> exists y mo d h mi rest, s = stamp y mo d h mi ++ rest /\
  0 <= y <= 9999 /\ 0 <= mo <= 99 /\ 0 <= d <= 99 /\ 0 <= h <= 99 /\ 0 <= mi <= 99 /\ time_chars 13 rest = true.
Proof.
  intros H L. do 13 (destruct s as [|? s]; [unfold slen in L; cbn in L; lia|]). cbn [time_chars Nat.eqb] in H.
  rewrite !andb_true_iff in H. destruct H as (D0 & D1 & D2 & D3 & D4 & D5 & D6 & D7 & D8 & D9 & D10 & D11 & D12 & R).
  apply Z.eqb_eq in D8. subst.
  destruct (two_inv _ _ D0 D1) as [E1 R1]. destruct (two_inv _ _ D2 D3) as [E2 R2]. destruct (two_inv _ _ D4 D5) as [E3 R3].
  destruct (two_inv _ _ D6 D7) as [E4 R4]. destruct (two_inv _ _ D9 D10) as [E5 R5]. destruct (two_inv _ _ D11 D12) as [E6 R6].
  match type of E1 with _ = two ?c => set (y1 := c) in * end. match type of E2 with _ = two ?c => set (y2 := c) in * end.
  clearbody y1 y2.
  match type of E3 with _ = two ?c => set (m := c) in * end. match type of E4 with _ = two ?c => set (d := c) in * end.
  match type of E5 with _ = two ?c => set (h := c) in * end. match type of E6 with _ = two ?c => set (i := c) in * end.
  exists (100 * y1 + y2), m, d, h, i, s. unfold stamp.
  replace ((100 * y1 + y2) / 100) with y1 by (rewrite Z.mul_comm, Z.add_comm, Z.div_add by lia; rewrite Z.div_small by lia; lia).
  replace ((100 * y1 + y2) mod 100) with y2 by (rewrite Z.mul_comm, Z.add_comm, Z.mod_add by lia; rewrite Z.mod_small by lia; lia).
  rewrite <- E1, <- E2, <- E3, <- E4, <- E5, <- E6. split; [reflexivity|]. repeat split; try lia. exact R.
Qed.

Lemma stamp_ok_range y mo d h mi : stamp_ok y mo d h mi -> 0 <= y <= 9999 /\ 0 <= mo <= 99 /\ 0 <= d <= 99 /\ 0 <= h <= 99 /\ 0 <= mi <= 99.
Proof.
  intros (H1 & H2 & H3 & H4 & H5). assert (month_length y mo <= 31) by (unfold month_length; repeat match goal with |- context [if ?c then _ else _] => destruct c end; lia). lia.
Qed.

Lemma validate_T v : validateTagTime v false = true <-> exists y mo d h mi, stamp_ok y mo d h mi /\ v = stamp y mo d h mi.
Proof.
  unfold validateTagTime. split.
  - rewrite !andb_true_iff. intros [[H1 H2] H3].
    destruct (time_chars_inv v H2 ltac:(lia)) as (y & mo & d & h & mi & rest & -> & Ry & Rm & Rd & Rh & Ri & _).
    rewrite slen_app, stamp_len in H1. destruct rest as [|x rest]; [|unfold slen in H1; cbn [length] in H1; lia]. rewrite app_nil_r in *.
    destruct (time_chars_stamp y mo d h mi [] Ry Rm Rd Rh Ri) as [_ K]. rewrite app_nil_r in K.
    destruct (K _ eq_refl) as (K1 & K2 & K3 & K4 & K5). cbn zeta in H3. rewrite K1, K2, K3, K4, K5 in H3.
    exists y, mo, d, h, mi. split; [|reflexivity]. apply time_ok_spec; try assumption. unfold time_ok.
    rewrite ?andb_true_iff in *. tauto.
  - intros (y & mo & d & h & mi & S & ->). destruct (stamp_ok_range _ _ _ _ _ S) as (Ry & Rm & Rd & Rh & Ri).
    destruct (time_chars_stamp y mo d h mi [] Ry Rm Rd Rh Ri) as [T K]. rewrite app_nil_r in T, K.
    destruct (K _ eq_refl) as (K1 & K2 & K3 & K4 & K5). rewrite T. cbn zeta. rewrite K1, K2, K3, K4, K5.
    rewrite stamp_len. apply time_ok_spec in S; try assumption. unfold time_ok in S. rewrite ?andb_true_iff in *.
    change (time_chars 13 []) with true. tauto.
Qed.
Lemma validate_V v : validateTagTime v true = true <-> exists y mo d h mi s, stamp_ok y mo d h mi /\ 0 <= s <= 59 /\ v = stamp y mo d h mi ++ two s.
Proof.
  unfold validateTagTime. split.
  - rewrite !andb_true_iff. intros [[H1 H2] H3].
    destruct (time_chars_inv v H2 ltac:(lia)) as (y & mo & d & h & mi & rest & -> & Ry & Rm & Rd & Rh & Ri & R).
    rewrite slen_app, stamp_len in H1. destruct rest as [|a [|b [|x rest]]]; try (unfold slen in H1; cbn [length] in H1; lia).
    destruct (time_chars_stamp y mo d h mi [a; b] Ry Rm Rd Rh Ri) as [_ K].
    destruct (K _ eq_refl) as (K1 & K2 & K3 & K4 & K5). cbn zeta in H3. rewrite K1, K2, K3, K4, K5 in H3.
    change (dig (stamp y mo d h mi ++ [a; b]) 14) with (b - 48) in H3. change (dig (stamp y mo d h mi ++ [a; b]) 13) with (a - 48) in H3.
    cbn [time_chars Nat.eqb] in R. rewrite !andb_true_iff in R. destruct R as (Ra & Rb & _).
    destruct (two_inv _ _ Ra Rb) as [E Rs].
    exists y, mo, d, h, mi, (b - 48 + 10 * (a - 48)). rewrite ?andb_true_iff in H3.
    split; [apply time_ok_spec; try assumption; unfold time_ok; rewrite !andb_true_iff; tauto|]. split; [lia|]. rewrite <- E. reflexivity.
  - intros (y & mo & d & h & mi & s & S & Rs & ->). destruct (stamp_ok_range _ _ _ _ _ S) as (Ry & Rm & Rd & Rh & Ri).
    destruct (two_digit s ltac:(lia)) as (a & b & -> & Ra & Rb & E).
    destruct (time_chars_stamp y mo d h mi [a; b] Ry Rm Rd Rh Ri) as [T K].
    destruct (K _ eq_refl) as (K1 & K2 & K3 & K4 & K5). rewrite T. cbn zeta. rewrite K1, K2, K3, K4, K5.
    change (dig (stamp y mo d h mi ++ [a; b]) 14) with (b - 48). change (dig (stamp y mo d h mi ++ [a; b]) 13) with (a - 48).
    rewrite slen_app, stamp_len. change (slen [a; b]) with 2. apply time_ok_spec in S; try assumption. unfold time_ok in S.
    cbn [time_chars Nat.eqb]. rewrite Ra, Rb. rewrite ?andb_true_iff in *. repeat split; try tauto. lia.
Qed.

Lemma value_spec t v : validateFPartTag t v = true <-> valid_value t v.
Proof.
  unfold validateFPartTag.
  destruct (t =? 67) eqn:E1; [apply Z.eqb_eq in E1; subst t|].
  { cbn [valid_value]. rewrite andb_true_iff, forallb_forall, Forall_forall. split.
    - intros [H1 H2]. split; [unfold slen in H1; lia|]. intros x Hx. apply is_alnum_spec, H2, Hx.
    - intros [H1 H2]. split; [unfold slen; lia|]. intros x Hx. apply is_alnum_spec, H2, Hx. }
  destruct (t =? 84) eqn:E2; [apply Z.eqb_eq in E2; subst t; apply validate_T|].
  destruct (t =? 78) eqn:E3; [apply Z.eqb_eq in E3; subst t; cbn [valid_value]; tauto|].
  destruct (t =? 86) eqn:E4; [apply Z.eqb_eq in E4; subst t; apply validate_V|].
  destruct (t =? 82) eqn:E5; [apply Z.eqb_eq in E5; subst t; apply run_pairs_spec|].
  split; [discriminate|]. unfold valid_value. intros H.
  destruct t as [|p|p]; try contradiction. do 7 (destruct p as [p|p|]; try contradiction); lia.
Qed.

Lemma good_iff s : good_fpart ok_value s <-> good_fpart valid_value s.
Proof.
  split; intros [H1 H2 H3 H4 H5]; constructor; try assumption; intros p Hp; (destruct (H2 p Hp) as [U|(t & v & T & C & V)]; [left; exact U|right]);
  exists t, v; (split; [exact T|split; [exact C|]]); apply value_spec; exact V.
Qed.

(** ** The theorems *)

(** A good F part gives its normal form; any other text gives an error and no text. *)
Theorem C40_normal_form : forall s, good_fpart valid_value s -> normalizeFPart s = Ok (0, Some (normal_form s)).
Proof. intros s H. apply norm_good, good_iff, H. Qed.
Theorem C40_rejects : forall s, ~ good_fpart valid_value s -> exists st, normalizeFPart s = Ok (st, None) /\ st <> 0.
Proof.
  intros s H. assert (NB : forall o, normalizeFPart s <> Ok (FP_SUCCESS, o)).
  { intros o E. apply H, good_iff, (norm_bad s FP_SUCCESS o E eq_refl). }
  unfold normalizeFPart in *. destruct (slen s =? 0); [exists FP_EMPTY; split; [reflexivity|discriminate]|].
  destruct (strchr s 58) as [i|] eqn:S0; [|exists FP_NO_TAG_SEPARATOR; split; [reflexivity|discriminate]].
  destruct (scan_tags (strtok_bar s []) [] None) as [[st0 tags] un] eqn:SC. cbn zeta in *.
  destruct ((last s 0 =? 124) && match un with Some _ => true | None => false end) eqn:B;
    [exists FP_MULTIPLE_UNTAGGED; split; [reflexivity|discriminate]|].
  destruct (st0 =? FP_SUCCESS) eqn:E; cbn [negb] in *.
  2: { exists st0. split; [reflexivity|]. apply Z.eqb_neq in E. exact E. }
  apply Z.eqb_eq in E. subst st0. exfalso. rewrite strtok_pieces in SC.
  pose proof (scan_inv _ [] _ _ _ (NoDup_nil _) SC) as (G & N & L). cbn [app ocnt] in N, L.
  rewrite scan_ok in SC by (assumption || (cbn [app ocnt]; lia)). cbn [app] in SC. injection SC as <- <-.
  apply H, good_iff. constructor.
  - destruct (in_dec Z.eq_dec 58 s) as [X|X]; [exact X|]. exfalso.
    assert (strchr s 58 = None); [|congruence]. apply strchr_none. apply forallb_forall. intros x Hx.
    destruct (x =? 58) eqn:Q; [|reflexivity]. exfalso. apply X. apply Z.eqb_eq in Q. subst x. exact Hx.
  - rewrite Forall_forall in G. intros p Hp. destruct (G p Hp) as [U|(t & v & T & C & V)]; [left; exact U|].
    right. exists t, v. split; [exact T|]. split; assumption.
  - exact N.
  - lia.
  - intros Hl. rewrite Hl in B. cbn [Z.eqb Pos.eqb andb] in B. destruct (untagged_in (pieces s)); [reflexivity|discriminate B].
Qed.

(** ** The normal form is a fixed point *)
Definition norm_tags (tags : list (Z * list Z)) : list (Z * list Z) :=
  flat_map (fun t => match lookup t tags with Some v => [(t, v)] | None => [] end) canonical_order.
Definition write_tag (tv : Z * list Z) : list Z := fst tv :: 58 :: snd tv ++ [124].

Lemma normal_form_alt s : normal_form s = concat (map write_tag (norm_tags (tags_in (pieces s)))) ++ concat (untagged_in (pieces s)).
Proof.
  unfold normal_form, norm_tags. f_equal. generalize canonical_order as l. induction l as [|t l IH]; [reflexivity|].
  cbn [map concat flat_map]. rewrite IH. destruct (lookup t _); reflexivity.
Qed.
Lemma pieces_written L U : Forall (fun tv => fst tv <> 124 /\ barfree (snd tv)) L -> (length U <= 1)%nat ->
  Forall (fun u => barfree u /\ u <> []) U ->
  pieces (concat (map write_tag L) ++ concat U) = map (fun tv => fst tv :: 58 :: snd tv) L ++ U.
Proof.
  intros HL HU HB. induction L as [|[t v] L IH]; cbn [map concat].
  - cbn [app]. destruct U as [|u [|? ?]]; [reflexivity| |cbn [length] in HU; lia]. cbn [concat]. rewrite app_nil_r.
    inversion HB as [|? ? [B N] _]; subst. unfold pieces. rewrite cut_one by exact B. cbn [filter]. destruct u; [congruence|reflexivity].
  - inversion HL as [|? ? [B1 B2] H]; subst. cbn [fst snd] in *. cbn [app].
    replace ((write_tag (t, v) ++ concat (map write_tag L)) ++ concat U) with ((t :: 58 :: v) ++ 124 :: (concat (map write_tag L) ++ concat U)).
    + rewrite pieces_app, IH; [reflexivity|exact H| |discriminate]. intros [X|[X|X]]; [congruence|discriminate|exact (B2 X)].
    + unfold write_tag. cbn [fst snd app]. rewrite <- !app_assoc. reflexivity.
Qed.
Lemma canonical_facts t : In t canonical_order -> t <> 124 /\ t <> 58 /\ toupper t = t.
Proof. unfold canonical_order. cbn [In]. intros H. repeat (destruct H as [<- | H]; [split; [|split]; [discriminate|discriminate|reflexivity]|]). destruct H. Qed.
Lemma norm_tags_in tags t v : In (t, v) (norm_tags tags) -> In t canonical_order /\ lookup t tags = Some v.
Proof.
  unfold norm_tags. rewrite in_flat_map. intros (u & Hu & H). destruct (lookup u tags) as [w|] eqn:E; [|destruct H].
  destruct H as [H|[]]. injection H as -> ->. split; assumption.
Qed.
Lemma lookup_in t tags v : lookup t tags = Some v -> In (t, v) tags.
Proof.
  unfold lookup. destruct (find _ tags) as [[u w]|] eqn:E; [|discriminate]. intros H. injection H as <-.
  apply find_some in E. destruct E as [E1 E2]. cbn [fst] in E2. apply Z.eqb_eq in E2. subst u. exact E1.
Qed.
Lemma tags_in_in ps t v : In (t, v) (tags_in ps) -> exists p, In p ps /\ tagged p = Some (t, v).
Proof.
  induction ps as [|p ps IH]; intros H; [destruct H|]. cbn [tags_in] in H. destruct (tagged p) as [tv|] eqn:E.
  - destruct H as [->|H]; [exists p; split; [left; reflexivity|exact E]|]. destruct (IH H) as (q & Hq & T). exists q. split; [right|]; assumption.
  - destruct (IH H) as (q & Hq & T). exists q. split; [right|]; assumption.
Qed.
Lemma norm_tags_nodup tags : NoDup (map fst (norm_tags tags)).
Proof.
  unfold norm_tags, canonical_order. cbn [flat_map].
  destruct (lookup 67 tags), (lookup 78 tags), (lookup 84 tags), (lookup 82 tags), (lookup 86 tags); cbn [app map fst];
  repeat (constructor; [cbn [In]; lia|]); constructor.
Qed.
Lemma norm_tags_again tags : norm_tags (norm_tags tags) = norm_tags tags.
Proof.
  unfold norm_tags, canonical_order. cbn [flat_map].
  destruct (lookup 67 tags), (lookup 78 tags), (lookup 84 tags), (lookup 82 tags), (lookup 86 tags); reflexivity.
Qed.

Section Fixed.
Variables (L : list (Z * list Z)) (U : list (list Z)).
Hypothesis HL : forall t v, In (t, v) L -> In t canonical_order.
Hypothesis HU : Forall (fun u => untaggedb u = true) U.
Lemma tags_in_written : tags_in (map (fun tv => fst tv :: 58 :: snd tv) L ++ U) = L.
Proof.
  induction L as [|[t v] l IH]; cbn [map app].
  - clear HL. induction U as [|u us IHu]; [reflexivity|]. inversion HU; subst. cbn [tags_in]. rewrite untagged_tagged by assumption. apply IHu; assumption.
  - cbn [tags_in tagged fst snd]. destruct (canonical_facts t (HL t v (or_introl eq_refl))) as (A & B & C).
    destruct (t =? 58) eqn:E; [lia|]. change (58 =? 58) with true. cbn [negb andb]. rewrite C. f_equal. apply IH. intros t' v' H. apply (HL t' v'). right. exact H.
Qed.
Lemma untagged_in_written : untagged_in (map (fun tv => fst tv :: 58 :: snd tv) L ++ U) = U.
Proof.
  unfold untagged_in. induction L as [|[t v] l IH]; cbn [map app].
  - clear HL. induction U as [|u us IHu]; [reflexivity|]. inversion HU as [|? ? H1 H2]; subst. cbn [filter]. rewrite H1. f_equal. apply IHu; assumption.
  - cbn [filter fst snd]. replace (untaggedb (t :: 58 :: v)) with false.
    + apply IH. intros t' v' H. apply (HL t' v'). right. exact H.
    + unfold untaggedb. cbn [forallb]. change (58 =? 58) with true. cbn [negb andb]. rewrite andb_false_r. reflexivity.
Qed.
End Fixed.

Lemma barfree_tail a b v : barfree (a :: b :: v) -> barfree v.
Proof. intros H X. apply H. right. right. exact X. Qed.

Lemma normal_pieces s : good_fpart valid_value s ->
  pieces (normal_form s) = map (fun tv => fst tv :: 58 :: snd tv) (norm_tags (tags_in (pieces s))) ++ untagged_in (pieces s).
Proof.
  intros G. rewrite normal_form_alt. apply pieces_written.
  - apply Forall_forall. intros [t v] H. apply norm_tags_in in H. destruct H as [H1 H2]. split; [apply canonical_facts, H1|].
    apply lookup_in, tags_in_in in H2. destruct H2 as (p & Hp & T). destruct (tagged_inv _ _ _ T) as (a & -> & _).
    apply (barfree_tail a 58), (pieces_prop s _ Hp).
  - apply (gf_rest _ _ G).
  - apply Forall_forall. intros u H. apply filter_In in H. apply (pieces_prop s u), H.
Qed.
Lemma untagged_forall ps : Forall (fun u => untaggedb u = true) (untagged_in ps).
Proof. apply Forall_forall. intros u H. apply filter_In in H. apply H. Qed.

Lemma normal_tags s : good_fpart valid_value s -> tags_in (pieces (normal_form s)) = norm_tags (tags_in (pieces s)).
Proof. intros G. rewrite normal_pieces by exact G. apply tags_in_written; [|apply untagged_forall]. intros t v H. apply norm_tags_in in H. apply H. Qed.
Lemma normal_untagged s : good_fpart valid_value s -> untagged_in (pieces (normal_form s)) = untagged_in (pieces s).
Proof. intros G. rewrite normal_pieces by exact G. apply untagged_in_written; [|apply untagged_forall]. intros t v H. apply norm_tags_in in H. apply H. Qed.

Lemma normal_good s : good_fpart valid_value s -> good_fpart valid_value (normal_form s).
Proof.
  intros G. constructor.
  - (* there is a tag, hence a colon *)
    destruct (pieces_in s 58 (gf_colon _ _ G)) as (p & Hp & Hc); [discriminate|].
    destruct (gf_pieces _ _ G p Hp) as [X|(t & v & T & C & V)].
    + exfalso. unfold untaggedb in X. rewrite forallb_forall in X. specialize (X 58 Hc). discriminate.
    + rewrite normal_form_alt. apply in_or_app. left. apply in_concat. exists (write_tag (t, v)). split; [|right; left; reflexivity].
      apply in_map. unfold norm_tags. apply in_flat_map. exists t. split; [exact C|].
      assert (H : In (t, v) (tags_in (pieces s))).
      { clear - Hp T. induction (pieces s) as [|q l IH]; [destruct Hp|]. cbn [tags_in]. destruct Hp as [->|Hp].
        - rewrite T. left. reflexivity.
        - destruct (tagged q); [right|]; apply IH, Hp. }
      pose proof (gf_once _ _ G) as N. revert H N. generalize (tags_in (pieces s)) as l. clear.
      induction l as [|[a b] l IH]; intros H N; [destruct H|]. unfold lookup. cbn [find fst]. destruct (a =? t) eqn:E.
      * apply Z.eqb_eq in E. subst a. cbn [snd]. destruct H as [H|H]; [injection H as ->; left; reflexivity|].
        cbn [map fst] in N. inversion N; subst. exfalso. apply H2. apply (in_map fst) in H. exact H.
      * destruct H as [H|H]; [injection H as -> ->; lia|]. cbn [map] in N. inversion N; subst. apply IH; assumption.
  - rewrite normal_pieces by exact G. intros p H. apply in_app_or in H. destruct H as [H|H].
    + right. apply in_map_iff in H. destruct H as ([t v] & <- & H). apply norm_tags_in in H. destruct H as [H1 H2]. cbn [fst snd].
      destruct (canonical_facts t H1) as (A & B & C). exists t, v. cbn [tagged]. destruct (t =? 58) eqn:E; [lia|].
      change (58 =? 58) with true. cbn [negb andb]. rewrite C. split; [reflexivity|]. split; [exact H1|].
      apply lookup_in, tags_in_in in H2. destruct H2 as (q & Hq & T).
      destruct (gf_pieces _ _ G q Hq) as [X|(t' & v' & T' & _ & V)]; [rewrite (untagged_tagged q X) in T; discriminate|].
      rewrite T in T'. injection T' as <- <-. exact V.
    + left. apply filter_In in H. apply H.
  - rewrite normal_tags by exact G. apply norm_tags_nodup.
  - rewrite normal_untagged by exact G. apply (gf_rest _ _ G).
  - rewrite normal_untagged by exact G. intros E. pose proof (gf_rest _ _ G) as R.
    destruct (untagged_in (pieces s)) as [|u [|? ?]] eqn:EU; [reflexivity| |cbn [length] in R; lia]. exfalso.
    rewrite normal_form_alt, EU in E. cbn [concat] in E. rewrite app_nil_r in E.
    assert (HI : In u (untagged_in (pieces s))) by (rewrite EU; left; reflexivity). apply filter_In in HI. destruct HI as [HI _].
    destruct (pieces_prop s u HI) as [B N]. destruct (exists_last N) as (u' & z & ->). rewrite app_assoc, last_last in E. subst z.
    apply B, in_or_app. right. left. reflexivity.
Qed.

(** The normal form can be normalised again and does not change; its tags are in the canonical order, none repeated, with the values
    the original gave them, and its untagged text is the original's. *)
Theorem C40_idempotent : forall s, good_fpart valid_value s -> normalizeFPart (normal_form s) = Ok (0, Some (normal_form s)).
Proof.
  intros s G. rewrite (C40_normal_form _ (normal_good s G)). do 3 f_equal.
  rewrite (normal_form_alt (normal_form s)), normal_tags, normal_untagged, norm_tags_again by exact G. symmetry. apply normal_form_alt.
Qed.
Theorem C40_tags_kept : forall s t, good_fpart valid_value s -> In t canonical_order ->
  lookup t (tags_in (pieces (normal_form s))) = lookup t (tags_in (pieces s)).
Proof.
  intros s t G H. rewrite normal_tags by exact G. generalize (tags_in (pieces s)) as l. intros l. unfold norm_tags, canonical_order in *. cbn [flat_map].
  destruct (lookup 67 l) eqn:E1, (lookup 78 l) eqn:E2, (lookup 84 l) eqn:E3, (lookup 82 l) eqn:E4, (lookup 86 l) eqn:E5; cbn [In] in H;
  (repeat (destruct H as [<- | H]; [first [rewrite E1|rewrite E2|rewrite E3|rewrite E4|rewrite E5]; reflexivity|])); destruct H.
Qed.
Theorem C40_untagged_kept : forall s, good_fpart valid_value s -> untagged_in (pieces (normal_form s)) = untagged_in (pieces s).
Proof. exact normal_untagged. Qed.
(** two texts with the same tags in different order have the same normal form *)
Theorem C40_order_irrelevant : forall s s', good_fpart valid_value s ->
  Permutation (tags_in (pieces s)) (tags_in (pieces s')) -> untagged_in (pieces s) = untagged_in (pieces s') -> normal_form s = normal_form s'.
Proof.
  intros s s' G P E. unfold normal_form. rewrite <- E. f_equal. f_equal. apply map_ext. intros t.
  replace (lookup t (tags_in (pieces s'))) with (lookup t (tags_in (pieces s))); [reflexivity|].
  pose proof (gf_once _ _ G) as N. revert P N. generalize (tags_in (pieces s)) (tags_in (pieces s')). clear. intros l l' P N.
  assert (M : forall a v, NoDup (map fst a) -> In (t, v) a -> lookup t a = Some v).
  { clear. intros a v. induction a as [|[x y] a IH]; intros N H; [destruct H|]. unfold lookup. cbn [find fst map] in *. inversion N; subst.
    destruct (x =? t) eqn:E; [apply Z.eqb_eq in E; subst x|].
    - destruct H as [H|H]; [injection H as ->; reflexivity|]. exfalso. apply H2. apply (in_map fst) in H. exact H.
    - destruct H as [H|H]; [injection H as -> ->; lia|]. apply IH; assumption. }
  destruct (lookup t l) as [v|] eqn:E.
  - apply lookup_in in E. symmetry. apply M; [apply (Permutation_NoDup (Permutation_map fst P)), N|apply (Permutation_in _ P), E].
  - destruct (lookup t l') as [v|] eqn:E'; [|reflexivity]. apply lookup_in in E'. apply (Permutation_in _ (Permutation_sym P)) in E'.
    rewrite (M _ _ N E') in E. discriminate.
Qed.

(** a time tag with day 00 is accepted: no such date *)
Theorem C40_refuted_day_zero : exists s, normalizeFPart s = Ok (0, Some s) /\ s = txt "T:20200100-1200|X"%string.
Proof. eexists. split; [|reflexivity]. vm_compute. reflexivity. Qed.

Lemma good_by_run s : (exists n, normalizeFPart s = Ok (0, n)) -> good_fpart valid_value s.
Proof. intros (n & E). apply good_iff, (norm_bad s 0 n E eq_refl). Qed.
Example C40_example : good_fpart valid_value (txt "v:20200229-240000|Obs|"%string ++ txt "c:00000A|"%string ++ txt "r:--A1"%string) /\ normalizeFPart (txt "v:20200229-240000|Obs||c:00000A"%string) = Ok (0, Some (txt "C:00000A|V:20200229-240000|Obs"%string)) /\ normalizeFPart (txt "c:00000A|t:20210229-0000|Obs"%string) = Ok (14, None) /\ ~ good_fpart valid_value (txt "c:00000A|t:20210229-0000|Obs"%string).
Proof.
  split; [apply good_by_run; eexists; vm_compute; reflexivity|]. split; [vm_compute; reflexivity|]. split; [vm_compute; reflexivity|].
  intros G. apply C40_normal_form in G. revert G. vm_compute. discriminate.
Qed.

Print Assumptions C40_normal_form.
Print Assumptions C40_rejects.
Print Assumptions C40_idempotent.
Print Assumptions C40_tags_kept.
Print Assumptions C40_untagged_kept.
Print Assumptions C40_order_irrelevant.
Print Assumptions C40_refuted_day_zero.
