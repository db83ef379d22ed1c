(** * C61: the file a name stands for. *)
From Coq Require Import ZArith List Bool Lia ZifyBool.
From Verif Require Import Base ArrayLib HashModel CStr CStrProofs TextProps PathProofs TimeTextProps NameModel.
Import ListNotations.
Open Scope Z_scope.
Open Scope res_scope.

(** ** Specification *)
Definition lower_is (e : list Z) (l : list Z) : Prop := map (fun c => if (65 <=? c) && (c <=? 90) then c + 32 else c) e = l.
(** the name ends with .dss or .ds- (upper or lower case), after at least one character *)
Definition has_extension (s : list Z) : Prop :=
  exists b e, s = b ++ e /\ b <> [] /\ (lower_is e [46; 100; 115; 115] \/ lower_is e [46; 100; 115; 45]).
Definition no_quote (s : list Z) : Prop := ~ In 34 s.

(** ** lemmas *)
Lemma lower_len e l : lower_is e l -> length e = length l.
Proof. intros H. rewrite <- H, map_length. reflexivity. Qed.
Lemma split4 (s : list Z) : 4 <= slen s -> exists b e, s = b ++ e /\ length e = 4%nat /\ sdrop (slen s - 4) s = e.
Proof.
  intros H. exists (stake (slen s - 4) s), (sdrop (slen s - 4) s). unfold stake, sdrop, slen in *. split; [symmetry; apply firstn_skipn|].
  split; [rewrite skipn_length; lia|reflexivity].
Qed.
Lemma ext_found (e : list Z) : length e = 4%nat ->
  (same4 (lowerCase (stringCopy_val 5 e (Some 4))) ext_dss || same4 (lowerCase (stringCopy_val 5 e (Some 4))) ext_ds_ = true <->
   lower_is e [46; 100; 115; 115] \/ lower_is e [46; 100; 115; 45]).
Proof.
  intros H. destruct e as [|a [|b [|c [|d [|x e]]]]]; try discriminate H. unfold lower_is. change (stringCopy_val 5 [a; b; c; d] (Some 4)) with [a; b; c; d].
  cbn [lowerCase map]. fold (to_lower a) (to_lower b) (to_lower c) (to_lower d). unfold lowerCase, same4, ext_dss, ext_ds_. cbn [map is_prefix]. rewrite orb_true_iff, !andb_true_iff, !Z.eqb_eq.
  split.
  - intros [(H1 & H2 & H3 & H4 & _)|(H1 & H2 & H3 & H4 & _)]; [left|right]; congruence.
  - intros [E|E]; injection E as E1 E2 E3 E4; [left|right]; repeat split; congruence.
Qed.
Lemma ext_of (b e : list Z) : length e = 4%nat -> b <> [] -> (has_extension (b ++ e) <-> lower_is e [46; 100; 115; 115] \/ lower_is e [46; 100; 115; 45]).
Proof.
  intros L NB. split.
  - intros (b' & e' & E & _ & H). assert (L' : length e' = 4%nat) by (destruct H as [H|H]; apply lower_len in H; exact H).
    assert (LB : length b = length b') by (apply (f_equal (@length Z)) in E; rewrite !app_length in E; lia).
    assert (X : e = e') by (apply (f_equal (skipn (length b))) in E; rewrite skipn_app, skipn_all, Nat.sub_diag in E; rewrite LB, skipn_app, skipn_all, Nat.sub_diag in E; exact E).
    subst e'. exact H.
  - intros H. exists b, e. auto.
Qed.
Lemma ext_short s : slen s <= 4 -> ~ has_extension s.
Proof.
  intros H (b & e & -> & NB & X). assert (L : length e = 4%nat) by (destruct X as [X|X]; apply lower_len in X; exact X).
  destruct b; [congruence|]. unfold slen in H. cbn [length app] in H. rewrite app_length in H. lia.
Qed.
Lemma last_in (s : list Z) : s <> [] -> exists c, aget s (slen s - 1) = Ok c /\ In c s.
Proof.
  intros N. destruct (exists_last N) as (l & x & ->). exists x. split.
  - replace (slen (l ++ [x]) - 1) with (slen l) by (rewrite slen_app; change (slen [x]) with 1; lia). apply CStrProofs.aget_mid.
  - apply in_or_app. right. left. reflexivity.
Qed.
Lemma take_whole s n : s <> [] -> slen s <= n -> slen s <= 1023 -> stringCopy_val 1024 s (Some n) = s.
Proof.
  intros N H K. unfold stringCopy_val. assert (0 < slen s) by (destruct s; [congruence|unfold slen; cbn [length]; lia]).
  replace (n <=? 0) with false by lia. apply stake_all. lia.
Qed.
Lemma cat_ext s : slen s <= 1019 -> stringCat_n 1024 s ext_dss 4 = s ++ ext_dss.
Proof.
  intros H. unfold stringCat_n. replace (1024 - slen s - 1 >? 0) with true by lia. replace (Z.min 4 (1024 - slen s - 1)) with 4 by lia. reflexivity.
Qed.
Lemma plain_name s : s <> [] -> no_quote s -> slen s <= 1019 ->
  exists r, zfileName s = Ok r /\ (has_extension s -> r = s) /\ (~ has_extension s -> r = s ++ ext_dss).
Proof.
  intros N Q L. destruct (last_in s N) as (c & EC & IC). unfold zfileName. cbv zeta. rewrite EC. cbn [bind].
  assert (NQ : forall x, In x s -> (x =? 34) = false) by (intros x Hx; apply Z.eqb_neq; intros ->; exact (Q Hx)). rewrite (NQ c IC).
  destruct s as [|f t] eqn:ES; [congruence|]. change (aget (f :: t) 0) with (Ok f). cbn [bind]. rewrite (NQ f (or_introl eq_refl)). rewrite <- ES in *.
  change MAX_FILENAME_LENGTH with 1024. rewrite take_whole by (congruence || lia). rewrite cat_ext by lia. clear ES EC.
  destruct (slen s >? 4) eqn:G.
  - destruct (split4 s ltac:(lia)) as (b & e & E & LE & SD). rewrite SD.
    assert (NB : b <> []) by (intros ->; cbn [app] in E; subst e; unfold slen in G; lia).
    pose proof (ext_found e LE) as F. pose proof (ext_of b e LE NB) as X. rewrite <- E in X.
    destruct (same4 (lowerCase (stringCopy_val 5 e (Some 4))) ext_dss || same4 (lowerCase (stringCopy_val 5 e (Some 4))) ext_ds_).
    + eexists. split; [reflexivity|]. split; [reflexivity|]. intros H. exfalso. apply H, X, F. reflexivity.
    + eexists. split; [reflexivity|]. split; [|reflexivity]. intros H. apply X in H. apply F in H. discriminate H.
  - eexists. split; [reflexivity|]. split; [|reflexivity]. intros H. exfalso. revert H. apply ext_short. lia.
Qed.
Lemma quoted_name s : s <> [] -> slen s <= 1019 -> slen s <> 4 ->
  exists r, zfileName (34 :: s ++ [34]) = Ok r /\ (has_extension s -> r = s) /\ (~ has_extension s -> r = s ++ ext_dss).
Proof.
  intros N L L4. unfold zfileName. cbv zeta. assert (P : 0 < slen s) by (destruct s; [congruence|unfold slen; cbn [length]; lia]).
  assert (LS : slen (34 :: s ++ [34]) = slen s + 2) by (rewrite slen_cons, slen_app; change (slen [34]) with 1; lia). rewrite LS.
  replace (aget (34 :: s ++ [34]) (slen s + 2 - 1)) with (@Ok Z 34).
  2:{ symmetry. replace (slen s + 2 - 1) with (slen (34 :: s)) by (rewrite slen_cons; lia). exact (CStrProofs.aget_mid (34 :: s) 34 []). }
  cbn [bind]. change (34 =? 34) with true. cbv iota. change (aget (34 :: s ++ [34]) 0) with (Ok 34). cbn [bind]. change (34 =? 34) with true. cbv iota.
  change (sdrop 1 (34 :: s ++ [34])) with (s ++ [34]). replace (slen s + 2 - 1 - 1) with (slen s) by lia. replace (slen s <? 0) with false by lia.
  change MAX_FILENAME_LENGTH with 1024.
  assert (ST : stringCopy_val 1024 (s ++ [34]) (Some (slen s)) = s).
  { unfold stringCopy_val. replace (slen s <=? 0) with false by lia. replace (Z.min (slen s) (1024 - 1)) with (slen s) by lia. apply stake_app. }
  rewrite ST, cat_ext by lia. replace (slen s + 2 - 1 >? 4) with (slen s >? 3) by lia.
  destruct (slen s >? 3) eqn:G.
  - destruct (split4 s ltac:(lia)) as (b & e & E & LE & SD).
    replace (sdrop (slen s + 2 - 1 - 4) (34 :: s ++ [34])) with (e ++ [34]).
    2:{ rewrite <- SD. replace (slen s + 2 - 1 - 4) with (slen s - 4 + 1) by lia. unfold sdrop, slen in *. replace (Z.to_nat (Z.of_nat (length s) - 4 + 1)) with (S (Z.to_nat (Z.of_nat (length s) - 4))) by lia.
        cbn [skipn]. rewrite skipn_app. replace (Z.to_nat (Z.of_nat (length s) - 4) - length s)%nat with 0%nat by lia. reflexivity. }
    assert (SE : stringCopy_val 5 (e ++ [34]) (Some 4) = stringCopy_val 5 e (Some 4)).
    { do 5 (destruct e as [|? e]; try discriminate LE). reflexivity. }
    rewrite SE. assert (NB : b <> []) by (intros ->; cbn [app] in E; subst e; unfold slen in *; lia).
    pose proof (ext_found e LE) as F. pose proof (ext_of b e LE NB) as X. rewrite <- E in X.
    destruct (same4 (lowerCase (stringCopy_val 5 e (Some 4))) ext_dss || same4 (lowerCase (stringCopy_val 5 e (Some 4))) ext_ds_).
    + eexists. split; [reflexivity|]. split; [reflexivity|]. intros H. exfalso. apply H, X, F. reflexivity.
    + eexists. split; [reflexivity|]. split; [|reflexivity]. intros H. apply X in H. apply F in H. discriminate H.
  - eexists. split; [reflexivity|]. split; [|reflexivity]. intros H. exfalso. revert H. apply ext_short. lia.
Qed.
Lemma ext_dec s : has_extension s \/ ~ has_extension s.
Proof.
  destruct (Z_le_gt_dec (slen s) 4) as [H|H]; [right; apply ext_short; exact H|]. destruct (split4 s ltac:(lia)) as (b & e & E & LE & _).
  assert (NB : b <> []) by (intros ->; cbn [app] in E; subst e; unfold slen in H; lia). pose proof (ext_found e LE) as F. pose proof (ext_of b e LE NB) as X. rewrite <- E in X.
  destruct (same4 (lowerCase (stringCopy_val 5 e (Some 4))) ext_dss || same4 (lowerCase (stringCopy_val 5 e (Some 4))) ext_ds_).
  - left. apply X, F. reflexivity.
  - right. intros HX. apply X in HX. apply F in HX. discriminate HX.
Qed.
Lemma ext_added s : s <> [] -> has_extension (s ++ ext_dss).
Proof. intros N. exists s, ext_dss. split; [reflexivity|]. split; [exact N|]. left. reflexivity. Qed.

(** ** Theorems: names of one to 1019 characters, without quotes *)
(** Partial (longer names, the empty name and the name ".dss": see the refutations): the name is kept if it has an extension, and gets .dss if not. *)
Theorem C61_completed_partial s : s <> [] -> no_quote s -> slen s <= 1019 ->
  exists r, zfileName s = Ok r /\ (has_extension s -> r = s) /\ (~ has_extension s -> r = s ++ [46; 100; 115; 115]).
Proof. exact (plain_name s). Qed.
Print Assumptions C61_completed_partial.
(** Quotes around the name make no difference (a name of four characters is in the refutations). *)
Theorem C61_quotes_partial s : s <> [] -> no_quote s -> slen s <= 1019 -> slen s <> 4 -> zfileName (34 :: s ++ [34]) = zfileName s.
Proof.
  intros N Q L L4. destruct (plain_name s N Q L) as (r & E & A & B). destruct (quoted_name s N L L4) as (r' & E' & A' & B').
  rewrite E, E'. f_equal. destruct (ext_dec s) as [X|X]; [rewrite (A X); apply A'; exact X|rewrite (B X); apply B'; exact X].
Qed.
Print Assumptions C61_quotes_partial.
(** With and without the extension: the same file. *)
Theorem C61_same_file_partial s : s <> [] -> no_quote s -> slen s <= 1015 -> ~ has_extension s -> zfileName (s ++ [46; 100; 115; 115]) = zfileName s.
Proof.
  intros N Q L X. destruct (plain_name s N Q ltac:(lia)) as (r & E & _ & B).
  assert (Q' : no_quote (s ++ ext_dss)) by (intros H; apply in_app_or in H; destruct H as [H|H]; [exact (Q H)|cbn in H; lia]).
  assert (L' : slen (s ++ ext_dss) <= 1019) by (rewrite slen_app; change (slen ext_dss) with 4; lia).
  destruct (plain_name (s ++ ext_dss)) as (r' & E' & A' & _); [destruct s; [congruence|discriminate]|exact Q'|exact L'|].
  change [46; 100; 115; 115] with ext_dss. rewrite E, E', (B X), (A' (ext_added s N)). reflexivity.
Qed.
Print Assumptions C61_same_file_partial.
(** Two names that give the same file are equal, or differ by the extension that is added. *)
Theorem C61_distinct_partial s t r : s <> [] -> t <> [] -> no_quote s -> no_quote t -> slen s <= 1019 -> slen t <= 1019 ->
  zfileName s = Ok r -> zfileName t = Ok r -> s = t \/ s = t ++ [46; 100; 115; 115] \/ t = s ++ [46; 100; 115; 115].
Proof.
  intros N M Q P L K E F. destruct (plain_name s N Q L) as (r1 & E1 & A1 & B1). destruct (plain_name t M P K) as (r2 & E2 & A2 & B2).
  rewrite E in E1. injection E1 as <-. rewrite F in E2. injection E2 as <-.
  destruct (ext_dec s) as [X|X], (ext_dec t) as [Y|Y].
  - left. rewrite <- (A1 X), <- (A2 Y). reflexivity.
  - right. left. rewrite <- (A1 X). exact (B2 Y).
  - right. right. rewrite <- (A2 Y). exact (B1 X).
  - left. specialize (B1 X). specialize (B2 Y). rewrite B1 in B2. apply app_inv_tail in B2. exact B2.
Qed.
Print Assumptions C61_distinct_partial.
(** Any name that is not empty: nothing is read or written outside, and the result fits in the 1024 bytes with its NUL. *)
Theorem C61_fits s : s <> [] -> exists r, zfileName s = Ok r /\ slen r <= 1023.
Proof.
  intros N. destruct (last_in s N) as (c & EC & _). unfold zfileName. cbv zeta. rewrite EC. cbn [bind]. destruct s as [|f t] eqn:ES; [congruence|]. rewrite <- ES in *.
  replace (aget s 0) with (@Ok Z f) by (rewrite ES; reflexivity). cbn [bind]. eexists. split; [reflexivity|]. change MAX_FILENAME_LENGTH with 1024.
  assert (F : forall x n, slen (stringCopy_val 1024 x n) <= 1023).
  { intros x n. unfold stringCopy_val, stake, slen. destruct n as [k|]; [destruct (k <=? 0)|]; rewrite ?firstn_length; cbn [length]; lia. }
  assert (G : forall x, slen x <= 1023 -> slen (stringCat_n 1024 x ext_dss 4) <= 1023).
  { intros x H. unfold stringCat_n. destruct (1024 - slen x - 1 >? 0); [|exact H]. rewrite slen_app. unfold stake, slen at 2. rewrite firstn_length. lia. }
  match goal with |- slen (if ?b then ?x else ?y) <= _ => assert (H : slen x <= 1023) by (destruct (f =? 34); apply F); destruct b; [exact H|apply G; exact H] end.
Qed.
Print Assumptions C61_fits.

Example C61_example :
  (let s := [47; 116; 47; 82; 105; 118; 101; 114] in s <> [] /\ no_quote s /\ slen s <= 1015 /\ slen s <> 4 /\ ~ has_extension s /\
   zfileName s = Ok (s ++ [46; 100; 115; 115]) /\ zfileName (34 :: s ++ [34]) = Ok (s ++ [46; 100; 115; 115])) /\
  (let s := [65; 46; 68; 83; 83] in s <> [] /\ no_quote s /\ slen s <= 1015 /\ has_extension s /\ zfileName s = Ok s).
Proof.
  cbv zeta. split.
  - split; [discriminate|]. split; [intros H; cbn in H; lia|]. split; [vm_compute; discriminate|]. split; [vm_compute; discriminate|].
    split; [|split; reflexivity]. rewrite (ext_of [47; 116; 47; 82] [105; 118; 101; 114] eq_refl) by discriminate. intros [H|H]; vm_compute in H; discriminate H.
  - split; [discriminate|]. split; [intros H; cbn in H; lia|]. split; [vm_compute; discriminate|]. split; [|reflexivity].
    exists [65], [46; 68; 83; 83]. split; [reflexivity|]. split; [discriminate|]. left. reflexivity.
Qed.

(** ** What fails *)
(** the empty name: a byte before it is read *)
Theorem C61_refuted_empty : zfileName [] = Undef.
Proof. reflexivity. Qed.
Print Assumptions C61_refuted_empty.
(** ".dss" gets a second extension, but not in quotes *)
Theorem C61_refuted_bare : exists s, s <> [] /\ no_quote s /\ slen s <= 1019 /\ zfileName s = Ok (s ++ [46; 100; 115; 115]) /\ zfileName (34 :: s ++ [34]) = Ok s.
Proof. exists ext_dss. split; [discriminate|]. split; [intros H; cbn in H; lia|]. split; [vm_compute; discriminate|]. split; reflexivity. Qed.
Print Assumptions C61_refuted_bare.
(** long names are cut without a report: two different names, both with their extension, are the same file *)
Theorem C61_refuted_long : exists s t, s <> t /\ has_extension s /\ has_extension t /\ no_quote s /\ no_quote t /\ zfileName s = zfileName t /\ exists r, zfileName s = Ok r.
Proof.
  exists (repeat 65 1030 ++ ext_dss), (repeat 65 1023 ++ repeat 66 7 ++ ext_dss).
  assert (NQ : forall a b, a <> 34 -> no_quote b -> forall k, no_quote (repeat a k ++ b)).
  { intros a b Ha Hb k H. apply in_app_or in H. destruct H as [H|H]; [apply repeat_spec in H; congruence|exact (Hb H)]. }
  assert (ND : no_quote ext_dss) by (intros H; cbn in H; lia).
  split; [intros H; apply (f_equal (fun l => nth 1024 l 0)) in H; vm_compute in H; discriminate H|].
  split; [exists (repeat 65 1030), ext_dss; split; [reflexivity|split; [intros H; apply (f_equal (@length Z)) in H; vm_compute in H; discriminate H|left; reflexivity]]|].
  split; [exists (repeat 65 1023 ++ repeat 66 7), ext_dss; split; [rewrite app_assoc; reflexivity|split; [intros H; apply (f_equal (@length Z)) in H; vm_compute in H; discriminate H|left; reflexivity]]|].
  split; [apply NQ; [lia|exact ND]|]. split; [apply NQ; [lia|apply NQ; [lia|exact ND]]|].
  split; [vm_compute; reflexivity|]. eexists. vm_compute. reflexivity.
Qed.
Print Assumptions C61_refuted_long.
