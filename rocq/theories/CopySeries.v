(** * C57: which blocks of a time series are copied as they are. *)
From Coq Require Import ZArith List Lia Bool ZifyBool.
From Verif Require Import Base ArrayLib PackModel HashModel CStr CStrProofs PathModel PathSpec PathProofs FileModel FileSpec SqueezeModel CopyModel CopySpec.
Import ListNotations.
Open Scope Z_scope.

Lemma same_n_app p x y : same_n (length p) (p ++ x) (p ++ y) = true.
Proof. induction p as [|a p IH]; [reflexivity|]. cbn [length app same_n]. rewrite Z.eqb_refl. exact IH. Qed.
Lemma same_n_firstn : forall n a b, same_n n a b = true -> firstn n a = firstn n b.
Proof.
  induction n as [|n IH]; intros a b H; [reflexivity|]. destruct a as [|x a], b as [|y b]; cbn [same_n] in H; try discriminate; [reflexivity|].
  apply andb_true_iff in H. destruct H as [H1 H2]. cbn [firstn]. rewrite (IH a b H2). f_equal. lia.
Qed.

Lemma positions_at a b c d e f : let p := positions6 [a; b; c; d; e; f] in
  aget p 3 = Ok (4 + a + b + c) /\ aget p 4 = Ok (5 + a + b + c + d) /\ aget p 5 = Ok (6 + a + b + c + d + e).
Proof.
  cbv zeta. unfold positions6, aget. change (3 <? 0) with false. change (4 <? 0) with false. change (5 <? 0) with false.
  change (Z.to_nat 3) with 3%nat. change (Z.to_nat 4) with 4%nat. change (Z.to_nat 5) with 5%nat. cbv iota. cbn [nth_error].
  split; [|split]; f_equal; lia.
Qed.

(** Two names of which one follows the other but for the parts A, B, C and F, with as many characters before the date:
    the block is copied as it is, unless both are elevations or the interval is a short one of minutes. *)
Theorem C57_same_block_partial A B C D E F A' B' C' F' :
  Forall no_slash [A; B; C; D; E; F] -> Forall no_slash [A'; B'; C'; D; E; F'] -> slen A + slen B + slen C = slen A' + slen B' + slen C' ->
  ~ (slen E < 6 /\ exists x, E = x ++ [77; 73; 78]) ->
  let from := path_text [A; B; C; D; E; F] in let to := path_text [A'; B'; C'; D; E; F'] in
  pathnameIsElevTsOrPd from && pathnameIsElevTsOrPd to = false -> series_internal from to = Ok true.
Proof.
  intros NF NT HL NM from to NE. unfold series_internal.
  unfold from at 1, to at 1. rewrite !positions_spec by (assumption || reflexivity).
  pose proof (slen_nonneg A). pose proof (slen_nonneg B). pose proof (slen_nonneg C). pose proof (slen_nonneg D). pose proof (slen_nonneg E). pose proof (slen_nonneg F).
  pose proof (slen_nonneg A'). pose proof (slen_nonneg B'). pose proof (slen_nonneg C'). pose proof (slen_nonneg F').
  assert (ET : to = path_text [A'; B'; C'] ++ (D ++ 47 :: E ++ [47]) ++ (F' ++ [47])).
  { unfold to, path_text. cbn [map concat]. cbn [app]. repeat (rewrite <- app_assoc; cbn [app]). reflexivity. }
  assert (EF : from = path_text [A; B; C] ++ (D ++ 47 :: E ++ [47]) ++ (F ++ [47])).
  { unfold from, path_text. cbn [map concat]. cbn [app]. repeat (rewrite <- app_assoc; cbn [app]). reflexivity. }
  assert (L3 : slen (path_text [A'; B'; C']) = 4 + slen A' + slen B' + slen C').
  { unfold path_text. cbn [map concat]. rewrite slen_cons, !slen_app. change (slen [47]) with 1. change (slen []) with 0. lia. }
  assert (L3' : slen (path_text [A; B; C]) = 4 + slen A + slen B + slen C).
  { unfold path_text. cbn [map concat]. rewrite slen_cons, !slen_app. change (slen [47]) with 1. change (slen []) with 0. lia. }
  cbn [bind snd map].
  destruct (positions_at (slen A') (slen B') (slen C') (slen D) (slen E) (slen F')) as (P3 & P4 & P5). rewrite P3, P4, P5. cbn [bind].
  destruct (positions_at (slen A) (slen B) (slen C) (slen D) (slen E) (slen F)) as (Q3 & _ & Q5). rewrite Q3, Q5. clear P3 P4 P5 Q3 Q5.
  set (b := 4 + slen A + slen B + slen C). 
  replace (4 + slen A' + slen B' + slen C') with b in * by (subst b; lia).
  replace (5 + slen A' + slen B' + slen C' + slen D) with (b + slen D + 1) by (subst b; lia).
  replace (6 + slen A' + slen B' + slen C' + slen D + slen E) with (b + slen D + slen E + 2) by (subst b; lia).
  replace (6 + slen A + slen B + slen C + slen D + slen E) with (b + slen D + slen E + 2) by (subst b; lia).
  assert (LEN : forall l l' : list Z, slen (l ++ l') = slen l + slen l') by (intros; apply slen_app).
  assert (S2 : slen (D ++ 47 :: E ++ [47]) = slen D + slen E + 2) by (rewrite slen_app, slen_cons, slen_app; change (slen [47]) with 1; lia).
  assert (LT : zlen to = b + (slen D + slen E + 2) + slen F' + 1).
  { change (zlen to) with (slen to). rewrite ET, slen_app, slen_app, L3, S2, slen_app. change (slen [47]) with 1. lia. }
  assert (LF : zlen from = b + (slen D + slen E + 2) + slen F + 1).
  { change (zlen from) with (slen from). rewrite EF, slen_app, slen_app, L3', S2, slen_app. change (slen [47]) with 1. subst b. lia. }
  assert (MIN : (if b + slen D + slen E + 2 - (b + slen D + 1) - 1 <? 6 then strncmp_at to (b + slen D + slen E + 2 - 4) [77; 73; 78; 47] 0 4 else Ok false) = Ok false).
  { destruct (b + slen D + slen E + 2 - (b + slen D + 1) - 1 <? 6) eqn:E6; [|reflexivity]. unfold strncmp_at. rewrite LT.
    destruct ((b + slen D + slen E + 2 - 4 <? 0) || (b + (slen D + slen E + 2) + slen F' + 1 <? b + slen D + slen E + 2 - 4) || (0 <? 0) || (zlen [77; 73; 78; 47] <? 0)) eqn:G.
    { exfalso. change (zlen [77; 73; 78; 47]) with 4 in G. subst b. lia. }
    f_equal. change (Z.to_nat 4) with 4%nat. change (skipn (Z.to_nat 0) [77; 73; 78; 47]) with [77; 73; 78; 47].
    destruct (same_n 4 _ _) eqn:SN; [|reflexivity]. exfalso. apply same_n_firstn in SN.
    destruct (Z_lt_ge_dec (slen E) 3) as [L|L].
    - (* the slash before the interval is among the four characters *)
      assert (NT' : nth_error to (Z.to_nat (b + slen D)) = Some 47).
      { replace to with ((path_text [A'; B'; C'] ++ D) ++ 47 :: E ++ [47] ++ (F' ++ [47])).
        - rewrite nth_error_app2 by (rewrite app_length; unfold slen in *; lia).
          replace (Z.to_nat (b + slen D) - length (path_text [A'; B'; C'] ++ D))%nat with 0%nat by (rewrite app_length; unfold slen in *; lia). reflexivity.
        - rewrite ET. rewrite <- !app_assoc. cbn [app]. rewrite <- !app_assoc. reflexivity. }
      assert (K : nth_error (firstn 4 (skipn (Z.to_nat (b + slen D + slen E + 2 - 4)) to)) (Z.to_nat (2 - slen E)) = Some 47).
      { rewrite <- NT'. rewrite <- (firstn_skipn (Z.to_nat (b + slen D + slen E + 2 - 4)) to) at 2.
        rewrite nth_error_app2 by (rewrite firstn_length; unfold slen, zlen in *; lia).
        rewrite firstn_length, Nat.min_l by (unfold slen, zlen in *; lia).
        replace (Z.to_nat (b + slen D) - Z.to_nat (b + slen D + slen E + 2 - 4))%nat with (Z.to_nat (2 - slen E)) by (subst b; lia).
        assert (Z.to_nat (2 - slen E) < 4)%nat by lia. clear - H9. generalize dependent (Z.to_nat (2 - slen E)). generalize (skipn (Z.to_nat (b + slen D + slen E + 2 - 4)) to).
        intros l n Hn. do 4 (destruct l as [|? l]; [destruct n as [|[|[|[|n]]]]; reflexivity|destruct n as [|n]; [reflexivity|]; cbn [nth_error firstn]; try (exfalso; lia)]). }
      rewrite SN in K. assert (J : Z.to_nat (2 - slen E) = 0%nat \/ Z.to_nat (2 - slen E) = 1%nat \/ Z.to_nat (2 - slen E) = 2%nat) by lia.
      destruct J as [J|[J|J]]; rewrite J in K; discriminate.
    - apply NM. split; [lia|]. exists (firstn (length E - 3) E). rewrite <- (firstn_skipn (length E - 3) E) at 1. f_equal.
      assert (ET2 : to = (path_text [A'; B'; C'] ++ D ++ 47 :: firstn (length E - 3) E) ++ skipn (length E - 3) E ++ 47 :: F' ++ [47]).
      { rewrite ET. rewrite <- (firstn_skipn (length E - 3) E) at 1. cbn [app]. repeat (rewrite <- app_assoc; cbn [app]). reflexivity. }
      assert (L3E : (length (skipn (length E - 3) E) = 3)%nat) by (rewrite skipn_length; unfold slen in *; lia).
      rewrite ET2 in SN. replace (Z.to_nat (b + slen D + slen E + 2 - 4)) with (length (path_text [A'; B'; C'] ++ D ++ 47 :: firstn (length E - 3) E)) in SN
        by (rewrite !app_length; cbn [length]; rewrite firstn_length; unfold slen in *; lia).
      rewrite skipn_app, skipn_all, Nat.sub_diag in SN. cbn [app skipn] in SN. 
      destruct (skipn (length E - 3) E) as [|x [|y [|z [|w r]]]]; try discriminate. cbn [app firstn] in SN. congruence. }
  rewrite MIN. cbn [bind]. 
  destruct (negb (b + slen D + slen E + 2 - b =? b + slen D + slen E + 2 - b)) eqn:G; [lia|]. clear G.
  unfold strncmp_at. rewrite LT, LF.
  match goal with |- context [if ?c then Undef else _] => destruct c eqn:G; [exfalso; subst b; lia|] end. cbn [bind].
  replace (skipn (Z.to_nat b) from) with ((D ++ 47 :: E ++ [47]) ++ (F ++ [47])).
  2:{ rewrite EF. replace (Z.to_nat b) with (length (path_text [A; B; C])) by (unfold slen in *; subst b; lia). rewrite skipn_app, skipn_all, Nat.sub_diag. reflexivity. }
  replace (skipn (Z.to_nat b) to) with ((D ++ 47 :: E ++ [47]) ++ (F' ++ [47])).
  2:{ rewrite ET. replace (Z.to_nat b) with (length (path_text [A'; B'; C'])) by (unfold slen in *; subst b; lia). rewrite skipn_app, skipn_all, Nat.sub_diag. reflexivity. }
  replace (Z.to_nat (b + slen D + slen E + 2 - b)) with (length (D ++ 47 :: E ++ [47])) by (unfold slen in *; lia).
  rewrite same_n_app. cbn [andb]. rewrite NE. reflexivity.
Qed.
Print Assumptions C57_same_block_partial.
(** /BASIN/NORTH/FLOW/01JAN2020/1HOUR/OBS/ onto /RIVER/SOUTH/FLOW/01JAN2020/1HOUR/SIM/ *)
Example C57_same_block_example :

  series_internal (path_text [[66; 65; 83; 73; 78]; [78; 79; 82; 84; 72]; [70; 76; 79; 87]; [48; 49; 74; 65; 78; 50; 48; 50; 48]; [49; 72; 79; 85; 82]; [79; 66; 83]])
    (path_text [[82; 73; 86; 69; 82]; [83; 79; 85; 84; 72]; [70; 76; 79; 87]; [48; 49; 74; 65; 78; 50; 48; 50; 48]; [49; 72; 79; 85; 82]; [83; 73; 77; 85; 76]]) = Ok true.
Proof.
  apply C57_same_block_partial; try reflexivity;
    try (apply Forall_forall; intros p Hp Q; cbn [In] in Hp; repeat (destruct Hp as [<-|Hp]; [repeat (destruct Q as [Q|Q]; [discriminate|]); destruct Q|]); destruct Hp).
  intros (_ & x & E). apply (f_equal (@rev Z)) in E. rewrite rev_app_distr in E. discriminate.
Qed.
