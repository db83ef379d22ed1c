(** * The catalogue's pattern test decides the specification. *)
From Coq Require Import ZArith List Lia Bool ZifyBool.
From Verif Require Import Base ArrayLib HashModel FileModel FileSpec CStr CStrProofs PathModel PathSpec PathProofs PathProps TextProps CatModel CatSpec.
Import ListNotations.
Open Scope Z_scope.

Lemma toupper_pos c : 0 < c < 256 -> toupper c <> 0.
Proof. unfold toupper. destruct ((97 <=? c) && (c <=? 122)) eqn:E; lia. Qed.
Lemma toupper_0 : toupper 0 = 0. Proof. reflexivity. Qed.
Lemma canon_app a b : canon (a ++ b) = canon a ++ canon b. Proof. apply map_app. Qed.
Lemma canon_len a : length (canon a) = length a. Proof. apply map_length. Qed.

Lemma is_prefix_spec t p : is_prefix t p = true <-> exists r, p = t ++ r.
Proof.
  revert p. induction t as [|a t IH]; intros p; cbn [is_prefix].
  - split; [intros _; exists p; reflexivity|reflexivity].
  - destruct p as [|b p]; [split; [discriminate|intros (r & E); discriminate]|]. rewrite andb_true_iff, IH. split.
    + intros [E (r & ->)]. exists r. cbn. f_equal. lia.
    + intros (r & E). cbn in E. inversion E; subst. split; [lia|exists r; reflexivity].
Qed.

Lemma aget_mid {A} (p : list A) x q : aget (p ++ x :: q) (Z.of_nat (length p)) = Ok x.
Proof. apply aget_nth. rewrite nth_error_app2, Nat.sub_diag by lia. reflexivity. Qed.

Lemma same_text_spec : forall t p pre q pt qt, c_text t -> c_text p ->
  same_text (length t) (pre ++ p ++ 0 :: q) (slen pre) (pt ++ t ++ qt) (slen pt) = Ok (is_prefix (canon t) (canon p)).
Proof.
  induction t as [|y t IH]; intros p pre q pt qt Ht Hp; [reflexivity|].
  inversion_clear Ht as [|? ? Hy Ht']. cbn [length same_text]. unfold slen.
  cbn [app]. rewrite (aget_mid pt y).
  destruct p as [|x p].
  - cbn [app]. rewrite aget_mid. cbn [bind canon map is_prefix]. rewrite toupper_0.
    destruct (0 =? toupper y) eqn:E; [pose proof (toupper_pos y Hy); lia|reflexivity].
  - inversion_clear Hp as [|? ? Hx Hp']. cbn [app]. rewrite (aget_mid pre x). cbn [bind canon map is_prefix].
    change (canon_char y) with (toupper y). change (canon_char x) with (toupper x). rewrite (Z.eqb_sym (toupper y)).
    destruct (toupper x =? toupper y) eqn:E; [|reflexivity]. cbn [andb].
    specialize (IH p (pre ++ [x]) q (pt ++ [y]) qt Ht' Hp'). rewrite <- !app_assoc in IH. unfold slen in IH. rewrite !app_length in IH. cbn [length app] in IH.
    replace (Z.of_nat (length pre) + 1) with (Z.of_nat (length pre + 1)) by lia.
    replace (Z.of_nat (length pt) + 1) with (Z.of_nat (length pt + 1)) by lia. exact IH.
Qed.

Lemma compare_front t p q qt : c_text t -> c_text p ->
  zstringCompare (p ++ 0 :: q) 0 (t ++ qt) (slen t) = Ok (is_prefix (canon t) (canon p)).
Proof.
  intros Ht Hp. unfold zstringCompare, slen. rewrite Nat2Z.id. exact (same_text_spec t p [] q [] qt Ht Hp).
Qed.

Lemma starts_prefix t p : is_prefix (canon t) (canon p) = true <-> starts_with t p.
Proof. apply is_prefix_spec. Qed.

Lemma equal_prefix t p : length p = length t -> (is_prefix (canon t) (canon p) = true <-> canon p = canon t).
Proof.
  intros L. rewrite is_prefix_spec. split.
  - intros (r & E). pose proof (f_equal (@length _) E) as Q. rewrite app_length, !canon_len in Q.
    destruct r; [|cbn in Q; lia]. rewrite app_nil_r in E. exact E.
  - intros E. exists []. rewrite app_nil_r. exact E.
Qed.

Lemma ends_split t p : (length t <= length p)%nat ->
  (ends_with t p <-> canon (skipn (length p - length t) p) = canon t).
Proof.
  intros L. set (n := (length p - length t)%nat). assert (E : p = firstn n p ++ skipn n p) by (symmetry; apply firstn_skipn).
  assert (LS : length (skipn n p) = length t) by (rewrite skipn_length; subst n; lia). split.
  - intros (l & Q). rewrite E, canon_app in Q.
    assert (L2 : length (canon (firstn n p)) = length l).
    { pose proof (f_equal (@length _) Q) as Q2. rewrite !app_length, !canon_len in Q2. rewrite LS in Q2. rewrite canon_len. lia. }
    clear - Q L2.
    revert l Q L2. generalize (canon (firstn n p)) as a, (canon (skipn n p)) as b, (canon t) as d. intros a.
    induction a as [|x a IH]; intros b d l Q L2; destruct l as [|y l]; try discriminate; [exact Q|].
    cbn in Q. inversion Q. eapply IH; eauto.
  - intros Q. exists (canon (firstn n p)). rewrite <- Q, <- canon_app, firstn_skipn. reflexivity.
Qed.

Lemma compare_back t p q qt : c_text t -> c_text p -> (length t <= length p)%nat ->
  exists b, zstringCompare (p ++ 0 :: q) (slen p - slen t) (t ++ qt) (slen t) = Ok b /\ (b = true <-> ends_with t p).
Proof.
  intros Ht Hp L. set (n := (length p - length t)%nat). assert (E : p = firstn n p ++ skipn n p) by (symmetry; apply firstn_skipn).
  assert (LS : length (skipn n p) = length t) by (rewrite skipn_length; subst n; lia).
  assert (LF : length (firstn n p) = n) by (rewrite firstn_length; subst n; lia).
  assert (HS : c_text (skipn n p)).
  { unfold c_text. rewrite Forall_forall. intros x Hx. unfold c_text in Hp. rewrite Forall_forall in Hp. apply Hp. rewrite E. apply in_or_app. right. exact Hx. }
  exists (is_prefix (canon t) (canon (skipn n p))). split.
  - unfold zstringCompare, slen. rewrite Nat2Z.id.
    replace (Z.of_nat (length p) - Z.of_nat (length t)) with (slen (firstn n p)) by (unfold slen; rewrite LF; subst n; lia).
    rewrite E at 1. rewrite <- app_assoc. exact (same_text_spec t (skipn n p) (firstn n p) q [] qt Ht HS).
  - rewrite equal_prefix by exact LS. symmetry. apply ends_split. exact L.
Qed.

Lemma find_loop_spec t qt q : c_text t -> t <> [] -> forall p pre, c_text p ->
  exists r, find_loop (length p) (pre ++ p ++ 0 :: q) (t ++ qt) (slen t) (slen pre) = Ok r /\ (0 <= r <-> contains t p).
Proof.
  intros Ht NT. induction p as [|x p IH]; intros pre Hp.
  - exists (-1). split; [reflexivity|]. split; [lia|]. intros (l & r & E). pose proof (f_equal (@length _) E) as Q.
    rewrite !app_length, !canon_len in Q. destruct t; [congruence|]. cbn in Q. lia.
  - cbn [length find_loop]. pose proof (same_text_spec t (x :: p) pre q [] qt Ht Hp) as S. cbn [app] in S. change (slen []) with 0 in S.
    unfold slen at 1. rewrite Nat2Z.id. cbn [app]. rewrite S. cbn [bind].
    destruct (is_prefix (canon t) (canon (x :: p))) eqn:EP.
    + exists (slen pre). split; [reflexivity|]. split; [|pose proof (slen_nonneg pre); lia]. intros _.
      apply is_prefix_spec in EP. destruct EP as (r & E). exists [], r. exact E.
    + inversion_clear Hp as [|? ? Hx Hp']. destruct (IH (pre ++ [x]) Hp') as (r & E & HR).
      exists r. split.
      * rewrite <- app_assoc in E. cbn [app] in E. rewrite <- E. f_equal. rewrite slen_app. reflexivity.
      * rewrite HR. split.
        -- intros (l & r' & Q). exists (canon_char x :: l), r'. cbn [canon map]. fold (canon p). rewrite Q. reflexivity.
        -- intros (l & r' & Q). destruct l as [|y l].
           ++ exfalso. assert (is_prefix (canon t) (canon (x :: p)) = true) by (apply is_prefix_spec; exists r'; exact Q). congruence.
           ++ cbn [canon map app] in Q. inversion Q. exists l, r'. assumption.
Qed.

Lemma contains_len t p : contains t p -> (length t <= length p)%nat.
Proof. intros (l & r & E). pose proof (f_equal (@length _) E) as Q. rewrite !app_length, !canon_len in Q. lia. Qed.

Lemma find_spec t p q qt : c_text t -> c_text p -> (t = [] -> p <> []) ->
  exists r, zfindString (p ++ 0 :: q) (slen p) (t ++ qt) (slen t) = Ok r /\ (0 <= r <-> contains t p).
Proof.
  intros Ht Hp NE. unfold zfindString. destruct (slen t >? slen p) eqn:E.
  - exists (-1). split; [reflexivity|]. split; [lia|]. intros C. apply contains_len in C. unfold slen in E. lia.
  - unfold slen at 1. rewrite Nat2Z.id. destruct t as [|y t].
    + destruct p as [|x p]; [exfalso; apply NE; reflexivity|]. exists 0. split; [reflexivity|]. split; [|lia]. intros _. exists [], (canon (x :: p)). reflexivity.
    + exact (find_loop_spec (y :: t) qt q Ht ltac:(discriminate) p [] Hp).
Qed.

(** ** What is kept of a part of the pattern *)
Definition kept (w : list Z) (act : Z) (t : list Z) : Prop :=
  (act = 0 /\ w = [star]) \/
  (act = 1 /\ t = w /\ hd 0 w <> star /\ last w 0 <> star) \/
  (act = 2 /\ w = t ++ [star] /\ t <> [] /\ hd 0 t <> star) \/
  (act = 3 /\ w = star :: t /\ t <> [] /\ last t 0 <> star) \/
  (act = 4 /\ w = star :: t ++ [star]).

Lemma part_action_spec w : exists act istart len, part_action w = Ok (act, istart, len) /\
  0 <= istart <= slen w /\ len = slen (stake len (sdrop istart w)) /\ kept w act (stake len (sdrop istart w)).
Proof.
  unfold part_action. destruct w as [|a w].
  - cbn. exists 1, 0, 0. split; [reflexivity|]. split; [lia|]. split; [reflexivity|]. right. left. unfold star. cbn. repeat split; lia.
  - destruct w as [|b w].
    + cbn [slen length]. change (Z.of_nat 1 =? 1) with true. cbv iota. change (aget [a] 0) with (Ok a). cbn [bind].
      eexists _, 0, 1. split; [reflexivity|]. split; [cbn; lia|]. split; [reflexivity|].
      change (stake 1 (sdrop 0 [a])) with [a]. destruct (a =? 42) eqn:E; [left|right; left]; unfold star; cbn [hd last]; repeat split; try lia. f_equal. lia.
    + assert (L2 : 2 <= slen (a :: b :: w)) by (unfold slen; cbn [length]; lia).
      destruct (exists_last (l := b :: w) ltac:(discriminate)) as (m & z & Em).
      assert (AZ : aget (a :: b :: w) (slen (a :: b :: w) - 1) = Ok z).
      { rewrite Em. replace (slen (a :: m ++ [z]) - 1) with (Z.of_nat (length (a :: m))) by (unfold slen; cbn [length]; rewrite app_length; cbn [length]; lia).
        exact (aget_mid (a :: m) z []). }
      destruct (slen (a :: b :: w) =? 1) eqn:Q1; [lia|]. destruct (slen (a :: b :: w) =? 0) eqn:Q2; [lia|].
      change (aget (a :: b :: w) 0) with (Ok a). cbn [bind]. rewrite AZ. cbn [bind]. clear Q1 Q2 AZ. rewrite Em in *.
      assert (SL : slen (a :: m ++ [z]) = slen m + 2) by (unfold slen; cbn [length]; rewrite app_length; cbn [length]; lia).
      assert (T1 : stake (slen (a :: m ++ [z]) - 1) (sdrop 0 (a :: m ++ [z])) = a :: m).
      { change (sdrop 0 (a :: m ++ [z])) with ((a :: m) ++ [z]). rewrite SL. replace (slen m + 2 - 1) with (Z.of_nat (length (a :: m))) by (unfold slen; cbn [length]; lia).
        unfold stake. rewrite Nat2Z.id, firstn_app, Nat.sub_diag, firstn_all. cbn [firstn]. apply app_nil_r. }
      assert (T2 : stake (slen (a :: m ++ [z]) - 2) (sdrop 1 (a :: m ++ [z])) = m).
      { change (sdrop 1 (a :: m ++ [z])) with (m ++ [z]). rewrite SL. replace (slen m + 2 - 2) with (slen m) by lia.
        unfold stake, slen. rewrite Nat2Z.id, firstn_app, Nat.sub_diag, firstn_all. cbn [firstn]. apply app_nil_r. }
      assert (T3 : stake (slen (a :: m ++ [z]) - 1) (sdrop 1 (a :: m ++ [z])) = m ++ [z]).
      { change (sdrop 1 (a :: m ++ [z])) with (m ++ [z]). apply stake_all. rewrite SL, slen_app. change (slen [z]) with 1. lia. }
      assert (T4 : stake (slen (a :: m ++ [z])) (sdrop 0 (a :: m ++ [z])) = a :: m ++ [z]).
      { change (sdrop 0 (a :: m ++ [z])) with (a :: m ++ [z]). apply stake_all. lia. }
      assert (HL : last (a :: m ++ [z]) 0 = z) by (change (a :: m ++ [z]) with ((a :: m) ++ [z]); apply last_last).
      pose proof (slen_nonneg m) as HM.
      destruct (z =? 42) eqn:EZ; destruct (a =? 42) eqn:EA; eexists _, _, _; (split; [reflexivity|]); (split; [lia|]).
      * rewrite T2, SL. split; [lia|]. do 4 right. unfold star. split; [reflexivity|]. f_equal; [lia|]. do 2 f_equal. lia.
      * rewrite T1. split; [rewrite SL; unfold slen; cbn [length]; lia|]. do 2 right. left. unfold star. split; [reflexivity|]. split; [cbn [app]; do 3 f_equal; lia|]. split; [discriminate|cbn; lia].
      * rewrite T3. split; [rewrite SL, slen_app; change (slen [z]) with 1; lia|]. do 3 right. left. unfold star. split; [reflexivity|]. split; [f_equal; lia|]. split; [destruct m; discriminate|rewrite last_last; lia].
      * rewrite T4. split; [reflexivity|]. right. left. unfold star. split; [reflexivity|]. split; [reflexivity|]. split; [cbn; lia|rewrite HL; lia].
Qed.

(** ** The test on one part *)
Lemma match_any p : part_matches [star] p. Proof. constructor. Qed.
Lemma match_contains t p : part_matches (star :: t ++ [star]) p <-> contains t p.
Proof.
  split; [|apply pm_contains]. intros M. remember (star :: t ++ [star]) as w eqn:E.
  destruct M as [p|t' p C|t' p N H C|t' p N H C|t' p H1 H2 C].
  - destruct t; discriminate.
  - inversion E as [E']. apply app_inj_tail in E'. destruct E' as [-> _]. exact C.
  - change (star :: t ++ [star]) with ((star :: t) ++ [star]) in E. apply app_inj_tail in E. destruct E as [-> _]. exfalso. apply H. reflexivity.
  - inversion E; subst. rewrite last_last in H. exfalso. apply H. reflexivity.
  - subst. exfalso. apply H1. reflexivity.
Qed.
Lemma match_starts t p : t <> [] -> hd 0 t <> star -> part_matches (t ++ [star]) p <-> starts_with t p.
Proof.
  intros NT HT. split; [|apply pm_starts; assumption]. intros M. remember (t ++ [star]) as w eqn:E.
  destruct M as [p|t' p C|t' p N H C|t' p N H C|t' p H1 H2 C].
  - destruct t as [|x [|y t]]; [congruence|discriminate|discriminate].
  - change (star :: t' ++ [star]) with ((star :: t') ++ [star]) in E. apply app_inj_tail in E. destruct E as [<- _]. exfalso. apply HT. reflexivity.
  - apply app_inj_tail in E. destruct E as [-> _]. exact C.
  - destruct t as [|x t]; [congruence|]. inversion E; subst. exfalso. apply HT. reflexivity.
  - subst. rewrite last_last in H2. exfalso. apply H2. reflexivity.
Qed.
Lemma match_ends t p : t <> [] -> last t 0 <> star -> part_matches (star :: t) p <-> ends_with t p.
Proof.
  intros NT HT. split; [|apply pm_ends; assumption]. intros M. remember (star :: t) as w eqn:E.
  destruct M as [p|t' p C|t' p N H C|t' p N H C|t' p H1 H2 C].
  - inversion E. congruence.
  - inversion E; subst. rewrite last_last in HT. exfalso. apply HT. reflexivity.
  - destruct t' as [|x t']; [congruence|]. inversion E; subst. exfalso. apply H. reflexivity.
  - inversion E; subst. exact C.
  - subst. exfalso. apply H1. reflexivity.
Qed.
Lemma match_equal t p : hd 0 t <> star -> last t 0 <> star -> part_matches t p <-> canon p = canon t.
Proof.
  intros HH HT. split; [|apply pm_equal; assumption]. intros M.
  destruct M as [p|t' p C|t' p N H C|t' p N H C|t' p H1 H2 C].
  - exfalso. apply HH. reflexivity.
  - exfalso. apply HH. reflexivity.
  - rewrite last_last in HT. exfalso. apply HT. reflexivity.
  - exfalso. apply HH. reflexivity.
  - exact C.
Qed.

Lemma compare_part_spec w act t p q qt : kept w act t -> act <> 0 -> c_text t -> c_text p -> part_safe w p -> (act = 1 -> length p = length t) ->
  exists b, compare_part act (slen t) (slen p) (t ++ qt) (p ++ 0 :: q) = Ok b /\ (b = true <-> part_matches w p).
Proof.
  intros [[-> _]|[(-> & -> & H1 & H2)|[(-> & -> & H1 & H2)|[(-> & -> & H1 & H2)|[-> ->]]]]] NA Ht Hp [S1 S2] HL; [congruence|..]; unfold compare_part; cbn [Z.eqb Pos.eqb].
  - eexists. split; [apply compare_front; assumption|]. rewrite match_equal by assumption. apply equal_prefix, HL. reflexivity.
  - eexists. split; [apply compare_front; assumption|]. rewrite match_starts by assumption. apply starts_prefix.
  - destruct (compare_back t p q qt Ht Hp) as (b & E & HB); [apply (S1 t); auto|]. exists b. split; [exact E|]. rewrite HB. symmetry. apply match_ends; assumption.
  - destruct (find_spec t p q qt Ht Hp) as (r & E & HR).
    { intros -> ->. apply S2; reflexivity. }
    rewrite E. cbn [bind]. eexists. split; [reflexivity|]. rewrite match_contains, <- HR. destruct (r <? 0) eqn:Q; cbn; split; intros; try discriminate; lia.
Qed.

(** ** The whole pattern *)
Definition wild_ok (w : list Z) (o : wild) : Prop :=
  exists t, kept w (w_act o) t /\ c_text t /\ slen t <= 128 /\ (w_act o <> 0 -> w_len o = slen t /\ exists qt, w_buf o = t ++ 0 :: qt).

Lemma c_text_sub n m s : c_text s -> c_text (stake n (sdrop m s)).
Proof.
  unfold c_text, stake, sdrop. rewrite !Forall_forall. intros H x Hx. apply H.
  rewrite <- (firstn_skipn (Z.to_nat m) s). apply in_or_app. right. rewrite <- (firstn_skipn (Z.to_nat n) (skipn (Z.to_nat m) s)). apply in_or_app. left. exact Hx.
Qed.

Lemma buffer_split b s : cstr b = Ok s -> exists q, b = s ++ 0 :: q.
Proof.
  revert s. induction b as [|c b IH]; intros s; cbn [cstr]; [discriminate|].
  destruct (c =? 0) eqn:E.
  - intros Q. inversion Q. exists b. cbn. f_equal. lia.
  - destruct (cstr b) as [r|]; [|discriminate]. cbn [bind]. intros Q. inversion Q. destruct (IH r eq_refl) as (q & ->). exists q. reflexivity.
Qed.

Lemma get_part junk ws k w buf : alen junk = 7 -> six_parts ws -> nth_error ws (Z.to_nat (k - 1)) = Some w -> 1 <= k <= 6 -> slen w <= 128 -> alen buf = 129 ->
  exists q, zpathnameGetPart junk (path_text ws) k buf 129 = Ok (slen w, w ++ 0 :: q) /\ alen (w ++ 0 :: q) = 129.
Proof.
  intros Hj (H6 & Hn & Hc) Hk Hr Hw Hb. destruct (C15_get junk ws k w buf 129 Hj H6 Hn Hc Hk Hr) as (b & G & A & C); [lia|].
  rewrite Z.min_l in G by exact Hw. rewrite firstn_all2 in C by (unfold slen in Hw; lia).
  destruct (buffer_split b w C) as (q & ->). exists q. split; [exact G|lia].
Qed.

Lemma copy_text buf t src : alen buf = 129 -> c_text t -> slen t <= 128 -> (exists r, src = t ++ r) ->
  exists qt r, stringCopy buf 129 src (Some (slen t)) = Ok (t ++ 0 :: qt, r) /\ alen (t ++ 0 :: qt) = 129.
Proof.
  intros HB Ht Hl (r & ->). unfold stringCopy. destruct t as [|y t].
  - cbn [slen length]. change (Z.of_nat 0) with 0. cbv iota. change (129 >? 0) with true. cbv iota.
    destruct buf as [|x buf]; [discriminate|]. exists buf, 0. split; [reflexivity|]. exact HB.
  - assert (E0 : (match Some (slen (y :: t)) with Some 0 => true | _ => false end) = false) by reflexivity. rewrite E0. change (129 =? 0) with false. cbv iota.
    unfold stringCopy_val. replace (slen (y :: t) <=? 0) with false by (unfold slen; cbn [length]; lia).
    rewrite Z.min_l by lia. assert (ST : stake (slen (y :: t)) ((y :: t) ++ r) = y :: t).
    { unfold stake, slen. rewrite Nat2Z.id, firstn_app, Nat.sub_diag, firstn_all. cbn [firstn]. apply app_nil_r. }
    rewrite ST. rewrite put_str_val by lia. cbn [bind]. eexists _, _. split; [reflexivity|].
    unfold alen, sdrop, slen in *. rewrite app_length. cbn [length] in *. rewrite skipn_length. lia.
Qed.

Lemma nth_mid {A} (pre : list A) x tl : nth_error (pre ++ x :: tl) (length pre) = Some x.
Proof. rewrite nth_error_app2, Nat.sub_diag by lia. reflexivity. Qed.

Definition slen' (l : list (list Z)) : Z := Z.of_nat (length l).
Lemma parse_parts_ok junk ws : alen junk = 7 -> six_parts ws -> short_parts ws -> forall tl pre olds pbuf, ws = pre ++ tl ->
  length olds = length tl -> Forall (fun o => alen (w_buf o) = 129) olds -> alen pbuf = 129 ->
  exists out, parse_parts junk (path_text ws) pbuf (slen' pre + 1) olds = Ok out /\ Forall2 wild_ok tl out.
Proof.
  intros Hj H6 HS. induction tl as [|w tl IH]; intros pre olds pbuf E HL HO HP; (destruct olds as [|o olds]; [|]); try discriminate.
  - exists []. split; [reflexivity|constructor].
  - inversion_clear HO as [|? ? Ho HO']. cbn [parse_parts].
    assert (Hw : slen w <= 128) by (unfold short_parts in HS; rewrite Forall_forall in HS; apply HS; rewrite E; apply in_or_app; right; left; reflexivity).
    assert (Cw : c_text w) by (destruct H6 as (_ & _ & H6); rewrite Forall_forall in H6; apply H6; rewrite E; apply in_or_app; right; left; reflexivity).
    destruct (get_part junk ws (slen' pre + 1) w pbuf Hj H6) as (q & G & A); [| |exact Hw|exact HP|].
    { rewrite E. replace (Z.to_nat (slen' pre + 1 - 1)) with (length pre) by (unfold slen'; lia). apply nth_mid. }
    { destruct H6 as (H6 & _). rewrite E, app_length in H6. cbn [length] in H6. unfold slen'. lia. }
    rewrite G. cbn [bind snd]. rewrite cstr_c by exact Cw. cbn [bind].
    destruct (part_action_spec w) as (act & istart & len & PA & RI & RL & K). rewrite PA. cbn [bind].
    pose proof (c_text_sub len istart w Cw) as Ct. set (t := stake len (sdrop istart w)) in *.
    assert (Lt : slen t <= 128).
    { unfold t, stake, sdrop, slen in *. rewrite firstn_length, skipn_length. lia. }
    assert (W : exists w', (if act =? 0 then Ok (mkwild 0 (w_len o) (w_buf o))
        else let* c := stringCopy (w_buf o) 129 (sdrop istart w) (Some len) in Ok (mkwild act len (fst c)))%res = Ok w' /\ wild_ok w w').
    { destruct (act =? 0) eqn:EA.
      - eexists. split; [reflexivity|]. exists t. cbn [w_act]. replace act with 0 in K by lia. split; [exact K|]. split; [exact Ct|]. split; [exact Lt|congruence].
      - rewrite RL. destruct (copy_text (w_buf o) t (sdrop istart w) Ho Ct Lt) as (qt & r & SC & _).
        { exists (sdrop len (sdrop istart w)). unfold t, stake, sdrop. symmetry. apply firstn_skipn. }
        rewrite SC. cbn [bind fst]. eexists. split; [reflexivity|]. exists t. cbn [w_act w_len w_buf]. split; [exact K|]. split; [exact Ct|]. split; [exact Lt|]. intros _. split; [reflexivity|]. exists qt. reflexivity. }
    destruct W as (w' & -> & HW). cbn [bind].
    destruct (IH (pre ++ [w]) olds (w ++ 0 :: q)) as (out & PO & HF); [rewrite <- app_assoc; exact E|cbn [length] in HL; lia|exact HO'|exact A|].
    replace (slen' (pre ++ [w])) with (slen' pre + 1) in PO by (unfold slen'; rewrite app_length; cbn [length]; lia). rewrite PO. cbn [bind].
    exists (w' :: out). split; [reflexivity|]. constructor; assumption.
Qed.

Lemma compare_parts_ok junk ps : alen junk = 7 -> six_parts ps -> short_parts ps -> forall tl out, Forall2 wild_ok tl out -> forall pre ptl pbuf sbuf, ps = pre ++ ptl ->
  length ptl = length tl -> alen pbuf = 129 -> alen sbuf = 129 -> Forall2 part_safe tl ptl ->
  exists b, compare_parts junk (path_text ps) pbuf sbuf (slen' pre + 1) false out = Ok b /\ (b = true <-> Forall2 part_matches tl ptl).
Proof.
  intros Hj H6 HS. induction 1 as [|w o tl out HW HF IH]; intros pre ptl pbuf sbuf E HL HP HB SF; (destruct ptl as [|p ptl]; [|]); try discriminate.
  - exists true. split; [reflexivity|]. split; [constructor|reflexivity].
  - inversion_clear SF as [|? ? ? ? SF1 SF2]. cbn [compare_parts].
    assert (Hp : slen p <= 128) by (unfold short_parts in HS; rewrite Forall_forall in HS; apply HS; rewrite E; apply in_or_app; right; left; reflexivity).
    assert (Cp : c_text p) by (destruct H6 as (_ & _ & H6); rewrite Forall_forall in H6; apply H6; rewrite E; apply in_or_app; right; left; reflexivity).
    destruct HW as (t & K & Ct & Lt & HO).
    assert (REC : forall pb sb, alen pb = 129 -> alen sb = 129 -> exists b, compare_parts junk (path_text ps) pb sb (slen' pre + 1 + 1) false out = Ok b /\ (b = true <-> Forall2 part_matches tl ptl)).
    { intros pb sb A1 A2. destruct (IH (pre ++ [p]) ptl pb sb) as (b & E1 & E2); [rewrite <- app_assoc; exact E|cbn [length] in HL; lia|exact A1|exact A2|exact SF2|].
      replace (slen' (pre ++ [p])) with (slen' pre + 1) in E1 by (unfold slen'; rewrite app_length; cbn [length]; lia). exists b. split; assumption. }
    destruct (w_act o =? 0) eqn:EA.
    + destruct (REC pbuf sbuf HP HB) as (b & E1 & E2). exists b. split; [exact E1|]. rewrite E2.
      assert (MW : part_matches w p). { destruct K as [[_ ->]|[K|[K|[K|K]]]]; [apply match_any|lia..]. }
      split; [intros M; constructor; assumption|intros M; inversion M; assumption].
    + destruct HO as (HL1 & qt & HB1); [lia|].
      destruct (get_part junk ps (slen' pre + 1) p pbuf Hj H6) as (q & G & A); [| |exact Hp|exact HP|].
      { rewrite E. replace (Z.to_nat (slen' pre + 1 - 1)) with (length pre) by (unfold slen'; lia). apply nth_mid. }
      { destruct H6 as (H6 & _). rewrite E, app_length in H6. cbn [length] in H6. unfold slen'. lia. }
      rewrite G. cbn [bind]. rewrite HL1.
      destruct ((w_act o =? 1) && negb (slen p =? slen t)) eqn:E1.
      * exists false. split; [reflexivity|]. split; [discriminate|]. intros M. inversion M as [|? ? ? ? M1 M2]; subst.
        destruct K as [[K _]|[(K & -> & K1 & K2)|[(K & _)|[(K & _)|(K & _)]]]]; try lia.
        apply match_equal in M1; [|assumption..]. apply (f_equal (@length _)) in M1. rewrite !canon_len in M1. unfold slen in E1. lia.
      * rewrite HB1, cstr_c by exact Ct. cbn [bind].
        destruct (copy_text sbuf t t HB Ct Lt) as (q2 & r & SC & A2); [exists []; rewrite app_nil_r; reflexivity|].
        rewrite SC. cbn [bind fst]. rewrite andb_false_r. cbn [bind fst snd].
        destruct (compare_part_spec w (w_act o) t p q (0 :: q2) K ltac:(lia) Ct Cp SF1) as (b & CP & HBM).
        { intros Q. unfold slen in E1. lia. }
        rewrite CP. cbn [bind]. destruct b.
        -- destruct (REC (p ++ 0 :: q) (t ++ 0 :: q2) A A2) as (b & R1 & R2). exists b. split; [exact R1|]. rewrite R2.
           split; [intros M; constructor; [apply HBM; reflexivity|exact M]|intros M; inversion M; assumption].
        -- exists false. split; [reflexivity|]. split; [discriminate|]. intros M. inversion M as [|? ? ? ? M1 M2]; subst. apply HBM in M1. discriminate.
Qed.

(** The locals of zcatalogInternal and zcatComparePath: arrays of their declared sizes, any contents *)
Definition locals_ok (lo : locals) : Prop :=
  alen (l_junk lo) = 7 /\ alen (l_part lo) = 129 /\ alen (l_pbuf lo) = 129 /\ alen (l_sbuf lo) = 129 /\
  length (l_olds lo) = 6%nat /\ Forall (fun o => alen (w_buf o) = 129) (l_olds lo).

Lemma path_text_nil ps : slen (path_text ps) =? 0 = false.
Proof. unfold path_text, slen. cbn [length]. lia. Qed.

Lemma parse_ok lo ws : locals_ok lo -> six_parts ws -> short_parts ws ->
  exists out, zcatParsePath (l_junk lo) (path_text ws) (l_part lo) (l_olds lo) = Ok (Some out) /\ Forall2 wild_ok ws out.
Proof.
  intros (L1 & L2 & L3 & L4 & L5 & L6) H6 HS. pose proof H6 as (S1 & S2 & S3). unfold zcatParsePath. rewrite path_text_nil.
  rewrite positions_spec by assumption. cbn [bind fst]. change (negb (7 =? 7)) with false. cbv iota.
  destruct (parse_parts_ok (l_junk lo) ws L1 H6 HS ws [] (l_olds lo) (l_part lo) eq_refl) as (out & E & HF); [lia|exact L6|exact L2|].
  change (slen' [] + 1) with 1 in E. rewrite E. cbn [bind]. exists out. split; [reflexivity|exact HF].
Qed.

Lemma compare_ok lo ws ps out : locals_ok lo -> Forall2 wild_ok ws out -> length ws = 6%nat -> six_parts ps -> short_parts ps -> safe ws ps ->
  exists b, zcatComparePath (l_junk lo) (path_text ps) (l_pbuf lo) (l_sbuf lo) false out = Ok b /\ (b = true <-> name_matches ws ps).
Proof.
  intros (L1 & L2 & L3 & L4 & L5 & L6) HF H6w H6 HS SF. pose proof H6 as (S1 & S2 & S3). unfold zcatComparePath. rewrite path_text_nil.
  rewrite positions_spec by assumption. cbn [bind fst]. change (negb (7 =? 7)) with false. cbv iota.
  exact (compare_parts_ok (l_junk lo) ps L1 H6 HS ws out HF [] ps (l_pbuf lo) (l_sbuf lo) eq_refl ltac:(lia) L3 L4 SF).
Qed.
