(** * Lemmas for the pathname functions. *)
From Coq Require Import ZArith List Bool Lia ZifyBool.
From Verif Require Import Base ArrayLib HashModel CStr CStrProofs DateTextModel TimeTextProps PathModel PathSpec.
Import ListNotations.
Open Scope Z_scope.
Open Scope res_scope.

(** ** trimming *)
Definition trim_of (s : list Z) : list Z :=
  let '(len, start, stop) := trimPositions s in if len >? 0 then stake (stop - start + 1) (sdrop start s) else [].

Lemma first_nonblank_spec s :
  match first_nonblank s with
  | None => blank_text s
  | Some i => exists l c t, s = l ++ c :: t /\ blank_text l /\ c <> 32 /\ i = slen l
  end.
Proof.
  induction s as [|c t IH]; cbn [first_nonblank].
  - constructor.
  - destruct (c =? 32) eqn:E.
    + apply Z.eqb_eq in E. destruct (first_nonblank t) as [i|].
      * destruct IH as (l & d & u & -> & Hl & Hd & ->). exists (c :: l), d, u.
        split; [reflexivity|]. split; [constructor; assumption|]. split; [exact Hd|]. rewrite slen_cons. lia.
      * constructor; assumption.
    + exists [], c, t. split; [reflexivity|]. split; [constructor|]. split; [lia|reflexivity].
Qed.
Lemma last_nonblank_spec s :
  match last_nonblank s with
  | None => blank_text s
  | Some i => exists l c t, s = l ++ c :: t /\ blank_text t /\ c <> 32 /\ i = slen l
  end.
Proof.
  induction s as [|c t IH]; cbn [last_nonblank].
  - constructor.
  - destruct (last_nonblank t) as [i|].
    + destruct IH as (l & d & u & -> & Hl & Hd & ->). exists (c :: l), d, u.
      split; [reflexivity|]. split; [exact Hl|]. split; [exact Hd|]. rewrite slen_cons. lia.
    + destruct (c =? 32) eqn:E.
      * constructor; [lia|exact IH].
      * exists [], c, t. split; [reflexivity|]. split; [exact IH|]. split; [lia|reflexivity].
Qed.

Lemma blank_in s c t r : blank_text s -> s = t ++ c :: r -> c = 32.
Proof. intros H ->. unfold blank_text in H. rewrite Forall_forall in H. apply H, in_or_app. right. left. reflexivity. Qed.

Lemma trim_of_trimmed s : trimmed s (trim_of s).
Proof.
  unfold trim_of, trimPositions.
  pose proof (first_nonblank_spec s) as F. pose proof (last_nonblank_spec s) as L.
  destruct (first_nonblank s) as [i|].
  - destruct F as (l & c & t & E & Hl & Hc & ->).
    destruct (last_nonblank s) as [j|].
    + destruct L as (l' & d & r & E' & Hr & Hd & ->).
      assert (Hlen : (length l <= length l')%nat).
      { destruct (Nat.le_gt_cases (length l) (length l')) as [H|H]; [exact H|exfalso].
        apply Hd. assert (X : nth_error s (length l') = Some d) by (rewrite E', nth_error_app2 by lia; rewrite Nat.sub_diag; reflexivity).
        rewrite E, nth_error_app1 in X by lia. apply nth_error_In in X.
        unfold blank_text in Hl. rewrite Forall_forall in Hl. apply Hl, X. }
      destruct (slen l' - slen l + 1 >? 0) eqn:G; [|unfold slen in G; lia].
      assert (Em : exists m, l' = l ++ m).
      { exists (skipn (length l) l'). rewrite <- (firstn_skipn (length l) l') at 1. f_equal.
        assert (X : firstn (length l) s = firstn (length l) l') by (rewrite E', firstn_app; replace (length l - length l')%nat with 0%nat by lia; cbn [firstn]; apply app_nil_r).
        rewrite <- X, E, firstn_app, firstn_all, Nat.sub_diag. cbn [firstn]. apply app_nil_r. }
      destruct Em as (m & ->). rewrite E' in *. rewrite <- app_assoc. rewrite sdrop_app.
      replace (slen (l ++ m) - slen l + 1) with (slen (m ++ [d])) by (rewrite !slen_app; unfold slen; cbn; lia).
      replace (m ++ d :: r) with ((m ++ [d]) ++ r) by (rewrite <- app_assoc; reflexivity).
      rewrite stake_app. exists l, r. split; [reflexivity|]. split; [exact Hl|]. split; [exact Hr|]. split.
      * intros x u Ex. rewrite <- app_assoc in E. apply app_inv_head in E.
        destruct m as [|y m]; cbn [app] in *.
        -- injection Ex as Ex _. subst x. exact Hd.
        -- injection Ex as Ex _. injection E as E _. subst. exact Hc.
      * intros u x Ex. apply app_inj_tail in Ex. destruct Ex as [_ <-]. exact Hd.
    + exfalso. apply Hc, (blank_in _ _ _ _ L E).
  - destruct (last_nonblank s) as [j|].
    + destruct L as (l' & d & r & E' & Hr & Hd & ->). exfalso. apply Hd, (blank_in _ _ _ _ F E').
    + change (0 >? 0) with false. cbn iota. exists s, []. cbn [app]. rewrite app_nil_r.
      split; [reflexivity|]. split; [exact F|]. split; [constructor|]. split; intros; [discriminate|].
      destruct u; discriminate.
Qed.

(** trimming is a function *)
Lemma trimmed_unique s t t' : trimmed s t -> trimmed s t' -> t = t'.
Proof.
  intros (l & r & E & Hl & Hr & Hf & Hb) (l' & r' & E' & Hl' & Hr' & Hf' & Hb').
  assert (Key : forall l r t l' r' t' : list Z, blank_text l -> blank_text r -> blank_text l' -> blank_text r' ->
    (forall c u, t = c :: u -> c <> 32) -> (forall c u, t' = c :: u -> c <> 32) ->
    l ++ t ++ r = l' ++ t' ++ r' -> t <> [] -> l = l' /\ t ++ r = t' ++ r').
  { clear. induction l as [|a l IH]; intros r t l' r' t' Hl Hr Hl' Hr' Hf Hf' E Ht.
    - destruct l' as [|b l']; [split; [reflexivity|exact E]|]. exfalso.
      destruct t as [|x t]; [congruence|]. injection E as -> E. inversion Hl'; subst. apply (Hf 32 t); reflexivity.
    - inversion Hl as [|? ? Ha Hl2]; subst. destruct l' as [|b l'].
      + exfalso. destruct t' as [|x t'].
        * cbn [app] in E. assert (B : blank_text (32 :: l ++ t ++ r)) by (rewrite E; exact Hr').
          destruct t as [|y t]; [congruence|]. apply (Hf y t eq_refl).
          apply (blank_in _ y (32 :: l) (t ++ r) B). reflexivity.
        * injection E as <- E. apply (Hf' 32 t'); reflexivity.
      + injection E as <- E. inversion Hl'; subst. destruct (IH r t l' r' t') as [-> ?]; try assumption.
        split; [reflexivity|assumption]. }
  assert (Key2 : forall t r t' r' : list Z, blank_text r -> blank_text r' ->
    (forall u c, t = u ++ [c] -> c <> 32) -> (forall u c, t' = u ++ [c] -> c <> 32) -> t ++ r = t' ++ r' -> (length t <= length t')%nat -> t = t').
  { clear. intros t r t' r' Hr Hr' Hb Hb' E L.
    assert (Em : t' = t ++ skipn (length t) t').
    { rewrite <- (firstn_skipn (length t) t') at 1. f_equal.
      assert (X : firstn (length t) (t ++ r) = firstn (length t) (t' ++ r')) by (rewrite E; reflexivity).
      rewrite !firstn_app, firstn_all, Nat.sub_diag in X. replace (length t - length t')%nat with 0%nat in X by lia.
      cbn [firstn] in X. rewrite !app_nil_r in X. symmetry. exact X. }
    set (m := skipn (length t) t') in *. clearbody m. subst t'. rewrite <- app_assoc in E. apply app_inv_head in E.
    destruct m as [|c m] using rev_ind; [rewrite app_nil_r; reflexivity|]. exfalso.
    apply (Hb' (t ++ m) c); [rewrite app_assoc; reflexivity|].
    apply (blank_in r c m r' Hr). rewrite E, <- app_assoc. reflexivity. }
  destruct t as [|x t].
  - destruct t' as [|x' t']; [reflexivity|]. exfalso. apply (Hf' x' t' eq_refl).
    assert (B : blank_text s). { rewrite E. cbn [app]. apply Forall_app. split; assumption. }
    apply (blank_in s x' l' (t' ++ r') B). rewrite E'. reflexivity.
  - destruct (Key l r (x :: t) l' r' t') as [-> E2]; try assumption; [congruence|discriminate|].
    destruct (Nat.le_gt_cases (length (x :: t)) (length t')) as [L|L].
    + apply (Key2 _ r _ r'); assumption.
    + symmetry. apply (Key2 _ r' _ r); try assumption; [symmetry; exact E2|lia].
Qed.

(** ** forming *)
(** the buffer after the text [T] has been sent to it *)
Definition fstate (buf0 : list Z) (size : Z) (T : list Z) : Z * list Z :=
  let n := Z.min size (slen T) in (n, stake n T ++ sdrop n buf0).

Lemma slen_stake n s : 0 <= n -> slen (stake n s) = Z.min n (slen s).
Proof. intros H. unfold slen, stake. rewrite firstn_length. lia. Qed.
Lemma stake_app_le n a b : 0 <= n <= slen a -> stake n (a ++ b) = stake n a.
Proof.
  intros H. unfold stake, slen in *. rewrite firstn_app. replace (Z.to_nat n - length a)%nat with 0%nat by lia.
  cbn [firstn]. apply app_nil_r.
Qed.
Lemma sdrop_cons n (b : list Z) : 0 <= n < alen b -> exists x, sdrop n b = x :: sdrop (n + 1) b.
Proof.
  intros H. unfold sdrop, alen in *. destruct (skipn (Z.to_nat n) b) as [|x r] eqn:E.
  - apply (f_equal (@length Z)) in E. rewrite skipn_length in E. cbn in E. lia.
  - exists x. f_equal. replace (Z.to_nat (n + 1)) with (Z.to_nat n + 1)%nat by lia. rewrite <- skipn_plus, E. reflexivity.
Qed.

Lemma aset_slen (p : list Z) x q v : aset (p ++ x :: q) (slen p) v = Ok (p ++ v :: q).
Proof. apply aset_app. Qed.

(** sending one more character *)
Lemma emit_char buf0 size T c : 0 <= size <= alen buf0 ->
  let '(n, b) := fstate buf0 size T in
  (if n <? size then let* b' := aset b n c in Ok (n + 1, b') else Ok (n, b)) = Ok (fstate buf0 size (T ++ [c])).
Proof.
  intros Hs. unfold fstate. pose proof (slen_nonneg T) as N.
  destruct (Z.min size (slen T) <? size) eqn:E.
  - assert (L : slen T < size) by lia. rewrite Z.min_r by lia.
    rewrite slen_app. change (slen [c]) with 1. rewrite (Z.min_r size (slen T + 1)) by lia.
    rewrite !stake_all by (rewrite ?slen_app; change (slen [c]) with 1; lia).
    destruct (sdrop_cons (slen T) buf0) as (x & ->); [lia|].
    rewrite aset_slen. cbn [bind]. rewrite <- app_assoc. reflexivity.
  - assert (L : size <= slen T) by lia. rewrite slen_app. change (slen [c]) with 1.
    rewrite !Z.min_l by lia. rewrite stake_app_le by lia. reflexivity.
Qed.

Lemma add_chars_spec s buf0 size : 0 <= size <= alen buf0 -> forall T,
  exists go, add_chars s (fst (fstate buf0 size T)) (snd (fstate buf0 size T)) size =
    Ok (fst (fstate buf0 size (T ++ s)), snd (fstate buf0 size (T ++ s)), go) /\
  (go = false -> size <= slen (T ++ s)).
Proof.
  intros Hs. induction s as [|c t IH]; intros T; cbn [add_chars].
  - exists true. rewrite app_nil_r. split; [reflexivity|discriminate].
  - pose proof (emit_char buf0 size T c Hs) as E. destruct (fstate buf0 size T) as [n b] eqn:F. cbn [fst snd].
    destruct (n <? size) eqn:G.
    + destruct (aset b n c) as [b'|]; [|discriminate]. cbn [bind] in E |- *.
      assert (E2 : fstate buf0 size (T ++ [c]) = (n + 1, b')) by congruence.
      destruct (IH (T ++ [c])) as (go & HH & K). rewrite E2 in HH. cbn [fst snd] in HH. rewrite HH.
      rewrite <- app_assoc in K |- *. exists go. split; [reflexivity|exact K].
    + exists false. assert (L : size <= slen T) by (unfold fstate in F; injection F as <- _; lia).
      split; [|rewrite slen_app; pose proof (slen_nonneg (c :: t)); lia].
      unfold fstate in F |- *. injection F as Fn Fb. pose proof (slen_nonneg (c :: t)).
      rewrite slen_app, Z.min_l by lia. rewrite Z.min_l in Fb, Fn by lia. rewrite stake_app_le by lia. subst n b. reflexivity.
Qed.

Lemma add_part_spec part buf0 size T : 0 <= size <= alen buf0 ->
  zpathnameAddPart part (fst (fstate buf0 size T)) (snd (fstate buf0 size T)) size = Ok (fstate buf0 size (T ++ trim_of part ++ [47])).
Proof.
  intros Hs. unfold zpathnameAddPart, trim_of.
  destruct (trimPositions part) as [[len start] stop].
  assert (F : forall U (go : bool), (go = false -> size <= slen U) ->
    (if go then (if fst (fstate buf0 size U) <? size then let* b := aset (snd (fstate buf0 size U)) (fst (fstate buf0 size U)) 47 in
        Ok (fst (fstate buf0 size U) + 1, b) else Ok (fst (fstate buf0 size U), snd (fstate buf0 size U)))
     else Ok (fst (fstate buf0 size U), snd (fstate buf0 size U))) = Ok (fstate buf0 size (U ++ [47]))).
  { intros U go K. pose proof (emit_char buf0 size U 47 Hs) as E. destruct (fstate buf0 size U) as [n b] eqn:F. cbn [fst snd].
    destruct go; [exact E|]. specialize (K eq_refl). unfold fstate in F. injection F as Fn Fb.
    destruct (n <? size) eqn:G; [lia|exact E]. }
  destruct (len >? 0).
  - destruct (add_chars_spec (stake (stop - start + 1) (sdrop start part)) buf0 size Hs T) as (go & -> & K).
    cbn [bind]. rewrite F by exact K. rewrite <- app_assoc. reflexivity.
  - cbn [bind app]. apply (F T true). discriminate.
Qed.

Lemma add_parts_spec parts buf0 size : 0 <= size <= alen buf0 -> forall T,
  add_parts parts (fst (fstate buf0 size T)) (snd (fstate buf0 size T)) size =
  Ok (fstate buf0 size (T ++ concat (map (fun p => trim_of p ++ [47]) parts))).
Proof.
  intros Hs. induction parts as [|p t IH]; intros T; cbn [add_parts].
  - cbn [map concat]. rewrite app_nil_r. destruct (fstate buf0 size T). reflexivity.
  - rewrite add_part_spec by exact Hs. cbn [bind map concat]. rewrite IH. f_equal. f_equal. rewrite <- !app_assoc. reflexivity.
Qed.

(** what forming leaves in the buffer: as much of the text as fits, and a NUL *)
Lemma form_spec parts buf size : 0 < size <= alen buf ->
  let T := path_text (map trim_of parts) in
  exists b, zpathnameForm parts buf size = Ok (if slen T <? size then slen T + 1 else size, b) /\
    alen b = alen buf /\ exists q, b = stake (size - 1) T ++ 0 :: q.
Proof.
  intros Hs T. unfold zpathnameForm. destruct (0 <? size) eqn:E0; [|lia].
  pose proof (emit_char buf size [] 47 ltac:(lia)) as E.
  unfold fstate in E at 1. change (slen []) with 0 in E. rewrite Z.min_r in E by lia.
  rewrite E0 in E. change (stake 0 []) with (@nil Z) in E. change (sdrop 0 buf) with buf in E. cbn [app] in E.
  destruct (aset buf 0 47) as [b1|]; [|discriminate]. cbn [bind] in E |- *.
  assert (E2 : fstate buf size [47] = (0 + 1, b1)) by congruence.
  pose proof (add_parts_spec parts buf size ltac:(lia) [47]) as A. rewrite E2 in A. cbn [fst snd] in A.
  change (0 + 1) with 1 in A. rewrite A. cbn [bind].
  replace ([47] ++ concat (map (fun p => trim_of p ++ [47]) parts)) with T
    by (unfold T, path_text; rewrite map_map; reflexivity).
  assert (NT : 1 <= slen T) by (unfold T, path_text; rewrite slen_cons; match goal with |- context [slen ?x] => pose proof (slen_nonneg x) end; lia).
  clearbody T. clear A E E2 b1 E0. unfold fstate.
  destruct (slen T <? size) eqn:G.
  - assert (G1 : slen T < size) by lia. rewrite Z.min_r by lia. rewrite G. clear G.
    rewrite stake_all by lia. destruct (sdrop_cons (slen T) buf) as (x & X); [lia|]. rewrite X.
    rewrite aset_slen. cbn [bind]. eexists. split; [reflexivity|]. split.
    + unfold alen, sdrop, slen in *. rewrite app_length. cbn [length]. rewrite skipn_length. lia.
    + exists (sdrop (slen T + 1) buf). rewrite stake_all by lia. reflexivity.
  - rewrite Z.min_l by lia. rewrite Z.ltb_irrefl. destruct (size >? 0) eqn:G'; [|lia]. clear G'.
    assert (Hb : stake size T = stake (size - 1) T ++ sdrop (size - 1) (stake size T)).
    { unfold stake, sdrop. rewrite <- (firstn_skipn (Z.to_nat (size - 1)) (firstn (Z.to_nat size) T)) at 1.
      f_equal. rewrite firstn_firstn. f_equal. lia. }
    assert (Hl : slen (sdrop (size - 1) (stake size T)) = 1).
    { unfold slen, sdrop, stake in *. rewrite skipn_length, firstn_length. lia. }
    destruct (sdrop (size - 1) (stake size T)) as [|x [|y w]] eqn:W; unfold slen in Hl; cbn [length] in Hl; try lia.
    rewrite Hb. rewrite <- app_assoc. cbn [app].
    pose proof (aset_app (stake (size - 1) T) x (sdrop size buf) 0) as P.
    replace (Z.of_nat (length (stake (size - 1) T))) with (size - 1) in P
      by (change (Z.of_nat (length (stake (size - 1) T))) with (slen (stake (size - 1) T)); rewrite slen_stake by lia; lia).
    rewrite P. cbn [bind]. eexists. split; [reflexivity|]. split.
    + unfold alen, sdrop, stake, slen in *. rewrite app_length. cbn [length]. rewrite firstn_length, skipn_length. lia.
    + exists (sdrop size buf). reflexivity.
Qed.

(** ** positions *)
Lemma part_lens_app p s i istart : no_slash p -> part_lens (p ++ 47 :: s) i istart = (i + slen p - istart - 1) :: part_lens s (i + slen p + 1) (i + slen p).
Proof.
  revert i. induction p as [|c p IH]; intros i H.
  - cbn [app part_lens]. change (47 =? 47) with true. cbn iota. change (slen []) with 0. f_equal; [lia|]. f_equal; lia.
  - cbn [app part_lens]. destruct (c =? 47) eqn:E; [exfalso; apply H; left; lia|].
    rewrite IH by (intros X; apply H; right; exact X). rewrite slen_cons. f_equal; [lia|]. f_equal; lia.
Qed.

Lemma part_lens_six parts : Forall no_slash parts -> forall i,
  part_lens (concat (map (fun p => p ++ [47]) parts)) i (i - 1) = map slen parts.
Proof.
  induction 1 as [|p t Hp Ht IH]; intros i; [reflexivity|].
  cbn [map concat]. rewrite <- app_assoc. cbn [app]. rewrite part_lens_app by exact Hp.
  replace (i + slen p) with (i + slen p + 1 - 1) at 3 by lia. rewrite IH. f_equal. lia.
Qed.

(** the seven positions of a pathname with parts of these lengths *)
Definition positions6 (l : list Z) : list Z :=
  match l with
  | [a; b; c; d; e; f] =>
    [1; 1 + a + 1; 1 + a + 1 + b + 1; 1 + a + 1 + b + 1 + c + 1; 1 + a + 1 + b + 1 + c + 1 + d + 1;
     1 + a + 1 + b + 1 + c + 1 + d + 1 + e + 1; 1 + a + 1 + b + 1 + c + 1 + d + 1 + e + 1 + f + 1]
  | _ => []
  end.

Lemma positions_spec junk parts : Forall no_slash parts -> length parts = 6%nat -> alen junk = 7 ->
  zpathnamePartPositions (path_text parts) junk 7 = Ok (7, positions6 (map slen parts)).
Proof.
  intros Hp H6 Hj. unfold zpathnamePartPositions, zpathnamePartLengths.
  change (7 - 1 <? 2) with false. cbn iota. change (7 - 1 <? 2) with false. cbn iota.
  change (Z.min (7 - 1) 6) with 6.
  unfold path_text. change (sdrop 1 (47 :: concat (map (fun p => p ++ [47]) parts))) with (concat (map (fun p => p ++ [47]) parts)).
  pose proof (part_lens_six parts Hp 1) as PL. change (1 - 1) with 0 in PL. rewrite PL.
  do 7 (destruct junk as [|? junk]; [discriminate Hj|]). destruct junk; [|unfold alen in Hj; cbn in Hj; lia].
  do 6 (destruct parts as [|? parts]; [discriminate H6|]). destruct parts; [|discriminate H6].
  cbn [map].
  match goal with |- context [stake 6 ?l] => change (stake 6 l) with l end. cbn zeta.
  cbn. reflexivity.
Qed.

(** number of characters before part k (k from 0) *)
Lemma path_text_split parts k p : nth_error parts k = Some p -> length parts = 6%nat ->
  exists pre post, path_text parts = pre ++ p ++ 47 :: post /\
    nth_error (positions6 (map slen parts)) k = Some (slen pre) /\
    nth_error (positions6 (map slen parts)) (S k) = Some (slen pre + slen p + 1) /\
    nth_error (positions6 (map slen parts)) 6 = Some (slen (path_text parts)) /\
    pre = path_text (firstn k parts) /\ post = concat (map (fun p => p ++ [47]) (skipn (S k) parts)).
Proof.
  intros Hk H6. pose proof (nth_error_split _ _ Hk) as (l & r & E & L).
  exists (path_text l), (concat (map (fun p => p ++ [47]) r)).
  assert (Sl : forall x, slen (path_text x) = 1 + fold_right (fun q a => slen q + 1 + a) 0 x).
  { induction x as [|q x IH]; [reflexivity|]. unfold path_text in *. cbn [map concat fold_right].
    rewrite slen_cons in IH. rewrite slen_cons, !slen_app. change (slen [47]) with 1. lia. }
  split; [|split; [|split; [|split; [|split]]]].
  - rewrite E. unfold path_text. rewrite map_app, concat_app. cbn [map concat app]. rewrite <- !app_assoc. reflexivity.
  - rewrite Sl. subst parts. rewrite app_length in H6. cbn [length] in H6.
    destruct l as [|? [|? [|? [|? [|? [|? ?]]]]]]; cbn [length] in *; try lia;
    destruct r as [|? [|? [|? [|? [|? [|? ?]]]]]]; cbn [length] in *; try lia; subst k; cbn [nth_error app map positions6 fold_right];
    f_equal; lia.
  - rewrite Sl. subst parts. rewrite app_length in H6. cbn [length] in H6.
    destruct l as [|? [|? [|? [|? [|? [|? ?]]]]]]; cbn [length] in *; try lia;
    destruct r as [|? [|? [|? [|? [|? [|? ?]]]]]]; cbn [length] in *; try lia; subst k; cbn [nth_error app map positions6 fold_right];
    f_equal; lia.
  - rewrite Sl. clear - H6. do 6 (destruct parts as [|? parts]; [discriminate H6|]). destruct parts; [|discriminate H6].
    cbn [map positions6 nth_error fold_right]. f_equal. lia.
  - subst parts k. rewrite firstn_app, firstn_all, Nat.sub_diag. cbn [firstn]. rewrite app_nil_r. reflexivity.
  - subst parts k. rewrite skipn_app. replace (S (length l) - length l)%nat with 1%nat by lia.
    rewrite skipn_all2 by lia. reflexivity.
Qed.
