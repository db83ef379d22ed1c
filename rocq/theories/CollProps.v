(** * C39: collection pathnames. *)
From Coq Require Import String ZArith List Bool Lia ZifyBool.
From Verif Require Import Base ArrayLib HashModel CStr CStrProofs DateTextModel TimeTextProps IntervalSpec IntervalProps PathModel PathSpec PathProofs PathProps FPartModel.
Import ListNotations.
Local Notation length := List.length.
Local Notation concat := List.concat.
Open Scope Z_scope.
Open Scope res_scope.

(** ** Specification *)
(** the text starts with "C:" in either case (67 is C, 58 the colon, 124 the bar) *)
Definition marked (p : list Z) : Prop := exists a r, p = a :: 58 :: r /\ toupper a = 67.
(** an F part of a collection: "C:" sequence "|" name *)
Definition collection_part (F seq name : list Z) : Prop := exists a, F = a :: 58 :: seq ++ 124 :: name /\ toupper a = 67 /\ ~ In 124 seq.
(** [t] is the number [n] written with six digits *)
Definition six_digits (n : Z) (t : list Z) : Prop :=
  length t = 6%nat /\ Forall (fun c => 48 <= c <= 57) t /\ fold_left (fun v c => 10 * v + (c - 48)) t 0 = n.

(** ** lemmas *)
Lemma aget_mid {A} (p : list A) x q i : i = Z.of_nat (length p) -> aget (p ++ x :: q) i = Ok x.
Proof. intros ->. apply (aget_nth (p ++ x :: q)). rewrite nth_error_app2, Nat.sub_diag by lia. reflexivity. Qed.

Lemma path_text_last ts F : path_text (ts ++ [F]) = path_text ts ++ F ++ [47].
Proof. rewrite path_text_app. cbn [map concat]. rewrite app_nil_r. reflexivity. Qed.
Lemma path_text_ends ts : exists p, path_text ts = p ++ [47].
Proof.
  induction ts as [|t ts' _] using rev_ind; [exists []; reflexivity|]. rewrite path_text_last. exists (path_text ts' ++ t).
  rewrite app_assoc. reflexivity.
Qed.
Lemma path_text_len ts : Z.of_nat (length ts) + 1 <= slen (path_text ts).
Proof.
  unfold path_text. rewrite slen_cons. induction ts as [|t ts IH]; [cbn; lia|]. cbn [map concat length]. rewrite !slen_app.
  change (slen [47]) with 1. pose proof (slen_nonneg t). lia.
Qed.
(** what follows a slash of a pathname is a part *)
Lemma after_slash ts : Forall no_slash ts -> forall x y, path_text ts = x ++ 47 :: y -> y = [] \/ exists p r, In p ts /\ y = p ++ 47 :: r.
Proof.
  induction 1 as [|p ts Hp _ IH]; intros x y E.
  - destruct x as [|c x]; [injection E as <-; left; reflexivity|]. injection E as _ E. destruct x; discriminate E.
  - unfold path_text in E. cbn [map concat] in E. rewrite <- app_assoc in E. destruct x as [|c x].
    + injection E as <-. right. exists p. eexists. split; [left; reflexivity|]. reflexivity.
    + injection E as <- E. cbn [app] in E. change (p ++ path_text ts = x ++ 47 :: y) in E.
      assert (X : exists x', path_text ts = x' ++ 47 :: y).
      { clear IH. revert x E. induction p as [|a p IHp]; intros x E; [exists x; exact E|]. cbn [app] in E.
        destruct x as [|b x]; cbn [app] in E; injection E as E1 E.
        - exfalso. apply Hp. left. exact E1.
        - apply (IHp (fun h => Hp (or_intror h)) x E). }
      destruct X as (x' & X). destruct (IH x' y X) as [->|(q & r & Hq & ->)]; [left; reflexivity|].
      right. exists q, r. split; [right; exact Hq|reflexivity].
Qed.
Lemma toupper_other c : toupper c = 67 -> c <> 47 /\ c <> 124 /\ c <> 58.
Proof. unfold toupper. destruct ((97 <=? c) && (c <=? 122)) eqn:E; lia. Qed.

(** ** recognising *)
Lemma find_bar_none m : forall pre sl k, ~ In 47 m -> ~ In 124 m -> forall post, (length m <= k)%nat ->
  find_bar k (pre ++ m ++ post) (slen pre + slen m - 1) sl = find_bar (k - length m) (pre ++ m ++ post) (slen pre - 1) sl.
Proof.
  induction m as [|c m IH] using rev_ind; intros pre sl k H1 H2 post Hk.
  - cbn [length]. rewrite Nat.sub_0_r. change (slen []) with 0. f_equal; lia.
  - rewrite app_length in Hk. cbn [length] in Hk. destruct k as [|k]; [lia|]. cbn [find_bar].
    rewrite slen_app. change (slen [c]) with 1.
    replace (aget _ _) with (Ok c). 2: { symmetry. rewrite <- app_assoc. cbn [app]. rewrite app_assoc. apply aget_mid. rewrite app_length. unfold slen. lia. }
    cbn [bind]. destruct (c =? 47) eqn:A; [exfalso; apply H1, in_or_app; right; left; lia|]. cbn [andb].
    destruct (c =? 124) eqn:B; [exfalso; apply H2, in_or_app; right; left; lia|].
    rewrite <- !app_assoc. cbn [app]. rewrite app_length. cbn [length]. replace (S k - (length m + 1))%nat with (k - length m)%nat by lia.
    replace (slen pre + (slen m + 1) - 1 - 1) with (slen pre + slen m - 1) by lia.
    apply IH; [intros X; apply H1, in_or_app; left; exact X|intros X; apply H2, in_or_app; left; exact X|lia].
Qed.
Lemma find_mark_skip m : forall pre k, ~ In 47 m -> forall post, (length m <= k)%nat ->
  find_mark k (pre ++ m ++ post) (slen pre + slen m - 1) = find_mark (k - length m) (pre ++ m ++ post) (slen pre - 1).
Proof.
  induction m as [|c m IH] using rev_ind; intros pre k H1 post Hk.
  - cbn [length]. rewrite Nat.sub_0_r. change (slen []) with 0. f_equal; lia.
  - rewrite app_length in Hk. cbn [length] in Hk. destruct k as [|k]; [lia|]. cbn [find_mark].
    rewrite slen_app. change (slen [c]) with 1.
    replace (aget _ _) with (Ok c). 2: { symmetry. rewrite <- app_assoc. cbn [app]. rewrite app_assoc. apply aget_mid. rewrite app_length. unfold slen. lia. }
    cbn [bind]. destruct (c =? 47) eqn:A; [exfalso; apply H1, in_or_app; right; left; lia|].
    rewrite <- !app_assoc. cbn [app]. rewrite app_length. cbn [length]. replace (S k - (length m + 1))%nat with (k - length m)%nat by lia.
    replace (slen pre + (slen m + 1) - 1 - 1) with (slen pre + slen m - 1) by lia.
    apply IH; [intros X; apply H1, in_or_app; left; exact X|lia].
Qed.
(** downwards over a text in which no slash is followed by the marker *)
Lemma find_mark_none k : forall s i, Z.of_nat k <= i + 1 -> i + 2 < slen s ->
  (forall x y, s = x ++ 47 :: y -> slen x <= i -> ~ marked y) -> find_mark k s i = Ok 0.
Proof.
  induction k as [|k IH]; intros s i Hi L H; [reflexivity|]. cbn [find_mark].
  destruct (split_at s i) as (x & y & E & Lx); [unfold alen, slen in *; lia|].
  destruct y as [|c [|d [|e y]]]; try (rewrite E, slen_app in L; unfold slen in L, Lx; cbn [length] in L; lia).
  subst s. rewrite (aget_mid x c (d :: e :: y)) by (unfold slen in Lx; lia). cbn [bind].
  assert (R : find_mark k (x ++ c :: d :: e :: y) (i - 1) = Ok 0).
  { apply IH; [lia|lia|]. intros x' y' E' L'. apply (H x' y' E'). lia. }
  destruct (c =? 47) eqn:C; [|exact R].
  replace (aget _ (i + 1)) with (Ok d). 2: { symmetry. change (c :: d :: e :: y) with ([c] ++ d :: e :: y). rewrite app_assoc. apply aget_mid. rewrite app_length. unfold slen in Lx. cbn [length]. lia. }
  cbn [bind]. destruct (toupper d =? 67) eqn:D; [|exact R].
  replace (aget _ (i + 2)) with (Ok e). 2: { symmetry. change (c :: d :: e :: y) with ([c; d] ++ e :: y). rewrite app_assoc. apply aget_mid. rewrite app_length. unfold slen in Lx. cbn [length]. lia. }
  cbn [bind]. destruct (e =? 58) eqn:F; [|exact R]. exfalso. apply Z.eqb_eq in C, D, F. subst c e.
  apply (H x (d :: 58 :: y) eq_refl); [lia|]. exists d, y. split; [reflexivity|exact D].
Qed.

Lemma last_bar F : In 124 F -> exists m1 m2, F = m1 ++ 124 :: m2 /\ ~ In 124 m2.
Proof.
  induction F as [|c F IH] using rev_ind; intros H; [destruct H|]. destruct (Z.eq_dec c 124) as [->|N].
  - exists F, []. split; [reflexivity|intros []].
  - apply in_app_or in H. destruct H as [H|[H|[]]]; [|congruence]. destruct (IH H) as (m1 & m2 & -> & M).
    exists m1, (m2 ++ [c]). rewrite <- app_assoc. split; [reflexivity|]. intros X. apply in_app_or in X. destruct X as [X|[X|[]]]; [exact (M X)|congruence].
Qed.
Lemma first_bar_split F : In 124 F -> exists m1 m2, F = m1 ++ 124 :: m2 /\ ~ In 124 m1.
Proof.
  induction F as [|c F IH]; intros H; [destruct H|]. destruct (Z.eq_dec c 124) as [->|N].
  - exists [], F. split; [reflexivity|intros []].
  - destruct H as [H|H]; [congruence|]. destruct (IH H) as (m1 & m2 & -> & M).
    exists (c :: m1), m2. split; [reflexivity|]. intros [X|X]; [congruence|exact (M X)].
Qed.

Section Recognise.
Variables (ts : list (list Z)) (F : list Z).
Hypothesis H5 : length ts = 5%nat.
Hypothesis HN : Forall no_slash (ts ++ [F]).
Hypothesis HL : 12 <= slen (path_text (ts ++ [F])).

Lemma F_slash : ~ In 47 F.
Proof. rewrite Forall_forall in HN. apply HN, in_or_app. right. left. reflexivity. Qed.
Lemma pre_len : 6 <= slen (path_text ts).
Proof. pose proof (path_text_len ts). lia. Qed.

Lemma isa_bar m1 m2 : F = m1 ++ 124 :: m2 -> ~ In 124 m2 ->
  zisaCollection (path_text (ts ++ [F])) =
  find_mark (Z.to_nat (slen (path_text ts) + slen m1 - 5)) (path_text (ts ++ [F])) (slen (path_text ts) + slen m1 - 1).
Proof.
  intros E M. pose proof pre_len as PL. unfold zisaCollection. destruct (slen (path_text (ts ++ [F])) <? 12) eqn:X; [lia|]. clear X.
  pose proof F_slash as FS. rewrite path_text_last in *. subst F. set (P := path_text ts) in *.
  rewrite !slen_app, slen_cons in *. change (slen [47]) with 1 in *.
  pose proof (slen_nonneg m1). pose proof (slen_nonneg m2).
  destruct (Z.to_nat _) as [|k] eqn:K; [lia|]. cbn [find_bar].
  replace (aget _ _) with (Ok 47). 2: { symmetry. rewrite app_assoc. apply aget_mid. rewrite !app_length. cbn [length]. unfold slen. lia. }
  cbn [bind]. change (47 =? 47) with true. change (47 =? 124) with false. cbn [andb]. cbn iota. change (0 + 1 >=? 2) with false. cbn iota.
  replace (slen P + (slen m1 + (slen m2 + 1) + 1) - 1 - 1) with (slen (P ++ m1 ++ [124]) + slen m2 - 1) by (rewrite !slen_app; change (slen [124]) with 1; lia).
  replace (P ++ (m1 ++ 124 :: m2) ++ [47]) with ((P ++ m1 ++ [124]) ++ m2 ++ [47]) by (rewrite <- !app_assoc; reflexivity).
  rewrite find_bar_none; [|intros X; apply FS, in_or_app; right; right; exact X|exact M|unfold slen in *; lia].
  destruct (k - length m2)%nat as [|k'] eqn:K'; [unfold slen in *; lia|]. cbn [find_bar].
  replace (aget _ _) with (Ok 124).
  2: { symmetry. replace ((P ++ m1 ++ [124]) ++ m2 ++ [47]) with ((P ++ m1) ++ 124 :: m2 ++ [47]) by (rewrite <- !app_assoc; reflexivity).
       apply aget_mid. rewrite app_length. rewrite !slen_app. change (slen [124]) with 1. unfold slen. lia. }
  cbn [bind]. change (124 =? 47) with false. cbn [andb]. change (124 =? 124) with true. cbn iota. cbn [bind].
  rewrite !slen_app. change (slen [124]) with 1.
  destruct (slen P + (slen m1 + 1) - 1 <? 5) eqn:X; [lia|]. f_equal; [|lia]. f_equal. lia.
Qed.

Lemma isa_nobar : ~ In 124 F -> zisaCollection (path_text (ts ++ [F])) = Ok 0.
Proof.
  intros M. pose proof pre_len as PL. unfold zisaCollection. destruct (slen (path_text (ts ++ [F])) <? 12) eqn:X; [lia|]. clear X.
  pose proof F_slash as FS. rewrite path_text_last in *. destruct (path_text_ends ts) as (p & EP). rewrite EP in *. 
  rewrite !slen_app in *. change (slen [47]) with 1 in *. pose proof (slen_nonneg F).
  destruct (Z.to_nat _) as [|k] eqn:K; [lia|]. cbn [find_bar].
  replace (aget _ _) with (Ok 47). 2: { symmetry. rewrite app_assoc. apply aget_mid. rewrite !app_length. cbn [length]. unfold slen. lia. }
  cbn [bind]. change (47 =? 47) with true. change (47 =? 124) with false. cbn [andb]. cbn iota. change (0 + 1 >=? 2) with false. cbn iota.
  replace (slen p + 1 + (slen F + 1) - 1 - 1) with (slen (p ++ [47]) + slen F - 1) by (rewrite !slen_app; change (slen [47]) with 1; lia).
  rewrite find_bar_none; [|exact FS|exact M|unfold slen in *; lia].
  destruct (k - length F)%nat as [|k'] eqn:K'; [unfold slen in *; lia|]. cbn [find_bar].
  replace (aget _ _) with (Ok 47). 2: { symmetry. rewrite <- app_assoc. cbn [app]. apply aget_mid. rewrite slen_app. change (slen [47]) with 1. unfold slen. lia. }
  reflexivity.
Qed.
End Recognise.

(** A pathname of at least twelve characters: if its F part is "C:sequence|name" the answer is the position of the F part; if it is not,
    and no earlier part starts with "C:", the answer is 0. *)
Theorem C39_recognised : forall ts F seq name, length ts = 5%nat -> Forall no_slash (ts ++ [F]) -> 12 <= slen (path_text (ts ++ [F])) ->
  collection_part F seq name -> zisaCollection (path_text (ts ++ [F])) = Ok (slen (path_text ts)).
Proof.
  intros ts F seq name H5 HN HL (a & E & Ua & _). pose proof (pre_len ts H5) as PL.
  assert (HB : In 124 (seq ++ 124 :: name)) by (apply in_or_app; right; left; reflexivity).
  destruct (last_bar _ HB) as (m1 & m2 & Em & M). rewrite Em in E.
  rewrite (isa_bar ts F H5 HN HL (a :: 58 :: m1) m2 E M). pose proof (F_slash ts F HN) as FS.
  rewrite path_text_last. rewrite E in FS |- *. destruct (path_text_ends ts) as (p & EP). rewrite EP in *. clear E HL HN Em HB.
  rewrite !slen_app, !slen_cons in *. change (slen []) with 0 in *. pose proof (slen_nonneg m1).
  replace (slen p + (0 + 1) + (slen m1 + 1 + 1) - 1) with (slen (p ++ [47]) + slen (a :: 58 :: m1) - 1) by (unfold slen; rewrite app_length; cbn [length]; lia).
  replace ((p ++ [47]) ++ (a :: 58 :: m1 ++ 124 :: m2) ++ [47]) with ((p ++ [47]) ++ (a :: 58 :: m1) ++ (124 :: m2 ++ [47])) by (rewrite <- !app_assoc; cbn [app]; rewrite <- !app_assoc; reflexivity).
  rewrite find_mark_skip; [|intros X; apply FS; change (a :: 58 :: m1 ++ 124 :: m2) with ((a :: 58 :: m1) ++ 124 :: m2); apply in_or_app; left; exact X|cbn [length]; unfold slen in *; lia].
  destruct (Z.to_nat _ - length _)%nat as [|k] eqn:K; [cbn [length] in K; unfold slen in *; lia|]. cbn [find_mark].
  replace ((p ++ [47]) ++ (a :: 58 :: m1) ++ 124 :: m2 ++ [47]) with (p ++ 47 :: a :: 58 :: m1 ++ 124 :: m2 ++ [47]) by (rewrite <- !app_assoc; reflexivity).
  rewrite slen_app. change (slen [47]) with 1.
  rewrite aget_mid by (unfold slen; lia). cbn [bind]. change (47 =? 47) with true. cbn iota.
  replace (aget _ _) with (Ok a). 2: { symmetry. change (p ++ 47 :: a :: ?r) with (p ++ [47] ++ a :: r). rewrite app_assoc. apply aget_mid. rewrite app_length. cbn [length]. unfold slen. lia. }
  cbn [bind]. rewrite Ua. change (67 =? 67) with true. cbn iota.
  replace (aget _ _) with (Ok 58). 2: { symmetry. change (p ++ 47 :: a :: 58 :: ?r) with (p ++ [47; a] ++ 58 :: r). rewrite app_assoc. apply aget_mid. rewrite app_length. cbn [length]. unfold slen. lia. }
  cbn [bind]. change (58 =? 58) with true. cbn iota. f_equal. lia.
Qed.
Theorem C39_not_recognised_partial : forall ts F, length ts = 5%nat -> Forall no_slash (ts ++ [F]) -> 12 <= slen (path_text (ts ++ [F])) ->
  (forall t, In t ts -> ~ marked t) -> (forall seq name, ~ collection_part F seq name) -> zisaCollection (path_text (ts ++ [F])) = Ok 0.
Proof.
  intros ts F H5 HN HL HT HF. destruct (in_dec Z.eq_dec 124 F) as [B|B]; [|apply isa_nobar; assumption].
  assert (FM : ~ marked F).
  { intros (a & r & -> & Ua). destruct B as [B|[B|B]]; [apply toupper_other in Ua; lia|discriminate|].
    destruct (first_bar_split r B) as (m1 & m2 & -> & M). apply (HF m1 m2). exists a. split; [reflexivity|]. split; assumption. }
  destruct (last_bar F B) as (m1 & m2 & E & M). rewrite (isa_bar ts F H5 HN HL m1 m2 E M).
  pose proof (pre_len ts H5) as PL. pose proof (slen_nonneg m1). pose proof (slen_nonneg m2). apply find_mark_none.
  - lia.
  - rewrite path_text_last, E, !slen_app, slen_cons. change (slen [47]) with 1. lia.
  - intros x y Exy Lx (a & r & -> & Ua). destruct (after_slash _ HN _ _ Exy) as [Y|(p & q & Hp & Y)]; [discriminate Y|].
    assert (MP : marked p).
    { destruct p as [|b [|c p]].
      - injection Y as -> _. vm_compute in Ua. discriminate.
      - injection Y as _ Y _. discriminate Y.
      - injection Y as <- <- _. exists a, p. split; [reflexivity|exact Ua]. }
    apply in_app_or in Hp. destruct Hp as [Hp|[<-|[]]]; [exact (HT p Hp MP)|exact (FM MP)].
Qed.
(** An earlier part that starts with "C:" is taken for the marker. *)
Theorem C39_refuted_other_part : exists ts F, length ts = 5%nat /\ Forall no_slash (ts ++ [F]) /\ ~ marked F /\
  zisaCollection (path_text (ts ++ [F])) = Ok 8.
Proof.
  exists [[65]; [66]; [70]; []; txt "C:X"%string], (txt "A|B"%string). split; [reflexivity|]. split.
  - repeat constructor; intros H; cbn in H; repeat (destruct H as [H|H]; [discriminate|]); destruct H.
  - split; [|vm_compute; reflexivity]. intros (a & r & H & _). vm_compute in H. discriminate.
Qed.
(** A collection pathname shorter than twelve characters is not recognised. *)
Theorem C39_refuted_short : exists F, collection_part F [49] [] /\ zisaCollection (path_text ([[]; []; []; []; []] ++ [F])) = Ok 0.
Proof. exists (txt "C:1|"%string). split; [exists 67; split; [reflexivity|]; split; [reflexivity|intros [H|[]]; discriminate]|vm_compute; reflexivity]. Qed.

(** ** comparing *)
Definition slashes (m : list Z) : Z := Z.of_nat (count_occ Z.eq_dec m 47).
Lemma slashes_cons c m : slashes (c :: m) = (if c =? 47 then 1 else 0) + slashes m.
Proof. unfold slashes. cbn [count_occ]. destruct (Z.eq_dec c 47), (c =? 47) eqn:E; lia. Qed.
Lemma slashes_nonneg m : 0 <= slashes m. Proof. unfold slashes. lia. Qed.

Lemma coll_equal m : forall pa pb ra rb sl k, sl + slashes m < 6 \/ 6 <= sl -> forall isC m2, ci_eq m m2 -> slen pa = slen pb ->
  coll_loop (length m + k) (slen pa) (pa ++ m ++ ra) (pb ++ m2 ++ rb) sl false isC =
  coll_loop k (slen pa + slen m) (pa ++ m ++ ra) (pb ++ m2 ++ rb) (sl + slashes m) false isC.
Proof.
  induction m as [|c m IH]; intros pa pb ra rb sl k H isC m2 E L.
  - destruct m2; [|discriminate E]. cbn [length Nat.add]. change (slen []) with 0. change (slashes []) with 0. f_equal; lia.
  - destruct m2 as [|d m2]; [discriminate E|]. unfold ci_eq in E. cbn [map] in E. injection E as E1 E2. cbn [length Nat.add coll_loop app].
    rewrite (aget_mid pa) by reflexivity. cbn [bind]. rewrite (aget_mid pb) by (unfold slen in L; exact L). cbn [bind negb andb].
    rewrite E1, Z.eqb_refl. cbn [negb]. rewrite slashes_cons in *. pose proof (slashes_nonneg m).
    pose proof (fun sl' h => IH (pa ++ [c]) (pb ++ [d]) ra rb sl' k h isC m2 E2) as IH'.
    rewrite !slen_app in IH'. change (slen [c]) with 1 in IH'. change (slen [d]) with 1 in IH'.
    rewrite <- !app_assoc in IH'. cbn [app] in IH'. rewrite slen_cons. destruct (c =? 47) eqn:A.
    + cbn zeta. destruct (sl + 1 =? 6) eqn:S6; [lia|]. rewrite IH' by lia. f_equal; lia.
    + rewrite IH' by lia. f_equal; lia.
Qed.
Lemma coll_differ m : forall pa pb ra rb sl k, sl + slashes m < 6 \/ 6 <= sl -> forall isC m2, ~ ci_eq m m2 -> slen pa = slen pb -> length m = length m2 ->
  coll_loop (length m + k) (slen pa) (pa ++ m ++ ra) (pb ++ m2 ++ rb) sl false isC = Ok 0.
Proof.
  induction m as [|c m IH]; intros pa pb ra rb sl k H isC m2 E L L2.
  - destruct m2; [exfalso; apply E; reflexivity|discriminate L2].
  - destruct m2 as [|d m2]; [discriminate L2|]. cbn [length Nat.add coll_loop app].
    rewrite (aget_mid pa) by reflexivity. cbn [bind]. rewrite (aget_mid pb) by (unfold slen in L; exact L). cbn [bind negb andb].
    destruct (toupper c =? toupper d) eqn:T; [|reflexivity]. cbn [negb]. rewrite slashes_cons in *. pose proof (slashes_nonneg m).
    assert (E' : ~ ci_eq m m2) by (intros X; apply E; unfold ci_eq in *; cbn [map]; f_equal; [lia|exact X]).
    assert (L' : length m = length m2) by (cbn [length] in L2; lia).
    pose proof (fun sl' h h1 => IH (pa ++ [c]) (pb ++ [d]) ra rb sl' k h isC m2 E' h1 L') as IH'.
    rewrite !slen_app in IH'. change (slen [c]) with 1 in IH'. change (slen [d]) with 1 in IH'.
    rewrite <- !app_assoc in IH'. cbn [app] in IH'. destruct (c =? 47) eqn:A.
    + cbn zeta. destruct (sl + 1 =? 6) eqn:S6; [lia|]. apply IH'; lia.
    + apply IH'; lia.
Qed.
(** inside the sequence nothing is compared *)
Lemma coll_skip m : forall pa pb ra rb k isC m2, ~ In 47 m -> ~ In 124 m -> slen pa = slen pb -> length m = length m2 ->
  coll_loop (length m + k) (slen pa) (pa ++ m ++ ra) (pb ++ m2 ++ rb) 6 true isC =
  coll_loop k (slen pa + slen m) (pa ++ m ++ ra) (pb ++ m2 ++ rb) 6 true isC.
Proof.
  induction m as [|c m IH]; intros pa pb ra rb k isC m2 H1 H2 L L2.
  - destruct m2; [|discriminate L2]. cbn [length Nat.add]. change (slen []) with 0. f_equal; lia.
  - destruct m2 as [|d m2]; [discriminate L2|]. cbn [length Nat.add coll_loop app].
    rewrite (aget_mid pa) by reflexivity. cbn [bind]. rewrite (aget_mid pb) by (unfold slen in L; exact L). cbn [bind negb andb].
    destruct (c =? 124) eqn:B; [exfalso; apply H2; left; lia|]. destruct (c =? 47) eqn:A; [exfalso; apply H1; left; lia|].
    specialize (IH (pa ++ [c]) (pb ++ [d]) ra rb k isC m2 (fun h => H1 (or_intror h)) (fun h => H2 (or_intror h))).
    rewrite !slen_app in IH. change (slen [c]) with 1 in IH. change (slen [d]) with 1 in IH.
    rewrite <- !app_assoc in IH. cbn [app] in IH. rewrite IH by (cbn [length] in L2; lia). rewrite slen_cons. f_equal; lia.
Qed.
Lemma count_path ts : Forall no_slash ts -> slashes (path_text ts) = Z.of_nat (length ts) + 1.
Proof.
  intros Hn. unfold path_text. rewrite slashes_cons. change (47 =? 47) with true. cbn iota.
  induction Hn as [|p t Hp _ IH]; [reflexivity|]. cbn [map concat length].
  unfold slashes in *. rewrite !count_occ_app. rewrite (proj1 (count_occ_not_In Z.eq_dec p 47) Hp). cbn [count_occ].
  destruct (Z.eq_dec 47 47); lia.
Qed.

(** The first pathname is a collection pathname; the second text is cut at the same places.  They are the same collection pathname
    exactly when everything but the sequence agrees, ignoring case. *)
Theorem C39_compare : forall ts F a seq name pre2 seq2 rest2 q1 q2,
  length ts = 5%nat -> Forall no_slash (ts ++ [F]) -> F = a :: 58 :: seq ++ 124 :: name -> toupper a = 67 -> ~ In 124 seq ->
  length pre2 = length (path_text ts) -> length seq2 = (3 + length seq)%nat -> length rest2 = (length name + 1)%nat ->
  exists r, zpathnameCompareCollection (path_text (ts ++ [F]) ++ q1) (pre2 ++ seq2 ++ rest2 ++ q2) (slen (path_text (ts ++ [F]))) = Ok r /\
    (r = 1 \/ r = 0) /\ (r = 1 <-> ci_eq (path_text ts) pre2 /\ ci_eq (name ++ [47]) rest2).
Proof.
  intros ts F a seq name pre2 seq2 rest2 q1 q2 H5 HN EF Ua Hs L1 L2 L3.
  assert (FS : ~ In 47 F) by (apply (F_slash ts F HN)).
  assert (HT : Forall no_slash ts) by (apply Forall_app in HN; apply HN).
  pose proof (count_path ts HT) as CP. rewrite H5 in CP. change (Z.of_nat 5 + 1) with 6 in CP.
  unfold zpathnameCompareCollection. rewrite path_text_last.
  destruct (path_text_ends ts) as (p & EP). rewrite EP in *.
  assert (Cp : slashes p = 5).
  { unfold slashes in *. rewrite count_occ_app in CP. cbn [count_occ] in CP. destruct (Z.eq_dec 47 47); lia. }
  assert (P2 : exists p2 d, pre2 = p2 ++ [d] /\ length p2 = length p).
  { destruct pre2 as [|z pre2] using rev_ind; [rewrite app_length in L1; cbn [length] in L1; lia|]. exists pre2, z. split; [reflexivity|].
    rewrite !app_length in L1. cbn [length] in L1. lia. }
  destruct P2 as (p2 & d & -> & Lp).
  assert (Nt : Z.to_nat (slen ((p ++ [47]) ++ F ++ [47])) = (length p + (1 + (length (a :: 58%Z :: seq) + (1 + (length (name ++ [47%Z]) + 0)))))%nat).
  { unfold slen. rewrite Nat2Z.id, EF. rewrite !app_length. cbn [length]. rewrite !app_length. cbn [length]. lia. }
  rewrite Nt. clear Nt.
  assert (S2 : exists s2 e, seq2 = s2 ++ [e] /\ length s2 = length (a :: 58 :: seq)).
  { destruct seq2 as [|z s2] using rev_ind; [cbn [length] in L2; lia|]. exists s2, z. split; [reflexivity|].
    rewrite !app_length in L2. cbn [length] in *. lia. }
  destruct S2 as (s2 & e & -> & Ls).
  set (A := ((p ++ [47]) ++ F ++ [47]) ++ q1). set (B := (p2 ++ [d]) ++ (s2 ++ [e]) ++ rest2 ++ q2).
  assert (A1 : A = [] ++ p ++ (47 :: F ++ 47 :: q1)) by (unfold A; rewrite <- !app_assoc; reflexivity).
  assert (B1 : B = [] ++ p2 ++ (d :: (s2 ++ [e]) ++ rest2 ++ q2)) by (unfold B; rewrite <- !app_assoc; reflexivity).
  (* the head of the path, up to the sixth slash *)
  destruct (list_eq_dec Z.eq_dec (map toupper p) (map toupper p2)) as [Ep|Ep].
  2: { exists 0. split; [rewrite A1, B1; apply (coll_differ p [] [] _ _ 0 _ ltac:(lia) false p2 Ep eq_refl ltac:(lia))|].
       split; [right; reflexivity|]. split; [discriminate|]. intros [X _]. exfalso. apply Ep. unfold ci_eq in X. rewrite !map_app in X.
       apply (f_equal (firstn (length p))) in X. rewrite !firstn_app, !map_length, Lp, Nat.sub_diag in X. cbn [firstn] in X. rewrite !app_nil_r in X.
       rewrite !firstn_all2 in X by (rewrite map_length; lia). exact X. }
  assert (R1 : coll_loop (length p + (1 + (length (a :: 58 :: seq) + (1 + (length (name ++ [47]) + 0))))) 0 A B 0 false false =
    coll_loop (1 + (length (a :: 58 :: seq) + (1 + (length (name ++ [47]) + 0)))) (slen p) A B 5 false false).
  { rewrite A1, B1. pose proof (coll_equal p [] [] (47 :: F ++ 47 :: q1) (d :: (s2 ++ [e]) ++ rest2 ++ q2) 0
      (1 + (length (a :: 58 :: seq) + (1 + (length (name ++ [47]) + 0)))) ltac:(lia) false p2 Ep eq_refl) as X.
    rewrite Cp in X. exact X. }
  rewrite R1. clear R1. cbn [Nat.add]. cbn [coll_loop].
  assert (GA : aget A (slen p) = Ok 47) by (rewrite A1; apply (aget_mid p); reflexivity).
  assert (GB : aget B (slen p) = Ok d) by (rewrite B1; apply (aget_mid p2); unfold slen; lia).
  rewrite GA, GB. cbn [bind negb andb]. change (toupper 47) with 47.
  destruct (47 =? toupper d) eqn:Ed; cbn [negb].
  2: { exists 0. split; [reflexivity|]. split; [right; reflexivity|]. split; [discriminate|]. intros [X _]. exfalso.
       unfold ci_eq in X. rewrite !map_app in X. apply app_inj_tail in X. destruct X as [_ X]. change (toupper 47) with 47 in X. lia. }
  change (47 =? 47) with true. cbn iota. cbn zeta. change (5 + 1) with 6. change (6 =? 6) with true. cbn iota.
  assert (GC : aget A (slen p + 2) = Ok 58).
  { rewrite A1, EF. cbn [app]. change (p ++ 47 :: a :: 58 :: ?r) with (p ++ [47; a] ++ 58 :: r). rewrite app_assoc. apply aget_mid.
    rewrite app_length. cbn [length]. unfold slen. lia. }
  rewrite GC. cbn [bind]. change (58 =? 58) with true. cbn iota.
  (* the sequence *)
  assert (A2 : A = (p ++ [47]) ++ (a :: 58 :: seq) ++ (124 :: name ++ 47 :: q1)).
  { unfold A. rewrite EF. rewrite <- !app_assoc. cbn [app]. rewrite <- !app_assoc. reflexivity. }
  assert (B2 : B = (p2 ++ [d]) ++ s2 ++ (e :: rest2 ++ q2)) by (unfold B; rewrite <- !app_assoc; reflexivity).
  assert (NS : ~ In 47 (a :: 58 :: seq)).
  { intros X. apply FS. rewrite EF. change (a :: 58 :: seq ++ 124 :: name) with ((a :: 58 :: seq) ++ 124 :: name). apply in_or_app. left. exact X. }
  assert (NB : ~ In 124 (a :: 58 :: seq)).
  { intros [X|[X|X]]; [apply toupper_other in Ua; lia|discriminate|exact (Hs X)]. }
  assert (R2 : coll_loop (length (a :: 58 :: seq) + S (length (name ++ [47]) + 0)) (slen p + 1) A B 6 true false =
     coll_loop (S (length (name ++ [47]) + 0)) (slen p + 1 + slen (a :: 58 :: seq)) A B 6 true false).
  { rewrite A2, B2. replace (slen p + 1) with (slen (p ++ [47])) by (rewrite slen_app; reflexivity).
    apply coll_skip; [exact NS|exact NB|rewrite !slen_app; change (slen [47]) with 1; change (slen [d]) with 1; unfold slen; lia|symmetry; exact Ls]. }
  rewrite R2. clear R2. cbn [coll_loop].
  assert (GD : aget A (slen p + 1 + slen (a :: 58 :: seq)) = Ok 124).
  { rewrite A2. rewrite app_assoc. apply aget_mid. rewrite !app_length. unfold slen. cbn [length]. lia. }
  assert (GE : aget B (slen p + 1 + slen (a :: 58 :: seq)) = Ok e).
  { rewrite B2. rewrite app_assoc. apply aget_mid. rewrite !app_length. unfold slen. cbn [length] in *. lia. }
  rewrite GD, GE. cbn [bind negb andb]. change (124 =? 124) with true. change (124 =? 47) with false. cbn [andb]. cbn iota.
  (* the name *)
  set (P3 := (p ++ [47]) ++ (a :: 58 :: seq) ++ [124]). set (Q3 := (p2 ++ [d]) ++ s2 ++ [e]).
  assert (A3 : A = P3 ++ (name ++ [47]) ++ q1) by (unfold P3; rewrite A2, <- !app_assoc; cbn [app]; rewrite <- ?app_assoc; reflexivity).
  assert (B3 : B = Q3 ++ rest2 ++ q2) by (unfold Q3; rewrite B2, <- !app_assoc; reflexivity).
  assert (L3' : slen P3 = slen Q3) by (unfold P3, Q3, slen; rewrite !app_length; cbn [length] in *; lia).
  replace (slen p + 1 + slen (a :: 58 :: seq) + 1) with (slen P3) by (unfold P3, slen; rewrite !app_length; cbn [length]; lia).
  rewrite A3, B3.
  assert (HC : ci_eq (p ++ [47]) (p2 ++ [d])).
  { unfold ci_eq. rewrite !map_app, Ep. f_equal. cbn [map]. change (toupper 47) with 47. f_equal. lia. }
  destruct (list_eq_dec Z.eq_dec (map toupper (name ++ [47])) (map toupper rest2)) as [En|En].
  - exists 1. split; [|split; [left; reflexivity|]].
    + rewrite (coll_equal (name ++ [47]) P3 Q3 q1 q2 6 0 ltac:(lia) true rest2 En L3'). reflexivity.
    + split; [intros _; split; [exact HC|exact En]|reflexivity].
  - exists 0. split; [|split; [right; reflexivity|]].
    + apply (coll_differ (name ++ [47]) P3 Q3 q1 q2 6 0 ltac:(lia) true rest2 En L3'). rewrite app_length. cbn [length]. lia.
    + split; [discriminate|]. intros [_ X]. exfalso. exact (En X).
Qed.

(** after the sixth slash, outside a sequence: no further marker *)
Lemma coll_after k : forall i a b sl, 0 <= i -> i + Z.of_nat k <= slen a -> i + Z.of_nat k <= slen b -> 6 <= sl ->
  coll_loop k i a b sl false false = Ok 0.
Proof.
  induction k as [|k IH]; intros i a b sl Hi La Lb H; [reflexivity|]. cbn [coll_loop].
  destruct (split_at a i) as (x & y & Ea & Lx); [unfold alen, slen in *; lia|].
  destruct (split_at b i) as (x2 & y2 & Eb & Lx2); [unfold alen, slen in *; lia|].
  destruct y as [|c y]; [rewrite Ea, app_nil_r in La; lia|]. destruct y2 as [|c2 y2]; [rewrite Eb, app_nil_r in Lb; lia|].
  rewrite Ea at 1. rewrite (aget_mid x) by (unfold slen in Lx; lia). cbn [bind]. rewrite Eb at 1. rewrite (aget_mid x2) by (unfold slen in Lx2; lia). cbn [bind negb andb].
  destruct (toupper c =? toupper c2); [|reflexivity]. cbn [negb].
  destruct (c =? 47); [cbn zeta; destruct (sl + 1 =? 6) eqn:X; [lia|]|]; apply IH; lia.
Qed.
Lemma slen_firstn_len {A} n (l : list A) : (n <= length l)%nat -> length (firstn n l) = n.
Proof. intros H. rewrite firstn_length. lia. Qed.

(** A first pathname that is not a collection pathname never matches, not even itself: its F part has no colon in second place, or it has no bar. *)
Theorem C39_compare_plain : forall ts F q1 b, length ts = 5%nat -> Forall no_slash (ts ++ [F]) ->
  (forall a r, F = a :: 58 :: r -> ~ In 124 F) -> (hd_error q1 <> None) -> hd_error q1 <> Some 58 ->
  slen (path_text (ts ++ [F])) <= slen b ->
  zpathnameCompareCollection (path_text (ts ++ [F]) ++ q1) b (slen (path_text (ts ++ [F]))) = Ok 0.
Proof.
  intros ts F q1 b H5 HN HF Q1 Q2 Lb.
  assert (FS : ~ In 47 F) by (apply (F_slash ts F HN)).
  assert (HT : Forall no_slash ts) by (apply Forall_app in HN; apply HN).
  pose proof (count_path ts HT) as CP. rewrite H5 in CP. change (Z.of_nat 5 + 1) with 6 in CP.
  unfold zpathnameCompareCollection. rewrite path_text_last in *.
  destruct (path_text_ends ts) as (p & EP). rewrite EP in *.
  assert (Cp : slashes p = 5).
  { unfold slashes in *. rewrite count_occ_app in CP. cbn [count_occ] in CP. destruct (Z.eq_dec 47 47); lia. }
  assert (LA : length ((p ++ [47]) ++ F ++ [47]) = (length p + (1 + (length F + (1 + 0))))%nat) by (rewrite !app_length; cbn [length]; lia).
  unfold slen at 1. rewrite Nat2Z.id, LA. unfold slen in Lb. rewrite LA in Lb.
  set (A := ((p ++ [47]) ++ F ++ [47]) ++ q1).
  assert (A1 : A = [] ++ p ++ (47 :: F ++ 47 :: q1)) by (unfold A; rewrite <- !app_assoc; reflexivity).
  assert (LenA : slen A = slen p + 1 + slen F + 1 + slen q1) by (unfold A; rewrite !slen_app; change (slen [47]) with 1; lia).
  set (p2 := firstn (length p) b). set (r2 := skipn (length p) b).
  assert (Lp2 : length p2 = length p) by (apply slen_firstn_len; lia).
  assert (B1 : b = [] ++ p2 ++ r2) by (cbn [app]; symmetry; apply firstn_skipn).
  destruct (list_eq_dec Z.eq_dec (map toupper p) (map toupper p2)) as [Ep|Ep].
  2: { rewrite A1, B1. apply (coll_differ p [] [] _ _ 0 _ ltac:(lia) false p2 Ep eq_refl ltac:(lia)). }
  assert (R1 : coll_loop (length p + (1 + (length F + (1 + 0)))) 0 A b 0 false false = coll_loop (1 + (length F + (1 + 0))) (slen p) A b 5 false false).
  { rewrite A1, B1. pose proof (coll_equal p [] [] (47 :: F ++ 47 :: q1) r2 0 (1 + (length F + (1 + 0))) ltac:(lia) false p2 Ep eq_refl) as X.
    rewrite Cp in X. exact X. }
  rewrite R1. clear R1. cbn [Nat.add]. cbn [coll_loop].
  assert (GA : aget A (slen p) = Ok 47) by (rewrite A1; apply (aget_mid p); reflexivity).
  assert (R2 : exists d r3, r2 = d :: r3).
  { destruct r2 as [|d r3] eqn:R2; [|eauto]. exfalso. rewrite B1 in Lb. cbn [app] in Lb. rewrite app_nil_r, Lp2 in Lb. lia. }
  destruct R2 as (d & r3 & R2). rewrite R2 in B1. clear R2.
  assert (GB : aget b (slen p) = Ok d) by (rewrite B1; apply (aget_mid p2); unfold slen; lia).
  rewrite GA, GB. cbn [bind negb andb]. destruct (toupper 47 =? toupper d); [|reflexivity]. cbn [negb].
  change (47 =? 47) with true. cbn iota. cbn zeta. change (5 + 1) with 6. change (6 =? 6) with true. cbn iota.
  pose proof (slen_nonneg p). pose proof (slen_nonneg F). pose proof (slen_nonneg q1).
  assert (Z58 : exists z, aget A (slen p + 2) = Ok z /\ (z = 58 -> exists a r, F = a :: 58 :: r)).
  { rewrite A1. cbn [app]. destruct F as [|a [|c F]].
    - destruct q1 as [|z q1]; [exfalso; apply Q1; reflexivity|]. exists z. split; [|intros ->; exfalso; apply Q2; reflexivity].
      change (p ++ 47 :: [] ++ 47 :: z :: q1) with (p ++ [47; 47] ++ z :: q1). rewrite app_assoc. apply aget_mid. rewrite app_length. unfold slen. cbn [length]. lia.
    - exists 47. split; [|discriminate]. cbn [app]. change (p ++ 47 :: a :: 47 :: q1) with (p ++ [47; a] ++ 47 :: q1). rewrite app_assoc. apply aget_mid.
      rewrite app_length. unfold slen. cbn [length]. lia.
    - exists c. split; [|intros ->; eauto]. cbn [app]. change (p ++ 47 :: a :: c :: ?r) with (p ++ [47; a] ++ c :: r). rewrite app_assoc. apply aget_mid.
      rewrite app_length. unfold slen. cbn [length]. lia. }
  destruct Z58 as (z & GZ & Hz). rewrite GZ. cbn [bind]. destruct (z =? 58) eqn:Ez.
  2: { apply coll_after; [lia| |unfold slen; lia|lia]. rewrite LenA. unfold slen in *. lia. }
  apply Z.eqb_eq in Ez. destruct (Hz Ez) as (a & r & EF). pose proof (HF a r EF) as NB.
  assert (A2 : A = (p ++ [47]) ++ F ++ (47 :: q1)) by (unfold A; rewrite <- !app_assoc; reflexivity).
  assert (B2 : exists s2 e r4, b = (p2 ++ [d]) ++ s2 ++ (e :: r4) /\ length s2 = length F).
  { exists (firstn (length F) r3). assert (LL : (length F < length r3)%nat).
    { rewrite B1 in Lb. cbn [app] in Lb. rewrite app_length, Lp2 in Lb. cbn [length] in Lb. lia. }
    destruct (skipn (length F) r3) as [|e r4] eqn:S3.
    - exfalso. apply (f_equal (@length Z)) in S3. rewrite skipn_length in S3. cbn [length] in S3. lia.
    - exists e, r4. split; [|apply slen_firstn_len; lia]. rewrite <- S3, firstn_skipn, B1, <- app_assoc. reflexivity. }
  destruct B2 as (s2 & e & r4 & B2 & Ls2).
  replace (coll_loop _ _ _ _ _ _ _) with (coll_loop 1 (slen p + 1 + slen F) A b 6 true false).
  - cbn [coll_loop]. rewrite A2 at 1. replace (aget _ (slen p + 1 + slen F)) with (Ok 47).
    2: { symmetry. rewrite app_assoc. apply aget_mid. rewrite !app_length. unfold slen. cbn [length]. lia. }
    cbn [bind]. replace (aget b _) with (Ok e).
    2: { symmetry. rewrite B2, app_assoc. apply aget_mid. rewrite !app_length. unfold slen. cbn [length]. lia. }
    reflexivity.
  - symmetry. rewrite A2, B2. replace (slen p + 1) with (slen (p ++ [47])) by (rewrite slen_app; reflexivity).
    apply coll_skip; [exact FS|exact NB|rewrite !slen_app; change (slen [47]) with 1; change (slen [d]) with 1; unfold slen; lia|symmetry; exact Ls2].
Qed.

(** The second pathname need not be a collection pathname at all. *)
Theorem C39_refuted_compare_other : exists p1 p2, slen p1 = slen p2 /\ ~ In 124 p2 /\
  zpathnameCompareCollection (p1 ++ [0; 0]) (p2 ++ [0; 0]) (slen p1) = Ok 1.
Proof.
  exists (txt "/A/B/C//1Day/C:000001|X/"%string), (txt "/A/B/C//1Day/FORECAST1X/"%string). split; [reflexivity|]. split; [|vm_compute; reflexivity].
  intros H. vm_compute in H. repeat (destruct H as [H|H]; [discriminate|]). destruct H.
Qed.
(** Nor has the marker to be "C:". *)
Theorem C39_refuted_compare_marker : exists p1 p2, slen p1 = slen p2 /\ zisaCollection p1 = Ok 0 /\ zisaCollection p2 = Ok 0 /\
  zpathnameCompareCollection (p1 ++ [0; 0]) (p2 ++ [0; 0]) (slen p1) = Ok 1.
Proof.
  exists (txt "/A/B/C//1Day/T:000001|X/"%string), (txt "/A/B/C//1Day/T:000002|X/"%string). repeat split; vm_compute; reflexivity.
Qed.

(** ** setting the sequence *)
(** the F part with sequence [six]: the old marker, if there is one, is replaced *)
Definition with_sequence (six F F' : list Z) : Prop :=
  (exists seq name, collection_part F seq name /\ F' = [67; 58] ++ six ++ [124] ++ name) \/
  ((forall seq name, ~ collection_part F seq name) /\ F' = [67; 58] ++ six ++ [124] ++ F).

Lemma dval_fold s : alldig s = true -> forall v, digits_val v s = fold_left (fun v c => 10 * v + (c - 48)) s v.
Proof.
  unfold alldig. induction s as [|c s IH]; intros H v; [reflexivity|]. cbn [digits_val fold_left forallb] in *. apply andb_true_iff in H.
  destruct H as [H1 H2]. rewrite H1, (IH H2). replace (v * 10) with (10 * v) by apply Z.mul_comm. reflexivity.
Qed.
Lemma fmt6_ok n : 0 <= n <= 999999 -> six_digits n (fmt_6 n).
Proof.
  intros H. unfold fmt_6. destruct (n <? 0) eqn:E; [lia|]. destruct (dec_spec n) as (D1 & D2 & D3); [lia|].
  destruct (pad0_spec 6 (dec n) D1) as (P1 & P2 & P3).
  assert (L : slen (dec n) <= 6) by (unfold dec; apply (dec_fuel_len 20 n 6); [change (10 ^ Z.of_nat 6) with 1000000; lia|lia]).
  split; [unfold slen in *; lia|]. split.
  - apply Forall_forall. intros c Hc. unfold alldig in P1. rewrite forallb_forall in P1. apply is_digit_range, P1, Hc.
  - rewrite <- dval_fold by exact P1. unfold dval in *. congruence.
Qed.
Lemma strchr_first c m r : ~ In c m -> strchr (m ++ c :: r) c = Some (slen m).
Proof.
  induction m as [|x m IH]; intros H; cbn [app strchr]; [rewrite Z.eqb_refl; reflexivity|].
  destruct (x =? c) eqn:E; [exfalso; apply H; left; lia|]. rewrite IH by (intros X; apply H; right; exact X). rewrite slen_cons. reflexivity.
Qed.
Lemma strchr_absent c m : ~ In c m -> strchr m c = None.
Proof.
  induction m as [|x m IH]; intros H; cbn [strchr]; [reflexivity|].
  destruct (x =? c) eqn:E; [exfalso; apply H; left; lia|]. rewrite IH by (intros X; apply H; right; exact X). reflexivity.
Qed.
Lemma toupper_C a : (a =? 99) || (a =? 67) = (toupper a =? 67).
Proof. unfold toupper. destruct ((97 <=? a) && (a <=? 122)) eqn:E; lia. Qed.

(** Numbers of at most six digits, a pathname of at least nine characters, and an F part that stays within 128 characters:
    the returned pathname differs from the given one in the F part only, and this carries the number. *)
Theorem C39_set_sequence_partial : forall junk fbuf ts F n, alen junk = 7 -> alen fbuf = 129 ->
  length ts = 5%nat -> Forall no_slash (ts ++ [F]) -> Forall c_text (ts ++ [F]) ->
  0 <= n <= 999999 -> slen F <= 119 -> 9 <= slen (path_text (ts ++ [F])) ->
  exists six F', six_digits n six /\ with_sequence six F F' /\
    zsetCollectionSequence junk fbuf (path_text (ts ++ [F])) n = Ok (Some (path_text (ts ++ [F']))).
Proof.
  intros junk fbuf ts F n Hj Hf H5 HN HC Hn LF LP. pose proof (fmt6_ok n Hn) as S6. exists (fmt_6 n).
  destruct S6 as (S1 & S2 & S3). assert (H6 : length (ts ++ [F]) = 6%nat) by (rewrite app_length, H5; reflexivity).
  assert (NE : nth_error (ts ++ [F]) (Z.to_nat (6 - 1)) = Some F) by (rewrite nth_error_app2 by (rewrite H5; cbn; lia); rewrite H5; reflexivity).
  pose proof (slen_nonneg F) as F0.
  assert (CF : c_text F) by (rewrite Forall_forall in HC; apply HC, in_or_app; right; left; reflexivity).
  unfold zsetCollectionSequence. destruct (slen (path_text (ts ++ [F])) <? 7) eqn:X; [lia|]. clear X.
  destruct (C15_get junk (ts ++ [F]) 6 F fbuf 129 Hj H6 HN HC NE ltac:(lia) ltac:(lia)) as (fb & G & _ & CG).
  rewrite G. cbn [bind]. rewrite CG. cbn [bind]. rewrite (Z.min_l (slen F) 128) by lia.
  replace (firstn _ F) with F by (symmetry; apply firstn_all2; unfold slen in LF; lia).
  set (bar := match F with a :: b :: _ => if ((a =? 99) || (a =? 67)) && (b =? 58) then first_bar (stake (slen F) F) else 0 | _ => 0 end).
  assert (SF : stake (slen F) F = F) by (unfold stake, slen; rewrite Nat2Z.id; apply firstn_all).
  assert (HH : stake 128 ([67; 58] ++ fmt_6 n ++ [124]) = [67; 58] ++ fmt_6 n ++ [124]).
  { unfold stake. apply firstn_all2. rewrite !app_length, S1. cbn. lia. }
  cbn zeta. rewrite HH. clear HH.
  assert (LH : slen ([67; 58] ++ fmt_6 n ++ [124]) = 9) by (unfold slen; rewrite !app_length, S1; reflexivity).
  assert (TK : forall r, slen r <= 119 -> stringCat_val 129 ([67; 58] ++ fmt_6 n ++ [124]) r = [67; 58] ++ fmt_6 n ++ [124] ++ r).
  { intros r Lr. unfold stringCat_val. rewrite LH. replace (stake _ r) with r; [rewrite <- !app_assoc; reflexivity|].
    symmetry. unfold stake. apply firstn_all2. unfold slen in Lr. lia. }
  assert (K : exists name, with_sequence (fmt_6 n) F ([67; 58] ++ fmt_6 n ++ [124] ++ name) /\ c_text name /\ slen name <= slen F /\
      stringCat_val 129 ([67; 58] ++ fmt_6 n ++ [124]) (if negb (bar =? 0) then sdrop (bar + 1) F else F) = [67; 58] ++ fmt_6 n ++ [124] ++ name).
  { destruct F as [|a [|b F1]].
    - exists []. split; [right; split; [intros s m (a & E & _); discriminate E|reflexivity]|]. split; [constructor|]. split; [lia|]. apply TK; unfold slen; cbn [length]; lia.
    - exists [a]. split; [right; split; [intros s m (a' & E & _); discriminate E|reflexivity]|]. split; [exact CF|]. split; [lia|]. apply TK; unfold slen; cbn [length]; lia.
    - unfold bar. rewrite SF, toupper_C. destruct ((toupper a =? 67) && (b =? 58)) eqn:M.
      + apply andb_true_iff in M. destruct M as [M1 M2]. apply Z.eqb_eq in M1, M2. subst b. unfold first_bar. 
        pose proof (toupper_other a M1) as TA. cbn [strchr]. destruct (a =? 124) eqn:A; [lia|]. change (58 =? 124) with false. cbn iota.
        destruct (in_dec Z.eq_dec 124 F1) as [B|B].
        * destruct (first_bar_split F1 B) as (m1 & m2 & E & M). rewrite E, strchr_first by exact M.
          pose proof (slen_nonneg m1). destruct (slen m1 + 1 + 1 =? 0) eqn:X; [lia|]. cbn [negb].
          assert (SD : sdrop (slen m1 + 1 + 1 + 1) (a :: 58 :: m1 ++ 124 :: m2) = m2).
          { change (a :: 58 :: m1 ++ 124 :: m2) with ([a; 58] ++ m1 ++ [124] ++ m2). rewrite !app_assoc. unfold sdrop.
            replace (Z.to_nat (slen m1 + 1 + 1 + 1)) with (length (([a; 58] ++ m1) ++ [124])) by (rewrite !app_length; cbn [length]; unfold slen; lia).
            rewrite skipn_app, skipn_all, Nat.sub_diag. reflexivity. }
          rewrite SD. exists m2. rewrite E in CF, LF. rewrite !slen_cons, slen_app, slen_cons in LF. 
          assert (CM : c_text m2). { inversion CF as [|? ? _ C1]. inversion C1 as [|? ? _ C2]. apply Forall_app in C2. destruct C2 as [_ C2]. inversion C2; assumption. }
          split; [left; exists m1, m2; split; [exists a; split; [reflexivity|]; split; [exact M1|exact M]|reflexivity]|]. split; [exact CM|].
          split; [rewrite !slen_cons, slen_app, slen_cons; lia|]. apply TK. lia.
        * rewrite strchr_absent by exact B. change (0 =? 0) with true. cbn [negb]. exists (a :: 58 :: F1).
          split; [right; split; [|reflexivity]|]. 2: { split; [exact CF|]. split; [lia|]. apply TK, LF. }
          intros s m (a' & E & _). injection E as _ E. apply B. rewrite E. apply in_or_app. right. left. reflexivity.
      + change (0 =? 0) with true. cbn [negb]. exists (a :: b :: F1). split; [right; split; [|reflexivity]|].
        2: { split; [exact CF|]. split; [lia|]. apply TK, LF. }
        intros s m (a' & E & Ua & _). injection E as <- -> _. rewrite Ua in M. discriminate M. }
  destruct K as (name & W & Cn & Ln & K). rewrite K. clear K. exists ([67; 58] ++ fmt_6 n ++ [124] ++ name).
  split; [split; [exact S1|split; assumption]|]. split; [exact W|].
  set (F' := [67; 58] ++ fmt_6 n ++ [124] ++ name) in *.
  assert (LF' : slen F' = 9 + slen name) by (unfold F', slen; rewrite !app_length, S1; cbn [length]; lia).
  assert (CF' : c_text F').
  { unfold F'. apply Forall_app. split; [repeat constructor; lia|]. apply Forall_app. split; [|constructor; [lia|exact Cn]].
    apply Forall_forall. intros c Hc. rewrite Forall_forall in S2. specialize (S2 c Hc). cbn beta in S2. lia. }
  pose proof (path_text_c _ HC) as CP.
  destruct (copy_ok (repeat 0 (Z.to_nat (slen (path_text (ts ++ [F])) + 10))) (slen (path_text (ts ++ [F])) + 10) (path_text (ts ++ [F])))
    as (cb & E1 & E2 & E3); [apply c_text_absent, CP|lia|lia|unfold alen; rewrite repeat_length; lia|].
  rewrite E1. cbn [bind fst].
  destruct (C16_set_partial junk (ts ++ [F]) 6 F F' cb (slen (path_text (ts ++ [F])) + 10) Hj H6 HN HC CF' NE ltac:(lia) E2) as (b & Z1 & Z2 & Z3).
  - rewrite E3. unfold alen. rewrite repeat_length. lia.
  - lia.
  - replace (firstn (Z.to_nat 6) (ts ++ [F])) with (ts ++ [F]); [lia|]. symmetry. apply firstn_all2. rewrite H6. cbn. lia.
  - rewrite Z1. cbn [bind snd]. rewrite Z3. cbn [bind]. do 3 f_equal.
    rewrite set_nth_split by (rewrite H6; cbn; lia). change (Z.to_nat (6 - 1)) with 5%nat.
    rewrite <- H5 at 1. rewrite firstn_app, Nat.sub_diag, firstn_all, firstn_O, app_nil_r.
    rewrite (skipn_all2 (n := 6)) by (rewrite H6; lia). reflexivity.
Qed.

(** A seven-digit number does not fit the allocated buffer: memory past its end is written. *)
Theorem C39_refuted_seven_digits : zsetCollectionSequence (repeat 0 7) (repeat 0 129) (txt "/A/B/C//1Day/X/"%string) 1000000 = Undef.
Proof. vm_compute. reflexivity. Qed.
(** A longer number is silently ignored. *)
Theorem C39_refuted_eight_digits : let s := txt "/A/B/C//1Day/X/"%string in
  zsetCollectionSequence (repeat 0 7) (repeat 0 129) s 10000000 = Ok (Some s).
Proof. vm_compute. reflexivity. Qed.
(** A pathname of fewer than nine characters makes the shifting loop read in front of the buffer. *)
Theorem C39_refuted_minimal : zsetCollectionSequence (repeat 0 7) (repeat 0 129) (txt "///////"%string) 1 = Undef.
Proof. vm_compute. reflexivity. Qed.

Lemma no_slash_dec p : forallb (fun c => negb (c =? 47)) p = true -> no_slash p.
Proof. intros H X. rewrite forallb_forall in H. specialize (H 47 X). discriminate. Qed.
Example C39_example :
  let ts := [txt "A"%string; txt "B"%string; txt "FLOW"%string; []; txt "1Day"%string] in let F := txt "C:000012|OBS"%string in
  length ts = 5%nat /\ Forall no_slash (ts ++ [F]) /\ 12 <= slen (path_text (ts ++ [F])) /\
  collection_part F (txt "000012"%string) (txt "OBS"%string) /\ zisaCollection (path_text (ts ++ [F])) = Ok 16 /\
  zsetCollectionSequence (repeat 0 7) (repeat 0 129) (path_text (ts ++ [F])) 7 = Ok (Some (path_text (ts ++ [txt "C:000007|OBS"%string]))) /\
  zpathnameCompareCollection (path_text (ts ++ [F]) ++ [0]) (path_text (ts ++ [txt "c:000007|obs"%string]) ++ [0]) 29 = Ok 1.
Proof.
  cbn zeta. split; [reflexivity|]. split; [repeat (constructor; [apply no_slash_dec; reflexivity|]); constructor|].
  split; [vm_compute; discriminate|]. split; [|split; [|split]; vm_compute; reflexivity].
  exists 67. split; [reflexivity|]. split; [reflexivity|]. intros H. vm_compute in H. repeat (destruct H as [H|H]; [discriminate|]). destruct H.
Qed.

Print Assumptions C39_recognised.
Print Assumptions C39_not_recognised_partial.
Print Assumptions C39_compare.
Print Assumptions C39_compare_plain.
Print Assumptions C39_set_sequence_partial.
Print Assumptions C39_refuted_other_part.
Print Assumptions C39_refuted_short.
Print Assumptions C39_refuted_compare_other.
Print Assumptions C39_refuted_compare_marker.
Print Assumptions C39_refuted_seven_digits.
Print Assumptions C39_refuted_eight_digits.
Print Assumptions C39_refuted_minimal.
