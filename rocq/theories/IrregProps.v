(** * C31: merging irregular data, C42: the recorded size of an irregular block. *)
From Coq Require Import ZArith List Lia Bool ZifyBool.
From Verif Require Import Base ArrayLib DateModel DateSpec IrregModel IrregProofs.
Import ListNotations.
Open Scope Z_scope.

(** ** Specification *)

(** Times strictly increasing. *)
Fixpoint increasing {P} (l : list (Z * P)) : Prop :=
  match l with
  | a :: ((b :: _) as t) => fst a < fst b /\ increasing t
  | _ => True
  end.
(** What is stored at time [t]. *)
Fixpoint at_time {P} (t : Z) (l : list (Z * P)) : option P :=
  match l with
  | [] => None
  | (u, v) :: r => if u =? t then Some v else at_time t r
  end.

(** Replace mode: an old entry is kept before the replaced part if its instant lies before the start of the
    caller's window ([w], in seconds) and before the first new time, unless the caller's data started in an
    earlier block; it is kept after the replaced part if it is later than the last new time, unless the caller's
    window reaches beyond this block. *)
Definition kept_before {P} (jb g w : Z) (from_start : bool) (first : Z) (e : Z * P) : bool :=
  negb from_start && (jb * 86400 + fst e * g <? w) && (fst e <? first).
Definition kept_after {P} (to_end : bool) (last : Z) (e : Z * P) : bool := negb to_end && (last <? fst e).
Definition replaced {P} (jb g w : Z) (from_start to_end : bool) (first last : Z) (e : Z * P) : bool :=
  negb (kept_before jb g w from_start first e) && negb (kept_after to_end last e).

(** ** Lemmas *)
Section L.
Context {P : Type}.
Implicit Types l ns os : list (Z * P).

Definition gt_all (x : Z) l : Prop := forall e, In e l -> x < fst e.

Lemma inc_cons a l : increasing (a :: l) <-> gt_all (fst a) l /\ increasing l.
Proof.
  split.
  - revert a. induction l as [|b t IH]; intros a H.
    + split; [intros e []|exact I].
    + destruct H as [H1 H2]. split; [|exact H2]. destruct (IH b H2) as [H3 _].
      intros e [<-|He]; [exact H1|]. specialize (H3 e He). lia.
  - intros [H1 H2]. destruct l as [|b t]; [exact I|]. split; [apply H1; left; reflexivity|exact H2].
Qed.

Lemma at_time_none t l : (forall e, In e l -> fst e <> t) -> at_time t l = None.
Proof.
  induction l as [|[u v] r IH]; intros H; [reflexivity|]. cbn [at_time].
  assert (u <> t) by (apply (H (u, v)); left; reflexivity). replace (u =? t) with false by lia.
  apply IH. intros e He. apply H. right. exact He.
Qed.

Lemma pmerge_in ns : forall os e, In e (pmerge ns os) -> In e ns \/ In e os.
Proof.
  induction ns as [|a ns IHn].
  - intros os e H. right. destruct os; exact H.
  - induction os as [|b os IHo]; intros e H; [left; exact H|]. cbn [pmerge] in H.
    destruct (fst a <? fst b); [destruct H as [<-|H]; [left; left; reflexivity|];
      apply IHn in H; destruct H; [left; right; assumption|right; assumption]|].
    destruct (fst a >? fst b).
    + destruct H as [<-|H]; [right; left; reflexivity|]. apply IHo in H. destruct H; [left; assumption|right; right; assumption].
    + destruct H as [<-|H]; [left; left; reflexivity|]. apply IHn in H. destruct H; [left; right; assumption|right; right; assumption].
Qed.

Lemma pmerge_spec ns : increasing ns -> forall os, increasing os ->
  increasing (pmerge ns os) /\
  forall t, at_time t (pmerge ns os) = match at_time t ns with Some v => Some v | None => at_time t os end.
Proof.
  induction ns as [|[ta va] ns IHn]; intros Hn.
  - intros os Ho. split; destruct os; auto.
  - rewrite inc_cons in Hn. destruct Hn as [Gn Hn]. cbn [fst] in Gn. specialize (IHn Hn).
    induction os as [|[tb vb] os IHo]; intros Ho.
    { cbn [pmerge]. split; [rewrite inc_cons; auto|]. intros t. cbn [at_time]. destruct (ta =? t); [reflexivity|].
      destruct (at_time t ns); reflexivity. }
    assert (Ho' := Ho). rewrite inc_cons in Ho'. destruct Ho' as [Go Ho']. cbn [fst] in Go. specialize (IHo Ho').
    cbn [pmerge fst].
    destruct (ta <? tb) eqn:C1; [|destruct (ta >? tb) eqn:C2].
    + destruct (IHn ((tb, vb) :: os) Ho) as [I1 I2]. split.
      * rewrite inc_cons. split; [|exact I1]. intros e He. apply pmerge_in in He. cbn [fst].
        destruct He as [He|[<-|He]]; [apply Gn; exact He|cbn; lia|specialize (Go e He); lia].
      * intros t. cbn [at_time]. destruct (ta =? t) eqn:E; [reflexivity|]. rewrite I2. cbn [at_time]. reflexivity.
    + destruct IHo as [I1 I2]. split.
      * rewrite inc_cons. split; [|exact I1]. intros e He. cbn [fst].
        change (In e (pmerge ((ta, va) :: ns) os)) in He. apply pmerge_in in He.
        destruct He as [[<-|He]|He]; [cbn; lia|specialize (Gn e He); lia|apply Go; exact He].
      * intros t. change (at_time t ((tb, vb) :: pmerge ((ta, va) :: ns) os) =
           match at_time t ((ta, va) :: ns) with Some v => Some v | None => at_time t ((tb, vb) :: os) end).
        cbn [at_time]. destruct (tb =? t) eqn:E.
        { replace (ta =? t) with false by lia. rewrite (at_time_none t ns); [reflexivity|].
          intros e He. specialize (Gn e He). lia. }
        { rewrite I2. reflexivity. }
    + assert (ta = tb) by lia. subst tb. destruct (IHn os Ho') as [I1 I2]. split.
      * rewrite inc_cons. split; [|exact I1]. intros e He. cbn [fst]. apply pmerge_in in He.
        destruct He as [He|He]; [apply Gn; exact He|apply Go; exact He].
      * intros t. cbn [at_time]. destruct (ta =? t) eqn:E; [reflexivity|]. rewrite I2. reflexivity.
Qed.

Lemma view_app l s : view (l ++ s) 0 (alen l) l.
Proof.
  split; [lia|]. split; [lia|]. intros i Hi. unfold alen in Hi. rewrite Z.add_0_l. unfold aget. replace (i <? 0) with false by lia.
  rewrite nth_error_app1 by lia. reflexivity.
Qed.

Lemma pbefore_filter w first g jb l : 0 < g -> increasing l ->
  pbefore w first g jb l = filter (kept_before jb g w false first) l.
Proof.
  intros Hg. induction l as [|b t IH]; intros H; [reflexivity|]. rewrite inc_cons in H. destruct H as [H1 H2].
  cbn [pbefore filter]. unfold kept_before at 1. cbn [negb andb].
  destruct ((jb * 86400 + fst b * g <? w) && (fst b <? first)) eqn:E; [f_equal; apply IH; exact H2|].
  symmetry. clear IH H2. induction t as [|c t IH]; [reflexivity|]. cbn [filter].
  assert (fst b < fst c) by (apply H1; left; reflexivity).
  assert (fst b * g < fst c * g) by nia.
  unfold kept_before at 1. cbn [negb andb].
  replace ((jb * 86400 + fst c * g <? w) && (fst c <? first)) with false by lia.
  apply IH. intros e He. apply H1. right. exact He.
Qed.

Lemma pafter_filter last l : pafter last l = filter (kept_after false last) l.
Proof.
  induction l as [|b t IH]; [reflexivity|]. cbn [pafter filter]. unfold kept_after at 1. cbn [negb andb].
  destruct (last >=? fst b) eqn:E.
  - replace (last <? fst b) with false by lia. exact IH.
  - replace (last <? fst b) with true by lia. f_equal. exact IH.
Qed.

Lemma inc_last_ge l z : increasing l -> aget l (alen l - 1) = Ok z -> forall e, In e l -> fst e <= fst z.
Proof.
  induction l as [|a t IH]; intros H Ez e He; [destruct He|]. rewrite inc_cons in H. destruct H as [H1 H2].
  assert (L : alen (a :: t) = 1 + alen t) by apply alen_cons. destruct t as [|b t].
  - unfold alen in Ez. cbn in Ez. destruct He as [<-|[]]. inversion Ez; subst. lia.
  - assert (Ez' : aget (b :: t) (alen (b :: t) - 1) = Ok z).
    { rewrite <- Ez. unfold aget, alen. cbn [length].
      replace (Z.of_nat (S (length t)) - 1 <? 0) with false by lia.
      replace (Z.of_nat (S (S (length t))) - 1 <? 0) with false by lia.
      replace (Z.to_nat (Z.of_nat (S (S (length t))) - 1)) with (S (Z.to_nat (Z.of_nat (S (length t)) - 1))) by lia. reflexivity. }
    destruct He as [<-|He].
    + assert (In z (b :: t)). { unfold aget in Ez'. destruct (alen (b :: t) - 1 <? 0); [discriminate|].
        destruct (nth_error (b :: t) _) eqn:N; [|discriminate]. inversion Ez'; subst. eapply nth_error_In. exact N. }
      specialize (H1 z H). lia.
    + apply IH; assumption.
Qed.

Lemma filter_app_split (f g : Z * P -> bool) l : (forall e, f e = true -> g e = false) ->
  forall r, l = filter f l ++ r -> filter g l = filter g r.
Proof.
  intros D r Hl. rewrite Hl at 1. rewrite filter_app.
  replace (filter g (filter f l)) with (@nil (Z * P)); [reflexivity|]. symmetry.
  clear Hl. induction l as [|a t IH]; [reflexivity|]. cbn [filter]. destruct (f a) eqn:E; [|exact IH].
  cbn [filter]. rewrite (D a E). exact IH.
Qed.

Lemma inc_app l1 l2 : increasing l1 -> increasing l2 -> (forall a b, In a l1 -> In b l2 -> fst a < fst b) -> increasing (l1 ++ l2).
Proof.
  induction l1 as [|a t IH]; intros H1 H2 H; [exact H2|]. rewrite inc_cons in H1. destruct H1 as [G1 H1].
  cbn [app]. rewrite inc_cons. split.
  - intros e He. apply in_app_or in He. destruct He as [He|He]; [apply G1; exact He|apply H; [left; reflexivity|exact He]].
  - apply IH; auto. intros x y Hx Hy. apply H; [right; exact Hx|exact Hy].
Qed.
Lemma inc_filter f l : increasing l -> increasing (filter f l).
Proof.
  induction l as [|a t IH]; intros H; [exact I|]. rewrite inc_cons in H. destruct H as [G H]. cbn [filter].
  destruct (f a); [|apply IH; exact H]. rewrite inc_cons. split; [|apply IH; exact H].
  intros e He. apply filter_In in He. apply G. apply He.
Qed.
Lemma inc_firstn n l : increasing l -> increasing (firstn n l).
Proof.
  revert l. induction n as [|n IH]; intros l H; [exact I|]. destruct l as [|a t]; [exact I|].
  rewrite inc_cons in H. destruct H as [G H]. cbn [firstn]. rewrite inc_cons. split; [|apply IH; exact H].
  intros e He. apply G. rewrite <- (firstn_skipn n t). apply in_or_app. left. exact He.
Qed.
Lemma firstn_in n l (e : Z * P) : In e (firstn n l) -> In e l.
Proof. intros H. rewrite <- (firstn_skipn n l). apply in_or_app. left. exact H. Qed.

End L.

(** ** C31: merge mode *)
Theorem C31_merge :
  forall (P : Type) jb g wj ws from_start to_end (new live slack : list (Z * P)),
  increasing new -> increasing live ->
  exists out,
    merge_blocks 0 jb g wj ws from_start to_end new (alen new) (live ++ slack) (alen live) = Ok out /\
    increasing out /\
    forall t, at_time t out = match at_time t new with Some v => Some v | None => at_time t live end.
Proof.
  intros P jb g wj ws fs te new live slack Hn Hl.
  destruct (pmerge_spec new Hn live Hl) as [S1 S2]. exists (pmerge new live). split; [|split; assumption].
  unfold merge_blocks. change (0 =? 0) with true. cbv iota.
  rewrite (merge_loop_pure _ new (alen new) (live ++ slack) (alen live) _ 0 0 [] new live).
  - reflexivity.
  - apply view_full.
  - apply view_app.
  - unfold alen. lia.
  - unfold alen. cbn [length]. lia.
Qed.

(** ** C31: replace mode *)

(** The exact result.  [k] old entries lie before the replaced part; the entries after it are kept only as far as
    the (wrongly reduced) count lets them. *)
Theorem C31_replace_exact :
  forall (P : Type) flag jb g wj ws from_start to_end (new live slack : list (Z * P)) first last,
  flag <> 0 -> (g = 1 \/ g = 60) -> -1000000 <= jb <= 1000000 -> jb <> 0 -> -1000000 <= wj <= 1000000 -> in32 ws ->
  ~ (wj = 0 /\ ws = 0) -> (forall e, In e (live ++ slack) -> in32 (fst e)) ->
  increasing new -> increasing live -> live <> [] ->
  aget new 0 = Ok first -> aget new (alen new - 1) = Ok last ->
  slack <> [] \/ (exists e, In e live /\ kept_before jb g (wj * 86400 + ws) from_start (fst first) e = false) ->
  let before := filter (kept_before jb g (wj * 86400 + ws) from_start (fst first)) live in
  let behind := filter (kept_after to_end (fst last)) live in
  merge_blocks flag jb g wj ws from_start to_end new (alen new) (live ++ slack) (alen live) =
    Ok (before ++ new ++ firstn (length live - 2 * length before) behind).
Proof.
  intros P flag jb g wj ws fs te new live slack first last Hflag Hg Hj NZ Hw Hs NZ2 H32 Hn Hl Nl Ef El Ns before behind.
  assert (Hn0 : 0 < alen new) by (apply aget_range in Ef; lia).
  assert (C : cmp_ok jb g wj ws) by (unfold cmp_ok; tauto).
  assert (H32' : forall i e, aget (live ++ slack) i = Ok e -> in32 (fst e)).
  { intros i e He. unfold aget in He. destruct (i <? 0); [discriminate|].
    destruct (nth_error (live ++ slack) (Z.to_nat i)) eqn:N; [|discriminate]. inversion He; subst.
    apply H32. eapply nth_error_In. exact N. }
  assert (Lo : alen (live ++ slack) = alen live + alen slack) by (unfold alen; rewrite app_length; lia).
  assert (Ls : 0 <= alen slack) by apply alen_nonneg.
  assert (Lv : 0 < alen live) by (unfold alen; destruct live; [congruence|cbn [length]; lia]).
  pose proof (alen_nonneg live) as Ll. set (w := wj * 86400 + ws) in *.
  unfold merge_blocks. replace (flag =? 0) with false by lia. replace (alen new >? 0) with true by lia.
  set (cap := alen new + alen live).
  (* the entries before *)
  assert (B : exists k, before_loop (Z.to_nat cap) cap jb g wj ws fs new (live ++ slack) (alen live) 0 [] = Ok (k, before) /\ k = alen before).
  { destruct fs.
    - rewrite (before_loop_from_start _ jb g wj ws new (live ++ slack) (alen live) first) by (auto; lia).
      assert (before = []) as ->. { unfold before, kept_before. cbn [negb andb]. clear. induction live; auto. }
      exists 0. split; reflexivity.
    - destruct (before_loop_pure cap jb g wj ws new (live ++ slack) (alen live) first C Ef H32' (Z.to_nat cap) 0 [] live)
        as (k & E & K); auto.
      + apply view_app.
      + destruct Ns as [Ns|(e & He & Ke)]; [left; unfold alen; destruct slack; [congruence|cbn [length]; rewrite app_length; cbn [length]; lia]|].
        right. right. fold w. rewrite (pbefore_filter w (fst first) g jb live ltac:(lia) Hl). intros Q. rewrite <- Q in He. apply filter_In in He.
        fold w in Ke. destruct He. congruence.
      + unfold cap, alen. cbn [length]. lia.
      + unfold cap, alen. lia.
      + fold w in E, K. rewrite (pbefore_filter w (fst first) g jb live ltac:(lia) Hl) in E, K. exists k. cbn [app] in E. split; [exact E|]. rewrite K. reflexivity. }
  destruct B as (k & EB & EK). rewrite EB. cbn [bind].
  assert (Pre : exists rest, live = before ++ rest).
  { destruct fs.
    - exists live. replace before with (@nil (Z * P)); [reflexivity|]. unfold before, kept_before. cbn [negb andb]. clear. induction live; auto.
    - unfold before. rewrite <- (pbefore_filter w (fst first) g jb live ltac:(lia) Hl). apply pbefore_prefix. }
  destruct Pre as (rest & Hrest).
  assert (Lr : alen live = alen before + alen rest). { rewrite Hrest at 1. unfold alen. rewrite app_length. lia. }
  pose proof (alen_nonneg rest). pose proof (alen_nonneg before).
  rewrite (new_loop_pure cap new (alen new) (Z.to_nat (cap - alen before)) 0 before new).
  2: apply view_full. 2: unfold cap, alen in *; lia. 2: unfold cap; lia.
  cbn [bind]. destruct te.
  - replace behind with (@nil (Z * P)). { rewrite firstn_nil, app_nil_r. reflexivity. }
    unfold behind, kept_after. cbn [negb andb]. clear. induction live; auto.
  - rewrite (after_loop_pure cap (cap - alen before) new (alen new) (live ++ slack) (alen live) last Hn0 El ltac:(lia) _ k _ rest).
    + assert (Eb : pafter (fst last) rest = behind).
      { rewrite pafter_filter. unfold behind. symmetry. unfold before in Hrest.
        eapply filter_app_split; [|exact Hrest]. intros e. unfold kept_before, kept_after. cbn [negb andb].
        assert (fst first <= fst last).
        { apply (inc_last_ge new last Hn El). unfold aget in Ef. cbn in Ef. destruct new; [discriminate|]. inversion Ef; left; reflexivity. }
        intros. lia. }
      rewrite Eb. rewrite <- app_assoc. do 3 f_equal. unfold cap. unfold alen in *. rewrite app_length. f_equal. lia.
    + rewrite EK. apply (view_skip _ 0 _ before rest). rewrite <- Hrest. apply view_app.
    + unfold alen in *. rewrite app_length. unfold cap in *. unfold alen. lia.
Qed.

(** When at least as many old entries are replaced as are kept before (or none is to be kept after): exactly the old
    entries of the replaced part are gone, everything else is there once, in order. *)
Theorem C31_replace_partial :
  forall (P : Type) flag jb g wj ws from_start to_end (new live slack : list (Z * P)) first last,
  flag <> 0 -> (g = 1 \/ g = 60) -> -1000000 <= jb <= 1000000 -> jb <> 0 -> -1000000 <= wj <= 1000000 -> in32 ws ->
  ~ (wj = 0 /\ ws = 0) -> (forall e, In e (live ++ slack) -> in32 (fst e)) ->
  increasing new -> increasing live -> live <> [] ->
  aget new 0 = Ok first -> aget new (alen new - 1) = Ok last ->
  slack <> [] \/ (exists e, In e live /\ kept_before jb g (wj * 86400 + ws) from_start (fst first) e = false) ->
  let w := wj * 86400 + ws in
  let before := filter (kept_before jb g w from_start (fst first)) live in
  let behind := filter (kept_after to_end (fst last)) live in
  let gone := filter (replaced jb g w from_start to_end (fst first) (fst last)) live in
  (length before <= length gone)%nat \/ behind = [] ->
  merge_blocks flag jb g wj ws from_start to_end new (alen new) (live ++ slack) (alen live) = Ok (before ++ new ++ behind) /\
  increasing (before ++ new ++ behind).
Proof.
  intros P flag jb g wj ws fs te new live slack first last Hflag Hg Hj NZ Hw Hs NZ2 H32 Hn Hl Nl Ef El Ns w before behind gone Hc.
  rewrite (C31_replace_exact P flag jb g wj ws fs te new live slack first last) by auto.
  fold w. fold before. fold behind.
  assert (FL : fst first <= fst last).
  { apply (inc_last_ge new last Hn El). unfold aget in Ef. cbn in Ef. destruct new; [discriminate|]. inversion Ef; left; reflexivity. }
  assert (F0 : forall e, In e new -> fst first <= fst e).
  { unfold aget in Ef. cbn in Ef. destruct new as [|a t]; [discriminate|]. inversion Ef; subst a.
    rewrite inc_cons in Hn. destruct Hn as [G _]. intros e [<-|He]; [lia|]. specialize (G e He). lia. }
  split.
  - do 3 f_equal. apply firstn_all2. destruct Hc as [Hc| ->]; [|cbn; lia].
    assert (Len : (length live = length before + length gone + length behind)%nat).
    { unfold before, gone, behind. clear -FL. induction live as [|e t IH]; [reflexivity|]. cbn [filter length].
      unfold replaced at 1.
      assert (D : kept_before jb g w fs (fst first) e = true -> kept_after te (fst last) e = true -> False).
      { unfold kept_before, kept_after. destruct fs, te; cbn [negb andb]; try discriminate. lia. }
      destruct (kept_before jb g w fs (fst first) e), (kept_after te (fst last) e); cbn [negb andb length]; try lia; exfalso; apply D; reflexivity. }
    lia.
  - apply inc_app; [apply inc_filter; exact Hl| |].
    + apply inc_app; [exact Hn|apply inc_filter; exact Hl|]. intros a b Ha Hb. apply filter_In in Hb. destruct Hb as [_ Hb].
      unfold kept_after in Hb. pose proof (inc_last_ge new last Hn El a Ha). lia.
    + intros a b Ha Hb. apply filter_In in Ha. destruct Ha as [_ Ha]. unfold kept_before in Ha. rewrite !andb_true_iff in Ha.
      destruct Ha as [[_ _] Ha]. apply in_app_or in Hb. destruct Hb as [Hb|Hb]; [specialize (F0 b Hb); lia|].
      apply filter_In in Hb. destruct Hb as [_ Hb]. unfold kept_after in Hb. lia.
Qed.

(** Adding one value in the middle of a stored block of five loses every later value. *)
Definition ex_live : list (Z * Z) := [(3600, 10); (7200, 20); (10800, 30); (14400, 40); (18000, 50)].
Theorem C31_refuted_replace_drops_tail :
  let new := [(12000, 99)] in
  merge_blocks 1 100 1 100 12000 false false new 1 (ex_live ++ [(0, 0)]) 5 = Ok [(3600, 10); (7200, 20); (10800, 30); (12000, 99)] /\
  increasing new /\ increasing ex_live /\
  filter (kept_after false 12000) ex_live = [(14400, 40); (18000, 50)].
Proof. vm_compute. repeat split. Qed.

(** The array of times read is accessed one past its end when it has no spare room and all of it is kept. *)
Theorem C31_refuted_replace_overread :
  merge_blocks 1 100 1 100 20000 false false [(20000, 99)] 1 ex_live 5 = Undef.
Proof. vm_compute. reflexivity. Qed.

Example C31_example_merge :
  merge_blocks 0 100 1 100 0 false false [(1, 7); (7200, 21)] 2 ex_live 5 =
    Ok [(1, 7); (3600, 10); (7200, 21); (10800, 30); (14400, 40); (18000, 50)].
Proof. vm_compute. reflexivity. Qed.
Example C31_example_replace :
  (* window from 7000 s: one entry is kept before, two are replaced, the others kept *)
  merge_blocks 1 100 1 100 7000 false false [(7300, 1); (8000, 2); (11000, 3)] 3 (ex_live ++ [(0, 0)]) 5 =
    Ok [(3600, 10); (7300, 1); (8000, 2); (11000, 3); (14400, 40); (18000, 50)] /\
  (length (filter (kept_before 100 1 (100 * 86400 + 7000) false 7300) ex_live) <=
   length (filter (replaced 100 1 (100 * 86400 + 7000) false false 7300 11000) ex_live))%nat.
Proof. vm_compute. split; [reflexivity|lia]. Qed.

(** ** C42: the recorded number of values bounds what a later merge reads *)

(** [days] is the length of the block in days plus one.  The entries lie in the block: the first is at (j1, s1), the
    last at (j2, s2). *)
Theorem C42_logical_number_partial :
  forall days j1 s1 j2 s2 total,
  1 <= days <= 40000 -> 0 < s1 <= 86400 -> 0 < s2 <= 86400 -> 0 <= j2 - j1 < days - 1 -> 1 <= total ->
  (* strictly increasing seconds *)
  total <= (j2 - j1) * 86400 + (s2 - s1) + 1 ->
  (days < 370 \/ total <= (j2 - j1 + 1) * 1440 + Z.quot (s2 - s1) 60) ->
  exists n, logical_number days j1 s1 j2 s2 total = Ok n /\ total <= n.
Proof.
  intros days j1 s1 j2 s2 total Hd H1 H2 Hj Ht Hinc Hc. unfold logical_number.
  replace (total =? 0) with false by lia.
  assert (Q : forall a span, 0 < span -> total <= span -> span <= a -> a < 5000000000 ->
            Z.quot span total >? 0 = true /\ total <= Z.quot a (Z.quot span total)).
  { intros a span S0 S1 S2 S3. rewrite Z.quot_div_nonneg by lia.
    assert (1 <= span / total) by (apply Z.div_le_lower_bound; lia).
    split; [lia|]. rewrite Z.quot_div_nonneg by lia. apply Z.div_le_lower_bound; [lia|].
    pose proof (Z.mul_div_le span total ltac:(lia)). lia. }
  destruct (days <? 370) eqn:D.
  - rewrite chk32_ok by (unfold in32, INT_MIN, INT_MAX; lia). cbn [bind].
    destruct (Q (days * 86400) ((j2 - j1 + 1) * 86400 + (s2 - s1))) as [Q1 Q2]; try lia.
    rewrite Q1. eexists. split; [reflexivity|exact Q2].
  - destruct Hc as [Hc|Hc]; [lia|].
    assert (-1440 <= Z.quot (s2 - s1) 60 <= 1440). { pose proof (Z.quot_rem' (s2 - s1) 60).
      pose proof (Z.rem_bound_abs (s2 - s1) 60 ltac:(lia)). lia. }
    rewrite chk32_ok by (unfold in32, INT_MIN, INT_MAX; lia). cbn [bind].
    destruct (Q (days * 1440) ((j2 - j1 + 1) * 1440 + Z.quot (s2 - s1) 60)) as [Q1 Q2]; try lia.
    rewrite Q1. eexists. split; [reflexivity|exact Q2].
Qed.

(** In blocks of a decade or a century, 2000 values one second apart are recorded as "1 value". *)
Theorem C42_refuted_dense_decade :
  logical_number 3654 40000 1 40000 2000 2000 = Ok 1.
Proof. vm_compute. reflexivity. Qed.
Example C42_example : exists n, logical_number 32 40000 3600 40030 86400 744 = Ok n /\ 744 <= n.
Proof. eexists. split; [vm_compute; reflexivity|lia]. Qed.

Print Assumptions C31_merge.
Print Assumptions C31_replace_exact.
Print Assumptions C31_replace_partial.
Print Assumptions C31_refuted_replace_drops_tail.
Print Assumptions C31_refuted_replace_overread.
Print Assumptions C42_logical_number_partial.
Print Assumptions C42_refuted_dense_decade.
