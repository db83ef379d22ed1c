(** * Lemmas for IrregModel: each loop computes a pure list function. *)
From Coq Require Import ZArith List Lia Bool ZifyBool.
From Verif Require Import Base ArrayLib DateModel DateSpec DateProps IrregModel.
Import ListNotations.
Open Scope Z_scope.

Lemma nth_firstn_lt {A} (l : list A) : forall n i, (i < n)%nat -> nth_error (firstn n l) i = nth_error l i.
Proof.
  induction l as [|x t IH]; intros n i H; [rewrite firstn_nil; reflexivity|].
  destruct n; [lia|]. destruct i; [reflexivity|]. cbn. apply IH. lia.
Qed.

Section Merge.
Context {P : Type}.
Implicit Types new old out ns os : list (Z * P).

(** [v] is the part of array [l] from index [s] up to [n]. *)
Definition view (l : list (Z * P)) (s n : Z) (v : list (Z * P)) : Prop :=
  0 <= s /\ alen v = n - s /\ forall i, 0 <= i < alen v -> aget l (s + i) = aget v i.

Lemma view_nil l s n : view l s n [] -> s = n.
Proof. intros (_ & H & _). unfold alen in H. cbn in H. lia. Qed.

Lemma view_cons l s n x t : view l s n (x :: t) -> aget l s = Ok x /\ s < n /\ view l (s + 1) n t.
Proof.
  intros (H0 & H1 & H2). assert (L : alen (x :: t) = 1 + alen t) by (unfold alen; cbn [length]; lia).
  assert (0 <= alen t) by apply alen_nonneg.
  split; [|split; [lia|]].
  - specialize (H2 0 ltac:(lia)). rewrite Z.add_0_r in H2. rewrite H2. reflexivity.
  - split; [lia|]. split; [lia|]. intros i Hi. specialize (H2 (1 + i) ltac:(lia)).
    replace (s + 1 + i) with (s + (1 + i)) by lia. rewrite H2. unfold aget.
    replace (1 + i <? 0) with false by lia. replace (i <? 0) with false by lia.
    replace (Z.to_nat (1 + i)) with (S (Z.to_nat i)) by lia. reflexivity.
Qed.

Lemma view_full l : view l 0 (alen l) l.
Proof. split; [lia|]. split; [lia|]. intros i Hi. rewrite Z.add_0_l. reflexivity. Qed.

Lemma view_firstn l n : 0 <= n <= alen l -> view l 0 n (firstn (Z.to_nat n) l).
Proof.
  intros H. unfold alen in H. split; [lia|]. assert (L : alen (firstn (Z.to_nat n) l) = n).
  { unfold alen. rewrite firstn_length. lia. }
  split; [lia|]. intros i Hi. rewrite Z.add_0_l. unfold aget. replace (i <? 0) with false by lia.
  rewrite nth_firstn_lt by lia. reflexivity.
Qed.

Fixpoint pmerge ns : list (Z * P) -> list (Z * P) :=
  fix inner os : list (Z * P) :=
    match ns, os with
    | [], _ => os
    | _, [] => ns
    | a :: ns', b :: os' =>
        if fst a <? fst b then a :: pmerge ns' os
        else if fst a >? fst b then b :: inner os'
        else a :: pmerge ns' os'
    end.

Lemma push_ok cap out (e : Z * P) : alen out < cap -> push cap out e = Ok (out ++ [e]).
Proof. intros H. unfold push. replace (alen out <? cap) with true by lia. reflexivity. Qed.
Lemma alen_snoc out (e : Z * P) : alen (out ++ [e]) = alen out + 1.
Proof. unfold alen. rewrite app_length. cbn [length]. lia. Qed.
Lemma alen_cons (e : Z * P) t : alen (e :: t) = 1 + alen t.
Proof. unfold alen. cbn [length]. lia. Qed.

Lemma merge_loop_pure cap new nS old nR : forall fuel s r out ns os,
  view new s nS ns -> view old r nR os -> (length ns + length os <= fuel)%nat ->
  alen out + alen ns + alen os <= cap ->
  merge_loop fuel cap new nS old nR s r out = Ok (out ++ pmerge ns os).
Proof.
  induction fuel as [|fuel IH]; intros s r out ns os Vn Vo Hf Hc.
  - destruct ns; cbn in Hf; [|lia]. destruct os; cbn in Hf; [|lia]. cbn. rewrite app_nil_r. reflexivity.
  - cbn [merge_loop]. destruct ns as [|a ns], os as [|b os].
    + apply view_nil in Vn. apply view_nil in Vo. subst. rewrite !Z.eqb_refl. cbn. rewrite app_nil_r. reflexivity.
    + assert (V := Vn). apply view_nil in Vn. destruct (view_cons _ _ _ _ _ Vo) as (Eb & Lb & Vb).
      replace ((r =? nR) && (s =? nS)) with false by lia. replace (s <? nS) with false by lia. cbn [bind].
      replace (r <? nR) with true by lia. replace (s >=? nS) with true by lia. cbn [bind]. rewrite Eb. cbn [bind].
      rewrite alen_cons in Hc. unfold alen at 2 in Hc. cbn [length] in Hc. pose proof (alen_nonneg os).
      rewrite push_ok by lia. cbn [bind]. rewrite (IH s (r + 1) _ [] os); auto.
      * rewrite <- app_assoc. destruct os; reflexivity.
      * cbn in Hf |- *. lia.
      * rewrite alen_snoc. unfold alen at 2. cbn [length]. lia.
    + destruct (view_cons _ _ _ _ _ Vn) as (Ea & La & Va). assert (V := Vo). apply view_nil in Vo.
      replace ((r =? nR) && (s =? nS)) with false by lia. replace (s <? nS) with true by lia.
      replace (r >=? nR) with true by lia. cbn [bind]. rewrite Ea. cbn [bind].
      rewrite alen_cons in Hc. unfold alen at 3 in Hc. cbn [length] in Hc. pose proof (alen_nonneg ns).
      rewrite push_ok by lia. cbn [bind]. rewrite (IH (s + 1) r _ ns []); auto.
      * rewrite <- app_assoc. destruct ns; reflexivity.
      * cbn in Hf |- *. lia.
      * rewrite alen_snoc. unfold alen at 3. cbn [length]. lia.
    + destruct (view_cons _ _ _ _ _ Vn) as (Ea & La & Va). destruct (view_cons _ _ _ _ _ Vo) as (Eb & Lb & Vb).
      rewrite !alen_cons in Hc. pose proof (alen_nonneg ns). pose proof (alen_nonneg os). cbn [length] in Hf.
      replace ((r =? nR) && (s =? nS)) with false by lia. replace (s <? nS) with true by lia.
      replace (r >=? nR) with false by lia. rewrite Ea, Eb. cbn [bind].
      cbn [pmerge]. destruct (fst a <? fst b) eqn:C1.
      * rewrite push_ok by lia. cbn [bind]. rewrite (IH (s + 1) r _ ns (b :: os)); auto.
        { rewrite <- app_assoc. reflexivity. } { cbn [length]. lia. } { rewrite alen_snoc, alen_cons. lia. }
      * replace (r <? nR) with true by lia. replace (s >=? nS) with false by lia. cbn [bind].
        destruct (fst a >? fst b) eqn:C2.
        { rewrite push_ok by lia. cbn [bind]. rewrite (IH s (r + 1) _ (a :: ns) os); auto.
          { rewrite <- app_assoc. reflexivity. } { cbn [length]. lia. } { rewrite alen_snoc, alen_cons. lia. } }
        { replace (fst a =? fst b) with true by lia. rewrite push_ok by lia. cbn [bind].
          rewrite (IH (s + 1) (r + 1) _ ns os); auto.
          { rewrite <- app_assoc. reflexivity. } { lia. } { rewrite alen_snoc. lia. } }
Qed.

(** Replace mode: the old entries kept before the replaced part. *)
Fixpoint pbefore (w first : Z) (g jb : Z) os : list (Z * P) :=
  match os with
  | [] => []
  | b :: t => if (jb * 86400 + fst b * g <? w) && (fst b <? first) then b :: pbefore w first g jb t else []
  end.
Fixpoint pafter (last : Z) os : list (Z * P) :=
  match os with
  | [] => []
  | b :: t => if last >=? fst b then pafter last t else b :: pafter last t
  end.

Definition cmp_ok (jb g wj ws : Z) : Prop :=
  (g = 1 \/ g = 60) /\ -1000000 <= jb <= 1000000 /\ jb <> 0 /\ -1000000 <= wj <= 1000000 /\ in32 ws /\ ~ (wj = 0 /\ ws = 0).

Lemma cmp_lt jb g wj ws t : cmp_ok jb g wj ws -> in32 t ->
  exists c, compareTimes jb t 0 g wj ws 0 1 = Ok c /\ (c <? 0) = (jb * 86400 + t * g <? wj * 86400 + ws).
Proof.
  intros (Hg & Hj & NZ & Hw & Hs & NZ2) Ht.
  rewrite C07_compare_is_order_of_instants; try (unfold INT_MIN, INT_MAX, in32 in *; lia); auto; try lia.
  - eexists. split; [reflexivity|]. unfold instant. rewrite !Z.add_0_r, Z.mul_1_r.
    destruct (Z.sgn_spec (jb * 86400 + t * g - (wj * 86400 + ws))) as [[? H]|[[? H]|[? H]]]; rewrite H; lia.
  - destruct Hg; subst; reflexivity.
  - unfold INT_MIN, INT_MAX. destruct Hg; subst.
    + replace (2200000000 / (86400 / 1)) with 25462 by (vm_compute; reflexivity). lia.
    + replace (2200000000 / (86400 / 60)) with 1527777 by (vm_compute; reflexivity). lia.
  - unfold INT_MIN, INT_MAX. replace (2200000000 / (86400 / 1)) with 25462 by (vm_compute; reflexivity). lia.
Qed.

Lemma before_loop_pure cap jb g wj ws new old nR a0 :
  cmp_ok jb g wj ws -> aget new 0 = Ok a0 -> (forall i e, aget old i = Ok e -> in32 (fst e)) ->
  forall fuel r out os, view old r nR os -> nR < alen old \/ Z.of_nat fuel <= nR - r \/ pbefore (wj * 86400 + ws) (fst a0) g jb os <> os ->
  alen out + alen os <= cap ->
  (length os <= fuel)%nat ->
  exists k, before_loop fuel cap jb g wj ws false new old nR r out = Ok (k, out ++ pbefore (wj * 86400 + ws) (fst a0) g jb os) /\
    k = r + alen (pbefore (wj * 86400 + ws) (fst a0) g jb os).
Proof.
  intros C Ea H32. induction fuel as [|fuel IH]; intros r out os V Hb Hc Hf.
  - destruct os; [|cbn in Hf; lia]. exists r. cbn. rewrite app_nil_r. split; [reflexivity|]. unfold alen; cbn; lia.
  - cbn [before_loop]. destruct os as [|b os].
    + apply view_nil in V as Hr. subst r. destruct Hb as [Hb|[Hb|Hb]]; [|lia|exfalso; apply Hb; reflexivity].
      destruct (aget_some old nR) as (b & Eb). { destruct V as (? & _). lia. }
      rewrite Eb. cbn [bind]. destruct (cmp_lt jb g wj ws (fst b) C (H32 _ _ Eb)) as (c & Ec & _). rewrite Ec. cbn [bind].
      replace (nR <? nR) with false by lia. cbn [andb bind]. exists nR. cbn. rewrite app_nil_r. split; [reflexivity|]. unfold alen; cbn; lia.
    + destruct (view_cons _ _ _ _ _ V) as (Eb & Lb & Vb). rewrite Eb. cbn [bind].
      destruct (cmp_lt jb g wj ws (fst b) C (H32 _ _ Eb)) as (c & Ec & Lc). rewrite Ec. cbn [bind].
      replace (r <? nR) with true by lia. cbn [andb]. rewrite Lc. cbn [pbefore].
      destruct (jb * 86400 + fst b * g <? wj * 86400 + ws) eqn:E1; cbn [andb bind].
      * rewrite Ea. cbn [bind]. rewrite andb_true_r. destruct (fst b <? fst a0) eqn:E2.
        { rewrite alen_cons in Hc. pose proof (alen_nonneg os). rewrite push_ok by lia. cbn [bind]. cbn [length] in Hf.
          destruct (IH (r + 1) (out ++ [b]) os) as (k & Ek & Hk); auto; try lia.
          { destruct Hb as [Hb|[Hb|Hb]]; auto; [right; left; lia|]. right. right. cbn [pbefore] in Hb. rewrite E1, E2 in Hb. cbn [andb] in Hb. congruence. }
          { rewrite alen_snoc. lia. }
          exists k. rewrite Ek. split; [rewrite <- app_assoc; reflexivity|]. rewrite alen_cons. lia. }
        { exists r. cbn. rewrite app_nil_r. split; [reflexivity|]. unfold alen; cbn; lia. }
      * exists r. cbn. rewrite app_nil_r. split; [reflexivity|]. unfold alen; cbn; lia.
Qed.

Lemma before_loop_from_start cap jb g wj ws new old nR a0 fuel out :
  cmp_ok jb g wj ws -> aget new 0 = Ok a0 -> (forall i e, aget old i = Ok e -> in32 (fst e)) -> 0 < alen old ->
  before_loop fuel cap jb g wj ws true new old nR 0 out = Ok (0, out).
Proof.
  intros C Ea H32 Hl. destruct fuel as [|fuel]; [reflexivity|]. cbn [before_loop].
  destruct (aget_some old 0 ltac:(lia)) as (b & Eb). rewrite Eb. cbn [bind].
  destruct (cmp_lt jb g wj ws (fst b) C (H32 _ _ Eb)) as (c & Ec & Lc). rewrite Ec. cbn [bind].
  destruct ((0 <? nR) && (c <? 0)); cbn [bind]; [|reflexivity]. rewrite Ea. cbn [bind]. rewrite andb_false_r. reflexivity.
Qed.

Lemma new_loop_pure cap new nS : forall fuel s out ns,
  view new s nS ns -> (length ns <= fuel)%nat -> alen out + alen ns <= cap ->
  new_loop fuel cap new nS s out = Ok (out ++ ns).
Proof.
  induction fuel as [|fuel IH]; intros s out ns V Hf Hc.
  - destruct ns; [|cbn in Hf; lia]. cbn. rewrite app_nil_r. reflexivity.
  - cbn [new_loop]. destruct ns as [|a ns].
    + apply view_nil in V. replace (s <? nS) with false by lia. rewrite app_nil_r. reflexivity.
    + destruct (view_cons _ _ _ _ _ V) as (Ea & La & Va). replace (s <? nS) with true by lia. rewrite Ea. cbn [bind].
      rewrite alen_cons in Hc. pose proof (alen_nonneg ns). rewrite push_ok by lia. cbn [bind]. cbn [length] in Hf.
      rewrite (IH (s + 1) _ ns); auto; [rewrite <- app_assoc; reflexivity|lia|rewrite alen_snoc; lia].
Qed.

Lemma after_loop_pure cap ct new nS old nR z :
  0 < nS -> aget new (nS - 1) = Ok z -> ct <= cap ->
  forall fuel r out os, view old r nR os -> (length os <= fuel)%nat ->
  after_loop fuel cap ct new nS old nR r out =
    Ok (out ++ firstn (Z.to_nat (ct - alen out)) (pafter (fst z) os)).
Proof.
  intros Hn Ez Hct. induction fuel as [|fuel IH]; intros r out os V Hf.
  - destruct os; [|cbn in Hf; lia]. cbn. rewrite firstn_nil, app_nil_r. reflexivity.
  - cbn [after_loop]. destruct (alen out >=? ct) eqn:E.
    + replace (Z.to_nat (ct - alen out)) with 0%nat by lia. cbn [firstn]. rewrite app_nil_r. reflexivity.
    + destruct os as [|b os].
      * apply view_nil in V. replace (r <? nR) with false by lia. cbn [pafter]. rewrite firstn_nil, app_nil_r. reflexivity.
      * destruct (view_cons _ _ _ _ _ V) as (Eb & Lb & Vb). replace (r <? nR) with true by lia. rewrite Eb. cbn [bind].
        replace (nS >? 0) with true by lia. rewrite Ez. cbn [bind pafter]. cbn [length] in Hf.
        destruct (fst z >=? fst b) eqn:E2.
        { apply IH; [exact Vb|lia]. }
        { rewrite push_ok by lia. cbn [bind]. rewrite (IH (r + 1) _ os Vb) by lia. rewrite alen_snoc.
          replace (Z.to_nat (ct - alen out)) with (S (Z.to_nat (ct - (alen out + 1)))) by lia. cbn [firstn].
          rewrite <- app_assoc. reflexivity. }
Qed.

Lemma view_skip l r n (v1 v2 : list (Z * P)) : view l r n (v1 ++ v2) -> view l (r + alen v1) n v2.
Proof.
  revert r. induction v1 as [|x t IH]; intros r V.
  - unfold alen; cbn. rewrite Z.add_0_r. exact V.
  - apply view_cons in V. destruct V as (_ & _ & V). apply IH in V. rewrite alen_cons.
    replace (r + (1 + alen t)) with (r + 1 + alen t) by lia. exact V.
Qed.

Lemma pbefore_prefix w f g jb os : exists rest, os = pbefore w f g jb os ++ rest.
Proof.
  induction os as [|b t (rest & IH)]; [exists []; reflexivity|]. cbn [pbefore].
  destruct ((jb * 86400 + fst b * g <? w) && (fst b <? f)); [|exists (b :: t); reflexivity].
  exists rest. cbn [app]. f_equal. exact IH.
Qed.

End Merge.
