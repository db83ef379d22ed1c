(** * The record counts of the file header. *)
From Coq Require Import ZArith List Lia Bool Arith.
From Verif Require Import Base PackModel HashModel FileModel FileLemmas FileScan FileInv FileWrite FileRen.
Import ListNotations.
Open Scope Z_scope.

Definition counts (h : hdr) : Z * Z * Z := (h_numRecords h, h_numDeletes h, h_numRenames h).
(** A computation that leaves the counts alone. *)
Definition keeps {A} (m : M A) : Prop :=
  forall s, match m s with OK _ s' | ERR s' => counts (s_hdr s') = counts (s_hdr s) | UB => True end.

Lemma keeps_ret {A} (a : A) : keeps (ret a). Proof. intros s. reflexivity. Qed.
Lemma keeps_err {A} : keeps (@errM A). Proof. intros s. reflexivity. Qed.
Lemma keeps_ub {A} : keeps (@ubM A). Proof. intros s. exact I. Qed.
Lemma keeps_bind {A B} (m : M A) (f : A -> M B) : keeps m -> (forall a, keeps (f a)) -> keeps (bindM m f).
Proof.
  intros H1 H2 s. unfold bindM. specialize (H1 s). destruct (m s) as [a s'|s'|]; [|exact H1|exact I].
  specialize (H2 a s'). destruct (f a s'); congruence || exact I.
Qed.
Lemma keeps_getI : keeps getI. Proof. intros s. reflexivity. Qed.
Lemma keeps_getH : keeps getH. Proof. intros s. reflexivity. Qed.
Lemma keeps_setI i : keeps (setI i). Proof. intros s. reflexivity. Qed.
Lemma keeps_modI f : keeps (modI f). Proof. intros s. reflexivity. Qed.
Lemma keeps_modH f : (forall h, counts (f h) = counts h) -> keeps (modH f). Proof. intros H s. apply H. Qed.
Lemma keeps_zputw a ws : keeps (zputw a ws).
Proof. intros s. unfold zputw. destruct (_ || _); [reflexivity|]. destruct (_ <? _); [reflexivity|]. destruct ws; reflexivity. Qed.
Lemma keeps_zputi a ws : keeps (zputi a ws).
Proof. intros s. unfold zputi. destruct (_ || _); [reflexivity|]. destruct (_ <? _); [reflexivity|]. destruct ws; reflexivity. Qed.
Lemma keeps_zputzero a n : keeps (zputzero a n).
Proof. intros s. unfold zputzero. destruct (_ || _); reflexivity. Qed.
Lemma keeps_zgetw a n : keeps (zgetw a n).
Proof. intros s. unfold zgetw. destruct (_ || _); [reflexivity|]. destruct (_ <? _); reflexivity. Qed.
Lemma keeps_zgeti a n : keeps (zgeti a n).
Proof. intros s. unfold zgeti. destruct (_ || _); [reflexivity|]. destruct (_ || _); reflexivity. Qed.
Lemma keeps_zpermWrite : keeps zpermWrite. Proof. intros s. reflexivity. Qed.
Lemma keeps_liftR {A} (r : res A) : keeps (liftR r). Proof. destruct r; intros s; exact I || reflexivity. Qed.
Lemma keeps_space n : keeps (zgetFileSpace n). Proof. intros s. reflexivity. Qed.
Lemma keeps_eof : keeps zwriteEOF.
Proof. apply keeps_bind; [apply keeps_getH|]. intros h. apply keeps_zputw. Qed.
Lemma keeps_if {A} (b : bool) (m n : M A) : keeps m -> keeps n -> keeps (if b then m else n).
Proof. destruct b; auto. Qed.

Ltac kp1 := lazymatch goal with
  | |- keeps (ret _) => apply keeps_ret | |- keeps errM => apply keeps_err | |- keeps ubM => apply keeps_ub
  | |- keeps getI => apply keeps_getI | |- keeps getH => apply keeps_getH | |- keeps (setI _) => apply keeps_setI
  | |- keeps (modI _) => apply keeps_modI | |- keeps (modH _) => apply keeps_modH; intros; reflexivity
  | |- keeps (zputw _ _) => apply keeps_zputw | |- keeps (zputi _ _) => apply keeps_zputi
  | |- keeps (zputzero _ _) => apply keeps_zputzero | |- keeps (zgetw _ _) => apply keeps_zgetw
  | |- keeps (zgeti _ _) => apply keeps_zgeti | |- keeps zpermWrite => apply keeps_zpermWrite
  | |- keeps (liftR _) => apply keeps_liftR | |- keeps (zgetFileSpace _) => apply keeps_space
  | |- keeps zwriteEOF => apply keeps_eof
  | |- keeps (bindM _ _) => apply keeps_bind; [|intros]
  | |- keeps (if _ then _ else _) => apply keeps_if
  | |- keeps (let (_, _) := ?p in _) => destruct p
  end.
Ltac kp := repeat kp1.

Lemma keeps_chase c path wanted : forall fuel a, keeps (chase fuel c path wanted a).
Proof.
  induction fuel as [|f IH]; intros a; cbn [chase]; kp. destruct (scan _ _ _ _ _ _ _ _) as [[found i']|]; kp. cbv zeta. kp. apply IH.
Qed.
Lemma keeps_check c path wanted : keeps (zcheckInternal c path wanted).
Proof. unfold zcheckInternal. cbv zeta. kp. apply keeps_chase. Qed.
Lemma keeps_zcheck c path : keeps (zcheck c path).
Proof. unfold zcheck. apply keeps_bind; [apply keeps_check|]. intros b. destruct b; [kp|]. destruct (ztsPathCompatible path); [apply keeps_check|kp]. Qed.
Lemma keeps_readInfo c path wanted : keeps (zreadInfo c path wanted).
Proof.
  unfold zreadInfo. apply keeps_bind; [apply keeps_if; [apply keeps_zcheck|apply keeps_check]|]. intros b. cbv zeta. kp.
Qed.
Lemma keeps_binNew c : keeps (zbinNew c).
Proof. unfold zbinNew. cbv zeta. kp. Qed.
Lemma keeps_last_bin c : forall fuel, keeps (last_bin fuel c).
Proof. induction fuel as [|f IH]; cbn [last_bin]; cbv zeta; kp. apply IH. Qed.
Lemma keeps_binUpdate c path a st t : keeps (zbinUpdate c path a st t).
Proof.
  unfold zbinUpdate. cbv zeta. kp; try apply keeps_last_bin; try apply keeps_binNew.
  all: try (destruct (find_slot _ _ _ _ _ _ _ _); kp; apply keeps_binNew).
Qed.

(** ** Effects *)
Lemma bindM_inv {A B} (m : M A) (f : A -> M B) s b s'' : bindM m f s = OK b s'' -> exists a s', m s = OK a s' /\ f a s' = OK b s''.
Proof. unfold bindM. destruct (m s) as [a s'|s'|]; intros H; try discriminate. exists a, s'. auto. Qed.
Lemma keeps_OK {A} (m : M A) s a s' : keeps m -> m s = OK a s' -> counts (s_hdr s') = counts (s_hdr s).
Proof. intros H E. specialize (H s). rewrite E in H. exact H. Qed.
Lemma keeps_ERR {A} (m : M A) s s' : keeps m -> m s = ERR s' -> counts (s_hdr s') = counts (s_hdr s).
Proof. intros H E. specialize (H s). rewrite E in H. exact H. Qed.
Definition plus (h : Z * Z * Z) (r d n : Z) : Z * Z * Z := let '(a, b, c) := h in (a + r, b + d, c + n).
Lemma plus_counts h r d n x : counts (add_counts r d n x h) = plus (counts h) r d n.
Proof. reflexivity. Qed.

Lemma keeps_match {A B} (o : option A) (f : A -> M B) (m : M B) : (forall a, keeps (f a)) -> keeps m -> keeps (match o with Some a => f a | None => m end).
Proof. destruct o; auto. Qed.
Lemma keeps_existing c now prog x alloc : keeps (zwriteExisting c now prog x alloc).
Proof. unfold zwriteExisting. cbv zeta. kp; apply keeps_modH; intros h; unfold counts, add_counts; cbn; f_equal; [f_equal|]; lia. Qed.
Lemma keeps_tail x b : keeps (tail x b).
Proof. unfold tail. kp. Qed.
(** A computation whose success changes the counts by the given amounts. *)
Definition adds (r d n : Z) {A} (m : M A) : Prop :=
  forall s, match m s with OK _ s' => counts (s_hdr s') = plus (counts (s_hdr s)) r d n | _ => True end.
Lemma adds_bind_l {A B} r d n (m : M A) (f : A -> M B) : keeps m -> (forall a, adds r d n (f a)) -> adds r d n (bindM m f).
Proof.
  intros H1 H2 s. unfold bindM. specialize (H1 s). destruct (m s) as [a s'|s'|]; [|exact I|exact I].
  specialize (H2 a s'). destruct (f a s'); congruence || exact I.
Qed.
Lemma adds_bind_r {A B} r d n (m : M A) (f : A -> M B) : adds r d n m -> (forall a, keeps (f a)) -> adds r d n (bindM m f).
Proof.
  intros H1 H2 s. unfold bindM. specialize (H1 s). destruct (m s) as [a s'|s'|]; [|exact I|exact I].
  specialize (H2 a s'). destruct (f a s'); congruence || exact I.
Qed.
Lemma adds_modH r d n x : adds r d n (modH (add_counts r d n x)).
Proof. intros s. reflexivity. Qed.
Lemma adds_err {A} r d n : adds r d n (@errM A). Proof. intros s. exact I. Qed.
Lemma adds_OK {A} r d n (m : M A) s a s' : adds r d n m -> m s = OK a s' -> counts (s_hdr s') = plus (counts (s_hdr s)) r d n.
Proof. intros H E. specialize (H s). rewrite E in H. exact H. Qed.

Ltac kpx := repeat (kp1 || apply keeps_binNew || apply keeps_binUpdate || apply keeps_readInfo || apply keeps_check || apply keeps_existing || apply keeps_tail).

Ltac al := repeat (lazymatch goal with |- adds _ _ _ (bindM _ _) => apply adds_bind_l; [solve [kpx]|intros] end).

Lemma adds_new c now prog x alloc : adds 1 0 0 (zwriteNew c now prog x alloc).
Proof.
  unfold zwriteNew. cbv zeta. al. destruct (_ <? _); [apply adds_err|].
  al. apply adds_modH.
Qed.

Lemma count_write c now prog x s s' b s1 : zreadInfo c (x_path x) 0 s = OK b s1 ->
  (zwriteInternal c now prog x s = OK tt s' -> counts (s_hdr s') = if b then counts (s_hdr s) else plus (counts (s_hdr s)) 1 0 0) /\
  (b = true -> zwriteInternal c now prog x s = ERR s' -> counts (s_hdr s') = counts (s_hdr s)).
Proof.
  intros E. pose proof (keeps_OK _ _ _ _ (keeps_readInfo c (x_path x) 0) E) as K.
  assert (X : zwriteInternal c now prog x s =
    bindM (if b then zwriteExisting c now prog x (start_alloc x) else zwriteNew c now prog x (start_alloc x) ;;; ret true) (tail x) s1).
  { unfold zwriteInternal. cbv zeta. rewrite bindM_OK with (a := b) (s' := s1) by exact E. reflexivity. }
  rewrite X, <- K. destruct b; split.
  - intros H. eapply keeps_OK; [|exact H]. kpx.
  - intros _ H. eapply keeps_ERR; [|exact H]. kpx.
  - intros H. refine (adds_OK 1 0 0 _ _ _ _ _ H). apply adds_bind_r; [|intros; kpx]. apply adds_bind_r; [apply adds_new|intros; kpx].
  - discriminate.
Qed.

Lemma count_delete c path u s b s' : zdeleteInternal c path u s = OK b s' ->
  counts (s_hdr s') = if b then (if u then plus (counts (s_hdr s)) 1 (-1) 0 else plus (counts (s_hdr s)) (-1) 1 0) else counts (s_hdr s).
Proof.
  unfold zdeleteInternal. intros H. apply bindM_inv in H. destruct H as (a1 & s1 & H1 & H). apply bindM_inv in H. destruct H as (f & s2 & H2 & H).
  pose proof (keeps_OK _ _ _ _ (keeps_modI _) H1) as K1. pose proof (keeps_OK _ _ _ _ (keeps_readInfo _ _ _) H2) as K2.
  rewrite <- K1, <- K2. assert (b = f).
  { repeat (apply bindM_inv in H; destruct H as (? & ? & _ & H)). inversion H. reflexivity. }
  subst b. clear H1 H2 K1 K2. destruct f.
  - cbv zeta in H. destruct u.
    + refine (adds_OK 1 (-1) 0 _ _ _ _ _ H). apply adds_bind_r; [|intros; kpx]. al.
      intros s0. unfold modH, bindM, getH, setH. cbv beta iota. cbn [s_hdr]. match goal with |- context [if ?b then _ else _] => destruct b end; [|reflexivity].
      unfold plus, counts, add_counts. cbn [h_numRecords h_numDeletes h_numRenames]. f_equal; [f_equal|]; lia.
    + refine (adds_OK (-1) 1 0 _ _ _ _ _ H). apply adds_bind_r; [|intros; kpx]. al. apply adds_modH.
  - eapply keeps_OK; [|exact H]. kpx.
Qed.

Lemma count_rename c old new s b s' fn s1 : zcheckInternal c new 1 s = OK fn s1 -> zrename c old new s = OK b s' ->
  counts (s_hdr s') = plus (counts (s_hdr s)) (if fn then -1 else 0) (if fn then 1 else 0) (if b then 1 else 0).
Proof.
  intros E H. unfold zrename in H. cbv zeta in H. apply bindM_inv in H. destruct H as (f & s2 & H1 & H). change ST_PRIMARY with 1 in H1. rewrite E in H1. inversion H1; subst f s2. clear H1.
  apply bindM_inv in H. destruct H as (ok & s2 & H1 & H).
  assert (K2 : counts (s_hdr s2) = plus (counts (s_hdr s)) (if fn then -1 else 0) (if fn then 1 else 0) 0 /\ ok = true).
  { pose proof (keeps_OK _ _ _ _ (keeps_check _ _ _) E) as K. rewrite <- K. destruct ok; [|discriminate]. split; [|reflexivity]. destruct fn.
    - apply (count_delete c new false s1 true s2 H1).
    - inversion H1; subst. destruct (counts _) as [[r d] n]. cbn. f_equal; [f_equal|]; lia. }
  destruct K2 as [K2 ->]. clear H1 E. cbv beta iota delta [negb] in H. apply bindM_inv in H. destruct H as (i & s3 & H3 & H). inversion H3; subst i s3. clear H3.
  cbv zeta in H. apply bindM_inv in H. destruct H as (fo & s3 & H3 & H). pose proof (keeps_OK _ _ _ _ (keeps_check _ _ _) H3) as K3.
  replace (plus (counts (s_hdr s)) (if fn then -1 else 0) (if fn then 1 else 0) (if b then 1 else 0)) with (plus (counts (s_hdr s3)) 0 0 (if b then 1 else 0)).
  2:{ rewrite K3, K2. destruct (counts _) as [[r d] n]. cbn. f_equal; [f_equal|]; lia. }
  destruct fo.
  - assert (b = true).
    { clear - H. repeat (apply bindM_inv in H; destruct H as (? & ? & _ & H)). inversion H. reflexivity. }
    subst b. refine (adds_OK 0 0 1 _ _ _ _ _ H).
    assert (M0 : forall v, keeps (modH (add_counts 0 0 0 v))).
    { intros v. apply keeps_modH. intros h. unfold counts, add_counts. cbn [h_numRecords h_numDeletes h_numRenames]. rewrite !Z.add_0_r. reflexivity. }
    repeat (lazymatch goal with
            | |- adds _ _ _ (bindM (modH _) _) => fail
            | |- adds _ _ _ (bindM _ _) => apply adds_bind_l; [solve [kpx; apply M0]|intros] end).
    apply adds_bind_r; [apply adds_modH|intros; kpx].
  - inversion H; subst. destruct (counts (s_hdr s')) as [[r d] n]. unfold plus. rewrite !Z.add_0_r. reflexivity.
Qed.
