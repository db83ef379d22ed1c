(** * C30: writers exclude each other and no header update is lost (LockModel.v). *)
From Coq Require Import ZArith List Bool Lia.
From Verif Require Import LockModel.
Import ListNotations.
Open Scope Z_scope.

(** ** Specification *)
(** the next access of a call is a write to the file *)
Definition writes {H} (p : prog H) : bool :=
  match p with WriteH _ _ | Data _ | Update _ _ => true | _ => false end.
(** handles belong to different processes *)
Definition separate (proc : nat -> nat) (n : nat) : Prop :=
  forall i j, (i < n)%nat -> (j < n)%nat -> proc i = proc j -> i = j.
(** the header that contains all the changes made, in the order in which they were made *)
Definition all_changes {H} (h0 : H) (log : list (nat * (H -> H))) : H := fold_left (fun h c => snd c h) log h0.
(** every lock and unlock is made with the header saved and read again (LOCKING_FLUSH_ON) *)
Definition flushes {H} (o : op H) : Prop := match o with On _ fl | Off _ fl => fl = true | _ => True end.

(** ** Exclusion *)
Definition inv {H} (s : hd H) : Prop := d_locked s = false -> d_level s = 0.
Fixpoint excl {H} (own : bool) (p : prog H) : Prop :=
  match p with
  | Done s => d_locked s = own /\ inv s
  | Lock k => own = false /\ excl true (k true) /\ excl false (k false)
  | Unlock k => own = true /\ excl false k
  | Ask k => forall b, excl own (k b)
  | ReadH k => forall h, excl own (k h)
  | WriteH _ k | Data k | Update _ k => own = true /\ excl own k
  end.

Ltac fin := unfold inv in *; cbn in *; repeat split; intros; try congruence; auto.

Section Excl.
Context {H : Type}.

Definition good1 (k : hd H -> prog H) := forall s, inv s -> excl (d_locked s) (k s).
Definition good2 (k : bool -> hd H -> prog H) := forall b s, inv s -> excl (d_locked s) (k b s).

Lemma excl_zput (s : hd H) k : inv s ->
  (forall b s', inv s' -> d_locked s' = d_locked s -> d_mode s' = d_mode s -> d_level s' = d_level s -> excl (d_locked s') (k b s')) ->
  excl (d_locked s) (zput s k).
Proof. intros I G. unfold zput. destruct (d_locked s) eqn:E; [|rewrite <- E; apply G; auto]. cbn. split; [reflexivity|].
  specialize (G true (set_writing true (set_written true s)) I E eq_refl eq_refl). cbn in G. rewrite E in G. exact G. Qed.
Lemma excl_permRead (s : hd H) k : inv s -> good1 k -> excl (d_locked s) (zpermRead s k).
Proof. intros I G. unfold zpermRead. destruct (d_writing s); [apply G, I|]. cbn. intros h. apply (G (set_hdr h s) I). Qed.

Lemma excl_off flush (s : hd H) k :
  (forall s', (d_mode s = MULTI_USER_ACCESS -> d_locked s' = false /\ d_mode s' = MULTI_USER_ACCESS) -> inv s' -> excl (d_locked s') (k s')) ->
  excl (d_locked s) (lock_off flush s k).
Proof.
  intros G. unfold lock_off. cbn [d_locked set_locked].
  destruct (d_locked s) eqn:E.
  2:{ apply (G (set_locked false 0 s)); [cbn; intros M; auto|intros _; reflexivity]. }
  assert (U : forall s', d_locked s' = true -> d_level s' = 0 -> d_mode s' = d_mode s -> excl true (off_unlock flush s' k)).
  { intros s' L L0 M. unfold off_unlock. destruct (Z.eqb_spec (d_mode s') MULTI_USER_ACCESS) as [EM|EM].
    - split; [reflexivity|]. apply (G (set_locked false _ _)); [|destruct flush; intros _; exact L0].
      intros _. destruct flush; cbn; auto.
    - rewrite <- L. apply G; [rewrite <- M; intros; contradiction|unfold inv; rewrite L; discriminate]. }
  destruct (flush && _); [|apply U; reflexivity].
  unfold zpermWrite. cbn [d_locked set_locked]. cbn. split; [reflexivity|].
  exact (U (set_writing false (set_writing true (set_written true (set_locked true 0 s)))) eq_refl eq_refl eq_refl).
Qed.

Definition pid_excl (p : hd H -> (hd H -> prog H) -> prog H) :=
  forall s k, d_mode s = MULTI_USER_ACCESS -> inv s ->
    (forall s', d_mode s' = MULTI_USER_ACCESS -> d_locked s' = d_locked s -> inv s' -> excl (d_locked s') (k s')) ->
    excl (d_locked s) (p s k).

(** with the lock obtained, LOCK_ON in MULTI_USER_ACCESS mode never calls zpidUpdate *)
Lemma excl_on pidU level flush (s : hd H) k :
  (d_mode s = SINGLE_USER_ADVISORY_ACCESS -> pid_excl pidU) -> inv s ->
  (forall b s', inv s' -> (d_mode s = MULTI_USER_ACCESS -> d_mode s' = MULTI_USER_ACCESS) ->
     (d_locked s = false -> d_locked s' = b) -> (d_locked s = false -> b = true -> d_level s' = level) -> excl (d_locked s') (k b s')) ->
  excl (d_locked s) (lock_on pidU level flush s k).
Proof.
  intros P I G. unfold lock_on.
  pose (G' := fun (m : bool) (b : bool) (s' : hd H) => inv s' /\ (d_mode s = MULTI_USER_ACCESS -> d_mode s' = MULTI_USER_ACCESS) /\
      (d_locked s = false -> d_locked s' = b) /\ (d_locked s = false -> b = true -> d_level s' = level)).
  assert (K : forall b s', G' true b s' -> excl (d_locked s') (k b s')) by (intros b s' (?&?&?&?); apply G; auto).
  assert (F : forall s0, G' true true s0 -> excl (d_locked s0) (on_finish s0 k)).
  { intros s0 g. unfold on_finish. destruct (d_pid s0); [apply K, g|]. cbn. intros []; [|apply K, g].
    apply (excl_zput (set_pid true s0)); [exact (proj1 g)|]. intros b s1 ? El Em Ev. cbn in El, Em, Ev. apply K.
    destruct g as (?&?&?&?). repeat split; auto; intros; rewrite ?El, ?Em, ?Ev; auto. }
  assert (O : forall s0, (d_mode s = MULTI_USER_ACCESS -> d_mode s0 = MULTI_USER_ACCESS) -> excl true (on_obtained level flush s0 k)).
  { intros s0 M. unfold on_obtained.
    assert (g : G' true true (set_locked true level s0)) by (unfold G'; fin).
    destruct flush; [|apply (F (set_locked true level s0)), g].
    unfold zpermRead. destruct (d_writing _); [apply (F (set_locked true level s0)), g|].
    cbn. intros h. apply (F (set_hdr h (set_locked true level s0))).
    unfold G'; fin. }
  assert (W : forall s0, d_locked s0 = false -> inv s0 -> (d_mode s = MULTI_USER_ACCESS -> d_mode s0 = MULTI_USER_ACCESS) ->
    excl false (on_wait level flush s0 k)).
  { intros s0 L I0 M. cbn. split; [reflexivity|split; [apply O, M|]]. rewrite <- L. apply K. unfold G'. fin. }
  assert (A : forall s0, inv s0 -> d_locked s0 = d_locked s -> (d_mode s = MULTI_USER_ACCESS -> d_mode s0 = MULTI_USER_ACCESS) ->
     (d_mode s0 = SINGLE_USER_ADVISORY_ACCESS -> pid_excl pidU) -> excl (d_locked s0) (on_acquire pidU level flush s0 k)).
  { intros s0 I0 L0 M P0. unfold on_acquire. destruct (d_locked s0) eqn:L.
    { rewrite <- L. apply F. unfold G'. fin. }
    destruct (d_mode s0 =? EXCLUSIVE_ACCESS).
    - cbn [excl]. intros []; [rewrite <- L; apply K; unfold G'; fin|apply W; auto].
    - cbn. split; [reflexivity|split; [apply O, M|]]. intros []; [rewrite <- L; apply K; unfold G'; fin|].
      destruct (Z.eqb_spec (d_mode s0) SINGLE_USER_ADVISORY_ACCESS) as [E3|E3]; [|apply (W s0 L); auto].
      rewrite <- L. apply (P0 E3 (set_mode MULTI_USER_ACCESS s0)); [reflexivity|exact I0|].
      cbn. intros s1 M1 L1 I1. rewrite L1, L. apply W; auto. congruence. }
  assert (C : forall s0, inv s0 -> d_locked s0 = d_locked s -> d_mode s0 = d_mode s -> excl (d_locked s0) (on_check pidU level flush s0 k)).
  { intros s0 I0 L0 M. unfold on_check. destruct (Z.eqb_spec (d_mode s0) SINGLE_USER_ADVISORY_ACCESS) as [E3|E3].
    - cbn. intros []; [|apply A; auto; [congruence|rewrite M; exact P]].
      apply (P ltac:(congruence) (set_mode MULTI_USER_ACCESS s0)); [reflexivity|exact I0|]. intros s1 M1 L1 I1. apply A; auto; [cbn in *; congruence|].
      rewrite M1. discriminate.
    - apply A; auto; [congruence|contradiction]. }
  destruct (d_passive s); [apply C; auto|]. cbn. intros b. apply (C (set_passive b s)); auto.
Qed.

Lemma excl_pid : pid_excl (@zpidUpdate H).
Proof.
  intros s k M I G. unfold zpidUpdate. destruct (d_pid s); [|apply G; auto].
  destruct (d_locked s) eqn:L.
  - rewrite <- L. apply excl_zput; [exact I|]. intros b s' I' L' M' _. apply (G (set_writing (d_writing s) s')); cbn; congruence || auto.
  - unfold lock_active at 1. rewrite (I L). cbn [Z.ltb Z.compare LOCKING_LEVEL_LOW]. rewrite <- L at 1. apply excl_on; [rewrite M; discriminate|exact I|].
    intros got s1 I1 M1 L1 V1. specialize (M1 M). specialize (L1 L).
    destruct got; [|apply G; auto; congruence].
    apply excl_zput; [exact I1|]. intros b s2 I2 L2 M2 V2.
    change (excl (d_locked (set_writing (d_writing s1) s2)) (lock_active (fun s k => k s) LOCKING_LEVEL_LOW false true (set_writing (d_writing s1) s2) (fun (_ : bool) s3 => k s3))).
    assert (EV : d_level (set_writing (d_writing s1) s2) = LOCKING_LEVEL_LOW) by (cbn; rewrite V2; apply V1; auto).
    unfold lock_active. rewrite EV, Z.ltb_irrefl. apply excl_off. intros s3 U I3. cbn in U.
    destruct U as [U1 U2]; [congruence|]. apply G; auto; congruence.
Qed.

Lemma excl_active level on flush (s : hd H) k : inv s -> good2 k -> excl (d_locked s) (zlockActive level on flush s k).
Proof.
  intros I G. unfold zlockActive, lock_active. destruct (level <? d_level s); [apply G, I|].
  destruct on; [apply excl_on; auto using excl_pid|apply excl_off; intros; apply G; auto].
Qed.

Lemma excl_call (o : op H) s : inv s -> excl (d_locked s) (call o s).
Proof.
  intros I. destruct o as [l fl|l fl|f| |]; cbn [call].
  1,2: apply excl_active; auto; intros b s' I'; cbn; auto.
  - destruct (d_locked s) eqn:L; cbn; rewrite ?L; auto.
  - unfold zcheckMultiUser. destruct (_ && _); [|cbn; auto]. cbn. intros []; [|cbn; auto].
    apply (excl_pid (set_mode MULTI_USER_ACCESS s)); [reflexivity|exact I|]. intros s' M L I'. destruct (_ && _); [|cbn; auto].
    apply excl_active; auto; intros b s'' I''; cbn; auto.
  - apply excl_permRead; auto. intros s' I'; cbn; auto.
Qed.
End Excl.

(** ** The system *)
Section Sys.
Context {H : Type} (proc : nat -> nat).

Lemma nth_replace {A} (l : list A) i x j : nth_error (replace l i x) j =
  if Nat.eqb i j then match nth_error l j with Some _ => Some x | None => None end else nth_error l j.
Proof.
  revert i j. induction l as [|a l IH]; intros [|i] [|j]; cbn; auto. destruct (Nat.eqb i j); reflexivity.
Qed.
Lemma length_replace {A} (l : list A) i x : List.length (replace l i x) = List.length l.
Proof. revert i. induction l as [|a l IH]; intros [|i]; cbn; auto. Qed.

Definition owns (y : sys H) (i : nat) : bool := match y_owner y with Some p => Nat.eqb p (proc i) | None => false end.
Definition okSys (y : sys H) : Prop :=
  forall i a, nth_error (y_handles y) i = Some a -> excl (owns y i) (a_cur a).

Lemma okSys_step y i b y' : separate proc (List.length (y_handles y)) -> okSys y -> step proc y i b = Some y' ->
  okSys y' /\ List.length (y_handles y') = List.length (y_handles y).
Proof.
  intros Sep OK. unfold step. destruct (nth_error (y_handles y) i) as [a|] eqn:Ea; [|discriminate].
  assert (LI : (i < List.length (y_handles y))%nat) by (apply nth_error_Some; congruence).
  pose proof (OK i a Ea) as Oa.
  (* a move of handle i that changes the program and the owner *)
  assert (G : forall c dk ow lg,
    (forall j, j <> i -> (j < List.length (y_handles y))%nat -> match ow with Some p => Nat.eqb p (proc j) | None => false end = owns y j) ->
    excl (match ow with Some p => Nat.eqb p (proc i) | None => false end) (a_cur c) ->
    okSys (mksys (replace (y_handles y) i c) dk ow lg) /\ List.length (replace (y_handles y) i c) = List.length (y_handles y)).
  { intros c dk ow lg Ho Hc. split; [|apply length_replace]. intros j a' Ej. cbn in Ej. rewrite nth_replace in Ej.
    destruct (Nat.eqb_spec i j) as [<-|N].
    - rewrite Ea in Ej. injection Ej as <-. exact Hc.
    - assert (j < List.length (y_handles y))%nat by (apply nth_error_Some; congruence).
      unfold owns at 1. cbn. rewrite Ho by auto. apply (OK j _ Ej). }
  assert (S : forall j, j <> i -> (j < List.length (y_handles y))%nat -> Nat.eqb (proc i) (proc j) = false).
  { intros j N L. apply Nat.eqb_neq. intro E. apply N. symmetry. apply Sep; auto. }
  destruct (a_cur a) as [s|k|k|k|k|h k|k|f k] eqn:Ec; cbn in Oa.
  - destruct (a_ops a) as [|o rest]; [discriminate|]. intros [= <-]. apply G; [reflexivity|].
    cbn. destruct Oa as [Ol I]. change (excl (owns y i) (call o s)). rewrite <- Ol. apply excl_call, I.
  - destruct Oa as (Ow & O1 & O2). unfold may_lock.
    destruct (b && _) eqn:Eb; intros [= <-]; apply G; cbn.
    + intros j N L. rewrite S by auto. unfold owns in *. destruct (y_owner y) as [p|]; [|reflexivity].
      apply andb_true_iff in Eb. destruct Eb as [_ Eb]. rewrite Eb in Ow. discriminate.
    + rewrite Nat.eqb_refl. exact O1.
    + reflexivity.
    + unfold owns in Ow. rewrite Ow. exact O2.
  - destruct Oa as (Ow & O1). unfold may_lock. unfold owns in Ow. destruct (y_owner y) as [p|] eqn:Eo; [|discriminate].
    rewrite Ow. intros [= <-]; apply G; cbn; [|exact O1].
    intros j N L. unfold owns. rewrite Eo. apply Nat.eqb_eq in Ow. subst p. rewrite S; auto.
  - intros [= <-]; apply G; [reflexivity|apply Oa].
  - intros [= <-]; apply G; [reflexivity|apply Oa].
  - intros [= <-]; apply G; [reflexivity|apply Oa].
  - intros [= <-]; apply G; [reflexivity|apply Oa].
  - intros [= <-]; apply G; [reflexivity|apply Oa].
Qed.

Lemma okSys_run sched y : separate proc (List.length (y_handles y)) -> okSys y -> okSys (run proc sched y).
Proof.
  revert y. induction sched as [|[i b] t IH]; intros y Sep OK; cbn; [exact OK|].
  destruct (step proc y i b) as [y'|] eqn:E; [|apply IH; auto].
  destruct (okSys_step _ _ _ _ Sep OK E) as [OK' L]. apply IH; auto. rewrite L. exact Sep.
Qed.
Lemma okSys_start hs disk : okSys (start hs disk).
Proof.
  intros i a E. cbn in E. rewrite nth_error_map in E. destruct (nth_error hs i) as [[[m h] ops]|]; [|discriminate].
  injection E as <-. cbn. split; [reflexivity|]. intros _. reflexivity.
Qed.

(** Whatever calls the handles of different processes make, in whatever interleaving, a handle that is about to write
    to the file holds the file's lock; so two handles never write in each other's sections. *)
Theorem C30_writers_exclude (hs : list (Z * H * list (op H))) (disk : H) sched i a :
  separate proc (List.length hs) ->
  nth_error (y_handles (run proc sched (start hs disk))) i = Some a -> writes (a_cur a) = true ->
  y_owner (run proc sched (start hs disk)) = Some (proc i).
Proof.
  intros Sep Ea W. assert (Sep' : separate proc (List.length (y_handles (@start H hs disk)))) by (cbn; rewrite map_length; exact Sep).
  pose proof (okSys_run sched _ Sep' (okSys_start hs disk) i a Ea) as O.
  assert (X : owns (run proc sched (start hs disk)) i = true) by (destruct (a_cur a); try discriminate; apply O).
  unfold owns in X. destruct (y_owner _) as [p|]; [|discriminate]. apply Nat.eqb_eq in X. subst. reflexivity.
Qed.
(** ... and between its calls a handle believes it has the lock exactly when it has it. *)
Theorem C30_locked_means_owner (hs : list (Z * H * list (op H))) (disk : H) sched i a s :
  separate proc (List.length hs) ->
  nth_error (y_handles (run proc sched (start hs disk))) i = Some a -> a_cur a = Done s ->
  (d_locked s = true <-> y_owner (run proc sched (start hs disk)) = Some (proc i)).
Proof.
  intros Sep Ea W. assert (Sep' : separate proc (List.length (y_handles (@start H hs disk)))) by (cbn; rewrite map_length; exact Sep).
  pose proof (okSys_run sched _ Sep' (okSys_start hs disk) i a Ea) as O. rewrite W in O. destruct O as [-> _].
  unfold owns. destruct (y_owner _) as [p|]; [|split; discriminate]. rewrite Nat.eqb_eq. split; congruence.
Qed.
End Sys.
