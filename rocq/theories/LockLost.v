(** * C30: no header update is lost when every section flushes (LockModel.v). *)
From Coq Require Import ZArith List Bool Lia.
From Verif Require Import LockModel LockProps.
Import ListNotations.
Open Scope Z_scope.

(** What a handle is entitled to assume: nothing, or that it holds the lock, that the header with all the changes is
    [t], and whether that is what is on the disk. *)
Inductive view (H : Type) := Out | Held (t : H) (synced : bool).
Arguments Out {H}. Arguments Held {H}.
Definition R {H} (v : view H) (s : hd H) : Prop :=
  match v with
  | Out => d_locked s = false /\ d_level s = 0 /\ d_writing s = false
  | Held t sy => d_locked s = true /\ d_hdr s = t /\ (d_writing s = false -> sy = true)
  end.
Fixpoint safe {H} (v : view H) (p : prog H) : Prop :=
  match p with
  | Done s => R v s
  | Lock k => v = Out /\ (forall t, safe (Held t true) (k true)) /\ safe Out (k false)
  | Unlock k => (exists t, v = Held t true) /\ safe Out k
  | Ask k => forall b, safe v (k b)
  | ReadH k => match v with Out => forall h, safe v (k h) | Held t sy => sy = true /\ safe v (k t) end
  | WriteH h k => match v with Out => False | Held t _ => h = t /\ safe (Held t true) k end
  | Data k => match v with Out => False | Held _ _ => safe v k end
  | Update f k => match v with Out => False | Held t _ => safe (Held (f t) false) k end
  end.

Section Safe.
Context {H : Type}.

Lemma safe_zput v (s : hd H) k : R v s ->
  (forall b s', R v s' -> d_mode s' = d_mode s -> d_locked s' = d_locked s -> safe v (k b s')) -> safe v (zput s k).
Proof.
  intros I G. unfold zput. destruct (d_locked s) eqn:E; [|apply G; auto].
  destruct v as [|t sy]; [destruct I; congruence|]. cbn. apply G; auto. destruct I as (?&?&?). repeat split; auto. discriminate.
Qed.
Lemma safe_permRead v (s : hd H) k : R v s ->
  (forall s', R v s' -> d_mode s' = d_mode s -> safe v (k s')) -> safe v (zpermRead s k).
Proof.
  intros I G. unfold zpermRead. destruct (d_writing s) eqn:W; [apply G; auto|]. destruct v as [|t sy]; cbn.
  - intros h. apply G; auto.
  - destruct I as (?&?&E). split; [apply E, W|]. apply G; auto. repeat split; auto.
Qed.
Lemma safe_off v (s : hd H) k : R v s ->
  (forall v' s', R v' s' -> (d_mode s = MULTI_USER_ACCESS -> v' = Out /\ d_mode s' = MULTI_USER_ACCESS) -> safe v' (k s')) ->
  safe v (lock_off true s k).
Proof.
  intros I G. unfold lock_off. cbn [d_locked set_locked]. destruct v as [|t sy].
  - destruct I as (L&V&W). rewrite L. apply G; [|auto]. repeat split; auto.
  - destruct I as (L&E&Y). rewrite L. cbn [andb].
    assert (U : forall s', d_locked s' = true -> d_level s' = 0 -> d_hdr s' = t -> d_mode s' = d_mode s -> safe (Held t true) (off_unlock true s' k)).
    { intros s' L' V' E' M. unfold off_unlock. destruct (Z.eqb_spec (d_mode s') MULTI_USER_ACCESS) as [EM|EM].
      - cbn. split; [eauto|]. apply G; [repeat split; auto|auto].
      - apply G; [repeat split; auto|rewrite <- M; intro; contradiction]. }
    cbn [d_writing set_locked].
    destruct (d_writing s) eqn:W.
    + unfold zpermWrite. cbn [d_locked set_locked]. cbn. split; [exact E|]. apply U; auto.
    + rewrite (Y eq_refl). apply U; auto.
Qed.

Lemma safe_finish v (s : hd H) k : R v s -> (forall s', R v s' -> safe v (k true s')) -> safe v (on_finish s k).
Proof.
  intros I G. unfold on_finish. destruct (d_pid s); [apply G, I|]. cbn. intros []; [|apply G, I].
  apply safe_zput; [destruct v; exact I|]. intros. apply G; auto.
Qed.
Definition pid_safe (p : hd H -> (hd H -> prog H) -> prog H) :=
  forall v s k, d_mode s = MULTI_USER_ACCESS -> R v s ->
    (forall v' s', d_mode s' = MULTI_USER_ACCESS -> d_locked s' = d_locked s -> R v' s' -> safe v' (k s')) -> safe v (p s k).

Lemma safe_pid : pid_safe (@zpidUpdate H).
Proof.
  intros v s k M I G. unfold zpidUpdate. destruct (d_pid s) eqn:PID; [|apply G; auto].
  destruct (d_locked s) eqn:L.
  - destruct v as [|t sy]; [destruct I; congruence|]. unfold zput. rewrite L. cbn.
    apply G; auto.
  - destruct v as [|t sy]; [|destruct I; congruence]. destruct I as (_&V&W).
    assert (N : forall s', d_mode s' = MULTI_USER_ACCESS -> d_locked s' = false -> d_level s' = 0 -> d_writing s' = false -> safe Out (k s')).
    { intros. apply G; [auto|congruence|repeat split; auto]. }
    assert (O : forall t s0, d_mode s0 = MULTI_USER_ACCESS -> d_writing s0 = false -> d_pid s0 = true ->
      safe (Held t true) (on_obtained LOCKING_LEVEL_LOW false s0 (fun (got : bool) s1 => if got then
        zput s1 (fun _ s' => lock_active (fun s2 k0 => k0 s2) LOCKING_LEVEL_LOW false true (set_writing (d_writing s1) s') (fun (_ : bool) s2 => k s2))
        else k s1))).
    { intros t s0 M0 W0 P0. unfold on_obtained, on_finish. cbn [d_pid set_locked]. rewrite P0. unfold zput. cbn.
      unfold lock_active. cbn. unfold lock_off. cbn. rewrite W0. cbn. unfold off_unlock. cbn. rewrite M0. cbn.
      split; [eauto|]. apply N; auto. }
    unfold lock_active at 1. rewrite V. cbn [Z.ltb Z.compare LOCKING_LEVEL_LOW]. unfold lock_on.
    assert (C : forall s0, d_mode s0 = MULTI_USER_ACCESS -> d_locked s0 = false -> d_level s0 = 0 -> d_writing s0 = false -> d_pid s0 = true ->
      safe Out (on_check (fun s2 k0 => k0 s2) LOCKING_LEVEL_LOW false s0 (fun (got : bool) s1 => if got then
        zput s1 (fun _ s' => lock_active (fun s2 k0 => k0 s2) LOCKING_LEVEL_LOW false true (set_writing (d_writing s1) s') (fun (_ : bool) s2 => k s2))
        else k s1))).
    { intros s0 M0 L0 V0 W0 P0. unfold on_check. rewrite M0. cbn [Z.eqb MULTI_USER_ACCESS SINGLE_USER_ADVISORY_ACCESS Pos.eqb].
      unfold on_acquire. rewrite L0, M0. cbn [Z.eqb MULTI_USER_ACCESS EXCLUSIVE_ACCESS SINGLE_USER_ADVISORY_ACCESS Pos.eqb].
      cbn [safe]. split; [reflexivity|]. split; [intros t; apply O; auto|]. intros []; [apply N; auto|].
      unfold on_wait. cbn [safe]. split; [reflexivity|]. split; [intros t; apply O; auto|apply N; auto]. }
    destruct (d_passive s); [apply C; auto|]. cbn [safe]. intros b. apply (C (set_passive b s)); auto.
Qed.

Lemma safe_on v level (s : hd H) k : R v s ->
  (forall b v' s', R v' s' -> safe v' (k b s')) -> safe v (lock_on zpidUpdate level true s k).
Proof.
  intros I G. unfold lock_on.
  assert (O : forall t s0, d_locked s0 = false -> d_writing s0 = false -> safe (Held t true) (on_obtained level true s0 k)).
  { intros t s0 L0 W0. unfold on_obtained, zpermRead. cbn [d_writing set_locked]. rewrite W0. cbn. split; [reflexivity|].
    apply safe_finish; [repeat split; auto|]. intros; apply G; auto. }
  assert (W : forall s0, R Out s0 -> safe Out (on_wait level true s0 k)).
  { intros s0 (L&V&W). unfold on_wait. cbn. split; [reflexivity|]. split; [intros t; apply O; auto|apply G; repeat split; auto]. }
  assert (A : forall v0 s0, R v0 s0 -> safe v0 (on_acquire zpidUpdate level true s0 k)).
  { intros v0 s0 I0. unfold on_acquire. destruct (d_locked s0) eqn:L; [apply safe_finish; auto|].
    destruct v0 as [|t sy]; [|destruct I0; congruence].
    destruct (d_mode s0 =? EXCLUSIVE_ACCESS).
    - cbn [safe]. intros []; [apply G; auto|apply W; auto].
    - cbn [safe]. split; [reflexivity|]. split; [intros t; apply O; auto; apply I0|]. intros []; [apply G; auto|].
      destruct (_ =? _); [|apply W; auto].
      apply (safe_pid Out (set_mode MULTI_USER_ACCESS s0)); [reflexivity|exact I0|]. intros v' s' _ L' I'. cbn in L'.
      destruct v' as [|t sy]; [apply W; auto|destruct I'; congruence]. }
  assert (C : forall v0 s0, R v0 s0 -> safe v0 (on_check zpidUpdate level true s0 k)).
  { intros v0 s0 I0. unfold on_check. destruct (_ =? _); [|apply A; auto]. cbn [safe]. intros []; [|apply A; auto].
    apply (safe_pid v0 (set_mode MULTI_USER_ACCESS s0)); [reflexivity|destruct v0; exact I0|]. intros; apply A; auto. }
  destruct (d_passive s); [apply C; auto|]. cbn [safe]. intros b. apply (C v (set_passive b s)). destruct v; exact I.
Qed.

Lemma safe_active v level on (s : hd H) k : R v s -> (forall b v' s', R v' s' -> safe v' (k b s')) ->
  safe v (zlockActive level on true s k).
Proof.
  intros I G. unfold zlockActive, lock_active. destruct (_ <? _); [apply G; auto|].
  destruct on; [apply safe_on; auto|apply safe_off; auto].
Qed.
Lemma safe_call v (o : op H) s : flushes o -> R v s -> safe v (call o s).
Proof.
  intros F I. destruct o as [l fl|l fl|f| |]; cbn [call]; cbn in F; subst.
  1,2: apply safe_active; auto.
  - destruct v as [|t sy]; destruct (d_locked s) eqn:L; [destruct I; congruence|apply I| |destruct I; congruence].
    cbn. destruct I as (?&<-&?). repeat split; auto; discriminate.
  - unfold zcheckMultiUser. destruct (_ && _); [|exact I]. cbn. intros []; [|exact I].
    apply (safe_pid v (set_mode MULTI_USER_ACCESS s)); [reflexivity|destruct v; exact I|]. intros v' s' M L I'.
    destruct (_ && _); [|exact I']. apply safe_active; auto.
  - apply safe_permRead; auto.
Qed.
End Safe.

Section Sys.
Context {H : Type} (proc : nat -> nat).

(** the views of the handles fit together and with the file *)
Definition fits (h0 : H) (y : sys H) (v : nat -> view H) : Prop :=
  let t := all_changes h0 (y_log y) in
  (forall i a, nth_error (y_handles y) i = Some a ->
     (forall o, In o (a_ops a) -> flushes o) /\ safe (v i) (a_cur a) /\
     (owns proc y i = false -> v i = Out) /\
     (owns proc y i = true -> exists sy, v i = Held t sy /\ (sy = true -> y_disk y = t))) /\
  (y_owner y = None -> y_disk y = t) /\
  (forall p, y_owner y = Some p -> exists i, p = proc i /\ (i < List.length (y_handles y))%nat).

Lemma fits_step h0 y i b y' v : separate proc (List.length (y_handles y)) -> fits h0 y v -> step proc y i b = Some y' ->
  (exists v', fits h0 y' v') /\ List.length (y_handles y') = List.length (y_handles y).
Proof.
  intros Sep (OK & ND & OW). unfold step. destruct (nth_error (y_handles y) i) as [a|] eqn:Ea; [|discriminate].
  assert (LI : (i < List.length (y_handles y))%nat) by (apply nth_error_Some; congruence).
  destruct (OK i a Ea) as (Fl & Sa & VOut & VHeld). set (t := all_changes h0 (y_log y)) in *.
  assert (G : forall c dk ow lg w,
    (forall j, j <> i -> (j < List.length (y_handles y))%nat -> match ow with Some p => Nat.eqb p (proc j) | None => false end = owns proc y j) ->
    (owns proc y i = true \/ (dk = y_disk y /\ lg = y_log y)) ->
    (forall o, In o (a_ops c) -> flushes o) -> safe w (a_cur c) ->
    match ow with
    | None => w = Out /\ dk = all_changes h0 lg
    | Some p => (p <> proc i -> w = Out /\ y_owner y = ow) /\ (p = proc i -> exists sy, w = Held (all_changes h0 lg) sy /\ (sy = true -> dk = all_changes h0 lg))
    end ->
    (exists v', fits h0 (mksys (replace (y_handles y) i c) dk ow lg) v') /\
    List.length (replace (y_handles y) i c) = List.length (y_handles y)).
  { intros c dk ow lg w Ho Hd Hf Hs Hw. split; [|apply length_replace].
    exists (fun j => if Nat.eqb j i then w else v j). unfold fits, owns. cbn. split; [|split].
    - intros j a' Ej. rewrite nth_replace in Ej. destruct (Nat.eqb_spec i j) as [<-|N].
      + rewrite Ea in Ej. injection Ej as <-. rewrite Nat.eqb_refl. split; [exact Hf|]. split; [exact Hs|].
        destruct ow as [p|]; [|destruct Hw; split; [auto|discriminate]]. destruct Hw as [W1 W2].
        destruct (Nat.eqb_spec p (proc i)); split; try discriminate; intros _; [apply W2; auto|apply W1; auto].
      + assert (LJ : (j < List.length (y_handles y))%nat) by (apply nth_error_Some; congruence).
        rewrite (proj2 (Nat.eqb_neq j i)) by auto. rewrite (Ho j) by auto.
        destruct (OK j a' Ej) as (A1 & A2 & A3 & A4). split; [exact A1|]. split; [exact A2|]. split; [exact A3|].
        intros Oj. destruct (A4 Oj) as (sy & E1 & E2).
        destruct Hd as [Oi|[-> ->]]; [|eauto].
        exfalso. unfold owns in Oi, Oj. destruct (y_owner y); [|discriminate]. apply Nat.eqb_eq in Oi, Oj. apply N. apply Sep; congruence.
    - intros ->. apply Hw.
    - intros p ->. destruct (Nat.eq_dec p (proc i)) as [->|Np]; [exists i; rewrite length_replace; auto|].
      destruct Hw as [W1 _]. destruct (W1 Np) as [_ Eo]. destruct (OW p Eo) as (j & ? & ?). exists j. rewrite length_replace. auto. }
  assert (S : forall j, j <> i -> (j < List.length (y_handles y))%nat -> Nat.eqb (proc i) (proc j) = false).
  { intros j N L. apply Nat.eqb_neq. intro E. apply N. symmetry. apply Sep; auto. }
  (* moves that leave the shared part alone *)
  assert (Q : forall c w, w = v i -> (forall o, In o (a_ops c) -> flushes o) -> safe w (a_cur c) ->
    (exists v', fits h0 (mksys (replace (y_handles y) i c) (y_disk y) (y_owner y) (y_log y)) v') /\
    List.length (replace (y_handles y) i c) = List.length (y_handles y)).
  { intros c w -> Hf Hs. apply (G c _ _ _ (v i)); auto. unfold owns in VOut, VHeld.
    destruct (y_owner y) as [p|]; [|auto]. split.
    - intros N. split; [apply VOut; apply Nat.eqb_neq; auto|reflexivity].
    - intros ->. apply VHeld, Nat.eqb_refl. }
  assert (HO : forall t' sy, v i = Held t' sy -> owns proc y i = true /\ t' = t /\ (sy = true -> y_disk y = t)).
  { intros t' sy E. destruct (owns proc y i); [|rewrite VOut in E by auto; discriminate].
    destruct VHeld as (sy' & E1 & E2); auto. rewrite E1 in E. injection E as -> ->. auto. }
  destruct (a_cur a) as [s|k|k|k|k|h k|k|f k] eqn:Ec; cbn in Sa.
  - destruct (a_ops a) as [|o rest] eqn:Eo; [discriminate|]. intros [= <-]. apply (Q _ (v i) eq_refl); cbn.
    + intros; apply Fl; right; auto.
    + apply safe_call; [apply Fl; left; auto|exact Sa].
  - destruct Sa as (Ev & O1 & O2). unfold may_lock.
    destruct (b && _) eqn:Eb; intros [= <-].
    + assert (Own0 : owns proc y i = false).
      { destruct (owns proc y i); auto. destruct VHeld as (? & E & _); auto. congruence. }
      assert (None0 : y_owner y = None).
      { apply andb_true_iff in Eb. destruct Eb as [_ Eb]. unfold owns in Own0. destruct (y_owner y); congruence. }
      apply (G _ _ _ _ (Held t true)); auto; cbn.
      * intros j N L. rewrite S by auto. unfold owns. rewrite None0. reflexivity.
      * split; [congruence|]. intros _. exists true. split; [reflexivity|auto].
    + apply (Q _ (v i) eq_refl); cbn; auto. rewrite Ev. exact O2.
  - destruct Sa as ((t' & Ev) & O1). destruct (HO _ _ Ev) as (Ow & -> & Ds). unfold may_lock. unfold owns in Ow.
    destruct (y_owner y) as [p|] eqn:Eo; [|discriminate]. rewrite Ow. intros [= <-].
    apply (G _ _ _ _ Out); auto; cbn.
    intros j N L. unfold owns. rewrite Eo. apply Nat.eqb_eq in Ow. subst p. rewrite S; auto.
  - intros [= <-]. apply (Q _ (v i) eq_refl); cbn; auto.
  - intros [= <-]. apply (Q _ (v i) eq_refl); cbn; auto. destruct (v i) as [|t' sy] eqn:Ev; [apply Sa|].
    destruct (HO _ _ eq_refl) as (_ & -> & Ds). destruct Sa as [-> Sa]. rewrite Ds by auto. exact Sa.
  - intros [= <-]. destruct (v i) as [|t' sy] eqn:Ev; [contradiction|]. destruct (HO _ _ eq_refl) as (Ow & -> & Ds). destruct Sa as [-> Sa].
    pose proof Ow as Ow'. unfold owns in Ow'. destruct (y_owner y) as [p|] eqn:Eo; [|discriminate]. apply Nat.eqb_eq in Ow'.
    apply (G _ _ _ _ (Held t true)); auto; cbn.
    + intros j _ _. unfold owns. rewrite Eo. reflexivity.
    + split; [congruence|]. intros _. exists true. auto.
  - intros [= <-]. apply (Q _ (v i) eq_refl); cbn; auto. destruct (v i); [contradiction|exact Sa].
  - intros [= <-]. destruct (v i) as [|t' sy] eqn:Ev; [contradiction|]. destruct (HO _ _ eq_refl) as (Ow & -> & Ds).
    pose proof Ow as Ow'. unfold owns in Ow'. destruct (y_owner y) as [p|] eqn:Eo; [|discriminate]. apply Nat.eqb_eq in Ow'.
    apply (G _ _ _ _ (Held (f t) false)); auto; cbn.
    + intros j _ _. unfold owns. rewrite Eo. reflexivity.
    + split; [congruence|]. intros _. exists false. split; [|discriminate]. unfold all_changes. rewrite fold_left_app. reflexivity.
Qed.

Lemma fits_run h0 sched y v : separate proc (List.length (y_handles y)) -> fits h0 y v -> exists v', fits h0 (run proc sched y) v'.
Proof.
  revert y v. induction sched as [|[i b] t IH]; intros y v Sep OK; cbn; [eauto|].
  destruct (step proc y i b) as [y'|] eqn:E; [|eapply IH; eauto].
  destruct (fits_step _ _ _ _ _ _ Sep OK E) as [[v' OK'] L]. eapply IH; eauto. rewrite L. exact Sep.
Qed.
Lemma fits_start (hs : list (Z * H * list (op H))) (disk : H) : (forall m h ops o, In (m, h, ops) hs -> In o ops -> flushes o) ->
  fits disk (start hs disk) (fun _ => Out).
Proof.
  intros F. unfold fits, owns. cbn. split; [|split; [reflexivity|discriminate]].
  intros i a E. rewrite nth_error_map in E. destruct (nth_error hs i) as [[[m h] ops]|] eqn:Ei; [|discriminate].
  apply nth_error_In in Ei. injection E as <-. cbn. repeat split; try discriminate. intros o Io. eapply F; eauto.
Qed.

(** Handles of different processes, every lock taken and released with its flush: whenever nobody holds the lock, the
    header in the file contains every change any of them has made. *)
Theorem C30_no_lost_update (hs : list (Z * H * list (op H))) (disk : H) sched :
  separate proc (List.length hs) -> (forall m h ops o, In (m, h, ops) hs -> In o ops -> flushes o) ->
  let y := run proc sched (start hs disk) in
  y_owner y = None -> y_disk y = all_changes disk (y_log y).
Proof.
  intros Sep F y Ow. assert (Sep' : separate proc (List.length (y_handles (start hs disk)))) by (cbn; rewrite map_length; exact Sep).
  destruct (fits_run disk sched _ _ Sep' (fits_start hs disk F)) as (v' & _ & N & _). apply N, Ow.
Qed.
(** ... a handle that has locked the file sees the header with every change made so far, so that its next change is made
    to that header; and when it is not in the middle of writing, that header is in the file. *)
Theorem C30_locked_sees_all (hs : list (Z * H * list (op H))) (disk : H) sched i a s :
  separate proc (List.length hs) -> (forall m h ops o, In (m, h, ops) hs -> In o ops -> flushes o) ->
  let y := run proc sched (start hs disk) in
  nth_error (y_handles y) i = Some a -> a_cur a = Done s -> d_locked s = true ->
  d_hdr s = all_changes disk (y_log y) /\ (d_writing s = false -> y_disk y = all_changes disk (y_log y)).
Proof.
  intros Sep F y Ea Ec L. assert (Sep' : separate proc (List.length (y_handles (start hs disk)))) by (cbn; rewrite map_length; exact Sep).
  destruct (fits_run disk sched _ _ Sep' (fits_start hs disk F)) as (v' & N & _). fold y in N.
  destruct (N i a Ea) as (_ & Sa & VO & VH). rewrite Ec in Sa. cbn in Sa.
  destruct (owns proc y i); [|rewrite VO in Sa by auto; destruct Sa; congruence].
  destruct VH as (sy & E & D); auto. rewrite E in Sa. destruct Sa as (_ & E1 & E2). auto.
Qed.
End Sys.
