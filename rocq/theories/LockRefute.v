(** * C30: cases and counterexamples (LockModel.v). *)
From Coq Require Import ZArith List Bool Lia.
From Verif Require Import LockModel LockProps LockLost.
Import ListNotations.
Open Scope Z_scope.

(** headers are lists of changes here; a change adds a number at the end *)
Definition chg (n : Z) : op (list Z) := Change (fun l => l ++ [n]).
Definition on := On (H := list Z) LOCKING_LEVEL_HIGH true.
Definition off := Off (H := list Z) LOCKING_LEVEL_HIGH true.
Definition moves (i n : nat) (b : bool) : list (nat * bool) := repeat (i, b) n.
(** what can be seen: the header in the file, the owner, the changes made (by whom, and the header they make from an
    empty one) and, for each handle between calls, whether it is locked, its level and its header *)
Definition seen (y : sys (list Z)) :=
  (y_disk y, y_owner y, map (fun c => (fst c, snd c [])) (y_log y),
   map (fun a => match a_cur a with Done s => Some (d_locked s, d_level s, d_hdr s, List.length (a_ops a)) | _ => None end) (y_handles y)).
Definition two m1 o1 m2 o2 := start [(m1, [0], o1); (m2, [0], o2)] [0].

(** Two writers of different processes: the first asks for the lock while the second has it, waits, and then makes its
    change to the header with the other's change in it. *)
Definition ok_sched : list (nat * bool) :=
  moves 0 2 true ++ moves 1 8 true ++ moves 0 1 true ++ moves 0 1 false ++ moves 1 3 true ++ moves 0 30 true.
Example C30_example : seen (run (fun i => i) ok_sched (two 2 [on; chg 1; off] 2 [on; chg 2; off])) =
  ([0; 2; 1], None, [(1%nat, [2]); (0%nat, [1])],
   [Some (false, 0, [0; 2; 1], 0%nat); Some (false, 0, [0; 2], 0%nat)]).
Proof. vm_compute. reflexivity. Qed.

(** The same in SINGLE_USER_ADVISORY_ACCESS mode (the default): the first writer keeps the lock after its section, the
    second cannot have it until the first is told that there is another one. *)
Example C30_advisory_example :
  seen (run (fun i => i) (moves 0 3 false ++ moves 0 8 true ++ moves 1 11 true) (two 3 [on; chg 1; off; on; chg 2; off] 3 [on; chg 3; off])) =
  ([0; 1], Some 0%nat, [(0%nat, [1])], [Some (true, 0, [0; 1], 3%nat); Some (false, 0, [0; 3], 0%nat)]) /\
  seen (run (fun i => i) (moves 0 3 false ++ moves 0 8 true ++ moves 0 17 true ++ moves 1 30 true) (two 3 [on; chg 1; off; on; chg 2; off] 3 [on; chg 3; off])) =
  ([0; 1; 2; 3], None, [(0%nat, [1]); (0%nat, [2]); (1%nat, [3])],
   [Some (false, 0, [0; 1; 2], 0%nat); Some (false, 0, [0; 1; 2; 3], 0%nat)]).
Proof. vm_compute. auto. Qed.
Example C30_flushes_example : forall m h ops o, In (m, h, ops) [(2, [0], [on; chg 1; off]); (2, [0], [on; chg 2; off])] -> In o ops -> flushes o.
Proof. cbn. intros m h ops o [[= <- <- <-]|[[= <- <- <-]|[]]] [<-|[<-|[<-|[]]]]; cbn; auto. Qed.
Example C30_separate_example : separate (fun i => i) 2.
Proof. intros i j _ _ E. exact E. Qed.

(** ** What fails *)
(** Without [flushes]: a section that has written and ends in an error (LOCK_OFF with LOCKING_FLUSH_OFF, zwriteInternal.c:355
    after zwriteExisting.c:196-230) leaves kwritingNow set, the next LOCK_ON of the handle does not read the header
    again, and a change made by another process in between is overwritten. *)
Theorem C30_error_path_loses_update_refuted :
  ~ (forall (hs : list (Z * list Z * list (op (list Z)))) (disk : list Z) sched,
       let y := run (fun i => i) sched (start hs disk) in y_owner y = None -> y_disk y = all_changes disk (y_log y)).
Proof.
  intros A. specialize (A [(2, [0], [on; chg 1; Off LOCKING_LEVEL_HIGH false; on; chg 2; off]); (2, [0], [on; chg 3; off])] [0]
    (moves 0 10 true ++ moves 1 11 true ++ moves 0 30 true)).
  vm_compute in A. specialize (A eq_refl). discriminate.
Qed.
(** ... and the two make their changes to the same header ([0; 1] and [0] are both current for their handle): the same
    place in the file can be given to both. *)
Example C30_error_path_state :
  seen (run (fun i => i) (moves 0 10 true ++ moves 1 11 true ++ moves 0 30 true)
    (two 2 [on; chg 1; Off LOCKING_LEVEL_HIGH false; on; chg 2; off] 2 [on; chg 3; off])) =
  ([0; 1; 2], None, [(0%nat, [1]); (1%nat, [3]); (0%nat, [2])], [Some (false, 0, [0; 1; 2], 0%nat); Some (false, 0, [0; 3], 0%nat)]).
Proof. vm_compute. reflexivity. Qed.
(** Without [separate]: two handles of one process (lockf locks belong to the process) exclude nobody. *)
Theorem C30_same_process_refuted :
  ~ (forall (hs : list (Z * list Z * list (op (list Z)))) (disk : list Z) sched,
       (forall m h ops o, In (m, h, ops) hs -> In o ops -> flushes o) ->
       let y := run (fun _ => 0%nat) sched (start hs disk) in y_owner y = None -> y_disk y = all_changes disk (y_log y)).
Proof.
  intros A. specialize (A [(2, [0], [on; chg 1; off]); (2, [0], [on; chg 2; off])] [0]
    (moves 0 8 true ++ moves 1 11 true ++ moves 0 30 true) C30_flushes_example).
  vm_compute in A. specialize (A eq_refl). discriminate.
Qed.
(** A section does not keep its lock until its own LOCK_OFF: a nested section at the same level releases it, and what the
    outer section writes next is refused. *)
Theorem C30_nested_section_refuted :
  seen (run (fun i => i) (moves 0 30 true) (two 2 [on; on; off; chg 1] 2 [])) =
  ([0], None, [], [Some (false, 0, [0; 1], 0%nat); Some (false, 0, [0], 0%nat)]).
Proof. vm_compute. reflexivity. Qed.
(** ... and in advisory mode, from the second section of a handle on, zcheckMultiUser (called by every check of a record)
    releases the lock inside the section when another process has appeared: what the section writes next is refused. *)
Theorem C30_advisory_section_refuted :
  let sec := moves 0 3 false ++ moves 0 9 true ++ moves 0 2 false in
  seen (run (fun i => i) sec (two 3 [on; chg 1; off; on] 3 [])) =
    ([0; 1], Some 0%nat, [(0%nat, [1])], [Some (true, 0, [0; 1], 0%nat); Some (false, 0, [0], 0%nat)]) /\
  seen (run (fun i => i) (sec ++ moves 0 20 true) (two 3 [on; chg 1; off; on; Check; chg 2] 3 [])) =
    ([0; 1], None, [(0%nat, [1])], [Some (false, 0, [0; 1; 2], 0%nat); Some (false, 0, [0], 0%nat)]).
Proof. vm_compute. auto. Qed.

Print Assumptions C30_writers_exclude.
Print Assumptions C30_locked_means_owner.
Print Assumptions C30_no_lost_update.
Print Assumptions C30_locked_sees_all.
Print Assumptions C30_error_path_loses_update_refuted.
Print Assumptions C30_same_process_refuted.
Print Assumptions C30_nested_section_refuted.
Print Assumptions C30_advisory_section_refuted.
