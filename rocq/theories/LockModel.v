(** * Model of file locking between handles (Internal/zlockActive.c, zpermRead.c, zpermWrite.c, zpidWrite.c,
      zcheckMultiUser.c, the lock test of zput.c, System/zlockdss.c).
    Any number of handles run in any interleaving of their accesses to the shared file: taking and releasing the lock
    word, reading and writing the file header, writing other words.  The header is an abstract value of type [H].
    Not modelled: modes below MULTI_USER_ACCESS (no OS lock) and RELEASE_ACCESS, files without lock arrays
    (zlockingOld.c), failures of the disk, and the number of attempts (several attempts are one, which may fail). *)
From Coq Require Import ZArith List Bool Lia.
Import ListNotations.
Open Scope Z_scope.

(** headers/hecdss7.h:32-34 *)
Definition MULTI_USER_ACCESS := 2. Definition SINGLE_USER_ADVISORY_ACCESS := 3. Definition EXCLUSIVE_ACCESS := 4.
(** headers/zdssLocking.h:16-19 *)
Definition LOCKING_LEVEL_LOW := 1. Definition LOCKING_LEVEL_MID := 2. Definition LOCKING_LEVEL_HIGH := 3.

Section Locks.
Context {H : Type}.

(** What a handle keeps (ifltab: kmultiUserAccess, klocked, klockLevel, kwritingNow, kfileWritten,
    klockWriteMyAddress <> 0, kpidMyAddress <> 0, and the file header in memory). *)
Record hd := mkhd { d_mode : Z; d_locked : bool; d_level : Z; d_writing : bool; d_written : bool; d_passive : bool;
                    d_pid : bool; d_hdr : H }.
Definition set_mode m s := mkhd m (d_locked s) (d_level s) (d_writing s) (d_written s) (d_passive s) (d_pid s) (d_hdr s).
Definition set_locked b l s := mkhd (d_mode s) b l (d_writing s) (d_written s) (d_passive s) (d_pid s) (d_hdr s).
Definition set_writing b s := mkhd (d_mode s) (d_locked s) (d_level s) b (d_written s) (d_passive s) (d_pid s) (d_hdr s).
Definition set_written b s := mkhd (d_mode s) (d_locked s) (d_level s) (d_writing s) b (d_passive s) (d_pid s) (d_hdr s).
Definition set_passive b s := mkhd (d_mode s) (d_locked s) (d_level s) (d_writing s) (d_written s) b (d_pid s) (d_hdr s).
Definition set_pid b s := mkhd (d_mode s) (d_locked s) (d_level s) (d_writing s) (d_written s) (d_passive s) b (d_hdr s).
Definition set_hdr h s := mkhd (d_mode s) (d_locked s) (d_level s) (d_writing s) (d_written s) (d_passive s) (d_pid s) h.

(** A call, as the sequence of its accesses to what is shared. *)
Inductive prog :=
| Done (s : hd)
| Lock (k : bool -> prog)          (* zlockDss modes 1 and 2 on the primary lock word: granted or not *)
| Unlock (k : prog)                (* zlockDss mode 0 on it *)
| Ask (k : bool -> prog)           (* tests of the other lock words: any answer *)
| ReadH (k : H -> prog)            (* the file header is read *)
| WriteH (h : H) (k : prog)        (* the file header is written *)
| Data (k : prog)                  (* other words are written, without a change of the header *)
| Update (f : H -> H) (k : prog).  (* words are written for a change [f] of the header in memory *)

(** Internal/zput.c:80-84, 149-150 for words other than the header *)
Definition zput (s : hd) (k : bool -> hd -> prog) : prog :=
  if d_locked s then Data (k true (set_writing true (set_written true s))) else k false s.
(** Internal/zpermRead.c:52-74 *)
Definition zpermRead (s : hd) (k : hd -> prog) : prog :=
  if d_writing s then k s else ReadH (fun h => k (set_hdr h s)).
(** Internal/zpermWrite.c:45-50 (through zput) *)
Definition zpermWrite (s : hd) (k : hd -> prog) : prog :=
  if d_locked s then WriteH (d_hdr s) (k (set_writing true (set_written true s))) else k s.

(** Internal/zlockActive.c:393-442: LOCK_OFF *)
(** 419-432; zflushToDisk.c:71 clears kwritingNow *)
Definition off_unlock (flush : bool) (s : hd) (k : hd -> prog) : prog :=
  if d_mode s =? MULTI_USER_ACCESS then
    let s := if flush then set_writing false s else s in
    Unlock (k (set_locked false (d_level s) s))
  else k s.
Definition lock_off (flush : bool) (s : hd) (k : hd -> prog) : prog :=
  let s := set_locked (d_locked s) 0 s in
  if d_locked s then
    if flush && d_writing s then zpermWrite s (fun s => off_unlock flush (set_writing false s) k)
    else off_unlock flush s k
  else k s.

(** Internal/zlockActive.c:196-387: LOCK_ON.  [pidUpdate] is zpidUpdate and [k] gets whether the lock was obtained. *)
(** 384-386: zpidWrite.c:61-114 with the file locked; the pid array may be full *)
Definition on_finish (s : hd) (k : bool -> hd -> prog) : prog :=
  if d_pid s then k true s
  else Ask (fun got => if got then zput (set_pid true s) (fun _ s => k true s) else k true s).
(** 371-381 *)
Definition on_obtained (level : Z) (flush : bool) (s : hd) (k : bool -> hd -> prog) : prog :=
  let s := set_locked true level s in
  if flush then zpermRead s (fun s => on_finish s k) else on_finish s k.
(** 340-367: the last attempt *)
Definition on_wait (level : Z) (flush : bool) (s : hd) (k : bool -> hd -> prog) : prog :=
  Lock (fun got => if got then on_obtained level flush s k else k false s).
(** 244-367 *)
Definition on_acquire (pidUpdate : hd -> (hd -> prog) -> prog) (level : Z) (flush : bool) (s : hd) (k : bool -> hd -> prog) : prog :=
  if d_locked s then on_finish s k
  else if d_mode s =? EXCLUSIVE_ACCESS then
    Ask (fun readers => if readers then k false s else on_wait level flush s k)
  else
    Lock (fun got =>
      if got then on_obtained level flush s k
      else Ask (fun denied =>
        if denied then k false s
        else if d_mode s =? SINGLE_USER_ADVISORY_ACCESS
             then pidUpdate (set_mode MULTI_USER_ACCESS s) (fun s => on_wait level flush s k)
             else on_wait level flush s k)).
(** 207-219 *)
Definition on_check (pidUpdate : hd -> (hd -> prog) -> prog) (level : Z) (flush : bool) (s : hd) (k : bool -> hd -> prog) : prog :=
  if d_mode s =? SINGLE_USER_ADVISORY_ACCESS then
    Ask (fun others =>
      if others then pidUpdate (set_mode MULTI_USER_ACCESS s) (fun s => on_acquire pidUpdate level flush s k)
      else on_acquire pidUpdate level flush s k)
  else on_acquire pidUpdate level flush s k.
(** 200-202, then the above *)
Definition lock_on (pidUpdate : hd -> (hd -> prog) -> prog) (level : Z) (flush : bool) (s : hd) (k : bool -> hd -> prog) : prog :=
  if d_passive s then on_check pidUpdate level flush s k
  else Ask (fun got => on_check pidUpdate level flush (set_passive got s) k).

(** Internal/zlockActive.c:178-185 around both *)
Definition lock_active pidUpdate (level : Z) (on flush : bool) (s : hd) (k : bool -> hd -> prog) : prog :=
  if level <? d_level s then k true s
  else if on then lock_on pidUpdate level flush s k else lock_off flush s (k true).

(** Internal/zpidWrite.c:124-160 zpidUpdate; it is only called in MULTI_USER_ACCESS mode, where zlockActive does not
    call it again. *)
Definition zpidUpdate (s : hd) (k : hd -> prog) : prog :=
  if d_pid s then
    let none (s : hd) (k : hd -> prog) := k s in
    let write s k := zput s (fun _ s' => k (set_writing (d_writing s) s')) in
    if d_locked s then write s k
    else lock_active none LOCKING_LEVEL_LOW true false s
      (fun got s => if got then write s (fun s => lock_active none LOCKING_LEVEL_LOW false true s (fun _ s => k s)) else k s)
  else k s.
(** Internal/zlockActive.c:136-482 *)
Definition zlockActive := lock_active zpidUpdate.

(** Internal/zcheckMultiUser.c:59-89 (called by zcheckInternal.c:113) *)
Definition zcheckMultiUser (s : hd) (k : hd -> prog) : prog :=
  if (d_mode s =? SINGLE_USER_ADVISORY_ACCESS) && d_written s then
    Ask (fun others =>
      if others then
        zpidUpdate (set_mode MULTI_USER_ACCESS s) (fun s =>
          if d_locked s && negb (d_writing s) then zlockActive 0 false true s (fun _ s => k s) else k s)
      else k s)
  else k s.

(** What the library's functions do with a handle. *)
Inductive op :=
| On (level : Z) (flush : bool)     (* zlockActive(.., LOCK_ON, ..) *)
| Off (level : Z) (flush : bool)    (* zlockActive(.., LOCK_OFF, ..) *)
| Change (f : H -> H)               (* the header in memory is changed and words are written with zput *)
| Check                             (* zcheckMultiUser *)
| Refresh.                          (* zpermRead without a lock (zget.c:86, zcatalogInternal.c) *)

(** One call; a change when the file is not locked is refused by zput (80-84) after the header in memory has changed. *)
Definition call (o : op) (s : hd) : prog :=
  match o with
  | On l fl => zlockActive l true fl s (fun _ s => Done s)
  | Off l fl => zlockActive l false fl s (fun _ s => Done s)
  | Change f => if d_locked s then Update f (Done (set_hdr (f (d_hdr s)) (set_writing true (set_written true s))))
                else Done (set_hdr (f (d_hdr s)) s)
  | Check => zcheckMultiUser s Done
  | Refresh => zpermRead s Done
  end.

(** ** The whole system *)
(** Handles (the calls still to make and the call under way), the header on disk, which process has the lock word, and
    the changes made so far (with the handle), oldest first. *)
Record handle := mkhandle { a_ops : list op; a_cur : prog }.
Record sys := mksys { y_handles : list handle; y_disk : H; y_owner : option nat; y_log : list (nat * (H -> H)) }.

Fixpoint replace {A} (l : list A) (i : nat) (x : A) : list A :=
  match l, i with
  | [], _ => []
  | _ :: t, O => x :: t
  | a :: t, S j => a :: replace t j x
  end.

(** One access by handle [i]; [b] settles what is not determined (an answer, whether a lock that could be granted is).
    [proc] gives the process of a handle: lockf locks belong to processes (a lock held by the same process is granted). *)
Definition may_lock (proc : nat -> nat) (y : sys) (i : nat) : bool :=
  match y_owner y with None => true | Some p => Nat.eqb p (proc i) end.
Definition step (proc : nat -> nat) (y : sys) (i : nat) (b : bool) : option sys :=
  match nth_error (y_handles y) i with
  | None => None
  | Some a =>
    let go p := mksys (replace (y_handles y) i (mkhandle (a_ops a) p)) in
    match a_cur a with
    | Done s =>
      match a_ops a with
      | [] => None
      | o :: rest => Some (mksys (replace (y_handles y) i (mkhandle rest (call o s))) (y_disk y) (y_owner y) (y_log y))
      end
    | Lock k => if b && may_lock proc y i then Some (go (k true) (y_disk y) (Some (proc i)) (y_log y))
                else Some (go (k false) (y_disk y) (y_owner y) (y_log y))
    | Unlock k => Some (go k (y_disk y) (if may_lock proc y i then None else y_owner y) (y_log y))
    | Ask k => Some (go (k b) (y_disk y) (y_owner y) (y_log y))
    | ReadH k => Some (go (k (y_disk y)) (y_disk y) (y_owner y) (y_log y))
    | WriteH h k => Some (go k h (y_owner y) (y_log y))
    | Data k => Some (go k (y_disk y) (y_owner y) (y_log y))
    | Update f k => Some (go k (y_disk y) (y_owner y) (y_log y ++ [(i, f)]))
    end
  end.

(** A schedule is the list of who moves next; a move of a handle that has nothing to do is skipped. *)
Fixpoint run (proc : nat -> nat) (sched : list (nat * bool)) (y : sys) : sys :=
  match sched with
  | [] => y
  | (i, b) :: t => run proc t (match step proc y i b with Some y' => y' | None => y end)
  end.

(** Handles just opened in a mode, each with the header it read when it was opened (any header), and its calls. *)
Definition opened (mode : Z) (h : H) (ops : list op) : handle :=
  mkhandle ops (Done (mkhd mode false 0 false false false false h)).
Definition start (hs : list (Z * H * list op)) (disk : H) : sys :=
  mksys (map (fun x => opened (fst (fst x)) (snd (fst x)) (snd x)) hs) disk None [].
End Locks.
Arguments hd : clear implicits.
Arguments prog : clear implicits.
Arguments op : clear implicits.
Arguments sys : clear implicits.
Arguments handle : clear implicits.
