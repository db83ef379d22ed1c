(** * Model of the file space allocator (Internal/zgetFileSpace.c, zreleaseFileSpace.c, zreclaimRead.c, zreclaimWrite.c,
      zreclaimSet.c) with space reclamation on.  FileModel.v has the allocator with reclamation off.
    The file is a function from word addresses to words.  Not modelled: failures of the disk (every address read or
    written by the allocator is in the file), messages, and kwritingNow/locks (LockModel.v). *)
From Coq Require Import ZArith List Bool Lia.
From Verif Require Import Base.
Import ListNotations.
Open Scope Z_scope.

(** Internal/zpermCreate.c:193-197 *)
Definition kreclaimSize := 1002. Definition kreclaimNumber := (kreclaimSize - 2) / 2. Definition kreclaimMin := 100.
Definition kreclaimMaxSegment := 20.
(** headers/zdssVals.h:90-92 RECLAIM_NONE, RECLAIM_EXCESS, RECLAIM_ALL *)
Definition RECLAIM_NONE := 1. Definition RECLAIM_EXCESS := 2. Definition RECLAIM_ALL := 3.

(** The words of the file and the header words used here: kfileSize, kdead, kreclaimTotal, kreclaimMaxAvailable,
    kreclaimTableAddress, kreclaimSegAvailableAdd, kreclaimSegNumber, kreclaimSegmentsUsed. *)
Record fs := mkfs { f_mem : Z -> Z; f_size : Z; f_dead : Z; f_total : Z; f_max : Z; f_table : Z; f_avail : Z; f_segno : Z; f_used : Z }.
Definition set_mem m s := mkfs m (f_size s) (f_dead s) (f_total s) (f_max s) (f_table s) (f_avail s) (f_segno s) (f_used s).
Definition set_size z s := mkfs (f_mem s) z (f_dead s) (f_total s) (f_max s) (f_table s) (f_avail s) (f_segno s) (f_used s).
Definition set_dead z s := mkfs (f_mem s) (f_size s) z (f_total s) (f_max s) (f_table s) (f_avail s) (f_segno s) (f_used s).
Definition set_total z s := mkfs (f_mem s) (f_size s) (f_dead s) z (f_max s) (f_table s) (f_avail s) (f_segno s) (f_used s).
Definition set_max z s := mkfs (f_mem s) (f_size s) (f_dead s) (f_total s) z (f_table s) (f_avail s) (f_segno s) (f_used s).
Definition set_seg a n s := mkfs (f_mem s) (f_size s) (f_dead s) (f_total s) (f_max s) (f_table s) a n (f_used s).
Definition set_used z s := mkfs (f_mem s) (f_size s) (f_dead s) (f_total s) (f_max s) (f_table s) (f_avail s) (f_segno s) z.

(** the reclaim array in memory, by index *)
Definition arr := Z -> Z.
Definition upd (a : arr) (i v : Z) : arr := fun j => if j =? i then v else a j.
(** zget / zput of one segment; zput with a negative count writes zeros (zput.c:108-121) *)
Definition read_seg (s : fs) (address : Z) : arr := fun j => f_mem s (address + j).
Definition write_seg (s : fs) (address : Z) (a : arr) : fs :=
  set_mem (fun x => if (address <=? x) && (x <? address + kreclaimSize) then a (x - address) else f_mem s x) s.
(** Internal/zreclaimWrite.c:29 *)
Definition zreclaimWrite (s : fs) (a : arr) : fs := write_seg s (f_avail s) a.

Definition iaddLoc := kreclaimSize - 1.

(** Internal/zreclaimRead.c:57-79, for i, i+1, .., inumber ([n] iterations are left); a segment is added at the end of
    the file when the chain is too short (66-78). *)
Fixpoint walk_release (n : nat) (s : fs) (i inumber address : Z) (a : arr) : fs * Z * arr :=
  match n with
  | O => (s, address, a)
  | S n' =>
    let a := read_seg s address in
    let address := if i <? inumber then a iaddLoc else address in
    if address =? 0 then
      let new := f_size s in
      let s := set_size (f_size s + kreclaimSize) s in
      let a := upd a iaddLoc new in
      let s := zreclaimWrite s a in
      let s := set_used (f_used s + 1) s in
      let s := write_seg s new (fun _ => 0) in
      walk_release n' (set_seg new (f_segno s) s) (i + 1) inumber new a
    else walk_release n' s (i + 1) inumber address a
  end.
(** Internal/zreclaimRead.c:99-112: the chain is not extended *)
Fixpoint walk_search (n : nat) (s : fs) (i inumber address : Z) (a : arr) : Z * option arr :=
  match n with
  | O => (address, Some a)
  | S n' =>
    let a := read_seg s address in
    let address := if i <? inumber then a iaddLoc else address in
    if address =? 0 then (0, None) else walk_search n' s (i + 1) inumber address a
  end.

(** Internal/zreclaimRead.c:43-86 (boolRelease) above RECLAIM_NONE; also returns the new *iarrayNumber *)
Definition read_release (s : fs) (inumber : Z) : fs * Z * option arr :=
  if (inumber =? 0) || (inumber =? f_segno s) then (s, f_segno s, Some (read_seg s (f_avail s)))
  else if inumber <? kreclaimMaxSegment then
    let '(s, address, a) := walk_release (Z.to_nat (inumber + 1)) s 0 inumber (f_table s) (fun _ => 0) in
    (set_seg address inumber s, inumber, Some a)
  else (s, inumber, None).
(** Internal/zreclaimRead.c:87-116 *)
Definition read_search (s : fs) (inumber : Z) : fs * option arr :=
  if inumber =? 0 then (set_seg (f_table s) (f_segno s) s, Some (read_seg s (f_table s)))
  else
    let '(address, a) := walk_search (Z.to_nat (inumber + 1)) s 0 inumber (f_table s) (fun _ => 0) in
    (set_seg address inumber s, a).

(** Internal/zgetFileSpace.c:83-94: i, i+1, .. ([n] entries are left) *)
Fixpoint best_fit (n : nat) (a : arr) (need i have loc : Z) : Z * Z :=
  match n with
  | O => (have, loc)
  | S n' =>
    let v := a (2 * i) in
    if (v >=? need) && ((have =? 0) || (v <? have)) then
      if wrap32 v =? need then (wrap32 v, i) else best_fit n' a need (i + 1) (wrap32 v) i
    else best_fit n' a need (i + 1) have loc
  end.
(** Internal/zgetFileSpace.c:77-120; [None]: the loop does not end.  The result is 0 if there is no space. *)
Fixpoint search (fuel : nat) (s : fs) (need inumber : Z) : option (fs * Z) :=
  match fuel with
  | O => None
  | S fuel' =>
    match read_search s inumber with
    | (s, None) => Some (s, 0)
    | (s, Some a) =>
      let '(have, loc) := best_fit (Z.to_nat kreclaimNumber) a need 0 0 0 in
      if have >? 0 then
        let ipos := 2 * loc in
        let address := a (ipos + 1) in
        let diff := have - need in
        let a := if diff >? kreclaimMin then upd (upd a ipos diff) (ipos + 1) (address + need)
                 else upd (upd a ipos 0) (ipos + 1) 0 in
        let s := set_dead (f_dead s - need) s in
        let s := set_total (Z.max 0 (f_total s - need)) s in
        Some (zreclaimWrite s a, address)
      else search fuel' s need (inumber + 1)
    end
  end.
Definition search_fuel : nat := 30.
(** Internal/zgetFileSpace.c:51-151; the address of the space *)
Definition zgetFileSpace (level : Z) (s : fs) (need : Z) (reclaimedOK : bool) : option (fs * Z) :=
  let ok := reclaimedOK && negb (level <=? 1) in
  let r := if ok && (kreclaimSize >? 0) && (need >=? kreclaimMin) && (need <=? f_max s)
           then search search_fuel s need 0 else Some (s, 0) in
  match r with
  | None => None
  | Some (s, address) =>
    if address =? 0 then Some (set_size (f_size s + need) s, f_size s) else Some (s, address)
  end.

(** Internal/zreleaseFileSpace.c:54-70: the position of the first empty entry, or the smallest size *)
Fixpoint find_empty (n : nat) (a : arr) (ipos minMem : Z) : Z + Z :=
  match n with
  | O => inr minMem
  | S n' =>
    if a ipos =? 0 then inl ipos
    else find_empty n' a (ipos + 2) (if (a ipos >? 0) && (a ipos <? minMem) then wrap32 (a ipos) else minMem)
  end.
(** Internal/zreleaseFileSpace.c:48-82; [None]: the loop does not end.  Whether the array was updated. *)
Fixpoint release_loop (fuel : nat) (s : fs) (address amount inumber : Z) : option (fs * bool) :=
  match fuel with
  | O => None
  | S fuel' =>
    match read_release s inumber with
    | (s, _, None) => Some (s, false)
    | (s, inumber, Some a) =>
      let put ipos := Some (zreclaimWrite (set_total (f_total s + amount) s) (upd (upd a ipos amount) (ipos + 1) address), true) in
      match find_empty (Z.to_nat kreclaimNumber) a 0 (wrap32 (a 0)) with
      | inl ipos => put ipos
      | inr minMem =>
        (* 71-77: ipos is the last entry *)
        if (minMem >? 0) && (amount >? minMem) then put (2 * (kreclaimNumber - 1))
        else release_loop fuel' s address amount (inumber + 1)
      end
    end
  end.
(** Internal/zreleaseFileSpace.c:26-95 *)
Definition zreleaseFileSpace (level : Z) (s : fs) (address amount : Z) : option fs :=
  let r := if (amount >=? kreclaimMin) && negb (level =? RECLAIM_NONE) then release_loop search_fuel s address amount 0
           else Some (s, false) in
  match r with
  | None => None
  | Some (s, updated) =>
    let s := if updated && (amount >? f_max s) then set_max amount s else s in
    Some (set_dead (f_dead s + amount) s)
  end.

(** Internal/zreclaimSet.c:61-76 with RECLAIM_NONE (zput.c:108-121: a negative count writes zeros) *)
Definition zreclaimSet (s : fs) : fs :=
  if f_total s >? 0 then
    let s := set_seg (f_table s) 0 (set_used 0 (set_total 0 s)) in
    write_seg s (f_table s) (fun _ => 0)
  else s.

(** Internal/zpermCreate.c:324-333: the table at [table], everything before it in use with the words [m]. *)
Definition new_space (m : Z -> Z) (table : Z) : fs :=
  write_seg (mkfs m (table + kreclaimSize) 0 0 0 table table 0 0) table (fun _ => 0).

(** ** Histories *)
Inductive aop :=
| Alloc (level need : Z) (reclaimedOK : bool)   (* zgetFileSpace *)
| Release (level address amount : Z)            (* zreleaseFileSpace *)
| Store (address value : Z)                     (* the owner of a space writes a word of it *)
| Reset.                                        (* zreclaimSet(RECLAIM_NONE) *)

(** The spaces in use, as (address, size); a release takes its space out of them. *)
Fixpoint remove_one (r : Z * Z) (l : list (Z * Z)) : list (Z * Z) :=
  match l with
  | [] => []
  | x :: t => if (fst x =? fst r) && (snd x =? snd r) then t else x :: remove_one r t
  end.
Definition astep (st : fs * list (Z * Z)) (o : aop) : option (fs * list (Z * Z)) :=
  let '(s, live) := st in
  match o with
  | Alloc l n ok => match zgetFileSpace l s n ok with Some (s', a) => Some (s', (a, n) :: live) | None => None end
  | Release l a n => match zreleaseFileSpace l s a n with Some s' => Some (s', remove_one (a, n) live) | None => None end
  | Store x v => Some (set_mem (fun y => if y =? x then v else f_mem s y) s, live)
  | Reset => Some (zreclaimSet s, live)
  end.
