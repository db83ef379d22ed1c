(** * Model of the integrity keys of an open file (Internal/zmemoryGet.c, Internal/zcheckKeys.c).
      The table (ifltab) is its first 20 words, the integrity keys 2 and 3 (words 67 and 75), and the four blocks of memory whose
      addresses are words 68, 69, 70 and 73 (Internal/zinit.c:152-424): [None] for the address 0, and otherwise the words of the
      block from the address less 2 on.  What zerrorProcessing changes in the table (words 20, 21, 22) is not modelled, nor are
      the messages; its result is the error code, which is never STATUS_OKAY. *)
From Coq Require Import ZArith List Bool.
From Verif Require Import Base ArrayLib.
Import ListNotations.
Open Scope Z_scope.
Open Scope res_scope.

(** headers/zdssVals.h:45, 46, 76 *)
Definition INTEGRITY_KEY : Z := 13579.
Definition MEMORY_KEY : Z := 24680.
Definition STAT_READ_ONLY : Z := 1.

Record table := mkTable {
  first20 : list Z; key2 : Z; key3 : Z;
  header : option (list Z); bin : option (list Z); info : option (list Z); reclaim : option (list Z) }.

(** the error codes that zcheckKeys can give *)
Inductive verdict := OKAY | NOT_OPENED | CLOSED_FILE | IFLTAB_CORRUPT | KEY_CORRUPT.

(** Internal/zmemoryGet.c:66-79: [size] + 3 words from calloc, when there is memory *)
Definition zmemoryGet (size : Z) : list Z := [MEMORY_KEY; size] ++ repeat 0 (Z.to_nat size) ++ [MEMORY_KEY].

(** Internal/zcheckKeys.c:108-116, 117-125, 126-134, 135-143: [true] when both keys are there.  address[size+2] is read in any case,
    because line 113 passes it to the error *)
Definition check_block (b : option (list Z)) : res bool :=
  match b with
  | None => Ok true
  | Some blk =>
    let* size := aget blk 1 in
    let* a := aget blk 0 in
    let* e := aget blk (wrap32 size + 2) in
    Ok ((a =? MEMORY_KEY) && (e =? MEMORY_KEY))
  end.

(** Internal/zcheckKeys.c:108-143: the blocks are looked at until one is wrong *)
Definition check_blocks (t : table) : res verdict :=
  let* h := check_block (header t) in
  if negb h then Ok KEY_CORRUPT else
  let* b := check_block (bin t) in
  if negb b then Ok KEY_CORRUPT else
  let* i := check_block (info t) in
  if negb i then Ok KEY_CORRUPT else
  let* r := check_block (reclaim t) in
  Ok (if negb r then KEY_CORRUPT else OKAY).

(** Internal/zcheckKeys.c:145-147; kopenStatus is word 6 *)
Definition set_read_only (t : table) : res table :=
  let* w := aset (first20 t) 6 STAT_READ_ONLY in
  Ok (mkTable w (key2 t) (key3 t) (header t) (bin t) (info t) (reclaim t)).

(** Internal/zcheckKeys.c:36-154.  The version is the word 0 (Public/zgetVersion.c:33), key 1 the word 2.  The code of lines 55-58
    for version 6 is always replaced by one of lines 82-89 *)
Definition zcheckKeys (t : table) : res (verdict * table) :=
  let* w0 := aget (first20 t) 0 in
  let vers := wrap32 w0 in
  if (vers <? 0) && forallb (fun w => w <? 0) (first20 t) then Ok (NOT_OPENED, t)
  else
    let* code :=
      if negb (vers =? 7) then Ok (if forallb (fun w => w =? 0) (first20 t) then CLOSED_FILE else IFLTAB_CORRUPT)
      else
        let* k1 := aget (first20 t) 2 in
        if negb (k1 =? INTEGRITY_KEY) then Ok KEY_CORRUPT
        else if negb (key2 t =? INTEGRITY_KEY) then Ok KEY_CORRUPT
        else if negb (key3 t =? INTEGRITY_KEY) then Ok KEY_CORRUPT
        else check_blocks t in
    match code with
    | OKAY => Ok (OKAY, t)
    | c => let* t' := set_read_only t in Ok (c, t')
    end.
