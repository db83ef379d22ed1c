(** * Model of buffered reading and writing (Internal/zputBuff.c, zgetBuff.c, zflushBuffers.c; numberLongsInInts.c).
    The file is a function from the position of an int (four bytes) to its value; addresses are in 8-byte words.
    zput and zget are taken to succeed (I/O errors, the tests of the address and of the lock are not modelled here).
    A copy past the end of the buffer is [Undef]. *)
From Coq Require Import ZArith List Bool.
From Verif Require Import Base PackModel FileModel.
Import ListNotations.
Open Scope Z_scope.
Open Scope res_scope.

(** what [n] ints starting at a position are *)
Definition grab (f : Z -> Z) (pos : Z) (n : Z) : list Z := map (fun i => f (pos + Z.of_nat i)) (seq 0 (Z.to_nat n)).
(** the ints [l] stored from a position on *)
Definition blit (f : Z -> Z) (pos : Z) (l : list Z) : Z -> Z :=
  fun p => if (pos <=? p) && (p <? pos + zlen l) then nth (Z.to_nat (p - pos)) l 0 else f p.

(** Internal/zput.c:61-156 and zget.c:59-175, without the checks; heclib.h: addresses are of 8-byte words *)
Definition zput (disk : Z -> Z) (address : Z) (l : list Z) : Z -> Z := blit disk (2 * address) l.
Definition zget (disk : Z -> Z) (address n : Z) : list Z := grab disk (2 * address) n.

(** zdssVals.h:64-73: bufferControl (BUFF_SIZE, BUFF_STAT, BUFF_ADDRESS, BUFF_INTS_USED), the buffer, and the file *)
Definition UNUSED := 0. Definition NOT_DIRTY := 1. Definition DIRTY := 2.
Record bstate := mkb { b_disk : Z -> Z; b_size : Z; b_stat : Z; b_address : Z; b_used : Z; b_buf : Z -> Z }.
(** zdssVals.h:58-62 *)
Definition BUFF_NO_ACTION := 0. Definition BUFF_WRITE := 1. Definition BUFF_WRITE_FLUSH := 2. Definition BUFF_READ := 1. Definition BUFF_LOAD := 2.

(** write what the buffer holds (zputBuff.c:164, 214; zgetBuff.c:131, 232) *)
Definition flushed (s : bstate) : Z -> Z := zput (b_disk s) (b_address s) (grab (b_buf s) 0 (b_used s)).

(** Internal/zputBuff.c:94-223 *)
Definition zputBuff (s : bstate) (address : Z) (l : list Z) (action : Z) : res bstate :=
  let n := zlen l in
  if action =? BUFF_NO_ACTION then Ok (mkb (zput (b_disk s) address l) (b_size s) (b_stat s) (b_address s) (b_used s) (b_buf s))
  else
    (* 128-176 *)
    let* s1 :=
      if negb (b_stat s =? UNUSED) then
        let endBuffer := b_address s + numberLongsInInts (b_size s) in
        let endData := address + numberLongsInInts n in
        if (address >=? b_address s) && (endData <=? endBuffer) then
          let ipos := 2 * (address - b_address s) in
          if (0 <? n) && (ipos + n >? b_size s) then Undef
          else Ok (mkb (b_disk s) (b_size s) DIRTY (b_address s) (if ipos + n >? b_used s then ipos + n else b_used s) (blit (b_buf s) ipos l))
        else if b_stat s =? DIRTY then Ok (mkb (flushed s) (b_size s) NOT_DIRTY (b_address s) (b_used s) (b_buf s))
        else Ok (mkb (b_disk s) (b_size s) NOT_DIRTY (b_address s) (b_used s) (b_buf s))
      else Ok s in
    (* 178-206 *)
    if negb (b_stat s1 =? DIRTY) && (n >=? b_size s1) then Ok (mkb (zput (b_disk s1) address l) (b_size s1) (b_stat s1) (b_address s1) (b_used s1) (b_buf s1))
    else
      let s2 := if negb (b_stat s1 =? DIRTY) then mkb (b_disk s1) (b_size s1) DIRTY address n (blit (b_buf s1) 0 l) else s1 in
      (* 212-220 *)
      if (action =? BUFF_WRITE_FLUSH) && (b_stat s2 =? DIRTY) then Ok (mkb (flushed s2) (b_size s2) NOT_DIRTY (b_address s2) (b_used s2) (b_buf s2))
      else Ok s2.

(** Internal/zflushBuffers.c:53-65 *)
Definition zflushBuffers (s : bstate) : res bstate := zputBuff s 0 [] BUFF_WRITE_FLUSH.

(** Internal/zgetBuff.c:98-253: (what is put in the caller's array, state).  A load changes the buffer only; [eof] is the
    file size in words. *)
Definition zgetBuff (eof : Z) (s : bstate) (address n action : Z) : res (list Z * bstate) :=
  (* 118-121 *)
  if (action =? BUFF_NO_ACTION) || ((action =? BUFF_READ) && (b_stat s =? UNUSED)) then Ok (zget (b_disk s) address n, s)
  else
    (* 127-142 *)
    let s1 := if (b_stat s =? DIRTY) && ((action =? BUFF_LOAD) || (n >? b_size s))
              then mkb (flushed s) (b_size s) NOT_DIRTY (b_address s) (b_used s) (b_buf s) else s in
    if action =? BUFF_LOAD then
      (* 145-189 *)
      if ((b_stat s1 =? UNUSED) || negb (b_address s1 =? address) || (b_used s1 <? n)) && negb (b_size s1 <=? 0) then
        let n1 := if n >? b_size s1 then b_size s1 else n in
        let endBuffer := address + numberLongsInInts n1 in
        let n2 := if endBuffer >? eof then 2 * (endBuffer - eof) else n1 in
        if n2 >? b_size s1 then Undef
        else Ok ([], mkb (b_disk s1) (b_size s1) NOT_DIRTY address n2 (blit (b_buf s1) 0 (zget (b_disk s1) address n2)))
      else Ok ([], s1)
    else
      (* 191-247 *)
      if n >? b_size s1 then Ok (zget (b_disk s1) address n, s1)
      else
        let endBuffer := b_address s1 + numberLongsInInts (b_used s1) in
        let endData := address + numberLongsInInts n in
        if (address >=? b_address s1) && (endData <=? endBuffer) then
          let ipos := 2 * (address - b_address s1) in
          if (0 <? n) && (ipos + n >? b_size s1) then Undef else Ok (grab (b_buf s1) ipos n, s1)
        else if (b_stat s1 =? DIRTY) && negb ((address >? endBuffer) || (endData <? b_address s1)) then
          let s2 := mkb (flushed s1) (b_size s1) NOT_DIRTY (b_address s1) (b_used s1) (b_buf s1) in
          Ok (zget (b_disk s2) address n, s2)
        else Ok (zget (b_disk s1) address n, s1).

(** ** How a record is written (Internal/zwriteInternal.c:371-466): pieces through the buffer; in fill mode
    (400-406) the buffer is flushed and the piece written directly; at the end the buffers are flushed *)
Inductive bop :=
| Write (address : Z) (l : list Z) (flush : bool)
| Fill (address : Z) (l : list Z)
| Flush
| Read (address n : Z).
Definition bstep (s : bstate) (o : bop) : res (list Z * bstate) :=
  match o with
  | Write a l fl => let* s' := zputBuff s a l (if fl then BUFF_WRITE_FLUSH else BUFF_WRITE) in Ok ([], s')
  | Fill a l => let* s' := zflushBuffers s in let* s'' := zputBuff s' a l BUFF_NO_ACTION in Ok ([], s'')
  | Flush => let* s' := zflushBuffers s in Ok ([], s')
  | Read a n => zgetBuff 0 s a n BUFF_READ
  end.
Fixpoint brun (s : bstate) (ops : list bop) : res (list (list Z) * bstate) :=
  match ops with
  | [] => Ok ([], s)
  | o :: t => let* r := bstep s o in let* q := brun (snd r) t in Ok (fst r :: fst q, snd q)
  end.
