(** * Model of the completion of a file name (System/zfileName.c), as zopen does before it looks for the file. *)
From Coq Require Import ZArith List Bool.
From Verif Require Import Base ArrayLib HashModel CStr.
Import ListNotations.
Open Scope Z_scope.
Open Scope res_scope.

(** headers/zdssVals.h:54 *)
Definition MAX_FILENAME_LENGTH := 1024.
(** C library, "C" locale *)
Definition to_lower (c : Z) : Z := if (65 <=? c) && (c <=? 90) then c + 32 else c.
(** Utilities/lowerCase.c:28-37 *)
Definition lowerCase (s : list Z) : list Z := map to_lower s.
Definition ext_dss : list Z := [46; 100; 115; 115].
Definition ext_ds_ : list Z := [46; 100; 115; 45].
(** strncmp(a, b, 4) == 0, for [b] of four characters *)
Definition same4 (a b : list Z) : bool := is_prefix b a.
(** Utilities/stringCat.c:36-67 (not MSVC) with a length, as a value *)
Definition stringCat_n (size : Z) (dst src : list Z) (n : Z) : list Z :=
  let room := size - slen dst - 1 in if room >? 0 then dst ++ stake (Z.min n room) src else dst.

(** System/zfileName.c:77-109: the name that is given to realpath; [s] is the argument without its NUL.  An empty argument:
    dssFileName[-1] is read.  [len--] wraps to the largest size, which is _TRUNCATE, when there is one quote only. *)
Definition zfileName (s : list Z) : res (list Z) :=
  let len := slen s in
  let* c := aget s (len - 1) in
  let len := if c =? 34 then len - 1 else len in
  let found := if len >? 4 then
                 let e := lowerCase (stringCopy_val 5 (sdrop (len - 4) s) (Some 4)) in same4 e ext_dss || same4 e ext_ds_
               else false in
  let* f := aget s 0 in
  let name := if f =? 34 then stringCopy_val MAX_FILENAME_LENGTH (sdrop 1 s) (if len - 1 <? 0 then None else Some (len - 1))
              else stringCopy_val MAX_FILENAME_LENGTH s (Some len) in
  Ok (if found then name else stringCat_n MAX_FILENAME_LENGTH name ext_dss 4).
