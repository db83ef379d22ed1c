(** * Model of the strings of a time-series internal header (Internal/ztsInternalHeaderPack.c, ztsInternalHeaderUnpack.c,
      zcharTo8Byte.c, Utilities/stringHeaderUtility.c), on a little-endian machine (byte order is C37). *)
From Coq Require Import ZArith List Bool.
From Verif Require Import Base ArrayLib PackModel HashModel CStr PathModel TextModel.
Import ListNotations.
Open Scope Z_scope.
Open Scope res_scope.

(** Utilities/trimLength.c:44-60: length without trailing blanks *)
Definition trimLength (s : list Z) : Z := match last_nonblank s with Some i => i + 1 | None => 0 end.

(** Internal/zcharTo8Byte.c:48-82: the item, without trailing blanks, blank filled to one byte less than a multiple of 8.
    [(size_t)carraySize - *ipos] wraps when negative.  (carray, ipos) *)
Definition zcharTo8Byte (carray item : list Z) (ipos size : Z) : res (list Z * Z) :=
  let len := trimLength item in
  let jlen := numberLongsInBytes (len + 1) * 8 in
  let room := if size - ipos <? 0 then size - ipos + 2 ^ 64 else size - ipos in
  if ipos >? alen carray then Undef
  else if jlen =? len + 1 then
    let* r := stringCopy (sdrop ipos carray) room item (Some len) in Ok (stake ipos carray ++ fst r, ipos + len)
  else
    let* r := stringCopy (sdrop ipos carray) room (stake len item ++ repeat 32 (Z.to_nat (jlen - 1 - len))) (Some (jlen - 1)) in
    Ok (stake ipos carray ++ fst r, ipos + (jlen - 1)).

(** Utilities/stringHeaderUtility.c:15-32; a null string is seven blanks *)
Definition appendStringToHeader (src : option (list Z)) (carray : list Z) (ipos size : Z) : res (list Z * Z) :=
  let* r := zcharTo8Byte carray (match src with Some s => s | None => repeat 32 7 end) ipos size in
  let* c := if snd r <? size - 1 then aset (fst r) (snd r) 0 else Ok (fst r) in
  Ok (c, snd r + 1).

(** the strings of a time series: units, or the two units of a profile; type; time zone *)
Record ts_strings := mkstrings { st_units : option (list Z); st_depths : option (list Z); st_values : option (list Z);
  st_type : option (list Z); st_zone : option (list Z) }.

(** store ints at a position of the header array *)
Definition put_ints (h : list Z) (pos : Z) (l : list Z) : res (list Z) := copy_loop (length l) l 0 h pos.
Definition INT_HEAD_profileDepthsNumber := 3.
Definition INT_HEAD_units := 17.

(** Internal/ztsInternalHeaderPack.c:64-105; [carray] is the uninitialised array of 300 bytes.
    (internalHeader, returned number of ints) *)
Definition ztsInternalHeaderPack (t : ts_strings) (profile : Z) (h carray : list Z) : res (list Z * Z) :=
  let size := alen carray - 2 in
  let* a := if profile =? 0 then appendStringToHeader (st_units t) carray 0 size
            else let* a := appendStringToHeader (st_depths t) carray 0 size in
                 appendStringToHeader (st_values t) (fst a) (snd a) size in
  if snd a >=? size then Ok (h, numberIntsInBytes size)
  else
    let* b := appendStringToHeader (st_type t) (fst a) (snd a) size in
    if snd b >=? size then Ok (h, numberIntsInBytes size)
    else
      let* c := appendStringToHeader (st_zone t) (fst b) (snd b) size in
      if snd c >=? size then Ok (h, numberIntsInBytes size)
      else
        let* h1 := put_ints h INT_HEAD_units [538976288] in
        let* l := to_ints (fst c) (snd c) in
        let* h2 := put_ints h1 (INT_HEAD_units + 1) l in
        Ok (h2, numberIntsInBytes (snd c) + INT_HEAD_units + 1).

(** Utilities/stringHeaderUtility.c:58-74 *)
Definition unitsHavePadding (h : list Z) (offset : Z) : res bool :=
  let* w := aget h offset in Ok ((w =? 0) || (w =? 538976288)).

(** Utilities/mallocAndCopyTrim.c:35-84 *)
Definition mallocAndCopyTrim (s : list Z) : list Z :=
  let '(len, start, stop) := trimPositions s in if len =? 0 then [] else stake (stop - start + 1) (sdrop start s).

(** Internal/ztsInternalHeaderUnpack.c:144-160, for a structure whose member is not allocated yet: (string, ipos) *)
Definition assignString (carray : list Z) (ipos : Z) : res (option (list Z) * Z) :=
  let* len := strnlen 199 (sdrop ipos carray) in
  if len >? 0 then
    let* s := cstr (sdrop ipos carray) in
    Ok ((if trimLength s >? 0 then Some (mallocAndCopyTrim s) else None), ipos + len + 1)
  else Ok (None, ipos + len + 1).

(** Internal/ztsInternalHeaderUnpack.c:72-138; [carray] is the uninitialised array of 200 bytes; the numbers of the header
    (granularity, precision, offset) are left out.  [None]: STATUS_NOT_OKAY. *)
Definition ztsInternalHeaderUnpack (h : list Z) (number : Z) (carray : list Z) : res (option ts_strings) :=
  if number <? 2 then Ok None
  else
    let len := number - INT_HEAD_units in
    if len <=? 1 then Ok (Some (mkstrings None None None None None))
    else
      let* pad := unitsHavePadding h INT_HEAD_units in
      let n := Z.min (if pad then (len - 1) * 4 else len * 4) (alen carray) in
      let* b := from_ints (sdrop (if pad then INT_HEAD_units + 1 else INT_HEAD_units) h) n in
      let* c := copy_loop (length b) b 0 carray 0 in
      let* p := aget h INT_HEAD_profileDepthsNumber in
      if p =? 0 then
        let* u := assignString c 0 in
        let* y := assignString c (snd u) in
        let* z := assignString c (snd y) in
        Ok (Some (mkstrings (fst u) None None (fst y) (fst z)))
      else
        let* d := assignString c 0 in
        let* v := assignString c (snd d) in
        let* y := assignString c (snd v) in
        let* z := assignString c (snd y) in
        Ok (Some (mkstrings None (fst d) (fst v) (fst y) (fst z))).
