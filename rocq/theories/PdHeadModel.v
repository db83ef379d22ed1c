(** * Model of the strings of a paired-data internal header (Internal/zpdUnitsToHead.c; the two calls in Public/zpdStore.c),
      on a little-endian machine (byte order is C37). *)
From Coq Require Import ZArith List Bool.
From Verif Require Import Base ArrayLib PackModel HashModel CStr PathModel TextModel HdrModel.
Import ListNotations.
Open Scope Z_scope.
Open Scope res_scope.

(** headers/zStructAllocation.h:112 *)
Definition INT_HEAD_pdUnits := 5.

(** Internal/zpdUnitsToHead.c:63-76: the strings one after the other, until they do not fit ([None]) *)
Fixpoint append_until (srcs : list (option (list Z))) (carray : list Z) (ipos size : Z) : res (option (list Z * Z)) :=
  match srcs with
  | [] => Ok (Some (carray, ipos))
  | s :: t =>
      let* a := appendStringToHeader s carray ipos size in
      if snd a >=? size then Ok None else append_until t (fst a) (snd a) size
  end.

(** Internal/zpdUnitsToHead.c:50-90; [strings] are unitsIndependent, typeIndependent, unitsDependent, typeDependent, timeZoneName;
    [carray] is the uninitialised array of 400 bytes.  The copy of the bytes writes whole words of the header: here the words are those
    of the bytes, and the number of bytes is a multiple of 4 (a capped number too).  (header, returned number of ints) *)
Definition zpdUnitsToHead (strings : list (option (list Z))) (h : list Z) (arraySize : Z) (carray : list Z) : res (list Z * Z) :=
  let size := alen carray - 2 in
  let* a := append_until strings carray 0 size in
  match a with
  | None => Ok (h, numberIntsInBytes size)
  | Some (c, n) =>
      let room := (arraySize - INT_HEAD_pdUnits) * 4 in
      let n := if n >? room then room else n in
      let* h1 := put_ints h INT_HEAD_pdUnits [538976288] in
      let* l := to_ints c n in
      let* h2 := put_ints h1 (INT_HEAD_pdUnits + 1) l in
      Ok (h2, numberIntsInBytes n + INT_HEAD_pdUnits + 1)
  end.

(** Public/zpdStore.c:241-242, 704, 738-740: called twice, the second time with the number the first call returned as size of the array;
    the length of the labels is put in the header in between *)
Definition zpdStore_strings (strings : list (option (list Z))) (labelsLength : Z) (h carray carray' : list Z) : res (list Z * Z) :=
  let* a := zpdUnitsToHead strings h 200 carray in
  let* h1 := aset (fst a) 3 labelsLength in
  zpdUnitsToHead strings h1 (snd a) carray'.

(** Internal/zpdUnitsToHead.c:121-175: the members of a structure that has none of them allocated yet *)
Fixpoint assign_until (n : nat) (carray : list Z) (ipos : Z) : res (list (option (list Z))) :=
  match n with
  | O => Ok []
  | S m =>
      let* s := cstr (sdrop ipos carray) in
      let len := slen s in
      if len =? 0 then Ok (repeat None n)
      else
        let x := if trimLength s >? 0 then Some (mallocAndCopyTrim s) else None in
        let* r := assign_until m carray (ipos + len + 1) in Ok (x :: r)
  end.

(** Internal/zpdUnitsToHead.c:93-176; [carray] is the uninitialised array of 400 bytes.  A header of five words or less: no string. *)
Definition zpdHeadToUnits (h : list Z) (number : Z) (carray : list Z) : res (list (option (list Z))) :=
  let len := number - INT_HEAD_pdUnits in
  if len <=? 0 then Ok (repeat None 5)
  else
    let* pad := unitsHavePadding h INT_HEAD_pdUnits in
    let n := Z.min (if pad then (len - 1) * 4 else len * 4) (alen carray) in
    let* b := from_ints (sdrop (if pad then INT_HEAD_pdUnits + 1 else INT_HEAD_pdUnits) h) n in
    let* c := copy_loop (length b) b 0 carray 0 in
    assign_until 5 c 0.
