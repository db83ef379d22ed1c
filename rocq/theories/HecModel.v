(** * Model of the library interface heclib/hecdss/hecdss.c: the calls that hand a caller's buffers to the library and fill them
      (no proofs here).

    Modelled: text, array and paired data records, the copy of a retrieved time series, the catalogue, and
    Utilities/mallocAndCopy.c through which every text of a caller goes.  A buffer is a list of cells, as long as the memory
    behind the pointer; [None] is a null pointer.  Not modelled: units, types and time zone names, open and close, the log
    messages, failing allocations, freeing. *)
From Coq Require Import ZArith List Bool.
From Verif Require Import Base ArrayLib CStr FileModel TextModel PdModel TrimModel SeriesModel.
Import ListNotations.
Open Scope Z_scope.
Open Scope res_scope.

(** ** Texts *)

(** Utilities/mallocAndCopy.c:47-53 : for i from 0 to len-2, the first byte that is not positive (as a signed char) ends the text *)
Fixpoint legal_len (s : list Z) (i : Z) : Z :=
  match s with
  | [] => i
  | [_] => i + 1
  | c :: t => if schar c <=? 0 then i + 1 else legal_len t (i + 1)
  end.
(** Utilities/mallocAndCopy.c:57-62 : from [n] down to 1, the last byte that is not a blank; [len] when there is none *)
Fixpoint last_black (n : nat) (s : list Z) (len : Z) : res Z :=
  match n with
  | O => Ok len
  | S m => let* c := aget s (Z.of_nat n) in if negb (c =? 32) then Ok (Z.of_nat n + 1) else last_black m s len
  end.
(** Utilities/mallocAndCopy.c:35-77 : the text of a NUL terminated buffer, copied; the result is the new buffer *)
Definition mallocAndCopy (from : list Z) : res (list Z) :=
  let* s := cstr from in
  if slen s =? 0 then Ok [0] else
  let len := legal_len s 0 in
  let* c := aget s (len - 1) in
  let* len := (if c =? 32 then last_black (Z.to_nat (len - 1)) s (len - 1) else Ok len) in
  let* b := read_loop (Z.to_nat len) s 0 in
  Ok (b ++ [0]).

(** strncpy: [n] bytes, those of the text and then zeros *)
Fixpoint strncpy_bytes (n : nat) (src : list Z) : res (list Z) :=
  match n with
  | O => Ok []
  | S m => match src with
           | [] => Undef
           | c :: t => if c =? 0 then Ok (repeat 0 n) else let* r := strncpy_bytes m t in Ok (c :: r)
           end
  end.
(** a negative count is a huge one *)
Definition strncpy (dst src : list Z) (n : Z) : res (list Z) :=
  if n <? 0 then Undef else
  let* b := strncpy_bytes (Z.to_nat n) src in copy_loop (length b) b 0 dst 0.

(** status of a call: 0, HEC_DSS_BUFFER_TOO_SMALL (-17, hecdss.h:30), or another error *)
Inductive status := Okay | TooSmall | Failed.

(** hecdss.c:932-944 *)
Definition hec_dss_textStore_request (path : list Z) (text : list Z) (length : Z) : res (option xfer) :=
  let* b := mallocAndCopy text in
  ztextStore_request path (mktext (Some b) length None 0 None 0 0 0 []).
(** hecdss.c:946-961 *)
Definition hec_dss_textRetrieve_answer (ct : option content) (buffer : list Z) (bufferLength : Z) : res (status * list Z) :=
  let* r := ztextRetrieve_answer ct in
  match r with
  | None => Ok (Failed, buffer)
  | Some t =>
      match tx_text t with
      | None => Undef
      | Some s =>
          let* b := strncpy buffer s (Z.min bufferLength (tx_textChars t)) in
          Ok ((if tx_textChars t >? bufferLength then TooSmall else Okay), b)
      end
  end.

(** ** Arrays *)

(** hecdss.c:98-134 : hec_dss_array_copy_double, _float and _int *)
Definition array_copy {A} (dst : option (list A)) (size : Z) (src : list A) (n : Z) : res (option (list A)) :=
  match dst with
  | None => Ok None
  | Some d => if (size <=? 0) || (n <=? 0) then Ok dst else let* d' := copy_loop (Z.to_nat (Z.min n size)) src 0 d 0 in Ok (Some d')
  end.
(** hecdss.c:868-891 : which part of a caller's array goes into the struct *)
Definition array_given {A} (a : option (list A)) (n : Z) : res (list A) :=
  match a with
  | Some l => if n >? 0 then read_loop (Z.to_nat n) l 0 else Ok []
  | None => Ok []
  end.
Definition hec_dss_arrayStore_request (path : list Z) (ints : option (list Z)) (ni : Z) (floats : option (list Z)) (nf : Z)
  (doubles : option (list (Z * Z))) (nd : Z) : res xfer :=
  let* i := array_given ints ni in
  let* f := array_given floats nf in
  let* d := array_given doubles nd in
  Ok (zarrayStore_request path (mkarray i f d [])).
(** hecdss.c:893-905 *)
Definition hec_dss_arrayRetrieveInfo_answer (ct : option content) : res (option (Z * Z * Z)) :=
  let* r := zarrayRetrieve_answer ct in
  match r with
  | None => Ok None
  | Some a => Ok (Some (alen (ar_ints a), alen (ar_floats a), alen (ar_doubles a)))
  end.
(** hecdss.c:908-929 *)
Definition hec_dss_arrayRetrieve_answer (ct : option content) (ints : option (list Z)) (ni : Z) (floats : option (list Z)) (nf : Z)
  (doubles : option (list (Z * Z))) (nd : Z) : res (status * option (list Z) * option (list Z) * option (list (Z * Z))) :=
  let* r := zarrayRetrieve_answer ct in
  match r with
  | None => Ok (Failed, ints, floats, doubles)
  | Some a =>
      let* i := (if ni =? alen (ar_ints a) then array_copy ints ni (ar_ints a) (alen (ar_ints a)) else Ok ints) in
      let* f := (if nf =? alen (ar_floats a) then array_copy floats nf (ar_floats a) (alen (ar_floats a)) else Ok floats) in
      let* d := (if nd =? alen (ar_doubles a) then array_copy doubles nd (ar_doubles a) (alen (ar_doubles a)) else Ok doubles) in
      Ok (Okay, i, f, d)
  end.

(** ** Paired data *)
Section Pd.
Variable widen : Z -> Z * Z.
Variable narrow : Z * Z -> Z.
Variable junk : Z.
(** hecdss.c:647-683 : the lengths of the two arrays are not looked at; PD_STORE_DOUBLE is 2 *)
Definition hec_dss_pdStore (ords vals : list (Z * Z)) (n c : Z) (labels : option (list Z)) (labelsLength : Z) (old : option pdrec) : res (bool * option pdrec) :=
  match labels with
  | None => zpdStore widen narrow junk 2 (mk_pds (Some (AD ords)) (Some (AD vals)) n c 0 0 0 0 [] 0) old
  | Some l =>
      if labelsLength <? 0 then Ok (false, old) else
      let* b := read_loop (Z.to_nat labelsLength) l 0 in
      zpdStore widen narrow junk 2 (mk_pds (Some (AD ords)) (Some (AD vals)) n c 0 0 0 0 b labelsLength) old
  end.
(** the doubles of an array *)
Definition doubles_of (a : arr) : res (list (Z * Z)) := match a with AD l => Ok l | AF _ => Undef end.
(** hecdss.c:581-645 : status, number of ordinates and of curves (when the status is 0), ordinates, values, labels *)
Definition hec_dss_pdRetrieve (ords : option (list (Z * Z))) (no : Z) (vals : option (list (Z * Z))) (nv : Z) (labels : option (list Z)) (nl : Z)
  (rec : option pdrec) : res (status * Z * Z * option (list (Z * Z)) * option (list (Z * Z)) * option (list Z)) :=
  let* r := zpdRetrieve widen narrow 2 0 0 0 0 0 0 rec in
  match r with
  | None => Ok (Failed, 0, 0, ords, vals, labels)
  | Some o =>
      if negb (o_n o =? no) then Ok (Failed, 0, 0, ords, vals, labels) else
      let* m := chk32 (o_c o * o_n o) in
      if negb (m =? nv) then Ok (Failed, 0, 0, ords, vals, labels) else
      let size := if alen (o_labels o) >? nl then nl else alen (o_labels o) in
      let* labels' := (if size >? 0 then
                         match labels with
                         | None => Undef
                         | Some d => let* d' := copy_loop (Z.to_nat size) (o_labels o) 0 d 0 in Ok (Some d')
                         end
                       else Ok labels) in
      let* dor := doubles_of (o_ords o) in
      let* dv := doubles_of (o_vals o) in
      let* ords' := array_copy ords no dor (o_n o) in
      let* vals' := array_copy vals nv dv m in
      Ok (Okay, o_n o, o_c o, ords', vals', labels')
  end.
End Pd.

(** ** Time series *)

(** hecdss.c:359-367 : element [i] on, [cnt] of them.  Values are doubles, one at each time. *)
Fixpoint ts_copy (cnt : nat) (t : ts) (width i : Z) (timeArray valueArray : list Z) (quality : list Z) : res (list Z * list Z * list Z) :=
  match cnt with
  | O => Ok (timeArray, valueArray, quality)
  | S cnt' =>
      let* timeArray := match times t with
                        | Some l => let* x := aget l i in aset timeArray i x
                        | None => Ok timeArray
                        end in
      let* v := aget (vals t) i in
      let* valueArray := aset valueArray i v in
      let* quality := (if width >? 0 then
                         match qual t with
                         | None => Undef
                         | Some q => let* x := aget q i in aset quality i x
                         end
                       else Ok quality) in
      ts_copy cnt' t width (i + 1) timeArray valueArray quality
  end.
(** hecdss.c:341-368 for a series that was found: ztsRetrieve ends with [finish] (flag 0, no trim), then the copy.  Result: number of
    values read, and the buffers. *)
Definition hec_dss_tsRetrieve (miss : Z -> bool) (t : ts) (timeArray valueArray : list Z) (arraySize : Z) (quality : list Z) (width : Z) :
  res (status * Z * list Z * list Z * list Z) :=
  let* '(ok, t) := finish miss 0 t in
  if negb ok then Ok (Failed, 0, timeArray, valueArray, quality) else
  if depth t >? 0 then Undef else
  let size := Z.max 0 (Z.min (num t) arraySize) in
  let* '(a, b, c) := ts_copy (Z.to_nat size) t width 0 timeArray valueArray quality in
  Ok (Okay, size, a, b, c).
(** hecdss.c:373-407 : the quality of the caller never reaches the file: qualityElementSize stays 0 in the struct (and the pointer
    is not even set for doubles), so ztsStoreReg7 stores values only *)
Definition hec_dss_tsStoreRegular (miss : Z -> bool) (mval : Z) (empty : bool) (interval startJ startS : Z) (vals : list Z)
  (quality : option (list Z)) (flag : Z) (s : series) : res (bool * series) :=
  store_series miss mval empty interval startJ startS flag vals None s.

(** ** Catalogue *)

(** hecdss.c:206-213 : entries [i] on of the catalogue.  stringCopy into the rest of the buffer. *)
Fixpoint catalog_copy (cnt : nat) (names : list (list Z)) (types : list Z) (i itemSize : Z) (pathBuffer recordTypes : list Z) : res (list Z * list Z) :=
  match cnt with
  | O => Ok (pathBuffer, recordTypes)
  | S cnt' =>
      let* ty := aget types i in
      let* recordTypes := aset recordTypes i ty in
      let* pos := chk32 (i * itemSize) in
      let* name := aget names i in
      if (pos <? 0) || (pos >? alen pathBuffer) then Undef else
      let* '(b, _) := stringCopy (sdrop pos pathBuffer) itemSize name (Some (slen name)) in
      catalog_copy cnt' names types (i + 1) itemSize (stake pos pathBuffer ++ b) recordTypes
  end.
(** hecdss.c:196-216 : number of entries given back, and the buffers; [count] entries of [itemSize] bytes *)
Definition hec_dss_catalog (names : list (list Z)) (types : list Z) (pathBuffer recordTypes : list Z) (count itemSize : Z) : res (Z * list Z * list Z) :=
  let n := if alen names >? count then count else alen names in
  let* '(b, t) := catalog_copy (Z.to_nat n) names types 0 itemSize pathBuffer recordTypes in
  Ok (n, b, t).
