(** * Model of the string-table helpers (Utilities/numberBytesInCharArray.c, copyLines.c) and of text records
      (Public/ztextStore.c, ztextRetrieve.c), and of array records (Public/zarrayStore.c, zarrayRetrieve.c). *)
From Coq Require Import ZArith List Bool.
From Verif Require Import Base ArrayLib PackModel HashModel CStr FileModel.
Import ListNotations.
Open Scope Z_scope.
Open Scope res_scope.

(** ** Tables of strings: a table is the list of its cells, row by row ([ipos = i * numberColumns + j]). *)

(** Utilities/numberBytesInCharArray.c:22-32: total size and largest cell of each column; [j] is the column of the head *)
Fixpoint count_cells (cells : list (list Z)) (cols j total : Z) (maxs : list Z) : res (Z * list Z) :=
  match cells with
  | [] => Ok (total, maxs)
  | s :: t =>
    let len := slen s + 1 in
    let* m := aget maxs j in
    let* maxs' := if len >? m then aset maxs j len else Ok maxs in
    count_cells t cols (if j + 1 =? cols then 0 else j + 1) (total + len) maxs'
  end.
(** Utilities/numberBytesInCharArray.c:7-43: (numberBytes, expandedSize) *)
Definition numberBytesInDoubleCharArray (cells : list (list Z)) (rows cols : Z) : res (Z * Z) :=
  let* r := count_cells cells cols 0 0 (repeat 0 (Z.to_nat cols)) in
  Ok (fst r, fold_left Z.add (snd r) 0 * rows).

(** Utilities/numberBytesInCharArray.c:45-72: (numberBytes, out).  [out] is the caller's buffer; the claimed size of the remaining
    destination is [max - numberBytes] converted to size_t: a negative value is huge, so that nothing is cut. *)
Fixpoint compress_cells (cells : list (list Z)) (numberBytes : Z) (out : list Z) (max : Z) : res (Z * list Z) :=
  match cells with
  | [] => Ok (numberBytes, out)
  | s :: t =>
    let len := slen s + 1 in
    let size := if max - numberBytes <? 0 then max - numberBytes + 2 ^ 64 else max - numberBytes in
    if numberBytes >? alen out then Undef
    else
      let* r := stringCopy (sdrop numberBytes out) size s (Some len) in
      compress_cells t (numberBytes + len) (stake numberBytes out ++ fst r) max
  end.
Definition compressCharArray (cells : list (list Z)) (out : list Z) (max : Z) : res (Z * list Z) := compress_cells cells 0 out max.

(** Utilities/numberBytesInCharArray.c:75-100: the offsets stored in the pointer array, and the bytes used; [n] cells *)
Fixpoint table_pointers (n : nat) (buf : list Z) (pos : Z) : res (list Z * Z) :=
  match n with
  | O => Ok ([], pos)
  | S m =>
    let* s := cstr (sdrop pos buf) in
    let* r := table_pointers m buf (pos + slen s + 1) in
    Ok (pos :: fst r, snd r)
  end.
Definition buildTablePointerArray (buf : list Z) (rows cols : Z) : res (list Z * Z) := table_pointers (Z.to_nat (rows * cols)) buf 0.

(** Utilities/strnlen_hec.c:22-35 *)
Fixpoint strnlen (n : nat) (s : list Z) : res Z :=
  match n, s with
  | O, _ => Ok 0
  | S _, [] => Undef
  | S m, c :: t => if c =? 0 then Ok 0 else let* r := strnlen m t in Ok (r + 1)
  end.

(** Utilities/copyLines.c:65-80: end of the first [n] lines *)
Fixpoint lines_end (n : nat) (src : list Z) (max ipos : Z) : res Z :=
  match n with
  | O => Ok ipos
  | S m =>
    let* len := strnlen (Z.to_nat (max - ipos)) (sdrop ipos src) in
    let ipos := ipos + len + 1 in
    if ipos >=? max then Ok ipos else lines_end m src max ipos
  end.
(** Utilities/copyLines.c:45-108.  [dst = None] (or a size that is not positive) and [src = None]: null pointers. *)
Definition copyLines (dst : option (list Z)) (size : Z) (src : option (list Z)) (max lines : Z) : res (Z * option (list Z)) :=
  let noDst := match dst with None => true | Some _ => size <=? 0 end in
  let noSrc := match src with None => true | Some _ => max <=? 0 end in
  if noDst && noSrc then Ok (0, dst)
  else
    let* number := match src with Some s => if max >? 0 then lines_end (Z.to_nat lines) s max 0 else Ok 0 | None => Ok 0 end in
    match dst with
    | None => Ok (number, None)
    | Some d =>
      if size <=? 0 then Ok (number, dst)
      else if max =? 0 then
        let n := Z.min (Z.max 0 lines) size in
        let* d' := fill_loop (Z.to_nat n) 0 d 0 in Ok ((if lines >? size then size else lines), Some d')
      else
        let n := Z.min number size in
        match src with
        | Some s => let* d' := copy_loop (Z.to_nat n) s 0 d 0 in Ok (n, Some d')
        | None => if 0 <? n then Undef else Ok (n, Some d)
        end
    end.

(** ** Bytes in arrays of ints (charInt with numberBytes > 0 on a little-endian machine; byte order is C37) *)
Fixpoint ints_of_bytes (n : nat) (b : list Z) : list Z :=
  match n with O => [] | S m => signed_of false 4 (firstn 4 b) :: ints_of_bytes m (skipn 4 b) end.
Definition bytes_of_ints (l : list Z) : list Z := flat_map (bytes_le 4) l.
(** ztextStore.c:197-200: calloc, then charInt(.., numberBytes, numberBytes, 1, 0, 0); reading past the text is [Undef] *)
Definition to_ints (text : list Z) (numberBytes : Z) : res (list Z) :=
  let* b := get_prefix numberBytes text in
  Ok (ints_of_bytes (Z.to_nat (numberIntsInBytes numberBytes)) (b ++ [0; 0; 0; 0])).
(** ztextRetrieve.c:150-151: charInt(.., numberBytes, numberBytes, 0, 0, 0) *)
Definition from_ints (l : list Z) (numberBytes : Z) : res (list Z) := get_prefix numberBytes (bytes_of_ints l).

(** ** Text records *)
(** zStructText: each text is a buffer ([None] is null) and its number of characters *)
Record text_struct := mktext {
  tx_text : option (list Z); tx_textChars : Z;
  tx_table : option (list Z); tx_tableChars : Z;
  tx_labels : option (list Z); tx_labelChars : Z;
  tx_rows : Z; tx_cols : Z; tx_header : list Z }.

(** ztextStore.c:196-228, one of the three texts *)
Definition text_section (t : option (list Z)) (n : Z) : res (list Z) :=
  if n >? 0 then match t with Some b => to_ints b n | None => Undef end else Ok [].
(** ztextStore.c:123-247: the transfer handed to zwrite; [None]: an error is returned and nothing is written.
    numberChars (int) is not modelled to overflow. *)
Definition ztextStore_request (path : list Z) (t : text_struct) : res (option xfer) :=
  if tx_tableChars t + tx_textChars t <? 1 then Ok None
  else if (tx_textChars t >? 0) && (match tx_text t with None => true | _ => false end) then Ok None
  else if (tx_tableChars t >? 0) && (match tx_table t with None => true | _ => false end) then Ok None
  else if (tx_labelChars t >? 0) && (match tx_labels t with None => true | _ => false end) then Ok None
  else
    let* v1 := text_section (tx_text t) (tx_textChars t) in
    let* v2 := text_section (tx_table t) (tx_tableChars t) in
    let* h2 := text_section (tx_labels t) (tx_labelChars t) in
    Ok (Some (mkxfer path (if tx_cols t >? 1 then 310 else 300)
      [tx_textChars t; tx_tableChars t; tx_labelChars t; tx_rows t; tx_cols t; 0] h2 (tx_header t) v1 v2 [] 0 0 0 0)).

(** ztextRetrieve.c:141-194: one text; the buffer is one byte longer, with a NUL after the characters *)
Definition text_back (l : list Z) (n : Z) : res (option (list Z) * Z) :=
  if zlen l >? 0 then let* b := from_ints l n in Ok (Some (b ++ [0]), n) else Ok (None, 0).
(** ztextRetrieve.c:109-208: [None]: an error is returned *)
Definition ztextRetrieve_answer (ct : option content) : res (option text_struct) :=
  match ct with
  | None => Ok None
  | Some c =>
    if negb (ct_type c =? 300) && negb (ct_type c =? 310) then Ok None
    else match ct_ih c with
    | n1 :: n2 :: n3 :: rows :: cols :: _ =>
      let* a := text_back (ct_v1 c) n1 in
      let* b := text_back (ct_v2 c) n2 in
      let* d := text_back (ct_h2 c) n3 in
      Ok (Some (mktext (fst a) (snd a) (fst b) (snd b) (fst d) (snd d) rows cols (ct_uh c)))
    | _ => Ok None
    end
  end.

(** ** Array records (DSS 7): ints and floats are one int each, a double is two *)
Record array_struct := mkarray { ar_ints : list Z; ar_floats : list Z; ar_doubles : list (Z * Z); ar_header : list Z }.
Definition flat_doubles (l : list (Z * Z)) : list Z := flat_map (fun d => [fst d; snd d]) l.
Fixpoint pair_doubles (n : nat) (l : list Z) : res (list (Z * Z)) :=
  match n, l with
  | O, _ => Ok []
  | S m, a :: b :: t => let* r := pair_doubles m t in Ok ((a, b) :: r)
  | _, _ => Undef
  end.
(** Public/zarrayStore.c:75-128; data type 90 *)
Definition zarrayStore_request (path : list Z) (a : array_struct) : xfer :=
  let n := zlen (ar_ints a) + zlen (ar_floats a) + Z.of_nat (length (ar_doubles a)) in
  mkxfer path 90 [] [] (ar_header a) (ar_ints a) (ar_floats a) (flat_doubles (ar_doubles a)) n n 0 0.
(** Public/zarrayRetrieve.c:94-171 *)
Definition zarrayRetrieve_answer (ct : option content) : res (option array_struct) :=
  match ct with
  | None => Ok None
  | Some c =>
    if negb (ct_type c =? 90) then Ok None
    else
      let* d := pair_doubles (Z.to_nat (Z.quot (zlen (ct_v3 c)) 2)) (ct_v3 c) in
      Ok (Some (mkarray (ct_v1 c) (ct_v2 c) d (ct_uh c)))
  end.
