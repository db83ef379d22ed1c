(** * Model of the keyed texts of Utilities/verticalDatum.c (extractFromDelimitedString, insertIntoDelimitedString), of the conversion of
      a user header to a text and back, and of the assignment of the vertical datum information to a location in Public/ztsStore.c
      (the same code is in zpdStore.c).  No proofs here.

    A buffer is the list of its cells.  Not modelled: failing allocations; realloc keeps the cells and gives new ones with any content. *)
From Coq Require Import ZArith List Bool.
From Verif Require Import Base ArrayLib CStr PackModel TextModel.
Import ListNotations.
Open Scope Z_scope.
Open Scope res_scope.

Definition tolower (c : Z) : Z := if (65 <=? c) && (c <=? 90) then c + 32 else c.
(** strncasecmp (s, p, strlen (p)) = 0 *)
Fixpoint is_iprefix (p s : list Z) : bool :=
  match p, s with
  | [], _ => true
  | a :: p', b :: s' => (tolower a =? tolower b) && is_iprefix p' s'
  | _ :: _, [] => false
  end.
(** verticalDatum.c:43-52 : [n] positions to look at *)
Fixpoint casestr_loop (n : nat) (s p : list Z) : option Z :=
  match n with
  | O => None
  | S m => if is_iprefix p s then Some 0 else
           match s with [] => None | _ :: t => match casestr_loop m t p with Some i => Some (i + 1) | None => None end end
  end.
Definition dss_strcasestr (s p : list Z) : option Z := casestr_loop (Z.to_nat (slen s - slen p)) s p.

(** verticalDatum.c:206 *)
Fixpoint scan_end (fuel : nat) (buf : list Z) (i delimiter : Z) : res Z :=
  let* c := aget buf i in
  if (c =? 0) || (c =? delimiter) then Ok i else
  match fuel with O => Undef | S f => scan_end f buf (i + 1) delimiter end.
(** memmove / memcpy of [data] to [pos] *)
Definition splice (buf : list Z) (pos : Z) (data : list Z) : res (list Z) :=
  if (0 <=? pos) && (pos + slen data <=? slen buf) then Ok (stake pos buf ++ data ++ sdrop (pos + slen data) buf) else Undef.
(** verticalDatum.c:184-223 : the value found (a new buffer) and the buffer *)
Definition extractFromDelimitedString (buf parameter : list Z) (separator : option (list Z)) (matchCase removeFromString : bool) (delimiter : Z) :
  res (option (list Z) * list Z) :=
  let param := parameter ++ (match separator with Some s => s | None => [] end) in
  let* s := cstr buf in
  match (if matchCase then strstr s param else dss_strcasestr s param) with
  | None => Ok (None, buf)
  | Some paramStart =>
      let valueStart := paramStart + slen param in
      let* valueEnd := scan_end (length buf) buf (valueStart + 1) delimiter in
      let* value := read_loop (Z.to_nat (valueEnd - valueStart)) buf valueStart in
      let* buf := (if removeFromString then
                     let* c := aget buf valueEnd in
                     if negb (c =? 0) then
                       let* rest := cstr (sdrop (valueEnd + 1) buf) in splice buf paramStart (rest ++ [0])
                     else aset buf paramStart 0
                   else Ok buf) in
      Ok (Some (value ++ [0]), buf)
  end.

(** verticalDatum.c:258-260 *)
Fixpoint put_text (text : list Z) (buf : list Z) (len size : Z) : res (list Z * Z) :=
  match text with
  | [] => Ok (buf, len)
  | c :: t => if len <? size then let* buf := aset buf len c in put_text t buf (len + 1) size else Ok (buf, len)
  end.
(** verticalDatum.c:227-283 : the status and the buffer; [None] is a null pointer *)
Definition insertIntoDelimitedString (buf : list Z) (size : Z) (parameter : list Z) (value separator : option (list Z)) (overwriteExisting : bool) (delimiter : Z) :
  res (Z * list Z) :=
  let* '(existing, _) := extractFromDelimitedString buf parameter separator true false delimiter in
  match existing, overwriteExisting with
  | Some _, false => Ok (0, buf)
  | _, _ =>
      let* buf := (match existing with
                   | Some _ => let* '(_, b) := extractFromDelimitedString buf parameter separator true true delimiter in Ok b
                   | None => Ok buf
                   end) in
      let* s := cstr buf in
      let len := slen s in
      let* c := (if len >? 0 then aget buf (len - 1) else Ok delimiter) in
      let* '(buf, len) := (if negb (c =? delimiter) then let* b := aset buf len delimiter in Ok (b, len + 1) else Ok (buf, len)) in
      let* '(buf, len) := put_text parameter buf len size in
      let* '(buf, len) := put_text (match separator with Some s => s | None => [] end) buf len size in
      let* '(buf, len) := put_text (match value with Some s => s | None => [] end) buf len size in
      if len >? size - 2 then Ok (-1, buf) else
      let* buf := aset buf len delimiter in
      let* buf := aset buf (len + 1) 0 in
      Ok (0, buf)
  end.

(** "verticalDatumInfo" and ":" *)
Definition VDI : list Z := [118; 101; 114; 116; 105; 99; 97; 108; 68; 97; 116; 117; 109; 73; 110; 102; 111].
(** ztsStore.c:551-576 : the supplemental text of a location gets the information; [fresh]: the content of new cells *)
Definition assign_vdi (fresh : Z -> list Z) (supplemental compressed : list Z) : res (Z * list Z) :=
  let* s := cstr supplemental in
  let* '(status, b) := insertIntoDelimitedString supplemental (slen s) VDI (Some compressed) (Some [58]) true 59 in
  if status =? 0 then Ok (0, b) else
  let* s := cstr b in
  let newLen := slen s + 17 + slen compressed + 3 in
  let b := stake newLen (b ++ fresh (newLen - slen b)) in
  insertIntoDelimitedString b newLen VDI (Some compressed) (Some [58]) true 59.
(** ztsStore.c:602-619 : a location without a text *)
Definition assign_vdi_new (compressed : list Z) : res (Z * list Z) :=
  let len := 17 + slen compressed + 3 in
  insertIntoDelimitedString (repeat 0 (Z.to_nat len)) len VDI (Some compressed) (Some [58]) true 59.

(** verticalDatum.c:288-306 *)
Definition stringToUserHeader (str : list Z) : res (list Z) :=
  let* s := cstr str in
  if slen s =? 0 then Ok [] else to_ints (s ++ [0]) (slen s).
(** the cells before the first NUL, or all *)
Fixpoint before_nul (b : list Z) : list Z := match b with [] => [] | c :: t => if c =? 0 then [] else c :: before_nul t end.
(** verticalDatum.c:311-345 : the test of line 331 compares 0 or 1 with ' ', so blanks at the end are kept *)
Definition userHeaderToString (h : list Z) : list Z :=
  let s := before_nul (bytes_of_ints h) in
  if (slen h >? 0) && (slen s >? 0) then s ++ repeat 0 (Z.to_nat (slen h * 4 + 1 - slen s)) else [0].
