(** * Model of storing and retrieving paired data (no proofs here).

    Public/zpdStore.c and Public/zpdRetrieve.c for one record.  The file layer (zwrite, zread) is taken as: the arrays
    written are the arrays read (that is C01 to C05, over FileModel); what is modelled here in full is how a table is laid
    out in those arrays, and the reads and writes of parts of a table, which go straight to addresses inside the record.

    A float is a 32 bit word, a double is two; the conversions between them are parameters.  Not modelled: vertical datums
    (pathnames whose C part is an elevation), location records, units and types (HdrModel), user header, precision, locks,
    memory errors, big-endian machines, records larger than zput and zget accept. *)
From Coq Require Import ZArith List Lia Bool.
From Verif Require Import Base ArrayLib.
Import ListNotations.
Open Scope Z_scope.
Open Scope res_scope.

(** an array of floats or of doubles, as in the struct *)
Inductive arr := AF (l : list Z) | AD (l : list (Z * Z)).
Definition is_double (a : arr) : bool := match a with AF _ => false | AD _ => true end.

(** the fields of zStructPairedData that are used: headers/zStructPairedData.h *)
Record pds := mk_pds { p_ords : option arr; p_vals : option arr; p_n : Z; p_c : Z;   (* numberOrdinates, numberCurves *)
  p_sc : Z; p_ec : Z; p_so : Z; p_eo : Z;            (* startingCurve, endingCurve, startingOrdinate, endingOrdinate *)
  p_labels : list Z; p_lablen : Z }.
(** a record: type, numberOrdinates, numberCurves and labelsLength (internal header), the words of values1 and values2 as
    they lie in the file (a whole number of longs), the bytes of header2 (4 for each int) *)
Record pdrec := mk_pdrec { r_dbl : bool; r_n : Z; r_c : Z; r_ords : list Z; r_vals : list Z; r_lablen : Z; r_head2 : list Z }.

Section M.
(** convertDataType.c : float to double, double to float *)
Variable widen : Z -> Z * Z.
Variable narrow : Z * Z -> Z.
(** what is in the file in the half of a long that is not written *)
Variable junk : Z.

(** Utilities/convertDataArray.c:45-75 : [n] elements from element [i], as words of the type wanted *)
Definition words (dbl : bool) (a : arr) (i n : Z) : res (list Z) :=
  match a with
  | AF l => let* l := read_loop (Z.to_nat n) l i in
            Ok (if dbl then flat_map (fun x => [fst (widen x); snd (widen x)]) l else l)
  | AD l => let* l := read_loop (Z.to_nat n) l i in
            Ok (if dbl then flat_map (fun d => [fst d; snd d]) l else map narrow l)
  end.
Fixpoint pairs (l : list Z) : list (Z * Z) :=
  match l with a :: b :: t => (a, b) :: pairs t | _ => [] end.
(** the same from words of the record's type [from] to an array of the type wanted *)
Definition array_of (from dbl : bool) (l : list Z) : arr :=
  if from then (if dbl then AD (pairs l) else AF (map narrow (pairs l)))
  else (if dbl then AD (map widen l) else AF l).

(** an array in the file: written from its address, in longs *)
Definition padded (l : list Z) : list Z := if Z.odd (alen l) then l ++ [junk] else l.
(** Internal/zgetBuff.c, zputBuff.c with no buffer: [n] words at long [addr] of the array.  Undef: outside the array. *)
Definition get_at (area : list Z) (addr n : Z) : res (list Z) := read_loop (Z.to_nat n) area (2 * addr).
Definition put_at (area : list Z) (addr : Z) (ws : list Z) : res (list Z) := copy_loop (length ws) ws 0 area (2 * addr).

Definition size_of (dbl : bool) : Z := if dbl then 2 else 1.

(** ** Store *)
(** zpdStore.c:269-277 *)
Definition store_entire (p : pds) : bool :=
  negb ((p_sc p >? 1) || (p_so p >? 1) ||
        (negb (p_eo p =? 0) && negb (p_eo p =? p_n p)) || (negb (p_ec p =? 0) && negb (p_ec p =? p_c p)) ||
        ((p_so p =? 0) && (p_eo p =? 0) && (negb (p_sc p =? 0) || negb (p_ec p =? 0)))).

(** zpdStore.c:650-892 : the whole record.  Result: success, record.  A record of the other type is deleted first (866-873),
    which changes nothing in the result. *)
Definition store_whole (flag : Z) (p : pds) (old : option pdrec) : res (bool * option pdrec) :=
  let kind := if (flag =? 1) || (flag =? 11) then Some false
              else if (flag =? 2) || (flag =? 12) then Some true
              else match p_ords p with Some a => Some (is_double a) | None => None end in
  match kind with
  | None => Ok (false, old)
  | Some dbl =>
      let* nv := chk32 (p_c p * p_n p) in
      if nv <=? 0 then Ok (false, old) else
      let* _ := chk32 ((p_c p + 1) * p_n p) in
      let* sizeO := chk32 (p_n p * size_of dbl) in
      let* sizeV := chk32 (nv * size_of dbl) in
      let* head2 :=
        (if p_lablen p >? 0 then
           let bytes := (Z.quot (p_lablen p - 1) 8 + 1) * 8 in
           let* l := read_loop (Z.to_nat (p_lablen p)) (p_labels p) 0 in
           Ok (l ++ repeat 0 (Z.to_nat (bytes - p_lablen p)))
         else Ok []) in
      match p_ords p with
      | None => Undef
      | Some o =>
          let* w1 := words dbl o 0 (p_n p) in
          let* w2 := (if flag >? 5 then Ok (repeat 0 (Z.to_nat sizeV))
                      else match p_vals p with
                           | Some v => if Bool.eqb (is_double v) (is_double o) then words dbl v 0 nv else Undef
                           | None => Undef
                           end) in
          Ok (true, Some (mk_pdrec dbl (p_n p) (p_c p) (padded w1) (padded w2) (p_lablen p) head2))
      end
  end.

(** zpdStore.c:955-976, zpdRetrieve.c:493-501, 617-625 : from the numbers given (1 is the first, 0 means not given) to the first
    and one past the last *)
Definition limits (s e n : Z) : Z * Z :=
  let s := if s - 1 <? 0 then 0 else s - 1 in
  let e := if (e =? 0) || (e >? n) then n else e in
  (if s >? e then 0 else s, e).

(** zpdStore.c:999-1012, zpdRetrieve.c:652-668 : where row [row] of curve [i] is: long, word inside the long *)
Definition place (dbl : bool) (n row i : Z) : res (Z * Z) :=
  let* m := chk32 (i * n) in
  let* m := chk32 (row + m) in
  Ok (if dbl then (m, 0) else (Z.quot m 2, if Z.odd m then 1 else 0)).

(** zpdStore.c:998-1062; [i] is the curve, [first] is startCurve, [cnt] the number of curves left.  None: no values given *)
Fixpoint put_curves (cnt : nat) (dbl : bool) (n row rows i first : Z) (vals : option arr) (area : list Z) : res (option (list Z)) :=
  match cnt with
  | O => Ok (Some area)
  | S cnt' =>
      let* '(addr, off) := place dbl n row i in
      let* before := (if off =? 1 then let* l := get_at area addr 2 in Ok (firstn 1 l) else Ok []) in
      let* ipos := chk32 ((i - first) * rows) in
      match vals with
      | None => Ok None
      | Some v =>
          let* ws := words dbl v ipos rows in
          let* area' := put_at area addr (before ++ ws) in
          put_curves cnt' dbl n row rows (i + 1) first vals area'
      end
  end.

(** strlen of the text at [pos]; Undef if it does not end inside the array *)
Fixpoint text_len (l : list Z) : res Z :=
  match l with
  | [] => Undef
  | c :: t => if c =? 0 then Ok 0 else let* n := text_len t in Ok (n + 1)
  end.
Definition len_at (l : list Z) (pos : Z) : res Z := text_len (skipn (Z.to_nat pos) l).
(** clabels[ipos++] = c, in an array of [len] bytes *)
Definition emit (len : Z) (out : list Z) (c : Z) : res (list Z) := if alen out <? len then Ok (out ++ [c]) else Undef.
Fixpoint emits (len : Z) (out cs : list Z) : res (list Z) :=
  match cs with [] => Ok out | c :: t => let* out := emit len out c in emits len out t end.

(** zpdStore.c:1075-1101; [fuel] = len *)
Fixpoint label_loop (fuel : nat) (len sc ec ncur hbytes : Z) (new old out : list Z) (rd pd cur : Z) : res (list Z) :=
  match fuel with
  | O => Ok out
  | S fuel' =>
      let* '(out, rd, pd, cur) :=
        (if (cur >=? sc) && (cur <=? ec) then
           let* l1 := len_at new pd in
           let* cs := read_loop (Z.to_nat l1) new pd in
           let* out := emits len out cs in
           let* out := emit len out 0 in
           let* l2 := len_at old rd in
           Ok (out, rd + l2 + 1, pd + l1, cur + 1)
         else
           let* c := aget old rd in
           let* out := emit len out c in
           Ok (out, rd + 1, pd, if c =? 0 then cur + 1 else cur)) in
      if (cur >? ncur) || (alen out >=? len) || (rd >=? hbytes) then Ok out
      else label_loop fuel' len sc ec ncur hbytes new old out rd pd cur
  end.

Definition ints_in (bytes : Z) : Z := Z.quot (bytes - 1) 4 + 1.
(** Internal/charInt.c:69-106 : [n] bytes of [from] to the front of [to] (as many bytes as [max]); with zeroEnd zeros to the end of the last int *)
Definition char_int (from : list Z) (n max : Z) (to : list Z) : res (list Z) :=
  let n := if max <? n then max else n in
  let* to := copy_loop (Z.to_nat n) from 0 to 0 in
  fill_loop (Z.to_nat (ints_in n * 4 - n)) 0 to n.

(** zpdStore.c:1066-1175 : the labels of some curves.  A record without labels has no header2: charInt is given a null
    pointer and takes its length (1070, charInt.c:87).  Space for more labels: 1112-1164. *)
Definition store_labels (p : pds) (r : pdrec) : res pdrec :=
  if p_lablen p >? 0 then
    if r_lablen r <=? 0 then Undef else
    let len := p_lablen p + r_lablen r in
    let hsize := Z.quot (alen (r_head2 r)) 4 in
    let* old := read_loop (Z.to_nat (r_lablen r)) (r_head2 r) 0 in
    let* out := label_loop (Z.to_nat len) len (p_sc p) (p_ec p) (r_c r) (hsize * 4) (p_labels p) old [] 0 0 1 in
    let new := out ++ repeat 0 (Z.to_nat (len - alen out)) in
    let bigger := alen out >? r_lablen r in
    let newsize := if bigger then ints_in (alen out) else hsize in
    if newsize >? hsize then
      let newsize := newsize + (if hsize <? 8 then r_c r * 10 else if hsize <? 101 then 50 else Z.quot newsize 4) in
      let* h := char_int new (r_lablen r) (newsize * 4) (repeat 0 (Z.to_nat (newsize * 4))) in
      Ok (mk_pdrec (r_dbl r) (r_n r) (r_c r) (r_ords r) (r_vals r) (newsize * 4) h)
    else
      let* h := char_int new (if bigger then alen out else r_lablen r) (hsize * 4) (r_head2 r) in
      Ok (mk_pdrec (r_dbl r) (r_n r) (r_c r) (r_ords r) (r_vals r) (r_lablen r) h)
  else Ok r.

(** zpdStore.c:893-1183 : part of a record that exists *)
Definition store_part (p : pds) (old : option pdrec) : res (bool * option pdrec) :=
  match old with
  | None => Ok (false, None)
  | Some r =>
      let '(row, rowE) := limits (p_so p) (p_eo p) (r_n r) in
      let '(cur, curE) := limits (p_sc p) (p_ec p) (r_c r) in
      if (rowE - row <? 0) then Undef else
      let* v := put_curves (Z.to_nat (curE - cur)) (r_dbl r) (r_n r) row (rowE - row) cur cur (p_vals p) (r_vals r) in
      match v with
      | None => Ok (false, old)
      | Some vals =>
          let* r' := store_labels p (mk_pdrec (r_dbl r) (r_n r) (r_c r) (r_ords r) vals (r_lablen r) (r_head2 r)) in
          Ok (true, Some r')
      end
  end.

(** zpdStore.c:207-1197 *)
Definition zpdStore (flag : Z) (p : pds) (old : option pdrec) : res (bool * option pdrec) :=
  if store_entire p then store_whole flag p old else store_part p old.

(** ** Retrieve *)
Record pdout := mk_pdout { o_dbl : bool; o_n : Z; o_c : Z; o_rows : Z; o_curves : Z; o_ords : arr; o_vals : arr; o_labels : list Z }.

(** zpdRetrieve.c:380-393 : where the labels wanted start and how many bytes they take; [cl] is the text with zeros after it *)
Fixpoint label_span (cnt : nat) (cl : list Z) (lablen first i ipos start count : Z) : res (Z * Z) :=
  match cnt with
  | O => Ok (start, count)
  | S cnt' =>
      let* len := len_at cl ipos in
      let '(start, count) := if i >=? first then (if start <? 0 then ipos else start, count + len + 1) else (start, count) in
      let ipos := ipos + len + 1 in
      if ipos >=? lablen then Ok (start, count) else label_span cnt' cl lablen first (i + 1) ipos start count
  end.
(** zpdRetrieve.c:363-412 *)
Definition read_labels (r : pdrec) (entire : bool) (sc ec : Z) : res (list Z) :=
  if alen (r_head2 r) >? 0 then
    let number := (Z.quot (Z.quot (alen (r_head2 r)) 4 + 1) 2 + 1) * 8 in
    if r_lablen r <=? 0 then Undef else
    let* l := read_loop (Z.to_nat (Z.min (r_lablen r) number)) (r_head2 r) 0 in
    let cl := l ++ repeat 0 (Z.to_nat (number - alen l)) in
    let '(first, last) := if entire then (0, r_c r) else (if sc - 1 <? 0 then 0 else sc - 1, if ec <? 0 then 0 else ec) in
    let* '(start, count) := label_span (Z.to_nat last) cl (r_lablen r) first 0 0 (-1) 0 in
    read_loop (Z.to_nat count) cl start
  else Ok [].

(** zpdRetrieve.c:650-697 *)
Fixpoint get_curves (cnt : nat) (from : bool) (n row rows i : Z) (area : list Z) : res (list Z) :=
  match cnt with
  | O => Ok []
  | S cnt' =>
      let* '(addr, off) := place from n row i in
      let* ws := get_at area addr (rows * size_of from + off) in
      let* rest := get_curves cnt' from n row rows (i + 1) area in
      Ok (skipn (Z.to_nat off) ws ++ rest)
  end.

(** zpdRetrieve.c:189-1046 : [flag] 0 as stored, 1 floats, 2 doubles; [n] and [c] are what is in numberOrdinates and numberCurves of
    the struct before the call (0 in a new struct).  None: no record, or no row to read. *)
Definition zpdRetrieve (flag : Z) (n c sc ec so eo : Z) (rec : option pdrec) : res (option pdout) :=
  let entire := negb ((sc >? 1) || (so >? 1) || (negb (eo =? 0) && negb (eo =? n)) || (negb (ec =? 0) && negb (ec =? c))) in
  match rec with
  | None => Ok None
  | Some r =>
      let* dbl := (if flag =? 0 then Ok (r_dbl r) else if flag =? 1 then Ok false else if flag =? 2 then Ok true else Undef) in
      let* nv := chk32 (r_n r * r_c r) in
      let* labels := read_labels r entire sc ec in
      if entire then
        let* w1 := read_loop (Z.to_nat (r_n r * size_of (r_dbl r))) (r_ords r) 0 in
        let* w2 := read_loop (Z.to_nat (nv * size_of (r_dbl r))) (r_vals r) 0 in
        Ok (Some (mk_pdout dbl (r_n r) (r_c r) (r_n r) (r_c r) (array_of (r_dbl r) dbl w1) (array_of (r_dbl r) dbl w2) labels))
      else
        let '(row, rowE) := limits so eo (r_n r) in
        let rows := rowE - row in
        if rows <? 1 then Ok None else
        let '(addr, off) := if r_dbl r then (row, 0) else (Z.quot row 2, if Z.odd row then 1 else 0) in
        let* w1 := get_at (r_ords r) addr (rows * size_of (r_dbl r) + off) in
        let '(cur, curE) := limits sc ec (r_c r) in
        let* w2 := get_curves (Z.to_nat (curE - cur)) (r_dbl r) (r_n r) row rows cur (r_vals r) in
        Ok (Some (mk_pdout dbl (r_n r) (r_c r) rows (curE - cur) (array_of (r_dbl r) dbl (skipn (Z.to_nat off) w1)) (array_of (r_dbl r) dbl w2) labels))
  end.
End M.
