(** * Model of sorted catalogues (Internal/zcatSortPath.c, zcatInternalSort.c and the helpers they use).  No proofs here.

    The catalogue that is sorted is given as the list of names and data types that zcatalogInternal collects (FileModel.zcatalog,
    CatModel.zcatalogSelect).  Not modelled: the list kept in the file by an earlier sort (sortListStatus = 1, zcatInternalSort.c:142-230),
    failing allocations, opening and removing of temporary files, version 6 files. *)
From Coq Require Import ZArith List Bool.
From Verif Require Import Base ArrayLib CStr PathModel DateModel DateTextModel IntervalModel SortModel.
Import ListNotations.
Open Scope Z_scope.
Open Scope res_scope.

(** Utilities/toFixedFields.c:28-68 with every field left-justified (as zcatSortPath.c:158, 160 asks): each field is a text and
    its column.  A cell written outside the [size] bytes of the string is undefined. *)
Fixpoint fixed_loop (size : Z) (fields : list (list Z * Z)) (text : list Z) : res (list Z) :=
  match fields with
  | [] => Ok text
  | (f, start) :: more =>
      let text := text ++ repeat 32 (Z.to_nat (start - slen text)) in
      let diff := match more with (_, next) :: _ => next - start | [] => slen f end in
      let len := if slen f >? diff then diff else slen f in
      let text := text ++ stake len f in
      if slen text >? size then Undef else fixed_loop size more text
  end.
(** toFixedFields.c:6-71: the text before the final NUL (the returned count is one more) *)
Definition toFixedFields (size : Z) (fields : list (list Z * Z)) : res (list Z) :=
  let* t := fixed_loop size fields (match fields with (_, c) :: _ => repeat 32 (Z.to_nat c) | [] => [] end) in
  if slen t <? size then Ok t else Undef.

(** printf " %.10d" *)
Definition fmt10 (n : Z) : list Z := 32 :: (if n <? 0 then 45 :: pad0 10 (dec (- n)) else pad0 10 (dec n)).

(** Utilities/DateTime/spatialDateTime.c:40-85: (day, seconds); [None] is STATUS_NOT_OKAY *)
Fixpoint index_of (c : Z) (s : list Z) : option Z :=
  match s with [] => None | x :: t => if x =? c then Some 0 else match index_of c t with Some i => Some (i + 1) | None => None end end.
Definition spatialDateTime (s : list Z) : res (option (Z * Z)) :=
  if slen s <? 10 then Ok None
  else
    match index_of 58 s with
    | Some 0 => Ok None
    | r =>
        let colon := match r with Some i => i | None => 0 end in
        let* j := dateToJulian (stake colon s) in
        if j =? UNDEFINED_TIME then Ok None
        else let* secs := timeStringToSeconds (sdrop (colon + 1) s) in
             if secs <? 0 then Ok None else Ok (Some (j, secs))
    end.

(** zcatSortPath.c:152-164: the fields in their order with their columns, the index number last *)
Fixpoint columns (cell : Z -> list Z * Z) (last : list Z) (start : Z) (ks : list Z) : list (list Z * Z) :=
  match ks with
  | [] => [(last, start)]
  | k :: t => (fst (cell k), start) :: columns cell last (start + snd (cell k) + 1) t
  end.

(** Internal/zcatSortPath.c:56-171: the text written (without its NUL; [None] is the return of -1 at 86-88) and the widths,
    of which the fifth may grow.  [junk] is the uninitialised array [positions].  The pathname buffer is taken to end after
    the pathname. *)
Definition zcatSortPath (junk s : list Z) (dataType : Z) (pm : list Z) (index : Z) : res (option (list Z) * list Z) :=
  let* '(number, pos) := zpathnamePartPositions s junk 7 in
  if negb (number =? 7) then Ok (None, pm)
  else
    let at_ i := nth (Z.to_nat i) pos 0 in
    let ptr i := sdrop (at_ i) s in                                   (* cpart[i] *)
    let part i := stake (at_ (i + 1) - at_ i - 1) (ptr i) in          (* its partLen[i] characters *)
    let max i := nth (Z.to_nat i) pm 0 in
    let* '(d, e, max4, order) :=
      (if (100 <=? dataType) && (dataType <? 200) then
         let* j := dateToJulian (stringCopy_val 129 (ptr 3) (Some (at_ 4 - at_ 3 - 1))) in
         let* d := (if j =? UNDEFINED_TIME then Ok (part 3) else let* j := chk32 (j + 10000000) in Ok (stake 128 (fmt10 j))) in
         let* iv := ztsGetStandardInterval 7 0 (stringCopy_val 129 (ptr 4) (Some (at_ 5 - at_ 4 - 1)) ++ [0]) 129 1 in
         let '(e, m) := (if iv_status iv =? -1 then (part 4, max 4)
                         else let e := stake 128 (fmt10 (iv_secs iv)) in (e, if slen e >? max 4 then slen e else max 4)) in
         Ok (d, e, m, [0; 1; 2; 5; 4; 3])
       else if (400 <=? dataType) && (dataType <? 500) then
         let* r := spatialDateTime (ptr 3) in
         let* d := (match r with
                    | Some (j, secs) => let* j := chk32 (j + 100000) in Ok (stake 128 (fmt10 j ++ 32 :: fmt_d (secs / 60)))
                    | None => Ok (part 3)
                    end) in
         Ok (d, part 4, max 4, [0; 1; 2; 3; 5; 4])
       else Ok (part 3, part 4, max 4, [0; 1; 2; 3; 4; 5])) in
    let parts := [part 0; part 1; part 2; d; e; part 5] in
    let pm := [max 0; max 1; max 2; max 3; max4; max 5] in
    let field k := nth (Z.to_nat k) parts [] in
    let width k := nth (Z.to_nat k) pm 0 in
    let* t := toFixedFields 788 (columns (fun k => (field k, width k)) (stake 11 (fmt10 index)) 0 order) in
    Ok (Some t, pm).

(** Internal/zcatalogInternal.c:402-411 over the collected names: the contents of the unsorted file *)
Fixpoint write_keys (junk : list Z) (items : list (list Z * Z)) (pm : list Z) (index : Z) : res (list Z) :=
  match items with
  | [] => Ok []
  | (name, ty) :: more =>
      let* '(t, pm') := zcatSortPath junk name ty pm index in
      let* r := write_keys junk more pm' (index + 1) in
      Ok (match t with Some t => t ++ 0 :: 10 :: r | None => 10 :: r end)
  end.

(** Utilities/getLastInt.c:44-49 and 53-58: going down from position [i] (while it is above 0) *)
Fixpoint down (p : Z -> bool) (n : nat) (s : list Z) : option Z :=
  match n with
  | O => None
  | S m => if p (nth n s 0) then Some (Z.of_nat n) else down p m s
  end.
(** Utilities/getLastInt.c:30-66 *)
Definition getLastInt (s : list Z) : res Z :=
  let end_ := slen s - 1 in
  if end_ <? 0 then Ok end_
  else
    let end_ := if nth (Z.to_nat end_) s 0 =? 32 then
                  match down (fun c => negb (c =? 32)) (Z.to_nat (end_ - 1)) s with Some i => i + 1 | None => end_ - 1 end
                else end_ in
    if end_ <? 0 then Ok (-1)
    else
      let start := match down (fun c => c =? 32) (Z.to_nat (end_ - 1)) s with Some i => i + 1 | None => end_ - 1 end in
      let start := if start =? end_ - 1 then 0 else start in
      let* r := findInt (sdrop start s) in Ok (fst r).

(** fgets (cline, size, fp): what is read (up to a new-line or [size] - 1 bytes) and what follows *)
Fixpoint fgets (n : nat) (b : list Z) : list Z * list Z :=
  match n, b with
  | S m, c :: t => if c =? 10 then ([c], t) else let (r, u) := fgets m t in (c :: r, u)
  | _, _ => ([], b)
  end.

(** zcatInternalSort.c:382-425: one turn per name; a slot stays empty ([None], a null pointer) where no number was found.
    The outer [None] is the return of -1 at 383-394. *)
Fixpoint read_sorted (n : nat) (b : list Z) (names : list (list Z)) : res (option (list (option (list Z)))) :=
  match n with
  | O => Ok (Some [])
  | S m =>
      let (line, b') := fgets 399 b in
      match line with
      | [] => Ok None
      | _ =>
          let* text := cstr (line ++ [0]) in
          let* sequence := getLastInt text in
          let* slot := (if sequence >? -1 then let* p := aget names sequence in Ok (Some p) else Ok None) in
          let* r := read_sorted m b' names in
          Ok (match r with Some l => Some (slot :: l) | None => None end)
      end
  end.

(** Internal/zcatalogInternal.c:250-255: the widths handed on, from the lengths of the longest A, B, C, D, E and F parts that the
    file header keeps; the fourth is that of F and the sixth that of D *)
Definition partMax (longest : list Z) : list Z :=
  let n k := nth k longest 0 in [n 0%nat; n 1%nat; n 2%nat; n 5%nat; n 4%nat; n 3%nat].

(** Internal/zcatInternalSort.c:235-443: the sorted list of names *)
Definition zcatInternalSort (junk : list Z) (pm : list Z) (items : list (list Z * Z)) : res (option (list (option (list Z)))) :=
  let* unsorted := write_keys junk items pm 0 in
  let* sorted := sortfiles unsorted in
  read_sorted (length items) sorted (map fst items).

(** zcatalogInternal.c:250-255, 402-411 and zcatInternalSort.c:235-443 together: [longest] as in [partMax] *)
Definition sortedCatalogue (junk longest : list Z) (items : list (list Z * Z)) : res (option (list (option (list Z)))) :=
  zcatInternalSort junk (partMax longest) items.
