(** * Model of the pathname functions (Public/zpathname*.c, Utilities/trimPositions.c). *)
From Coq Require Import ZArith List Bool.
From Verif Require Import Base ArrayLib HashModel CStr DateTextModel.
Import ListNotations.
Open Scope Z_scope.
Open Scope res_scope.

(** Utilities/trimPositions.c:69-75 and 83-88: first and last position holding something else than a blank *)
Fixpoint first_nonblank (s : list Z) : option Z :=
  match s with
  | [] => None
  | c :: t => if c =? 32 then match first_nonblank t with Some i => Some (i + 1) | None => None end else Some 0
  end.
Fixpoint last_nonblank (s : list Z) : option Z :=
  match s with
  | [] => None
  | c :: t => match last_nonblank t with Some i => Some (i + 1) | None => if c =? 32 then None else Some 0 end
  end.

(** Utilities/trimPositions.c:57-90: (length, start, end) *)
Definition trimPositions (s : list Z) : Z * Z * Z :=
  match first_nonblank s, last_nonblank s with
  | Some a, Some b => (b - a + 1, a, b)
  | _, _ => (0, 0, 0)
  end.

(** Public/zpathnameAddPart.c:47-56: copy characters while there is room; [None] is the early return *)
Fixpoint add_chars (s : list Z) (count : Z) (buf : list Z) (size : Z) : res (Z * list Z * bool) :=
  match s with
  | [] => Ok (count, buf, true)
  | c :: t => if count <? size then let* b := aset buf count c in add_chars t (count + 1) b size
              else Ok (count, buf, false)
  end.

(** Public/zpathnameAddPart.c:38-63 *)
Definition zpathnameAddPart (part : list Z) (count : Z) (buf : list Z) (size : Z) : res (Z * list Z) :=
  let '(len, start, stop) := trimPositions part in
  let* r := if len >? 0 then add_chars (stake (stop - start + 1) (sdrop start part)) count buf size
            else Ok (count, buf, true) in
  let '(count, buf, go) := r in
  if go then
    (if count <? size then let* b := aset buf count 47 in Ok (count + 1, b) else Ok (count, buf))
  else Ok (count, buf).

(** Public/zpathnameForm.c:52-79; [parts] are the six part strings in order *)
Fixpoint add_parts (parts : list (list Z)) (count : Z) (buf : list Z) (size : Z) : res (Z * list Z) :=
  match parts with
  | [] => Ok (count, buf)
  | p :: t => let* r := zpathnameAddPart p count buf size in add_parts t (fst r) (snd r) size
  end.
Definition zpathnameForm (parts : list (list Z)) (buf : list Z) (size : Z) : res (Z * list Z) :=
  if 0 <? size then
    let* b := aset buf 0 47 in
    let* r := add_parts parts 1 b size in
    let '(count, b) := r in
    if count <? size then let* b := aset b count 0 in Ok (count + 1, b)
    else if size >? 0 then let* b := aset b (size - 1) 0 in Ok (count, b)
    else Ok (count, b)
  else Ok (0, buf).

(** Public/zpathnamePartLengths.c:57-67: the lengths found, without the limit on how many are stored.
    [i] is the index of the head of [s], [istart] the last slash. *)
Fixpoint part_lens (s : list Z) (i istart : Z) : list Z :=
  match s with
  | [] => []
  | c :: t => if c =? 47 then (i - istart - 1) :: part_lens t (i + 1) i else part_lens t (i + 1) istart
  end.

(** Public/zpathnamePartLengths.c:41-74: (returned count, lengths array) *)
Definition zpathnamePartLengths (s : list Z) (arr : list Z) (dim : Z) : res (Z * list Z) :=
  if dim <? 2 then Ok (-1, arr)
  else
    let size := Z.min dim 6 in
    let l := stake size (part_lens (sdrop 1 s) 1 0) in
    let* a := put_chars arr 0 l in
    let* a := fill_loop (Z.to_nat (size - slen l)) 0 a (slen l) in
    Ok (slen l, a).

(** Public/zpathnamePartPositions.c:77-79 *)
Fixpoint sum_loop (n : nat) (i : Z) (a : list Z) : res (list Z) :=
  match n with
  | O => Ok a
  | S m => let* x := aget a (i - 1) in let* y := aget a i in let* a' := aset a i (x + y + 1) in sum_loop m (i + 1) a'
  end.

(** Public/zpathnamePartPositions.c:53-81; [arr] is the caller's array with its previous contents *)
Definition zpathnamePartPositions (s : list Z) (arr : list Z) (dim : Z) : res (Z * list Z) :=
  let size := dim - 1 in
  if size <? 2 then Ok (-1, arr)
  else
    let* r := zpathnamePartLengths s (sdrop 1 arr) size in
    let '(number, a) := r in
    let a := stake 1 arr ++ a in
    if number <? 1 then Ok (number, a)
    else
      let size := if size >? 7 then 7 else size in
      let size := if number + 1 >? size then number + 1 else size in
      let* a := aset a 0 1 in
      let* a := sum_loop (Z.to_nat (size - 1)) 1 a in
      Ok (number + 1, a).

(** Public/zpathnameGetPart.c:40-70.  [junk] is what the uninitialised local array holds. *)
Definition zpathnameGetPart (junk : list Z) (s : list Z) (k : Z) (buf : list Z) (size : Z) : res (Z * list Z) :=
  if (k <? 1) || (k >? 6) then let* b := aset buf 0 0 in Ok (-1, b)
  else
    let* r := zpathnamePartPositions s junk 7 in
    let* stop := aget (snd r) k in
    let* start := aget (snd r) (k - 1) in
    let partLen := stop - start - 1 in
    if partLen <? 1 then let* b := aset buf 0 0 in Ok (0, b)
    else
      let partLen := if partLen >=? 129 then 128 else partLen in
      if (start <? 0) || (start >? slen s) then Undef
      else let* c := stringCopy buf size (sdrop start s) (Some partLen) in Ok (partLen, fst c).

(** Public/zpathnameSetPart.c:106-108: [n] moves, [i] downwards *)
Fixpoint shift_down (n : nat) (b : list Z) (i diff : Z) : res (list Z) :=
  match n with
  | O => Ok b
  | S m => let* x := aget b (i - diff) in let* b' := aset b i x in shift_down m b' (i - 1) diff
  end.

(** Public/zpathnameSetPart.c:43-116: (status, pathname buffer) *)
Definition zpathnameSetPart (junk buf : list Z) (size : Z) (part : list Z) (k : Z) : res (Z * list Z) :=
  if (k <? 1) || (k >? 6) then Ok (-1, buf)
  else
    let* s := cstr buf in
    let* r := zpathnamePartPositions s junk 7 in
    let* stop := aget (snd r) k in
    let* start := aget (snd r) (k - 1) in
    let* last := aget (snd r) 6 in
    let oldLength := stop - start - 1 in
    let newLength := slen part in
    if newLength =? oldLength then
      let* b := put_chars buf start part in Ok (0, b)
    else if newLength <? oldLength then
      let diff := oldLength - newLength in
      let endPath := last - diff in
      let* b := put_chars buf start part in
      let icount := start + newLength in
      let* b := self_copy_loop (Z.to_nat (endPath - icount)) b (icount + diff) icount in
      let* b := aset b endPath 0 in Ok (0, b)
    else
      let diff := newLength - oldLength in
      let endPath := last + diff in
      if endPath >? size then Ok (-1, buf)
      else
        let* b := aset buf endPath 0 in
        let endPath := endPath - 1 in
        let* b := shift_down (Z.to_nat (endPath - stop + 1)) b endPath diff in
        let* b := put_chars b start part in Ok (0, b).

(** Public/zpathnameClean.c:49-84 *)
Fixpoint clean_loop (s : list Z) (count slashes : Z) (buf : list Z) (size : Z) : res (Z * list Z) :=
  match s with
  | [] => Ok (count, buf)
  | c :: t =>
    let ch := schar c in
    if ch <? 32 then clean_loop t count slashes buf size
    else if ch >? 126 then clean_loop t count slashes buf size
    else
      let slashes := if ch =? 47 then slashes + 1 else slashes in
      if count >=? size then Ok (count, buf)
      else
        let* b := aset buf count c in
        if slashes =? 7 then Ok (count + 1, b) else clean_loop t (count + 1) slashes b size
  end.
(** Public/zpathnameClean.c:38-88 *)
Definition zpathnameClean (buf : list Z) (size : Z) (old : list Z) : res (Z * list Z) :=
  let* r := clean_loop old 0 0 buf size in
  let* b := aset (snd r) (fst r) 0 in
  Ok (fst r, b).

(** Public/zpathnameCompareCollection.c:47-69 over the first [n] characters of the two buffers *)
Fixpoint coll_loop (n : nat) (i : Z) (a b : list Z) (slashes : Z) (inPart isColl : bool) : res Z :=
  match n with
  | O => Ok (b2z isColl)
  | S m =>
    let* x := aget a i in
    let* y := aget b i in
    if negb inPart && negb (toupper x =? toupper y) then Ok 0
    else
      let isColl := if inPart && (x =? 124) then true else isColl in
      let inPart := if inPart && (x =? 124) then false else inPart in
      if x =? 47 then
        let slashes := slashes + 1 in
        if slashes =? 6 then
          let* z := aget a (i + 2) in
          coll_loop m (i + 1) a b slashes (if z =? 58 then true else inPart) isColl
        else coll_loop m (i + 1) a b slashes inPart isColl
      else coll_loop m (i + 1) a b slashes inPart isColl
  end.
(** Public/zpathnameCompareCollection.c:34-72 *)
Definition zpathnameCompareCollection (a b : list Z) (len : Z) : res Z := coll_loop (Z.to_nat len) 0 a b 0 false false.
