(** * Model of the file sort behind sorted catalogues (Utilities/sortfiles.c), built without keys or options. *)
From Coq Require Import ZArith List Bool.
From Verif Require Import Base CStr.
Import ListNotations.
Open Scope Z_scope.
Open Scope res_scope.

(** the plain [char] of x86 is signed *)
Definition as_char (c : Z) : Z := if 127 <? c then c - 256 else c.

(** memcmp over [n] bytes; the sign is that of the first difference *)
Fixpoint memcmp (n : nat) (a b : list Z) : Z :=
  match n, a, b with
  | S n', x :: a', y :: b' => if x =? y then memcmp n' a' b' else x - y
  | _, _, _ => 0
  end.

(** sortfiles.c:1117-1156 compare, no key and no -r: keyhead.next is NULL since "-o" adds none *)
Definition compare (a b : list Z) : Z :=
  let min := Z.min (slen a) (slen b) in
  match a, b with
  | x :: _, y :: _ =>
      let diff := as_char x - as_char y in
      if diff =? 0 then
        let d := memcmp (Z.to_nat min) a b in
        if d =? 0 then slen a - slen b else d
      else diff
  | _, _ => slen a - slen b                          (* min == 0, 1139-1140 *)
  end.

(** A FILE open for reading: what is still to be read, and the end-of-file indicator.
    Simplification: reads do not fail. *)
Record input := { rest : list Z; eof : bool }.

(** fread(.., 1, n, fp): the indicator is raised when fewer than [n] bytes were left *)
Definition fread (n : Z) (f : input) : list Z * input :=
  (stake n (rest f), {| rest := sdrop n (rest f); eof := eof f || (slen (rest f) <? n) |}).

(** memchr(buf, '\n', used) *)
Definition has_newline (b : list Z) : bool := existsb (fun c => c =? 10) b.

(** struct buffer between two calls: allocated size and the [left] bytes kept (memmove of 617-618) *)
Record buffer := { alloc : Z; held : list Z }.

(** sortfiles.c:620-644, the reading loop of fillbuf: (allocated, contents, total, file).
    [buf->alloc *= 2] is an [int]. *)
Fixpoint fill (fuel : nat) (al : Z) (cont : list Z) (total : Z) (f : input) : res (Z * list Z * Z * input) :=
  if eof f || has_newline cont then Ok (al, cont, total, f)
  else match fuel with
  | O => Undef
  | S k =>
      let* al' := (if slen cont =? al then chk32 (al * 2) else Ok al) in
      let '(got, f') := fread (al' - slen cont) f in
      let* total' := chk32 (total + slen got) in
      fill k al' (cont ++ got) total' f'
  end.

(** the last byte of a non-empty buffer *)
Definition last_is_newline (b : list Z) : bool := match rev b with c :: _ => c =? 10 | [] => false end.

(** sortfiles.c:610-665 fillbuf: (allocated, contents, returned total, file) *)
Definition fillbuf (b : buffer) (f : input) : res (Z * list Z * Z * input) :=
  let* '(al, cont, total, f') := fill (S (length (rest f))) (alloc b) (held b) 0 f in
  if eof f' && (0 <? slen cont) && negb (last_is_newline cont) then
    let* al' := (if slen cont =? al then chk32 (al * 2) else Ok al) in
    let* total' := chk32 (total + 1) in
    Ok (al', cont ++ [10], total', f')
  else Ok (al, cont, total, f').

(** sortfiles.c:756-811 findlines: the lines of the buffer and the bytes left over.
    Simplification: the growing array of line descriptors is a list. *)
Fixpoint findlines (b : list Z) : list (list Z) * list Z :=
  match b with
  | [] => ([], [])
  | c :: t =>
      let (ls, r) := findlines t in
      if c =? 10 then ([] :: ls, r)
      else match ls with
           | [] => ([], c :: r)
           | l :: ls' => ((c :: l) :: ls', r)
           end
  end.

(** sortfiles.c:1397-1406, the merge of two sorted halves; what remains of the second half is already in place *)
Fixpoint merge_halves (lo : list (list Z)) : list (list Z) -> list (list Z) :=
  fix inner (hi : list (list Z)) : list (list Z) :=
    match lo, hi with
    | [], _ => hi
    | _, [] => lo
    | a :: lo', b :: hi' => if compare a b <=? 0 then a :: merge_halves lo' hi else b :: inner hi'
    end.

(** sortfiles.c:1369-1407 sortlines *)
Fixpoint sortlines (fuel : nat) (ls : list (list Z)) : res (list (list Z)) :=
  match fuel with
  | O => Undef
  | S k =>
      match ls with
      | [a; b] => Ok (if compare a b >? 0 then [b; a] else [a; b])
      | _ =>
          let nlo := Z.of_nat (length ls) / 2 in
          let nhi := Z.of_nat (length ls) - nlo in
          let lo := firstn (Z.to_nat nlo) ls in
          let hi := skipn (Z.to_nat nlo) ls in
          let* lo' := (if nlo >? 1 then sortlines k lo else Ok lo) in
          let* hi' := (if nhi >? 1 then sortlines k hi else Ok hi) in
          Ok (merge_halves lo' hi')
      end
  end.

(** sortfiles.c:1308-1310, 1522-1528: lines written out, each followed by a new-line *)
Fixpoint put_lines (ls : list (list Z)) : list Z :=
  match ls with [] => [] | l :: t => l ++ 10 :: put_lines t end.

(** One input of a merge (fps[i], buffer[i], lines[i] from cur[i] on), with its number i.
    The inputs are kept in the order of the array [ord]. *)
Record source := { num : Z; file : input; buf : buffer; todo : list (list Z) }.

Definition mergealloc : Z := 16384.       (* sortfiles.c:315 *)
Definition sortalloc : Z := 524288.       (* sortfiles.c:310 *)
Definition NMERGE : nat := 16.            (* sortfiles.c:302 *)

(** sortfiles.c:1252-1271: the first fill of each input; inputs without any line are dropped *)
Fixpoint open_sources (i : Z) (files : list (list Z)) : res (list source) :=
  match files with
  | [] => Ok []
  | b :: more =>
      let* '(al, cont, total, f) := fillbuf {| alloc := mergealloc; held := [] |} {| rest := b; eof := false |} in
      if total =? 0 then open_sources i more
      else
        let (ls, r) := findlines cont in
        let* t := open_sources (i + 1) more in
        Ok ({| num := i; file := f; buf := {| alloc := al; held := r |}; todo := ls |} :: t)
  end.

(** the current line of an input *)
Definition head (s : source) : res (list Z) := match todo s with l :: _ => Ok l | [] => Undef end.

(** sortfiles.c:1278-1281, up to the restart: the first adjacent pair out of order is exchanged *)
Fixpoint exchange (l : list source) : res (option (list source)) :=
  match l with
  | a :: ((b :: t) as tl) =>
      let* x := head a in
      let* y := head b in
      if compare x y >? 0 then Ok (Some (b :: a :: t))
      else let* r := exchange tl in
           Ok (match r with Some tl' => Some (a :: tl') | None => None end)
  | _ => Ok None
  end.

(** sortfiles.c:1278-1281: start again ([i = 0]) after every exchange *)
Fixpoint settle (fuel : nat) (l : list source) : res (list source) :=
  let* r := exchange l in
  match r with
  | None => Ok l
  | Some l' => match fuel with O => Undef | S k => settle k l' end
  end.

(** sortfiles.c:1345-1357: put the first input back at its place *)
Fixpoint reinsert (s : source) (l : list source) : res (list source) :=
  match l with
  | [] => Ok [s]
  | a :: t =>
      let* x := head s in
      let* y := head a in
      let d := compare x y in
      let d := if d =? 0 then num s - num a else d in
      if d <? 0 then Ok (s :: l)
      else let* r := reinsert s t in Ok (a :: r)
  end.

(** sortfiles.c:1323-1325: the numbers after a removed input *)
Definition renumber (n : Z) (s : source) : source :=
  {| num := if n <? num s then num s - 1 else num s; file := file s; buf := buf s; todo := todo s |}.

(** sortfiles.c:1284-1358: the bytes written to the output *)
Fixpoint merge_loop (fuel : nat) (l : list source) : res (list Z) :=
  match l with
  | [] => Ok []
  | s :: t =>
      match fuel, todo s with
      | S k, ln :: more =>
          let* rest :=
            (match more with
             | _ :: _ =>
                 let* l' := reinsert {| num := num s; file := file s; buf := buf s; todo := more |} t in
                 merge_loop k l'
             | [] =>
                 let* '(al, cont, total, f) := fillbuf (buf s) (file s) in
                 if total =? 0 then merge_loop k (map (renumber (num s)) t)
                 else
                   let (ls, r) := findlines cont in
                   let* l' := reinsert {| num := num s; file := f; buf := {| alloc := al; held := r |}; todo := ls |} t in
                   merge_loop k l'
             end) in
          Ok (ln ++ 10 :: rest)
      | _, _ => Undef
      end
  end.

(** sortfiles.c:1230-1366 mergefps, without -u *)
Definition mergefps (files : list (list Z)) : res (list Z) :=
  let* l := open_sources 0 files in
  let* l := settle (length l * length l) l in
  merge_loop (S (length (concat files))) l.

(** sortfiles.c:1445-1455: [n] groups of NMERGE files each *)
Fixpoint merge_groups (n : nat) (files : list (list Z)) : res (list (list Z) * list (list Z)) :=
  match n with
  | O => Ok ([], files)
  | S k => let* t := mergefps (firstn NMERGE files) in
           let* '(ts, r) := merge_groups k (skipn NMERGE files) in
           Ok (t :: ts, r)
  end.

(** sortfiles.c:1432-1472 merge; the remainder (maybe of no file) is merged too, into one more file *)
Fixpoint merge (fuel : nat) (files : list (list Z)) : res (list Z) :=
  if Nat.leb (length files) NMERGE then mergefps files
  else match fuel with
  | O => Undef
  | S k =>
      let* '(ts, r) := merge_groups (length files / NMERGE) files in
      let* t := mergefps r in
      merge k (ts ++ [t])
  end.

(** sortfiles.c:1501-1531, the loop of sort over its one file: what went straight to the output, and the
    temporary files in the order of their creation *)
Fixpoint sort_loop (fuel : nat) (b : buffer) (f : input) (direct : list Z) (temps : list (list Z)) : res (list Z * list (list Z)) :=
  let* '(al, cont, total, f') := fillbuf b f in
  if total =? 0 then Ok (direct, temps)
  else match fuel with
  | O => Undef
  | S k =>
      let (ls, r) := findlines cont in
      let* ls' := sortlines (S (length ls)) ls in
      let text := put_lines ls' in
      if eof f' && match temps with [] => true | _ => false end
      then sort_loop k {| alloc := al; held := r |} f' (direct ++ text) temps
      else sort_loop k {| alloc := al; held := r |} f' direct (temps ++ [text])
  end.

(** sortfiles.c:1475-1548 sort, 1604-1936 sortfilesGnu with "-o<out>" and one input, 1938-1951 sortfiles:
    the contents of the output file.  Simplification: file names, and opening and closing, are not modelled. *)
Definition sortfiles (content : list Z) : res (list Z) :=
  let* '(direct, temps) := sort_loop (S (length content)) {| alloc := sortalloc; held := [] |} {| rest := content; eof := false |} [] [] in
  match temps with
  | [] => Ok direct
  | _ => let* m := merge (length temps) temps in Ok (direct ++ m)
  end.
