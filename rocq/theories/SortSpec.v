(** * What sorting a text file means (C55), independent of the code: lines, their order, the result. *)
From Coq Require Import ZArith List Sorted Permutation.
Import ListNotations.
Open Scope Z_scope.

(** The pieces of a text between new-lines (byte 10), and what follows the last one. *)
Fixpoint pieces (b : list Z) : list (list Z) * list Z :=
  match b with
  | [] => ([], [])
  | c :: t =>
      let (ls, r) := pieces t in
      if c =? 10 then ([] :: ls, r)
      else match ls with
           | [] => ([], c :: r)
           | l :: ls' => ((c :: l) :: ls', r)
           end
  end.

(** The lines of a text; an unfinished last line counts as a line. *)
Definition lines_of (b : list Z) : list (list Z) :=
  let (ls, r) := pieces b in
  match r with [] => ls | _ => ls ++ [r] end.

(** Dictionary order of byte strings. *)
Fixpoint lex (a b : list Z) : Prop :=
  match a, b with
  | [], _ => True
  | _ :: _, [] => False
  | x :: a', y :: b' => x < y \/ (x = y /\ lex a' b')
  end.

(** The order of two lines: dictionary order, except that the first bytes are compared as signed
    characters (so a line starting with a byte above 127 comes first). *)
Definition signed (c : Z) : Z := if 127 <? c then c - 256 else c.
Definition line_le (a b : list Z) : Prop :=
  match a, b with
  | x :: _, y :: _ => signed x < signed y \/ (signed x = signed y /\ lex a b)
  | _, _ => lex a b
  end.

(** The text made of some lines. *)
Definition text_of (ls : list (list Z)) : list Z := flat_map (fun l => l ++ [10]) ls.

(** [out] is [content] sorted: the same lines, each as often as before, in increasing order. *)
Definition sorted_text (content out : list Z) : Prop :=
  exists ls, out = text_of ls /\ Permutation (lines_of content) ls /\ StronglySorted line_le ls.
