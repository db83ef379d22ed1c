(** * C54, specification: texts made of keyed values, such as "unit:ft;owner:me;". *)
From Coq Require Import ZArith List Bool.
From Verif Require Import Base CStr.
Import ListNotations.
Open Scope Z_scope.

(** [p] is found somewhere in [t] *)
Definition occurs (p t : list Z) : Prop := exists a b, t = a ++ p ++ b.
(** an entry: key, separator and value *)
Definition entry (sep : list Z) (e : list Z * list Z) : list Z := fst e ++ sep ++ snd e.
(** the text of entries, each ended by the delimiter *)
Definition keyed (sep : list Z) (delim : Z) (es : list (list Z * list Z)) : list Z := concat (map (fun e => entry sep e ++ [delim]) es).
(** an entry that can be told apart: neither NUL nor the delimiter in it, a value *)
Definition proper_entry (sep : list Z) (delim : Z) (e : list Z * list Z) : Prop := Forall (fun c => c <> 0 /\ c <> delim) (entry sep e) /\ snd e <> [].
(** the key with its separator is nowhere in the entries *)
Definition key_free (sep k : list Z) (es : list (list Z * list Z)) : Prop := Forall (fun e => ~ occurs (k ++ sep) (entry sep e)) es.
(** the buffer holds the text *)
Definition holds (buf t : list Z) : Prop := Forall (fun c => c <> 0) t /\ exists J, buf = t ++ 0 :: J.
