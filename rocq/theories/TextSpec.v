(** * Specification of the texts by which times and dates are written (no reference to the model). *)
From Coq Require Import ZArith List Bool.
Import ListNotations.
Open Scope Z_scope.

(** two decimal digits *)
Definition two_digits (n : Z) : list Z := [48 + n / 10; 48 + n mod 10].

(** hhmm, hh:mm, hh:mm:ss of a time given in seconds past midnight *)
Definition time_text (style s : Z) : list Z :=
  let h := s / 3600 in let m := s / 60 mod 60 in
  if style =? 0 then two_digits h ++ two_digits m
  else if style =? 1 then two_digits h ++ [58] ++ two_digits m
  else two_digits h ++ [58] ++ two_digits m ++ [58] ++ two_digits (s mod 60).

(** the part of a time that a style can express: whole minutes for hhmm and hh:mm *)
Definition time_precision (style s : Z) : Z := if style =? 2 then s else 60 * (s / 60).

(** bytes a style needs, with the terminating NUL *)
Definition time_room (style : Z) : Z := if style =? 0 then 5 else if style =? 1 then 6 else 9.
