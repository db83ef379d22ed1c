(** * C53, specification: base 64 as in RFC 4648, by arithmetic. *)
From Coq Require Import ZArith List Bool.
Import ListNotations.
Open Scope Z_scope.

(** the character of the value 0..63: A-Z, a-z, 0-9, + and / *)
Definition b64_char (d : Z) : Z :=
  if d <? 26 then 65 + d else if d <? 52 then 97 + (d - 26) else if d <? 62 then 48 + (d - 52) else if d =? 62 then 43 else 47.
(** the k-th of the four digits in base 64 of a number below 2^24, the first the most significant *)
Definition b64_digit (v k : Z) : Z := v / 64 ^ (3 - k) mod 64.
(** the text of a sequence of bytes: four characters for three bytes, [=] for what is missing at the end *)
Fixpoint b64_text (s : list Z) : list Z :=
  match s with
  | [] => []
  | [a] => let v := a * 65536 in [b64_char (b64_digit v 0); b64_char (b64_digit v 1); 61; 61]
  | [a; b] => let v := a * 65536 + b * 256 in [b64_char (b64_digit v 0); b64_char (b64_digit v 1); b64_char (b64_digit v 2); 61]
  | a :: b :: c :: t => let v := a * 65536 + b * 256 + c in
      b64_char (b64_digit v 0) :: b64_char (b64_digit v 1) :: b64_char (b64_digit v 2) :: b64_char (b64_digit v 3) :: b64_text t
  end.
