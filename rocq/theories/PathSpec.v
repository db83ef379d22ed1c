(** * What a pathname is: specification used by C15, C16, C17 and C39. *)
From Coq Require Import ZArith List Bool.
Import ListNotations.
Open Scope Z_scope.

(** A text is a list of bytes.  47 is the slash, 32 the blank. *)
Definition blank_text (s : list Z) : Prop := Forall (fun c => c = 32) s.

(** [t] is [s] without its leading and trailing blanks *)
Definition trimmed (s t : list Z) : Prop :=
  exists l r, s = l ++ t ++ r /\ blank_text l /\ blank_text r /\
    (forall c u, t = c :: u -> c <> 32) /\ (forall u c, t = u ++ [c] -> c <> 32).

(** the text of the pathname with these parts: /A/B/C/D/E/F/ *)
Definition path_text (parts : list (list Z)) : list Z := 47 :: concat (map (fun p => p ++ [47]) parts).

Definition no_slash (s : list Z) : Prop := ~ In 47 s.
(** a C string: bytes, none of them the terminating NUL *)
Definition c_text (s : list Z) : Prop := Forall (fun c => 0 < c < 256) s.

(** printable characters, as the documentation of cleaning has it *)
Definition printable (c : Z) : bool := (32 <=? c) && (c <=? 126).
(** everything up to and including the n-th slash *)
Fixpoint upto_slash (n : nat) (s : list Z) : list Z :=
  match n, s with
  | O, _ => []
  | _, [] => []
  | S m, c :: t => c :: upto_slash (if c =? 47 then m else n) t
  end.
Definition cleaned (s : list Z) : list Z := upto_slash 7 (filter printable s).
