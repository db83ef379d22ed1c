(** * C51, specification: what the calls of the library interface leave in the buffers of the caller. *)
From Coq Require Import ZArith List Bool.
From Verif Require Import Base ArrayLib CStr HecModel.
Import ListNotations.
Open Scope Z_scope.

(** [old] after [new] was written at its start: the rest is as it was. *)
Definition overlay {A} (new old : list A) : list A := new ++ skipn (length new) old.

(** Text that goes through the interface as it is: printable or control characters of ASCII, at least one, the last not a blank. *)
Definition plain (s : list Z) : Prop := s <> [] /\ Forall (fun c => 1 <= c <= 127) s /\ last s 0 <> 32.

(** The caller's array for [n] elements: filled when it is asked for exactly what the record holds, else left alone. *)
Definition filled {A} (held : list A) (buf : option (list A)) (n : Z) : option (list A) :=
  if n =? alen held then option_map (overlay held) buf else buf.
(** An array handed over: the first [n] elements of it; nothing for a null pointer. *)
Definition handed {A} (a : option (list A)) (n : Z) : list A := match a with Some l => firstn (Z.to_nat n) l | None => [] end.
Definition room {A} (a : option (list A)) (n : Z) : Prop := match a with Some l => n <= alen l | None => True end.

(** Entry [i] of a list of texts kept in [size] bytes each. *)
Definition item (buf : list Z) (size i : Z) : res (list Z) := cstr (sdrop (i * size) buf).
