(** * Sorted catalogues (C55), specification. *)
From Coq Require Import ZArith List.
From Verif Require Import Base PathSpec.
Import ListNotations.
Open Scope Z_scope.

(** One record of a catalogue: the parts of its name, and its data type. *)
Record listed := { parts : list (list Z); kind : Z }.
Definition name (r : listed) : list Z := path_text (parts r).
(** Time series have the types 100 to 199, grids 400 to 499. *)
Definition is_series (k : Z) : bool := (100 <=? k) && (k <? 200).
Definition is_grid (k : Z) : bool := (400 <=? k) && (k <? 500).

(** A name that takes one line: six parts without slash, NUL or new-line, of at most 128 characters. *)
Definition plain_part (p : list Z) : Prop := c_text p /\ no_slash p /\ ~ In 10 p /\ (length p <= 128)%nat.
Definition sound_name (r : listed) : Prop := length (parts r) = 6%nat /\ Forall plain_part (parts r).

(** The lengths of the longest A, B, C, D, E and F parts of a file, which fit in a line of 399 bytes together
    (an interval in seconds takes 12 characters). *)
Record longest := { lA : Z; lB : Z; lC : Z; lD : Z; lE : Z; lF : Z }.
Definition sizes (w : longest) : list Z := [lA w; lB w; lC w; lD w; lE w; lF w].
Definition fit_a_line (w : longest) : Prop :=
  Forall (fun n => 0 <= n) (sizes w) /\ lA w + lB w + lC w + lD w + Z.max 12 (lE w) + lF w <= 380.

(** The parts of a record. *)
Definition nth_part (r : listed) (k : nat) : list Z := nth k (parts r) [].
(** A part in a column of [w] characters and one blank more. *)
Definition column (w : Z) (p : list Z) : list Z := p ++ repeat 32 (Z.to_nat (w + 1) - length p).

(** The answer to a request for a sorted catalogue: the names of these records, in this order. *)
Definition answer (l : list listed) : option (list (option (list Z))) := Some (map (fun r => Some (name r)) l).
(** [x] comes before [y] in [l]. *)
Definition before {A} (l : list A) (x y : A) : Prop := exists a b c, l = a ++ x :: b ++ y :: c.
