(** * What a catalogue pattern selects (documentation of zcatalog, Public/zcatalog.c:16-23): a star at the beginning
    or at the end of a part of the pattern matches any text there, a part that is only a star matches everything, an
    empty part matches only an empty part; the case of letters does not count. *)
From Coq Require Import ZArith List Bool.
From Verif Require Import Base FileModel FileSpec PathSpec.
Import ListNotations.
Open Scope Z_scope.

Definition star : Z := 42.
Definition starts_with (t p : list Z) : Prop := exists r, canon p = canon t ++ r.
Definition ends_with (t p : list Z) : Prop := exists l, canon p = l ++ canon t.
Definition contains (t p : list Z) : Prop := exists l r, canon p = l ++ canon t ++ r.

(** [part_matches w p]: the part [p] of a name is matched by the part [w] of the pattern *)
Inductive part_matches : list Z -> list Z -> Prop :=
| pm_any p : part_matches [star] p
| pm_contains t p : contains t p -> part_matches (star :: t ++ [star]) p
| pm_starts t p : t <> [] -> hd 0 t <> star -> starts_with t p -> part_matches (t ++ [star]) p
| pm_ends t p : t <> [] -> last t 0 <> star -> ends_with t p -> part_matches (star :: t) p
| pm_equal t p : hd 0 t <> star -> last t 0 <> star -> canon p = canon t -> part_matches t p.

(** a name is matched when each of its six parts is *)
Definition name_matches (ws ps : list (list Z)) : Prop := Forall2 part_matches ws ps.

(** the parts of a name or of a pattern *)
Definition six_parts (ps : list (list Z)) : Prop := length ps = 6%nat /\ Forall no_slash ps /\ Forall c_text ps.
(** parts longer than 128 characters are cut by the library *)
Definition short_parts (ps : list (list Z)) : Prop := Forall (fun p => Z.of_nat (length p) <= 128) ps.
(** the pattern is not one the code gets wrong on this name: "*text" against a part shorter than the text, and "**"
    against an empty part *)
Definition part_safe (w p : list Z) : Prop :=
  (forall t, w = star :: t -> t <> [] -> last t 0 <> star -> (length t <= length p)%nat) /\
  (w = [star; star] -> p <> []).
Definition safe (ws ps : list (list Z)) : Prop := Forall2 part_safe ws ps.
