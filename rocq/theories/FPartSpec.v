(** * What a normalised F part is (C40), independently of the code. *)
From Coq Require Import ZArith List Bool.
From Verif Require Import HashModel DateSpec.
Import ListNotations.
Open Scope Z_scope.

(** An F part is cut at the bars (124); empty pieces do not count.  58 is the colon. *)
Fixpoint cut (s : list Z) : list (list Z) :=
  match s with
  | [] => [[]]
  | c :: t => if c =? 124 then [] :: cut t
              else match cut t with p :: r => (c :: p) :: r | [] => [[c]] end
  end.
Definition nonempty (p : list Z) : bool := match p with [] => false | _ => true end.
Definition pieces (s : list Z) : list (list Z) := filter nonempty (cut s).

(** the canonical order of the tags: C, N, T, R, V *)
Definition canonical_order : list Z := [67; 78; 84; 82; 86].

Definition untaggedb (p : list Z) : bool := forallb (fun c => negb (c =? 58)) p.
(** the piece is a letter, a colon and a value: gives the upper-case letter and the value *)
Definition tagged (p : list Z) : option (Z * list Z) :=
  match p with
  | a :: b :: v => if negb (a =? 58) && (b =? 58) then Some (toupper a, v) else None
  | _ => None
  end.
Fixpoint tags_in (ps : list (list Z)) : list (Z * list Z) :=
  match ps with [] => [] | p :: r => match tagged p with Some tv => tv :: tags_in r | None => tags_in r end end.
Definition untagged_in (ps : list (list Z)) : list (list Z) := filter untaggedb ps.

(** an F part that can be normalised, given which tag values are acceptable *)
Record good_fpart (valid : Z -> list Z -> Prop) (s : list Z) : Prop := {
  gf_colon : In 58 s;
  gf_pieces : forall p, In p (pieces s) -> untaggedb p = true \/ exists t v, tagged p = Some (t, v) /\ In t canonical_order /\ valid t v;
  gf_once : NoDup (map fst (tags_in (pieces s)));
  gf_rest : (length (untagged_in (pieces s)) <= 1)%nat;
  gf_end : last s 0 = 124 -> untagged_in (pieces s) = [] }.

(** the normal form: each tag present, in canonical order, written "T:value|", then the untagged text *)
Definition lookup (t : Z) (tags : list (Z * list Z)) : option (list Z) :=
  match find (fun tv => fst tv =? t) tags with Some tv => Some (snd tv) | None => None end.
Definition normal_form (s : list Z) : list Z :=
  concat (map (fun t => match lookup t (tags_in (pieces s)) with Some v => t :: 58 :: v ++ [124] | None => [] end) canonical_order)
  ++ concat (untagged_in (pieces s)).

(** acceptable values *)
Definition digitp (c : Z) : Prop := 48 <= c <= 57.
Definition letterp (c : Z) : Prop := 65 <= c <= 90 \/ 97 <= c <= 122.
Definition two (n : Z) : list Z := [48 + n / 10; 48 + n mod 10].
Definition stamp (y mo d h mi : Z) : list Z := two (y / 100) ++ two (y mod 100) ++ two mo ++ two d ++ [45] ++ two h ++ two mi.
Definition stamp_ok (y mo d h mi : Z) : Prop :=
  0 <= y <= 9999 /\ 1 <= mo <= 12 /\ 0 <= d <= month_length y mo /\ 0 <= mi <= 59 /\ (0 <= h <= 23 \/ h = 24 /\ mi = 0).
Inductive run_ok : list Z -> Prop :=
| run_nil : run_ok []
| run_dash t : run_ok t -> run_ok (45 :: 45 :: t)
| run_pair a b t : digitp a \/ letterp a -> digitp b -> run_ok t -> run_ok (a :: b :: t).
Definition valid_value (t : Z) (v : list Z) : Prop :=
  match t with
  | 67 => length v = 6%nat /\ Forall (fun c => digitp c \/ letterp c) v
  | 84 => exists y mo d h mi, stamp_ok y mo d h mi /\ v = stamp y mo d h mi
  | 78 => True
  | 86 => exists y mo d h mi s, stamp_ok y mo d h mi /\ 0 <= s <= 59 /\ v = stamp y mo d h mi ++ two s
  | 82 => run_ok v
  | _ => False
  end.
