(** * What "changed since" means, in terms of the requests made. *)
From Coq Require Import ZArith List.
From Verif Require Import Base FileModel FileSpec.
Import ListNotations.
Open Scope Z_scope.

(** the requests among which the changes are looked for *)
Definition ordinary (o : op) : Prop := match o with Undelete _ | Rename _ _ => False | _ => True end.
(** the time at which the requests last wrote the record [p], successfully or not *)
Fixpoint last_write (ops : list op) (p : list Z) : option Z :=
  match ops with
  | [] => None
  | o :: t =>
      match last_write t p, o with
      | Some now, _ => Some now
      | None, Write now _ x => if list_eq_dec Z.eq_dec (canon (x_path x)) (canon p) then Some now else None
      | None, _ => None
      end
  end.
(** no name of the requests ends with a blank (catalogues list names without trailing blanks) *)
Definition names_end_well (ops : list op) : Prop := forall o q, In o ops -> In q (names_of o) -> last q 0 <> 32.
