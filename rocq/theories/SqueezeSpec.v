(** * What zsqueeze must preserve. *)
From Coq Require Import ZArith List Bool.
From Verif Require Import Base PackModel FileModel FileSpec FileHistSpec SqueezeModel.
Import ListNotations.
Open Scope Z_scope.

(** Time series (types 100 to 119) whose internal header has the padding before the units (word 17 zero or blanks),
    or no units; zsqueeze rewrites the header of others. *)
Definition plain_units (ct : content) : Prop :=
  100 <= ct_type ct <= 119 -> Z.of_nat (length (ct_ih ct)) <= 18 \/ nth 17 (ct_ih ct) 0 = 0 \/ nth 17 (ct_ih ct) 0 = 538976288.
(** Looking up [p] leads to the record header at word [a]. *)
Definition header_of (c : cfg) (s : st) (p : list Z) (a : Z) : Prop :=
  exists s', zcheckInternal c p ST_PRIMARY s = OK true s' /\ i_addInfo (s_ifl s') = a.
(** Nothing in the file but the headers of its records looks like the header of a record. *)
Definition no_lookalike (c : cfg) (s : st) : Prop :=
  forall a, In a (found_headers s) -> exists p, name_ok p /\ header_of c s p a.
(** A request that gives a record a proper name and padded units. *)
Definition op_plain (o : op) : Prop :=
  match o with Write _ _ x => proper (x_path x) /\ plain_units (stored x) | Rename _ new => proper new | _ => True end.
