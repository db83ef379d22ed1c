(** * What copying must do, in terms of what a read of a pathname answers. *)
From Coq Require Import ZArith List Bool.
From Verif Require Import Base PackModel FileModel FileSpec FileHistSpec SqueezeModel SqueezeSpec CopyModel.
Import ListNotations.
Open Scope Z_scope.

(** The file can take the record [ct] under the name [to]: a proper name (not shorter than [W] words, see C27), units with
    their padding (see C35); a record already there has not fewer odd-length headers (see C23). *)
Definition takes (c : cfg) (W : Z) (t : st) (to : list Z) (ct : content) : Prop :=
  proper to /\ name_ok to /\ W <= name_words to /\ plain_units ct /\ forall old, reads c t to (Some old) -> odd_record ct <= odd_record old.
(** No record of another kind is in the way. *)
Definition agrees (c : cfg) (t : st) (to : list Z) (ct : content) : Prop :=
  forall old, reads c t to (Some old) -> same_family (ct_type old) (ct_type ct).
(** In [t] the name [to] (in whatever case) reads [ct]; every other name reads as it does in [s]. *)
Definition only_change (c : cfg) (s t : st) (to : list Z) (ct : content) : Prop :=
  (forall p, name_ok p -> canon p = canon to -> reads c t p (Some ct)) /\
  (forall p v, name_ok p -> canon p <> canon to -> (reads c t p v <-> reads c s p v)).
Definition no_change (c : cfg) (s t : st) : Prop := forall p v, name_ok p -> (reads c t p v <-> reads c s p v).

(** zcopyRecord copies the record as it is: by the type the directory gives it (zdataType). *)
Definition copied_as_is (c : cfg) (s : st) (from to : list Z) : Prop :=
  exists s1, exists ty, zcheck c from s = OK true s1 /\ 0 <= ty /\
    (100 <= ty < 200 -> series_internal from to = Ok true) /\
    (200 <= ty < 300 -> pathnameIsElevPd from && pathnameIsElevPd to = false) /\ ty = fst (i8toi4 false (i_typeCat (s_ifl s1))).

(** The files that ordinary calls (FileHistSpec.v), duplicating, copying between files and squeezing lead to. *)
Inductive reached : cfg -> Z -> st -> Prop :=
| at_new c W : usable c -> reached c W (new_file c)
| by_call c W s o r s' : reached c W s -> allowed c W s o -> exec c o s = Some (r, s') -> reached c W s'
| by_duplicate c W s ev from to r s' : reached c W s -> name_ok from -> (forall ct, reads c s from (Some ct) -> takes c W s to ct) ->
    zduplicateRecord c ev from to s = Answer r s' -> reached c W s'
| by_copy c0 W0 s c W t ev from to r t' : reached c0 W0 s -> reached c W t -> name_ok from ->
    (forall ct, reads c0 s from (Some ct) -> takes c W t to ct) -> zcopyRecord c0 s c ev from to t = Answer r t' -> reached c W t'
| by_copy_file c0 W0 s c W t ev r t' : reached c0 W0 s -> reached c W t -> no_lookalike c0 s ->
    (forall p ct, name_ok p -> reads c0 s p (Some ct) -> takes c W t p ct) ->
    zcopyFile c ev s t = Answer r t' -> reached c W t'
| by_squeeze c W s c' W' ev t : reached c W s -> usable c' -> no_lookalike c s ->
    (forall p ct, name_ok p -> reads c s p (Some ct) -> proper p /\ plain_units ct) ->
    squeeze c' ev s = Some t -> reached c' W' t.
