(** * C52, specification: a location belongs to the first two parts of a pathname. *)
From Coq Require Import ZArith List Bool.
From Verif Require Import Base CStr PathSpec FileSpec LocModel.
Import ListNotations.
Open Scope Z_scope.

(** the name of the location record of the sites with parts [a] and [b]: /a/b/Location Info//// *)
Definition location_name (a b : list Z) : list Z := path_text [a; b; [76; 111; 99; 97; 116; 105; 111; 110; 32; 73; 110; 102; 111]; []; []; []].

(** a pathname of six parts *)
Definition six (parts : list (list Z)) : Prop := length parts = 6%nat /\ Forall no_slash parts.
Definition partA (parts : list (list Z)) : list Z := nth 0 parts [].
Definition partB (parts : list (list Z)) : list Z := nth 1 parts [].

(** a text field: nothing, or a text with its NUL in memory *)
Definition holds_text (f : option (list Z)) (t : option (list Z)) : Prop :=
  match t with
  | None => f = None
  | Some s => c_text s /\ exists rest, f = Some (s ++ 0 :: rest)
  end.
(** the field shows the text *)
Definition shows_text (f : option (list Z)) (t : option (list Z)) : Prop :=
  match t with
  | None => f = None
  | Some s => exists b, f = Some b /\ cstr b = Ok s
  end.
Definition zero_double (d : Z * Z) : Prop := d = (0, 0) \/ d = (0, -2147483648).
(** there is something to store *)
Definition something (l : location) : Prop :=
  ~ zero_double (lc_x l) \/ ~ zero_double (lc_y l) \/ ~ zero_double (lc_z l) \/ lc_hd l <> 0 \/ lc_vd l <> 0 \/ lc_sup l <> None \/
  exists c s, lc_tz l = Some (c :: s) /\ c <> 0.
Definition same_numbers (l l' : location) : Prop :=
  lc_x l' = lc_x l /\ lc_y l' = lc_y l /\ lc_z l' = lc_z l /\ lc_sys l' = lc_sys l /\ lc_id l' = lc_id l /\
  lc_hu l' = lc_hu l /\ lc_hd l' = lc_hd l /\ lc_vu l' = lc_vu l /\ lc_vd l' = lc_vd l.
