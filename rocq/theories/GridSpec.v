(** * C56, specification: what a grid is, and when two structs show the same one. *)
From Coq Require Import ZArith List Bool.
From Verif Require Import Base ArrayLib CStr PathSpec TextModel HecSpec GridModel.
Import ListNotations.
Open Scope Z_scope.

(** What is asked of zlib: what was compressed is decompressed again into a room of its own size. *)
Definition lossless (deflate : list Z -> option (list Z)) (inflate : list Z -> Z -> option (list Z)) : Prop :=
  forall b z, deflate b = Some z -> Forall (fun x => 0 <= x < 256) z /\ inflate z (Z.of_nat (length b)) = Some b.

(** a text of a grid: plain (C51) or empty *)
Definition simple (s : list Z) : Prop := s = [] \/ plain s.
(** the field holds the text; a null pointer stands for no text *)
Definition holds (f : option (list Z)) (s : list Z) : Prop :=
  simple s /\ ((f = None /\ s = []) \/ exists rest, f = Some (s ++ 0 :: rest)).
(** the field shows the text *)
Definition shows (f : option (list Z)) (s : list Z) : Prop := exists b, f = Some b /\ cstr b = Ok s.

(** the first [n] words of an array that has as many *)
Definition has (p : option (list Z)) (n : Z) (l : list Z) : Prop := Z.of_nat (length l) = n /\ exists rest, p = Some (l ++ rest).
(** an array that may be null when nothing is in it *)
Definition has_or_null (p : option (list Z)) (n : Z) (l : list Z) : Prop := has p n l \/ (n = 0 /\ l = [] /\ p = None).

(** a 32-bit word *)
Definition word (x : Z) : Prop := -2147483648 <= x <= 2147483647.

(** A grid that can be stored, but for its cells: texts [texts] (units, source, name and definition of the reference system, time zone), limits
    and counts of the ranges. *)
Definition head_is (g : grid) (texts : list (list Z)) (min max mean : Z) (limits counts : list Z) : Prop :=
  g_sv g = -100 /\ 400 <= g_type g <= 431 /\ g_storage g = 0 /\
  0 <= g_nr g <= 1000000000 /\ 0 <= g_nx g /\ 0 <= g_ny g /\ g_nx g * g_ny g <= 500000000 /\
  Forall2 holds (g_texts g) texts /\ Z.of_nat (length (concat texts)) <= 2000000000 /\
  g_min g = Some min /\ g_max g = Some max /\ g_mean g = Some mean /\
  has_or_null (g_limits g) (g_nr g) limits /\ has_or_null (g_counts g) (g_nr g) counts.
(** ... with cells [cells], row by row *)
Definition grid_is (g : grid) (texts : list (list Z)) (min max mean : Z) (limits counts cells : list Z) : Prop :=
  head_is g texts min max mean limits counts /\
  has_or_null (g_data g) (g_nx g * g_ny g) cells /\ Forall word cells.

(** The numbers of the two structs are the same.  The version and the number of bytes stored are not among them. *)
Definition same_grid (g g' : grid) : Prop :=
  g_sv g' = g_sv g /\ g_type g' = g_type g /\ g_dtype g' = g_dtype g /\ g_llx g' = g_llx g /\ g_lly g' = g_lly g /\ g_nx g' = g_nx g /\
  g_ny g' = g_ny g /\ g_comp g' = g_comp g /\ g_nr g' = g_nr g /\ g_srstype g' = g_srstype g /\ g_tzoff g' = g_tzoff g /\
  g_interval g' = g_interval g /\ g_stamped g' = g_stamped g /\ g_storage g' = g_storage g /\
  g_cell g' = g_cell g /\ g_x0 g' = g_x0 g /\ g_y0 g' = g_y0 g /\ g_null g' = g_null g.
(** the struct shows texts, statistics and ranges *)
Definition shows_grid (g : grid) (texts : list (list Z)) (min max mean : Z) (limits counts : list Z) : Prop :=
  Forall2 shows (g_texts g) texts /\ g_min g = Some min /\ g_max g = Some max /\ g_mean g = Some mean /\
  g_limits g = Some limits /\ g_counts g = Some counts.
(** the bytes of the cells that zlib is given: four each, least significant first, then zeros up to a whole number of pairs, at least one *)
Definition cell_bytes (cells : list Z) : list Z :=
  bytes_of_ints (cells ++ match cells with [] => [0; 0] | _ => if Z.odd (Z.of_nat (length cells)) then [0] else [] end).
