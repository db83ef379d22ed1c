(** * C50, specification: a regular series cut to the part that has values, with the time of every value. *)
From Coq Require Import ZArith List Bool.
From Verif Require Import Base DateSpec DateProps PathSpec TrimModel TextProps.
Import ListNotations.
Open Scope Z_scope.

(** Numbers at each time: one, or one for each depth of a profile. *)
Definition width (t : ts) : Z := if depth t =? 0 then 1 else depth t.
(** At time [i] (counted from 0) something is not missing. *)
Definition has_value (miss : Z -> bool) (t : ts) (i : Z) : Prop :=
  exists j, 0 <= j < width t /\ miss (nth (Z.to_nat (i * width t + j)) (vals t) 0) = false.
(** [n] rows of [d] elements, from row [f] (counted from 0) on. *)
Definition rows {A} (l : list A) (d f n : Z) : list A := firstn (Z.to_nat (n * d)) (skipn (Z.to_nat (f * d)) l).

(** What a read leaves for [num] times: the values, and for those that there are the quality, the note numbers and the
    note texts, all of the right length; no times yet; the window is from start to end. *)
Definition is_read (t : ts) : Prop :=
  0 < num t /\ 0 <= depth t /\ Z.of_nat (length (vals t)) = num t * width t /\ num t * width t <= INT_MAX /\ times t = None /\
  (forall q, qual t = Some q -> 0 <= qsize t /\ Z.of_nat (length q) = num t * qsize t /\ num t * qsize t <= INT_MAX) /\
  (forall q, inotes t = Some q -> 0 <= isize t /\ Z.of_nat (length q) = num t * isize t /\ num t * isize t <= INT_MAX) /\
  (forall c, cnotes t = Some c -> exists lines, c = packed lines /\ Forall c_text lines /\ Z.of_nat (length lines) = num t) /\
  sj t = w_sj t /\ ss t = w_ss t /\ ej t = w_ej t /\ es t = w_es t /\ w_n t = num t /\ w_int t = interval t.

(** [t'] holds the [n] times of [t] from [f] on. *)
Definition is_part (t : ts) (f n : Z) (t' : ts) : Prop :=
  num t' = n /\ depth t' = depth t /\ interval t' = interval t /\
  vals t' = rows (vals t) (width t) f n /\
  qual t' = option_map (fun q => rows q (qsize t) f n) (qual t) /\ qsize t' = qsize t /\
  inotes t' = option_map (fun q => rows q (isize t) f n) (inotes t) /\ isize t' = isize t /\
  match cnotes t with
  | None => cnotes t' = None
  | Some _ => forall lines, cnotes t = Some (packed lines) -> Forall c_text lines -> cnotes t' = Some (packed (rows lines 1 f n))
  end.

(** Intervals of up to a day, and of a week: the time of value [k], in seconds.  The window is given by ends of intervals; with
    an offset the values lie that much after the beginning of their interval. *)
Definition value_time (t : ts) (k : Z) : Z :=
  instant (w_sj t) (w_ss t) + k * interval t + (if offset t =? 0 then 0 else offset t - interval t).
Definition short_window (t : ts) : Prop :=
  ((1 <= interval t <= 86400 /\ 86400 mod interval t = 0) \/ interval t = 604800) /\ 0 <= offset t < interval t /\
  10 <= w_sj t /\ 0 < w_ss t <= 86400 /\ 0 < w_es t <= 86400 /\ w_ej t <= 100000000 /\ 0 <= base t <= 100000000 /\
  instant (w_sj t) (w_ss t) mod interval t = 0 /\
  instant (w_ej t) (w_es t) = instant (w_sj t) (w_ss t) + (num t - 1) * interval t.
(** The times of the values, in units of [gran] seconds after the base date, are 32-bit numbers. *)
Definition times_fit (t : ts) : Prop :=
  0 < gran t /\ 86400 mod gran t = 0 /\ interval t mod gran t = 0 /\
  - 2000000000 * gran t <= value_time t 0 - 86400 * base t /\ value_time t (num t - 1) - 86400 * base t + 86400 <= 2000000000 * gran t.
Definition time_list (t : ts) (f n : Z) : list Z :=
  map (fun k => (value_time t (f + Z.of_nat k) - 86400 * base t) / gran t) (seq 0 (Z.to_nat n)).

(** Calendar intervals: the window is from the end of period [p] on; no offset, no base date. *)
Definition calendar_window (k : calendar_kind) (p : Z) (t : ts) : Prop :=
  interval t = nominal_seconds k /\ offset t = 0 /\ base t = 0 /\
  6 <= p / periods_per_year k /\ (p + num t) / periods_per_year k <= 4999999 /\
  last_day_number k p = Ok (w_sj t) /\ w_ss t = 86400 /\ last_day_number k (p + num t - 1) = Ok (w_ej t) /\ w_es t = 86400.
