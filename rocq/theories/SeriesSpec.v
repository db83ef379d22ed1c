(** * C46, specification: a regular time series as one value (and quality) per period, whatever the blocks. *)
From Coq Require Import ZArith List Bool.
From Verif Require Import DateSpec BlockSpec RegStoreProps.
Import ListNotations.
Open Scope Z_scope.

(** One store: the time of the first value, the storage flag, the values, the quality words (or none). *)
Record store_op := mk_op { o_day : Z; o_sec : Z; o_flag : Z; o_vals : list Z; o_qual : option (list Z) }.
Definition op_len (op : store_op) : Z := Z.of_nat (length (o_vals op)).

(** Effect of a store on the value and quality of period [k], when the first value belongs to period [k0]. *)
Definition spec_store (miss : Z -> bool) (f : Z -> Z * Z) (k0 : Z) (op : store_op) : Z -> Z * Z := fun k =>
  if (k0 <=? k) && (k <? k0 + op_len op) then
    let new := nth (Z.to_nat (k - k0)) (o_vals op) 0 in
    let qnew := match o_qual op with Some q => nth (Z.to_nat (k - k0)) q 0 | None => 0 end in
    if replaces miss (o_flag op) (fst (f k)) new then (new, qnew) else f k
  else f k.

(** Value and quality of every period after a history of stores, each with the period of its first value.  Nothing
    stored: the missing value, quality zero. *)
Definition spec_history (miss : Z -> bool) (mval : Z) (ops : list (Z * store_op)) : Z -> Z * Z :=
  fold_left (fun f op => spec_store miss f (fst op) (snd op)) ops (fun _ => (mval, 0)).

(** Intervals of [i] seconds, at most a day: period [k] ends at the instant [k * i], and a time belongs to the period
    that ends at or next after it. *)
Definition in_period (i k day sec : Z) : Prop := 0 < sec <= 86400 /\ (k - 1) * i < instant day sec <= k * i.

(** No run of [g] consecutive data that are missing and have quality zero. *)
Definition no_gap (miss : Z -> bool) (g : Z) (op : store_op) : Prop :=
  forall x, 0 <= x -> x + g <= op_len op -> exists y, x <= y < x + g /\
    (miss (nth (Z.to_nat y) (o_vals op) 0) = false \/ exists q, o_qual op = Some q /\ nth (Z.to_nat y) q 0 <> 0).

(** A lower bound on the number of days in a block. *)
Definition block_days (k : block_kind) : Z :=
  match k with DayBlock => 1 | MonthBlock => 28 | YearBlock => 365 | DecadeBlock => 3650 | CenturyBlock => 36500 end.
