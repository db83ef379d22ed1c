(** * Specification of time-series blocks, independent of the model: what a block is. *)
From Coq Require Import ZArith.
From Verif Require Import DateSpec.
Open Scope Z_scope.

Inductive block_kind : Set := DayBlock | MonthBlock | YearBlock | DecadeBlock | CenturyBlock.

(** number by which the API names a block size (hecdss: 1 day ... 5 century) *)
Definition block_code (k : block_kind) : Z :=
  match k with DayBlock => 1 | MonthBlock => 2 | YearBlock => 3 | DecadeBlock => 4 | CenturyBlock => 5 end.

(** two civil dates belong to the same block *)
Definition same_block (k : block_kind) (y m d y' m' d' : Z) : Prop :=
  match k with
  | DayBlock => y = y' /\ m = m' /\ d = d'
  | MonthBlock => y = y' /\ m = m'
  | YearBlock => y = y'
  | DecadeBlock => y / 10 = y' / 10
  | CenturyBlock => y / 100 = y' / 100
  end.

(** civil date of the first day of the block of a date *)
Definition block_first (k : block_kind) (y m d : Z) : Z * Z * Z :=
  match k with
  | DayBlock => (y, m, d)
  | MonthBlock => (y, m, 1)
  | YearBlock => (y, 1, 1)
  | DecadeBlock => (10 * (y / 10), 1, 1)
  | CenturyBlock => (100 * (y / 100), 1, 1)
  end.

(** block size used for a regular interval of the given number of seconds: at least 15 minutes -> month,
    at least a day -> year, at least a week -> decade, at least a year -> century *)
Definition block_for_interval (seconds : Z) : block_kind :=
  if seconds <? 15 * 60 then DayBlock
  else if seconds <? 24 * 3600 then MonthBlock
  else if seconds <? 7 * 86400 then YearBlock
  else if seconds <? 365 * 86400 then DecadeBlock
  else CenturyBlock.
