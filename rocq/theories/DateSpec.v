(** * Independent specification of the civil calendar and of instants (does not use the model). *)
From Coq Require Import ZArith Bool List.
Import ListNotations.
Open Scope Z_scope.

(** Gregorian rule. *)
Definition leap (y : Z) : bool :=
  (y mod 4 =? 0) && (negb (y mod 100 =? 0) || (y mod 400 =? 0)).

Definition month_length (y m : Z) : Z :=
  if m =? 2 then (if leap y then 29 else 28)
  else if (m =? 4) || (m =? 6) || (m =? 9) || (m =? 11) then 30
  else 31.

Definition valid_date (y m d : Z) : Prop := 1 <= m <= 12 /\ 1 <= d <= month_length y m.

(** The calendar day that follows a calendar day. *)
Definition next_day (c : Z * Z * Z) : Z * Z * Z :=
  let '(y, m, d) := c in
  if d <? month_length y m then (y, m, d + 1)
  else if m <? 12 then (y, m + 1, 1)
  else (y + 1, 1, 1).

(** [n] days later *)
Fixpoint days_later (n : nat) (c : Z * Z * Z) : Z * Z * Z :=
  match n with O => c | S n' => days_later n' (next_day c) end.

(** Month [k] months after month [m] of year [y]; months are numbered 1..12. *)
Definition month_shift (y m k : Z) : Z * Z :=
  (y + (m - 1 + k) / 12, (m - 1 + k) mod 12 + 1).

(** The instant, in seconds, named by a day number and seconds past the midnight that starts the day. *)
Definition instant (day secs : Z) : Z := day * 86400 + secs.

(** ** Calendar periods.  Periods of a kind are numbered by integers; the period with number [p] ends at
    24:00 of the day [period_end kind p]. *)
Inductive calendar_kind : Set := TriMonth | SemiMonth | Month | Year.

(** civil date of the last day of period number [p]:
    months: p = 12*year + (month-1); half months: 2 per month, ending on the 15th and the last day;
    thirds of a month: 3 per month, ending on the 10th, the 20th and the last day. *)
Definition period_end (k : calendar_kind) (p : Z) : Z * Z * Z :=
  match k with
  | Year => (p, 12, 31)
  | Month => let y := p / 12 in let m := p mod 12 + 1 in (y, m, month_length y m)
  | SemiMonth =>
      let y := p / 2 / 12 in let m := (p / 2) mod 12 + 1 in
      (y, m, if p mod 2 =? 0 then 15 else month_length y m)
  | TriMonth =>
      let y := p / 3 / 12 in let m := (p / 3) mod 12 + 1 in
      (y, m, if p mod 3 =? 0 then 10 else if p mod 3 =? 1 then 20 else month_length y m)
  end.

(** nominal length in seconds by which the API names the interval *)
Definition nominal_seconds (k : calendar_kind) : Z :=
  match k with TriMonth => 864000 (* 10 days *) | SemiMonth => 1296000 (* 15 *) | Month => 2592000 (* 30 *) | Year => 31536000 (* 365 *) end.

(** number of the period that contains a civil date *)
Definition period_of (k : calendar_kind) (y m d : Z) : Z :=
  match k with
  | Year => y
  | Month => 12 * y + (m - 1)
  | SemiMonth => 2 * (12 * y + (m - 1)) + (if d <=? 15 then 0 else 1)
  | TriMonth => 3 * (12 * y + (m - 1)) + (if d <=? 10 then 0 else if d <=? 20 then 1 else 2)
  end.

Definition periods_per_year (k : calendar_kind) : Z :=
  match k with Year => 1 | Month => 12 | SemiMonth => 24 | TriMonth => 36 end.
