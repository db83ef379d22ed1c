(** * What the standard interval names mean, independently of the library's table. *)
From Coq Require Import ZArith List Bool String Ascii.
From Verif Require Import HashModel.
Import ListNotations.
Open Scope Z_scope.

Definition txt (s : string) : list Z := map (fun a => Z.of_nat (nat_of_ascii a)) (list_ascii_of_string s).

(** equal ignoring letter case *)
Definition ci_eq (a b : list Z) : Prop := map toupper a = map toupper b.
(** [p] is a beginning of [s], ignoring case *)
Definition ci_prefix (p s : list Z) : Prop := exists p' r, s = p' ++ r /\ ci_eq p p'.

Definition sec : Z := 1.
Definition minute : Z := 60 * sec.
Definition hour : Z := 60 * minute.
Definition day : Z := 24 * hour.

(** counts offered for each unit, and the unit's spelling in version 7 and version 6 *)
Inductive interval : Set :=
| Every (n : Z) (unit7 unit6 : string) (seconds : Z)
| Named (name7 name6 : string) (seconds : Z)
| Block (name7 name6 : string) (block : Z).

Definition digits (n : Z) : list Z := if n <? 10 then [48 + n] else [48 + n / 10; 48 + n mod 10].
Definition name_of (version : Z) (i : interval) : list Z :=
  match i with
  | Every n u7 u6 _ => digits n ++ txt (if version =? 6 then u6 else u7)
  | Named n7 n6 _ | Block n7 n6 _ => txt (if version =? 6 then n6 else n7)
  end.
(** seconds of a regular interval; irregular block sizes are numbered -1 (day) to -5 (century) *)
Definition seconds_of (i : interval) : Z :=
  match i with Every n _ _ s => n * s | Named _ _ s => s | Block _ _ b => - b end.

Definition every (l : list Z) (u7 u6 : string) (s : Z) : list interval := map (fun n => Every n u7 u6 s) l.

(** the intervals of each version; version 6 has no seconds *)
Definition standard (version : Z) : list interval :=
  every [1] "Year" "YEAR" (365 * day) ++ every [1] "Month" "MON" (30 * day) ++
  [Named "Semi-Month" "SEMI-MONTH" (15 * day); Named "Tri-Month" "TRI-MONTH" (10 * day)] ++
  every [1] "Week" "WEEK" (7 * day) ++ every [1] "Day" "DAY" day ++
  every [12; 8; 6; 4; 3; 2; 1] "Hour" "HOUR" hour ++
  every [30; 20; 15; 12; 10; 6; 5; 4; 3; 2; 1] "Minute" "MIN" minute ++
  (if version =? 6 then [] else every [30; 20; 15; 10; 6; 5; 4; 3; 2; 1] "Second" "" sec) ++
  [Block "IR-Century" "IR-CENTURY" 5; Block "IR-Decade" "IR-DECADE" 4; Block "IR-Year" "IR-YEAR" 3;
   Block "IR-Month" "IR-MONTH" 2; Block "IR-Day" "IR-DAY" 1].

(** length in seconds of a block class, for pseudo-regular names: the class whose block holds the interval *)
Definition pseudo_class (version seconds : Z) (block : Z) : Prop :=
  match block with
  | 1 => seconds < 30 * minute
  | 2 => 30 * minute <= seconds < (if version =? 6 then day else 6 * hour)
  | 3 => (if version =? 6 then day else 6 * hour) <= seconds < 7 * day
  | 4 => 7 * day <= seconds < 30 * day
  | 5 => 30 * day <= seconds
  | _ => False
  end.
