(** * C48, specification: an irregular time series as a value at each instant, whatever the blocks. *)
From Coq Require Import ZArith List Bool.
From Verif Require Import Base DateModel DateSpec BlockSpec IrregProps.
Import ListNotations.
Open Scope Z_scope.

Section S.
Context {P : Type}.

(** One store: the base day, the storage flag, the values with their times, counted in granules of [g] seconds from 0:00
    of the base day. *)
Record iop := mk_iop { q_base : Z; q_flag : Z; q_vals : list (Z * P) }.
Definition instants (g base : Z) (vals : list (Z * P)) : list (Z * P) := map (fun e => (base * 86400 + fst e * g, snd e)) vals.
Definition op_instants (g : Z) (op : iop) : list (Z * P) := instants g (q_base op) (q_vals op).

(** [i] is not before the first and not after the last of the values *)
Definition spans (l : list (Z * P)) (i : Z) : bool := existsb (fun e => fst e <=? i) l && existsb (fun e => i <=? fst e) l.

(** Effect of a store: each instant given gets its value; with flag 1 everything else from the first to the last
    instant given is gone. *)
Definition spec_put (g : Z) (m : Z -> option P) (op : iop) : Z -> option P := fun i =>
  match at_time i (op_instants g op) with
  | Some v => Some v
  | None => if (q_flag op =? 1) && spans (op_instants g op) i then None else m i
  end.
Definition spec_all (g : Z) (ops : list iop) : Z -> option P := fold_left (spec_put g) ops (fun _ => None).

(** The block of an instant is the block of the day that ends at or next after it. *)
Definition civil (i y m d : Z) : Prop :=
  valid_date y m d /\ 200 <= y <= 4999899 /\ yearMonthDayToJulian y m d = Ok ((i - 1) / 86400).
Definition share_block (k : block_kind) (i i' : Z) : Prop :=
  exists y m d y' m' d', civil i y m d /\ civil i' y' m' d' /\ same_block k y m d y' m' d'.

(** Stores covered.  Times in strictly increasing order, within the years 340 to 4364 (about), and inside what 32 bit
    times can express; with flag 1, in the block of the first value: either nothing is stored there before it, or
    something is stored there from the first instant on and nothing after the last instant (if that is in the same
    block). *)
Definition in_years (i : Z) : Prop := -570000 * 86400 < i <= 900000 * 86400.
Definition replace_safe (k : block_kind) (m : Z -> option P) (first last : Z) : Prop :=
  (forall i, share_block k i first -> i < first -> m i = None) \/
  ((exists i, share_block k i first /\ first <= i /\ m i <> None) /\
   (share_block k last first -> forall i, share_block k i first -> last < i -> m i = None)).
Definition covered (k : block_kind) (g : Z) (m : Z -> option P) (op : iop) : Prop :=
  q_vals op <> [] /\ increasing (q_vals op) /\
  (forall e, In e (q_vals op) -> -1700000000 <= fst e <= 1700000000 /\ ~ (q_base op = 0 /\ fst e = 0)) /\
  (forall e e', In e (q_vals op) -> In e' (q_vals op) -> fst e' - fst e <= 1700000000) /\
  (forall e, In e (op_instants g op) -> in_years (fst e)) /\
  (q_flag op = 0 \/
   q_flag op = 1 /\
   (forall e, In e (op_instants g op) -> k = DayBlock -> (fst e - 1) / 86400 <> 0) /\
   forall f l r, op_instants g op = f :: r -> last (op_instants g op) f = l -> replace_safe k m (fst f) (fst l)).
Fixpoint all_covered (k : block_kind) (g : Z) (m : Z -> option P) (ops : list iop) : Prop :=
  match ops with
  | [] => True
  | op :: r => covered k g m op /\ all_covered k g (spec_put g m op) r
  end.

(** Granularities: a second, a minute, an hour, a day; not seconds in blocks of a decade or a century. *)
Definition gran_ok (k : block_kind) (g : Z) : Prop :=
  (g = 1 \/ g = 60 \/ g = 3600 \/ g = 86400) /\ (k = DecadeBlock \/ k = CenturyBlock -> g <> 1).

(** Windows covered: [rb] is the base day the caller asks for (0: none given). *)
Definition window_ok (k : block_kind) (g rb sj ss ej es : Z) : Prop :=
  0 < ss <= 86400 /\ 0 < es <= 86400 /\ sj <= ej /\ in_years (instant sj ss) /\ in_years (instant ej es) /\
  (k = CenturyBlock -> ss mod 60 = 0) /\
  instant ej es - instant sj ss <= 1000000000 * g /\
  (rb = 0 -> ~ (sj = ej /\ (sj = 0 \/ sj = -1))) /\
  (0 < rb -> -1000000000 * g <= instant sj ss - rb * 86400 /\ instant ej es - rb * 86400 <= 1000000000 * g).

(** What a caller gets back: granularity and base of the times, and the times with the values. *)
Definition shows (r : option (Z * Z) * list (Z * P)) : list (Z * P) :=
  match fst r with Some (g, b) => instants g b (snd r) | None => snd r end.
End S.
Arguments iop : clear implicits.
