(** * C49, specification: a paired data record as a table. *)
From Coq Require Import ZArith List Bool.
From Verif Require Import Base PdModel.
Import ListNotations.
Open Scope Z_scope.

(** A number, float or double, and what an array holds. *)
Inductive num := F (w : Z) | D (d : Z * Z).
Definition count (a : arr) : Z := match a with AF l => Z.of_nat (length l) | AD l => Z.of_nat (length l) end.
Definition el (a : arr) (i : Z) : option num :=
  if i <? 0 then None else
  match a with AF l => option_map F (nth_error l (Z.to_nat i)) | AD l => option_map D (nth_error l (Z.to_nat i)) end.
Definition num_at (a : arr) (i : Z) : num := match el a i with Some x => x | None => F 0 end.

Section S.
Variable widen : Z -> Z * Z.
Variable narrow : Z * Z -> Z.
Definition cast (dbl : bool) (x : num) : num :=
  match x with
  | F w => if dbl then D (widen w) else F w
  | D d => if dbl then D d else F (narrow d)
  end.
Definition zero (dbl : bool) : num := if dbl then D (0, 0) else F 0.

(** The table: type of its numbers, rows, curves, ordinate of each row, value in each row and curve (all counted from 0), the
    labels of the curves if there are any, and the number of bytes set aside for them. *)
Record table := mk_table { t_dbl : bool; t_n : Z; t_c : Z; t_ord : Z -> num; t_val : Z -> Z -> num; t_labs : option (list (list Z)); t_room : Z }.

(** Labels as the caller gives and gets them: each ends with a zero byte. *)
Definition text (labs : list (list Z)) : list Z := concat (map (fun l => l ++ [0]) labs).

(** What a caller asks for.  [extra]: bytes (zeros) given after the labels to keep room for longer ones.
    [PutPart]: first and last row, first and last curve, counted from 1; 0 and 0 for all of them. *)
Inductive op :=
| PutAll (flag : Z) (ords vals : arr) (n c : Z) (labs : option (list (list Z) * Z))
| Reserve (flag : Z) (ords : arr) (n c : Z) (labs : option (list (list Z) * Z))
| PutPart (vals : arr) (so eo sc ec : Z) (lab : option (list Z)).

Definition kind (flag : Z) (a : arr) : bool :=
  if (flag =? 1) || (flag =? 11) then false else if (flag =? 2) || (flag =? 12) then true else match a with AF _ => false | AD _ => true end.
Definition labels_of (labs : option (list (list Z) * Z)) : option (list (list Z)) := option_map fst labs.
Definition lab_bytes (labs : option (list (list Z) * Z)) : list Z :=
  match labs with Some (ls, extra) => text ls ++ repeat 0 (Z.to_nat extra) | None => [] end.

(** first (from 0) and one past the last of what [s] and [e] stand for *)
Definition from (s : Z) : Z := if s =? 0 then 0 else s - 1.
Definition upto (e n : Z) : Z := if e =? 0 then n else e.
Definition inside (s e n i : Z) : bool := (from s <=? i) && (i <? upto e n).
Fixpoint relabel (ls : list (list Z)) (k : nat) (l : list Z) : list (list Z) :=
  match ls, k with
  | [], _ => []
  | _ :: t, O => l :: t
  | x :: t, S k' => x :: relabel t k' l
  end.

(** Effect on the table. *)
Definition effect (o : op) (t : option table) : option table :=
  match o with
  | PutAll flag ords vals n c labs =>
      let d := kind flag ords in
      Some (mk_table d n c (fun r => cast d (num_at ords r)) (fun r q => cast d (num_at vals (q * n + r))) (labels_of labs) (Z.of_nat (length (lab_bytes labs))))
  | Reserve flag ords n c labs =>
      let d := kind flag ords in
      Some (mk_table d n c (fun r => cast d (num_at ords r)) (fun _ _ => zero d) (labels_of labs) (Z.of_nat (length (lab_bytes labs))))
  | PutPart vals so eo sc ec lab =>
      match t with
      | None => None
      | Some t =>
          let rows := upto eo (t_n t) - from so in
          Some (mk_table (t_dbl t) (t_n t) (t_c t) (t_ord t)
            (fun r q => if inside so eo (t_n t) r && inside sc ec (t_c t) q
                        then cast (t_dbl t) (num_at vals ((q - from sc) * rows + (r - from so))) else t_val t r q)
            (match lab, t_labs t with Some l, Some ls => Some (relabel ls (Z.to_nat (from sc)) l) | _, ls => ls end)
            (t_room t))
      end
  end.

(** The struct a caller fills in: for a part, numberOrdinates and numberCurves are those of the record. *)
Definition request (o : op) (t : option table) : Z * pds :=
  match o with
  | PutAll flag ords vals n c labs => (flag, mk_pds (Some ords) (Some vals) n c 0 0 0 0 (lab_bytes labs) (Z.of_nat (length (lab_bytes labs))))
  | Reserve flag ords n c labs => (flag, mk_pds (Some ords) None n c 0 0 0 0 (lab_bytes labs) (Z.of_nat (length (lab_bytes labs))))
  | PutPart vals so eo sc ec lab =>
      let '(n, c) := match t with Some t => (t_n t, t_c t) | None => (0, 0) end in
      let l := match lab with Some l => l ++ [0] | None => [] end in
      (0, mk_pds None (Some vals) n c sc ec so eo l (Z.of_nat (length l)))
  end.

(** Requests covered.  A range is 0 0 (all) or from 1 to at most the last; a part is a proper part, in the sense that no range
    tells that it is the whole table. *)
Definition range_ok (s e n : Z) : Prop := (s = 0 /\ e = 0) \/ (1 <= s <= e /\ e <= n).
Definition proper_part (so eo sc ec n c : Z) : Prop :=
  1 < so \/ 1 < sc \/ 0 < eo < n \/ 0 < ec < c \/ (so = 0 /\ sc <> 0).
Definition small (n c : Z) : Prop := 1 <= n /\ 1 <= c /\ (c + 1) * n <= 50000000.
Definition clean (l : list Z) : Prop := ~ In 0 l.
Definition labels_ok (c : Z) (labs : option (list (list Z) * Z)) : Prop :=
  match labs with
  | Some (ls, extra) => Z.of_nat (length ls) = c /\ (forall l, In l ls -> clean l) /\ 0 <= extra /\ Z.of_nat (length (lab_bytes labs)) <= 50000000
  | None => True
  end.
Definition same_kind (a b : arr) : Prop := match a, b with AF _, AF _ | AD _, AD _ => True | _, _ => False end.
Definition covered (o : op) (t : option table) : Prop :=
  match o with
  | PutAll flag ords vals n c labs =>
      0 <= flag <= 2 /\ small n c /\ same_kind ords vals /\ n <= count ords /\ n * c <= count vals /\ labels_ok c labs
  | Reserve flag ords n c labs => 10 <= flag <= 12 /\ small n c /\ n <= count ords /\ labels_ok c labs
  | PutPart vals so eo sc ec lab =>
      match t with
      | None => False
      | Some t =>
          range_ok so eo (t_n t) /\ range_ok sc ec (t_c t) /\ proper_part so eo sc ec (t_n t) (t_c t) /\
          (upto eo (t_n t) - from so) * (upto ec (t_c t) - from sc) <= count vals /\
          match lab with
          | None => True
          | Some l => clean l /\ 1 <= sc /\ sc = ec /\
                      exists ls, t_labs t = Some ls /\ Z.of_nat (length (text (relabel ls (Z.to_nat (from sc)) l))) <= t_room t
          end
      end
  end.
Fixpoint all_covered (ops : list op) (t : option table) : Prop :=
  match ops with
  | [] => True
  | o :: r => covered o t /\ all_covered r (effect o t)
  end.
Definition result (ops : list op) : option table := fold_left (fun t o => effect o t) ops None.

(** What a read must show: [flag] 0 as stored, 1 floats, 2 doubles. *)
Definition wanted (flag : Z) (t : table) : bool := if flag =? 0 then t_dbl t else flag =? 2.
(** the labels of the curves from the [a]th, [n] of them *)
Definition some_labels (ls : list (list Z)) (a n : Z) : list Z := text (firstn (Z.to_nat n) (skipn (Z.to_nat a) ls)).
Definition shows (t : table) (flag so eo sc ec : Z) (o : pdout) : Prop :=
  let rows := upto eo (t_n t) - from so in
  let curves := upto ec (t_c t) - from sc in
  let d := wanted flag t in
  o_dbl o = d /\ o_n o = t_n t /\ o_c o = t_c t /\ o_rows o = rows /\ o_curves o = curves /\
  count (o_ords o) = rows /\ count (o_vals o) = rows * curves /\
  (forall r, 0 <= r < rows -> el (o_ords o) r = Some (cast d (t_ord t (from so + r)))) /\
  (forall r q, 0 <= r < rows -> 0 <= q < curves -> el (o_vals o) (q * rows + r) = Some (cast d (t_val t (from so + r) (from sc + q)))) /\
  match t_labs t with
  | None => o_labels o = []
  | Some ls => (1 <= sc \/ (so = 0 /\ sc = 0)) -> o_labels o = some_labels ls (from sc) curves
  end.
End S.
