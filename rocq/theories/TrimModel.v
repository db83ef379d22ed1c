(** * Model of trimming a regular time series and of giving its times (no proofs here).

    Internal/ztsTrim.c, Internal/ztsTrimAdjustTimeWindow.c, Internal/ztsRegAddTimes.c and the end of Public/ztsRetrieve.c
    (lines 611-630), for a regular interval (ztsRetrieve only trims those).  Floats and doubles are words here, and which of
    them are missing is a parameter.  Not modelled: memory errors, messages. *)
From Coq Require Import ZArith List Lia Bool.
From Verif Require Import Base DateModel ArrayLib TextModel.
Import ListNotations.
Open Scope Z_scope.
Open Scope res_scope.

(** headers/zStructTimeSeries.h : the fields used.  [depth] is profileDepthsNumber, 0 when there is one value at each time;
    [w_*] are the fields of timeWindow *)
Record ts := mk_ts { vals : list Z; depth : Z; num : Z; times : option (list Z);
  qual : option (list Z); qsize : Z; inotes : option (list Z); isize : Z; cnotes : option (list Z);
  sj : Z; ss : Z; ej : Z; es : Z; interval : Z; offset : Z; gran : Z; base : Z;
  w_int : Z; w_sj : Z; w_ss : Z; w_ej : Z; w_es : Z; w_n : Z }.

Section M.
(** zmissingFlag.c:89-121 *)
Variable miss : Z -> bool.

(** ztsTrim.c:178-184 : some value from position [pos] on, of [cnt], is not missing *)
Fixpoint row_has (cnt : nat) (l : list Z) (pos : Z) : res bool :=
  match cnt with
  | O => Ok false
  | S cnt' => let* v := aget l pos in if negb (miss v) then Ok true else row_has cnt' l (pos + 1)
  end.
Definition row_valid (l : list Z) (d i : Z) : res bool :=
  if d =? 0 then let* v := aget l i in Ok (negb (miss v))
  else let* p := chk32 (i * d) in row_has (Z.to_nat d) l p.
(** ztsTrim.c:86-91, 105-110, 177-187, 208-218 *)
Fixpoint scan_up (cnt : nat) (l : list Z) (d i : Z) : res Z :=
  match cnt with
  | O => Ok (-1)
  | S cnt' => let* b := row_valid l d i in if b then Ok i else scan_up cnt' l d (i + 1)
  end.
(** ztsTrim.c:96-101, 115-120, 192-203, 223-234; [none] is what lastValid was *)
Fixpoint scan_down (cnt : nat) (l : list Z) (d none : Z) : res Z :=
  match cnt with
  | O => Ok none
  | S cnt' => let* b := row_valid l d (Z.of_nat cnt') in if b then Ok (Z.of_nat cnt') else scan_down cnt' l d none
  end.
(** ztsTrim.c:135-137, 254-261, 303-306, 318-325, 337-343 : [n] rows of [d] numbers from row [f] *)
Definition slice (l : list Z) (d f n : Z) : res (list Z) :=
  let* p := chk32 (f * d) in read_loop (Z.to_nat (n * d)) l p.
Definition slice_opt (o : option (list Z)) (d f n : Z) : res (option (list Z)) :=
  match o with None => Ok None | Some l => let* l := slice l d f n in Ok (Some l) end.
(** ztsTrim.c:347-372; line 357 is never true.  The new array is one byte longer than [numberToMalloc], and zero *)
Definition slice_notes (o : option (list Z)) (f n : Z) : res (option (list Z)) :=
  match o with
  | None => Ok None
  | Some c =>
      let* count := (if f >? 0 then let* '(k, _) := copyLines (Some [0]) 0 (Some c) (alen c) f in Ok k else Ok 0) in
      let m := alen c - count in
      if m <? 0 then Undef else
      let* '(k, out) := copyLines (Some (repeat 0 (Z.to_nat m))) m (Some (skipn (Z.to_nat count) c)) m n in
      match out with None => Undef | Some out => Ok (Some (firstn (Z.to_nat k) out)) end
  end.

(** ztsTrimAdjustTimeWindow.c:42-104, intervalSeconds > 0 *)
Definition adjust (t : ts) (f l : Z) : res ts :=
  let* '(sj', ss') :=
    (if f >? 0 then
       let* j := chk32 (w_sj t + base t) in
       let* '(_, j, s) := incrementTime (w_int t) f j (w_ss t) in
       let* j := chk32 (j - base t) in Ok (j, s)
     else Ok (sj t, ss t)) in
  let* '(ej', es') :=
    (if l <? num t - 1 then
       let* j := chk32 (w_ej t + base t) in
       let* '(_, j, s) := incrementTime (w_int t) (l - num t + 1) j (w_es t) in
       let* j := chk32 (j - base t) in Ok (j, s)
     else Ok (ej t, es t)) in
  let n := l - f + 1 in
  Ok (mk_ts (vals t) (depth t) n (times t) (qual t) (qsize t) (inotes t) (isize t) (cnotes t) sj' ss' ej' es'
        (interval t) (offset t) (gran t) (base t) (w_int t) sj' ss' ej' es' n).

(** ztsTrim.c:46-376.  false: nothing but missing values (or none) *)
Definition ztsTrim (t : ts) : res (bool * ts) :=
  if num t <=? 0 then Ok (false, t) else
  let* f := scan_up (Z.to_nat (num t)) (vals t) (depth t) 0 in
  let* l := (if f =? -1 then Ok (num t) else scan_down (Z.to_nat (num t)) (vals t) (depth t) (num t)) in
  let n0 := if f =? -1 then 0 else num t in
  let cut := if depth t =? 0 then (f >? 0) || (l <? n0 - 1) else (f >? 0) || negb (l =? n0 - 1) in
  let n := l - f + 1 in
  let with_vals v := mk_ts v (depth t) (num t) (times t) (qual t) (qsize t) (inotes t) (isize t) (cnotes t) (sj t) (ss t) (ej t) (es t)
                       (interval t) (offset t) (gran t) (base t) (w_int t) (w_sj t) (w_ss t) (w_ej t) (w_es t) (w_n t) in
  if negb cut && (f =? -1) then
    Ok (false, mk_ts (vals t) (depth t) 0 (times t) (qual t) (qsize t) (inotes t) (isize t) (cnotes t) (sj t) (ss t) (ej t) (es t)
                 (interval t) (offset t) (gran t) (base t) (w_int t) (w_sj t) (w_ss t) (w_ej t) (w_es t) (w_n t))
  else
    let* v := (if cut then slice (vals t) (if depth t =? 0 then 1 else depth t) f n else Ok (vals t)) in
    let t1 := with_vals v in
    if (f >? 0) || (l <? num t - 1) then
      let* t2 := adjust t1 f l in
      let* tm := slice_opt (times t) 1 f n in
      let* q := slice_opt (qual t) (qsize t) f n in
      let* i := slice_opt (inotes t) (isize t) f n in
      let* c := slice_notes (cnotes t) f n in
      Ok (true, mk_ts (vals t2) (depth t2) (num t2) tm q (qsize t2) i (isize t2) c (sj t2) (ss t2) (ej t2) (es t2)
                  (interval t2) (offset t2) (gran t2) (base t2) (w_int t2) (w_sj t2) (w_ss t2) (w_ej t2) (w_es t2) (w_n t2))
    else Ok (true, t1).

(** ztsRegAddTimes.c:94, 106 *)
Definition as_time (g b j s : Z) : res Z :=
  let* d := chk32 (j - b) in
  let* d := chk32 (d * Z.quot SECS_IN_1_DAY g) in
  chk32 (d + Z.quot s g).
Definition to_offset_again (o i j s : Z) : res (Z * Z) :=
  if o =? 0 then Ok (j, s) else let* '(_, j, s) := ztsOffsetAdjustToOffset o i j s in Ok (j, s).
(** ztsRegAddTimes.c:96-98 *)
Fixpoint times_by (cnt : nat) (t step : Z) : res (list Z) :=
  match cnt with O => Ok [] | S cnt' => let* t' := chk32 (t + step) in let* r := times_by cnt' t' step in Ok (t' :: r) end.
(** ztsRegAddTimes.c:101-107 *)
Fixpoint times_each (cnt : nat) (i o g b j s k : Z) : res (list Z) :=
  match cnt with
  | O => Ok []
  | S cnt' =>
      let* '(_, j', s') := incrementTime i k j s in
      let* '(j', s') := to_offset_again o i j' s' in
      let* t := as_time g b j' s' in
      let* r := times_each cnt' i o g b j s (k + 1) in Ok (t :: r)
  end.
(** ztsRegAddTimes.c:32-110 (the array has numberValues elements and the loop runs to timeWindow->numberValues: Undef if that is more) *)
Definition ztsRegAddTimes (t : ts) : res ts :=
  match times t with
  | Some _ => Ok t
  | None =>
      if (interval t <? 1) || (w_sj t =? UNDEFINED_TIME) || (w_ss t <? 0) || (w_n t <? 1) || (num t <? 1) then Ok t else
      let o := if offset t <? 0 then 0 else offset t in
      let* '(_, j, s) := ztsOffsetAdjustToOffset o (interval t) (w_sj t) (w_ss t) in
      let g := if gran t <? 1 then 60 else gran t in
      if num t <? w_n t then Undef else
      let* l :=
        (if interval t <=? SECS_IN_1_DAY then
           let* '(_, j', s') := incrementTime (interval t) 0 j s in
           let* '(j', s') := to_offset_again o (interval t) j' s' in
           let* t0 := as_time g (base t) j' s' in
           let* r := times_by (Z.to_nat (w_n t - 1)) t0 (Z.quot (interval t) g) in Ok (t0 :: r)
         else times_each (Z.to_nat (w_n t)) (interval t) o g (base t) j s 0) in
      Ok (mk_ts (vals t) (depth t) (num t) (Some (l ++ repeat 0 (Z.to_nat (num t - w_n t)))) (qual t) (qsize t) (inotes t) (isize t) (cnotes t) (sj t) (ss t) (ej t) (es t)
            (interval t) o (gran t) (base t) (w_int t) (w_sj t) (w_ss t) (w_ej t) (w_es t) (w_n t))
  end.

(** Public/ztsRetrieve.c:611-630 : what has been read is trimmed if asked for, and given times *)
Definition finish (flag : Z) (t : ts) : res (bool * ts) :=
  let* '(ok, t) := (if ((flag =? -1) || (flag =? -3)) && (interval t >? 0) then ztsTrim t else Ok (true, t)) in
  if ok && (interval t >? 0) then
    let o := if offset t <? 0 then 0 else offset t in
    let* '(_, sj', ss') := ztsOffsetAdjustToOffset o (interval t) (sj t) (ss t) in
    let* '(_, ej', es') := ztsOffsetAdjustToOffset o (interval t) (ej t) (es t) in
    let t := mk_ts (vals t) (depth t) (num t) (times t) (qual t) (qsize t) (inotes t) (isize t) (cnotes t) sj' ss' ej' es'
               (interval t) o (gran t) (base t) (w_int t) (w_sj t) (w_ss t) (w_ej t) (w_es t) (w_n t) in
    if (flag =? 0) || (flag =? -1) then let* t := ztsRegAddTimes t in Ok (true, t) else Ok (true, t)
  else Ok (ok, t).
End M.
