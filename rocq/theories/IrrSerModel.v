(** * Model of storing and retrieving an irregular time series that spans blocks (no proofs here).

    As in SeriesModel a series is a map from the first day of a block to its record: the times of the values (in seconds,
    or in minutes in blocks of a century, from the start of the block) with everything that moves with a value, the
    "logical number of values" and the time granularity kept in the header.  Modelled: ztsProcessTimes for an irregular
    series (store: with a times array; retrieve: with a start and an end), the loops over blocks of ztsStoreIrreg7 and
    ztsRetrieveIrreg7 (retrieveFlag 0), ztsIrregStoreBlock, the selection of times in ztsIrregReadBlock; merging is
    [merge_blocks] (IrregModel).
    Not modelled: text notes, profiles, pattern records, conversion between float and double records, user headers,
    locks, memory errors, retrieve flags 1 to 3, "retrieve all". *)
From Coq Require Import ZArith List Lia Bool.
From Verif Require Import Base DateModel BlockModel ArrayLib IrregModel.
Import ListNotations.
Open Scope Z_scope.
Open Scope res_scope.

Section M.
Context {P : Type}.
(** what calloc leaves in the cells of the arrays that are not filled *)
Variable dflt : P.

Record iblk := mk_iblk { ib_ents : list (Z * P); ib_log : Z; ib_gran : Z }.
Definition iseries := Z -> option iblk.
Definition iput (s : iseries) (b : Z) (o : option iblk) : iseries := fun b' => if b' =? b then o else s b'.

(** ztsStoreIrreg7.c:384-400, ztsRetrieveIrreg7.c:634-646 : the factor for days in units of the granularity *)
Definition per_day (g : Z) : Z := if g =? 1 then 86400 else if g =? 60 then 1440 else if g =? 3600 then 24 else 1.
(** ztsStoreIrreg7.c:436, ztsIrregStoreBlock.c:572-579, ztsIrregReadBlock.c:492-497 : seconds in a unit of the times of a block *)
Definition block_unit (size : Z) : Z := if size <? 5 then 1 else 60.

(** ** Store *)
Record iwin := mk_iwin { v_sj : Z; v_ss : Z; v_ej : Z; v_es : Z; v_sb : Z; v_eb : Z }.
(** ztsProcessTimes.c:321-357, 412-420 : the window of the values given (the struct was not used before).  When the time
    is undefined (line 358) the blocks are not set: outside the model. *)
Definition process_store (size g base : Z) (times : list Z) : res iwin :=
  let* first := aget times 0 in
  let* last := aget times (alen times - 1) in
  let* '(_, sj, st) := cleanTime base first g in
  let* ss := chk32 (st * (if g >? 0 then g else 60)) in
  let* '(_, ej, et) := cleanTime base last g in
  let* es := chk32 (et * (if g >? 0 then g else 60)) in
  if negb (isTimeDefined sj ss) then Undef else
  let* sb := ztsIrregGetBlockStart sj size in
  let* eb := ztsIrregGetBlockStart ej size in
  Ok (mk_iwin sj ss ej es sb eb).

(** ztsStoreIrreg7.c:264-285 : are the times in order? *)
Fixpoint ascending (l : list Z) : bool :=
  match l with
  | a :: ((b :: _) as t) => negb (a >? b) && ascending t
  | _ => true
  end.

(** ztsStoreIrreg7.c:402-409 : how many of the values left go into the block *)
Fixpoint fits (toStart toEnd : Z) (l : list (Z * P)) : res Z :=
  match l with
  | [] => Ok 0
  | e :: r => let* t := chk32 (fst e - toStart) in
              if t >? toEnd then Ok 0 else let* n := fits toStart toEnd r in Ok (n + 1)
  end.
(** ztsStoreIrreg7.c:433-443 : times from the start of the block *)
Fixpoint rebase (size g toStart : Z) (l : list (Z * P)) : res (list (Z * P)) :=
  match l with
  | [] => Ok []
  | e :: r => let* d := chk32 (fst e - toStart) in
              let* t := (if size =? 5 then chk32 (Z.quot (d * g) 60) else chk32 (d * g)) in
              let* r' := rebase size g toStart r in
              Ok ((t, snd e) :: r')
  end.

(** ztsIrregReadBlock.c:511-578 : the entries in the window, with boolRetrievePrevious and boolRetrieveSucceeding 0 *)
Fixpoint in_range (unit b sj ss ej es last : Z) (l : list (Z * P)) : res (list (Z * P)) :=
  match l with
  | [] => Ok []
  | e :: r =>
      let* '(ok, last) := isTimeInRange (fst e) last unit b sj ss ej es in
      if ok =? 1 then let* r' := in_range unit b sj ss ej es last r in Ok (e :: r')
      else if last >? 0 then Ok [] else in_range unit b sj ss ej es last r
  end.
(** ztsIrregReadBlock.c:437-579 : at most [max] of the stored entries are looked at (ztsDisaggregate.c:393-413) *)
Definition read_block (size b sj ss ej es max : Z) (r : iblk) : res (list (Z * P)) :=
  in_range (block_unit size) b sj ss ej es (-1) (firstn (Z.to_nat (Z.min max (alen (ib_ents r)))) (ib_ents r)).

(** ztsIrregStoreBlock.c:627-652 : date and seconds of a time of the block *)
Definition time_of (size b t : Z) : res (Z * Z) :=
  let per := if size <? 5 then 86400 else 1440 in
  let days := Z.quot t per in
  let secs := (t - days * per) * (if size <? 5 then 1 else 60) in
  let* j := chk32 (b + days) in
  if secs <? 1 then Ok (j - 1, secs + 86400) else Ok (j, secs).

(** ztsIrregStoreBlock.c:297-730 : store [new] into the block of [old].  The arrays for the old values have room for the
    logical number of values (396-438). *)
Definition store_iblock (flag size g b next wj ws : Z) (from_start to_end read : bool) (new : list (Z * P)) (old : option iblk)
  : res (option iblk) :=
  let* out :=
    (match old with
     | Some r =>
         if negb read || (ib_log r <? 1) then Ok new
         else
           let* got := read_block size b b 0 next 0 (ib_log r) r in
           merge_blocks flag b (block_unit size) wj ws from_start to_end new (alen new)
             (got ++ repeat (0, dflt) (Z.to_nat (ib_log r - alen got))) (alen got)
     | None => Ok new
     end) in
  if alen out >? 0 then
    let* e1 := aget out 0 in
    let* e2 := aget out (alen out - 1) in
    let* '(j1, s1) := time_of size b (fst e1) in
    let* '(j2, s2) := time_of size b (fst e2) in
    let* n := logical_number (next - b + 1) j1 s1 j2 s2 (alen out) in
    Ok (Some (mk_iblk out n g))
  else Ok None.

(** ztsStoreIrreg7.c:344-559; [l] are the values not yet stored, [from_start] is boolFromStartOfBlock, [fuel] bounds the
    number of blocks. *)
Fixpoint istore_loop (fuel : nat) (flag size g base : Z) (w : iwin) (l : list (Z * P)) (from_start : bool) (b : Z) (s : iseries) : res iseries :=
  match fuel with
  | O => Undef
  | S fuel' =>
      if b >? v_eb w then Ok s else
      let* next := ztsIncrementBlock b size in
      let read := negb ((flag =? 1) && (v_sj w <? b) && (v_ej w >=? next)) in
      let* d1 := chk32 (b - base) in
      let* toStart := chk32 (d1 * per_day g) in
      let* toEnd := chk32 ((next - b) * per_day g) in
      let* n := fits toStart toEnd l in
      let* s' :=
        (if (n =? 0) && negb read && (flag =? 1) then Ok (iput s b None)
         else if n >? 0 then
           let* new := rebase size g toStart (firstn (Z.to_nat n) l) in
           let* o := store_iblock flag size g b next (v_sj w) (v_ss w) from_start (v_ej w >=? next) read new (s b) in
           Ok (iput s b o)
         else Ok s) in
      istore_loop fuel' flag size g base w (skipn (Z.to_nat n) l) true next s'
  end.
(** ztsStoreIrreg7.c:60-569 : false if the times are not in order *)
Definition istore (size g base flag : Z) (vals : list (Z * P)) (s : iseries) : res (bool * iseries) :=
  let* w := process_store size g base (map fst vals) in
  let g := if g =? 0 then 60 else g in
  if negb (ascending (map fst vals)) then Ok (false, s)
  else let* s' := istore_loop (S (S (Z.to_nat (v_eb w - v_sb w)))) flag size g base w vals false (v_sb w) s in Ok (true, s').

(** ** Retrieve *)
(** ztsProcessTimes.c:116-160, 260-265, 358, 412-490 : a start and an end, [base] and [g] as set by the caller (0: not
    set).  Result: window, base date.  None: no window from these times (not modelled further). *)
Definition process_read (size g base startJ startS endJ endS : Z) : res (option (iwin * Z)) :=
  let* '(ok, sj, ss, ej, es) :=
    (if base =? 0 then
       if ((startJ =? 0) && (endJ =? 0)) || ((startJ =? -1) && (endJ =? -1)) then Ok (false, 0, 0, 0, 0)
       else
         let* '(sd, sj, ss) := cleanTime startJ startS SECOND_GRANULARITY in
         let* '(ed, ej, es) := cleanTime endJ endS SECOND_GRANULARITY in
         Ok (negb (sd =? 0) && negb (ed =? 0), sj, ss, ej, es)
     else
       Ok (negb (endJ =? UNDEFINED_TIME) && negb ((endJ =? 0) && (endS =? 0)) && negb (startJ =? UNDEFINED_TIME), startJ, startS, endJ, endS)) in
  if negb ok || (ej <? sj) || negb (isTimeDefined sj ss) then Ok None else
  let* sb := ztsIrregGetBlockStart sj size in
  let* eb := ztsIrregGetBlockStart ej size in
  let days := ej - sj in
  let g := if g =? 0 then (if days <? 1000000 then 60 else if days <? 30000000 then 3600 else 86400) else g in
  let base :=
    if (base =? 0) && negb (sb =? 0) then
      if g =? 1 then sb
      else if g =? 60 then (if (sj <? -365 * 1000) || (sj >? 365 * 3100) || (ej >? 365 * 3200) then sb else 0)
      else sb
    else base in
  Ok (Some (mk_iwin sj ss ej es sb eb, base)).

(** ztsGetSizesInternal.c:151-217 : the number of values stored in the blocks of the window *)
Fixpoint size_loop (fuel : nat) (size b eb : Z) (s : iseries) : res Z :=
  match fuel with
  | O => Undef
  | S fuel' =>
      if b >? eb then Ok 0 else
      let* next := ztsIncrementBlock b size in
      let* n := size_loop fuel' size next eb s in
      Ok (match s b with Some r => alen (ib_ents r) + n | None => n end)
  end.

(** ztsRetrieveIrreg7.c:632-660 : the times read, in units of the granularity from the base date *)
Fixpoint out_times (size g toStart : Z) (l : list (Z * P)) : res (list (Z * P)) :=
  match l with
  | [] => Ok []
  | e :: r => let* t := chk32 (if size =? 5 then Z.quot (fst e * 60) g else Z.quot (fst e) g) in
              let* t := chk32 (t + toStart) in
              let* r' := out_times size g toStart r in
              Ok ((t, snd e) :: r')
  end.
(** ztsRetrieveIrreg7.c:513-678; [got] is the granularity and base date once a block was found (581-591) *)
Fixpoint iread_loop (fuel : nat) (size base : Z) (w : iwin) (max : Z) (got : option (Z * Z)) (cur b : Z) (s : iseries)
  : res (option (Z * Z) * list (Z * P)) :=
  match fuel with
  | O => Undef
  | S fuel' =>
      if b >? v_eb w then Ok (got, []) else
      let* next := ztsIncrementBlock b size in
      match s b with
      | None => iread_loop fuel' size base w max got cur next s
      | Some r =>
          let '(g, bs) := match got with
                          | Some x => x
                          | None => let g := if ib_gran r >? 0 then ib_gran r else 60 in
                                    (g, if base <? 0 then b else if (g =? 1) && (base =? 0) then b else base)
                          end in
          let* l := read_block size b (v_sj w) (v_ss w) (v_ej w) (v_es w) (max - cur) r in
          let* d := chk32 (b - bs) in
          let* toStart := chk32 (d * per_day g) in
          let* l' := out_times size g toStart l in
          let* '(got', rest) := iread_loop fuel' size base w max (Some (g, bs)) (cur + alen l) next s in
          Ok (got', l' ++ rest)
      end
  end.
(** ztsRetrieveIrreg7.c:58-723.  Result: None if there is no window; (None, []) if no block was found; otherwise the
    granularity and base date of the times, and the times with their values. *)
Definition iread (size g base startJ startS endJ endS : Z) (s : iseries) : res (option (option (Z * Z) * list (Z * P))) :=
  let* p := process_read size g base startJ startS endJ endS in
  match p with
  | None => Ok None
  | Some (w, base) =>
      let fuel := S (S (Z.to_nat (v_eb w - v_sb w))) in
      let* max := size_loop fuel size (v_sb w) (v_eb w) s in
      let* r := iread_loop fuel size base w max None 0 (v_sb w) s in
      Ok (Some r)
  end.
End M.
Arguments iblk : clear implicits.
Arguments iseries : clear implicits.
