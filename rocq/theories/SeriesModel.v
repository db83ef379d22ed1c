(** * Model of storing and retrieving a regular time series that spans blocks (no proofs here).

    A regular time series is kept in one record per block; the records are named by the first day of the block (the D
    part of the pathname is its date: DateTextProps, PathProps), so a series is a map from that day number to a block
    record.  Modelled: ztsProcessTimes for a regular series given by a start and a number of values, or by a start and
    an end; the loops over the blocks of ztsStoreReg7 and ztsRetrieveReg7.  Storing into one block is [store_block]
    (RegStoreModel); reading from one block is what C41 proves of ztsRegReadBlock.
    Not modelled: times arrays, a base date other than 0, structs used again after a retrieve (ztsProcessTimes.c:162),
    "retrieve all", pattern series, profiles, text notes, user headers, locks, memory errors. *)
From Coq Require Import ZArith List Lia Bool.
From Verif Require Import Base DateModel BlockModel ArrayLib RegStoreModel.
Import ListNotations.
Open Scope Z_scope.
Open Scope res_scope.

(** headers/zStructTimeSeries.h ztsTimeWindow *)
Record window := mkwin { w_int : Z; w_size : Z; w_sj : Z; w_ss : Z; w_ej : Z; w_es : Z; w_sb : Z; w_eb : Z; w_n : Z }.

(** ztsProcessTimes.c:380-401 : standard times, first and last block.  None: no values in the window. *)
Definition finish_window (interval sj ss ej es n : Z) : res (option window) :=
  let* '(_, sj, ss) := ztsOffsetAdjustToStandard interval sj ss in
  let* '(_, ej, es) := ztsOffsetAdjustToStandard interval ej es in
  let* '(sb, _) := ztsRegGetBlockStart sj interval in
  let* '(eb, size) := ztsRegGetBlockStart ej interval in
  if n <=? 0 then
    let* p := numberPeriods interval sj ss ej es in
    if p + 1 <=? 0 then Ok None else Ok (Some (mkwin interval size sj ss ej es sb eb (p + 1)))
  else Ok (Some (mkwin interval size sj ss ej es sb eb n)).

(** ztsProcessTimes.c:116-131, 203-213, 260-265, 358-401 : a start and a number of values (store or retrieve; the end
    is undefined).  None: no window, the call fails. *)
Definition process_n (interval startJ startS n : Z) : res (option window) :=
  let* '(_, sj, ss) := cleanTime startJ startS SECOND_GRANULARITY in
  if negb (isTimeDefined sj ss) then Ok None else
  let* '(_, ej, es) := incrementTime interval (n - 1) sj ss in
  finish_window interval sj ss ej es n.

(** ztsProcessTimes.c:116-160, 358-401 : retrieve with a start and an end and no number of values.  Start and end both
    on day 0 (or both on day -1) count as undefined (117-125); so does an end before the start (156-160).  None: no
    window from these times (the retrieve then takes its window from the pathname, lines 293-319, not modelled). *)
Definition process_se (interval startJ startS endJ endS : Z) : res (option window) :=
  if ((startJ =? 0) && (endJ =? 0)) || ((startJ =? -1) && (endJ =? -1)) then Ok None else
  let* '(sd, sj, ss) := cleanTime startJ startS SECOND_GRANULARITY in
  let* '(ed, ej, es) := cleanTime endJ endS SECOND_GRANULARITY in
  if (sd =? 0) || (ed =? 0) || (ej <? sj) then Ok None else finish_window interval sj ss ej es 0.

(** The blocks of a series, by first day. *)
Definition series := Z -> option rblk.
Definition put_block (s : series) (b : Z) (o : option rblk) : series := fun b' => if b' =? b then o else s b'.

(** ztsStoreReg7.c:262-311, ztsRetrieveReg7.c:242-276 : next block, number of positions in the block, first position
    and number of values of the window in the block that starts on [b] when [cur] values are done. *)
Definition in_block (w : window) (b cur : Z) : res (Z * Z * Z * Z) :=
  let* next := ztsIncrementBlock b (w_size w) in
  let* nb := numberPeriods (w_int w) (b - 1) SECS_IN_1_DAY (next - 1) SECS_IN_1_DAY in
  let* rel := numberPeriods (w_int w) (b - 1) SECS_IN_1_DAY (w_sj w) (w_ss w) in
  let pos := rel - 1 + cur in
  let pos := if (w_int w =? SECS_IN_1_WEEK) && (pos =? -1) then 0 else pos in
  let n := nb - pos in
  let n := if w_n w - cur <? n then w_n w - cur else n in
  Ok (next, nb, pos, n).

(** ztsStoreReg7.c:247-361.  Result: did it succeed, and the series (blocks already stored stay stored).  [fuel] bounds
    the number of blocks; a failed assert (333) is [Undef]. *)
Fixpoint store_loop (fuel : nat) (miss : Z -> bool) (mval : Z) (empty : bool) (flag : Z) (w : window) (vals : list Z)
  (qual : option (list Z)) (cur b : Z) (s : series) : res (bool * series) :=
  match fuel with
  | O => Undef
  | S fuel' =>
      if b >? w_eb w then Ok (true, s) else
      let* '(next, nb, pos, n) := in_block w b cur in
      let read := negb ((w_sj w <? b) && (w_ej w >? next) && ((flag =? 0) || (flag =? 2))) in
      if pos <? 0 then Ok (false, s)
      else if n <? 0 then Undef
      else
        let* o := store_block miss mval (s b) (skipn (Z.to_nat cur) vals) (option_map (skipn (Z.to_nat cur)) qual)
                    n nb pos flag read empty in
        store_loop fuel' miss mval empty flag w vals qual (cur + n) next (put_block s b (after (s b) o))
  end.

(** Blocks start on different days, so there are at most this many of them from [sb] to [eb]. *)
Definition block_fuel (w : window) : nat := S (S (Z.to_nat (w_eb w - w_sb w))).

(** ztsStoreReg7.c:58-369 : store [vals] from the given start. *)
Definition store_series (miss : Z -> bool) (mval : Z) (empty : bool) (interval startJ startS flag : Z) (vals : list Z)
  (qual : option (list Z)) (s : series) : res (bool * series) :=
  let* w := process_n interval startJ startS (alen vals) in
  match w with
  | None => Ok (false, s)
  | Some w => store_loop (block_fuel w) miss mval empty flag w vals qual 0 (w_sb w) s
  end.

(** What a reader sees at a position of a block (ztsRegReadBlock: C41). *)
Definition block_vals (mval : Z) (o : option rblk) (pos n : Z) : list Z :=
  map (fun p => match o with
                | None => mval
                | Some r => match aget (r_vals r) (pos + Z.of_nat p - r_start r) with Ok v => v | Undef => mval end
                end) (seq 0 (Z.to_nat n)).
Definition block_qual (o : option rblk) (pos n : Z) : list Z :=
  map (fun p => match o with
                | Some (mk_rblk st _ (Some q)) => match aget q (pos + Z.of_nat p - st) with Ok v => v | Undef => 0 end
                | _ => 0
                end) (seq 0 (Z.to_nat n)).

(** ztsRetrieveReg7.c:226-653 : the values and quality read, and whether any block was found.  None: the call fails
    (INVALID_DATE_TIME). *)
Fixpoint read_loop' (fuel : nat) (mval : Z) (w : window) (cur b : Z) (s : series) : res (option (list Z * list Z * bool)) :=
  match fuel with
  | O => Undef
  | S fuel' =>
      if b >? w_eb w then Ok (Some ([], [], false)) else
      let* '(next, nb, pos, n) := in_block w b cur in
      if pos <? 0 then Ok None
      else
        let* r := read_loop' fuel' mval w (cur + n) next s in
        match r with
        | None => Ok None
        | Some (v, q, f) => Ok (Some (block_vals mval (s b) pos n ++ v, block_qual (s b) pos n ++ q,
                                      match s b with Some _ => true | None => f end))
        end
  end.

(** ztsRetrieveReg7.c:72-705 for a start and a number of values, and for a start and an end. *)
Definition read_window (mval : Z) (w : option window) (s : series) : res (option (list Z * list Z * bool)) :=
  match w with None => Ok None | Some w => read_loop' (block_fuel w) mval w 0 (w_sb w) s end.
Definition read_series_n (mval interval startJ startS n : Z) (s : series) : res (option (list Z * list Z * bool)) :=
  let* w := process_n interval startJ startS n in read_window mval w s.
Definition read_series_se (mval interval startJ startS endJ endS : Z) (s : series) : res (option (list Z * list Z * bool)) :=
  let* w := process_se interval startJ startS endJ endS in read_window mval w s.
