(** * Merging new irregular-interval data with a stored block: ztsIrregMergeBlocks (model only).

    An entry is a time together with everything that moves with it (value words, quality, integer notes, text note):
    in the C code the arrays are always indexed by the same counter.  The text-note bookkeeping (copyLines with a
    separate character position) is not modelled. *)
From Coq Require Import ZArith List Lia Bool.
From Verif Require Import Base ArrayLib DateModel.
Import ListNotations.
Open Scope Z_scope.

(** Writing the next entry of the output arrays, which have room for [cap] entries
    (ztsIrregStoreBlock.c:497-539). *)
Definition push {P} (cap : Z) (out : list (Z * P)) (e : Z * P) : res (list (Z * P)) :=
  if alen out <? cap then Ok (out ++ [e]) else Undef.

(** Internal/ztsIrregMergeBlocks.c:248-416 : merge loop (storageFlag 0).  [s], [r] are icountStore, icountRead. *)
Fixpoint merge_loop {P} (fuel : nat) (cap : Z) (new : list (Z * P)) (nS : Z) (old : list (Z * P)) (nR : Z)
  (s r : Z) (out : list (Z * P)) : res (list (Z * P)) :=
  match fuel with
  | O => Ok out
  | S fuel' =>
      if (r =? nR) && (s =? nS) then Ok out
      else
        (* 268 *)
        let* take_new := (if s <? nS then
                            if r >=? nR then Ok true
                            else let* a := aget new s in let* b := aget old r in Ok (fst a <? fst b)
                          else Ok false) in
        if take_new : bool then
          let* e := aget new s in let* out' := push cap out e in
          merge_loop fuel' cap new nS old nR (s + 1) r out'
        else
          (* 315 *)
          let* take_old := (if r <? nR then
                              if s >=? nS then Ok true
                              else let* a := aget new s in let* b := aget old r in Ok (fst a >? fst b)
                            else Ok false) in
          if take_old : bool then
            let* e := aget old r in let* out' := push cap out e in
            merge_loop fuel' cap new nS old nR s (r + 1) out'
          else
            (* 362 *)
            let* a := aget new s in let* b := aget old r in
            if fst a =? fst b then
              let* out' := push cap out a in merge_loop fuel' cap new nS old nR (s + 1) (r + 1) out'
            else merge_loop fuel' cap new nS old nR s r out
  end.

(** Internal/ztsIrregMergeBlocks.c:421-484 : the old entries before the replaced part.  [jb] is
    julianStartBlockDate, [g] the time granularity, ([wj], [ws]) the start of the caller's time window.
    Note that timesRead[icountRead] is read before icountRead is compared with numberRead. *)
Fixpoint before_loop {P} (fuel : nat) (cap jb g wj ws : Z) (from_start : bool) (new old : list (Z * P)) (nR : Z)
  (r : Z) (out : list (Z * P)) : res (Z * list (Z * P)) :=
  match fuel with
  | O => Ok (r, out)
  | S fuel' =>
      let* b := aget old r in
      let* c := compareTimes jb (fst b) 0 g wj ws 0 1 in
      let* go := (if (r <? nR) && (c <? 0) then let* a := aget new 0 in Ok ((fst b <? fst a) && negb from_start)
                  else Ok false) in
      if go : bool then
        let* out' := push cap out b in before_loop fuel' cap jb g wj ws from_start new old nR (r + 1) out'
      else Ok (r, out)
  end.

(** 489-545 : the new entries *)
Fixpoint new_loop {P} (fuel : nat) (cap : Z) (new : list (Z * P)) (nS s : Z) (out : list (Z * P)) : res (list (Z * P)) :=
  match fuel with
  | O => Ok out
  | S fuel' =>
      if s <? nS then let* e := aget new s in let* out' := push cap out e in new_loop fuel' cap new nS (s + 1) out'
      else Ok out
  end.

(** 551-614 : the old entries after the replaced part; [ct] is combinedTotal, which line 488 has reduced. *)
Fixpoint after_loop {P} (fuel : nat) (cap ct : Z) (new : list (Z * P)) (nS : Z) (old : list (Z * P)) (nR : Z)
  (r : Z) (out : list (Z * P)) : res (list (Z * P)) :=
  match fuel with
  | O => Ok out
  | S fuel' =>
      if alen out >=? ct then Ok out
      else if r <? nR then
        let* b := aget old r in
        let* skip := (if nS >? 0 then let* a := aget new (nS - 1) in Ok (fst a >=? fst b) else Ok false) in
        if skip : bool then after_loop fuel' cap ct new nS old nR (r + 1) out
        else let* out' := push cap out b in after_loop fuel' cap ct new nS old nR (r + 1) out'
      else Ok out
  end.

(** Internal/ztsIrregMergeBlocks.c:182-624 ztsIrregMergeBlocks, with output arrays of numberToStore + numberRead
    entries as allocated by its only caller. *)
Definition merge_blocks {P} (flag jb g wj ws : Z) (from_start to_end : bool) (new : list (Z * P)) (nS : Z)
  (old : list (Z * P)) (nR : Z) : res (list (Z * P)) :=
  let cap := nS + nR in
  if flag =? 0 then merge_loop (Z.to_nat cap) cap new nS old nR 0 0 []
  else
    let* '(r, out) := (if nS >? 0 then before_loop (Z.to_nat cap) cap jb g wj ws from_start new old nR 0 []
                       else Ok (0, [])) in
    let ct := cap - alen out in
    let* out := new_loop (Z.to_nat ct) cap new nS 0 out in
    if to_end then Ok out
    else after_loop (Z.to_nat (nS + nR - alen out)) cap ct new nS old nR r out.

(** Internal/ztsIrregStoreBlock.c:665-688 : the "logical number of values" recorded for a block of [days] days
    with [total] entries from (j1, s1) to (j2, s2); the next store into the block reads at most that many
    (381, 396, 478).  SECS_IN_1_DAY = 86400, MINS_IN_1_DAY = 1440. *)
Definition logical_number (days j1 s1 j2 s2 total : Z) : res Z :=
  if total =? 0 then Undef else
  if days <? 370 then
    let* span := chk32 ((j2 - j1 + 1) * 86400 + (s2 - s1)) in
    let avg := Z.quot span total in
    if avg >? 0 then Ok (Z.quot (days * 86400) avg) else Ok 1
  else
    let* span := chk32 ((j2 - j1 + 1) * 1440 + Z.quot (s2 - s1) 60) in
    let avg := Z.quot span total in
    if avg >? 0 then Ok (Z.quot (days * 1440) avg) else Ok 1.
