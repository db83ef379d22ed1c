(** * Storing part of a regular time-series block: ztsRegStoreBlock (model only).

    A value is one cell (a float, or a double taken as a unit); [miss] is zisMissing and [mval] the value zsetMissing
    writes.  Modelled: values and quality (one word per value; notes are treated exactly like quality), file versions
    and record types where the stored and given value sizes agree.  Not modelled: text notes, profiles, dates of
    first and last value, user header, float data stored onto a double record (ztsRegStoreBlock.c:844-875). *)
From Coq Require Import ZArith List Lia Bool.
From Verif Require Import Base ArrayLib.
Import ListNotations.
Open Scope Z_scope.

(** A stored block record: in-block position of its first value (INT_HEAD_blockStartPosition), its values (the last
    position is INT_HEAD_blockEndPosition) and, if the record has quality, one word per value. *)
Record rblk := mk_rblk { r_start : Z; r_vals : list Z; r_qual : option (list Z) }.
Definition r_end (r : rblk) : Z := r_start r + alen (r_vals r) - 1.

(** What happens to the record. *)
Inductive outcome := Unchanged | Written (r : rblk) | Deleted.

(** ztsRegReadBlock over positions [0, nb) (its own code is the subject of AggModel/C41): missing, zero quality
    where nothing is stored. *)
Definition read_vals (mval : Z) (old : option rblk) (nb : Z) : list Z :=
  map (fun p => match old with
                | None => mval
                | Some r => match aget (r_vals r) (Z.of_nat p - r_start r) with Ok v => v | Undef => mval end
                end) (seq 0 (Z.to_nat nb)).
Definition read_qual (old : option rblk) (nb : Z) : list Z :=
  map (fun p => match old with
                | None => 0
                | Some r => match r_qual r with
                            | None => 0
                            | Some q => match aget q (Z.of_nat p - r_start r) with Ok v => v | Undef => 0 end
                            end
                end) (seq 0 (Z.to_nat nb)).

(** Internal/ztsFirstLastValidValues.c:134-188 : does position [i] count as valid (value, or non-zero quality). *)
Definition valid_at (miss : Z -> bool) (vals : list Z) (qual : option (list Z)) (i : Z) : res bool :=
  let* v := aget vals i in
  if negb (miss v) then Ok true
  else match qual with
       | None => Ok false
       | Some q => let* x := aget q i in Ok (negb (x =? 0))
       end.

(** Internal/ztsFirstLastValidValues.c:134-188 : first valid index from [i], -1 if none in [cnt] positions. *)
Fixpoint first_loop (cnt : nat) miss vals qual (i : Z) : res Z :=
  match cnt with
  | O => Ok (-1)
  | S cnt' => let* b := valid_at miss vals qual i in
              if b then Ok i else first_loop cnt' miss vals qual (i + 1)
  end.
(** Internal/ztsFirstLastValidValues.c:198-252 : last valid index from [i] downward. *)
Fixpoint last_loop (cnt : nat) miss vals qual (i : Z) : res Z :=
  match cnt with
  | O => Ok (-1)
  | S cnt' => let* b := valid_at miss vals qual i in
              if b then Ok i else last_loop cnt' miss vals qual (i - 1)
  end.

(** Internal/ztsFirstLastValidValues.c:92-391 : (all missing, firstValid, lastValid). *)
Definition first_last miss (vals : list Z) (qual : option (list Z)) (n : Z) : res (bool * Z * Z) :=
  let* f := first_loop (Z.to_nat n) miss vals qual 0 in
  if f =? -1 then Ok (true, 0, 0)
  else let* l := last_loop (Z.to_nat n) miss vals qual (n - 1) in Ok (false, f, l).

(** ztsRegStoreBlock.c:525-548 : is there anything to replace for flags 1 and 4. *)
Fixpoint any_loop (cnt : nat) (p : Z -> bool) (a : list Z) (i : Z) : res bool :=
  match cnt with
  | O => Ok false
  | S cnt' => let* v := aget a i in if p v then Ok true else any_loop cnt' p a (i + 1)
  end.

(** ztsRegStoreBlock.c:697-750 : position by position replacement for flags 1 (where the old value is missing) and
    4 (where the new value is not missing); quality follows the value. *)
Fixpoint merge_loop (cnt : nat) miss (flag : Z) (vals : list Z) (qual : option (list Z)) (i : Z)
  (vr : list Z) (qr : option (list Z)) (ipos : Z) : res (list Z * option (list Z)) :=
  match cnt with
  | O => Ok (vr, qr)
  | S cnt' =>
      let* o := aget vr ipos in
      let* v := aget vals i in
      let rep := if flag =? 1 then miss o else if flag =? 4 then negb (miss v) else false in
      let* vr' := (if rep then aset vr ipos v else Ok vr) in
      let* qr' := match qr, qual with
                  | Some q, Some nq =>
                      if rep then let* x := aget nq i in let* q' := aset q ipos x in Ok (Some q') else Ok (Some q)
                  | _, _ => Ok qr
                  end in
      merge_loop cnt' miss flag vals qual (i + 1) vr' qr' (ipos + 1)
  end.

(** The tail of ztsRegStoreBlock.c:795-902 once the arrays to store are known: [vals]/[qual] cover [n] positions
    from [bsp]; [allm], [f], [l] come from ztsFirstLastValidValues.  Quality makes the whole block be stored
    (816-821; then the arrays are those of the whole block), otherwise the missing ends are dropped (822-826). *)
Definition finish (found : bool) (flag : Z) (empty : bool) (nb bsp : Z) (vals : list Z) (qual : option (list Z))
  (allm : bool) (f l : Z) : res outcome :=
  let allm := if allm && negb (flag =? 3) then (if empty || (flag =? 2) then false else true) else allm in
  if negb allm then
    match qual with
    | Some q => let* v := read_loop (Z.to_nat nb) vals 0 in
                let* q' := read_loop (Z.to_nat nb) q 0 in
                Ok (Written (mk_rblk 0 v (Some q')))
    | None => let* v := read_loop (Z.to_nat (l - f + 1)) vals f in
              Ok (Written (mk_rblk (bsp + f) v None))
    end
  else if found then Ok Deleted else Ok Unchanged.

(** Internal/ztsRegStoreBlock.c:192-915 ztsRegStoreBlock.  [read] is the caller's boolReadBlock, [empty] the "empty"
    setting, [vals]/[qual] the new data for [n] positions from [bsp] of a block with [nb] positions. *)
Definition store_block miss mval (old : option rblk) (vals : list Z) (qual : option (list Z)) (n nb bsp flag : Z)
  (read empty : bool) : res outcome :=
  let* '(allm, f, l) := first_last miss vals qual n in
  let found := read && match old with Some _ => true | None => false end in
  (* 381-411 *)
  let same :=
    match old with
    | Some r =>
        found && negb (flag =? 1) && negb (flag =? 4) &&
        Bool.eqb (match qual with Some _ => true | None => false end) (match r_qual r with Some _ => true | None => false end) &&
        (match qual with
         | None => (bsp + f =? r_start r) && (bsp + f + l - f =? r_end r)
         | Some _ => (bsp =? r_start r) && (bsp + n - 1 =? r_end r)
         end) && ((flag =? 0) || (flag =? 2))
    | None => false
    end in
  let read := if same then false else read in
  (* 414-416 *)
  let read := match qual with Some _ => true | None => read end in
  if read then
    let vr := read_vals mval old nb in
    let qr := match qual with Some _ => Some (read_qual old nb) | None => None end in
    let* go := (if flag =? 1 then any_loop (Z.to_nat n) miss vr bsp
                else if flag =? 4 then any_loop (Z.to_nat n) (fun v => negb (miss v)) vals 0
                else Ok true) in
    if negb go then Ok Unchanged else
    let* '(v, q) :=
      (if (flag =? 0) || (flag =? 2) || (flag =? 3) then
         let* v := copy_loop (Z.to_nat n) vals 0 vr bsp in
         let* q := match qr, qual with
                   | Some qq, Some nq => let* x := copy_loop (Z.to_nat n) nq 0 qq bsp in Ok (Some x)
                   | _, _ => Ok qr
                   end in Ok (v, q)
       else merge_loop (Z.to_nat n) miss flag vals qual 0 vr qr bsp) in
    let* '(allm, f, l) := first_last miss v q nb in
    finish found flag empty nb 0 v q allm f l
  else finish found flag empty nb bsp vals qual allm f l.

(** The block after the operation. *)
Definition after (old : option rblk) (o : outcome) : option rblk :=
  match o with Unchanged => old | Written r => Some r | Deleted => None end.
