(** * Model of the standard interval table (SemiPublic/ztsGetStandardInterval.c, headers/standardIntervals.h). *)
From Coq Require Import ZArith List Bool String Ascii.
From Verif Require Import Base ArrayLib HashModel CStr DateTextModel.
Import ListNotations.
Open Scope Z_scope.
Open Scope res_scope.
Local Notation length := List.length.

(** headers/standardIntervals.h:108-118, 120-130: names and seconds of version 7, entry by entry
    (the two C arrays of equal length are zipped); 5-38 give the constants. *)
Definition table7 : list (list Z * Z) := map (fun p => (bytes_of (fst p), snd p))
  [("1Year", 31536000); ("1Month", 2592000); ("Semi-Month", 1296000); ("Tri-Month", 864000);
   ("1Week", 604800); ("1Day", 86400); ("12Hour", 43200); ("8Hour", 28800);
   ("6Hour", 21600); ("4Hour", 14400); ("3Hour", 10800); ("2Hour", 7200);
   ("1Hour", 3600); ("30Minute", 1800); ("20Minute", 1200); ("15Minute", 900);
   ("12Minute", 720); ("10Minute", 600); ("6Minute", 360); ("5Minute", 300);
   ("4Minute", 240); ("3Minute", 180); ("2Minute", 120); ("1Minute", 60);
   ("30Second", 30); ("20Second", 20); ("15Second", 15); ("10Second", 10);
   ("6Second", 6); ("5Second", 5); ("4Second", 4); ("3Second", 3);
   ("2Second", 2); ("1Second", 1);
   ("IR-Century", -5); ("IR-Decade", -4); ("IR-Year", -3); ("IR-Month", -2); ("IR-Day", -1)]%string.

(** headers/standardIntervals.h:132-139, 141-149: version 6. *)
Definition table6 : list (list Z * Z) := map (fun p => (bytes_of (fst p), snd p))
  [("1YEAR", 31536000); ("1MON", 2592000); ("SEMI-MONTH", 1296000); ("TRI-MONTH", 864000);
   ("1WEEK", 604800); ("1DAY", 86400); ("12HOUR", 43200); ("8HOUR", 28800);
   ("6HOUR", 21600); ("4HOUR", 14400); ("3HOUR", 10800); ("2HOUR", 7200);
   ("1HOUR", 3600); ("30MIN", 1800); ("20MIN", 1200); ("15MIN", 900);
   ("12MIN", 720); ("10MIN", 600); ("6MIN", 360); ("5MIN", 300);
   ("4MIN", 240); ("3MIN", 180); ("2MIN", 120); ("1MIN", 60);
   ("IR-CENTURY", -5); ("IR-DECADE", -4); ("IR-YEAR", -3); ("IR-MONTH", -2); ("IR-DAY", -1)]%string.

(** ztsGetStandardInterval.c:131-138 *)
Definition itable (version : Z) : list (list Z * Z) := if version =? 6 then table6 else table7.

(** ztsGetStandardInterval.c:155-168: the comparison of the first min(len) characters, ignoring case *)
Definition name_matches (s name : list Z) : bool :=
  string_compare (Nat.min (length name) (length s)) s name.

(** ztsGetStandardInterval.c:154: the loop stops at the first entry that compares equal *)
Definition find_name (t : list (list Z * Z)) (s : list Z) : option (list Z * Z) := find (fun e => name_matches s (fst e)) t.
(** ztsGetStandardInterval.c:237-238 *)
Definition find_secs (t : list (list Z * Z)) (secs : Z) : option (list Z * Z) := find (fun e => secs =? snd e) t.

(** ztsGetStandardInterval.c:170-217: a pseudo-regular interval gives minus its block size *)
Definition pseudo_block (version secs : Z) : Z :=
  if secs <? 1800 then -1
  else if secs <? (if version =? 6 then 86400 else 21600) then -2
  else if secs <? 604800 then -3
  else if secs <? 2592000 then -4
  else -5.

Record itv := mkItv { iv_status : Z; iv_secs : Z; iv_buf : list Z; iv_op : Z }.

(** ztsGetStandardInterval.c:262-266: the entry after the first with these seconds; [Some None]: it was the last *)
Fixpoint next_entry (t : list (list Z * Z)) (secs : Z) : option (option (list Z * Z)) :=
  match t with
  | [] => None
  | e :: r => if secs =? snd e then Some (hd_error r) else next_entry r secs
  end.

(** ztsGetStandardInterval.c:119-287.  [buf] is the caller's E-part buffer, [size] the sizeof he passes. *)
Definition ztsGetStandardInterval (version secs : Z) (buf : list Z) (size op : Z) : res itv :=
  let t := itable version in
  if (op =? 1) || (op =? 0) then
    let* s := cstr buf in
    let pseudo := match s with c :: _ => c =? 126 | [] => false end in
    let k := if pseudo then 1 else 0 in
    match find_name t (sdrop k s) with
    | None => Ok (mkItv (-1) secs buf op)
    | Some (name, v) =>
      let v := if pseudo then pseudo_block version v else v in
      let* buf' :=
        if op =? 0 then
          let* r := stringCopy (sdrop k buf) (size - k) name (Some (slen name)) in Ok (stake k buf ++ fst r)
        else Ok buf in
      Ok (mkItv (if v >? 0 then 0 else 1) v buf' op)
    end
  else if op =? 2 then
    match find_secs t secs with
    | None => Ok (mkItv (-1) secs buf op)
    | Some (name, _) => let* r := stringCopy buf size name (Some (slen name)) in Ok (mkItv 0 secs (fst r) op)
    end
  else if op =? 3 then
    match t with
    | [] => Undef
    | (name, v) :: _ => let* r := stringCopy buf size name (Some (slen name)) in Ok (mkItv 0 v (fst r) 4)
    end
  else if op =? 4 then
    match next_entry t secs with
    | None => Ok (mkItv (-1) secs buf op)
    | Some None => Ok (mkItv (-1) 0 buf (-1))
    | Some (Some (name, v)) => let* r := stringCopy buf size name (Some (slen name)) in Ok (mkItv 0 v (fst r) op)
    end
  else Ok (mkItv (-1) secs buf op).

(** The documented client loop, ztsGetStandardInterval.c:99-109: call until the status is not 0,
    collecting the E-part text and seconds of each round. *)
Fixpoint enumerate (fuel : nat) (version secs : Z) (buf : list Z) (size op : Z) : res (list (list Z * Z)) :=
  match fuel with
  | O => Undef
  | S f =>
    let* r := ztsGetStandardInterval version secs buf size op in
    if iv_status r =? 0 then
      let* s := cstr (iv_buf r) in
      let* rest := enumerate f version (iv_secs r) (iv_buf r) size (iv_op r) in
      Ok ((s, iv_secs r) :: rest)
    else Ok []
  end.
