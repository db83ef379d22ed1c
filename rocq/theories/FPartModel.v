(** * Model of F-part tag normalisation (Utilities/normalizeFPart.c) and of collection pathnames
      (Internal/zisaCollection.c, Public/zsetCollectionSequence.c). *)
From Coq Require Import ZArith List Bool.
From Verif Require Import Base ArrayLib HashModel CStr DateTextModel PathModel.
Import ListNotations.
Open Scope Z_scope.
Open Scope res_scope.

(** headers/normalizeFPart.h:25-39 *)
Definition FP_SUCCESS : Z := 0.
Definition FP_NO_TAG_SEPARATOR : Z := 1.
Definition FP_INVALID_TAG_FORMAT : Z := 2.
Definition FP_MULTIPLE_UNTAGGED : Z := 3.
Definition FP_EMPTY : Z := 4.
Definition FP_MEMORY_ERROR : Z := 10.
Definition FP_INVALID_TAG_CHARACTER : Z := 11.
Definition FP_REPEATED_TAG : Z := 12.
Definition FP_INVALID_C : Z := 13.
Definition FP_INVALID_T : Z := 14.
Definition FP_INVALID_V : Z := 15.
Definition FP_INVALID_R : Z := 16.
Definition FP_UNEXPECTED : Z := 100.

(** isalnum in the "C" locale *)
Definition is_alnum (c : Z) : bool := is_digit c || ((65 <=? c) && (c <=? 90)) || ((97 <=? c) && (c <=? 122)).
Definition nthc (s : list Z) (i : nat) : Z := nth i s 0.
Definition dig (s : list Z) (i : nat) : Z := nthc s i - 48.

(** normalizeFPart.c:32 *)
Definition is_leap (yr : Z) : bool := (Z.rem yr 4 =? 0) && (negb (Z.rem yr 100 =? 0) || (Z.rem yr 400 =? 0)).

(** normalizeFPart.c:37-46: length, digits, and the dash at position 8 *)
Fixpoint time_chars (i : nat) (s : list Z) : bool :=
  match s with
  | [] => true
  | c :: t => (if Nat.eqb i 8 then c =? 45 else is_digit c) && time_chars (S i) t
  end.

(** normalizeFPart.c:34-88 *)
Definition validateTagTime (s : list Z) (secs : bool) : bool :=
  (slen s =? (if secs then 15 else 13)) && time_chars 0 s &&
  (let yr := dig s 3 + 10 * dig s 2 + 100 * dig s 1 + 1000 * dig s 0 in
   let mon := dig s 5 + 10 * dig s 4 in
   let day := dig s 7 + 10 * dig s 6 in
   let hr := dig s 10 + 10 * dig s 9 in
   let min := dig s 12 + 10 * dig s 11 in
   let sec := dig s 14 + 10 * dig s 13 in
   (if (mon =? 1) || (mon =? 3) || (mon =? 5) || (mon =? 7) || (mon =? 8) || (mon =? 10) || (mon =? 12) then day <=? 31
    else if (mon =? 4) || (mon =? 6) || (mon =? 9) || (mon =? 11) then day <=? 30
    else if mon =? 2 then (if is_leap yr then day <=? 29 else day <=? 28)
    else false) &&
   negb ((hr >? 24) || ((hr =? 24) && (min >? 0))) && (min <=? 59) && (if secs then sec <=? 59 else true)).

(** normalizeFPart.c:124-136: pairs "--" or letter-or-digit followed by a digit; odd length is refused *)
Fixpoint run_pairs (s : list Z) : bool :=
  match s with
  | [] => true
  | [_] => false
  | a :: b :: t => (if a =? 45 then b =? 45 else is_alnum a && is_digit b) && run_pairs t
  end.

(** normalizeFPart.c:104-141; tags: C 67, T 84, N 78, V 86, R 82 *)
Definition validateFPartTag (tag : Z) (v : list Z) : bool :=
  if tag =? 67 then (slen v =? 6) && forallb is_alnum v
  else if tag =? 84 then validateTagTime v false
  else if tag =? 78 then true
  else if tag =? 86 then validateTagTime v true
  else if tag =? 82 then run_pairs v
  else false.

(** normalizeFPart.c:167 "CNTRV" *)
Definition TAG_CHARACTERS : list Z := [67; 78; 84; 82; 86].

(** strtok_r with the delimiter "|": the non-empty pieces; [cur] is the piece being read *)
Fixpoint strtok_bar (s cur : list Z) : list (list Z) :=
  match s with
  | [] => match cur with [] => [] | _ => [cur] end
  | c :: t => if c =? 124 then match cur with [] => strtok_bar t [] | _ => cur :: strtok_bar t [] end
              else strtok_bar t (cur ++ [c])
  end.

(** normalizeFPart.c:194-249: (status, tags in order of appearance, untagged portion) *)
Fixpoint scan_tags (toks : list (list Z)) (tags : list (Z * list Z)) (un : option (list Z))
  : Z * list (Z * list Z) * option (list Z) :=
  match toks with
  | [] => (FP_SUCCESS, tags, un)
  | tok :: rest =>
    match strchr tok 58 with
    | Some p =>
      if negb (p =? 1) then (FP_INVALID_TAG_FORMAT, tags, un)
      else
        let c := toupper (nthc tok 0) in
        if negb (existsb (Z.eqb c) TAG_CHARACTERS) then (FP_INVALID_TAG_CHARACTER, tags, un)
        else if existsb (fun tv => fst tv =? c) tags then (FP_REPEATED_TAG, tags, un)
        else
          let v := sdrop 2 tok in
          let tags := tags ++ [(c, v)] in
          if validateFPartTag c v then scan_tags rest tags un
          else ((if c =? 67 then FP_INVALID_C else if c =? 84 then FP_INVALID_T else if c =? 86 then FP_INVALID_V
                 else if c =? 82 then FP_INVALID_R else FP_UNEXPECTED), tags, un)
    | None =>
      match un with
      | Some _ => (FP_MULTIPLE_UNTAGGED, tags, un)
      | None => scan_tags rest tags (Some tok)
      end
    end
  end.

(** normalizeFPart.c:261-281: for each canonical tag, every entry that has it *)
Definition emit_tags (tags : list (Z * list Z)) : list Z :=
  flat_map (fun t => flat_map (fun tv => if fst tv =? t then [fst tv; 58] ++ snd tv ++ [124] else []) tags) TAG_CHARACTERS.

(** normalizeFPart.c:164-314: (status, *normalized).  Memory is never exhausted in the model.  With an untagged
    portion and no tag, line 283 would take the length of a null pointer: [Undef]. *)
Definition normalizeFPart (s : list Z) : res (Z * option (list Z)) :=
  if slen s =? 0 then Ok (FP_EMPTY, None)
  else match strchr s 58 with
  | None => Ok (FP_NO_TAG_SEPARATOR, None)
  | Some _ =>
    let '(st, tags, un) := scan_tags (strtok_bar s []) [] None in
    let st := if (last s 0 =? 124) && (match un with Some _ => true | None => false end) then FP_MULTIPLE_UNTAGGED else st in
    if negb (st =? FP_SUCCESS) then Ok (st, None)
    else
      let norm := match emit_tags tags with [] => None | e => Some e end in
      match un with
      | None => Ok (FP_SUCCESS, norm)
      | Some u => match norm with None => Undef | Some e => Ok (FP_SUCCESS, Some (e ++ u)) end
      end
  end.

(** normalizeFPart.c:143-145 *)
Definition canUseOriginalFPart (st : Z) : bool := st <? FP_MEMORY_ERROR.

(** Internal/zisaCollection.c:65-77, downwards from [i]; result: position of the last bar, 0 if none before the second slash *)
Fixpoint find_bar (n : nat) (s : list Z) (i slashes : Z) : res Z :=
  match n with
  | O => Ok 0
  | S m =>
    let* c := aget s i in
    let slashes' := if c =? 47 then slashes + 1 else slashes in
    if (c =? 47) && (slashes' >=? 2) then Ok 0
    else if c =? 124 then Ok i
    else find_bar m s (i - 1) slashes'
  end.
(** Internal/zisaCollection.c:82-90, downwards from [i] *)
Fixpoint find_mark (n : nat) (s : list Z) (i : Z) : res Z :=
  match n with
  | O => Ok 0
  | S m =>
    let* c := aget s i in
    if c =? 47 then
      let* a := aget s (i + 1) in
      if toupper a =? 67 then
        (let* b := aget s (i + 2) in if b =? 58 then Ok (i + 1) else find_mark m s (i - 1))
      else find_mark m s (i - 1)
    else find_mark m s (i - 1)
  end.
(** Internal/zisaCollection.c:44-92; [s] is the pathname, its length the length argument *)
Definition zisaCollection (s : list Z) : res Z :=
  let len := slen s in
  if len <? 12 then Ok 0
  else
    let* ipos := find_bar (Z.to_nat (len - 5)) s (len - 1) 0 in
    if ipos <? 5 then Ok 0
    else find_mark (Z.to_nat (ipos - 5)) s (ipos - 1).

(** Public/zsetCollectionSequence.c:68-73: position of the first bar, 0 if none *)
Definition first_bar (f : list Z) : Z := match strchr f 124 with Some i => i | None => 0 end.

(** printf "%6.6d" *)
Definition fmt_6 (n : Z) : list Z := if n <? 0 then 45 :: pad0 6 (dec (- n)) else pad0 6 (dec n).

(** Public/zsetCollectionSequence.c:42-102: the returned string; [None] is the null pointer.
    [junk], [fbuf]: uninitialised locals.  The allocated buffer is zeroed ([calloc]). *)
Definition zsetCollectionSequence (junk fbuf s : list Z) (n : Z) : res (option (list Z)) :=
  let len := slen s in
  if len <? 7 then Ok None
  else
    let* r := zpathnameGetPart junk s 6 fbuf 129 in
    let '(flen, fb) := r in
    let* f := cstr fb in
    let bar := match f with
               | a :: b :: _ => if ((a =? 99) || (a =? 67)) && (b =? 58) then first_bar (stake flen f) else 0
               | _ => 0 end in
    let head := stake 128 ([67; 58] ++ fmt_6 n ++ [124]) in
    let coll := stringCat_val 129 head (if negb (bar =? 0) then sdrop (bar + 1) f else f) in
    let* c := stringCopy (repeat 0 (Z.to_nat (len + 10))) (len + 10) s (Some len) in
    let* p := zpathnameSetPart junk (fst c) (len + 10) coll 6 in
    let* out := cstr (snd p) in
    Ok (Some out).
