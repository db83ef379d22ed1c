(** * Model of the catalogue with selection: Internal/zcatParsePath.c, zcatComparePath.c, zcatalogInternal.c,
    Public/zfindString.c. *)
From Coq Require Import ZArith List Bool.
From Verif Require Import Base ArrayLib PackModel HashModel FileModel CStr PathModel.
Import ListNotations.
Open Scope Z_scope.
Open Scope res_scope.

(** Public/zfindString.c:49-59 and Public/zpathnameCompare.c:41-49 (zstringCompare): do the [n] characters of [full]
    from cell [i] on equal those of [find] from cell [j] on, without regard to case?  A cell outside its array is
    undefined behaviour. *)
Fixpoint same_text (n : nat) (full : list Z) (i : Z) (find : list Z) (j : Z) : res bool :=
  match n with
  | O => Ok true
  | S m => let* x := aget full i in
           let* y := aget find j in
           if toupper x =? toupper y then same_text m full (i + 1) find (j + 1) else Ok false
  end.
(** Public/zpathnameCompare.c:35-50, the first string starting at cell [off] *)
Definition zstringCompare (a : list Z) (off : Z) (b : list Z) (n : Z) : res bool := same_text (Z.to_nat n) a off b 0.

(** Public/zfindString.c:47-60 *)
Fixpoint find_loop (n : nat) (full find : list Z) (findLen i : Z) : res Z :=
  match n with
  | O => Ok (-1)
  | S m => let* b := same_text (Z.to_nat findLen) full i find 0 in
           if b then Ok i else find_loop m full find findLen (i + 1)
  end.
(** Public/zfindString.c:35-63 *)
Definition zfindString (full : list Z) (fullLen : Z) (find : list Z) (findLen : Z) : res Z :=
  if findLen >? fullLen then Ok (-1) else find_loop (Z.to_nat fullLen) full find findLen 0.

(** What is kept of one part of the pattern: action (0 any, 1 equal, 2 starts, 3 ends, 4 contains), length, text *)
Record wild := mkwild { w_act : Z; w_len : Z; w_buf : list Z }.

(** Internal/zcatParsePath.c:96-142: (action, istart, len) for the text of a part *)
Definition part_action (part : list Z) : res (Z * Z * Z) :=
  let len := slen part in
  if len =? 1 then let* c := aget part 0 in Ok (if c =? 42 then 0 else 1, 0, len)
  else if len =? 0 then Ok (1, 0, 0)
  else
    let* a := aget part 0 in
    let* b := aget part (len - 1) in
    let endsWith := a =? 42 in
    let startsWith := b =? 42 in
    Ok (if startsWith then (if endsWith then (4, 1, len - 2) else (2, 0, len - 1))
        else if endsWith then (3, 1, len - 1) else (1, 0, len)).

(** Internal/zcatParsePath.c:94-165: parts [k], [k]+1, ...; [olds] are the callers' buffers, not initialised, [pbuf] the
    local one; the length of a part with action 0 is not set *)
Fixpoint parse_parts (junk pat pbuf : list Z) (k : Z) (olds : list wild) : res (list wild) :=
  match olds with
  | [] => Ok []
  | o :: olds' =>
    let* r := zpathnameGetPart junk pat k pbuf 129 in
    let* part := cstr (snd r) in
    let* q := part_action part in
    let '(act, istart, len) := q in
    let* w := if act =? 0 then Ok (mkwild 0 (w_len o) (w_buf o))
              else let* c := stringCopy (w_buf o) 129 (sdrop istart part) (Some len) in Ok (mkwild act len (fst c)) in
    let* ws := parse_parts junk pat (snd r) (k + 1) olds' in
    Ok (w :: ws)
  end.
(** Internal/zcatParsePath.c:66-167; [None]: the pattern is not a pathname (result 0) *)
Definition zcatParsePath (junk pat pbuf : list Z) (olds : list wild) : res (option (list wild)) :=
  if slen pat =? 0 then Ok None
  else
    let* r := zpathnamePartPositions pat junk 7 in
    if negb (fst r =? 7) then Ok None
    else let* ws := parse_parts junk pat pbuf 1 olds in Ok (Some ws).

(** Internal/zcatComparePath.c:122-127, 130-135: is there a bar among the cells 2 .. n-1? *)
Fixpoint has_bar (n : nat) (b : list Z) (j : Z) : res bool :=
  match n with
  | O => Ok false
  | S m => let* x := aget b j in let* r := has_bar m b (j + 1) in Ok ((x =? 124) || r)
  end.
(** Internal/zcatComparePath.c:139-146, 147-154: cells 2, 3, ... up to the bar become 'X' *)
Fixpoint mask_loop (n : nat) (b : list Z) (j : Z) : res (list Z) :=
  match n with
  | O => Ok b
  | S m => let* x := aget b j in
           if x =? 124 then Ok b else let* b' := aset b j 88 in mask_loop m b' (j + 1)
  end.
(** Internal/zcatComparePath.c:108-159: the sequence of a collection is masked in both F parts *)
Definition mask_collection (len : Z) (find part : list Z) : res (list Z * list Z) :=
  let* s := cstr part in
  let plen := slen s in
  if (9 <=? len) && (9 <=? plen) then
    let* f0 := aget find 0 in
    let* p0 := aget part 0 in
    if (toupper f0 =? toupper p0) && (toupper f0 =? 67) then
      let* f1 := aget find 1 in
      let* p1 := aget part 1 in
      if (f1 =? 58) && (p1 =? 58) then
        let* a := has_bar (Z.to_nat (len - 2)) find 2 in
        let* b := if a then has_bar (Z.to_nat (plen - 2)) part 2 else Ok false in
        if b then
          let* find' := mask_loop (Z.to_nat (len - 2)) find 2 in
          let* part' := mask_loop (Z.to_nat (plen - 2)) part 2 in
          Ok (find', part')
        else Ok (find, part)
      else Ok (find, part)
    else Ok (find, part)
  else Ok (find, part).

(** Internal/zcatComparePath.c:161-188 *)
Definition compare_part (act len plen : Z) (find part : list Z) : res bool :=
  if act =? 1 then zstringCompare part 0 find len
  else if act =? 2 then zstringCompare part 0 find len
  else if act =? 3 then zstringCompare part (plen - len) find len
  else if act =? 4 then let* r := zfindString part plen find len in Ok (negb (r <? 0))
  else Ok true.

(** Internal/zcatComparePath.c:83-190: parts [k] .. 6; [pbuf], [sbuf] the local buffers *)
Fixpoint compare_parts (junk path pbuf sbuf : list Z) (k : Z) (coll : bool) (ws : list wild) : res bool :=
  match ws with
  | [] => Ok true
  | w :: ws' =>
    if w_act w =? 0 then compare_parts junk path pbuf sbuf (k + 1) coll ws'
    else
      let* r := zpathnameGetPart junk path k pbuf 129 in
      let '(len, pb) := r in
      if (w_act w =? 1) && negb (len =? w_len w) then Ok false
      else
        let* t := cstr (w_buf w) in
        let* c := stringCopy sbuf 129 t (Some (w_len w)) in
        let* m := if (k =? 6) && coll then mask_collection (w_len w) (fst c) pb else Ok (fst c, pb) in
        let* b := compare_part (w_act w) (w_len w) len (fst m) (snd m) in
        if b then compare_parts junk path (snd m) (fst m) (k + 1) coll ws' else Ok false
  end.
(** Internal/zcatComparePath.c:55-193 *)
Definition zcatComparePath (junk path pbuf sbuf : list Z) (coll : bool) (ws : list wild) : res bool :=
  if slen path =? 0 then Ok true
  else
    let* r := zpathnamePartPositions path junk 7 in
    if negb (fst r =? 7) then Ok false
    else compare_parts junk path pbuf sbuf 1 coll ws.

(** The fields of zStructCatalog that select records *)
Record select := mksel { s_typeStart : Z; s_typeEnd : Z; s_time : Z; s_timeFlag : Z }.
Definition select_all : select := mksel 0 0 0 0.

(** Internal/zcatalogInternal.c:311-344 for a record that passed the test on its name *)
Definition type_time (f : select) (dataType lastWrite : Z) : bool :=
  if (s_typeStart f =? 0) || ((s_typeStart f <=? dataType) && (dataType <=? s_typeEnd f)) then
    if s_time f >? 0 then
      if s_timeFlag f =? -2 then lastWrite <? s_time f
      else if s_timeFlag f =? -1 then lastWrite <=? s_time f
      else if s_timeFlag f =? 0 then lastWrite =? s_time f
      else if s_timeFlag f =? 1 then lastWrite >=? s_time f
      else if s_timeFlag f =? 2 then lastWrite >? s_time f
      else false
    else true
  else true.

(** Internal/zcatalogInternal.c:292-344: is the record listed?  [wp] is the pattern given, [ws] what zcatParsePath made
    of it; [bytes] is the local pathname with its NUL (charLong, line 286). *)
Definition chosen (junk pbuf sbuf : list Z) (wp : option (list Z)) (ws : option (list wild)) (coll : bool) (f : select)
    (name : list Z) (dataType lastWrite : Z) : res bool :=
  let* found :=
    match wp, ws with
    | Some p, None => if coll then let* r := zpathnameCompareCollection (name ++ [0]) (p ++ [0]) (slen name) in Ok (negb (r =? 0))
                      else Ok true
    | _, Some ws => let* t := cstr (name ++ [0]) in zcatComparePath junk t pbuf sbuf coll ws
    | None, None => Ok true
    end in
  Ok (if found then type_time f dataType lastWrite else false).

(** Internal/zcatalogInternal.c:279-450: one bin, as [FileModel.cat_bin] but with the selection [keep] *)
Section WALK.
Variable keep : list Z -> Z -> Z -> res bool.
Fixpoint catf_bin (fuel : nat) (isize listSize : Z) (l : list Z) (icount : Z) (acc : list (list Z)) : option (list (list Z)) :=
  match fuel with
  | O => None
  | S f =>
      match l with
      | [] => None
      | h :: l1 =>
          if h =? 0 then Some acc
          else match l1 with
          | stt :: pl :: _ :: tc :: lw :: _ :: rest =>
              let (nchars, psize) := i8toi4 false pl in
              let name := firstn (Z.to_nat nchars) (bytes_of_words rest) in
              match (if zcompareRecordStatus stt ST_VALID then keep name (fst (i8toi4 false tc)) lw else Ok false) with
              | Undef => None
              | Ok wanted =>
                  if wanted && (0 <? listSize) && (listSize <=? Z.of_nat (length acc)) then Some acc
                  else
                    let acc' := if wanted && (0 <? listSize) then acc ++ [fort_to_c name] else acc in
                    let icount' := icount + 7 + psize in
                    if isize - 2 <=? icount' then Some acc'
                    else catf_bin f isize listSize (skipn (Z.to_nat (7 + psize)) l) icount' acc'
              end
          | _ => None
          end
      end
  end.
(** Internal/zcatalogInternal.c:263-460 *)
Fixpoint catf_bins (n : nat) (c : cfg) (listSize a : Z) (acc : list (list Z)) : M (Z * list (list Z)) :=
  match n with
  | O => ret (a, acc)
  | S m =>
      bindM (zgetw a (c_binSize c)) (fun b =>
      if nth 0 b 0 =? 0 then ret (a, acc)
      else match catf_bin (length b) (c_binSize c) listSize b 0 acc with
           | None => ubM
           | Some acc' => catf_bins m c listSize (a + c_binSize c) acc'
           end)
  end.
(** Internal/zcatalogInternal.c:262-478 *)
Fixpoint catf_blocks (fuel : nat) (c : cfg) (listSize a : Z) (acc : list (list Z)) : M (list (list Z)) :=
  match fuel with
  | O => ubM
  | S f =>
      bindM (catf_bins (Z.to_nat (c_bpb c)) c listSize a acc) (fun r =>
      bindM (zgetw (fst r) 1) (fun w =>
      if nth 0 w 0 =? 0 then ret (snd r) else catf_blocks f c listSize (nth 0 w 0) (snd r)))
  end.
End WALK.

(** Internal/zcatalogInternal.c:81-507 as called by Public/zcatalog.c:57-80 without sorting ([coll] false) or for a
    collection ([coll] true, before the sort): numberWanted 0, statusWanted 0, no CRC values.  The buffers and the array
    are locals, not initialised. *)
Record locals := mkloc { l_junk : list Z; l_part : list Z; l_pbuf : list Z; l_sbuf : list Z; l_olds : list wild }.
Definition zcatalogSelect (c : cfg) (lo : locals) (wp : option (list Z)) (coll : bool) (f : select) : M (list (list Z)) :=
  fun s =>
    match (match wp with None => Ok None | Some p => zcatParsePath (l_junk lo) p (l_part lo) (l_olds lo) end) with
    | Undef => UB
    | Ok ws =>
        let h := s_dhdr s in
        bindM (setH h) (fun _ =>
        catf_blocks (chosen (l_junk lo) (l_pbuf lo) (l_sbuf lo) wp ws coll f) (S (Z.to_nat (h_fileSize h))) c
          (h_numRecords h + h_numRenames h + h_numDeletes h) (c_firstBin c) []) s
    end.
