(** * Model of zcopyFile and zsqueeze (DSS 7): copy every record found in the words of a file to a new file.
    Not modelled: location records (zcopyRecordInternal.c:305-312), aliases, reclaimed space, the messages, and the
    replacement of the original file by the copy except as [replace] below.  The state of the source handle does not
    matter: every record is copied from the words of the file. *)
From Coq Require Import ZArith List Lia Bool.
From Verif Require Import Base PackModel HashModel FileModel.
Import ListNotations.
Open Scope Z_scope.

(** zcopyFile.c:150-171 with statusWanted 0: a word equal (as 64 bits: the model
    keeps data words unsigned) to DSS_INFO_FLAG, followed by a status word and a length.
    The chunks of 4028 words (lines 141-165) do not matter: a header that straddles two chunks is read again. *)
Definition looks (d : Z -> Z) (a : Z) : bool :=
  (d a mod 2 ^ 64 =? INFO_FLAG mod 2 ^ 64) && (0 <? fst (i8toi4 false (d (a + 2)))) && (fst (i8toi4 false (d (a + 2))) <? 393)
  && zcompareRecordStatus (fst (i8toi4 false (d (a + 1)))) 0.
Definition found_headers (s : st) : list Z := filter (looks (s_disk s)) (zseq 0 (h_fileSize (s_hdr s))).

(** zcopyFile.c:173-187: the info block at [a] (at most 100 words) and the pathname in it. *)
Definition info_at (d : Z -> Z) (a : Z) : Z -> Z := fun k => d (a + k).
Definition info_path (f : Z -> Z) : list Z :=
  let n := fst (i8toi4 false (f 2)) in
  firstn (Z.to_nat n) (bytes_of_words (tabulate (fun k => f (30 + k)) (numberLongsInBytes n))).

(** zreadInternal.c:268, 291-489 with a given info block (line 249: no lookup). *)
Definition read_info (f : Z -> Z) : M content :=
  ih <- read_section (f 13) (f 14) ;;
  h2 <- read_section (f 15) (f 16) ;;
  uh <- read_user_header (f 17) (f 18) ;;
  v1 <- read_section (f 19) (f 20) ;;
  v2 <- read_section (f 21) (f 22) ;;
  v3 <- read_section (f 23) (f 24) ;;
  ret (mkcontent (fst (i8toi4 false (f 4))) ih h2 uh v1 v2 v3 (f 26) (f 27)).

(** Surroundings: time and program name of the copying process; ztsIsCurrentTimeSeries (which looks at the clock);
    the internal header with padded units built by zcopyRecordInternal.c:193-224. *)
Record env := mkenv { v_now : Z; v_prog : Z * Z; v_current : list Z -> bool; v_padded : list Z -> list Z }.
Definition is_ts (t : Z) : bool := (100 <=? t) && (t <=? 119).
(** stringHeaderUtility.c:58-74 (little-endian): the first word of the units is zero or four blanks. *)
Definition has_padding (ih : list Z) : bool := (nth 17 ih 0 =? 0) || (nth 17 ih 0 =? 538976288).

(** zcopyRecordInternal.c:145-227: the request written to the new file; result also the expansion number kept. *)
Definition copy_request (ev : env) (f : Z -> Z) (name : list Z) (ct : content) : xfer * Z :=
  let expNo := fst (i8toi4 false (f 5)) in
  let type := ct_type ct in
  let shrink := (0 <? expNo) && is_ts type && negb (v_current ev name) in
  let ih := if is_ts type && (1 <? zlen (ct_ih ct) - 17) && negb (has_padding (ct_ih ct)) then v_padded ev (ct_ih ct)
            else ct_ih ct in
  (mkxfer (copy_path name) type ih (ct_h2 ct) (ct_uh ct) (ct_v1 ct) (ct_v2 ct) (ct_v3 ct)
     (ct_num ct) (ct_logical ct) (if shrink then ct_num ct else f 25) (if shrink then ct_num ct else 0),
   if shrink then 0 else expNo).

(** zcopyRecordInternal.c:283-292: words of the new info block that are taken over from the old one (type and
    version, expansion, last write time, program, first date, creation time, two reserved words). *)
Definition patched (f g : Z -> Z) (expNo : Z) : Z -> Z :=
  fun k => if k =? 5 then i4toi8 false expNo (snd (i8toi4 false (f 5)))
           else if (k =? 4) || (k =? 6) || (k =? 7) || (k =? 8) || (k =? 9) || (k =? 11) || (k =? 12) || (k =? 29)
           then f k else g k.

(** zcopyRecordInternal.c:111-322, boolDuplicate 0; [src] is the source file. *)
Definition copy_record (c' : cfg) (ev : env) (src : st) (a : Z) : M unit :=
  let f := info_at (s_disk src) a in
  match read_info f src with
  | UB => ubM
  | ERR _ => errM
  | OK ct _ =>
      let (x, expNo) := copy_request ev f (info_path f) ct in
      modI (set_dataDates (f 9) (f 10)) ;;;
      zwriteInternal c' (v_now ev) (v_prog ev) x ;;;
      i <- getI ;;
      let g := patched f (i_info i) expNo in
      modI (set_info g) ;;;
      zputw (i_addInfo i) (tabulate g (numInfo (fst (i8toi4 false (i_info i 2))))) ;;;
      zpermWrite
  end.
Fixpoint copy_all (c' : cfg) (ev : env) (src : st) (l : list Z) : M unit :=
  match l with [] => ret tt | a :: t => copy_record c' ev src a ;;; copy_all c' ev src t end.

(** zsqueeze7.c:296-372, 393-560: a new file with parameters [c'] (chosen from the number of pathnames), every record
    copied, the result opened.  None: the squeeze fails (the original file is kept) or its behaviour is undefined. *)
Definition squeeze (c' : cfg) (ev : env) (s : st) : option st :=
  match copy_all c' ev s (found_headers s) (new_file c') with OK _ t => Some (reopen t) | _ => None end.

(** ** Replacing the file *)

(** What the two names (the file and the temporary file) hold; [part n]: the first [n] words of the copy. *)
Inductive holds := Nothing | Original | Whole | Part (n : Z).
(** zsqueeze7.c:393-500 (in place): the original is truncated, then the copy is written over it piece by piece
    (copyFile.c), then the temporary file is removed.  States of (file, temporary file), in order; [size]: words of
    the copy. *)
Definition in_place (size : Z) : list (holds * holds) :=
  (Original, Whole) :: map (fun n => (Part n, Whole)) (zseq 0 size) ++ [(Whole, Whole); (Whole, Nothing)].
(** zsqueeze7.c:501-560 (otherwise): unlink the original, rename the copy. *)
Definition by_rename : list (holds * holds) := [(Original, Whole); (Nothing, Whole); (Whole, Nothing)].
