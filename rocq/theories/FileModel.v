(** * Model of the DSS-7 record engine.
    The file is a map from 64-bit word addresses to words.  One process, one handle, unbuffered (zread and zwrite
    pass an empty buffer), default reclaim level RECLAIM_NONE, no aliases (see AliasModel.v), little-endian.
    Not modelled: messages, locking (LockModel.v), statistics fields of the header other than those below,
    physical end of file (a read returns whatever the map holds), allocation failure. *)
From Coq Require Import ZArith List Lia Bool.
From Verif Require Import Base PackModel HashModel.
Import ListNotations.
Open Scope Z_scope.

(** ** State *)

(** Fixed file parameters: header words kmaxHash, kbinSize, kbinsPerBlock, kaddHashTableStart, kaddFirstBin, kdetune
    (zpermCreate.c:311-343, znewFileSize.c).  [c_grow n] stands for (int)((float)n * 1.10) in
    zwriteExisting.c:342,347; every theorem holds for an arbitrary function. *)
Record cfg := mkcfg {
  c_maxHash : Z; c_binSize : Z; c_bpb : Z; c_hashStart : Z; c_firstBin : Z; c_detune : bool; c_grow : Z -> Z }.

(** Header words that change (zdssFileKeys: kfileSize, kbinsRemainInBlock, kaddNextEmptyBin, knumberRecords,
    knumberDeletes, knumberRenames, kdead, kcatSequenceNumber). *)
Record hdr := mkhdr {
  h_fileSize : Z; h_binsRemain : Z; h_nextBin : Z; h_numRecords : Z; h_numDeletes : Z; h_numRenames : Z;
  h_dead : Z; h_catSeq : Z }.

(** The part of ifltab used by these functions (zdssKeys: kpathnameHash, kaddTableHash, klenLastPath,
    khashTableBinAdd, kbinAddCurrent, kbinWithSpace, kaddInfoLastPath, kpathBinAddress, kbinStatus, kbinPathLen,
    kinfoAddInBin, kbinTypeAndCatSort, kbinLastWrite, kbinDates, kdataFirstDate, kdataLastDate, kpathBin, kinfo). *)
Record ifl := mkifl {
  i_hash : Z; i_addTable : Z; i_len : Z; i_hashBin : Z; i_binCur : Z; i_withSpace : Z; i_addInfo : Z;
  i_pathBinAdd : Z; i_status : Z; i_pathLen : Z; i_infoAddInBin : Z; i_typeCat : Z; i_lastWrite : Z; i_dates : Z;
  i_firstDate : Z; i_lastDate : Z; i_bin : list Z; i_info : Z -> Z }.

(** One physical write: words, zero fill, or the file header (zpermWrite). *)
Inductive wr := WWords (a : Z) (ws : list Z) | WZero (a n : Z) | WHdr (h : hdr).

(** [s_disk], [s_dhdr]: the file; [s_hdr], [s_ifl]: memory; [s_log]: writes issued so far, oldest first. *)
Record st := mkst { s_disk : Z -> Z; s_dhdr : hdr; s_log : list wr; s_hdr : hdr; s_ifl : ifl }.

Definition put (d : Z -> Z) (a : Z) (ws : list Z) : Z -> Z :=
  fun x => if (a <=? x) && (x <? a + Z.of_nat (length ws)) then nth (Z.to_nat (x - a)) ws 0 else d x.
Definition zero (d : Z -> Z) (a n : Z) : Z -> Z :=
  fun x => if (a <=? x) && (x <? a + n) then 0 else d x.
Definition apply_wr (dh : (Z -> Z) * hdr) (w : wr) : (Z -> Z) * hdr :=
  let (d, h) := dh in
  match w with WWords a ws => (put d a ws, h) | WZero a n => (zero d a n, h) | WHdr h' => (d, h') end.

Definition issue (w : wr) (s : st) : st :=
  let (d, h) := apply_wr (s_disk s, s_dhdr s) w in mkst d h (s_log s ++ [w]) (s_hdr s) (s_ifl s).

(** Outcomes: success, error return, undefined behaviour. *)
Inductive out (A : Type) := OK (a : A) (s : st) | ERR (s : st) | UB.
Arguments OK {A}. Arguments ERR {A}. Arguments UB {A}.
Definition M (A : Type) := st -> out A.
Definition ret {A} (a : A) : M A := fun s => OK a s.
Definition bindM {A B} (m : M A) (f : A -> M B) : M B :=
  fun s => match m s with OK a s' => f a s' | ERR s' => ERR s' | UB => UB end.
Definition errM {A} : M A := fun s => ERR s.
Definition ubM {A} : M A := fun _ => UB.
Declare Scope fm_scope.
Notation "x <- m ;; k" := (bindM m (fun x => k)) (at level 100, m at next level, right associativity) : fm_scope.
Notation "m ;;; k" := (bindM m (fun _ => k)) (at level 100, right associativity) : fm_scope.
Open Scope fm_scope.

Definition getI : M ifl := fun s => OK (s_ifl s) s.
Definition getH : M hdr := fun s => OK (s_hdr s) s.
Definition setI (i : ifl) : M unit := fun s => OK tt (mkst (s_disk s) (s_dhdr s) (s_log s) (s_hdr s) i).
Definition setH (h : hdr) : M unit := fun s => OK tt (mkst (s_disk s) (s_dhdr s) (s_log s) h (s_ifl s)).
Definition modI (f : ifl -> ifl) : M unit := i <- getI ;; setI (f i).
Definition modH (f : hdr -> hdr) : M unit := h <- getH ;; setH (f h).
Definition liftR {A} (r : res A) : M A := match r with Ok a => ret a | Undef => ubM end.

(** ** Elementary disk access *)

Definition zseq (a : Z) (n : Z) : list Z := map (fun k => a + Z.of_nat k) (seq 0 (Z.to_nat n)).
Definition words (d : Z -> Z) (a n : Z) : list Z := map d (zseq a n).

(** zput.c:61-156, wordSize 2 (64-bit words). *)
Definition zputw (a : Z) (ws : list Z) : M unit := fun s =>
  if (a <? 0) || (h_fileSize (s_hdr s) + 10000 <? a) then ERR s
  else if 100000000 <? 2 * Z.of_nat (length ws) then ERR s
  else match ws with [] => OK tt s | _ => OK tt (issue (WWords a ws) s) end.
(** zput.c:108-121: negative count, zero fill. *)
Definition zputzero (a n : Z) : M unit := fun s =>
  if (a <? 0) || (h_fileSize (s_hdr s) + 10000 <? a) then ERR s
  else OK tt (issue (WZero a n) s).
(** zget.c:59-175, wordSize 2.  The header re-read of lines 86-89 leaves the header unchanged. *)
Definition zgetw (a n : Z) : M (list Z) := fun s =>
  if (a <? 0) || (h_fileSize (s_hdr s) + 100000 <? a) then ERR s
  else if 10000000 <? 2 * n then ERR s
  else OK (words (s_disk s) a n) s.

(** 32-bit items in 64-bit words: the first item is the low half (zwritedisk.c writes numberInts*4 bytes, so the
    high half of the last word keeps its previous value when the count is odd). *)
Fixpoint pack_ints (d : Z -> Z) (a : Z) (l : list Z) : list Z :=
  match l with
  | [] => []
  | [x] => [i4toi8 false x (snd (i8toi4 false (d a)))]
  | x :: y :: t => i4toi8 false x y :: pack_ints d (a + 1) t
  end.
Definition unpack_ints (ws : list Z) : list Z :=
  flat_map (fun w => let (x, y) := i8toi4 false w in [x; y]) ws.
Definition ints_at (d : Z -> Z) (a n : Z) : list Z :=
  firstn (Z.to_nat n) (unpack_ints (words d a (numberLongsInInts n))).

(** zput.c, wordSize 1. *)
Definition zputi (a : Z) (l : list Z) : M unit := fun s =>
  if (a <? 0) || (h_fileSize (s_hdr s) + 10000 <? a) then ERR s
  else if 100000000 <? Z.of_nat (length l) then ERR s
  else match l with [] => OK tt s | _ => OK tt (issue (WWords a (pack_ints (s_disk s) a l)) s) end.
(** zget.c, wordSize 1. *)
Definition zgeti (a n : Z) : M (list Z) := fun s =>
  if (a <? 0) || (h_fileSize (s_hdr s) + 100000 <? a) then ERR s
  else if (n <? 0) || (10000000 <? n) then ERR s
  else OK (ints_at (s_disk s) a n) s.

(** zwriteEOF.c:39-59 (DSS_END_FILE_FLAG). *)
Definition EOF_FLAG := -97532.
Definition zwriteEOF : M unit := h <- getH ;; zputw (h_fileSize h) [EOF_FLAG].
(** zlockActive.c:412-416 at unlock with flush: zpermWrite.c:38-58. *)
Definition zpermWrite : M unit := fun s => OK tt (issue (WHdr (s_hdr s)) s).

(** Text in words (charLong, little-endian; byte-order independence is C37). *)
Definition bytes_of_words (ws : list Z) : list Z := flat_map (bytes_le 8) ws.
Fixpoint words_of_bytes (n : nat) (b : list Z) : list Z :=
  match n with O => [] | S m => unsigned_le (firstn 8 b) :: words_of_bytes m (skipn 8 b) end.
(** charLong(pathname, words, len, len, 1, 1): overwrites the first [length path] bytes of the words, the rest of
    the last word is kept (charLong.c:118-127: len is limited to maxBytesTo, so nothing is zero-filled). *)
Definition path_words (path old : list Z) : list Z :=
  words_of_bytes (length old) (path ++ skipn (length path) (bytes_of_words old)).

(** ** zcheckInternal *)

(** headers: REC_STATUS_*. *)
Definition ST_VALID := 0. Definition ST_PRIMARY := 1. Definition ST_ALIAS := 2.
Definition ST_MOVED := 10. Definition ST_DELETED := 11. Definition ST_RENAMED := 12. Definition ST_ANY := 100.

(** zcompareRecordStatus.c:46-67. *)
Definition zcompareRecordStatus (read wanted : Z) : bool :=
  ((read <=? ST_PRIMARY) && ((wanted =? ST_VALID) || (wanted =? ST_PRIMARY) || (wanted =? ST_ANY)))
  || ((read =? ST_ALIAS) && ((wanted =? ST_VALID) || (wanted =? ST_ALIAS) || (wanted =? ST_ANY)))
  || ((read =? ST_DELETED) && ((wanted =? ST_DELETED) || (wanted =? ST_ANY)))
  || ((read =? ST_RENAMED) && ((wanted =? ST_RENAMED) || (wanted =? ST_ANY))).

(** zcheckInternal.c:356-369: what is remembered about a matching entry. *)
Definition remember (i : ifl) (a icount status psize ia tc lw dt : Z) : ifl :=
  mkifl (i_hash i) (i_addTable i) (i_len i) (i_hashBin i) (i_binCur i) (i_withSpace i) ia
    (a + icount) status (i4toi8 false (i_len i) psize) (a + icount + 3) tc lw dt
    (i_firstDate i) (i_lastDate i) (i_bin i) (i_info i).
Definition set_withSpace (v : Z) (i : ifl) : ifl :=
  mkifl (i_hash i) (i_addTable i) (i_len i) (i_hashBin i) (i_binCur i) v (i_addInfo i)
    (i_pathBinAdd i) (i_status i) (i_pathLen i) (i_infoAddInBin i) (i_typeCat i) (i_lastWrite i) (i_dates i)
    (i_firstDate i) (i_lastDate i) (i_bin i) (i_info i).
Definition set_binCur (v : Z) (i : ifl) : ifl :=
  mkifl (i_hash i) (i_addTable i) (i_len i) (i_hashBin i) v (i_withSpace i) (i_addInfo i)
    (i_pathBinAdd i) (i_status i) (i_pathLen i) (i_infoAddInBin i) (i_typeCat i) (i_lastWrite i) (i_dates i)
    (i_firstDate i) (i_lastDate i) (i_bin i) (i_info i).
Definition set_bin (v : list Z) (i : ifl) : ifl :=
  mkifl (i_hash i) (i_addTable i) (i_len i) (i_hashBin i) (i_binCur i) (i_withSpace i) (i_addInfo i)
    (i_pathBinAdd i) (i_status i) (i_pathLen i) (i_infoAddInBin i) (i_typeCat i) (i_lastWrite i) (i_dates i)
    (i_firstDate i) (i_lastDate i) v (i_info i).
Definition set_info (v : Z -> Z) (i : ifl) : ifl :=
  mkifl (i_hash i) (i_addTable i) (i_len i) (i_hashBin i) (i_binCur i) (i_withSpace i) (i_addInfo i)
    (i_pathBinAdd i) (i_status i) (i_pathLen i) (i_infoAddInBin i) (i_typeCat i) (i_lastWrite i) (i_dates i)
    (i_firstDate i) (i_lastDate i) (i_bin i) v.
Definition set_addInfo (v : Z) (i : ifl) : ifl :=
  mkifl (i_hash i) (i_addTable i) (i_len i) (i_hashBin i) (i_binCur i) (i_withSpace i) v
    (i_pathBinAdd i) (i_status i) (i_pathLen i) (i_infoAddInBin i) (i_typeCat i) (i_lastWrite i) (i_dates i)
    (i_firstDate i) (i_lastDate i) (i_bin i) (i_info i).
Definition set_hashBin (v : Z) (i : ifl) : ifl :=
  mkifl (i_hash i) (i_addTable i) (i_len i) v (i_binCur i) (i_withSpace i) (i_addInfo i)
    (i_pathBinAdd i) (i_status i) (i_pathLen i) (i_infoAddInBin i) (i_typeCat i) (i_lastWrite i) (i_dates i)
    (i_firstDate i) (i_lastDate i) (i_bin i) (i_info i).
Definition set_lwDates (lw dt : Z) (i : ifl) : ifl :=
  mkifl (i_hash i) (i_addTable i) (i_len i) (i_hashBin i) (i_binCur i) (i_withSpace i) (i_addInfo i)
    (i_pathBinAdd i) (i_status i) (i_pathLen i) (i_infoAddInBin i) (i_typeCat i) lw dt
    (i_firstDate i) (i_lastDate i) (i_bin i) (i_info i).
Definition set_dataDates (f l : Z) (i : ifl) : ifl :=
  mkifl (i_hash i) (i_addTable i) (i_len i) (i_hashBin i) (i_binCur i) (i_withSpace i) (i_addInfo i)
    (i_pathBinAdd i) (i_status i) (i_pathLen i) (i_infoAddInBin i) (i_typeCat i) (i_lastWrite i) (i_dates i)
    f l (i_bin i) (i_info i).

(** zcheckInternal.c:310-420: scan one bin.  [l] is the bin from word [icount] on.  Result: found?, updated ifltab;
    [None] if the buffer is left.  ksameHash/kpathsThisHash (statistics) are omitted.
    Default reclaim level: the MOVED alternative of line 402 is off. *)
Fixpoint scan (fuel : nat) (isize : Z) (path : list Z) (wanted a : Z) (l : list Z) (icount : Z) (i : ifl)
    : option (bool * ifl) :=
  match fuel with
  | O => None
  | S f =>
      match l with
      | [] => None
      | h :: l1 =>
          if h =? 0 then Some (false, i)
          else match l1 with
          | stt :: pl :: ia :: tc :: lw :: dt :: rest =>
              let (nchars, psize) := i8toi4 false pl in
              let hit := (h =? i_hash i) && (nchars =? i_len i)
                         && string_compare (Z.to_nat (i_len i)) path (bytes_of_words rest) in
              let i1 := if hit then remember i a icount stt psize ia tc lw dt else i in
              let found := hit && (zcompareRecordStatus stt wanted
                                   || ((stt =? ST_ALIAS) && negb (wanted =? ST_ALIAS))) in
              if found then Some (true, i1)
              else
                let i2 := if (stt =? ST_DELETED) && (i_withSpace i1 =? 0)
                             && (numberLongsInBytes (i_len i) <=? psize)
                          then set_withSpace a i1 else i1 in
                let icount' := icount + 7 + psize in
                if isize - 2 <=? icount' then Some (false, i2)
                else scan f isize path wanted a (skipn (Z.to_nat (7 + psize)) l) icount' i2
          | _ => None
          end
      end
  end.

(** zcheckInternal.c:258-432: follow the chain of bins. *)
Fixpoint chase (fuel : nat) (c : cfg) (path : list Z) (wanted binAddress : Z) : M bool :=
  match fuel with
  | O => ubM
  | S f =>
      modI (set_binCur binAddress) ;;;
      b <- zgetw binAddress (c_binSize c) ;;
      modI (set_bin b) ;;;
      i <- getI ;;
      match scan (length b) (c_binSize c) path wanted binAddress b 0 i with
      | None => ubM
      | Some (found, i') =>
          setI i' ;;;
          if found then ret true
          else
            let next := nth (Z.to_nat (c_binSize c - 1)) b 0 in
            if next =? 0 then ret false else chase f c path wanted next
      end
  end.

(** zcheckInternal.c:124-126, 212-223: parameters of the lookup. *)
Definition path_len (path : list Z) : Z := Z.min (Z.of_nat (length path)) 392.

(** zcheckInternal.c:65-497.  The shortcut of lines 141-193 compares the pathname with an address word
    (line 147 passes &ifltab[kpathAddressInBin]) and so does not take effect for pathnames; omitted.
    The chain walk has no bound in the code: [UB] on exhausted fuel stands for non-termination; the fuel is the
    number of words in the file. *)
Definition zcheckInternal (c : cfg) (path : list Z) (wanted : Z) : M bool :=
  let len := path_len path in
  thph <- liftR (zhash (c_detune c) (c_maxHash c) (firstn (Z.to_nat len) path)) ;;
  let th := fst thph in
  let ph := snd thph in
  modI (fun i => mkifl ph (th + c_hashStart c) len (i_hashBin i) 0 0 0
                   (i_pathBinAdd i) (i_status i) (i_pathLen i) (i_infoAddInBin i) (i_typeCat i) (i_lastWrite i)
                   (i_dates i) (i_firstDate i) (i_lastDate i) (i_bin i)
                   (fun k => if k =? 0 then 0 else i_info i k)) ;;;
  w <- zgetw (th + c_hashStart c) 1 ;;
  let hb := nth 0 w 0 in
  modI (set_hashBin hb) ;;;
  if hb =? 0 then ret false
  else h <- getH ;; chase (S (Z.to_nat (h_fileSize h))) c path wanted hb.

(** ** Bins *)

(** zgetFileSpace.c:51-151 at reclaim level RECLAIM_NONE (lines 68-70, 126-131): append at the end of file. *)
Definition zgetFileSpace (size : Z) : M Z :=
  h <- getH ;;
  setH (mkhdr (h_fileSize h + size) (h_binsRemain h) (h_nextBin h) (h_numRecords h) (h_numDeletes h)
          (h_numRenames h) (h_dead h) (h_catSeq h)) ;;;
  ret (h_fileSize h).

Definition set_bins (remain next : Z) (h : hdr) : hdr :=
  mkhdr (h_fileSize h) remain next (h_numRecords h) (h_numDeletes h) (h_numRenames h) (h_dead h) (h_catSeq h).

(** zbinNew.c:40-145. *)
Definition zbinNew (c : cfg) : M unit :=
  i <- getI ;;
  h <- getH ;;
  let isize := c_binSize c in
  let blockSize := isize * c_bpb c + 1 in
  newBin <- (if negb (i_hashBin i =? 0) then
               b <- zgetw (i_binCur i) isize ;;
               nb <- (if h_binsRemain h <=? 0 then zgetFileSpace blockSize else ret 0) ;;
               zputw (i_binCur i + isize - 1) [if h_binsRemain h <=? 0 then nb else h_nextBin h] ;;;
               ret nb
             else ret 0) ;;
  (if h_binsRemain h <=? 0 then
     nb <- (if newBin =? 0 then zgetFileSpace blockSize else ret newBin) ;;
     zputw (h_nextBin h) [nb] ;;;
     modH (set_bins (c_bpb c - 1) (nb + isize)) ;;;
     modI (set_binCur nb) ;;;
     zputzero nb blockSize ;;;
     zwriteEOF
   else
     modH (set_bins (h_binsRemain h - 1) (h_nextBin h + isize)) ;;;
     modI (set_binCur (h_nextBin h))) ;;;
  modI (set_bin (repeat 0 (Z.to_nat isize))).

(** zbinUpdate.c:131-158 when no slot is recovered: go to the last bin of the chain. *)
Fixpoint last_bin (fuel : nat) (c : cfg) : M unit :=
  match fuel with
  | O => ubM
  | S f =>
      i <- getI ;;
      let next := nth (Z.to_nat (c_binSize c - 1)) (i_bin i) 0 in
      if next =? 0 then ret tt
      else
        modI (set_binCur next) ;;;
        b <- zgetw next (c_binSize c) ;;
        modI (set_bin b) ;;;
        last_bin f c
  end.

Inductive slot := SlotAt (icount : Z) | SlotErr | SlotUB.

(** zbinUpdate.c:173-292: choose the place of the entry in the bin; [l] is the bin from word [icount] on. *)
Fixpoint find_slot (fuel : nat) (isize : Z) (useRecovered : bool) (path : list Z) (hash len : Z) (l : list Z)
    (icount : Z) : slot :=
  match fuel with
  | O => SlotUB
  | S f =>
      match l with
      | h :: stt :: _ =>
          let (nchars, psize) := i8toi4 false (nth 2 l 0) in
          if useRecovered && ((stt =? ST_DELETED) || (stt =? ST_RENAMED)) && (psize =? numberLongsInBytes len)
          then SlotAt icount
          else if h =? 0 then SlotAt icount
          else if h =? hash then
            if (Z.of_nat (length path) =? nchars)
               && string_compare (length path) path (bytes_of_words (skipn 7 l))
            then SlotAt icount
            else find_slot f isize useRecovered path hash len (skipn (Z.to_nat (7 + psize)) l) (icount + 7 + psize)
          else
            let icount' := icount + 7 + psize in
            if isize - 1 <=? icount' then SlotErr
            else find_slot f isize useRecovered path hash len (skipn (Z.to_nat (7 + psize)) l) icount'
      | _ => SlotUB
      end
  end.

(** zbinUpdate.c:247-261: the words of the new entry; [old] are the words of the buffer where the text goes. *)
Definition entry_words (hash status len infoAddress typeCat lw dates : Z) (path old : list Z) : list Z :=
  [hash; status; i4toi8 false len (numberLongsInBytes len); infoAddress; typeCat; lw; dates]
  ++ path_words (firstn (Z.to_nat len) path) old.

(** zbinUpdate.c:79-301.  Reading more characters than the caller's string holds is [UB] (line 261). *)
Definition zbinUpdate (c : cfg) (path : list Z) (infoAddress recordStatus dataType : Z) : M unit :=
  i0 <- getI ;;
  let isize := c_binSize c in
  let useRec := 0 <? i_withSpace i0 in
  (if useRec then
     modI (set_binCur (i_withSpace i0)) ;;;
     b <- zgetw (i_withSpace i0) isize ;;
     modI (set_bin b)
   else h <- getH ;; last_bin (S (Z.to_nat (h_fileSize h))) c) ;;;
  i1 <- getI ;;
  match find_slot (length (i_bin i1)) isize useRec path (i_hash i1) (i_len i1) (i_bin i1) 0 with
  | SlotUB => ubM
  | SlotErr => errM
  | SlotAt ic =>
      let len := i_len i1 in
      let ps := numberLongsInBytes len in
      ic <- (if isize <=? 7 + ps + ic + 1 then zbinNew c ;;; ret 0 else ret ic) ;;
      i2 <- getI ;;
      h <- getH ;;
      if (Z.of_nat (length path) + 1 <? len) || (isize <? ic + 7 + ps) then ubM else
      let dates := i4toi8 false (fst (i8toi4 false (i_firstDate i2))) (fst (i8toi4 false (i_lastDate i2))) in
      let n := Z.to_nat ic in
      let e := entry_words (i_hash i2) recordStatus len infoAddress (i4toi8 false dataType (h_catSeq h))
                 (i_lastWrite i2) dates path
                 (firstn (Z.to_nat ps) (skipn (n + 7) (i_bin i2))) in
      let b := firstn n (i_bin i2) ++ e ++ skipn (n + length e) (i_bin i2) in
      setI (mkifl (i_hash i2) (i_addTable i2) (i_len i2) (i_hashBin i2) (i_binCur i2) (i_withSpace i2) infoAddress
              (i_binCur i2 + ic) (i_status i2) (i_pathLen i2) (i_binCur i2 + ic + 3) (i_typeCat i2) (i_lastWrite i2)
              dates (i_firstDate i2) (i_lastDate i2) b (i_info i2)) ;;;
      zputw (i_binCur i2) b
  end.

(** ** Records *)

(** zStructTransfer, the fields used for a write (counts are the lengths of the arrays; the "fill" form with a
    negative count is not modelled). *)
Record xfer := mkxfer {
  x_path : list Z; x_type : Z;
  x_ih : list Z; x_h2 : list Z; x_uh : list Z; x_v1 : list Z; x_v2 : list Z; x_v3 : list Z;
  x_num : Z; x_logical : Z; x_alloc : Z; x_expand : Z }.

Definition zlen (l : list Z) : Z := Z.of_nat (length l).
Definition lw (l : list Z) : Z := numberLongsInInts (zlen l).

Definition INFO_FLAG := -97534.
Definition upd (f : Z -> Z) (k v : Z) : Z -> Z := fun x => if x =? k then v else f x.
Definition numInfo (len : Z) : Z := 30 + numberLongsInBytes len.
Definition tabulate (f : Z -> Z) (n : Z) : list Z := map f (zseq 0 n).

(** Section addresses and counts of an info block: zwriteNew.c:263-300, zwriteExisting.c:393-430, 453-488. *)
Definition lay_info (f : Z -> Z) (address : Z) (x : xfer) (alloc : Z) : Z -> Z :=
  let a1 := address in
  let a2 := a1 + lw (x_ih x) in
  let a3 := a2 + lw (x_h2 x) in
  let a4 := a3 + lw (x_uh x) in
  let a5 := a4 + lw (x_v1 x) in
  let a6 := a5 + lw (x_v2 x) in
  let num := if x_num x <? 0 then 0 else x_num x in
  let f := upd (upd f 13 a1) 14 (zlen (x_ih x)) in
  let f := upd (upd f 15 a2) 16 (zlen (x_h2 x)) in
  let f := upd (upd f 17 a3) 18 (zlen (x_uh x)) in
  let f := upd (upd f 19 a4) 20 (zlen (x_v1 x)) in
  let f := upd (upd f 21 a5) 22 (zlen (x_v2 x)) in
  let f := upd (upd f 23 a6) 24 (zlen (x_v3 x)) in
  upd (upd (upd f 25 alloc) 26 num) 27 (if 0 <? x_logical x then x_logical x else num).

(** Text of the pathname from word 30 of the info block on (zwriteNew.c:316). *)
Definition path_info (path : list Z) (len : Z) (f : Z -> Z) : Z -> Z :=
  let n := numberLongsInBytes len in
  let ws := path_words path (tabulate (fun k => f (30 + k)) n) in
  fun k => if (30 <=? k) && (k <? 30 + n) then nth (Z.to_nat (k - 30)) ws 0 else f k.

(** zwriteInternal.c:257-262. *)
Definition data_ints (x : xfer) : Z := (lw (x_v1 x) + lw (x_v2 x) + lw (x_v3 x)) * 2.
Definition start_alloc (x : xfer) : Z := if x_alloc x <? data_ints x then data_ints x else x_alloc x.

Definition add_counts (records deletes renames dead : Z) (h : hdr) : hdr :=
  mkhdr (h_fileSize h) (h_binsRemain h) (h_nextBin h) (h_numRecords h + records) (h_numDeletes h + deletes)
    (h_numRenames h + renames) (h_dead h + dead) (h_catSeq h).

(** zwriteNew.c:142-352.  [now]: getCurrentTimeMillis; [prog]: the two words of the program name. *)
Definition zwriteNew (c : cfg) (now : Z) (prog : Z * Z) (x : xfer) (alloc : Z) : M unit :=
  modI (fun i => set_lwDates now (i4toi8 false (fst (i8toi4 false (i_firstDate i)))
                                    (fst (i8toi4 false (i_lastDate i)))) i) ;;;
  i <- getI ;;
  (if i_hashBin i =? 0 then
     zbinNew c ;;;
     i' <- getI ;;
     modI (set_hashBin (i_binCur i')) ;;;
     zputw (i_addTable i) [i_binCur i']
   else ret tt) ;;;
  let n := numInfo (i_len i) in
  if 100 <? n then errM else
  let total := n + lw (x_ih x) + lw (x_h2 x) + lw (x_uh x) + numberLongsInInts alloc in
  address <- zgetFileSpace total ;;
  zbinUpdate c (x_path x) address 1 (x_type x) ;;;
  i <- getI ;;
  let f := fun _ => 0 in
  let f := upd (upd (upd (upd f 0 INFO_FLAG) 1 ST_PRIMARY) 2 (i_len i)) 3 (i_hash i) in
  let f := lay_info f (address + n) x alloc in
  let f := upd (upd (upd (upd f 4 (i4toi8 false (x_type x) 1)) 5 (i4toi8 false 0 0)) 6 now) 11 now in
  let f := upd (upd f 9 (i_firstDate i)) 10 (i_lastDate i) in
  let f := upd (upd f 7 (fst prog)) 8 (snd prog) in
  let f := path_info (firstn (Z.to_nat (i_len i)) (x_path x)) (i_len i) f in
  modI (set_info f) ;;;
  zputw (i_addInfo i) (tabulate f n) ;;;
  modH (add_counts 1 0 0 0).

(** zwriteExisting.c:206-230 (headers: DATA_TYPE_RTS 100, RTD 105, ITS 110, ITD 115). *)
Definition type_compatible (old new : Z) : bool :=
  (old =? new) || ((old =? 100) && (new =? 105)) || ((old =? 105) && (new =? 100))
  || ((old =? 110) && (new =? 115)) || ((old =? 115) && (new =? 110)).

(** zwriteExisting.c:299-353: size to allocate for the moved record. *)
Definition grown_alloc (c : cfg) (expansionNumber : Z) (x : xfer) (alloc0 : Z) : Z :=
  let stage1 := if expansionNumber =? 1 then
                  if alloc0 <? Z.quot (x_expand x) 4 then (Z.quot (x_expand x) 4, 1) else (alloc0, 2)
                else (alloc0, expansionNumber) in
  let stage2 := if snd stage1 =? 2 then
                  if fst stage1 <? Z.quot (x_expand x) 2 then (Z.quot (x_expand x) 2, 2) else (fst stage1, 3)
                else stage1 in
  let stage3 := if snd stage2 =? 3 then
                  if fst stage2 <? x_expand x then (x_expand x, 3) else (fst stage2, 4)
                else stage2 in
  let a := if 4 <=? snd stage3 then
             let a := if fst stage3 <? c_grow c (x_expand x) then c_grow c (x_expand x) else fst stage3 in
             if a <? data_ints x then c_grow c (data_ints x) else a
           else fst stage3 in
  if a <? data_ints x then data_ints x else a.

(** zwriteExisting.c:139-520; result: wroteAtEOF.  zreleaseFileSpace at RECLAIM_NONE only counts dead space, as
    the other branch does (zreclaimRead.c:25-27, zreleaseFileSpace.c:93). *)
Definition zwriteExisting (c : cfg) (now : Z) (prog : Z * Z) (x : xfer) (alloc0 : Z) : M bool :=
  modI (fun i => set_lwDates now (i4toi8 false (fst (i8toi4 false (i_firstDate i)))
                                    (fst (i8toi4 false (i_lastDate i)))) i) ;;;
  i <- getI ;;
  zputw (i_infoAddInBin i - 3 + 5) [i_lastWrite i; i_dates i] ;;;
  let info := i_info i in
  let (type, version) := i8toi4 false (info 4) in
  if negb (type_compatible type (x_type x)) then errM else
  let n := numInfo (i_len i) in
  let originalSize := info 14 + info 16 + info 18 + info 25 in
  let newSize := zlen (x_ih x) + zlen (x_h2 x) + zlen (x_uh x) + alloc0 in
  if originalSize <? newSize then
    let info1 := upd info 1 ST_MOVED in
    zputw (i_addInfo i) (tabulate info1 n) ;;;
    modH (add_counts 0 0 0 (originalSize + n)) ;;;
    let (expNumber, expFlag) := i8toi4 false (info1 5) in
    let alloc := grown_alloc c (expNumber + 1) x alloc0 in
    let f := upd (upd info1 5 (i4toi8 false (expNumber + 1) expFlag)) 4 (i4toi8 false (x_type x) (version + 1)) in
    let total := n + lw (x_v3 x) + lw (x_ih x) + lw (x_h2 x) + lw (x_uh x) + numberLongsInInts alloc in
    address <- zgetFileSpace total ;;
    modI (set_addInfo address) ;;;
    zputw (i_infoAddInBin i) [address] ;;;
    let f := upd (upd f 0 INFO_FLAG) 1 ST_PRIMARY in
    let f := lay_info f (address + n) x alloc in
    let f := upd (upd (upd (upd (upd f 6 now) 7 (fst prog)) 8 (snd prog)) 9 (i_firstDate i)) 10 (i_lastDate i) in
    modI (set_info f) ;;;
    zputw address (tabulate f n) ;;;
    ret true
  else
    let alloc := alloc0 + (originalSize - newSize) in
    let f := lay_info info (info 13) x alloc in
    let f := upd f 4 (i4toi8 false (x_type x) (version + 1)) in
    let f := upd (upd (upd (upd (upd f 6 now) 7 (fst prog)) 8 (snd prog)) 9 (i_firstDate i)) 10 (i_lastDate i) in
    modI (set_info f) ;;;
    zputw (i_addInfo i) (tabulate f n) ;;;
    ret false.

(** ztsPathCompatible.c:42-165, version 7: an E part xMIN or xxMIN is also looked up as xMinute. *)
Fixpoint slash_pos (l : list Z) (i n : Z) : option Z :=
  match l with
  | [] => None
  | c :: t => if c =? 47 then (if n =? 1 then Some i else slash_pos t (i + 1) (n - 1)) else slash_pos t (i + 1) n
  end.
Definition ztsPathCompatible (path : list Z) : option (list Z) :=
  match slash_pos path 0 5, slash_pos path 0 6 with
  | Some startE, Some endE =>
      let len := endE - startE - 1 in
      if (len <? 4) || (5 <? len) then None else
      let at_ := fun k => nth (Z.to_nat k) path 0 in
      let m := startE + 2 in
      let m := if toupper (at_ m) =? 77 then m else m + 1 in
      if (toupper (at_ m) =? 77) && (toupper (at_ (m + 1)) =? 73) && (toupper (at_ (m + 2)) =? 78)
         && (at_ (m + 3) =? 47)
      then Some (firstn (Z.to_nat m) path ++ [77; 105; 110; 117; 116; 101] ++ skipn (Z.to_nat endE) path)
      else None
  | _, _ => None
  end.

(** DssInterface/v6and7/zcheck.c:42-58. *)
Definition zcheck (c : cfg) (path : list Z) : M bool :=
  found <- zcheckInternal c path ST_VALID ;;
  if found then ret true
  else match ztsPathCompatible path with
       | Some p => zcheckInternal c p ST_VALID
       | None => ret false
       end.

(** zreadInfo.c:106-213 without the alias branch (lines 137-170). *)
Definition zreadInfo (c : cfg) (path : list Z) (wanted : Z) : M bool :=
  found <- (if wanted =? 0 then zcheck c path else zcheckInternal c path wanted) ;;
  if (found : bool) then
    i <- getI ;;
    let n := Z.min (numInfo (i_len i)) 100 in
    ws <- zgetw (i_addInfo i) n ;;
    let info := fun k => nth (Z.to_nat k) ws 0 in
    if info 3 =? i_hash i then modI (set_info info) ;;; ret true
    else modI (set_info (upd info 0 0)) ;;; ret false
  else modI (fun i => set_info (upd (i_info i) 0 0) i) ;;; ret false.

(** zwriteInternal.c:158-514 (unbuffered, checked = 0); called by zwrite (v6and7/zwrite.c:52).
    [dates]: kdataFirstDate and kdataLastDate as left by the caller. *)
Definition zwriteInternal (c : cfg) (now : Z) (prog : Z * Z) (x : xfer) : M unit :=
  let alloc0 := start_alloc x in
  found <- zreadInfo c (x_path x) 0 ;;
  atEOF <- (if (found : bool) then zwriteExisting c now prog x alloc0
            else zwriteNew c now prog x alloc0 ;;; ret true) ;;
  i <- getI ;;
  zputi (i_info i 13) (x_ih x) ;;;
  zputi (i_info i 15) (x_h2 x) ;;;
  zputi (i_info i 17) (x_uh x) ;;;
  zputi (i_info i 19) (x_v1 x) ;;;
  zputi (i_info i 21) (x_v2 x) ;;;
  zputi (i_info i 23) (x_v3 x) ;;;
  (if (atEOF : bool) then zwriteEOF else ret tt) ;;;
  zpermWrite.

(** What zread returns. *)
Record content := mkcontent {
  ct_type : Z; ct_ih : list Z; ct_h2 : list Z; ct_uh : list Z; ct_v1 : list Z; ct_v2 : list Z; ct_v3 : list Z;
  ct_num : Z; ct_logical : Z }.

(** zreadInternal.c:291-485, all modes 1 (allocate): a section is read when its count is positive.  The user header
    is read with its count rounded up to even (lines 380-387); the count returned is the stored one. *)
Definition read_section (a n : Z) : M (list Z) := if 0 <? n then zgeti a n else ret [].
Definition read_user_header (a n : Z) : M (list Z) :=
  if 0 <? n then l <- zgeti a (if isOdd n then n + 1 else n) ;; ret (firstn (Z.to_nat n) l) else ret [].

(** zreadInternal.c:231-502 (unbuffered); called by zread (v6and7/zread.c:35). *)
Definition zreadInternal (c : cfg) (path : list Z) : M (option content) :=
  found <- zreadInfo c path ST_VALID ;;
  if negb found then ret None else
  i <- getI ;;
  let info := i_info i in
  ih <- read_section (info 13) (info 14) ;;
  h2 <- read_section (info 15) (info 16) ;;
  uh <- read_user_header (info 17) (info 18) ;;
  v1 <- read_section (info 19) (info 20) ;;
  v2 <- read_section (info 21) (info 22) ;;
  v3 <- read_section (info 23) (info 24) ;;
  ret (Some (mkcontent (fst (i8toi4 false (info 4))) ih h2 uh v1 v2 v3 (info 26) (info 27))).

(** zdeleteInternal.c:57-287 at reclaim level NONE, without aliases.  Result: found. *)
Definition released (info : Z -> Z) (n : Z) : Z :=
  n + numberLongsInInts (info 14) + numberLongsInInts (info 16) + numberLongsInInts (info 24)
    + numberLongsInInts (info 18) + numberLongsInInts (info 20) + numberLongsInInts (info 22).
Definition zdeleteInternal (c : cfg) (path : list Z) (undelete : bool) : M bool :=
  modI (set_addInfo 0) ;;;
  found <- zreadInfo c path (if undelete then ST_DELETED else ST_VALID) ;;
  (if (found : bool) then
     i <- getI ;;
     let newStatus := if undelete then ST_VALID else ST_DELETED in
     zputw (i_pathBinAdd i + 1) [newStatus] ;;;
     let f := upd (i_info i) 1 newStatus in
     let n := Z.min (numInfo (i_len i)) 100 in
     zputw (i_addInfo i) (tabulate f n) ;;;
     (if undelete
      then modH (fun h => let h' := add_counts 1 (-1) 0 (- released f n) h in
                          if h_dead h' <? 0 then add_counts 0 0 0 (- h_dead h') h' else h')
      else modH (add_counts (-1) 1 0 0))
   else ret tt) ;;;
  zpermWrite ;;;
  ret found.

(** Blanks dropped from the front of a reversed text. *)
Fixpoint drop_blanks (rev : list Z) : list Z :=
  match rev with [] => [] | c :: t => if c =? 32 then drop_blanks t else c :: t end.
(** mallocAndCopyPath.c:35-100.  The text up to a NUL; trailing blanks dropped; cut after the seventh slash, or
    completed to seven slashes. *)
Fixpoint to_nul (l : list Z) : list Z := match l with [] => [] | c :: t => if c =? 0 then [] else c :: to_nul t end.
Fixpoint slashes (n : nat) (l : list Z) : list Z :=
  match n with
  | O => []
  | S m => match l with
           | [] => repeat 47 n
           | c :: t => c :: slashes (if c =? 47 then m else n) t
           end
  end.
(** Lines 50-58: index 0 is not looked at; a text of blanks only loses one character. *)
Definition no_blanks (l : list Z) : list Z :=
  match rev l with
  | 32 :: _ => match drop_blanks (rev (tl l)) with [] => removelast l | r => firstn 1 l ++ rev r end
  | _ => l
  end.
Definition copy_path (l : list Z) : list Z :=
  match to_nul l with [] => [] | p => slashes 7 (no_blanks p) end.

(** Public/zrename.c:58-410 for pathnames that differ otherwise than in case (lines 124-157 not modelled) and data
    types other than time series (lines 216-233, which change the D part of [newPath], not modelled).  [newPath] is
    the copy of line 113; lines 161-170 still use [newPathname].  Result: found. *)
Definition zrename (c : cfg) (oldPath newPathname : list Z) : M bool :=
  let newPath := copy_path newPathname in
  foundNew <- zcheckInternal c newPathname ST_PRIMARY ;;
  ok <- (if (foundNew : bool) then zdeleteInternal c newPathname false else ret true) ;;
  if negb ok then errM else
  i <- getI ;;
  let nNew := numInfo (i_len i) in
  foundOld <- zcheckInternal c oldPath ST_PRIMARY ;;
  if negb foundOld then ret false else
  i <- getI ;;
  zputw (i_pathBinAdd i + 1) [ST_RENAMED] ;;;
  let nOld := 30 + snd (i8toi4 false (i_pathLen i)) in
  let infoAddress := i_addInfo i in
  ws <- zgetw infoAddress nOld ;;
  let infoOld := fun k => if k <? nOld then nth (Z.to_nat k) ws 0 else i_info i k in
  (if nOld <? nNew then
     zputw infoAddress (tabulate (upd infoOld 1 ST_RENAMED) nOld) ;;;
     modH (add_counts 0 0 0 nOld)
   else ret tt) ;;;
  modI (set_dataDates (infoOld 9) (infoOld 10)) ;;;
  _ <- zcheckInternal c newPath ST_PRIMARY ;;
  i <- getI ;;
  (if i_hashBin i =? 0 then
     zbinNew c ;;;
     i' <- getI ;;
     modI (set_hashBin (i_binCur i')) ;;;
     zputw (i_addTable i) [i_binCur i']
   else ret tt) ;;;
  address <- (if nOld <? nNew then zgetFileSpace nNew else ret infoAddress) ;;
  let f := upd (upd (upd (upd infoOld 0 INFO_FLAG) 1 ST_PRIMARY) 2 (i_len i)) 3 (i_hash i) in
  let f := path_info (firstn (Z.to_nat (i_len i)) newPath) (i_len i) (upd f (nNew - 1) 0) in
  modI (set_info f) ;;;
  zbinUpdate c newPath address 1 (fst (i8toi4 false (f 4))) ;;;
  zputw address (tabulate f nNew) ;;;
  (if nOld <? nNew then zwriteEOF else ret tt) ;;;
  modH (add_counts 0 0 1 0) ;;;
  zpermWrite ;;;
  ret true.

(** ** New file and reopening *)

Definition empty_ifl : ifl := mkifl 0 0 0 0 0 0 0 0 0 0 0 0 0 0 0 0 [] (fun _ => 0).

(** zpermCreate.c:62-391: layout of an empty file with [hs] words of file header: 3 lock words, 3 lock/pid arrays of
    25 words, hash table, reclaim table of 1002 words, first block of bins. *)
Definition new_cfg (hs maxHash binSize bpb : Z) (detune : bool) (grow : Z -> Z) : cfg :=
  mkcfg maxHash binSize bpb (hs + 78) (hs + 78 + maxHash + 1002) detune grow.
Definition new_file (c : cfg) : st :=
  let h := mkhdr (c_firstBin c + c_binSize c * c_bpb c + 1) (c_bpb c) (c_firstBin c) 0 0 0 0 0 in
  mkst (put (fun _ => 0) (h_fileSize h) [EOF_FLAG]) h [] h empty_ifl.

(** zopen of an existing file: memory is rebuilt from the file header on disk (zpermRead). *)
Definition reopen (s : st) : st := mkst (s_disk s) (s_dhdr s) [] (s_dhdr s) empty_ifl.

(** ** Catalogue *)

(** stringFortToC.c:39-74: trailing blanks removed (a string of blanks only loses one). *)
Definition fort_to_c (s : list Z) : list Z :=
  match rev s with
  | 32 :: t => match drop_blanks t with [] => rev t | r => rev r end
  | _ => s
  end.

(** zcatalogInternal.c:279-450: one bin; [l] is the bin from word [icount] on, [acc] the names found so far (in
    order).  No wildcard, every type, no time window, numberWanted 0, statusWanted 0 (lines 292-344 select all). *)
Fixpoint cat_bin (fuel : nat) (isize listSize : Z) (l : list Z) (icount : Z) (acc : list (list Z)) : option (list (list Z)) :=
  match fuel with
  | O => None
  | S f =>
      match l with
      | [] => None
      | h :: l1 =>
          if h =? 0 then Some acc
          else match l1 with
          | stt :: pl :: _ :: _ :: _ :: _ :: rest =>
              let (nchars, psize) := i8toi4 false pl in
              let wanted := zcompareRecordStatus stt ST_VALID in
              if wanted && (listSize <=? Z.of_nat (length acc)) then Some acc
              else
                let acc' := if wanted then acc ++ [fort_to_c (firstn (Z.to_nat nchars) (bytes_of_words rest))] else acc in
                let icount' := icount + 7 + psize in
                if isize - 2 <=? icount' then Some acc'
                else cat_bin f isize listSize (skipn (Z.to_nat (7 + psize)) l) icount' acc'
          | _ => None
          end
      end
  end.

(** zcatalogInternal.c:263-460: the bins of a block; result: the address after the last bin visited. *)
Fixpoint cat_bins (n : nat) (c : cfg) (listSize a : Z) (acc : list (list Z)) : M (Z * list (list Z)) :=
  match n with
  | O => ret (a, acc)
  | S m =>
      b <- zgetw a (c_binSize c) ;;
      if nth 0 b 0 =? 0 then ret (a, acc)
      else match cat_bin (length b) (c_binSize c) listSize b 0 acc with
           | None => ubM
           | Some acc' => cat_bins m c listSize (a + c_binSize c) acc'
           end
  end.
Fixpoint cat_blocks (fuel : nat) (c : cfg) (listSize a : Z) (acc : list (list Z)) : M (list (list Z)) :=
  match fuel with
  | O => ubM
  | S f =>
      r <- cat_bins (Z.to_nat (c_bpb c)) c listSize a acc ;;
      w <- zgetw (fst r) 1 ;;
      if nth 0 w 0 =? 0 then ret (snd r) else cat_blocks f c listSize (nth 0 w 0) (snd r)
  end.

(** zcatalogInternal.c:167-478, 502-506 (unsorted list; sorting permutes it).  knumberAliases and
    knumberAliasDeletes are 0 (aliases are not modelled).  The walk over blocks is bounded by the number of words of
    the file; [UB] on exhausted fuel stands for non-termination. *)
Definition zcatalog (c : cfg) : M (list (list Z)) :=
  fun s =>
    (let h := s_dhdr s in
     setH h ;;;
     cat_blocks (S (Z.to_nat (h_fileSize h))) c (h_numRecords h + h_numRenames h + h_numDeletes h) (c_firstBin c) []) s.
