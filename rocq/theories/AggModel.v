(** * Time-series record layout: ztsAggregate / ztsDisaggregate (model only).

    Modelled: file versions 7-HA and later (older ones take the *Dep functions), little-endian hosts (the byte
    swaps are not executed), no text notes (cnotes) and no profile depths.  The three arrays (values, quality,
    integer notes) are touched by interleaved but independent statements; [channel] functions model one of them. *)
From Coq Require Import ZArith List Lia Bool.
From Verif Require Import Base ArrayLib RepeatModel.
Import ListNotations.
Open Scope Z_scope.

(** Internal/ztsAggregate.c:293-307 (and 310-326, 329-345) : number of elements equal to their predecessor. *)
Fixpoint count_loop (cnt : nat) (i size : Z) (a : list Z) (acc : Z) : res Z :=
  match cnt with
  | O => Ok acc
  | S cnt' =>
      let* same := same_loop (Z.to_nat size) a (i * size) ((i - 1) * size) in
      count_loop cnt' (i + 1) size a (if same then acc + 1 else acc)
  end.
Definition count_repeats (a : list Z) (n size : Z) : res Z := count_loop (Z.to_nat (n - 1)) 1 size a 0.

(** calloc *)
Definition zeros (n : Z) : list Z := repeat 0 (Z.to_nat n).

(** Copy [cnt] words of an array to the output and advance [ipos] (e.g. ztsAggregate.c:377-390, 598-603). *)
Definition append (data : list Z) (cnt : Z) (out : list Z) (ipos : Z) : res (list Z * Z) :=
  let* o := copy_loop (Z.to_nat cnt) data 0 out ipos in Ok (o, ipos + cnt).

(** [if (isOdd(ipos)) dataCompressedOut[ipos++] = 0;] (ztsAggregate.c:397-399, 414-417, 630-632, ...). *)
Definition pad_odd (out : list Z) (ipos : Z) : res (list Z * Z) :=
  if Z.odd ipos then let* o := aset out ipos 0 in Ok (o, ipos + 1) else Ok (out, ipos).

(** One array of a time-series block: its words and the words per element (0: array absent). *)
Record chan := mk_chan { c_data : list Z; c_size : Z }.

(** What the internal header says of an array: number of words stored, words per element, compression flag. *)
Record chead := mk_chead { h_number : Z; h_size : Z; h_flag : Z }.

(** ztsAggregate.c:406-424, 426-444 : uncompressed quality or notes with their padding. *)
Definition append_plain (c : chan) (n : Z) (out : list Z) (ipos : Z) : res (list Z * Z * chead) :=
  if c_size c =? 0 then Ok (out, ipos, mk_chead 0 0 0)
  else
    let* '(o, p) := append (c_data c) (n * c_size c) out ipos in
    let* '(o, p) := pad_odd o p in
    Ok (o, p, mk_chead (n * c_size c) (c_size c) 0).

(** ztsAggregate.c:540-583 : words stored and compression flag. *)
Definition section_head (compress : bool) (rep n size : Z) : chead :=
  if compress then
    if rep + 1 =? n then mk_chead size size 2 else mk_chead ((n - rep) * size) size 1
  else mk_chead (n * size) size 0.

(** Run a function on the array that starts at offset [p] ([&a[p]]), keeping what is before it. *)
Definition at_offset {B} (a : list Z) (p : Z) (f : list Z -> res (list Z * B)) : res (list Z * B) :=
  if (p <? 0) || (alen a <? p) then Undef
  else let* '(t, b) := f (skipn (Z.to_nat p) a) in Ok (firstn (Z.to_nat p) a ++ t, b).

(** ztsAggregate.c:605-628, 639-662, 676-698 : one section of a record with some compression. *)
Definition append_section (compress_it : bool) (c : chan) (rep n osize hwords hsize : Z)
  (out : list Z) (ipos : Z) (hdr : list Z) (hpos : Z) : res (list Z * Z * list Z * Z) :=
  let h := section_head compress_it rep n (c_size c) in
  if compress_it then
    if h_flag h =? 1 then
      let* '(o, hd) :=
        at_offset out ipos (fun sub =>
          let* '(hd, o) := at_offset hdr hpos (fun hsub =>
             let* '(o, h', _) := compress (c_data c) n (c_size c) sub osize hsub hsize in Ok (h', o)) in
          Ok (o, hd)) in
      Ok (o, ipos + (n - rep) * c_size c, hd, hpos + hwords)
    else
      let* '(o, p) := append (c_data c) (c_size c) out ipos in Ok (o, p, hdr, hpos)
  else
    let* '(o, p) := append (c_data c) (n * c_size c) out ipos in Ok (o, p, hdr, hpos).

(** The array and header handed to the record write. *)
Record agg := mk_agg { g_out : list Z; g_number : Z; g_hdr2 : list Z; g_v : chead; g_q : chead; g_i : chead }.

(** Internal/ztsAggregate.c:140-735 ztsAggregate.  [gt05] and [gt10] stand for the float comparisons
    [(float)rep / (float)n > 0.05] and [> 0.10]. *)
Definition aggregate (gt05 gt10 : Z -> Z -> bool) (times : list Z) (v q i : chan) (n : Z) : res agg :=
  let tn := alen times in
  let vn := n * c_size v in
  let qn := n * c_size q in
  let inn := n * c_size i in
  let count := tn + vn + qn + inn + 4 in
  let big := n >? 12 in
  let* vrep := (if big then count_repeats (c_data v) n (c_size v) else Ok 0) in
  let* qrep := (if big && (c_size q >? 0) then count_repeats (c_data q) n (c_size q) else Ok 0) in
  let* irep := (if big && (c_size i >? 0) then count_repeats (c_data i) n (c_size i) else Ok 0) in
  let cv := big && gt05 vrep n in
  let cq := big && negb (c_size q =? 0) && gt10 qrep n in
  let ci := big && negb (c_size i =? 0) && gt10 irep n in
  if negb cv && negb cq && negb ci then
    (* 368-465 *)
    let* '(o, p) := append times tn (zeros count) 0 in
    let* '(o, p) := append (c_data v) vn o p in
    let* '(o, p) := pad_odd o p in
    let* '(o, p, hq) := append_plain q n o p in
    let* '(o, p, hi) := append_plain i n o p in
    Ok (mk_agg o p [] (mk_chead vn (c_size v) 0) hq hi)
  else if (vrep + 1 =? n) && (c_size q =? 0) && (c_size i =? 0) then
    (* 472-519 *)
    let* '(o, p) := append times tn (zeros (tn + c_size v + 1)) 0 in
    let* '(o, p) := append (c_data v) (c_size v) o p in
    let* '(o, p) := pad_odd o p in
    Ok (mk_agg o p [] (mk_chead (c_size v) (c_size v) 2) (mk_chead 0 0 0) (mk_chead 0 0 0))
  else
    (* 532-735 *)
    let hwords := Z.quot (n - 1) 32 + 1 in
    let hcount := (b2z cv + b2z cq + b2z ci) * hwords in
    let hv := section_head cv vrep n (c_size v) in
    let hq := section_head cq qrep n (c_size q) in
    let hi := section_head ci irep n (c_size i) in
    let total := tn + h_number hv + h_number hq + h_number hi + 4 in
    let* '(o, p) := append times tn (zeros total) 0 in
    let* '(o, p, hd, hp) := append_section cv v vrep n count hwords hcount o p (zeros hcount) 0 in
    let* '(o, p) := pad_odd o p in
    let* '(o, p, hd, hp) := append_section cq q qrep n count hwords hcount o p hd hp in
    let* '(o, p) := (if qn >? 0 then pad_odd o p else Ok (o, p)) in
    let* '(o, p, hd, hp) := append_section ci i irep n count hwords hcount o p hd hp in
    let* '(o, p) := (if inn >? 0 then pad_odd o p else Ok (o, p)) in
    Ok (mk_agg o p hd hv hq hi).

(** ** Reading *)
(** ztsDisaggregate.c:464-467, 500-504, 552-557, 589-594 ... : element by element, from a moving ([step] = element
    size) or fixed ([step] = 0) place. *)
Fixpoint put_loop (cnt : nat) f2d d2f (isval : bool) (src : list Z) (si step : Z) (dst : list Z) (di vsize req : Z)
  : res (list Z) :=
  match cnt with
  | O => Ok dst
  | S cnt' => let* d := put_elem f2d d2f isval src si dst di vsize req in
              put_loop cnt' f2d d2f isval src (si + step) step d (di + req) vsize req
  end.

(** ztsDisaggregate.c:449-506, 540-596, 621-679 : elements [start, stop) of one array to [dst] from [dpos]. *)
Definition read_section f2d d2f (isval : bool) (h : chead) (req start stop : Z)
  (arr : list Z) (apos : Z) (hdr : list Z) (hpos : Z) (dst : list Z) (dpos dsize : Z) : res (list Z) :=
  if h_flag h =? 0 then
    if req =? h_size h then
      copy_loop (Z.to_nat ((stop - start) * h_size h)) arr (apos + start * h_size h) dst dpos
    else put_loop (Z.to_nat (stop - start)) f2d d2f isval arr (apos + start * h_size h) (h_size h) dst dpos (h_size h) req
  else if h_flag h =? 1 then
    let* '(d, _) := at_offset dst dpos (fun sub =>
       let* d := uncompress f2d d2f start stop (h_size h) req isval (skipn (Z.to_nat hpos) hdr)
                   (skipn (Z.to_nat apos) arr) sub (dsize - dpos) in Ok (d, tt)) in
    Ok d
  else put_loop (Z.to_nat (stop - start)) f2d d2f isval arr apos 0 dst dpos (h_size h) req.

(** zsetMissing / zsetUndefined [cnt] times (ztsDisaggregate.c:348-376, 739-744, 758-771): [miss] is the list of
    words of one undefined element. *)
Fixpoint miss_loop (cnt : nat) (miss : list Z) (dst : list Z) (di : Z) : res (list Z) :=
  match cnt with
  | O => Ok dst
  | S cnt' => let* d := copy_loop (length miss) miss 0 dst di in miss_loop cnt' miss d (di + alen miss)
  end.

(** Internal/ztsDisaggregate.c:140-782 ztsDisaggregate, for one of the arrays: [n] = numberStored, [nread] =
    numberToRead, [prfv]/[prlv] = positionRelativeFirstValid/LastValid, [miss] the undefined element. *)
Definition read_channel f2d d2f (isval : bool) (h : chead) (req nread n prfv prlv : Z) (miss : list Z)
  (arr : list Z) (apos : Z) (hdr : list Z) (hpos : Z) (dst : list Z) (dsize : Z) : res (list Z) :=
  if h_number h =? 0 then
    (* 294-326 *)
    miss_loop (Z.to_nat nread) miss dst 0
  else
    (* 343-389 *)
    let before := if prfv <? 0 then Z.min (Z.abs prfv) nread else 0 in
    let* d := miss_loop (Z.to_nat before) miss dst 0 in
    if (prfv <? 0) && (before >=? nread) then Ok d else
    let dpos := before * req in
    (* 393-413 *)
    let to_read := n - prfv in
    let start := if prfv >? 0 then prfv else 0 in
    let stop := if prfv >? 0 then start + to_read else n in
    let stop := if prlv <? 0 then stop + prlv else stop in
    let stop := if stop - start >? nread then start + nread else stop in
    (* 433-690 *)
    let* d := (if (stop - start >? 0) && (to_read >? 0)
               then read_section f2d d2f isval h req start stop arr apos hdr hpos d dpos dsize else Ok d) in
    (* 726-773 *)
    if prlv >? 0 then
      let position := n - prfv in
      let prlv' := if position <? 0 then prlv + position else prlv in
      let position' := if position <? 0 then 0 else position in
      miss_loop (Z.to_nat prlv') miss d (position' * req)
    else Ok d.

(** Round up to an even word (ztsDisaggregate.c:528-531, 608-612). *)
Definition even_up (p : Z) : Z := if Z.odd p then p + 1 else p.

(** Where the arrays and their compression headers are (ztsDisaggregate.c:528-531, 566-571, 608-612, 644-652);
    [tn] is the number of times in front (dataInPosition on entry). *)
Definition q_pos (tn : Z) (v : chead) : Z := even_up (tn + h_number v).
Definition i_pos (tn : Z) (v q : chead) : Z := even_up (q_pos tn v + h_number q).
Definition hwords_of (n : Z) : Z := Z.quot (n - 1) 32 + 1.
Definition q_hpos (n : Z) (v : chead) : Z := if h_flag v =? 1 then hwords_of n else 0.
Definition i_hpos (n : Z) (v q : chead) : Z :=
  (if h_flag v =? 1 then hwords_of n else 0) + (if h_flag q =? 1 then hwords_of n else 0).

(** Internal/ztsRegReadBlock.c:317-354 : the window of [nread] positions from in-block position [w], of a record
    whose [n] values start at in-block position [s]; gives values, quality and notes. *)
Definition read_window f2d d2f (g : agg) (tn n s : Z) (w nread : Z)
  (vreq : Z) (vmiss : list Z) (vdst : list Z) (vsize : Z)
  (qreq : Z) (qdst : list Z) (qsize : Z) (ireq : Z) (idst : list Z) (isize : Z) : res (list Z * list Z * list Z) :=
  let prfv := w - s in
  let prlv := nread + prfv - n in
  let* v := (if vreq >? 0 then
       read_channel f2d d2f true (g_v g) vreq nread n prfv prlv vmiss (g_out g) tn (g_hdr2 g) 0 vdst vsize
     else Ok vdst) in
  let* q := (if qreq >? 0 then
       read_channel f2d d2f false (g_q g) qreq nread n prfv prlv (zeros qreq) (g_out g) (q_pos tn (g_v g)) (g_hdr2 g)
         (q_hpos n (g_v g)) qdst qsize
     else Ok qdst) in
  let* i := (if ireq >? 0 then
       read_channel f2d d2f false (g_i g) ireq nread n prfv prlv (zeros ireq) (g_out g) (i_pos tn (g_v g) (g_q g)) (g_hdr2 g)
         (i_hpos n (g_v g) (g_q g)) idst isize
     else Ok idst) in
  Ok (v, q, i).
