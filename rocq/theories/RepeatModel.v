(** * Repeat compression of time-series arrays (model only).

    Cells are the 32-bit words of C [int] arrays.  The words of the compression header are taken as 32-bit
    patterns (0 .. 2^32-1); [1 << 31] is formally outside ISO C for a signed int and yields the top bit on every
    compiler the project supports. *)
From Coq Require Import ZArith List Lia Bool.
From Verif Require Import Base ArrayLib.
Import ListNotations.
Open Scope Z_scope.

(** Internal/ztsRegRepeatCompress.c:82-90 : [same] with its [break] at the first difference. *)
Fixpoint same_loop (n : nat) (a : list Z) (k m : Z) : res bool :=
  match n with
  | O => Ok true
  | S n' => let* x := aget a k in
            let* y := aget a m in
            if x =? y then same_loop n' a (k + 1) (m + 1) else Ok false
  end.

(** Internal/ztsRegRepeatCompress.c:93-96 : [header2[word] |= 1 << position], with the [assert]. *)
Definition set_bit (hdr : list Z) (hsize i : Z) : res (list Z) :=
  let word := Z.quot i 32 in
  let position := i - word * 32 in
  if word <? hsize then
    let* w := aget hdr word in
    aset hdr word (Z.lor w (Z.shiftl 1 position))
  else Undef.

(** Internal/ztsRegRepeatUncompress.c:106-109, 141-144 : [header2[word] & (1 << position)] is non-zero. *)
Definition bit_set (hdr : list Z) (i : Z) : res bool :=
  let word := Z.quot i 32 in
  let position := i - word * 32 in
  let* w := aget hdr word in
  Ok (negb (Z.land w (Z.shiftl 1 position) =? 0)).

(** Internal/ztsRegRepeatCompress.c:80-108 : the loop from element [i], [cnt] elements to go.
    The [assert(n < dataCompressedOutSize)] is a failure ([Undef]) as is writing outside the array. *)
Fixpoint compress_loop (cnt : nat) (i size : Z) (inp out : list Z) (osize : Z) (hdr : list Z) (hsize icount jcount : Z)
  : res (list Z * list Z * Z) :=
  match cnt with
  | O => Ok (out, hdr, jcount)
  | S cnt' =>
      let* same := same_loop (Z.to_nat size) inp (i * size) ((i - 1) * size) in
      if same then
        let* h := set_bit hdr hsize i in
        compress_loop cnt' (i + 1) size inp out osize h hsize icount jcount
      else
        if icount * size + size <=? osize then
          let* o := copy_loop (Z.to_nat size) inp (i * size) out (icount * size) in
          compress_loop cnt' (i + 1) size inp o osize hdr hsize (icount + 1) (jcount + size)
        else Undef
  end.

(** Internal/ztsRegRepeatCompress.c:61-110 ztsRegRepeatCompress : (dataCompressedOut, header2, returned count). *)
Definition compress (inp : list Z) (numberIn size : Z) (out : list Z) (osize : Z) (hdr : list Z) (hsize : Z)
  : res (list Z * list Z * Z) :=
  let* o := copy_loop (Z.to_nat size) inp 0 out 0 in
  compress_loop (Z.to_nat (numberIn - 1)) 1 size inp o osize hdr hsize 1 size.

(** Utilities/convertDataLength.c:40-64 convertDataLength : copy, truncate, or copy and zero-fill. *)
Definition convert_length (src : list Z) (si : Z) (dst : list Z) (di inlen outlen : Z) : res (list Z) :=
  if (inlen =? outlen) || (inlen >? outlen) then copy_loop (Z.to_nat outlen) src si dst di
  else let* d := copy_loop (Z.to_nat inlen) src si dst di in
       fill_loop (Z.to_nat (outlen - inlen)) 0 d (di + inlen).

(** Utilities/convertDataType.c:44-63 convertDataType, for unequal lengths: float to double (1 word to 2) and
    double to float (2 words to 1) are the functions [f2d], [d2f] on words (IEEE conversions, not interpreted
    here); other combinations leave the output alone. *)
Definition convert_type (f2d : Z -> Z * Z) (d2f : Z -> Z -> Z)
  (src : list Z) (si : Z) (dst : list Z) (di inlen outlen : Z) : res (list Z) :=
  if inlen =? outlen then copy_loop (Z.to_nat outlen) src si dst di
  else if (inlen =? 1) && (outlen =? 2) then
    let* x := aget src si in
    let* d := aset dst di (fst (f2d x)) in
    aset d (di + 1) (snd (f2d x))
  else if (inlen =? 2) && (outlen =? 1) then
    let* x := aget src si in
    let* y := aget src (si + 1) in
    aset dst di (d2f x y)
  else Ok dst.

(** Internal/ztsRegRepeatUncompress.c:83-97, 110-123, 153-171 : put the next stored element at [di]. *)
Definition put_elem f2d d2f (isval : bool) (src : list Z) (si : Z) (dst : list Z) (di vsize req : Z) : res (list Z) :=
  if vsize =? req then copy_loop (Z.to_nat vsize) src si dst di
  else if isval then convert_type f2d d2f src si dst di vsize req
  else convert_length src si dst di vsize req.

(** Internal/ztsRegRepeatUncompress.c:103-126 : skip to element [start]; (dataOut, icount). *)
Fixpoint skip_loop (cnt : nat) (i : Z) f2d d2f (isval : bool) (vsize req : Z) (hdr src dst : list Z) (icount : Z)
  : res (list Z * Z) :=
  match cnt with
  | O => Ok (dst, icount)
  | S cnt' =>
      let* b := bit_set hdr i in
      if b then skip_loop cnt' (i + 1) f2d d2f isval vsize req hdr src dst icount
      else let* d := put_elem f2d d2f isval src icount dst 0 vsize req in
           skip_loop cnt' (i + 1) f2d d2f isval vsize req hdr src d (icount + vsize)
  end.

(** Internal/ztsRegRepeatUncompress.c:137-171 : the elements after [start]. *)
Fixpoint expand_loop (cnt : nat) (i : Z) f2d d2f (isval : bool) (vsize req : Z) (hdr src dst : list Z) (dsize icount ipos : Z)
  : res (list Z) :=
  match cnt with
  | O => Ok dst
  | S cnt' =>
      if ipos <? dsize then
        let* b := bit_set hdr i in
        if b then
          let* d := self_copy_loop (Z.to_nat req) dst (ipos - req) ipos in
          expand_loop cnt' (i + 1) f2d d2f isval vsize req hdr src d dsize icount (ipos + req)
        else
          let* d := put_elem f2d d2f isval src icount dst ipos vsize req in
          expand_loop cnt' (i + 1) f2d d2f isval vsize req hdr src d dsize (icount + vsize) (ipos + req)
      else Undef
  end.

(** Internal/ztsRegRepeatUncompress.c:72-172 ztsRegRepeatUncompress. *)
Definition uncompress f2d d2f (start stop vsize req : Z) (isval : bool) (hdr src dst : list Z) (dsize : Z)
  : res (list Z) :=
  let* '(d, icount) :=
    (if start =? 0 then
       let* d := put_elem f2d d2f isval src 0 dst 0 vsize req in Ok (d, vsize)
     else skip_loop (Z.to_nat (start + 1)) 0 f2d d2f isval vsize req hdr src dst 0) in
  if start =? stop then Ok d
  else expand_loop (Z.to_nat (stop - (start + 1))) (start + 1) f2d d2f isval vsize req hdr src d dsize icount req.
