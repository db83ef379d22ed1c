(** * Model of the pathname hash (Internal/zhash.c) and pathname comparison (Public/zpathnameCompare.c). *)
From Coq Require Import ZArith List Lia Bool.
From Verif Require Import Base PackModel.
Import ListNotations.
Open Scope Z_scope.

(** A pathname is the list of its bytes (0..255), without the terminating NUL.
    C library toupper in the "C" locale. *)
Definition toupper (c : Z) : Z := if (97 <=? c) && (c <=? 122) then c - 32 else c.

(** zhash.c:91-101.  [char] is signed: bytes above 127 are negative, hence below 32. *)
Definition hash_char (c : Z) : Z := if (c <? 32) || (127 <? c) then 63 else toupper c.

(** Two's complement 64-bit wrap (the signed overflow of zhash.c:116 is formally undefined; every supported
    compiler wraps; see [hash31_chk] for the strict reading). *)
Definition wrap64 (z : Z) : Z := (z + 9223372036854775808) mod 18446744073709551616 - 9223372036854775808.

(** zhash.c:114-130. *)
Fixpoint hash31 (acc : Z) (l : list Z) : Z :=
  match l with [] => acc | c :: t => hash31 (wrap64 (31 * acc + c)) t end.
Definition path_hash (path : list Z) : Z :=
  let h := hash31 0 (map hash_char path) in if h =? 0 then 1 else h.

(** The same loop with signed overflow as undefined behaviour. *)
Fixpoint hash31_chk (acc : Z) (l : list Z) : res Z :=
  match l with
  | [] => Ok acc
  | c :: t => let v := 31 * acc + c in
              if (-9223372036854775808 <=? v) && (v <=? 9223372036854775807) then hash31_chk v t else Undef
  end.

(** zhash.c:148-151: ibit from frexp; exact powers of two use one bit less.  Equals ceil(log2 maxHash). *)
Definition hash_bits (maxHash : Z) : Z := Z.log2_up maxHash.

(** zhash.c:164-193, the part of the loop between two byte fetches: move bits while ihave > 0. *)
Fixpoint hash_moves (fuel : nat) (ibit i2 ineed ihave it : Z) : Z * Z * Z :=
  match fuel with
  | O => (i2, ineed, it)
  | S f =>
      if 0 <? ihave then
        let imove := if ihave <? ineed then ihave else ineed in
        let i2 := Z.shiftl i2 imove in
        let ineed := ineed - imove in
        let ihave := ihave - imove in
        if ineed <=? 0
        then hash_moves f ibit (Z.rem i2 256) ibit ihave (Z.lxor it (Z.quot i2 256))
        else hash_moves f ibit i2 ineed ihave it
      else (i2, ineed, it)
  end.
Fixpoint hash_bytes (l : list Z) (ibit i2 ineed it : Z) : Z :=
  match l with
  | [] => it
  | c :: t => let '(i2', ineed', it') := hash_moves 9 ibit (i2 + c) ineed 8 it in
              hash_bytes t ibit i2' ineed' it'
  end.

(** zhash.c:103-105, 156-195: table index; [Undef] is the division by zero when maxHash = 1. *)
Definition table_hash (maxHash : Z) (path : list Z) : res Z :=
  let ibit := hash_bits maxHash in
  if ibit =? 0 then Undef else
  let n := Z.of_nat (length path) in
  let nt := Z.quot (n * 8 - 1) ibit + 1 in
  let nt := Z.quot (nt * ibit - 1) 8 + 1 in
  let buf := map hash_char path ++ repeat 0 8 in
  Ok (Z.rem (hash_bytes (firstn (Z.to_nat nt) buf) ibit 0 ibit 0) maxHash).

(** zhash.c:63-219.  [detune] is the header flag kdetune (lines 200-208). *)
Definition zhash (detune : bool) (maxHash : Z) (path : list Z) : res (Z * Z) :=
  let* t := table_hash maxHash path in
  if detune then Ok (3, 1234) else Ok (t, path_hash path).

(** zpathnameCompare.c:35-50 (zstringCompare): toupper comparison of the first [n] characters. *)
Fixpoint string_compare (n : nat) (a b : list Z) : bool :=
  match n with
  | O => true
  | S m => match a, b with
           | x :: s, y :: t => (toupper x =? toupper y) && string_compare m s t
           | _, _ => false
           end
  end.
