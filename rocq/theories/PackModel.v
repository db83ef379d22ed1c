(** * Model of integer packing, byte order and error-code functions. *)
From Coq Require Import ZArith List Lia Bool.
From Verif Require Import Base.
Import ListNotations.
Open Scope Z_scope.

(** A C [int]/[long long] object as the bytes it occupies in memory.
    [bytes_le n v]: the [n] bytes of [v] (two's complement), least significant first. *)
Fixpoint bytes_le (n : nat) (v : Z) : list Z :=
  match n with O => [] | S m => v mod 256 :: bytes_le m (v / 256) end.

Definition obj_bytes (be : bool) (n : nat) (v : Z) : list Z :=
  if be then rev (bytes_le n v) else bytes_le n v.

Fixpoint unsigned_le (b : list Z) : Z :=
  match b with [] => 0 | x :: t => x + 256 * unsigned_le t end.

Definition unsigned_of (be : bool) (b : list Z) : Z :=
  if be then unsigned_le (rev b) else unsigned_le b.

(** Read a signed C object of [n] bytes. *)
Definition signed_of (be : bool) (n : nat) (b : list Z) : Z :=
  let u := unsigned_of be b in
  let m := 256 ^ Z.of_nat n in
  if 2 * u <? m then u else u - m.

(** Utilities/i4toi8.c:28-56.  [be] is the result of bigEndian() (System/getEndian.c:33-38).
    Two ints are written into the array i4 and its 8 bytes read as one unsigned long long. *)
Definition i4toi8 (be : bool) (a b : Z) : Z :=
  let i4 := if be then obj_bytes be 4 b ++ obj_bytes be 4 a
            else obj_bytes be 4 a ++ obj_bytes be 4 b in
  unsigned_of be i4.

(** Utilities/i8toi4.c:29-56. *)
Definition i8toi4 (be : bool) (v : Z) : Z * Z :=
  let w := obj_bytes be 8 v in
  let lo := signed_of be 4 (firstn 4 w) in
  let hi := signed_of be 4 (skipn 4 w) in
  if be then (hi, lo) else (lo, hi).

(** Utilities/numberLongsInInts.c:26-38, numberIntsInLongs.c:26-36, numberLongsInBytes.c:26-38,
    numberIntsInBytes.c:26-38. *)
Definition numberLongsInInts (n : Z) : Z := if 0 <? n then Z.quot (n - 1) 2 + 1 else 0.
Definition numberIntsInLongs (n : Z) : Z := if 0 <? n then wrap32 (n * 2) else 0.
Definition numberLongsInBytes (n : Z) : Z := if 0 <? n then Z.quot (n - 1) 8 + 1 else 0.
Definition numberIntsInBytes (n : Z) : Z := if 0 <? n then Z.quot (n - 1) 4 + 1 else 0.

(** Utilities/isOdd.c:29-40. *)
Definition isOdd (n : Z) : bool := negb (Z.quot n 2 * 2 =? n).

(** System/zswitchInts.c:68-108: exchanges the two ints of each of the [numberLongs] words.
    The array is the list of its cells; touching a cell outside is [Undef]. *)
Fixpoint switch_words {A} (n : nat) (l : list A) : res (list A) :=
  match n with
  | O => Ok l
  | S m => match l with
           | x :: y :: t => let* t' := switch_words m t in Ok (y :: x :: t')
           | _ => Undef
           end
  end.
Definition zswitchInts {A} (l : list A) (numberInts : Z) : res (list A) :=
  if numberInts =? 0 then Ok l
  else switch_words (Z.to_nat (Z.quot (numberInts - 1) 2 + 1)) l.

(** &iarray[pos] passed to zswitchInts. *)
Definition zswitchInts_at {A} (l : list A) (pos numberInts : Z) : res (list A) :=
  let* t := zswitchInts (skipn (Z.to_nat pos) l) numberInts in
  Ok (firstn (Z.to_nat pos) l ++ t).

(** System/zswitchDoubles.c:84-128. *)
Definition zswitchDoubles {A} (l : list A) (numberArray lengthEachValue : Z) (boolStoring : bool)
    (numberTimes : Z) : res (list A) :=
  if numberArray =? 0 then Ok l
  else if lengthEachValue =? 1 then zswitchInts l numberArray
  else if numberTimes =? 0 then Ok l
  else if isOdd numberTimes then
    let number := numberArray - numberTimes in
    if boolStoring then
      let* l1 := zswitchInts_at l numberTimes number in
      let* l2 := zswitchInts_at l1 (numberTimes + 1) (number - 1) in
      zswitchInts l2 numberTimes
    else
      let* l1 := zswitchInts l numberArray in
      zswitchInts_at l1 numberTimes number
  else zswitchInts l numberTimes.

(** System/zswap.c:62-89: reverses the 8 bytes of each word; the array is the list of its bytes. *)
Fixpoint swap_words (n : nat) (l : list Z) : res (list Z) :=
  match n with
  | O => Ok l
  | S m => match l with
           | a :: b :: c :: d :: e :: f :: g :: h :: t =>
               let* t' := swap_words m t in Ok (h :: g :: f :: e :: d :: c :: b :: a :: t')
           | _ => Undef
           end
  end.
Definition zswap (l : list Z) (numberInts : Z) : res (list Z) :=
  if numberInts =? 0 then Ok l
  else swap_words (Z.to_nat (Z.quot (numberInts - 1) 2 + 1)) l.

(** Overwrite the first cells of a buffer; writing past its end is [Undef]. *)
Definition put_prefix (src dst : list Z) : res (list Z) :=
  if (length src <=? length dst)%nat then Ok (src ++ skipn (length src) dst) else Undef.
(** Read the first [n] cells; reading past the end is [Undef]. *)
Definition get_prefix (n : Z) (l : list Z) : res (list Z) :=
  if n <=? Z.of_nat (length l) then Ok (firstn (Z.to_nat n) l) else Undef.

(** Internal/charLong.c:55-199, restricted to [numberBytes > 0] (the form used for pathnames, headers and
    text records) and zeroEndFlag 0 or 1.  Result: the destination buffer. *)
Definition zero_from_to (l : list Z) (from upto : Z) : res (list Z) :=
  if from <? upto
  then if upto <=? Z.of_nat (length l)
       then Ok (firstn (Z.to_nat from) l ++ repeat 0 (Z.to_nat (upto - from)) ++ skipn (Z.to_nat upto) l)
       else Undef
  else Ok l.

Definition charLong (be : bool) (from to : list Z) (numberBytes0 maxBytesTo : Z) (toLong zeroEnd : bool)
    : res (list Z) :=
  let nlongwords := Z.quot (numberBytes0 - 1) 8 + 1 in
  let numberBytes := if maxBytesTo <? numberBytes0 then maxBytesTo else numberBytes0 in
  let len := if maxBytesTo <? nlongwords * 8 then maxBytesTo else nlongwords * 8 in
  if negb be || toLong then
    let* src := get_prefix numberBytes from in
    let* t1 := put_prefix src to in
    let* t2 := if negb be && negb toLong && (numberBytes <? maxBytesTo)
               then aset t1 numberBytes 0 else Ok t1 in
    let* t3 := if zeroEnd then zero_from_to t2 numberBytes len else Ok t2 in
    if be then zswap t3 (2 * (Z.quot (maxBytesTo - 1) 8 + 1)) else Ok t3
  else
    (* big-endian, from words to text: each word is swapped in a temporary, lines 147-161.  The [break] at
       line 158 leaves only the inner loop; when the byte limit was lowered to maxBytesTo the outer loop
       goes on and one more byte per word is written past the limit; that is [Undef] here. *)
    let* w := get_prefix (nlongwords * 8) from in
    let* s := zswap w (2 * nlongwords) in
    if (maxBytesTo <? numberBytes0) && negb (Z.quot (maxBytesTo - 1) 8 + 1 =? nlongwords) then Undef else
    let* src := get_prefix numberBytes s in
    let* t1 := put_prefix src to in
    let* t2 := if numberBytes <? maxBytesTo then aset t1 numberBytes 0 else Ok t1 in
    if zeroEnd then zero_from_to t2 numberBytes len else Ok t2.

(** Writing / reading words to or from disk: on a big-endian machine the 8 bytes of each word are reversed
    (System/zwriteDisk.c, System/zreadDisk.c, flag kswap = bigEndian()). *)
Definition disk_swap (be : bool) (numberInts : Z) (l : list Z) : res (list Z) :=
  if be then zswap l numberInts else Ok l.

(** ** Error codes *)

(** Internal/zerrorEncode.c:49-66. *)
Definition zerrorEncode (severity highFunction lowFunction dssError systemError : Z) : res Z :=
  let systemError := if (99 <? systemError) || (systemError <? -9) then 0 else systemError in
  let* e1 := chk32 (systemError + dssError * 100) in
  let* e2 := chk32 (e1 + lowFunction * 10000) in
  let* e3 := chk32 (e2 + highFunction * 1000000) in
  let* e4 := chk32 (e3 + severity * 100000000) in
  Ok (if 0 <? e4 then - e4 else e4).

(** Internal/zerrorEncodeHigh.c:33-37. *)
Definition zerrorEncodeHigh (errorCodeIn highFunction : Z) : res Z :=
  chk32 (errorCodeIn + highFunction * 1000000).

(** Internal/zerrorUpdate.c:52-81 (message output omitted). *)
Definition zerrorUpdate (errorCodeIn functionID : Z) : res Z :=
  if errorCodeIn =? 0 then Ok errorCodeIn else zerrorEncodeHigh errorCodeIn functionID.

(** Internal/zerrorDecode.c:49-63: (severity, highFunction, lowFunction, dssError, status). *)
Definition zerrorDecode (errorCode0 : Z) : Z * Z * Z * Z * Z :=
  let errorCode := if errorCode0 <? 0 then - errorCode0 else errorCode0 in
  let severity := Z.quot errorCode 100000000 in
  let highFunction := Z.quot (errorCode - severity * 100000000) 1000000 in
  let lowFunction := Z.quot (errorCode - (severity * 100000000 + highFunction * 1000000)) 10000 in
  let dssError := Z.quot (errorCode - (severity * 100000000 + highFunction * 1000000 + lowFunction * 10000)) 100 in
  let status := errorCode - (severity * 100000000 + highFunction * 1000000 + lowFunction * 10000 + dssError * 100) in
  (severity, highFunction, lowFunction, dssError, status).

(** Internal/zerrorSeverity.c:32-40. *)
Definition zerrorSeverity (errorCode0 : Z) : Z :=
  let errorCode := if errorCode0 <? 0 then - errorCode0 else errorCode0 in
  Z.quot errorCode 100000000.

(** Severities, headers/zerrorCodes.h:233-254. *)
Definition SEV_INFORMATION := 1.
Definition SEV_WARNING := 2.
Definition SEV_INVALID_ARGUMENT := 3.
Definition SEV_MEMORY_ERROR := 9.

(** SemiPublic/zisError.c:30-56. *)
Definition zisError (errorCode : Z) : bool :=
  if 0 <=? errorCode then false
  else if errorCode =? -1 then false
  else if -10 <? errorCode then true
  else let '(severity, _, _, _, _) := zerrorDecode errorCode in SEV_INVALID_ARGUMENT <=? severity.

(** Internal/zerrorProcessing.c:380, 431-434: the code returned for an error raised by [functionID]. *)
Definition zerrorProcessing_code (severity functionID errorNumber status : Z) : res Z :=
  let* c := zerrorEncode severity 0 functionID errorNumber status in
  Ok (if 0 <? c then - c else c).
