(** * C strings: buffers with a capacity, and the C library functions the text code uses.
    A string is the list of its bytes (0..255) without the terminating NUL; a buffer is a list of cells. *)
From Coq Require Import ZArith List Bool Lia.
From Verif Require Import Base ArrayLib HashModel.
Import ListNotations.
Open Scope Z_scope.
Open Scope res_scope.

(** the C string held by a buffer: the bytes before the first NUL; no NUL is an over-read *)
Fixpoint cstr (b : list Z) : res (list Z) :=
  match b with
  | [] => Undef
  | c :: t => if c =? 0 then Ok [] else let* r := cstr t in Ok (c :: r)
  end.

(** store a string and its NUL at the start of a buffer *)
Fixpoint put_str (b s : list Z) : res (list Z) :=
  match s, b with
  | [], _ :: t => Ok (0 :: t)
  | c :: s', _ :: t => let* r := put_str t s' in Ok (c :: r)
  | _, [] => Undef
  end.

Definition slen (s : list Z) : Z := Z.of_nat (length s).
Definition stake (n : Z) (s : list Z) : list Z := firstn (Z.to_nat n) s.
Definition sdrop (n : Z) (s : list Z) : list Z := skipn (Z.to_nat n) s.

(** Utilities/stringCopy.c:47-94 seen as a value: the text left in a destination of [size] bytes.
    [n] is the source length argument; [None] is _TRUNCATE. *)
Definition stringCopy_val (size : Z) (src : list Z) (n : option Z) : list Z :=
  match n with
  | None => stake (size - 1) src
  | Some k => if k <=? 0 then [] else stake (Z.min k (size - 1)) src
  end.

(** stringCopy into a caller's buffer with claimed size [size]: (buffer, returned length) *)
Definition stringCopy (buf : list Z) (size : Z) (src : list Z) (n : option Z) : res (list Z * Z) :=
  if (match n with Some 0 => true | _ => false end) then
    (if size >? 0 then let* b := aset buf 0 0 in Ok (b, 0) else Ok (buf, 0))
  else if size =? 0 then Ok (buf, 0)
  else
    let s := stringCopy_val size src n in
    let* b := put_str buf s in Ok (b, slen s).

(** Utilities/stringCat.c:36-67 (not MSVC) with _TRUNCATE, as a value: destination of [size] bytes holding [dst] *)
Definition stringCat_val (size : Z) (dst src : list Z) : list Z := dst ++ stake (size - slen dst - 1) src.

(** Utilities/upperCase.c:27-36 *)
Definition upperCase (s : list Z) : list Z := map toupper s.

Definition is_digit (c : Z) : bool := (48 <=? c) && (c <=? 57).
(** isspace in the "C" locale *)
Definition is_space (c : Z) : bool := (c =? 32) || ((9 <=? c) && (c <=? 13)).

(** signed value of a char *)
Definition schar (c : Z) : Z := if c >? 127 then c - 256 else c.

(** C library: strchr, strrchr, strstr as positions *)
Fixpoint strchr (s : list Z) (c : Z) : option Z :=
  match s with
  | [] => None
  | x :: t => if x =? c then Some 0 else match strchr t c with Some i => Some (i + 1) | None => None end
  end.
Fixpoint strrchr (s : list Z) (c : Z) : option Z :=
  match s with
  | [] => None
  | x :: t => match strrchr t c with Some i => Some (i + 1) | None => if x =? c then Some 0 else None end
  end.
Fixpoint is_prefix (p s : list Z) : bool :=
  match p, s with
  | [], _ => true
  | a :: p', b :: s' => (a =? b) && is_prefix p' s'
  | _ :: _, [] => false
  end.
Fixpoint strstr (s p : list Z) : option Z :=
  if is_prefix p s then Some 0 else
  match s with
  | [] => None
  | _ :: t => match strstr t p with Some i => Some (i + 1) | None => None end
  end.

(** value of the leading digits of a string *)
Fixpoint digits_val (acc : Z) (s : list Z) : Z :=
  match s with
  | [] => acc
  | c :: t => if is_digit c then digits_val (acc * 10 + (c - 48)) t else acc
  end.
Fixpoint skip_space (s : list Z) : list Z :=
  match s with [] => [] | c :: t => if is_space c then skip_space t else s end.

(** C library atoi; a value outside [int] is undefined behaviour *)
Definition atoi (s : list Z) : res Z :=
  match skip_space s with
  | [] => Ok 0
  | c :: t => chk32 (if c =? 45 then - digits_val 0 t else if c =? 43 then digits_val 0 t else digits_val 0 (c :: t))
  end.

(** decimal digits of a non-negative number below 10^20 *)
Fixpoint dec_fuel (fuel : nat) (n : Z) : list Z :=
  match fuel with
  | O => []
  | S f => if n <? 10 then [48 + n] else dec_fuel f (n / 10) ++ [48 + n mod 10]
  end.
Definition dec (n : Z) : list Z := dec_fuel 20 n.

(** printf "%d" and "%0wd" *)
Definition fmt_d (n : Z) : list Z := if n <? 0 then 45 :: dec (- n) else dec n.
Definition pad0 (w : Z) (s : list Z) : list Z := repeat 48 (Z.to_nat (w - slen s)) ++ s.
Definition fmt_0d (w n : Z) : list Z := if n <? 0 then 45 :: pad0 (w - 1) (dec (- n)) else pad0 w (dec n).

(** Utilities/intTo2char.c:35-39, intTo4char.c:35-39: snprintf into 3 (5) bytes *)
Definition intTo2char (i : Z) : list Z := stake 2 (fmt_0d 2 i).
Definition intTo4char (i : Z) : list Z := stake 4 (fmt_0d 4 i).

(** Utilities/reverseNonNumeric.c:36-48: position of the last character that is not a digit *)
Fixpoint reverseNonNumeric (s : list Z) : option Z :=
  match s with
  | [] => None
  | c :: t => match reverseNonNumeric t with
              | Some i => Some (i + 1)
              | None => if is_digit c then None else Some 0
              end
  end.

(** Utilities/itoa.c:39-81, base 10, for a number whose digits fit the buffer of [cap] bytes with the NUL *)
Definition itoa_hec (cap n : Z) : res (list Z) :=
  let s := fmt_d n in if slen s <? cap then Ok s else Undef.

(** Utilities/findInt.c:57-73: position and length of the first run of digits *)
Fixpoint digit_run (s : list Z) : Z :=
  match s with [] => 0 | c :: t => if is_digit c then 1 + digit_run t else 0 end.
Fixpoint first_digit (s : list Z) : option Z :=
  match s with
  | [] => None
  | c :: t => if is_digit c then Some 0 else match first_digit t with Some i => Some (i + 1) | None => None end
  end.

(** findInt.c:81-85: the value of the run, with signed overflow checked at every step *)
Fixpoint run_val (acc : Z) (s : list Z) : res Z :=
  match s with
  | [] => Ok acc
  | c :: t => if is_digit c then let* a := chk32 (acc * 10) in let* b := chk32 (a + (c - 48)) in run_val b t
              else Ok acc
  end.

(** Utilities/findInt.c:48-98: (value, numberDigits) *)
Definition findInt (s : list Z) : res (Z * Z) :=
  match first_digit s with
  | None => Ok (0, 0)
  | Some i =>
    let r := sdrop i s in
    let* v := run_val 0 r in
    let n := digit_run r in
    if i >? 0 then
      let* c := aget s (i - 1) in
      if c =? 45 then Ok (- v, n + 1) else Ok (v, n)
    else Ok (v, n)
  end.
