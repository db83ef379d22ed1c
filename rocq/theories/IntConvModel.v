(** * Model of the conversion of quality and notes between element sizes (Utilities/convertIntArray.c, convertDataLength.c).
      One memory holds both arrays, at the positions [pin] and [pout]: they may be the same.  The products of two ints that give
      the positions are taken as they are: an overflow needs an array of more than 2^31 words. *)
From Coq Require Import ZArith List Bool.
From Verif Require Import Base ArrayLib.
Import ListNotations.
Open Scope Z_scope.
Open Scope res_scope.

(** Utilities/convertDataLength.c:45-47, 51-53, 56-58: words copied one by one, upwards *)
Fixpoint copy_words (n : nat) (mem : list Z) (pin pout : Z) : res (list Z) :=
  match n with
  | O => Ok mem
  | S k => let* v := aget mem pin in let* m := aset mem pout v in copy_words k m (pin + 1) (pout + 1)
  end.
(** Utilities/convertDataLength.c:60-62 *)
Fixpoint zero_words (n : nat) (mem : list Z) (pout : Z) : res (list Z) :=
  match n with
  | O => Ok mem
  | S k => let* m := aset mem pout 0 in zero_words k m (pout + 1)
  end.
(** Utilities/convertDataLength.c:40-64; [a] and [b] are the two element lengths *)
Definition convertDataLength (mem : list Z) (pin pout a b : Z) : res (list Z) :=
  if a =? b then copy_words (Z.to_nat b) mem pin pout
  else if a >? b then copy_words (Z.to_nat b) mem pin pout
  else let* m := copy_words (Z.to_nat a) mem pin pout in zero_words (Z.to_nat (b - a)) m (pout + a).

(** Utilities/convertIntArray.c:48-62: elements [i], [i] + 1, ... *)
Fixpoint convert_up (n : nat) (i : Z) (mem : list Z) (pin pout a b : Z) : res (list Z) :=
  match n with
  | O => Ok mem
  | S k => let* m := convertDataLength mem (pin + i * a) (pout + i * b) a b in convert_up k (i + 1) m pin pout a b
  end.
(** Utilities/convertIntArray.c:66-70: elements [n] - 1, ..., 0 *)
Fixpoint convert_down (n : nat) (mem : list Z) (pin pout a b : Z) : res (list Z) :=
  match n with
  | O => Ok mem
  | S k => let* m := convertDataLength mem (pin + Z.of_nat k * a) (pout + Z.of_nat k * b) a b in convert_down k m pin pout a b
  end.
(** Utilities/convertIntArray.c:42-72 *)
Definition convertIntArray (mem : list Z) (pin pout number a b : Z) : res (list Z) :=
  if a =? b then convert_up (Z.to_nat number) 0 mem pin pout a b
  else if a >? b then convert_up (Z.to_nat number) 0 mem pin pout a b
  else convert_down (Z.to_nat number) mem pin pout a b.
