(** * What there is at a time of a block. *)
From Coq Require Import ZArith List Bool.
From Verif Require Import Base ValidModel.
Import ListNotations.
Open Scope Z_scope.

(** character notes: one text for each time, each ended by a NUL *)
Definition notes_text (lines : list (list Z)) : list Z := concat (map (fun l => l ++ [0]) lines).
Definition width (b : blk) : Z := if b_depth b =? 0 then 1 else b_depth b.
(** one of the values of time [i] is not missing *)
Definition has_value (miss : Z -> bool) (b : blk) (i : Z) : Prop :=
  exists j, 0 <= j < width b /\ miss (nth (Z.to_nat (i * width b + j)) (b_vals b) 0) = false.
(** one of the words (quality, note) of time [i] is not zero *)
Definition has_mark (l : list Z) (sz i : Z) : Prop := exists j, 0 <= j < sz /\ nth (Z.to_nat (i * sz + j)) l 0 <> 0.
Definition has_data (miss : Z -> bool) (b : blk) (i : Z) : Prop :=
  has_value miss b i \/ has_mark (b_qual b) (b_qsize b) i \/ has_mark (b_notes b) (b_nsize b) i.
(** there is a text at time [i] *)
Definition has_note (lines : list (list Z)) (i : Z) : Prop := nth (Z.to_nat i) lines [] <> [].
Definition something (miss : Z -> bool) (b : blk) (lines : list (list Z)) (i : Z) : Prop := has_data miss b i \/ has_note lines i.

(** The arrays have an entry for each time, and the notes, if there are any, are a text for each time. *)
Definition block_ok (b : blk) (lines : list (list Z)) : Prop :=
  0 <= b_num b /\ 0 <= b_depth b /\ 0 <= b_qsize b /\ 0 <= b_nsize b /\
  b_num b * width b <= Z.of_nat (length (b_vals b)) /\ b_num b * b_qsize b <= Z.of_nat (length (b_qual b)) /\
  b_num b * b_nsize b <= Z.of_nat (length (b_notes b)) /\
  b_num b * width b < 2 ^ 31 /\ b_num b * b_qsize b < 2 ^ 31 /\ b_num b * b_nsize b < 2 ^ 31 /\
  b_cnotes b = notes_text lines /\ b_clen b = Z.of_nat (length (b_cnotes b)) /\
  (lines = [] \/ Z.of_nat (length lines) = b_num b) /\ Forall (fun l => ~ In 0 l) lines.
