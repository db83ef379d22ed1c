(** * What changed in a file since a moment: zwhatChangedSetStart, zwhatChanged, zwhatChangedCompare. *)
From Coq Require Import ZArith List Bool.
From Verif Require Import Base FileModel CatModel.
Import ListNotations.
Open Scope Z_scope.

(** Public/zwhatChangedCompare.c:73-83 (Public/zwhatChanged.c:44-51 calls it with the pattern and the time kept by
    Public/zwhatChangedSetStart.c:64-103): without CRC values the answer is the unsorted catalogue of the records whose
    last-write time, as the directory has it, is after [start] (lastWriteTimeSearchFlag = 2).  [start] is the file header's
    klastWriteTime when zwhatChangedSetStart ran (line 96): the time of the last write, delete, undelete or rename, or of the
    creation of the file; the word is not part of the model of the header, so it is an argument here.  The error returns
    and the messages are not modelled. *)
Definition zwhatChanged (c : cfg) (lo : locals) (wp : option (list Z)) (start : Z) : M (list (list Z)) :=
  zcatalogSelect c lo wp false (mksel 0 0 start 2).

(** Public/zwhatChangedCompare.c:114-132: with CRC values.  [before] is the catalogue kept at the start and [now] the
    catalogue of the records written since, each as the pairs (pathname hash, CRC) in the order of the list; the answer
    is the numbers of the records to report.  index[] has as many places as [now] has records; a store beyond the end is
    undefined. *)
Fixpoint crc_inner (room : nat) (i : nat) (h crc : Z) (before : list (Z * Z)) (index : list nat) : res (list nat) :=
  match before with
  | [] => Ok index
  | (h', crc') :: t =>
      if (h =? h') && negb (crc =? crc')
      then if (length index <? room)%nat then crc_inner room i h crc t (index ++ [i]) else Undef
      else crc_inner room i h crc t index
  end.
Fixpoint crc_outer (room : nat) (i : nat) (now before : list (Z * Z)) (index : list nat) : res (list nat) :=
  match now with
  | [] => Ok index
  | (h, crc) :: t =>
      match crc_inner room i h crc before index with
      | Undef => Undef
      | Ok index' => crc_outer room (S i) t before index'
      end
  end.
Definition crc_changed (now before : list (Z * Z)) : res (list nat) := crc_outer (length now) 0 now before [].
