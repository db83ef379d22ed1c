(** * Model of finding the first and the last time of a block that holds anything: ztsFirstLastValidValues. *)
From Coq Require Import ZArith List Bool.
From Verif Require Import Base ArrayLib TrimModel.
Import ListNotations.
Open Scope Z_scope.
Open Scope res_scope.

(** The arguments of Internal/ztsFirstLastValidValues.c:92-97.  Floats and doubles are words here, and which of them are
    missing (zmissingFlag.c:89-121) is a parameter.  [b_depth] is profileDepthsNumber; [b_clen] is cnotesLengthTotal. *)
Record blk := mkblk { b_vals : list Z; b_depth : Z; b_num : Z; b_qual : list Z; b_qsize : Z; b_notes : list Z; b_nsize : Z;
  b_cnotes : list Z; b_clen : Z }.

(** :152-162, :163-173, :216-226, :227-237 (and 288-309, 353-374): is one of the [sz] words of entry [i] not zero? *)
Definition marks (sz : Z) (l : list Z) (i : Z) : res bool :=
  if 0 <? sz then let* p := chk32 (i * sz) in row_has (fun v => v =? 0) (Z.to_nat sz) l p else Ok false.
(** :174-184, :310-320 *)
Definition note_first (b : blk) (i : Z) : res bool :=
  if (0 <? b_clen b) && (i <? b_clen b) then let* c := aget (b_cnotes b) i in Ok (negb (c =? 0)) else Ok false.
(** :238-248, :375-385 *)
Definition note_last (b : blk) (i : Z) : res bool :=
  let ipos := b_clen b - (b_num b - i) in
  if (0 <? b_clen b) && (0 <? ipos) then let* c := aget (b_cnotes b) ipos in Ok (negb (c =? 0)) else Ok false.

(** :133-188, :269-324; [cnt] is numberValues - i; -1: nothing found.  [row_valid]: TrimModel.v, the same loop over the
    values (lines 135-151, 271-287). *)
Fixpoint first_scan (miss : Z -> bool) (b : blk) (cnt : nat) (i : Z) : res Z :=
  match cnt with
  | O => Ok (-1)
  | S cnt' =>
      let* v := row_valid miss (b_vals b) (b_depth b) i in
      if v then Ok i
      else
        let* q := marks (b_qsize b) (b_qual b) i in
        let* n := marks (b_nsize b) (b_notes b) i in
        let* c := note_first b i in
        if q || n || c then Ok i else first_scan miss b cnt' (i + 1)
  end.
(** :197-252; for doubles, [dbl], :334-389, where line 380 has i + 1.  [cnt] is i + 1. *)
Fixpoint last_scan (miss : Z -> bool) (dbl : bool) (b : blk) (cnt : nat) : res Z :=
  match cnt with
  | O => Ok (-1)
  | S cnt' =>
      let i := Z.of_nat cnt' in
      let* v := row_valid miss (b_vals b) (b_depth b) i in
      if v then Ok i
      else
        let* q := marks (b_qsize b) (b_qual b) i in
        let* n := marks (b_nsize b) (b_notes b) i in
        let* c := note_last b i in
        if q || n then Ok i else if c then Ok (if dbl then i + 1 else i) else last_scan miss dbl b cnt'
  end.
(** :122-254, :258-391: (all missing, first, last) *)
Definition first_last (miss : Z -> bool) (dbl : bool) (b : blk) : res (Z * Z * Z) :=
  let* f := first_scan miss b (Z.to_nat (b_num b)) 0 in
  if f =? -1 then Ok (1, 0, 0)
  else let* l := last_scan miss dbl b (Z.to_nat (b_num b)) in Ok (0, f, l).
(** :92-120; [element]: valueElementSize *)
Definition ztsFirstLastValidValues (miss : Z -> bool) (element : Z) (b : blk) : res (Z * Z * Z) :=
  if element =? 1 then first_last miss false b
  else if element =? 2 then first_last miss true b
  else Ok (0, 0, b_num b - 1).
