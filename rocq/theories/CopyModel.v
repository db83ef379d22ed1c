(** * Model of copying records: zcopyRecordInternal, zcopyRecord, zduplicateRecord, zcopyFile (DSS 7 files).
    Not modelled: the location record that is copied along (zcopyRecordInternal.c:305-312, 334-341), aliases, reclaimed
    space, messages, the locks (LockModel.v), allocation failure, and the route through the retrieve and store functions
    of time series and paired data (zcopyRecord.c:158-250), which is answered [Elsewhere]. *)
From Coq Require Import ZArith List Lia Bool.
From Verif Require Import Base PackModel HashModel PathModel FileModel FileSpec SqueezeModel.
Import ListNotations.
Open Scope Z_scope.

(** zcopyRecordInternal.c:145-249: the request written; [from]: the name in the info block, [to]: the name given
    (copied by mallocAndCopyPath). *)
Definition copy_as (ev : env) (f : Z -> Z) (from to : list Z) (ct : content) : xfer * Z :=
  let (x, n) := copy_request ev f from ct in
  (mkxfer (copy_path to) (x_type x) (x_ih x) (x_h2 x) (x_uh x) (x_v1 x) (x_v2 x) (x_v3 x) (x_num x) (x_logical x) (x_alloc x)
     (x_expand x), n).

(** zcopyRecordInternal.c:111-357; [f]: the info block of the source, in memory; [src]: the words of the source file.
    [dup] (boolDuplicate): the block the new record is described in is the very array [f] was in, so lines 285-292 copy
    it to itself and only the expansion word changes. *)
Definition copy_internal (c' : cfg) (ev : env) (dup : bool) (f : Z -> Z) (src : st) (to : list Z) : M unit :=
  match read_info f src with
  | UB => ubM
  | ERR _ => errM
  | OK ct _ =>
      let (x, expNo) := copy_as ev f (info_path f) to ct in
      modI (set_dataDates (f 9) (f 10)) ;;;
      zwriteInternal c' (v_now ev) (v_prog ev) x ;;;
      i <- getI ;;
      let f' := if dup then upd (i_info i) 5 (f 5) else f in
      let g := patched f' (i_info i) expNo in
      modI (set_info g) ;;;
      zputw (i_addInfo i) (tabulate g (numInfo (fst (i8toi4 false (i_info i 2))))) ;;;
      zpermWrite
  end.

(** What a call answers.  [Elsewhere]: the call goes on in code that is not part of this model. *)
Inductive ans := Answer (r : resp) (s : st) | Elsewhere | Undefined.
Definition answer {A} (x : out A) (f : A -> resp) : ans :=
  match x with OK a s => Answer (f a) s | ERR s => Answer Refused s | UB => Undefined end.

(** verticalDatum.c:1634-1670: the C part starts with ELEV, or one of its first two pieces between hyphens does
    (strtok_r skips empty pieces).  [part_text]: text between slashes [k] and [k+1], at most 128 characters. *)
Fixpoint after_slashes (n : nat) (p : list Z) : list Z :=
  match n, p with
  | O, _ => p
  | _, [] => []
  | S m, a :: t => if a =? 47 then after_slashes m t else after_slashes n t
  end.
Fixpoint upto (d : Z) (p : list Z) : list Z := match p with [] => [] | a :: t => if a =? d then [] else a :: upto d t end.
Fixpoint skip (d : Z) (p : list Z) : list Z := match p with [] => [] | a :: t => if a =? d then skip d t else p end.
Fixpoint beyond (d : Z) (p : list Z) : list Z := match p with [] => [] | a :: t => if a =? d then t else beyond d t end.
Definition starts_elev (p : list Z) : bool := if list_eq_dec Z.eq_dec (firstn 4 (canon p)) [69; 76; 69; 86] then true else false.
Definition c_part (p : list Z) : list Z := firstn 128 (upto 47 (after_slashes 3 p)).
Definition pathnameIsElevPd (p : list Z) : bool :=
  let t := skip 45 (c_part p) in starts_elev (upto 45 t) || starts_elev (upto 45 (skip 45 (beyond 45 t))).
Definition pathnameIsElevTsOrPd (p : list Z) : bool := starts_elev (c_part p) || pathnameIsElevPd p.

(** strncmp of [n] characters, equal or not, the NUL at the end of each text included; an offset beyond the NUL is a
    read outside the text. *)
Fixpoint same_n (n : nat) (a b : list Z) : bool :=
  match n, a, b with
  | O, _, _ => true
  | _, [], [] => true
  | S m, x :: a', y :: b' => (x =? y) && same_n m a' b'
  | _, _, _ => false
  end.
Definition strncmp_at (a : list Z) (i : Z) (b : list Z) (j : Z) (n : Z) : res bool :=
  if (i <? 0) || (zlen a <? i) || (j <? 0) || (zlen b <? j) then Undef
  else Ok (same_n (Z.to_nat n) (skipn (Z.to_nat i) a) (skipn (Z.to_nat j) b)).

(** zcopyRecord.c:105-138: is a time series record copied as it is?  As in the code, the offset computed from the new
    name is used in the old one and the other way round. *)
Definition series_internal (from to : list Z) : res bool :=
  let* r := zpathnamePartPositions to (repeat 0 7) 7 in
  let* p3 := aget (snd r) 3 in let* p4 := aget (snd r) 4 in let* p5 := aget (snd r) 5 in
  let* min := (if p5 - p4 - 1 <? 6 then strncmp_at to (p5 - 4) [77; 73; 78; 47] 0 4 else Ok false) in
  if min then Ok false
  else
    let* q := zpathnamePartPositions from (repeat 0 7) 7 in
    let* q3 := aget (snd q) 3 in let* q5 := aget (snd q) 5 in
    if negb (p5 - p3 =? q5 - q3) then Ok false
    else
      let* same := strncmp_at from p3 to q3 (p5 - p3) in
      Ok (same && negb (pathnameIsElevTsOrPd from && pathnameIsElevTsOrPd to)).

(** zreadInfo followed by the copy (zcopyRecord.c:149-153, zduplicateRecord.c:53-56); [s]: the source file, [t]: the
    target. *)
Definition copy_found (c : cfg) (s : st) (c' : cfg) (ev : env) (from to : list Z) (t : st) : ans :=
  match zreadInfo c from 0 s with
  | OK true s1 => answer (copy_internal c' ev false (i_info (s_ifl s1)) s1 to t) (fun _ => Done)
  | OK false _ => Answer (Found false) t
  | ERR _ => Answer Refused t
  | UB => Undefined
  end.

(** zcopyRecord.c:49-284, two files of version 7 (zdataType.c:54-101: the type in the directory; for a name that is not
    found, a type made from the E part: Elsewhere). *)
Definition zcopyRecord (c : cfg) (s : st) (c' : cfg) (ev : env) (from to : list Z) (t : st) : ans :=
  match zcheck c from s with
  | UB => Undefined
  | ERR _ => Answer Refused t
  | OK false _ => Elsewhere
  | OK true s1 =>
      let type := fst (i8toi4 false (i_typeCat (s_ifl s1))) in
      if type <? 0 then Answer Refused t
      else if (100 <=? type) && (type <? 200) then
        match series_internal from to with
        | Ok true => copy_found c s1 c' ev from to t
        | Ok false => Elsewhere
        | Undef => Undefined
        end
      else if (200 <=? type) && (type <? 300) && pathnameIsElevPd from && pathnameIsElevPd to then Elsewhere
      else copy_found c s1 c' ev from to t
  end.

(** zduplicateRecord.c:46-58. *)
Definition zduplicateRecord (c : cfg) (ev : env) (from to : list Z) (s : st) : ans :=
  if pathnameIsElevTsOrPd from && pathnameIsElevTsOrPd to then Elsewhere
  else
    match zreadInfo c from 0 s with
    | OK true s1 => answer (copy_internal c ev true (i_info (s_ifl s1)) s1 to s1) (fun _ => Done)
    | OK false s1 => Answer (Found false) s1
    | ERR s1 => Answer Refused s1
    | UB => Undefined
    end.

(** zcopyFile.c:63-229 into a file of version 7 that may hold records: every record found in the words of the file, in
    that order, the first error ends the call.  [copy_all]: SqueezeModel.v. *)
Definition zcopyFile (c' : cfg) (ev : env) (s t : st) : ans := answer (copy_all c' ev s (found_headers s) t) (fun _ => Done).
