(** * Model of aliases: further pathnames of a record (zaliasAdd, zaliasRemove, zaliasRemoveAll, zaliasList, zaliasNumber,
    zaliasGetPrimary) and of zcheck, zread, zwrite, zdelete and zrename on a file with aliases.
    The file is modelled at the level of its blocks: a cell is one entry of a pathname bin or one info block (with the
    record's data), addresses are names of cells (0 is no address); the words inside a block are those of FileModel.v.
    Not modelled: reuse of released space (zreclaimSet NONE), locking, undelete, time-series names, header counters
    other than those needed, and names longer than 392 bytes. *)
From Coq Require Import ZArith List Lia Bool.
From Verif Require Import Base PackModel HashModel FileModel.
Import ListNotations.
Open Scope Z_scope.

(** zStructRecord words of a bin entry (zdssBinKeys): hash, status, number of characters, words of text, info address. *)
Record entry := mkent { t_hash : Z; t_status : Z; t_len : Z; t_size : Z; t_info : Z; t_name : list Z }.
(** Info block (zdssInfoKeys): status, hash, pathname, kinfoAliasesBinAddress, data type; [n_room] is the size in ints of the
    data area (zwriteExisting.c:255-259), [n_data] the data. *)
Record info := mkinf { n_status : Z; n_hash : Z; n_name : list Z; n_head : Z; n_type : Z; n_room : Z; n_data : list Z }.
Inductive cell := Free | Ent (e : entry) | Inf (n : info).

(** [d_isize]: words of a bin; [d_grow]: size given to a record of the size given (zwriteNew.c, zwriteExisting.c:299-353). *)
Record dcfg := mkdcfg { d_detune : bool; d_maxHash : Z; d_isize : Z; d_grow : Z -> Z }.
(** zhash.c:63-219: table index and pathname hash. *)
Definition hashes (c : dcfg) (p : list Z) : Z * Z := match zhash (d_detune c) (d_maxHash c) p with Ok x => x | _ => (0, 0) end.

(** Cells; for every table index the chain of its bins (each the addresses of its entries, in order); next free address;
    the words of ifltab used: kbinStatus, kpathBinAddress, kaddInfoLastPath, kpathnameHash, klenLastPath, ktableHash. *)
Record ast := mka { a_mem : Z -> cell; a_dir : Z -> list (list Z); a_next : Z;
  a_stat : Z; a_bin : Z; a_info : Z; a_hash : Z; a_len : Z; a_table : Z }.
Definition set_mem (a : Z) (x : cell) (s : ast) : ast :=
  mka (fun k => if k =? a then x else a_mem s k) (a_dir s) (a_next s) (a_stat s) (a_bin s) (a_info s) (a_hash s) (a_len s) (a_table s).
Definition set_stat (v : Z) (s : ast) : ast := mka (a_mem s) (a_dir s) (a_next s) v (a_bin s) (a_info s) (a_hash s) (a_len s) (a_table s).
Definition set_addr (v : Z) (s : ast) : ast := mka (a_mem s) (a_dir s) (a_next s) (a_stat s) (a_bin s) v (a_hash s) (a_len s) (a_table s).
Definition set_hit (a : Z) (e : entry) (s : ast) : ast :=
  mka (a_mem s) (a_dir s) (a_next s) (t_status e) a (t_info e) (a_hash s) (a_len s) (a_table s).
Definition set_key (h : Z * Z) (len : Z) (s : ast) : ast :=
  mka (a_mem s) (a_dir s) (a_next s) (a_stat s) (a_bin s) 0 (snd h) len (fst h).
(** kaddInfoLastPath and kpathnameHash set to 0. *)
Definition forget (s : ast) : ast := mka (a_mem s) (a_dir s) (a_next s) (a_stat s) (a_bin s) 0 0 (a_len s) (a_table s).

(** Result of a call: a value, an error status, or behaviour outside the model (a word read as what it is not). *)
Inductive out (A : Type) := Val (x : A) (s : ast) | Err (s : ast) | Bad.
Arguments Val {A}. Arguments Err {A}. Arguments Bad {A}.
Definition P (A : Type) := ast -> out A.
Definition retP {A} (x : A) : P A := fun s => Val x s.
Definition errP {A} : P A := fun s => Err s.
Definition badP {A} : P A := fun _ => Bad.
Definition bindP {A B} (m : P A) (f : A -> P B) : P B :=
  fun s => match m s with Val x s' => f x s' | Err s' => Err s' | Bad => Bad end.
Definition getP : P ast := fun s => Val s s.
Definition modP (f : ast -> ast) : P unit := fun s => Val tt (f s).
Notation "x <~ m ;; f" := (bindP m (fun x => f)) (at level 61, m at next level, right associativity).
Notation "m ;;~ f" := (bindP m (fun _ => f)) (at level 61, right associativity).

(** ** Look-up *)

(** zcheckInternal.c:329-343: the entry is for this pathname (status not looked at). *)
Definition hits (h : Z) (p : list Z) (e : entry) : bool :=
  (t_hash e =? h) && (t_len e =? zlen p) && string_compare (length p) p (t_name e).
(** zcheckInternal.c:379-389: an entry of this status ends the search. *)
Definition wanted_ok (stt wanted : Z) : bool := zcompareRecordStatus stt wanted || ((stt =? 2) && negb (wanted =? 2)).
(** zcheckInternal.c:258-432. *)
Fixpoint scan (h : Z) (p : list Z) (wanted : Z) (l : list Z) (s : ast) : out bool :=
  match l with
  | [] => Val false s
  | a :: t => match a_mem s a with
              | Ent e => if hits h p e then let s' := set_hit a e s in
                                            if wanted_ok (t_status e) wanted then Val true s' else scan h p wanted t s'
                         else scan h p wanted t s
              | _ => Bad
              end
  end.
(** zcheckInternal.c:444-475, zaliasGetPrimary.c:98-120: from a bin entry to the info block; None: a loop (no fuel) or
    something that is no block; Some None: an entry that is no alias. *)
Fixpoint follow (fuel : nat) (m : Z -> cell) (a : Z) : option (option Z) :=
  match fuel with
  | O => None
  | S f => match m a with
           | Inf _ => Some (Some a)
           | Ent e => if t_status e =? 2 then follow f m (t_info e) else Some None
           | Free => None
           end
  end.
Definition fuel_of (s : ast) : nat := Z.to_nat (a_next s + 1).
Definition followP (a : Z) : P Z :=
  fun s => match follow (fuel_of s) (a_mem s) a with None => Bad | Some None => Err s | Some (Some b) => Val b s end.
(** zcheckInternal.c:122-495.  The shortcut of lines 141-193 is never taken: it compares the pathname with words of ifltab. *)
Definition check (c : dcfg) (p : list Z) (wanted : Z) : P bool :=
  modP (set_key (hashes c p) (zlen p)) ;;~
  s <~ getP ;;
  found <~ scan (a_hash s) p wanted (concat (a_dir s (a_table s))) ;;
  s <~ getP ;;
  (if (found : bool) && negb (zcompareRecordStatus (a_stat s) wanted) && (a_stat s =? 2) && negb (wanted =? 2)
   then a <~ followP (a_info s) ;; modP (set_addr a) else retP tt) ;;~
  retP found.
(** zaliasGetPrimary.c:51-156: the primary pathname. *)
Definition get_primary (c : dcfg) (p : list Z) : P (list Z) :=
  _ <~ check c p 0 ;;
  modP (set_addr 0) ;;~
  found <~ check c p 0 ;;
  if negb found then errP else
  s <~ getP ;;
  if negb (a_stat s =? 2) then retP p else
  a <~ followP (a_info s) ;;
  modP (set_addr a) ;;~
  fun s => match a_mem s a with Inf n => Val (n_name n) s | _ => Bad end.
(** zreadInfo.c:106-213: the info block, if found.  Word 3 of a bin entry read as an info block is its info address. *)
Definition read_info (c : dcfg) (p : list Z) (wanted : Z) : P (option info) :=
  found <~ check c p wanted ;;
  s <~ getP ;;
  found <~ (if a_stat s =? 2 then path <~ get_primary c p ;; check c path wanted else retP found) ;;
  if negb (found : bool) then retP None else
  fun s => match a_mem s (a_info s) with
           | Inf n => Val (if n_hash n =? a_hash s then Some n else None) s
           | Ent e => if t_info e =? a_hash s then Bad else Val None s
           | Free => Bad
           end.

(** ** A new entry *)

(** zcheckInternal.c:402-412: the first bin with a deleted entry that has room. *)
Fixpoint bin_with_space (m : Z -> cell) (size : Z) (bins : list (list Z)) : option nat :=
  match bins with
  | [] => None
  | b :: t => if existsb (fun a => match m a with Ent e => (t_status e =? 11) && (size <=? t_size e) | _ => false end) b
              then Some O else option_map S (bin_with_space m size t)
  end.
(** zbinUpdate.c:173-292: place in the bin.  Either an entry that is overwritten, or none (the end of the bin). *)
Fixpoint slot_in (m : Z -> cell) (recovered : bool) (size h : Z) (p : list Z) (b : list Z) : option Z :=
  match b with
  | [] => None
  | a :: t => match m a with
              | Ent e => if (recovered && ((t_status e =? 11) || (t_status e =? 12)) && (t_size e =? size)) || hits h p e
                         then Some a else slot_in m recovered size h p t
              | _ => slot_in m recovered size h p t
              end
  end.
(** zbinUpdate.c:232-245: the entry fits behind the entries of the bin. *)
Definition fits (m : Z -> cell) (isize size : Z) (b : list Z) : bool :=
  7 + size + fold_right (fun a n => match m a with Ent e => 7 + t_size e + n | _ => n end) 0 b + 1 <? isize.
(** zbinUpdate.c:79-301, with zbinNew for a full bin (a bin that is not the last loses its successors) and for an empty
    chain (zwriteNew.c:166-180). *)
Definition bin_update (c : dcfg) (p : list Z) (address status : Z) : P unit :=
  fun s =>
    let m := a_mem s in let bins := a_dir s (a_table s) in
    let size := numberLongsInBytes (a_len s) in
    let e := mkent (a_hash s) status (a_len s) size address p in
    let rec := bin_with_space m size bins in
    let n := match rec with Some n => n | None => pred (length bins) end in
    let b := nth n bins [] in
    let place a mem dir next := Val tt (mka (fun k => if k =? a then Ent e else mem k) dir next (a_stat s) a address (a_hash s) (a_len s) (a_table s)) in
    let dir bs := fun t => if t =? a_table s then bs else a_dir s t in
    match slot_in m (match rec with Some _ => true | None => false end) size (a_hash s) p b with
    | Some a => place a m (a_dir s) (a_next s)
    | None => let a := a_next s in
              if fits m (d_isize c) size b && negb (length bins =? 0)%nat
              then place a m (dir (firstn n bins ++ [b ++ [a]] ++ skipn (S n) bins)) (a + 1)
              else place a m (dir (firstn (S n) bins ++ [[a]])) (a + 1)
    end.

(** ** The calls *)

Definition put_entry (a : Z) (f : entry -> entry) : P unit :=
  fun s => match a_mem s a with Ent e => Val tt (set_mem a (Ent (f e)) s) | _ => Bad end.
Definition put_info (a : Z) (n : info) : P unit := modP (set_mem a (Inf n)).
Definition with_head (h : Z) (n : info) : info := mkinf (n_status n) (n_hash n) (n_name n) h (n_type n) (n_room n) (n_data n).
Definition with_istatus (v : Z) (n : info) : info := mkinf v (n_hash n) (n_name n) (n_head n) (n_type n) (n_room n) (n_data n).
Definition with_tstatus (v : Z) (e : entry) : entry := mkent (t_hash e) v (t_len e) (t_size e) (t_info e) (t_name e).
Definition with_tinfo (v : Z) (e : entry) : entry := mkent (t_hash e) (t_status e) (t_len e) (t_size e) v (t_name e).
(** zaliasRemove.c:143-166: status 13 and one character less. *)
Definition dead_alias (e : entry) : entry := mkent (t_hash e) 13 (t_len e - 1) (t_size e) (t_info e) (t_name e).

(** zaliasAdd.c:63-225. *)
Definition alias_add (c : dcfg) (primary alias : list Z) : P unit :=
  modP forget ;;~
  r <~ read_info c primary 1 ;;
  match r with
  | None => errP
  | Some n =>
      s <~ getP ;;
      let ia := a_info s in
      found <~ check c alias 0 ;;
      if (found : bool) then errP else
      bin_update c alias (if n_head n =? 0 then ia else n_head n) 2 ;;~
      s <~ getP ;;
      put_info ia (with_head (a_bin s) n) ;;~
      modP forget
  end.

(** zaliasRemove.c:204-268: unlink the entry at [target]; [prev] is the entry before [a]. *)
Fixpoint unlink (fuel : nat) (target prev a : Z) : P unit :=
  match fuel with
  | O => badP
  | S f => fun s =>
      match a_mem s a with
      | Inf _ => Val tt s
      | Free => Bad
      | Ent e => if negb (t_status e =? 2) then Err s
                 else if a =? target then (put_entry target dead_alias ;;~ put_entry prev (with_tinfo (t_info e))) s
                 else unlink f target a (t_info e) s
      end
  end.
(** zaliasRemove.c:53-287: false: not found. *)
Definition alias_remove (c : dcfg) (alias : list Z) : P bool :=
  modP (set_addr 0) ;;~
  found <~ check c alias 2 ;;
  if negb found then retP false else
  s <~ getP ;;
  let target := a_bin s in let inBin := a_info s in
  r <~ read_info c alias 100 ;;
  match r with
  | None => retP false
  | Some n =>
      s <~ getP ;;
      let ia := a_info s in let head := n_head n in
      if head =? 0 then retP false else
      (if (head =? target) && (inBin =? ia) then put_info ia (with_head 0 n) ;;~ put_entry target dead_alias
       else if head =? target then put_info ia (with_head inBin n) ;;~ put_entry target dead_alias
       else unlink (fuel_of s) target head head) ;;~
      retP true
  end.

(** zaliasRemoveAll.c:126-178: mark the entries from [a] on; result: how many. *)
Fixpoint kill_all (fuel : nat) (ia a : Z) (k : Z) : P Z :=
  match fuel with
  | O => badP
  | S f => fun s =>
      match a_mem s a with
      | Inf _ => Val k s
      | Free => Bad
      | Ent e => if negb (t_status e =? 2) then Err s
                 else (put_entry a dead_alias ;;~
                       if t_info e =? ia then retP (k + 1) else kill_all f ia (t_info e) (k + 1)) s
      end
  end.
(** zaliasRemoveAll.c:52-195: None: not found. *)
Definition alias_remove_all (c : dcfg) (p : list Z) : P (option Z) :=
  r <~ read_info c p 100 ;;
  match r with
  | None => retP None
  | Some n =>
      s <~ getP ;;
      let ia := a_info s in
      if n_head n =? 0 then retP None else
      put_info ia (with_head 0 n) ;;~
      s <~ getP ;;
      k <~ kill_all (fuel_of s) ia (n_head n) 0 ;;
      retP (Some k)
  end.

(** zaliasNumber.c:85-112 and zaliasList.c:130-180: the alias entries from [a] on. *)
Fixpoint aliases_from (fuel : nat) (m : Z -> cell) (ia a : Z) : option (option (list (list Z))) :=
  match fuel with
  | O => None
  | S f => match m a with
           | Inf _ => Some (Some [])
           | Free => None
           | Ent e => if negb (t_status e =? 2) then Some None
                      else let name := firstn (Z.to_nat (t_len e)) (t_name e) in
                           if t_info e =? ia then Some (Some [name])
                           else option_map (option_map (cons name)) (aliases_from f m ia (t_info e))
           end
  end.
Definition aliases_of (n : info) : P (list (list Z)) :=
  fun s => if n_head n =? 0 then Val [] s
           else match aliases_from (fuel_of s) (a_mem s) (a_info s) (n_head n) with
                | None => Bad | Some None => Err s | Some (Some l) => Val l s end.
(** zaliasNumber.c:47-119. *)
Definition alias_number (c : dcfg) (p : list Z) : P (option Z) :=
  r <~ read_info c p 0 ;;
  match r with None => retP None | Some n => l <~ aliases_of n ;; retP (Some (Z.of_nat (length l))) end.
(** zaliasList.c:70-189: the primary pathname, then the aliases. *)
Definition alias_list (c : dcfg) (p : list Z) : P (option (list (list Z))) :=
  r <~ read_info c p 1 ;;
  match r with None => retP None | Some n => l <~ aliases_of n ;; retP (Some (n_name n :: l)) end.

(** zreadInternal.c (data type and data). *)
Definition read (c : dcfg) (p : list Z) : P (option (Z * list Z)) :=
  r <~ read_info c p 0 ;; retP (option_map (fun n => (n_type n, n_data n)) r).

(** zwriteInternal.c:322-350 with zwriteNew.c:166-330 and zwriteExisting.c:203-507. *)
Definition write (c : dcfg) (p : list Z) (type : Z) (data : list Z) : P unit :=
  r <~ read_info c p 0 ;;
  s <~ getP ;;
  match r with
  | None =>
      let ia := a_next s in
      modP (fun s => mka (a_mem s) (a_dir s) (ia + 1) (a_stat s) (a_bin s) (a_info s) (a_hash s) (a_len s) (a_table s)) ;;~
      bin_update c p ia 1 ;;~
      s <~ getP ;;
      put_info ia (mkinf 1 (a_hash s) p 0 type (Z.max (zlen data) (d_grow c (zlen data))) data)
  | Some n =>
      if negb (type_compatible (n_type n) type) then errP else
      modP (set_stat 1) ;;~
      if n_room n <? zlen data then
        put_info (a_info s) (with_istatus 10 n) ;;~
        let ia := a_next s in
        modP (fun s => mka (a_mem s) (a_dir s) (ia + 1) (a_stat s) (a_bin s) ia (a_hash s) (a_len s) (a_table s)) ;;~
        put_entry (a_bin s) (with_tinfo ia) ;;~
        put_info ia (mkinf 1 (n_hash n) (n_name n) (n_head n) type (Z.max (zlen data) (d_grow c (zlen data))) data)
      else put_info (a_info s) (mkinf (n_status n) (n_hash n) (n_name n) (n_head n) type (n_room n) data)
  end.

(** zdeleteInternal.c:57-287, boolUndelete 0.  Line 149: the status of zaliasRemoveAll is not looked at. *)
Definition delete (c : dcfg) (p : list Z) : P bool :=
  modP (set_addr 0) ;;~
  r <~ read_info c p 1 ;;
  match r with
  | None => modP forget ;;~ retP false
  | Some n =>
      n' <~ (if n_head n =? 0 then retP n
             else
               path <~ (fun s => match get_primary c p s with Err _ => Bad | o => o end) ;;
               (fun s => match alias_remove_all c p s with Val _ s' => Val tt s' | Err s' => Val tt s' | Bad => Bad end) ;;~
               modP (set_addr 0) ;;~
               r <~ read_info c path 1 ;;
               match r with Some n' => retP n' | None => badP end) ;;
      s <~ getP ;;
      put_entry (a_bin s) (with_tstatus 11) ;;~
      put_info (a_info s) (with_istatus 11 n') ;;~
      modP forget ;;~
      retP true
  end.

(** Public/zrename.c:58-410, names that differ otherwise than in case.  False: not found. *)
Definition rename (c : dcfg) (old new : list Z) : P bool :=
  let newPath := copy_path new in
  modP (set_addr 0) ;;~
  found <~ check c new 1 ;;
  ok <~ (if (found : bool) then delete c new else retP true) ;;
  if negb ok then errP else
  s <~ getP ;;
  let nNew := numberLongsInBytes (a_len s) in
  modP (set_addr 0) ;;~
  found <~ check c old 1 ;;
  if negb found then retP false else
  s <~ getP ;;
  let ia := a_info s in
  nOld <~ (fun s => match a_mem s (a_bin s) with Ent e => Val (t_size e) s | _ => Bad end) ;;
  put_entry (a_bin s) (with_tstatus 12) ;;~
  n <~ (fun s => match a_mem s ia with Inf n => Val n s | _ => Bad end) ;;
  (if nOld <? nNew then put_info ia (with_istatus 12 n) else retP tt) ;;~
  _ <~ check c newPath 1 ;;
  s <~ getP ;;
  let address := if nOld <? nNew then a_next s else ia in
  (if nOld <? nNew then modP (fun s => mka (a_mem s) (a_dir s) (a_next s + 1) (a_stat s) (a_bin s) (a_info s) (a_hash s) (a_len s) (a_table s))
   else retP tt) ;;~
  bin_update c newPath address 1 ;;~
  put_info address (mkinf 1 (a_hash s) newPath (n_head n) (n_type n) (n_room n) (n_data n)) ;;~
  retP true.

(** A new file, and the file opened again: cells and chains stay, the words of ifltab do not. *)
Definition new_dir : ast := mka (fun _ => Free) (fun _ => []) 1 0 0 0 0 0 0.
Definition reopened (s : ast) : ast := mka (a_mem s) (a_dir s) (a_next s) 0 0 0 0 0 0.
