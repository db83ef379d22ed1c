(** * Model of location records: Public/zlocationPath.c, zlocationStore.c, zlocationRetrieve.c, SemiPublic/zlocationStructValid.c, and
      the calls hec_dss_locationStore and hec_dss_locationRetrieve of hecdss.c (no proofs here).

    Not modelled: the bounding box kept in memory (zlocationUpdatePerm), null structs, files of version 6, failing allocations. *)
From Coq Require Import ZArith List Bool.
From Verif Require Import Base ArrayLib PackModel CStr PathModel FileModel FileSpec TextModel HecModel.
Import ListNotations.
Open Scope Z_scope.
Open Scope res_scope.

(** headers/zStructLocation.h : coordinates are doubles (two words); a text is a buffer with its NUL, [None] is null *)
Record location := mkloc { lc_x : Z * Z; lc_y : Z * Z; lc_z : Z * Z; lc_sys : Z; lc_id : Z; lc_hu : Z; lc_hd : Z; lc_vu : Z; lc_vd : Z;
  lc_tz : option (list Z); lc_sup : option (list Z) }.

(** "Location Info////" *)
Definition LOCATION_PATH : list Z := [76; 111; 99; 97; 116; 105; 111; 110; 32; 73; 110; 102; 111; 47; 47; 47; 47].
(** Public/zlocationPath.c:38-51; [junk] is what the uninitialised array holds *)
Definition zlocationPath (junk path : list Z) : res (list Z) :=
  let* '(_, positions) := zpathnamePartPositions path junk 7 in
  let* p2 := aget positions 2 in
  let* len := chk32 (p2 + slen LOCATION_PATH + 1) in
  if len <? 1 then Undef else
  Ok (stringCat_val len (stringCopy_val len path (Some p2)) LOCATION_PATH).

(** a double that is 0.0 or -0.0 *)
Definition is_zero (d : Z * Z) : bool := (fst d =? 0) && ((snd d =? 0) || (snd d =? -2147483648)).
(** SemiPublic/zlocationStructValid.c:32-60 *)
Definition zlocationStructValid (l : location) : res bool :=
  if negb (is_zero (lc_x l)) then Ok true
  else if negb (is_zero (lc_y l)) then Ok true
  else if negb (is_zero (lc_z l)) then Ok true
  else if negb (lc_hd l =? 0) then Ok true
  else if negb (lc_vd l =? 0) then Ok true
  else match lc_sup l with
       | Some _ => Ok true
       | None => match lc_tz l with
                 | None => Ok false
                 | Some b => let* s := cstr b in Ok (slen s >? 0)
                 end
       end.

(** zlocationStore.c:215-226 : the words added for the time zone name when there are [used] of 30 words in the array *)
Definition tz_words (used : Z) (tz : option (list Z)) : res (list Z) :=
  match tz with
  | None => Ok []
  | Some b =>
      let* s := cstr b in
      if slen s >? 0 then
        if numberIntsInBytes (slen s) + used <=? 30 then to_ints b (slen s) else Ok []
      else Ok []
  end.
(** zlocationStore.c:228-236 : words for the text and its NUL, zeros after it; the count 0 makes charInt take the length of the text,
    which is 0 too *)
Definition sup_words (sup : option (list Z)) : res (list Z) :=
  match sup with
  | None => Ok []
  | Some b => let* s := cstr b in to_ints (s ++ [0]) (slen s + 1)
  end.
(** zlocationStore.c:138-242 : the record to write.  None: nothing to store, the call succeeds. *)
Definition zlocationStore_request (junk path : list Z) (l : location) : res (option xfer) :=
  let* valid := zlocationStructValid l in
  if negb valid then Ok None else
  let* lp := zlocationPath junk path in
  let v := [fst (lc_x l); snd (lc_x l); fst (lc_y l); snd (lc_y l); fst (lc_z l); snd (lc_z l);
            lc_sys l; lc_id l; lc_hu l; lc_hd l; lc_vu l; lc_vd l] in
  let* tz := tz_words (zlen v) (lc_tz l) in
  let* sup := sup_words (lc_sup l) in
  Ok (Some (mkxfer lp 20 [] [] [] (v ++ tz) sup [] (zlen (v ++ tz)) 0 0 0)).
(** zlocationStore.c:114-261 : storageFlag 0 does not replace a record (zcheck, seen here as a read that finds one).  Result: the
    answer of the write, or Done. *)
Definition zlocationStore (c : cfg) (now : Z) (prog : Z * Z) (junk path : list Z) (l : location) (flag : Z) (s : st) : res (option (resp * st)) :=
  let* r := zlocationStore_request junk path l in
  match r with
  | None => Ok (Some (Done, s))
  | Some x =>
      let found := match exec c (Read (x_path x)) s with Some (Data (Some _), _) => true | _ => false end in
      if (flag =? 0) && found then Ok (Some (Done, s)) else Ok (exec c (Write now prog x) s)
  end.

(** zlocationRetrieve.c:165-223 into a struct that holds [l0]; [junk1] and [junk2]: what the last eight bytes of the two buffers hold.
    None: the call fails. *)
Definition zlocationRetrieve_answer (junk1 junk2 : list Z) (l0 : location) (ct : option content) : res (option location) :=
  match ct with
  | None => Ok None
  | Some ct =>
      let v := ct_v1 ct in
      if zlen v <? 6 then Ok None else
      let* c := read_loop 6 v 0 in
      match c with
      | [x1; x2; y1; y2; z1; z2] =>
          let* f := (if zlen v >=? 12 then read_loop 6 v 6 else Ok [lc_sys l0; lc_id l0; lc_hu l0; lc_hd l0; lc_vu l0; lc_vd l0]) in
          match f with
          | [sys; id; hu; hd; vu; vd] =>
              let tz := if zlen v >? 12 then Some (bytes_of_ints (skipn 12 v) ++ junk1) else lc_tz l0 in
              let sup := if zlen (ct_v2 ct) >? 0 then Some (bytes_of_ints (ct_v2 ct) ++ junk2) else lc_sup l0 in
              Ok (Some (mkloc (x1, x2) (y1, y2) (z1, z2) sys id hu hd vu vd tz sup))
          | _ => Undef
          end
      | _ => Undef
      end
  end.
(** a struct from zstructLocationNew *)
Definition new_location : location := mkloc (0, 0) (0, 0) (0, 0) 0 0 0 0 0 0 None None.

(** hecdss.c:483-511 *)
Definition hec_dss_locationStore (c : cfg) (now : Z) (prog : Z * Z) (junk path : list Z) (x y z : Z * Z) (sys id hu hd vu vd : Z) (tz sup : list Z)
  (replace : Z) (s : st) : res (option (resp * st)) :=
  let* t := mallocAndCopy tz in
  let* u := mallocAndCopy sup in
  zlocationStore c now prog junk path (mkloc x y z sys id hu hd vu vd (Some t) (Some u)) replace s.
(** hecdss.c:471-477 : a text of the struct into a buffer of the caller *)
Definition text_out (buf : list Z) (size : Z) (t : option (list Z)) : res (list Z) :=
  match t with
  | None => Ok buf
  | Some b => let* s := cstr b in let* '(r, _) := stringCopy buf size s (Some (slen s)) in Ok r
  end.
(** hecdss.c:450-481 : None: the call fails and nothing is given back *)
Definition hec_dss_locationRetrieve (junk1 junk2 : list Z) (ct : option content) (tz : list Z) (ntz : Z) (sup : list Z) (nsup : Z) :
  res (option ((Z * Z) * (Z * Z) * (Z * Z) * (Z * Z * Z * Z * Z * Z) * list Z * list Z)) :=
  let* r := zlocationRetrieve_answer junk1 junk2 new_location ct in
  match r with
  | None => Ok None
  | Some l =>
      let* t := text_out tz ntz (lc_tz l) in
      let* u := text_out sup nsup (lc_sup l) in
      Ok (Some (lc_x l, lc_y l, lc_z l, (lc_sys l, lc_id l, lc_hu l, lc_hd l, lc_vu l, lc_vd l), t, u))
  end.
