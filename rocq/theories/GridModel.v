(** * Model of grid records: Public/zspatialGridStore.c, zspatialGridRetrieve.c, zstructSpatialGridNew.c, zlibcompress.c, and the calls
      hec_dss_gridStore and hec_dss_gridRetrieve of hecdss.c (no proofs here).

    Not modelled: zlib itself (it is the two functions [deflate] and [inflate], arguments of everything below), files of version 6,
    failing allocations, big-endian machines, the dates of the record kept for the catalogue (zspatialGridStore.c:320-339), null structs. *)
From Coq Require Import ZArith List Bool.
From Verif Require Import Base ArrayLib PackModel CStr FileModel FileSpec TextModel HecModel LocModel.
Import ListNotations.
Open Scope Z_scope.
Open Scope res_scope.

(** headers/zStructSpatialGrid.h:112-190 : a float is one word; a text is a buffer with its NUL; [None] is a null pointer *)
Record grid := mkgrid {
  g_sv : Z; g_type : Z; g_version : Z; g_dtype : Z; g_llx : Z; g_lly : Z; g_nx : Z; g_ny : Z; g_comp : Z; g_csize : Z; g_nr : Z;
  g_srstype : Z; g_tzoff : Z; g_interval : Z; g_stamped : Z; g_storage : Z;
  g_units : option (list Z); g_source : option (list Z); g_srsname : option (list Z); g_srsdef : option (list Z); g_tzid : option (list Z);
  g_cell : Z; g_x0 : Z; g_y0 : Z; g_null : Z;
  g_min : option Z; g_max : option Z; g_mean : option Z; g_limits : option (list Z); g_counts : option (list Z); g_data : option (list Z) }.
Definition g_texts (g : grid) : list (option (list Z)) := [g_units g; g_source g; g_srsname g; g_srsdef g; g_tzid g].
(** zStructSpatialGrid.h:39-62 : NO_COMPRESSION, ZLIB_COMPRESSION, GRID_FLOAT, VERSION_100 *)
Definition NO_COMPRESSION : Z := 1.
Definition ZLIB_COMPRESSION : Z := 26.
Definition GRID_FLOAT : Z := 0.
Definition VERSION_100 : Z := -100.
(** zstructSpatialGridNew.c:38-53 : calloc, and the version of the struct *)
Definition new_grid : grid :=
  mkgrid VERSION_100 0 0 0 0 0 0 0 0 0 0 0 0 0 0 0 None None None None None 0 0 0 0 None None None None None None.

Section Zlib.
(** zlibcompress.c:17-41 compress_zlib : the compressed bytes, [None] when -1 is returned *)
Variable deflate : list Z -> option (list Z).
(** zlibcompress.c:43-64 uncompress_zlib : the bytes decompressed, at most as many as there is room for; [None] when -1 is returned *)
Variable inflate : list Z -> Z -> option (list Z).

(** *** Store *)

(** zspatialGridStore.c:129-154 : bytes for the texts and their NULs *)
Fixpoint texts_size (l : list (option (list Z))) : res Z :=
  match l with
  | [] => Ok 0
  | t :: r =>
      let* n := (match t with None => Ok 0 | Some b => let* s := cstr b in Ok (slen s) end) in
      let* m := texts_size r in Ok (n + 1 + m)
  end.
(** zspatialGridStore.c:159-189 : each text and a NUL; the size handed to stringCopy is that of the whole buffer *)
Fixpoint put_texts (l : list (option (list Z))) (str : list Z) (count total : Z) : res (list Z) :=
  match l with
  | [] => Ok str
  | t :: r =>
      let* '(str, count) :=
        (match t with
         | None => Ok (str, count)
         | Some b =>
             let* s := cstr b in
             let* '(d, _) := stringCopy (sdrop count str) total s (Some (slen s)) in
             Ok (stake count str ++ d, count + slen s)
         end) in
      let* str := aset str count 0 in
      put_texts r str (count + 1) total
  end.
(** zspatialGridStore.c:129-198 : header2 *)
Definition texts_words (l : list (option (list Z))) : res (list Z) :=
  let* n := texts_size l in
  let* total := chk32 n in
  let* str := put_texts l (repeat 0 (Z.to_nat total)) 0 total in
  to_ints str total.
(** a null pointer read *)
Definition deref {A} (p : option A) : res A := match p with Some v => Ok v | None => Undef end.
(** convertDataArray of [n] words from a pointer, at [n = 0] the pointer is not read *)
Definition words_at (n : Z) (p : option (list Z)) : res (list Z) :=
  if n <=? 0 then Ok [] else let* l := deref p in read_loop (Z.to_nat n) l 0.
(** zspatialGridStore.c:220-228 : values1; a negative number of ranges writes outside of the array *)
Definition stats_words (g : grid) : res (list Z) :=
  let* _ := chk32 (g_nr g * 2 + 3) in
  if g_nr g <? 0 then Undef else
  let* a := deref (g_min g) in
  let* b := deref (g_max g) in
  let* c := deref (g_mean g) in
  let* l := words_at (g_nr g) (g_limits g) in
  let* n := words_at (g_nr g) (g_counts g) in
  Ok (a :: b :: c :: l ++ n).
(** zspatialGridStore.c:236-239, zspatialGridRetrieve.c:325-326 : number of cells, and of longs for them *)
Definition data_size (g : grid) : res (Z * Z) :=
  let* n := chk32 (g_nx g * g_ny g) in
  Ok (n, Z.quot (n - 1) 2 + 1).
(** zspatialGridStore.c:238-239 : the cells, and a zero when their number is odd (two when there are none) *)
Definition cell_words (g : grid) : res (list Z) :=
  let* '(n, longs) := data_size g in
  let* _ := chk32 (n * 4) in
  if n <? 0 then Undef else
  let* l := words_at n (g_data g) in
  Ok (l ++ repeat 0 (Z.to_nat (longs * 2 - n))).
(** zspatialGridStore.c:229-305 : the number of bytes stored, and values3.  None: the call fails. *)
Definition data_words (g : grid) (pre : Z) : res (option (Z * list Z)) :=
  if negb (pre =? 0) then
    let* w := words_at (numberIntsInBytes pre) (g_data g) in Ok (Some (pre, w))
  else
    let* w := cell_words g in
    if g_comp g =? NO_COMPRESSION then
      let* '(n, _) := data_size g in Ok (Some (n * 4, w))
    else if g_comp g =? ZLIB_COMPRESSION then
      let* _ := chk32 (zlen w * 4) in
      match deflate (bytes_of_ints w) with
      | None => Ok None
      | Some z => if slen z <=? 0 then Ok None else let* v := to_ints z (slen z) in Ok (Some (slen z, v))
      end
    else Ok None.
(** zspatialGridStore.c:108-123, 230-291 : the internal header, 24 ints *)
Definition grid_header (g : grid) (csize : Z) : list Z :=
  [g_sv g; g_type g; g_version g; g_dtype g; g_llx g; g_lly g; g_nx g; g_ny g; g_comp g; csize; g_nr g; g_srstype g; g_tzoff g;
   g_interval g; g_stamped g; g_storage g; 0; 0; 0; 0; 0; 0; 0; 0].
(** zspatialGridStore.c:54-368, zspatialGridStore_extended up to the call of zwrite.  None: the call fails. *)
Definition zspatialGridStore_request (path : list Z) (g : grid) (pre : Z) : res (option xfer) :=
  let* h2 := texts_words (g_texts g) in
  if negb (g_storage g =? GRID_FLOAT) then Ok None else
  let* v1 := stats_words g in
  let* d := data_words g pre in
  match d with
  | None => Ok None
  | Some (csize, v3) =>
      Ok (Some (mkxfer path (g_type g) (grid_header g csize) h2 [g_cell g; g_x0 g; g_y0 g; g_null g; 0; 0; 0; 0; 0; 0; 0] v1 [] v3 0 0 0 0))
  end.

(** *** Retrieve *)

(** zspatialGridRetrieve.c:267-287 : [n] texts from [count] on; the next one starts after the length of the copy *)
Fixpoint get_texts (n : nat) (str : list Z) (count : Z) : res (list (list Z)) :=
  match n with
  | O => Ok []
  | S m =>
      let* b := mallocAndCopy (sdrop count str) in
      let* s := cstr b in
      let* r := get_texts m str (count + slen s + 1) in Ok (b :: r)
  end.
(** zspatialGridRetrieve.c:303-319 : min, max, mean, limits, counts *)
Definition stats_back (nr : Z) (v1 : list Z) : res (option Z * option Z * option Z * option (list Z) * option (list Z)) :=
  if zlen v1 =? 0 then Ok (None, None, None, None, None) else
  let* a := aget v1 0 in
  let* b := aget v1 1 in
  let* c := aget v1 2 in
  let* l := read_loop (Z.to_nat nr) v1 3 in
  let* n := read_loop (Z.to_nat nr) v1 (nr + 3) in
  Ok (Some a, Some b, Some c, Some l, Some n).
(** zspatialGridRetrieve.c:324-379 : the cells.  None: the call fails.  Another compression method leaves them out. *)
Definition data_back (nx ny comp csize : Z) (v3 : list Z) : res (option (option (list Z))) :=
  if zlen v3 =? 0 then Ok (Some None) else
  let* n := chk32 (nx * ny) in
  let longs := Z.quot (n - 1) 2 + 1 in
  if comp =? NO_COMPRESSION then
    let* w := read_loop (Z.to_nat n) v3 0 in Ok (Some (Some w))
  else if comp =? ZLIB_COMPRESSION then
    let* room := chk32 (longs * 2 * 4) in
    if csize <? 0 then Undef else
    let* z := get_prefix csize (bytes_of_ints v3 ++ repeat 0 8) in
    match inflate z room with
    | None => Ok None
    | Some out => Ok (Some (Some (ints_of_bytes (Z.to_nat (longs * 2)) (out ++ repeat 0 (Z.to_nat room)))))
    end
  else Ok (Some None).
(** zspatialGridRetrieve.c:158-402 into a struct from zstructSpatialGridNew; [want]: the cells are asked for.  None: the call fails.
    Of the internal header, field 2 (the version) is not read. *)
Definition zspatialGridRetrieve_answer (want : bool) (ct : option content) : res (option grid) :=
  match ct with
  | None => Ok None
  | Some ct =>
      if (ct_type ct <? 400) || (ct_type ct >? 431) then Ok None else
      let* h := read_loop 16 (ct_ih ct) 0 in
      match h with
      | [sv; ty; _; dtype; llx; lly; nx; ny; comp; csize; nr; srstype; tzoff; interval; stamped; storage] =>
          if negb (sv =? VERSION_100) then Ok None else
          if zlen (ct_h2 ct) =? 0 then Undef else
          let* texts := get_texts 5 (bytes_of_ints (ct_h2 ct) ++ repeat 0 8) 0 in
          match texts with
          | [units; source; srsname; srsdef; tzid] =>
              let* f := (if zlen (ct_uh ct) =? 0 then Ok [0; 0; 0; 0] else read_loop 4 (ct_uh ct) 0) in
              match f with
              | [cell; x0; y0; null] =>
                  if negb (storage =? GRID_FLOAT) then Ok None else
                  let* '(a, b, c, l, n) := stats_back nr (ct_v1 ct) in
                  let* d := data_back nx ny comp csize (if want then ct_v3 ct else []) in
                  match d with
                  | None => Ok None
                  | Some data =>
                      Ok (Some (mkgrid sv ty 0 dtype llx lly nx ny comp csize nr srstype tzoff interval stamped storage
                        (Some units) (Some source) (Some srsname) (Some srsdef) (Some tzid) cell x0 y0 null a b c l n data))
                  end
              | _ => Undef
              end
          | _ => Undef
          end
      | _ => Undef
      end
  end.
(** zspatialGridRetrieve.c:44-112 : zspatialGridRetrieveVersion *)
Definition zspatialGridRetrieveVersion_answer (ct : option content) : res (option Z) :=
  match ct with
  | None => Ok None
  | Some ct => let* v := aget (ct_ih ct) 0 in Ok (Some (if v <? 0 then - v else 0))
  end.

(** *** hecdss.c *)

(** hecdss.c:772-842 : [ints] gridType .. isTimeStamped, [floats] cellSize .. nullValue, then max, min, mean *)
Definition hec_dss_gridStore_request (path : list Z) (ty dtype llx lly nx ny nr srstype tzoff interval stamped : Z) (csize : Z)
  (units source srsname srsdef tzid : list Z) (cell x0 y0 null max min mean : Z) (limits counts data : option (list Z)) : res (option xfer) :=
  let* units := mallocAndCopy units in
  let* source := mallocAndCopy source in
  let* srsname := mallocAndCopy srsname in
  let* srsdef := mallocAndCopy srsdef in
  let* tzid := mallocAndCopy tzid in
  zspatialGridStore_request path (mkgrid VERSION_100 ty 0 dtype llx lly nx ny ZLIB_COMPRESSION 0 nr srstype tzoff interval stamped GRID_FLOAT
    (Some units) (Some source) (Some srsname) (Some srsdef) (Some tzid) cell x0 y0 null (Some min) (Some max) (Some mean) limits counts data) csize.
(** hecdss.c:719-733 : a text into a buffer of the caller, with the size given *)
Definition texts_out (l : list (option (list Z))) (bufs : list (list Z * Z)) : res (list (list Z)) :=
  (fix go l bufs := match l, bufs with
     | t :: l, (b, n) :: bufs => let* r := text_out b n t in let* q := go l bufs in Ok (r :: q)
     | _, _ => Ok []
     end) l bufs.
(** what hec_dss_gridRetrieve gives back: 11 ints, 5 texts, 4 floats, and when the cells are asked for [max; min; mean] and three arrays *)
Record grid_out := mkout { go_ints : list Z; go_texts : list (list Z); go_floats : list Z; go_stats : list Z;
  go_limits : list Z; go_counts : list Z; go_data : list Z }.
(** hecdss.c:685-763 : None: the call fails.  [old]: what the three numbers and the arrays held. *)
Definition hec_dss_gridRetrieve_answer (want : bool) (ct : option content) (texts : list (list Z * Z)) (stats limits : list Z) (nlim : Z) (counts : list Z)
  (data : list Z) (ndata : Z) : res (option grid_out) :=
  let* r := zspatialGridRetrieve_answer want ct in
  match r with
  | None => Ok None
  | Some g =>
      let* t := texts_out (g_texts g) texts in
      let ints := [g_type g; g_dtype g; g_llx g; g_lly g; g_nx g; g_ny g; g_nr g; g_srstype g; g_tzoff g; g_interval g; g_stamped g] in
      let floats := [g_cell g; g_x0 g; g_y0 g; g_null g] in
      if negb (want && (g_storage g =? GRID_FLOAT)) then Ok (Some (mkout ints t floats stats limits counts data)) else
      let* a := deref (g_max g) in
      let* b := deref (g_min g) in
      let* c := deref (g_mean g) in
      let n := Z.max 0 (if g_nr g >? nlim then nlim else g_nr g) in
      let* lw := words_at n (g_limits g) in
      let* limits := copy_loop (Z.to_nat n) lw 0 limits 0 in
      let* cw := words_at n (g_counts g) in
      let* counts := copy_loop (Z.to_nat n) cw 0 counts 0 in
      let* size := chk32 (g_nx g * g_ny g) in
      let m := Z.max 0 (if size >? ndata then ndata else size) in
      let* dw := words_at m (g_data g) in
      let* data := copy_loop (Z.to_nat m) dw 0 data 0 in
      Ok (Some (mkout ints t floats [a; b; c] limits counts data))
  end.
End Zlib.
