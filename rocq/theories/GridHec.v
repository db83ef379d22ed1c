(** * C56: the calls hec_dss_gridStore and hec_dss_gridRetrieve; examples; what goes wrong. *)
From Coq Require Import ZArith List Lia Bool ZifyBool.
From Verif Require Import Base ArrayLib PackModel CStr CStrProofs PathSpec FileModel FileSpec FileHistSpec FileProps FileRefute TextModel TextProps HecModel HecSpec HecProofs HecProps LocModel LocProps GridModel GridSpec GridProofs GridProps.
Import ListNotations.
Open Scope Z_scope.
Open Scope res_scope.

(** the buffers of the caller after the texts were copied: each text cut to the size of its buffer, a NUL, and what was there *)
Fixpoint texts_given (texts : list (list Z)) (bufs : list (list Z * Z)) : list (list Z) :=
  match texts, bufs with
  | s :: t, (b, n) :: r => overlay (stake (n - 1) s ++ [0]) b :: texts_given t r
  | _, _ => []
  end.
Lemma texts_out_ok fs texts : Forall2 shows fs texts -> forall bufs, Forall (fun p => 0 < snd p <= alen (fst p)) bufs -> texts_out fs bufs = Ok (texts_given texts bufs).
Proof.
  induction 1 as [|f s fs texts (b & -> & H) _ IH]; intros bufs HB; [destruct bufs; reflexivity|]. destruct HB as [|(buf & n) bufs B HB]; [reflexivity|]. cbn [fst snd] in B.
  cbn [texts_given]. change (texts_out (Some b :: fs) ((buf, n) :: bufs)) with (let* r := text_out buf n (Some b) in let* q := texts_out fs bufs in Ok (r :: q)).
  unfold text_out. rewrite H. cbn [bind]. destruct (stringCopy_overlay buf n s B) as (q & ->). cbn [bind]. rewrite IH by exact HB. reflexivity.
Qed.
Lemma copy_n (l : list Z) p total n buf : has p total l -> 0 <= n <= total -> n <= alen buf ->
  words_at n p = Ok (firstn (Z.to_nat n) l) /\ copy_loop (Z.to_nat n) (firstn (Z.to_nat n) l) 0 buf 0 = Ok (overlay (firstn (Z.to_nat n) l) buf).
Proof.
  intros (L & rest & ->) N B. split.
  - unfold words_at. destruct (n <=? 0) eqn:E; [replace n with 0 by lia; reflexivity|]. cbn [deref bind]. rewrite read_start by (unfold alen; rewrite app_length; lia).
    rewrite firstn_app. replace (Z.to_nat n - length l)%nat with 0%nat by lia. rewrite firstn_O, app_nil_r. reflexivity.
  - rewrite copy_start by (rewrite ?Z2Nat.id by lia; unfold alen in *; rewrite ?firstn_length; lia). rewrite firstn_firstn, Nat.min_id. reflexivity.
Qed.

(** A grid stored with hec_dss_gridStore (cells not compressed by the caller) and read with hec_dss_gridRetrieve: the eleven integers and four
    floats, the texts, the statistics, and as many limits, counts and cells as the buffers have room for; the rest of every buffer is as it was. *)
Theorem C56_interface_partial : forall deflate inflate path ty dtype llx lly nx ny nr srstype tzoff interval stamped s1 s2 s3 s4 s5 r1 r2 r3 r4 r5
  cell x0 y0 null max min mean plimits pcounts pdata limits counts cells z, lossless deflate inflate ->
  400 <= ty <= 431 -> 0 <= nr <= 1000000000 -> 0 <= nx -> 0 <= ny -> nx * ny <= 500000000 ->
  simple s1 -> simple s2 -> simple s3 -> simple s4 -> simple s5 -> Z.of_nat (length (concat [s1; s2; s3; s4; s5])) <= 2000000000 ->
  has_or_null plimits nr limits -> has_or_null pcounts nr counts -> has_or_null pdata (nx * ny) cells -> Forall word cells ->
  deflate (cell_bytes cells) = Some z -> z <> [] ->
  exists x, hec_dss_gridStore_request deflate path ty dtype llx lly nx ny nr srstype tzoff interval stamped 0
      (s1 ++ 0 :: r1) (s2 ++ 0 :: r2) (s3 ++ 0 :: r3) (s4 ++ 0 :: r4) (s5 ++ 0 :: r5) cell x0 y0 null max min mean plimits pcounts pdata = Ok (Some x) /\ x_path x = path /\
    forall bufs stats lbuf nlim cbuf dbuf ndata, Forall (fun p => 0 < snd p <= alen (fst p)) bufs -> 0 <= nlim <= alen lbuf -> nlim <= alen cbuf -> 0 <= ndata <= alen dbuf ->
      hec_dss_gridRetrieve_answer inflate true (Some (stored x)) bufs stats lbuf nlim cbuf dbuf ndata =
        Ok (Some (mkout [ty; dtype; llx; lly; nx; ny; nr; srstype; tzoff; interval; stamped] (texts_given [s1; s2; s3; s4; s5] bufs) [cell; x0; y0; null] [max; min; mean]
          (overlay (firstn (Z.to_nat nlim) limits) lbuf) (overlay (firstn (Z.to_nat nlim) counts) cbuf) (overlay (firstn (Z.to_nat ndata) cells) dbuf))) /\
      hec_dss_gridRetrieve_answer inflate false (Some (stored x)) bufs stats lbuf nlim cbuf dbuf ndata =
        Ok (Some (mkout [ty; dtype; llx; lly; nx; ny; nr; srstype; tzoff; interval; stamped] (texts_given [s1; s2; s3; s4; s5] bufs) [cell; x0; y0; null] stats lbuf cbuf dbuf)).
Proof.
  intros deflate inflate path ty dtype llx lly nx ny nr srstype tzoff interval stamped s1 s2 s3 s4 s5 r1 r2 r3 r4 r5
    cell x0 y0 null max min mean plimits pcounts pdata limits counts cells z LL TY NR NX NY NN S1 S2 S3 S4 S5 TL HL HC HD HW EZ NZ.
  unfold hec_dss_gridStore_request. rewrite !copy_pe by assumption. cbn [bind]. set (g := mkgrid _ _ _ _ _ _ _ _ _ _ _ _ _ _ _ _ _ _ _ _ _ _ _ _ _ _ _ _ _ _ _).
  assert (HT : forall s, simple s -> holds (Some (s ++ [0])) s) by (intros s H; split; [exact H|right; exists []; reflexivity]).
  assert (GI : grid_is g [s1; s2; s3; s4; s5] min max mean limits counts cells).
  { split; [|split; assumption]. unfold head_is. cbn [g_sv g_type g_storage g_nr g_nx g_ny g_min g_max g_mean g_limits g_counts g g_texts g_units g_source g_srsname g_srsdef g_tzid].
    repeat match goal with |- _ /\ _ => split end; try assumption; try reflexivity; try lia. repeat (constructor; [apply HT; assumption|]). constructor. }
  destruct (C56_request_partial deflate inflate path g _ _ _ _ _ _ _ LL GI) as (x & EX & PX & (ga & A1 & A2 & A3 & A4) & (gb & B1 & B2 & B3 & B4)); [right; split; [reflexivity|exists z; split; assumption]|].
  exists x. split; [exact EX|]. split; [exact PX|]. intros bufs stats lbuf nlim cbuf dbuf ndata HB BL BC BD.
  assert (INTS : forall g', same_grid g g' -> [g_type g'; g_dtype g'; g_llx g'; g_lly g'; g_nx g'; g_ny g'; g_nr g'; g_srstype g'; g_tzoff g'; g_interval g'; g_stamped g'] =
    [ty; dtype; llx; lly; nx; ny; nr; srstype; tzoff; interval; stamped] /\ [g_cell g'; g_x0 g'; g_y0 g'; g_null g'] = [cell; x0; y0; null] /\ g_storage g' = 0).
  { intros g' SG. unfold same_grid in SG. cbn [g_type g_dtype g_llx g_lly g_nx g_ny g_nr g_srstype g_tzoff g_interval g_stamped g_cell g_x0 g_y0 g_null g_storage g] in SG.
    decompose [and] SG. split; [congruence|]. split; [congruence|]. assumption. }
  split; unfold hec_dss_gridRetrieve_answer.
  - rewrite A1. cbn [bind]. destruct (INTS ga A2) as (-> & -> & ->). destruct A3 as (T1 & M1 & M2 & M3 & L1 & C1). rewrite (texts_out_ok _ _ T1 _ HB). cbn [bind].
    change (negb (true && (0 =? GRID_FLOAT))) with false. cbv iota. rewrite M1, M2, M3. cbn [deref bind].
    assert (N1 : g_nr ga = nr) by (unfold same_grid in A2; decompose [and] A2; assumption). assert (N2 : g_nx ga * g_ny ga = nx * ny) by (unfold same_grid in A2; decompose [and] A2; cbn in *; congruence).
    assert (LL' : Z.of_nat (length limits) = nr) by (destruct HL as [(L & _)|(L & -> & _)]; cbn; lia).
    assert (LC' : Z.of_nat (length counts) = nr) by (destruct HC as [(L & _)|(L & -> & _)]; cbn; lia).
    rewrite N1, N2. set (n := Z.max 0 (if nr >? nlim then nlim else nr)).
    assert (NE : n = Z.min nr nlim) by (unfold n; destruct (nr >? nlim) eqn:Q; lia). clearbody n.
    destruct (copy_n limits (g_limits ga) nr n lbuf) as (E1 & E2); [split; [exact LL'|exists []; rewrite app_nil_r; exact L1]|lia|lia|].
    destruct (copy_n counts (g_counts ga) nr n cbuf) as (E3 & E4); [split; [exact LC'|exists []; rewrite app_nil_r; exact C1]|lia|lia|].
    rewrite E1. cbn [bind]. rewrite E2. cbn [bind]. rewrite E3. cbn [bind]. rewrite E4. cbn [bind].
    assert (0 <= nx * ny) by (apply Z.mul_nonneg_nonneg; assumption). rewrite chk32_ok by (unfold in32, INT_MIN, INT_MAX; lia). cbn [bind].
    set (m := Z.max 0 (if nx * ny >? ndata then ndata else nx * ny)). assert (ME : m = Z.min (nx * ny) ndata) by (unfold m; destruct (nx * ny >? ndata) eqn:Q; lia). clearbody m.
    cbn [g_nx g_ny g] in A4. pose proof A4 as (LD & _). destruct (copy_n cells (g_data ga) (nx * ny) m dbuf A4) as (E5 & E6); [lia|lia|]. rewrite E5. cbn [bind]. rewrite E6. cbn [bind].
    assert (FN : forall (l : list Z) a b, a = Z.min (Z.of_nat (length l)) b -> 0 <= b -> firstn (Z.to_nat a) l = firstn (Z.to_nat b) l).
    { intros l a b -> B0. destruct (Z.le_gt_cases b (Z.of_nat (length l))); [f_equal; lia|]. rewrite !firstn_all2 by lia. reflexivity. }
    rewrite (FN limits n nlim), (FN counts n nlim), (FN cells m ndata) by lia. reflexivity.
  - rewrite B1. cbn [bind]. destruct (INTS gb B2) as (-> & -> & ->). destruct B3 as (T1 & _). rewrite (texts_out_ok _ _ T1 _ HB). cbn [bind]. reflexivity.
Qed.
Print Assumptions C56_interface_partial.

(** ** The hypotheses are met *)

(** a toy codec in place of zlib: a mark and the bytes in reverse *)
Definition toy_deflate (b : list Z) : option (list Z) := if forallb (fun x => (0 <=? x) && (x <? 256)) b then Some (120 :: rev b) else None.
Definition toy_inflate (z : list Z) (n : Z) : option (list Z) := match z with 120 :: r => if slen r <=? n then Some (rev r) else None | _ => None end.
Lemma toy_lossless : lossless toy_deflate toy_inflate.
Proof.
  intros b z. unfold toy_deflate. destruct (forallb _ b) eqn:E; [|discriminate]. intros H. injection H as <-. split.
  - constructor; [lia|]. apply Forall_rev. rewrite Forall_forall. rewrite forallb_forall in E. intros x I. specialize (E x I). lia.
  - cbn [toy_inflate]. unfold slen. rewrite rev_length. replace (_ <=? _) with true by lia. rewrite rev_involutive. reflexivity.
Qed.
(** 3 columns, 1 row, method [comp], units [u] *)
Definition rain (comp version : Z) (u : option (list Z)) : grid :=
  mkgrid (-100) 430 version 1 5 6 3 1 comp 0 2 1 7 1 1 0 u (Some [78; 87; 83; 0]) (Some [83; 72; 71; 0]) None (Some [85; 84; 67; 0]) 2000 0 0 9
    (Some 10) (Some 30) (Some 20) (Some [1; 2; 77]) (Some [3; 2]) (Some [10; 20; 30]).
Definition mm : list Z := [77; 77].
Example C56_record_example : forall comp, grid_is (rain comp 1 (Some (mm ++ [0]))) [mm; [78; 87; 83]; [83; 72; 71]; []; [85; 84; 67]] 10 30 20 [1; 2] [3; 2] [10; 20; 30].
Proof.
  intros comp. unfold rain, mm. split; [|split; [left; split; [reflexivity|exists []; reflexivity]|repeat constructor; unfold word; lia]].
  unfold head_is. cbn [g_sv g_type g_storage g_nr g_nx g_ny g_min g_max g_mean g_limits g_counts g_texts g_units g_source g_srsname g_srsdef g_tzid].
  repeat match goal with |- _ /\ _ => split end; try reflexivity; try lia; try (vm_compute; discriminate).
  - assert (P : forall s, s <> [] -> Forall (fun c => 1 <= c <= 127) s -> last s 0 <> 32 -> holds (Some (s ++ [0])) s) by (intros s A B C; split; [right; split; [|split]; assumption|right; exists []; reflexivity]).
    constructor; [|constructor; [|constructor; [|constructor; [|constructor; [|constructor]]]]].
    4: split; [left; reflexivity|left; split; reflexivity].
    all: cbn [app g_units g_source g_srsname g_srsdef g_tzid]; match goal with |- holds (Some ?b) ?s => change b with (s ++ [0]); apply P; [discriminate|repeat constructor; lia|cbn; lia] end.
  - left. split; [reflexivity|exists [77]; reflexivity].
  - left. split; [reflexivity|exists []; reflexivity].
Qed.
(** stored in a new file, another record written, then read in other letters; both methods *)
Definition grid_trip (g : grid) (want : bool) : res (option grid) :=
  let* r := zspatialGridStore_request toy_deflate (nm 65) g 0 in
  match r with
  | None => Ok None
  | Some x =>
      match exec cd (Write 4 (0, 0) x) (new_file cd) with
      | Some (Done, s2) => match exec cd (Write 4 (0, 0) (zarrayStore_request (nm 66) (mkarray [1] [] [] []))) s2 with
          | Some (Done, s3) => match exec cd (Read (nm 97)) s3 with Some (Data ct, _) => zspatialGridRetrieve_answer toy_inflate want ct | _ => Undef end
          | _ => Undef end
      | _ => Undef
      end
  end.
Definition rain_back (comp csize : Z) (data : option (list Z)) : grid :=
  mkgrid (-100) 430 0 1 5 6 3 1 comp csize 2 1 7 1 1 0 (Some (mm ++ [0])) (Some [78; 87; 83; 0]) (Some [83; 72; 71; 0]) (Some [0]) (Some [85; 84; 67; 0]) 2000 0 0 9
    (Some 10) (Some 30) (Some 20) (Some [1; 2]) (Some [3; 2]) data.
Example C56_trip_example : grid_trip (rain 1 1 (Some (mm ++ [0]))) true = Ok (Some (rain_back 1 12 (Some [10; 20; 30]))) /\
  grid_trip (rain 26 1 (Some (mm ++ [0]))) true = Ok (Some (rain_back 26 17 (Some [10; 20; 30; 0]))) /\
  grid_trip (rain 26 1 (Some (mm ++ [0]))) false = Ok (Some (rain_back 26 17 None)) /\
  grid_trip (rain 2 1 (Some (mm ++ [0]))) true = Ok None.
Proof. vm_compute. repeat split. Qed.
(** cells compressed by the caller: 17 bytes in 5 words *)
Example C56_precompressed_example : exists z words, toy_deflate (cell_bytes [10; 20; 30]) = Some z /\ slen z = 17 /\ zlen words = numberIntsInBytes 17 /\ stake 17 (bytes_of_ints words) = z /\
  toy_inflate z (slen (cell_bytes [10; 20; 30])) = Some (cell_bytes [10; 20; 30]).
Proof. exists (120 :: rev (cell_bytes [10; 20; 30])), (ints_of_bytes 5 (120 :: rev (cell_bytes [10; 20; 30]) ++ [0; 0; 0])). vm_compute. repeat split. Qed.
Example C56_interface_example : match hec_dss_gridStore_request toy_deflate (nm 65) 430 1 5 6 3 1 2 1 7 1 1 0 (mm ++ [0; 9]) [78; 0] [0] [0] [85; 0] 2000 0 0 9 30 10 20 (Some [1; 2]) (Some [3; 2]) (Some [10; 20; 30]) with
  | Ok (Some x) => hec_dss_gridRetrieve_answer toy_inflate true (Some (stored x)) [(repeat 8 4, 4); (repeat 8 2, 1); (repeat 8 2, 2); (repeat 8 2, 2); (repeat 8 3, 3)] [0; 0; 0] [7; 7; 7] 1 [7; 7; 7] (repeat 7 5) 5 =
      Ok (Some (mkout [430; 1; 5; 6; 3; 1; 2; 1; 7; 1; 1] [[77; 77; 0; 8]; [0; 8]; [0; 8]; [0; 8]; [85; 0; 8]] [2000; 0; 0; 9] [30; 10; 20] [1; 7; 7] [3; 7; 7] [10; 20; 30; 7; 7]))
  | _ => False
  end.
Proof. vm_compute. reflexivity. Qed.

(** ** What goes wrong *)

(** The version of a grid is written to the record but not read: it comes back as 0. *)
Theorem C56_refuted_version : exists g', grid_trip (rain 1 7 (Some (mm ++ [0]))) true = Ok (Some g') /\ g_version g' = 0 /\ g_version (rain 1 7 (Some (mm ++ [0]))) = 7.
Proof. exists (rain_back 1 12 (Some [10; 20; 30])). vm_compute. repeat split. Qed.
Print Assumptions C56_refuted_version.
(** A blank after the units: the blank is removed when the text is copied, and the next text is looked for one byte too early; every text after
    the units is moved by one field, and the time zone is lost. *)
Theorem C56_refuted_blank : exists g', grid_trip (rain 1 1 (Some (mm ++ [32; 0]))) true = Ok (Some g') /\
  g_texts g' = [Some [77; 77; 0]; Some [0]; Some [78; 87; 83; 0]; Some [83; 72; 71; 0]; Some [0]].
Proof.
  exists (mkgrid (-100) 430 0 1 5 6 3 1 1 12 2 1 7 1 1 0 (Some [77; 77; 0]) (Some [0]) (Some [78; 87; 83; 0]) (Some [83; 72; 71; 0]) (Some [0]) 2000 0 0 9 (Some 10) (Some 30) (Some 20) (Some [1; 2]) (Some [3; 2]) (Some [10; 20; 30])).
  vm_compute. split; reflexivity.
Qed.
Print Assumptions C56_refuted_blank.
(** Units with a letter outside of ASCII (in UTF-8, "m³" and more): the text is cut inside of that letter, and its rest is taken for the data source. *)
Theorem C56_refuted_utf8 : exists g', grid_trip (rain 1 1 (Some [109; 194; 179; 47; 115; 0])) true = Ok (Some g') /\ firstn 2 (g_texts g') = [Some [109; 194; 0]; Some [47; 115; 0]].
Proof.
  exists (mkgrid (-100) 430 0 1 5 6 3 1 1 12 2 1 7 1 1 0 (Some [109; 194; 0]) (Some [47; 115; 0]) (Some [78; 87; 83; 0]) (Some [83; 72; 71; 0]) (Some [0]) 2000 0 0 9 (Some 10) (Some 30) (Some 20) (Some [1; 2]) (Some [3; 2]) (Some [10; 20; 30])).
  vm_compute. split; reflexivity.
Qed.
Print Assumptions C56_refuted_utf8.
(** The type of a grid and the version of its struct are not checked when it is stored: a record that no retrieve accepts. *)
Definition bad_grid (sv ty : Z) : grid :=
  mkgrid sv ty 0 1 5 6 1 1 1 0 0 1 7 1 1 0 None None None None None 2000 0 0 9 (Some 10) (Some 30) (Some 20) None None (Some [10]).
Theorem C56_refuted_unreadable : forall want, grid_trip (bad_grid (-100) 399) want = Ok None /\ grid_trip (bad_grid (-101) 430) want = Ok None /\
  (exists x, zspatialGridStore_request toy_deflate (nm 65) (bad_grid (-100) 399) 0 = Ok (Some x)) /\ (exists x, zspatialGridStore_request toy_deflate (nm 65) (bad_grid (-101) 430) 0 = Ok (Some x)).
Proof.
  intros want. split; [destruct want; vm_compute; reflexivity|]. split; [destruct want; vm_compute; reflexivity|].
  split; (eexists; cbv; reflexivity).
Qed.
Print Assumptions C56_refuted_unreadable.

(** ** Records that are not grids *)

(** A pathname without a record, a record of another type, and a grid of another struct version are refused. *)
Theorem C56_not_a_grid : forall inflate want, zspatialGridRetrieve_answer inflate want None = Ok None /\
  (forall ct, ct_type ct < 400 \/ 431 < ct_type ct -> zspatialGridRetrieve_answer inflate want (Some ct) = Ok None) /\
  (forall ct sv h rest, ct_ih ct = sv :: h ++ rest -> length h = 15%nat -> sv <> -100 -> zspatialGridRetrieve_answer inflate want (Some ct) = Ok None).
Proof.
  intros inflate want. split; [reflexivity|]. split.
  - intros ct H. unfold zspatialGridRetrieve_answer. replace (_ || _) with true by lia. reflexivity.
  - intros ct sv h rest EH LH N. unfold zspatialGridRetrieve_answer. destruct (_ || _); [reflexivity|]. rewrite EH.
    change (sv :: h ++ rest) with ([] ++ (sv :: h) ++ rest). rewrite (read_at [] (sv :: h) rest) by (try reflexivity; cbn [length]; lia). cbn [bind].
    do 15 (destruct h as [|? h]; [discriminate LH|]). destruct h; [|discriminate LH]. unfold VERSION_100. replace (sv =? -100) with false by lia. reflexivity.
Qed.
Print Assumptions C56_not_a_grid.
(** A compressed grid read with its cells was decompressed: a record whose bytes zlib does not accept is never taken for a grid. *)
Theorem C56_decompressed : forall inflate ct g', zspatialGridRetrieve_answer inflate true (Some ct) = Ok (Some g') -> g_comp g' = 26 -> ct_v3 ct <> [] ->
  exists z out, get_prefix (g_csize g') (bytes_of_ints (ct_v3 ct) ++ repeat 0 8) = Ok z /\ inflate z (8 * (Z.quot (g_nx g' * g_ny g' - 1) 2 + 1)) = Some out.
Proof.
  intros inflate ct g' E C N. unfold zspatialGridRetrieve_answer in E. destruct (_ || _); [discriminate|]. destruct (read_loop 16 _ 0) as [h|]; [|discriminate]. cbn [bind] in E.
  do 16 (destruct h as [|? h]; [discriminate E|]). destruct h; [|discriminate E]. destruct (negb _); [discriminate|]. destruct (_ =? 0) in E; [discriminate|].
  destruct (get_texts _ _ _) as [t|]; [|discriminate]. cbn [bind] in E. do 5 (destruct t as [|? t]; [discriminate E|]). destruct t; [|discriminate E].
  destruct (if zlen (ct_uh ct) =? 0 then _ else _) as [f|]; [|discriminate]. cbn [bind] in E. do 4 (destruct f as [|? f]; [discriminate E|]). destruct f; [|discriminate E].
  destruct (negb _); [discriminate|]. destruct (stats_back _ _) as [[[[[? ?] ?] ?] ?]|]; [|discriminate]. cbn [bind] in E.
  destruct (data_back _ _ _ _ _ _) as [[d|]|] eqn:ED; try discriminate. cbn [bind] in E. injection E as <-. cbn [g_comp g_csize g_nx g_ny] in *.
  unfold data_back in ED. replace (zlen (ct_v3 ct) =? 0) with false in ED by (unfold zlen; destruct (ct_v3 ct); [congruence|cbn [length]; lia]).
  destruct (chk32 (_ * _)) as [n|] eqn:E1; [|discriminate]. apply chk32_inv in E1. destruct E1 as (-> & _). cbn [bind] in ED. rewrite C in ED. change (26 =? NO_COMPRESSION) with false in ED. change (26 =? ZLIB_COMPRESSION) with true in ED. cbv iota zeta in ED.
  destruct (chk32 _) as [room|] eqn:E2; [|discriminate]. apply chk32_inv in E2. destruct E2 as (-> & _). cbn [bind] in ED. destruct (_ <? 0) in ED; [discriminate|].
  destruct (get_prefix _ _) as [zz|]; [|discriminate]. cbn [bind] in ED. match type of ED with context [inflate zz ?r] => destruct (inflate zz r) as [out|] eqn:EI; [|discriminate] end.
  exists zz, out. split; [reflexivity|]. rewrite <- EI. f_equal. lia.
Qed.
Print Assumptions C56_decompressed.
(** zspatialGridRetrieveVersion gives 100 for a grid stored with the struct of this version. *)
Theorem C56_struct_version : forall deflate path g pre x, g_sv g = -100 -> zspatialGridStore_request deflate path g pre = Ok (Some x) ->
  zspatialGridRetrieveVersion_answer (Some (stored x)) = Ok (Some 100).
Proof.
  intros deflate path g pre x SV E. unfold zspatialGridStore_request in E. destruct (texts_words _) as [h|]; [|discriminate]. cbn [bind] in E. destruct (negb _); [discriminate|].
  destruct (stats_words _) as [v|]; [|discriminate]. cbn [bind] in E. destruct (data_words _ _ _) as [[[c w]|]|]; try discriminate. cbn [bind] in E. injection E as <-.
  unfold zspatialGridRetrieveVersion_answer, stored, grid_header. cbn [ct_ih x_ih]. change (aget (g_sv g :: _) 0) with (@Ok Z (g_sv g)). cbn [bind]. rewrite SV. reflexivity.
Qed.
Print Assumptions C56_struct_version.
