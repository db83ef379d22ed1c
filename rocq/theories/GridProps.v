(** * C56: a grid reads back as it was stored. *)
From Coq Require Import ZArith List Lia Bool ZifyBool.
From Verif Require Import Base ArrayLib PackModel PackProps CStr CStrProofs PathSpec PathProps FileModel FileSpec FileHistSpec FileProps FileRefute TextModel TextProps HecModel HecSpec HecProofs HecProps LocModel LocProps GridModel GridSpec GridProofs.
Import ListNotations.
Open Scope Z_scope.
Open Scope res_scope.

Section Grid.
Variable deflate : list Z -> option (list Z).
Variable inflate : list Z -> Z -> option (list Z).
Variables (g : grid) (texts : list (list Z)) (min max mean : Z) (limits counts : list Z).
Hypothesis GI : head_is g texts min max mean limits counts.

Lemma size_ok : data_size g = Ok (g_nx g * g_ny g, Z.quot (g_nx g * g_ny g - 1) 2 + 1) /\ 0 <= g_nx g * g_ny g <= 500000000.
Proof.
  destruct GI as (_ & _ & _ & _ & X & Y & B & _). assert (0 <= g_nx g * g_ny g) by (apply Z.mul_nonneg_nonneg; assumption). split; [|lia].
  unfold data_size. rewrite chk32_ok by (unfold in32, INT_MIN, INT_MAX; lia). reflexivity.
Qed.
Lemma longs_pad n : 0 <= n -> exists j, (j <= 2)%nat /\ 2 * (Z.quot (n - 1) 2 + 1) = n + Z.of_nat j /\ j = (if (n =? 0)%Z then 2 else if Z.odd n then 1 else 0)%nat.
Proof.
  intros H. destruct (n =? 0) eqn:Z0; [exists 2%nat; replace n with 0 by lia; split; [lia|split; reflexivity]|]. rewrite Z.quot_div_nonneg by lia.
  pose proof (Zmod_odd n) as O. pose proof (Z.div_mod n 2 ltac:(lia)). pose proof (Z.div_mod (n - 1) 2 ltac:(lia)). pose proof (Z.mod_pos_bound (n - 1) 2 ltac:(lia)).
  destruct (Z.odd n); [exists 1%nat|exists 0%nat]; (split; [lia|]; split; [lia|reflexivity]).
Qed.
Lemma stats_ok : stats_words g = Ok (min :: max :: mean :: limits ++ counts) /\ stats_back (g_nr g) (min :: max :: mean :: limits ++ counts) = Ok (Some min, Some max, Some mean, Some limits, Some counts).
Proof.
  destruct GI as (_ & _ & _ & NR & _ & _ & _ & _ & _ & M1 & M2 & M3 & HL & HC). unfold stats_words. rewrite chk32_ok by (unfold in32, INT_MIN, INT_MAX; lia). cbn [bind].
  replace (g_nr g <? 0) with false by lia. rewrite M1, M2, M3. cbn [deref bind]. rewrite (read_has _ _ _ HL), (read_has _ _ _ HC). cbn [bind]. split; [reflexivity|].
  assert (LL : Z.of_nat (length limits) = g_nr g) by (destruct HL as [(L & _)|(L & -> & _)]; cbn; lia).
  assert (LC : Z.of_nat (length counts) = g_nr g) by (destruct HC as [(L & _)|(L & -> & _)]; cbn; lia).
  unfold stats_back. replace (zlen (min :: max :: mean :: limits ++ counts) =? 0) with false by (unfold zlen; cbn [length]; lia).
  change (aget (min :: max :: mean :: limits ++ counts) 0) with (@Ok Z min). change (aget (min :: max :: mean :: limits ++ counts) 1) with (@Ok Z max).
  change (aget (min :: max :: mean :: limits ++ counts) 2) with (@Ok Z mean). cbn [bind].
  change (min :: max :: mean :: limits ++ counts) with ([min; max; mean] ++ limits ++ counts). rewrite read_at by (unfold alen; cbn [length]; lia). cbn [bind].
  replace ([min; max; mean] ++ limits ++ counts) with (([min; max; mean] ++ limits) ++ counts ++ []) by (rewrite app_nil_r, <- app_assoc; reflexivity).
  rewrite read_at by (unfold alen; rewrite ?app_length; cbn [length]; lia). reflexivity.
Qed.

(** what goes into the record, and what comes out *)
Lemma request_back pre csize (v3 : list Z) : data_words deflate g pre = Ok (Some (csize, v3)) -> forall path,
  exists x, zspatialGridStore_request deflate path g pre = Ok (Some x) /\ x_path x = path /\
    forall (want : bool) d, data_back inflate (g_nx g) (g_ny g) (g_comp g) csize (if want then v3 else []) = Ok (Some d) ->
      exists g', zspatialGridRetrieve_answer inflate want (Some (stored x)) = Ok (Some g') /\ same_grid g g' /\ g_csize g' = csize /\
        shows_grid g' texts min max mean limits counts /\ g_data g' = d.
Proof.
  intros HD path. pose proof GI as (SV & TY & ST & _ & _ & _ & _ & HT & TL & _). destruct stats_ok as (S1 & S2).
  assert (NT : length texts = 5%nat) by (clear -HT; unfold g_texts in HT; do 5 (inversion HT as [|? ? ? ? _ HT']; subst; clear HT; rename HT' into HT); inversion HT; reflexivity).
  destruct (words_spec _ _ HT) as (h2 & j & EH & LH & BH); [intros ->; discriminate NT|rewrite NT; lia|].
  unfold zspatialGridStore_request. rewrite EH. cbn [bind]. rewrite ST. cbn [negb]. change (negb (0 =? GRID_FLOAT)) with false. cbv iota.
  rewrite S1. cbn [bind]. rewrite HD. cbn [bind]. eexists. split; [reflexivity|]. split; [reflexivity|]. intros want d ED.
  unfold zspatialGridRetrieve_answer, stored. cbn [ct_type ct_ih ct_h2 ct_uh ct_v1 ct_v3 x_type x_ih x_h2 x_uh x_v1 x_v3].
  replace ((g_type g <? 400) || (g_type g >? 431)) with false by lia.
  match goal with |- context [read_loop 16 ?l 0] => change (read_loop 16 l 0) with (Ok (firstn 16 l)); cbn [firstn grid_header bind] end.
  rewrite SV, ?ST. change (negb (-100 =? VERSION_100)) with false. cbv iota. replace (zlen h2 =? 0) with false by lia.
  assert (SM : Forall simple texts). { clear -HT. induction HT as [|f s fs ts H _ IH]; constructor; [apply H|exact IH]. }
  pose proof (get_spec texts SM [] (repeat 0 j ++ repeat 0 8)) as GT. cbn [app] in GT. change (slen []) with 0 in GT. rewrite NT in GT. rewrite BH, <- app_assoc, GT. cbn [bind].
  destruct texts as [|t1 [|t2 [|t3 [|t4 [|t5 [|t6 tr]]]]]]; try discriminate NT. cbn [map].
  change (read_loop 4 [g_cell g; g_x0 g; g_y0 g; g_null g; 0; 0; 0; 0; 0; 0; 0] 0) with (Ok [g_cell g; g_x0 g; g_y0 g; g_null g]).
  change (zlen [g_cell g; g_x0 g; g_y0 g; g_null g; 0; 0; 0; 0; 0; 0; 0] =? 0) with false. cbv iota. cbn [bind]. change (negb (0 =? GRID_FLOAT)) with false. cbv iota.
  rewrite S2. cbn [bind]. rewrite ED. cbn [bind]. eexists. split; [reflexivity|]. split; [|split; [|split]].
  - unfold same_grid. cbn. repeat split; congruence.
  - reflexivity.
  - unfold shows_grid, g_texts. cbn [g_units g_source g_srsname g_srsdef g_tzid g_min g_max g_mean g_limits g_counts].
    split; [|repeat split]. rewrite Forall_forall in SM. repeat (constructor; [eexists; split; [reflexivity|]; apply cstr_in_buf, c_nz, simple_c, SM; cbn; tauto|]). constructor.
  - reflexivity.
Qed.

Variable cells : list Z.
Hypothesis HC : has_or_null (g_data g) (g_nx g * g_ny g) cells.
Hypothesis HW : Forall word cells.
Lemma cells_len : Z.of_nat (length cells) = g_nx g * g_ny g.
Proof.  destruct HC as [(L & _)|(L & -> & _)]; cbn; lia. Qed.
Lemma cells_words : exists w j, cell_words g = Ok w /\ w = cells ++ repeat 0 j /\ bytes_of_ints w = cell_bytes cells /\
  zlen w = 2 * (Z.quot (g_nx g * g_ny g - 1) 2 + 1) /\ Forall word w /\ 0 < zlen w <= 500000002.
Proof.
  destruct size_ok as (E & B). pose proof cells_len as CL. set (n := g_nx g * g_ny g) in *. destruct (longs_pad n ltac:(lia)) as (j & J2 & JL & JJ).
  exists (cells ++ repeat 0 j), j. split; [|split; [reflexivity|]].
  - unfold cell_words. rewrite E. cbn [bind]. rewrite chk32_ok by (unfold in32, INT_MIN, INT_MAX; lia). cbn [bind]. replace (n <? 0) with false by lia.
    rewrite (read_has (g_data g) n cells) by exact HC. cbn [bind]. do 3 f_equal. lia.
  - assert (R : Z.of_nat j = 2 -> n = 0) by (subst j; destruct (n =? 0) eqn:Q; [lia|destruct (Z.odd n); lia]). split.
    + unfold cell_bytes. f_equal. f_equal. rewrite CL, JJ. destruct cells as [|x t]; [cbn in CL; replace (n =? 0) with true by lia; reflexivity|].
      cbn [length] in CL. replace (n =? 0) with false by lia. destruct (Z.odd n); reflexivity.
    + split; [unfold zlen; rewrite app_length, repeat_length; lia|]. split.
      * apply Forall_app. split; [exact HW|]. clear. induction j; cbn [repeat]; constructor; [unfold word; lia|assumption].
      * unfold zlen. rewrite app_length, repeat_length. assert (0 < 2 * (Z.quot (n - 1) 2 + 1)); [|lia]. rewrite JL. subst j. destruct (n =? 0) eqn:Q; lia.
Qed.

Lemma has_cut n j : Z.of_nat (length cells) = n -> has (Some (cells ++ repeat 0 j)) n cells.
Proof. intros L. split; [exact L|]. eexists. reflexivity. Qed.
Lemma plain_data : g_comp g = 1 -> exists w, data_words deflate g 0 = Ok (Some (g_nx g * g_ny g * 4, w)) /\
  exists d, data_back inflate (g_nx g) (g_ny g) (g_comp g) (g_nx g * g_ny g * 4) w = Ok (Some d) /\ has d (g_nx g * g_ny g) cells.
Proof.
  intros C. destruct size_ok as (E & B). destruct cells_words as (w & j & EW & WJ & _ & _ & _ & W0). pose proof cells_len as CL.
  exists w. split.
  - unfold data_words. change (negb (0 =? 0)) with false. cbv iota. rewrite EW. cbn [bind]. rewrite C, E. reflexivity.
  - exists (Some cells). split; [|split; [exact CL|exists []; rewrite app_nil_r; reflexivity]]. unfold data_back. replace (zlen w =? 0) with false by lia.
    rewrite chk32_ok by (unfold in32, INT_MIN, INT_MAX; lia). cbn [bind]. rewrite C. change (1 =? NO_COMPRESSION) with true. cbv iota.
    rewrite WJ. rewrite (read_at [] cells (repeat 0 j)) by (reflexivity || lia). reflexivity.
Qed.
Lemma inflated csize v3 z : g_comp g = 26 -> v3 <> [] -> 0 <= csize -> get_prefix csize (bytes_of_ints v3 ++ repeat 0 8) = Ok z ->
  inflate z (slen (cell_bytes cells)) = Some (cell_bytes cells) ->
  exists d, data_back inflate (g_nx g) (g_ny g) (g_comp g) csize v3 = Ok (Some d) /\ has d (g_nx g * g_ny g) cells.
Proof.
  intros C N0 C0 EP EI. destruct size_ok as (E & B). destruct cells_words as (w & j & _ & WJ & WB & WL & WW & W0). pose proof cells_len as CL.
  unfold data_back. replace (zlen v3 =? 0) with false by (unfold zlen; destruct v3; [congruence|cbn [length]; lia]).
  rewrite chk32_ok by (unfold in32, INT_MIN, INT_MAX; lia). cbn [bind]. rewrite C. change (26 =? NO_COMPRESSION) with false. change (26 =? ZLIB_COMPRESSION) with true. cbv iota zeta.
  set (longs := Z.quot (g_nx g * g_ny g - 1) 2 + 1) in *. rewrite chk32_ok by (unfold in32, INT_MIN, INT_MAX; lia). cbn [bind]. replace (csize <? 0) with false by lia. rewrite EP. cbn [bind].
  replace (longs * 2 * 4) with (slen (cell_bytes cells)) by (rewrite <- WB, bytes_of_len; lia). rewrite EI.
  eexists. split; [reflexivity|]. rewrite <- WB. replace (Z.to_nat (longs * 2)) with (length w) by (unfold zlen in *; lia). rewrite ints_back by exact WW. rewrite WJ. apply has_cut, CL.
Qed.
Lemma zlib_data z : lossless deflate inflate -> g_comp g = 26 -> deflate (cell_bytes cells) = Some z -> z <> [] -> exists w, data_words deflate g 0 = Ok (Some (slen z, w)) /\
  exists d, data_back inflate (g_nx g) (g_ny g) (g_comp g) (slen z) w = Ok (Some d) /\ has d (g_nx g * g_ny g) cells.
Proof.
  intros LL C ED NZ. destruct (LL _ _ ED) as (BZ & EI). destruct cells_words as (w & j & EW & _ & WB & _ & _ & W0).
  assert (Z0 : 0 < slen z) by (unfold slen; destruct z; [congruence|cbn [length]; lia]).
  destruct (to_ints_back z (slen z) BZ ltac:(lia)) as (v & EV & LV & BV). destruct (ints_bytes _ Z0) as (Q & _).
  exists v. split.
  - unfold data_words. change (negb (0 =? 0)) with false. cbv iota. rewrite EW. cbn [bind]. rewrite C. change (26 =? NO_COMPRESSION) with false. change (26 =? ZLIB_COMPRESSION) with true. cbv iota.
    rewrite chk32_ok by (unfold in32, INT_MIN, INT_MAX; lia). cbn [bind]. rewrite WB, ED. replace (slen z <=? 0) with false by lia. rewrite EV. reflexivity.
  - apply (inflated _ _ z); [exact C|intros ->; cbn in LV; lia|lia| |exact EI].
    unfold get_prefix. rewrite BV, stake_all by lia. rewrite <- app_assoc. replace (slen z <=? _) with true by (rewrite app_length; unfold slen; lia).
    unfold slen. rewrite Nat2Z.id, firstn_app, Nat.sub_diag, firstn_O, app_nil_r, firstn_all. reflexivity.
Qed.
End Grid.

(** ** The record *)

(** A grid whose texts are plain (C51) is stored, with or without compression, as a record of its pathname, and that record gives the grid back:
    every number but the version, the texts, the statistics and the ranges, and the cells when they are asked for. *)
Theorem C56_request_partial : forall deflate inflate path g texts min max mean limits counts cells, lossless deflate inflate ->
  grid_is g texts min max mean limits counts cells ->
  g_comp g = 1 \/ (g_comp g = 26 /\ exists z, deflate (cell_bytes cells) = Some z /\ z <> []) ->
  exists x, zspatialGridStore_request deflate path g 0 = Ok (Some x) /\ x_path x = path /\
    (exists g', zspatialGridRetrieve_answer inflate true (Some (stored x)) = Ok (Some g') /\ same_grid g g' /\
       shows_grid g' texts min max mean limits counts /\ has (g_data g') (g_nx g * g_ny g) cells) /\
    (exists g', zspatialGridRetrieve_answer inflate false (Some (stored x)) = Ok (Some g') /\ same_grid g g' /\
       shows_grid g' texts min max mean limits counts /\ g_data g' = None).
Proof.
  intros deflate inflate path g texts min max mean limits counts cells LL (HI & HC & HW) CM.
  assert (D : exists csize w, data_words deflate g 0 = Ok (Some (csize, w)) /\ exists d, data_back inflate (g_nx g) (g_ny g) (g_comp g) csize w = Ok (Some d) /\ has d (g_nx g * g_ny g) cells).
  { destruct CM as [C|(C & z & EZ & NZ)].
    - destruct (plain_data deflate inflate g _ _ _ _ _ _ HI cells HC HW C) as (w & A & B). exists (g_nx g * g_ny g * 4), w. split; assumption.
    - destruct (zlib_data deflate inflate g _ _ _ _ _ _ HI cells HC HW z LL C EZ NZ) as (w & A & B). exists (slen z), w. split; assumption. }
  destruct D as (csize & w & EW & d & ED & HD). destruct (request_back deflate inflate g _ _ _ _ _ _ HI 0 csize w EW path) as (x & EX & PX & RB).
  exists x. split; [exact EX|]. split; [exact PX|]. split.
  - destruct (RB true d ED) as (g' & E1 & E2 & _ & E3 & E4). exists g'. split; [exact E1|]. split; [exact E2|]. split; [exact E3|]. rewrite E4. exact HD.
  - destruct (RB false None eq_refl) as (g' & E1 & E2 & _ & E3 & E4). exists g'. split; [exact E1|]. split; [exact E2|]. split; [exact E3|exact E4].
Qed.
Print Assumptions C56_request_partial.

(** Cells that the caller has compressed are stored as they are, and decompressed by the retrieve. *)
Theorem C56_precompressed_partial : forall deflate inflate path g texts min max mean limits counts cells z words rest,
  head_is g texts min max mean limits counts -> g_comp g = 26 -> Forall word cells -> Z.of_nat (length cells) = g_nx g * g_ny g ->
  z <> [] -> g_data g = Some (words ++ rest) -> zlen words = numberIntsInBytes (slen z) -> stake (slen z) (bytes_of_ints words) = z ->
  inflate z (slen (cell_bytes cells)) = Some (cell_bytes cells) ->
  exists x, zspatialGridStore_request deflate path g (slen z) = Ok (Some x) /\ x_path x = path /\
    exists g', zspatialGridRetrieve_answer inflate true (Some (stored x)) = Ok (Some g') /\ same_grid g g' /\ g_csize g' = slen z /\
      shows_grid g' texts min max mean limits counts /\ has (g_data g') (g_nx g * g_ny g) cells.
Proof.
  intros deflate inflate path g texts min max mean limits counts cells z words rest HI C HW CL NZ ED LW BW EI.
  assert (Z0 : 0 < slen z) by (unfold slen; destruct z; [congruence|cbn [length]; lia]). destruct (ints_bytes _ Z0) as (Q1 & Q2).
  assert (EW : data_words deflate g (slen z) = Ok (Some (slen z, words))).
  { unfold data_words. replace (slen z =? 0) with false by lia. cbn [negb]. rewrite (read_has _ _ words) by (left; split; [unfold zlen in LW; lia|exists rest; exact ED]). reflexivity. }
  set (gc := mkgrid (g_sv g) (g_type g) (g_version g) (g_dtype g) (g_llx g) (g_lly g) (g_nx g) (g_ny g) (g_comp g) (g_csize g) (g_nr g) (g_srstype g) (g_tzoff g) (g_interval g) (g_stamped g) (g_storage g)
    (g_units g) (g_source g) (g_srsname g) (g_srsdef g) (g_tzid g) (g_cell g) (g_x0 g) (g_y0 g) (g_null g) (g_min g) (g_max g) (g_mean g) (g_limits g) (g_counts g) (Some cells)).
  assert (HG : head_is gc texts min max mean limits counts) by exact HI.
  assert (HCc : has_or_null (g_data gc) (g_nx gc * g_ny gc) cells) by (left; split; [exact CL|exists []; cbn; rewrite app_nil_r; reflexivity]).
  destruct (inflated inflate gc _ _ _ _ _ _ HG cells HCc HW (slen z) words z C) as (d & EB & HD); [intros ->; cbn in LW; lia|lia| |exact EI|].
  { unfold get_prefix. replace (slen z <=? _) with true by (rewrite app_length; pose proof (bytes_of_len words); unfold slen in *; lia).
    rewrite firstn_app. replace (_ - _)%nat with 0%nat by (pose proof (bytes_of_len words); unfold slen in *; lia). rewrite firstn_O, app_nil_r. f_equal. exact BW. }
  destruct (request_back deflate inflate g _ _ _ _ _ _ HI (slen z) (slen z) words EW path) as (x & EX & PX & RB). exists x. split; [exact EX|]. split; [exact PX|].
  destruct (RB true d EB) as (g' & E1 & E2 & E3 & E4 & E5). exists g'. split; [exact E1|]. split; [exact E2|]. split; [exact E3|]. split; [exact E4|]. rewrite E5. exact HD.
Qed.
Print Assumptions C56_precompressed_partial.

(** What cannot be stored is refused and nothing is written: values other than floats, another compression method, or a failure of zlib. *)
Theorem C56_refused : forall deflate path g texts min max mean limits counts cells, grid_is g texts min max mean limits counts cells ->
  (g_comp g <> 1 /\ g_comp g <> 26) \/ (g_comp g = 26 /\ (deflate (cell_bytes cells) = None \/ deflate (cell_bytes cells) = Some [])) ->
  zspatialGridStore_request deflate path g 0 = Ok None.
Proof.
  intros deflate path g texts min max mean limits counts cells (HI & HC & HW) R.
  destruct (cells_words g _ _ _ _ _ _ HI cells HC HW) as (w & j & EW & _ & WB & _ & _ & W0).
  pose proof HI as (SV & TY & ST & _ & _ & _ & _ & HT & TL & _). destruct (stats_ok g _ _ _ _ _ _ HI) as (S1 & _).
  assert (NT : length texts = 5%nat) by (clear -HT; unfold g_texts in HT; do 5 (inversion HT as [|? ? ? ? _ HT']; subst; clear HT; rename HT' into HT); inversion HT; reflexivity).
  destruct (words_spec _ _ HT) as (h2 & k & EH & _ & _); [intros ->; discriminate NT|rewrite NT; lia|].
  unfold zspatialGridStore_request. rewrite EH. cbn [bind]. rewrite ST. change (negb (0 =? GRID_FLOAT)) with false. cbv iota. rewrite S1. cbn [bind].
  unfold data_words. change (negb (0 =? 0)) with false. cbv iota. rewrite EW. cbn [bind]. unfold NO_COMPRESSION, ZLIB_COMPRESSION.
  destruct R as [(N1 & N2)|(C & R)].
  - replace (g_comp g =? 1) with false by lia. replace (g_comp g =? 26) with false by lia. reflexivity.
  - rewrite C. change (26 =? 1) with false. change (26 =? 26) with true. cbv iota. rewrite chk32_ok by (unfold in32, INT_MIN, INT_MAX; lia). cbn [bind]. rewrite WB.
    destruct R as [-> | ->]; reflexivity.
Qed.
Print Assumptions C56_refused.
Theorem C56_refused_storage : forall deflate path g texts pre, Forall2 holds (g_texts g) texts -> Z.of_nat (length (concat texts)) <= 2000000000 -> g_storage g <> 0 ->
  zspatialGridStore_request deflate path g pre = Ok None.
Proof.
  intros deflate path g texts pre HT TL N.
  assert (NT : length texts = 5%nat) by (clear -HT; unfold g_texts in HT; do 5 (inversion HT as [|? ? ? ? _ HT']; subst; clear HT; rename HT' into HT); inversion HT; reflexivity).
  destruct (words_spec _ _ HT) as (h2 & k & EH & _ & _); [intros ->; discriminate NT|rewrite NT; lia|].
  unfold zspatialGridStore_request. rewrite EH. cbn [bind]. unfold GRID_FLOAT. replace (g_storage g =? 0) with false by lia. reflexivity.
Qed.
Print Assumptions C56_refused_storage.

(** ** End to end *)

(** After any history, a grid stored under a pathname and then left alone is found under that pathname, in any case.  _partial: the histories
    of C22; the version of the grid is lost and texts that are not plain spoil the others (refuted below); zlib is taken to be lossless. *)
Theorem C56_record_partial : forall deflate inflate c W ops1 s1 now prog path g texts min max mean limits counts cells x s2 ops2 s3 q,
  lossless deflate inflate -> usable c -> grid_is g texts min max mean limits counts cells ->
  g_comp g = 1 \/ (g_comp g = 26 /\ exists z, deflate (cell_bytes cells) = Some z /\ z <> []) ->
  zspatialGridStore_request deflate path g 0 = Ok (Some x) ->
  runs c W (new_file c) ops1 s1 -> allowed c W s1 (Write now prog x) -> exec c (Write now prog x) s1 = Some (Done, s2) ->
  runs c W s2 ops2 s3 -> untouched path ops2 -> canon q = canon path -> name_ok q ->
  exists ct g', reads c s3 q (Some ct) /\ zspatialGridRetrieve_answer inflate true (Some ct) = Ok (Some g') /\ same_grid g g' /\
    shows_grid g' texts min max mean limits counts /\ has (g_data g') (g_nx g * g_ny g) cells.
Proof.
  intros deflate inflate c W ops1 s1 now prog path g texts min max mean limits counts cells x s2 ops2 s3 q LL U GI CM EX R1 A X R2 UT CQ NQ.
  destruct (C56_request_partial deflate inflate path g texts min max mean limits counts cells LL GI CM) as (x' & EX' & PX & (g' & G1 & G2 & G3 & G4) & _).
  rewrite EX in EX'. injection EX' as <-. exists (stored x), g'. split; [|split; [exact G1|split; [exact G2|split; [exact G3|exact G4]]]].
  eapply C22_read_last_write_partial; eauto; rewrite PX; assumption.
Qed.
Print Assumptions C56_record_partial.
