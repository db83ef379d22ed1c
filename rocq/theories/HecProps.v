(** * C51: the calls of the library interface fill the caller's buffers with what the file holds, and touch nothing else. *)
From Coq Require Import ZArith List Lia Bool ZifyBool.
From Verif Require Import Base DateSpec ArrayLib CStr CStrProofs PathProps FileModel FileSpec FileHistSpec FileProps FileRefute TextModel TextSpec TextProps PdModel PdSpec PdRep PdRead PdProps TrimModel TrimSpec TrimProps SeriesModel HecModel HecSpec HecProofs.
Import ListNotations.
Open Scope Z_scope.
Open Scope res_scope.

(** ** Texts *)

(** The copy that is made of any text of a caller is a first part of it ... *)
Theorem C51_copy_prefix : forall buf s, cstr buf = Ok s -> exists k, mallocAndCopy buf = Ok (stake k s ++ [0]).
Proof.
  intros buf s E. unfold mallocAndCopy. rewrite E. cbn [bind]. destruct (slen s =? 0) eqn:Z0; [exists 0; reflexivity|].
  destruct (legal_bound s 0) as (B & P). specialize (P ltac:(intros ->; cbn in Z0; discriminate)).
  destruct (aget_some s (legal_len s 0 - 1)) as (c & ->); [unfold slen, alen in *; lia|]. cbn [bind].
  assert (Q : exists k, (if c =? 32 then last_black (Z.to_nat (legal_len s 0 - 1)) s (legal_len s 0 - 1) else Ok (legal_len s 0)) = Ok k /\ 0 <= k <= alen s).
  { destruct (c =? 32); [apply black_ok; unfold slen, alen in *; lia|eexists; split; [reflexivity|unfold slen, alen in *; lia]]. }
  destruct Q as (k & -> & K). cbn [bind]. rewrite read_start by lia. cbn [bind]. exists k. reflexivity.
Qed.
Print Assumptions C51_copy_prefix.
(** ... and all of it when it is plain text. *)
Theorem C51_copy_plain : forall s rest, plain s -> mallocAndCopy (s ++ 0 :: rest) = Ok (s ++ [0]).
Proof.
  intros s rest P. pose proof P as (N & H & L). unfold mallocAndCopy. rewrite (cstr_in_buf s rest (plain_nz s P)). cbn [bind].
  assert (SL : 0 < slen s) by (unfold slen; destruct s; [congruence|cbn [length]; lia]). replace (slen s =? 0) with false by lia.
  rewrite legal_all by assumption. rewrite Z.add_0_l, aget_last by exact N. cbn [bind]. replace (last s 0 =? 32) with false by lia. cbn [bind].
  rewrite read_start by (unfold slen, alen in *; lia). cbn [bind]. rewrite firstn_all2 by (unfold slen; lia). reflexivity.
Qed.
Print Assumptions C51_copy_plain.

(** A plain text is accepted, with its length, or one more for the NUL, or less for a first part of it. *)
Theorem C51_text_request : forall path s rest len, plain s -> 1 <= len <= slen s + 1 ->
  exists x, hec_dss_textStore_request path (s ++ 0 :: rest) len = Ok (Some x) /\ x_path x = path /\ x_type x = 300.
Proof.
  intros path s rest len P H. unfold hec_dss_textStore_request. rewrite C51_copy_plain by exact P. cbn [bind].
  destruct (C38_text_request path (mktext (Some (s ++ [0])) len None 0 None 0 0 0 [])) as (x & E & A & B & _).
  - split; [|split; (split; [cbn; lia|cbn; intros; lia])]. split; [cbn; lia|]. intros _. exists (s ++ [0]). split; [reflexivity|]. split.
    + apply Forall_app. split; [|repeat constructor; lia]. destruct P as (_ & F & _). eapply Forall_impl; [|exact F]. cbn. intros; lia.
    + cbn [tx_textChars]. unfold slen in *. rewrite app_length. cbn [length]. lia.
  - cbn. lia.
  - exists x. split; [exact E|]. split; [exact A|exact B].
Qed.
Print Assumptions C51_text_request.

(** End to end: after any history, a text stored through the interface and then left alone is given back in the first bytes of any
    buffer, cut to its size, with the status that tells whether it was cut; the rest of the buffer is not touched.
    _partial: plain text; the histories covered by C22. *)
Theorem C51_text_partial : forall c W ops1 s1 now prog path s rest len x s2 ops2 s3 q buf n,
  usable c -> plain s -> 1 <= len <= slen s + 1 -> hec_dss_textStore_request path (s ++ 0 :: rest) len = Ok (Some x) ->
  runs c W (new_file c) ops1 s1 -> allowed c W s1 (Write now prog x) -> exec c (Write now prog x) s1 = Some (Done, s2) ->
  runs c W s2 ops2 s3 -> untouched path ops2 -> canon q = canon path -> name_ok q -> 0 <= n <= alen buf ->
  exists ct, reads c s3 q (Some ct) /\
    hec_dss_textRetrieve_answer (Some ct) buf n = Ok ((if len <=? n then Okay else TooSmall), overlay (stake (Z.min n len) (s ++ [0])) buf).
Proof.
  intros c W ops1 s1 now prog path s rest len x s2 ops2 s3 q buf n U P HL E R1 A X R2 UT CQ NQ HN.
  unfold hec_dss_textStore_request in E. rewrite C51_copy_plain in E by exact P. cbn [bind] in E.
  assert (G : given_text (mktext (Some (s ++ [0])) len None 0 None 0 0 0 [])).
  { split; [|split; (split; [cbn; lia|cbn; intros; lia])]. split; [cbn; lia|]. intros _. exists (s ++ [0]). split; [reflexivity|]. split.
    + apply Forall_app. split; [|repeat constructor; lia]. destruct P as (_ & F & _). eapply Forall_impl; [|exact F]. cbn. intros; lia.
    + cbn [tx_textChars]. unfold slen in *. rewrite app_length. cbn [length]. lia. }
  destruct (C38_text_record_partial c W ops1 s1 now prog path _ x s2 ops2 s3 q U G ltac:(cbn; lia) E R1 A X R2 UT CQ NQ) as (ct & RD & AN).
  exists ct. split; [exact RD|]. unfold hec_dss_textRetrieve_answer. rewrite AN. cbn [bind tx_text text_copy tx_textChars back]. replace (0 <? len) with true by lia.
  unfold strncpy. replace (Z.min n len <? 0) with false by lia.
  assert (SB : strncpy_bytes (Z.to_nat (Z.min n len)) (stake len (s ++ [0]) ++ [0]) = Ok (stake (Z.min n len) (s ++ [0]))).
  { destruct (Z.eq_dec len (slen s + 1)) as [->|N].
    - assert (T : stake (slen s + 1) (s ++ [0]) = s ++ [0]) by (unfold stake; apply firstn_all2; unfold slen; rewrite app_length; cbn [length]; lia). rewrite T, <- app_assoc. cbn [app].
      destruct (Z.eq_dec (Z.min n (slen s + 1)) (slen s + 1)) as [M|M].
      + rewrite M, T. replace (Z.to_nat (slen s + 1)) with (S (length s)) by (unfold slen; lia). apply strncpy_nul, plain_nz, P.
      + rewrite strncpy_plain by (try apply plain_nz, P; unfold slen in *; lia). f_equal. unfold stake. rewrite firstn_app. replace (_ - length s)%nat with 0%nat by (unfold slen in *; lia).
        rewrite app_nil_r. reflexivity.
    - assert (T : stake len (s ++ [0]) = stake len s) by (unfold stake; rewrite firstn_app; replace (_ - length s)%nat with 0%nat by (unfold slen in *; lia); apply app_nil_r).
      rewrite T. rewrite strncpy_plain.
      + f_equal. unfold stake. rewrite firstn_firstn, firstn_app. replace (_ - length s)%nat with 0%nat by (unfold slen in *; lia). rewrite app_nil_r. f_equal. lia.
      + apply forall_stake. apply plain_nz, P.
      + unfold stake. rewrite firstn_length. unfold slen in *. lia. }
  rewrite SB. cbn [bind]. assert (LS : slen (stake (Z.min n len) (s ++ [0])) = Z.min n len) by (unfold slen, stake in *; rewrite firstn_length, app_length; cbn [length]; lia).
  rewrite copy_start by (unfold slen, alen in *; lia). cbn [bind]. rewrite (firstn_all2 (stake (Z.min n len) (s ++ [0]))) by (unfold slen; lia).
  do 2 f_equal. replace (len >? n) with (negb (len <=? n)) by lia. destruct (len <=? n); reflexivity.
Qed.
Print Assumptions C51_text_partial.

(** ** Array records *)

(** After any history: the counts are those of the arrays stored (nothing for a null pointer), and each buffer that is asked for
    exactly that count is filled; a buffer with another count is left alone, although the status is 0.
    _partial: the histories covered by C22. *)
Theorem C51_array_partial : forall c W ops1 s1 now prog path ints ni floats nf doubles nd x s2 ops2 s3 q bi mi bf mf bd md,
  usable c -> 0 <= ni -> room ints ni -> 0 <= nf -> room floats nf -> 0 <= nd -> room doubles nd ->
  hec_dss_arrayStore_request path ints ni floats nf doubles nd = Ok x ->
  runs c W (new_file c) ops1 s1 -> allowed c W s1 (Write now prog x) -> exec c (Write now prog x) s1 = Some (Done, s2) ->
  runs c W s2 ops2 s3 -> untouched path ops2 -> canon q = canon path -> name_ok q -> room bi mi -> room bf mf -> room bd md ->
  exists ct, reads c s3 q (Some ct) /\
    hec_dss_arrayRetrieveInfo_answer (Some ct) = Ok (Some (alen (handed ints ni), alen (handed floats nf), alen (handed doubles nd))) /\
    hec_dss_arrayRetrieve_answer (Some ct) bi mi bf mf bd md =
      Ok (Okay, filled (handed ints ni) bi mi, filled (handed floats nf) bf mf, filled (handed doubles nd) bd md).
Proof.
  intros c W ops1 s1 now prog path ints ni floats nf doubles nd x s2 ops2 s3 q bi mi bf mf bd md U I0 I1 F0 F1 D0 D1 E R1 A X R2 UT CQ NQ RI RF RD.
  unfold hec_dss_arrayStore_request in E. rewrite !given_handed in E by assumption. cbn [bind] in E. injection E as <-.
  destruct (C43_array_record_partial c W ops1 s1 now prog path _ s2 ops2 s3 q U R1 A X R2 UT CQ NQ) as (ct & RR & AN).
  exists ct. split; [exact RR|]. unfold hec_dss_arrayRetrieveInfo_answer, hec_dss_arrayRetrieve_answer. rewrite AN. cbn [bind ar_ints ar_floats ar_doubles]. split; [reflexivity|].
  rewrite !array_filled by assumption. reflexivity.
Qed.
Print Assumptions C51_array_partial.
Theorem C51_array_request : forall path ints ni floats nf doubles nd, 0 <= ni -> room ints ni -> 0 <= nf -> room floats nf -> 0 <= nd -> room doubles nd ->
  exists x, hec_dss_arrayStore_request path ints ni floats nf doubles nd = Ok x /\ x_path x = path.
Proof.
  intros. unfold hec_dss_arrayStore_request. rewrite !given_handed by assumption. cbn [bind]. eexists. split; reflexivity.
Qed.
Print Assumptions C51_array_request.

(** ** Paired data *)

(** the table as the caller of the interface gives it: doubles, row after row of one curve after the other; the labels with their NULs *)
Lemma el_all l l' k : count (AD l) = k -> k <= Z.of_nat (length l') -> (forall i, 0 <= i < k -> el (AD l) i = Some (D (nth (Z.to_nat i) l' (0, 0)))) -> l = firstn (Z.to_nat k) l'.
Proof.
  cbn [count]. intros L L' H. apply aget_ext; [unfold alen; rewrite firstn_length; lia|]. intros i Hi. unfold alen in Hi. rewrite aget_firstn by lia. specialize (H i ltac:(lia)).
  unfold el in H. unfold aget. destruct (i <? 0); [discriminate|]. destruct (nth_error l (Z.to_nat i)) eqn:E; [|discriminate]. cbn in H. injection H as ->.
  rewrite (nth_error_nth' l' (0, 0)) by lia. reflexivity.
Qed.
Lemma el_nth l i : 0 <= i < Z.of_nat (length l) -> num_at (AD l) i = D (nth (Z.to_nat i) l (0, 0)).
Proof. intros H. unfold num_at, el. destruct (i <? 0) eqn:E; [lia|]. rewrite (nth_error_nth' l (0, 0)) by lia. reflexivity. Qed.

(** Whatever the record was before, a table stored through the interface is given back, when the caller asks for the right numbers of
    ordinates and values; with other numbers the call fails and the buffers are left alone.  The labels are cut to the buffer.
    _partial: tables of C49; the lengths given with the two arrays are those of the arrays (the library does not look at them). *)
Theorem C51_pd_partial : forall widen narrow junk old ords vals n c labs bo no bv nv bl nl,
  PdSpec.covered (PutAll 2 (AD ords) (AD vals) n c labs) None -> room bo no -> room bv nv ->
  match labs with Some _ => exists b, bl = Some b /\ nl <= alen b | None => True end ->
  exists r, hec_dss_pdStore widen narrow junk ords vals n c (option_map (fun _ => lab_bytes labs) labs) (alen (lab_bytes labs)) old = Ok (true, Some r) /\
    hec_dss_pdRetrieve widen narrow bo no bv nv bl nl (Some r) = Ok (
      if (no =? n) && (nv =? n * c) then
        (Okay, n, c, option_map (overlay (firstn (Z.to_nat n) ords)) bo, option_map (overlay (firstn (Z.to_nat (n * c)) vals)) bv,
         match labs with Some (ls, _) => option_map (overlay (stake nl (text ls))) bl | None => bl end)
      else (Failed, 0, 0, bo, bv, bl)).
Proof.
  intros widen narrow junk old ords vals n c labs bo no bv nv bl nl HC RO RV HL.
  destruct (put_all_ok widen narrow junk 2 (AD ords) (AD vals) n c labs None old HC) as (r & E & t & Et & RP). exists r. split.
  - unfold hec_dss_pdStore. cbn [request snd] in E. destruct labs as [[ls extra]|]; cbn [option_map]; [|exact E].
    replace (alen (lab_bytes (Some (ls, extra))) <? 0) with false by (unfold alen; lia). rewrite read_start by (unfold alen; lia). rewrite firstn_all2 by (unfold alen; lia). exact E.
  - pose proof HC as (_ & (N1 & C1 & M1) & _ & HO & HV & HLB). cbn [count] in HO, HV. injection Et as <-.
    destruct (read_ok widen narrow _ r 2 0 0 0 0 0 0 RP ltac:(lia) (or_introl (conj eq_refl eq_refl)) (or_introl (conj eq_refl eq_refl)) (or_introl eq_refl) (or_introl eq_refl)) as (o & Eo & S).
    unfold hec_dss_pdRetrieve. rewrite Eo. cbn [bind]. unfold shows in S. cbn [t_n t_c t_dbl t_ord t_val t_labs wanted Z.eqb] in S.
    change (upto 0 n) with n in S. change (upto 0 c) with c in S. change (from 0) with 0 in S. rewrite !Z.sub_0_r in S. change (kind 2 (AD ords)) with true in S.
    change ((2 =? 2)%positive) with true in S.
    destruct S as (SD & SN & SC & _ & _ & S1 & S2 & S3 & S4 & S5). rewrite SN, SC. destruct (n =? no) eqn:E1; cbn [negb].
    2:{ replace (no =? n) with false by lia. reflexivity. }
    assert (no = n) by lia. subst no. rewrite Z.eqb_refl. cbn [andb]. assert (P : 1 <= c * n <= 50000000) by (clear - N1 C1 M1; nia). rewrite chk32_ok by (unfold in32, INT_MIN, INT_MAX; lia). cbn [bind].
    destruct (c * n =? nv) eqn:E2; cbn [negb].
    2:{ replace (nv =? n * c) with false by lia. reflexivity. }
    assert (nv = n * c) by lia. subst nv. rewrite Z.eqb_refl. clear E1 E2.
    destruct o as [d on oc orows ocur oo ov ol]. cbn [o_dbl o_n o_c o_ords o_vals o_labels] in *. subst d.
    assert (HOO : oo = AD (firstn (Z.to_nat n) ords)).
    { destruct oo as [l|l].
      - specialize (S3 0 ltac:(lia)). rewrite el_nth in S3 by lia. unfold el in S3. destruct (0 <? 0); [discriminate|]. destruct (nth_error l _); discriminate.
      - f_equal. apply el_all; [exact S1|lia|]. intros i Hi. rewrite (S3 i Hi). rewrite el_nth by lia. reflexivity. }
    assert (HVV : ov = AD (firstn (Z.to_nat (n * c)) vals)).
    { destruct ov as [l|l].
      - specialize (S4 0 0 ltac:(lia) ltac:(lia)). rewrite el_nth in S4 by lia. unfold el in S4. destruct (0 * n + 0 <? 0); [discriminate|]. destruct (nth_error l _); discriminate.
      - f_equal. apply el_all; [exact S2|lia|]. intros i Hi. assert (Q : 0 <= i mod n < n /\ 0 <= i / n < c /\ i / n * n + i mod n = i).
        { pose proof (Z.div_mod i n ltac:(lia)). pose proof (Z.mod_pos_bound i n ltac:(lia)). split; [lia|]. split; [|lia]. split; [apply Z.div_pos; lia|]. apply Z.div_lt_upper_bound; lia. }
        destruct Q as (Q1 & Q2 & Q3). specialize (S4 (i mod n) (i / n) Q1 Q2). rewrite Q3 in S4. rewrite S4. rewrite !Z.add_0_l. rewrite Q3. rewrite el_nth by lia. reflexivity. }
    assert (HLL : exists b, (if (if alen ol >? nl then nl else alen ol) >? 0 then match bl with None => Undef | Some d => let* d' := copy_loop (Z.to_nat (if alen ol >? nl then nl else alen ol)) ol 0 d 0 in Ok (Some d') end else Ok bl) = Ok b /\
      b = match labs with Some (ls, _) => option_map (overlay (stake nl (text ls))) bl | None => bl end).
    { destruct labs as [[ls extra]|]; cbn [labels_of option_map fst] in S5.
      - destruct HL as (b & -> & HB). specialize (S5 ltac:(right; split; reflexivity)). destruct HLB as (LC & _). assert (OL : ol = text ls).
        { rewrite S5. unfold some_labels. change (Z.to_nat 0) with 0%nat. cbn [skipn]. rewrite firstn_all2 by lia. reflexivity. }
        rewrite OL. cbn [option_map]. destruct (alen (text ls) >? nl) eqn:G.
        + destruct (nl >? 0) eqn:G2.
          * rewrite copy_start by lia. cbn [bind]. eexists. split; reflexivity.
          * eexists. split; [reflexivity|]. unfold stake. replace (Z.to_nat nl) with 0%nat by lia. reflexivity.
        + destruct (alen (text ls) >? 0) eqn:G2.
          * rewrite copy_start by lia. cbn [bind]. eexists. split; [reflexivity|]. unfold stake. rewrite !(firstn_all2 (text ls)) by (unfold alen in *; lia). reflexivity.
          * eexists. split; [reflexivity|]. unfold stake. rewrite !(firstn_all2 (text ls)) by (unfold alen in *; lia). unfold alen in *. destruct (text ls); [reflexivity|cbn [length] in *; lia].
      - subst ol. change (alen []) with 0. destruct (0 >? nl) eqn:G.
        + replace (nl >? 0) with false by lia. eexists. split; reflexivity.
        + cbn. eexists. split; reflexivity. }
    destruct HLL as (b & EL & EB). rewrite EL. cbn [bind]. rewrite HOO, HVV. cbn [doubles_of bind]. rewrite (Z.mul_comm c n).
    assert (L1 : alen (firstn (Z.to_nat n) ords) = n) by (unfold alen; rewrite firstn_length; lia).
    assert (L2 : alen (firstn (Z.to_nat (n * c)) vals) = n * c) by (unfold alen; rewrite firstn_length; lia).
    rewrite (array_copy_n _ bo n L1 RO). cbn [bind]. rewrite (array_copy_n _ bv _ L2 RV). cbn [bind]. rewrite <- EB. reflexivity.
Qed.
Print Assumptions C51_pd_partial.

(** ** Time series *)

(** A series with one value at each time, read whole: the number of values given back is as many as fit in the arrays, each with its own
    time, and its quality when there is quality and it is asked for; nothing beyond is touched.
    _partial: the series of C50 (intervals up to a week), one word of quality. *)
Theorem C51_ts_partial : forall miss t ta va size qa width, is_read t -> short_window t -> times_fit t -> depth t = 0 ->
  size <= alen ta -> size <= alen va -> (0 < width -> size <= alen qa /\ qsize t = 1 /\ exists q, qual t = Some q) ->
  let n := Z.max 0 (Z.min (num t) size) in
  exists q', hec_dss_tsRetrieve miss t ta va size qa width =
      Ok (Okay, n, overlay (time_list t 0 n) ta, overlay (firstn (Z.to_nat n) (vals t)) va, q') /\
    (width <= 0 -> q' = qa) /\ (forall q, 0 < width -> qual t = Some q -> q' = overlay (firstn (Z.to_nat n) q) qa).
Proof.
  intros miss t ta va size qa width R W F D0 HA HV HQ n.
  destruct (C50_whole_partial miss t 0 R W F ltac:(lia) ltac:(lia)) as (t' & E & (P & _ & _ & T)). change ((0 =? 0) || (0 =? -1)) with true in T. cbv iota in T.
  destruct P as (N' & DP & _ & V' & Q' & _). replace (num t - 1 - 0 + 1) with (num t) in * by lia.
  pose proof R as (N0 & _ & LV & _ & _ & RQ & _). assert (WD : TrimSpec.width t = 1) by (unfold TrimSpec.width; rewrite D0; reflexivity). rewrite WD, Z.mul_1_r in *.
  assert (VV : vals t' = vals t). { rewrite V'. unfold rows. rewrite Z.mul_0_l, Z.mul_1_r. cbn [Z.to_nat skipn]. apply firstn_all2. lia. }
  assert (LT : length (time_list t 0 (num t)) = Z.to_nat (num t)) by (unfold time_list; rewrite map_length, seq_length; reflexivity).
  assert (FT : firstn (Z.to_nat n) (time_list t 0 (num t)) = time_list t 0 n).
  { unfold time_list. rewrite firstn_map. f_equal. assert (X : forall a b c, (a <= b)%nat -> firstn a (seq c b) = seq c a).
    { clear. induction a as [|a IH]; intros b c H; [reflexivity|]. destruct b; [lia|]. cbn [seq firstn]. f_equal. apply IH. lia. }
    apply X. lia. }
  assert (NB : 0 <= n <= num t) by lia.
  unfold hec_dss_tsRetrieve. rewrite E. cbn [bind negb]. rewrite DP, D0. cbn [Z.gtb Z.compare]. rewrite N'. fold n.
  assert (C1 : copy_loop (Z.to_nat n) (time_list t 0 (num t)) 0 ta 0 = Ok (overlay (time_list t 0 n) ta)) by (rewrite copy_start by (unfold alen in *; lia); rewrite FT; reflexivity).
  assert (C2 : copy_loop (Z.to_nat n) (vals t') 0 va 0 = Ok (overlay (firstn (Z.to_nat n) (vals t)) va)) by (rewrite VV, copy_start by (unfold alen in *; lia); reflexivity).
  destruct (width >? 0) eqn:EW.
  - destruct (HQ ltac:(lia)) as (LQ & QS & q & EQ). destruct (RQ q EQ) as (_ & LQ2 & _). rewrite QS, Z.mul_1_r in LQ2. rewrite EQ in Q'. cbn [option_map] in Q'. rewrite QS in Q'.
    assert (QQ : rows q 1 0 (num t) = q). { unfold rows. rewrite Z.mul_0_l, Z.mul_1_r. cbn [Z.to_nat skipn]. apply firstn_all2. lia. }
    rewrite QQ in Q'. exists (overlay (firstn (Z.to_nat n) q) qa). split; [|split; [lia|intros q0 _ E0; congruence]].
    rewrite (ts_copy_ok t' width (Z.to_nat n) 0 ta va qa (overlay (time_list t 0 n) ta) (overlay (firstn (Z.to_nat n) (vals t)) va) (overlay (firstn (Z.to_nat n) q) qa)).
    + reflexivity.
    + rewrite T. exact C1.
    + exact C2.
    + rewrite EW, Q'. rewrite copy_start by (unfold alen in *; lia). reflexivity.
  - exists qa. split; [|split; [reflexivity|lia]].
    rewrite (ts_copy_ok t' width (Z.to_nat n) 0 ta va qa (overlay (time_list t 0 n) ta) (overlay (firstn (Z.to_nat n) (vals t)) va) qa).
    + reflexivity.
    + rewrite T. exact C1.
    + exact C2.
    + rewrite EW. reflexivity.
Qed.
Print Assumptions C51_ts_partial.

(** ** Catalogue *)

(** As many names as asked for, or as there are; name [j] is in the [j]th piece of the buffer, cut to fit with its NUL, its type beside
    it; nothing beyond the last piece is touched. *)
Theorem C51_catalog : forall names types buf rt count size, 0 < size -> 0 <= count -> alen types = alen names ->
  Forall (Forall (fun c => c <> 0)) names -> Z.min count (alen names) * size <= alen buf <= INT_MAX -> Z.min count (alen names) <= alen rt ->
  let n := Z.min count (alen names) in
  exists b, hec_dss_catalog names types buf rt count size = Ok (n, b, overlay (firstn (Z.to_nat n) types) rt) /\ alen b = alen buf /\
    (forall j, 0 <= j < n -> item b size j = Ok (stake (size - 1) (nth (Z.to_nat j) names []))) /\ sdrop (n * size) b = sdrop (n * size) buf.
Proof.
  intros names types buf rt count size S0 C0 LT NZ LB LR n. pose proof (alen_nonneg names).
  destruct (catalog_copy_ok size names types S0 LT (Z.to_nat n) 0 buf rt) as (b & t & E & ET & L & _ & SD & IT); try lia.
  rewrite Z.add_0_l, Z2Nat.id in * by lia. rewrite copy_start in ET by lia. injection ET as <-.
  exists b. split; [|split; [exact L|split; [|exact SD]]].
  - unfold hec_dss_catalog. replace (if alen names >? count then count else alen names) with n by (destruct (alen names >? count) eqn:G; lia). rewrite E. reflexivity.
  - intros j Hj. destruct (IT j Hj) as (w & EW). unfold item. rewrite EW. apply cstr_in_buf. apply forall_stake. rewrite Forall_forall in NZ. apply NZ. apply nth_In. unfold alen in *. lia.
Qed.
Print Assumptions C51_catalog.

(** ** Cases *)
Definition hello : list Z := [72; 101; 108; 108; 111; 46].  (* "Hello." *)
Definition hello_x : xfer := match hec_dss_textStore_request (nm 65) (hello ++ [0]) 6 with Ok (Some x) => x | _ => req [] [] [] [] end.
Example C51_text_example : plain hello /\ hec_dss_textStore_request (nm 65) (hello ++ 0 :: []) 6 = Ok (Some hello_x) /\
  match exec cd (Write 4 (0, 0) hello_x) (new_file cd) with
  | Some (Done, s2) => match exec cd (Read (nm 65)) s2 with
      | Some (Data ct, _) => hec_dss_textRetrieve_answer ct (repeat 9 8) 8 = Ok (Okay, hello ++ [9; 9]) /\ hec_dss_textRetrieve_answer ct (repeat 9 8) 4 = Ok (TooSmall, [72; 101; 108; 108; 9; 9; 9; 9])
      | _ => False end
  | _ => False
  end.
Proof. split; [|split; vm_compute; [reflexivity|split; reflexivity]]. split; [discriminate|]. split; [repeat constructor; cbn; lia|cbn; lia]. Qed.
Example C51_array_example :
  match hec_dss_arrayStore_request (nm 65) (Some [1; 2; 3]) 3 None 0 (Some [(4, 5); (6, 7); (8, 9)]) 2 with
  | Ok x => match exec cd (Write 4 (0, 0) x) (new_file cd) with
      | Some (Done, s2) => match exec cd (Read (nm 65)) s2 with
          | Some (Data ct, _) => hec_dss_arrayRetrieveInfo_answer ct = Ok (Some (3, 0, 2)) /\
              hec_dss_arrayRetrieve_answer ct (Some [0; 0; 0; 0]) 3 (Some [7]) 0 (Some [(0, 0)]) 1 = Ok (Okay, Some [1; 2; 3; 0], Some [7], Some [(0, 0)])
          | _ => False end
      | _ => False end
  | _ => False
  end.
Proof. vm_compute. split; reflexivity. Qed.
Example C51_pd_example :
  PdSpec.covered (PutAll 2 (AD [(1, 1); (2, 2)]) (AD [(3, 3); (4, 4); (5, 5); (6, 6)]) 2 2 (Some ([[65]; [66; 67]], 0))) None /\
  (let* '(ok, r) := hec_dss_pdStore (fun x => (x, 0)) fst 7 [(1, 1); (2, 2)] [(3, 3); (4, 4); (5, 5); (6, 6)] 2 2 (Some [65; 0; 66; 67; 0]) 5 None in
   let* o := hec_dss_pdRetrieve (fun x => (x, 0)) fst (Some (repeat (0, 0) 2)) 2 (Some (repeat (0, 0) 4)) 4 (Some (repeat 9 6)) 6 r in Ok (ok, o)) =
      Ok (true, (Okay, 2, 2, Some [(1, 1); (2, 2)], Some [(3, 3); (4, 4); (5, 5); (6, 6)], Some [65; 0; 66; 67; 0; 9])).
Proof.
  split.
  - cbn. unfold small, clean. repeat split; try lia; try (intros l [<-|[<-|[]]]; cbn; lia).
  - vm_compute. reflexivity.
Qed.
Example C51_catalog_example : hec_dss_catalog [[47; 65; 47]; [47; 66; 66; 47]; [47; 67; 47]] [100; 300; 200] (repeat 9 9) [0; 0; 0] 2 4 =
  Ok (2, [47; 65; 47; 0; 47; 66; 66; 0; 9], [100; 300; 0]).
Proof. reflexivity. Qed.

(** ** What goes wrong: the texts and arguments left out above *)

(** Two blanks at the end of a text given with its length: the library reads past the memory of its own copy. *)
Theorem C51_refuted_trailing_blanks : hec_dss_textStore_request (nm 65) ([72; 105; 32; 32] ++ [0]) 4 = Undef.
Proof. vm_compute. reflexivity. Qed.
Print Assumptions C51_refuted_trailing_blanks.
(** Text with a letter outside ASCII ("Zürich" in UTF-8): cut after the first such byte, and read past the copy. *)
Definition zuerich : list Z := [90; 195; 188; 114; 105; 99; 104].
Theorem C51_refuted_utf8 : mallocAndCopy (zuerich ++ [0]) = Ok [90; 195; 0] /\ hec_dss_textStore_request (nm 65) (zuerich ++ [0]) 7 = Undef.
Proof. vm_compute. split; reflexivity. Qed.
Print Assumptions C51_refuted_utf8.
(** One character and two blanks: the blanks are not all removed, unlike those of longer texts. *)
Theorem C51_refuted_blank_removal : mallocAndCopy [65; 32; 32; 0] = Ok [65; 32; 0] /\ mallocAndCopy [65; 66; 32; 32; 0] = Ok [65; 66; 0].
Proof. vm_compute. split; reflexivity. Qed.
Print Assumptions C51_refuted_blank_removal.
(** The text given back in a buffer of its own size has no NUL after it. *)
Theorem C51_refuted_no_nul : exists ct, hec_dss_textRetrieve_answer (Some ct) (repeat 9 6) 6 = Ok (Okay, hello) /\ cstr hello = Undef.
Proof. exists (stored hello_x). vm_compute. split; reflexivity. Qed.
Print Assumptions C51_refuted_no_nul.
(** Asking for quality of a series that has none is a null pointer read. *)
Theorem C51_refuted_no_quality : forall miss t ta va qa size width, is_read t -> short_window t -> times_fit t -> depth t = 0 -> qual t = None ->
  0 < width -> 0 < size <= alen ta -> size <= alen va -> hec_dss_tsRetrieve miss t ta va size qa width = Undef.
Proof.
  intros miss t ta va qa size width R W F D0 Q0 HW HS HV.
  destruct (C50_whole_partial miss t 0 R W F ltac:(lia) ltac:(lia)) as (t' & E & (P & _ & _ & T)).
  destruct P as (N' & DP & _ & V' & Q' & _). rewrite Q0 in Q'. cbn [option_map] in Q'. replace (num t - 1 - 0 + 1) with (num t) in * by lia.
  unfold hec_dss_tsRetrieve. rewrite E. cbn [bind negb]. rewrite DP, D0. cbn [Z.gtb Z.compare]. rewrite N'. pose proof R as (N0 & _).
  destruct (Z.to_nat (Z.max 0 (Z.min (num t) size))) as [|k] eqn:EK; [lia|]. cbn [ts_copy]. rewrite Q'. replace (width >? 0) with true by lia.
  destruct (match times t' with Some l => _ | None => _ end) as [ta'|]; [|reflexivity]. cbn [bind]. destruct (aget (vals t') 0) as [v|]; [|reflexivity]. cbn [bind].
  destruct (aset va 0 v); reflexivity.
Qed.
Print Assumptions C51_refuted_no_quality.
(** Quality given with the values of a series is not stored: it is read back as zeros (stored with the struct it is kept). *)
Theorem C51_refuted_quality_dropped : let ms := fun v => v =? -901 in
  (let* '(ok, s) := hec_dss_tsStoreRegular ms (-901) false 3600 40178 3600 [1; 2; 3] (Some [5; 6; 7]) 0 (fun _ => None) in
   let* r := read_series_n (-901) 3600 40178 3600 3 s in Ok (ok, r)) = Ok (true, Some ([1; 2; 3], [0; 0; 0], true)) /\
  (let* '(ok, s) := store_series ms (-901) false 3600 40178 3600 0 [1; 2; 3] (Some [5; 6; 7]) (fun _ => None) in
   let* r := read_series_n (-901) 3600 40178 3600 3 s in Ok (ok, r)) = Ok (true, Some ([1; 2; 3], [5; 6; 7], true)).
Proof. vm_compute. split; reflexivity. Qed.
Print Assumptions C51_refuted_quality_dropped.
