(** * C12: time strings. *)
From Coq Require Import ZArith List Bool Lia ZifyBool.
From Verif Require Import Base ArrayLib CStr HashModel DateModel DateTextModel PackModel TextSpec.
Import ListNotations.
Open Scope Z_scope.
Open Scope res_scope.
Ltac Zify.zify_post_hook ::= Z.to_euclidean_division_equations.

Lemma aset_app {A} (p : list A) x q v : aset (p ++ x :: q) (Z.of_nat (length p)) v = Ok (p ++ v :: q).
Proof.
  unfold aset. destruct (Z.of_nat (length p) <? 0) eqn:E; [lia|]. rewrite Nat2Z.id.
  rewrite upd_nat_some by (rewrite app_length; cbn; lia).
  rewrite firstn_app, firstn_all, Nat.sub_diag. cbn [firstn]. rewrite app_nil_r.
  rewrite skipn_app. replace (S (length p) - length p)%nat with 1%nat by lia.
  rewrite skipn_all2 by lia. reflexivity.
Qed.

Lemma put_chars_app s : forall p m q, length m = length s ->
  put_chars (p ++ m ++ q) (Z.of_nat (length p)) s = Ok (p ++ s ++ q).
Proof.
  induction s as [|c t IH]; intros p m q H.
  - destruct m; [reflexivity|discriminate].
  - destruct m as [|x m]; [discriminate|]. cbn [put_chars app]. rewrite aset_app. cbn [bind].
    replace (Z.of_nat (length p) + 1) with (Z.of_nat (length (p ++ [c]))) by (rewrite app_length; cbn; lia).
    replace (p ++ c :: m ++ q) with ((p ++ [c]) ++ m ++ q) by (rewrite <- app_assoc; reflexivity).
    rewrite IH by (cbn in H; lia). rewrite <- app_assoc. reflexivity.
Qed.

Lemma put_chars_cat a c : forall b i, put_chars b i (a ++ c) = (let* b1 := put_chars b i a in put_chars b1 (i + slen a) c).
Proof.
  induction a as [|x a IH]; intros b i.
  - cbn [app put_chars bind]. f_equal. cbn. lia.
  - cbn [app put_chars]. destruct (aset b i x) as [b'|]; [|reflexivity]. cbn [bind]. rewrite IH.
    destruct (put_chars b' (i + 1) a) as [b1|]; [|reflexivity]. cbn [bind].
    replace (i + 1 + slen a) with (i + slen (x :: a)); [reflexivity|unfold slen; cbn [length]; lia].
Qed.

Lemma put_chars_split b i s : 0 <= i -> i + slen s <= alen b ->
  put_chars b i s = Ok (stake i b ++ s ++ sdrop (i + slen s) b).
Proof.
  unfold slen, alen, stake, sdrop. intros Hi H.
  pose proof (put_chars_app s (firstn (Z.to_nat i) b) (firstn (length s) (skipn (Z.to_nat i) b))
                (skipn (length s) (skipn (Z.to_nat i) b))) as P.
  rewrite firstn_skipn, firstn_skipn in P.
  rewrite !firstn_length, skipn_length in P. rewrite skipn_plus in P.
  replace (Z.of_nat (Nat.min (Z.to_nat i) (length b))) with i in P by lia.
  replace (Z.to_nat (i + Z.of_nat (length s))) with (Z.to_nat i + length s)%nat by lia.
  apply P. lia.
Qed.

Lemma cstr_app s q : forallb (fun c => negb (c =? 0)) s = true -> cstr (s ++ 0 :: q) = Ok s.
Proof.
  induction s as [|c t IH]; intros H; [reflexivity|].
  cbn [forallb] in H. apply andb_true_iff in H. destruct H as [H1 H2].
  cbn [app cstr]. destruct (c =? 0); [discriminate|]. rewrite IH by auto. reflexivity.
Qed.

(** the text the model builds is the specified one *)
Definition hh (s : Z) := Z.quot s SECS_IN_1_HOUR.
Lemma two_eq v : 0 <= v -> [Z.quot v 10 + 48; v - Z.quot v 10 * 10 + 48] = two_digits v.
Proof. intros H. unfold two_digits. f_equal; [|f_equal]; lia. Qed.
Lemma hms_eq s : 0 <= s ->
  Z.quot s SECS_IN_1_HOUR = s / 3600 /\
  Z.quot (s - Z.quot s SECS_IN_1_HOUR * SECS_IN_1_HOUR) SECS_IN_1_MINUTE = s / 60 mod 60 /\
  s - Z.quot s SECS_IN_1_HOUR * SECS_IN_1_HOUR -
    Z.quot (s - Z.quot s SECS_IN_1_HOUR * SECS_IN_1_HOUR) SECS_IN_1_MINUTE * SECS_IN_1_MINUTE = s mod 60.
Proof.
  intros H. unfold SECS_IN_1_HOUR, SECS_IN_1_MINUTE.
  assert (A : Z.quot s 3600 = s / 3600) by lia. rewrite A.
  replace (s - s / 3600 * 3600) with (s mod 3600) by lia.
  assert (B : Z.quot (s mod 3600) 60 = s / 60 mod 60).
  { rewrite Z.quot_div_nonneg by lia. replace 3600 with (60 * 60) by reflexivity.
    rewrite Z.rem_mul_r by lia. rewrite Z.mul_comm, Z.div_add by lia.
    rewrite (Z.div_small (s mod 60) 60) by lia. lia. }
  split; [reflexivity|]. split; [exact B|]. rewrite B. lia.
Qed.

Lemma two_nz n : 0 <= n < 100 -> forallb (fun c => negb (c =? 0)) (two_digits n) = true.
Proof.
  intros H. unfold two_digits. cbn [forallb]. rewrite andb_true_r.
  apply andb_true_iff. split; apply negb_true_iff, Z.eqb_neq; lia.
Qed.
Lemma time_text_nz style s : 0 <= s <= 86400 -> forallb (fun c => negb (c =? 0)) (time_text style s) = true.
Proof.
  intros H.
  pose proof (two_nz (s / 3600) ltac:(lia)) as A. pose proof (two_nz (s / 60 mod 60) ltac:(lia)) as B.
  pose proof (two_nz (s mod 60) ltac:(lia)) as C. unfold time_text.
  destruct (style =? 0); [|destruct (style =? 1)]; rewrite !forallb_app, ?A, ?B, ?C; reflexivity.
Qed.
Lemma time_text_len style s : 0 <= style <= 2 -> slen (time_text style s) = time_room style - 1.
Proof. intros H. unfold time_text, time_room. destruct (style =? 0); [reflexivity|]. destruct (style =? 1); reflexivity. Qed.

(** writing a text and its terminator at the start of a buffer *)
Lemma put_text buf t : slen t + 1 <= alen buf ->
  (let* b := put_chars buf 0 t in aset b (slen t) 0) = Ok (t ++ 0 :: sdrop (slen t + 1) buf).
Proof.
  intros H. pose proof (Nat2Z.is_nonneg (length t)) as N. rewrite put_chars_split by (unfold slen in *; lia). cbn [bind].
  change (stake 0 buf) with (@nil Z). cbn [app]. rewrite Z.add_0_l.
  assert (D : exists x, sdrop (slen t) buf = x :: sdrop (slen t + 1) buf).
  { unfold sdrop, slen, alen in *. destruct (skipn (Z.to_nat (Z.of_nat (length t))) buf) as [|x r] eqn:E.
    - assert (L : length (skipn (Z.to_nat (Z.of_nat (length t))) buf) = 0%nat) by (rewrite E; reflexivity).
      rewrite skipn_length in L. lia.
    - exists x. f_equal. replace (Z.to_nat (Z.of_nat (length t) + 1)) with (Z.to_nat (Z.of_nat (length t)) + 1)%nat by lia.
      rewrite <- skipn_plus, E. reflexivity. }
  destruct D as (x & D). rewrite D. apply aset_app.
Qed.

(** ** C12, formatting: a buffer that is large enough receives exactly the text and its NUL; the rest of the
    buffer is not touched *)
Theorem C12_format : forall s mills style buf size, 0 <= s <= 86400 -> 0 <= style <= 2 ->
  time_room style <= size -> size <= alen buf ->
  secondsToTimeString s mills style buf size = Ok (time_text style s ++ 0 :: sdrop (time_room style) buf).
Proof.
  intros s mills style buf size Hs Hst Hr Hb.
  pose proof (time_text_len style s Hst) as HL.
  replace (time_room style) with (slen (time_text style s) + 1) by lia.
  rewrite <- put_text by lia.
  unfold secondsToTimeString.
  assert (R5 : 5 <= time_room style) by (unfold time_room; destruct (style =? 0); [lia|]; destruct (style =? 1); lia).
  replace (size <? 5) with false by lia.
  replace ((style <? 0) || (style >? 3) || (s <? 0) || (s >? SECS_IN_1_DAY)) with false by (unfold SECS_IN_1_DAY; lia).
  destruct (hms_eq s ltac:(lia)) as (H1 & H2 & H3). rewrite H3, H2, H1. clear H1 H2 H3. rewrite !two_eq by lia.
  unfold time_room, time_text in *.
  destruct (style =? 0) eqn:E0; [|destruct (style =? 1) eqn:E1].
  - assert (style = 0) by lia; subst style. cbn [negb app Z.ltb Z.compare orb].
    destruct (put_chars buf 0 _) as [b|]; [|reflexivity]. cbn [bind].
    match goal with |- (if ?c then _ else _) = _ => replace c with true by (cbn; lia) end. reflexivity.
  - assert (style = 1) by lia; subst style. cbn [negb app Z.ltb Z.compare orb Pos.compare Pos.compare_cont].
    destruct (put_chars buf 0 _) as [b|]; [|reflexivity]. cbn [bind].
    match goal with |- (if ?c then _ else _) = _ => replace c with true by (cbn; lia) end. reflexivity.
  - assert (style = 2) by lia; subst style. cbn [negb].
    replace ((2 <? 2) || (size <? 9)) with false by lia.
    cbn [app].
    set (p1 := (two_digits (s / 3600) ++ 58 :: two_digits (s / 60 mod 60))).
    set (p2 := 58 :: two_digits (s mod 60)).
    replace (two_digits (s / 3600) ++ 58 :: two_digits (s / 60 mod 60) ++ p2) with (p1 ++ p2) by (unfold p1; rewrite <- app_assoc; reflexivity).
    change (slen p1) with 5. change (slen (p1 ++ p2)) with 8 in *.
    assert (PP : put_chars buf 0 (p1 ++ p2) = let* b1 := put_chars buf 0 p1 in put_chars b1 5 p2).
    { apply put_chars_cat. }
    rewrite PP. destruct (put_chars buf 0 p1) as [b1|]; [|reflexivity]. cbn [bind].
    destruct (put_chars b1 5 p2) as [b2|]; [|reflexivity]. cbn [bind].
    replace ((2 <? 3) || (size <? 13) || (mills >? 999) || (mills <? 0)) with true by lia.
    replace (size >? 5 + 3) with true by lia. reflexivity.
Qed.
Print Assumptions C12_format.

(** exhaustive evaluation of the parser on the texts of a day: hours 0..24, minutes, seconds *)
Definition parse_check (style h m s : Z) : bool :=
  let t := 3600 * h + 60 * m + s in
  match timeStringToSeconds (time_text style t) with Ok v => v =? time_precision style t | Undef => false end.
Definition hms_all (P : Z -> Z -> Z -> bool) : bool :=
  forallb (fun h => forallb (fun m => forallb (fun s => P (Z.of_nat h) (Z.of_nat m) (Z.of_nat s))
    (seq 0 60)) (seq 0 60)) (seq 0 25).
Lemma hms_all_spec P : hms_all P = true -> forall h m s, 0 <= h <= 24 -> 0 <= m <= 59 -> 0 <= s <= 59 -> P h m s = true.
Proof.
  unfold hms_all. intros H h m s Hh Hm Hs. rewrite forallb_forall in H.
  specialize (H (Z.to_nat h) ltac:(apply in_seq; lia)). rewrite forallb_forall in H.
  specialize (H (Z.to_nat m) ltac:(apply in_seq; lia)). rewrite forallb_forall in H.
  specialize (H (Z.to_nat s) ltac:(apply in_seq; lia)). rewrite !Z2Nat.id in H by lia. exact H.
Qed.
Definition hm_all (P : Z -> Z -> bool) : bool :=
  forallb (fun h => forallb (fun m => P (Z.of_nat h) (Z.of_nat m)) (seq 0 60)) (seq 0 25).
Lemma hm_all_spec P : hm_all P = true -> forall h m, 0 <= h <= 24 -> 0 <= m <= 59 -> P h m = true.
Proof.
  unfold hm_all. intros H h m Hh Hm. rewrite forallb_forall in H.
  specialize (H (Z.to_nat h) ltac:(apply in_seq; lia)). rewrite forallb_forall in H.
  specialize (H (Z.to_nat m) ltac:(apply in_seq; lia)). rewrite !Z2Nat.id in H by lia. exact H.
Qed.
Lemma parse_sweep2 : hms_all (parse_check 2) = true.
Proof. vm_compute. reflexivity. Qed.
Lemma parse_sweep01 : hm_all (fun h m => parse_check 0 h m 0 && parse_check 1 h m 0) = true.
Proof. vm_compute. reflexivity. Qed.

(** ** C12, parsing: reading the text of a time gives back the time, to the precision of the style *)
Theorem C12_parse : forall style s, 0 <= style <= 2 -> 0 <= s <= 86400 ->
  timeStringToSeconds (time_text style s) = Ok (time_precision style s).
Proof.
  intros style s Hst Hs.
  assert (S3 : s / 3600 = s / 60 / 60) by (rewrite Z.div_div by lia; reflexivity).
  assert (E : style = 2 \/ style = 0 \/ style = 1) by lia.
  destruct E as [E|E].
  - subst style. pose proof (hms_all_spec _ parse_sweep2 (s / 3600) (s / 60 mod 60) (s mod 60)
      ltac:(lia) ltac:(lia) ltac:(lia)) as Q.
    unfold parse_check in Q.
    replace (3600 * (s / 3600) + 60 * (s / 60 mod 60) + s mod 60) with s in Q by (rewrite S3; lia).
    destruct (timeStringToSeconds (time_text 2 s)); [|discriminate]. f_equal. lia.
  - pose proof (hm_all_spec _ parse_sweep01 (s / 3600) (s / 60 mod 60) ltac:(lia) ltac:(lia)) as Q.
    apply andb_true_iff in Q. unfold parse_check in Q.
    replace (3600 * (s / 3600) + 60 * (s / 60 mod 60) + 0) with (60 * (s / 60)) in Q by (rewrite S3; lia).
    assert (T : time_text style s = time_text style (60 * (s / 60))).
    { unfold time_text. replace (60 * (s / 60) / 60) with (s / 60) by lia.
      replace (60 * (s / 60) / 3600) with (s / 3600) by (rewrite S3; change 3600 with (60 * 60); rewrite <- Z.div_div by lia;
        replace (60 * (s / 60) / 60) with (s / 60) by lia; reflexivity).
      destruct E as [-> | ->]; reflexivity. }
    rewrite T. replace (time_precision style s) with (time_precision style (60 * (s / 60))).
    2:{ unfold time_precision. destruct (style =? 2) eqn:E2; [lia|]. lia. }
    destruct Q as [Q0 Q1]. destruct E as [-> | ->];
      destruct (timeStringToSeconds _); try discriminate; f_equal; lia.
Qed.
Print Assumptions C12_parse.

(** ** C12, round trip through the caller's buffer *)
Theorem C12_round_trip : forall s mills style buf size, 0 <= s <= 86400 -> 0 <= style <= 2 ->
  time_room style <= size -> size <= alen buf ->
  exists b t, secondsToTimeString s mills style buf size = Ok b /\ cstr b = Ok t /\
    timeStringToSeconds t = Ok (time_precision style s).
Proof.
  intros s mills style buf size Hs Hst Hr Hb. rewrite C12_format by auto. do 2 eexists. split; [reflexivity|].
  rewrite cstr_app by (apply time_text_nz; auto). split; [reflexivity|]. apply C12_parse; auto.
Qed.
Print Assumptions C12_round_trip.

Lemma put_chars_ok b i s : 0 <= i -> i + slen s <= alen b -> exists b', put_chars b i s = Ok b' /\ alen b' = alen b.
Proof.
  intros Hi H. rewrite put_chars_split by auto. eexists; split; [reflexivity|].
  unfold alen, slen, stake, sdrop in *. rewrite !app_length, firstn_length, skipn_length. lia.
Qed.
Lemma aset_ok' {A} (b : list A) i v : 0 <= i < alen b -> exists b', aset b i v = Ok b' /\ alen b' = alen b.
Proof. intros H. destruct (aset_ok b i v H) as (b' & E & L & _). eauto. Qed.

(** ** C12: no time, style or milliseconds makes the formatter write outside the caller's buffer *)
Theorem C12_no_overflow : forall secs mills style buf size, 0 <= size -> size <= alen buf ->
  exists b, secondsToTimeString secs mills style buf size = Ok b /\ alen b = alen buf.
Proof.
  intros secs mills style buf size H0 Hb. unfold secondsToTimeString.
  destruct (size <? 5) eqn:E5; [eauto|].
  destruct ((style <? 0) || (style >? 3) || (secs <? 0) || (secs >? SECS_IN_1_DAY)) eqn:EB; [apply aset_ok'; lia|].
  set (h := Z.quot secs SECS_IN_1_HOUR). set (m := Z.quot _ SECS_IN_1_MINUTE). set (x := secs - _ - _). clearbody h m x. clear EB.
  cbv zeta.
  match goal with |- context [put_chars buf 0 ?p] => set (p1 := p) end.
  assert (L1 : 4 <= slen p1 <= 5) by (unfold p1, slen; destruct (negb (style =? 0)); cbn; lia).
  destruct (put_chars_ok buf 0 p1 ltac:(lia) ltac:(lia)) as (b1 & -> & A1). cbn [bind]. clearbody p1.
  destruct ((style <? 2) || (size <? 9)) eqn:E2.
  - destruct (size >? slen p1) eqn:E3; [|eauto]. rewrite <- A1. apply aset_ok'. lia.
  - match goal with |- context [put_chars b1 ?n ?p] => destruct (put_chars_ok b1 n p) as (b2 & -> & A2);
      [lia|change (slen p) with 3; lia|] end. cbn [bind].
    destruct ((style <? 3) || (size <? 13) || (mills >? 999) || (mills <? 0)) eqn:E3.
    + destruct (size >? slen p1 + 3) eqn:E4; [|exists b2; split; [reflexivity|lia]].
      destruct (aset_ok' b2 (slen p1 + 3) 0) as (b3 & -> & A3); [lia|]. exists b3; split; [reflexivity|lia].
    + match goal with |- context [put_chars b2 ?n ?p] => destruct (put_chars_ok b2 n p) as (b3 & -> & A3);
        [lia|change (slen p) with 5; lia|] end. exists b3; split; [reflexivity|lia].
Qed.
Print Assumptions C12_no_overflow.

(** minutes past midnight written as hhmm, and read back *)
Theorem C12_minutes : forall mins buf size, 0 <= mins <= 1440 -> 5 <= size -> size <= alen buf ->
  minutesToHourMin mins buf size = Ok (time_text 0 (60 * mins) ++ 0 :: sdrop 5 buf) /\
  timeStringToSeconds (time_text 0 (60 * mins)) = Ok (60 * mins).
Proof.
  intros mins buf size Hm H5 Hb. split.
  - unfold minutesToHourMin. replace (size <? 5) with false by lia.
    rewrite !two_eq by lia.
    rewrite put_chars_split by (cbn; lia). change (stake 0 buf) with (@nil Z). cbn [app].
    unfold time_text. cbn [Z.eqb].
    replace (60 * mins / 3600) with (Z.quot mins 60) by lia.
    replace (60 * mins / 60 mod 60) with (mins - Z.quot mins 60 * 60).
    2:{ replace (60 * mins / 60) with mins by lia. lia. }
    reflexivity.
  - rewrite C12_parse by lia. unfold time_precision. cbn [Z.eqb]. f_equal. lia.
Qed.
Print Assumptions C12_minutes.

Example C12_example : secondsToTimeString 45296 0 2 (repeat 90 10) 9 = Ok [49; 50; 58; 51; 52; 58; 53; 54; 0; 90] /\
  timeStringToSeconds [49; 50; 58; 51; 52; 58; 53; 54] = Ok 45296.
Proof. split; vm_compute; reflexivity. Qed.

(** with a five-byte buffer hh:mm is written without a terminator *)
Theorem C12_refuted_unterminated : exists b, secondsToTimeString 45240 0 1 (repeat 90 5) 5 = Ok b /\ cstr b = Undef.
Proof. eexists. split; [vm_compute; reflexivity|]. vm_compute; reflexivity. Qed.
Print Assumptions C12_refuted_unterminated.
(** the binary32 sum rounds up: the last millisecond of the day reads back as the next second *)
Theorem C12_refuted_milliseconds : exists b t, secondsToTimeString 86399 999 3 (repeat 0 13) 13 = Ok b /\ cstr b = Ok t /\
  timeStringToSeconds t = Ok 86400.
Proof. do 2 eexists. split; [vm_compute; reflexivity|]. split; [vm_compute; reflexivity|]. vm_compute; reflexivity. Qed.
Print Assumptions C12_refuted_milliseconds.
