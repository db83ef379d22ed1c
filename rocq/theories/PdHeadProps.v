(** * C60: strings in the internal header of a paired-data record. *)
From Coq Require Import ZArith List Bool Lia ZifyBool.
From Verif Require Import Base ArrayLib PackModel PackProps HashModel CStr CStrProofs TimeTextProps PathModel PathSpec PathProofs PathProps
  TextModel TextProps HdrModel HdrProps PdHeadModel.
Import ListNotations.
Open Scope Z_scope.
Open Scope res_scope.

(** ** lemmas *)
Definition width (s : option (list Z)) : Z := numberLongsInBytes (trimLength (match s with Some t => t | None => repeat 32 7 end) + 1) * 8.
Definition widths (l : list (option (list Z))) : Z := fold_right (fun s a => width s + a) 0 l.
Lemma append_width src c p size a : appendStringToHeader src c p size = Ok a -> snd a = p + width src.
Proof.
  unfold appendStringToHeader, zcharTo8Byte, width. intros E. set (it := match src with Some s => s | None => repeat 32 7 end) in *.
  cbv zeta in E. destruct (p >? alen c); [discriminate|]. cbn [bind] in E. set (l := trimLength it) in *.
  destruct (numberLongsInBytes (l + 1) * 8 =? l + 1) eqn:EJ.
  - destruct (stringCopy _ _ it (Some l)) as [r|]; [|discriminate]. cbn [bind fst snd] in E.
    destruct (if p + l <? size - 1 then aset _ _ 0 else Ok _) as [r2|]; [|discriminate]. cbn [bind] in E. injection E as <-. cbn [snd]. lia.
  - destruct (stringCopy _ _ _ _) as [r|]; [|discriminate]. cbn [bind fst snd] in E.
    destruct (if _ <? size - 1 then aset _ _ 0 else Ok _) as [r2|]; [|discriminate]. cbn [bind] in E. injection E as <-. cbn [snd]. lia.
Qed.
Lemma width_pos s : 8 <= width s /\ width s mod 8 = 0.
Proof.
  unfold width, numberLongsInBytes. set (it := match s with Some t => t | None => repeat 32 7 end). destruct (trimLength_spec it) as (_ & _ & _ & TL & _).
  replace (0 <? trimLength it + 1) with true by lia. rewrite Z.quot_div_nonneg by lia. pose proof (Z.div_pos (trimLength it + 1 - 1) 8 ltac:(lia) ltac:(lia)).
  split; [lia|]. apply Z.mod_mul. lia.
Qed.
Lemma widths_nonneg l : 0 <= widths l.
Proof. induction l as [|s t IH]; [cbn; lia|]. change (widths (s :: t)) with (width s + widths t). pose proof (width_pos s). lia. Qed.
Lemma widths_mod l : widths l mod 8 = 0.
Proof. induction l as [|s t IH]; [reflexivity|]. change (widths (s :: t)) with (width s + widths t). destruct (width_pos s) as (_ & M). rewrite Z.add_mod, M, IH by lia. reflexivity. Qed.
Lemma append_all_width l : forall c p size c' n, append_all l c p size = Ok (c', n) -> n = p + widths l.
Proof.
  induction l as [|s t IH]; intros c p size c' n E; cbn [append_all] in E; [injection E as _ <-; cbn; lia|].
  destruct (appendStringToHeader s c p size) as [a|] eqn:A; [|discriminate]. cbn [bind] in E. apply append_width in A. apply IH in E.
  change (widths (s :: t)) with (width s + widths t). lia.
Qed.
Lemma until_of_all l : forall c p size c' n, append_all l c p size = Ok (c', n) -> n < size -> append_until l c p size = Ok (Some (c', n)).
Proof.
  induction l as [|s t IH]; intros c p size c' n E HN; cbn [append_all] in E; cbn [append_until]; [injection E as <- <-; reflexivity|].
  destruct (appendStringToHeader s c p size) as [a|] eqn:A; [|discriminate]. cbn [bind] in *.
  pose proof (append_all_width _ _ _ _ _ _ E). pose proof (widths_nonneg t). replace (snd a >=? size) with false by lia. apply IH; assumption.
Qed.

(** one call, when the strings fit *)
Lemma one_call strings h arraySize carray : Forall given_string strings -> strings <> [] -> rooms strings < alen carray - 2 -> widths strings <= (arraySize - 5) * 4 ->
  24 + alen carray <= 4 * slen h ->
  exists A w Bq Cq l Ps, h = A ++ w :: Bq ++ Cq /\ slen A = 5 /\ length Bq = length l /\ Forall2 packs strings Ps /\ bytes_of_ints l = packed Ps /\
    4 * slen l = widths strings /\ slen (packed Ps) = widths strings /\ widths strings <= rooms strings /\
    zpdUnitsToHead strings h arraySize carray = Ok (A ++ 538976288 :: l ++ Cq, slen l + 6).
Proof.
  intros HG NE HR HA HH.
  destruct (append_all_spec strings [] carray (alen carray - 2) HG) as (Ps & rest & E & F2 & L & B & M & k & K);
    [unfold alen; fold (slen carray); reflexivity|change (slen []) with 0; unfold alen in *; fold (slen carray) in *; lia|].
  cbn [app] in E, L. change (slen []) with 0 in E. rewrite Z.add_0_l in E. set (n := slen (packed Ps)) in *.
  pose proof (append_all_width _ _ _ _ _ _ E) as EW. rewrite Z.add_0_l in EW.
  assert (CP : bytes (packed Ps)).
  { clear - F2. induction F2 as [|? ? ? ? HP ? IH]; [constructor|]. rewrite packed_cons. apply Forall_app. split; [|constructor; [lia|exact IH]].
    destruct HP as (HP & _). eapply Forall_impl; [|exact HP]. cbn. intros; lia. }
  assert (N0 : 0 < n).
  { rewrite EW. destruct strings as [|s t]; [congruence|]. change (widths (s :: t)) with (width s + widths t). pose proof (width_pos s). pose proof (widths_nonneg t). lia. }
  set (k4 := Z.to_nat (n / 4)). assert (N4 : n = 4 * Z.of_nat k4).
  { unfold k4. pose proof (Z.div_mod n 8 ltac:(lia)). rewrite M in H. assert (n / 4 = 2 * (n / 8)) by (symmetry; apply Z.div_unique with (r := 0); lia). lia. }
  assert (NI : numberIntsInBytes n = Z.of_nat k4).
  { unfold numberIntsInBytes. replace (0 <? n) with true by lia. rewrite Z.quot_div_nonneg by lia. rewrite N4. replace (4 * Z.of_nat k4 - 1) with (3 + (Z.of_nat k4 - 1) * 4) by lia.
    rewrite Z.div_add by lia. change (3 / 4) with 0. lia. }
  set (l := ints_of_bytes k4 (packed Ps ++ [0; 0; 0; 0])).
  assert (LN : Z.of_nat (length (packed Ps)) = n) by reflexivity.
  assert (TI : to_ints (packed Ps ++ rest) n = Ok l).
  { unfold to_ints, get_prefix. rewrite app_length. replace (n <=? Z.of_nat (length (packed Ps) + length rest)) with true by lia. cbn [bind]. rewrite NI, Nat2Z.id.
    replace (Z.to_nat n) with (length (packed Ps)) by lia. rewrite firstn_app, firstn_all, Nat.sub_diag. cbn [firstn]. rewrite app_nil_r. reflexivity. }
  assert (LL : length l = k4) by apply ints_len.
  assert (BL : bytes_of_ints l = packed Ps).
  { unfold l. rewrite bytes_ints; [|apply Forall_app; split; [exact CP|repeat constructor; lia]|rewrite app_length; cbn [length]; lia].
    replace (4 * k4)%nat with (length (packed Ps)) by lia. rewrite firstn_app, firstn_all, Nat.sub_diag. cbn [firstn]. apply app_nil_r. }
  assert (HD : exists A w B C, h = A ++ w :: B ++ C /\ slen A = 5 /\ length B = k4).
  { exists (firstn 5 h). destruct (skipn 5 h) as [|w h1] eqn:SK; [assert (length (skipn 5 h) = 0%nat) by (rewrite SK; reflexivity); rewrite skipn_length in *; unfold slen in HH; lia|].
    assert (length h1 = length h - 6)%nat by (assert (X : length (skipn 5 h) = S (length h1)) by (rewrite SK; reflexivity); rewrite skipn_length in X; lia).
    exists w, (firstn k4 h1), (skipn k4 h1). rewrite !firstn_skipn, <- SK, firstn_skipn. split; [reflexivity|]. unfold slen in *. rewrite !firstn_length. lia. }
  destruct HD as (A & w & Bq & Cq & -> & LA & LB).
  set (W := 538976288).
  assert (P1 : put_ints (A ++ w :: Bq ++ Cq) 5 [W] = Ok (A ++ W :: Bq ++ Cq)).
  { unfold put_ints. cbn [length copy_loop]. change (aget [W] 0) with (Ok W). cbn [bind]. rewrite <- LA, aset_slen. reflexivity. }
  assert (P2 : put_ints (A ++ W :: Bq ++ Cq) 6 l = Ok (A ++ W :: l ++ Cq)).
  { unfold put_ints. pose proof (copy_mid l [] (A ++ [W]) Bq Cq ltac:(lia)) as Q. cbn [app] in Q. change (slen []) with 0 in Q. rewrite slen_app, LA in Q.
    change (5 + slen [W]) with 6 in Q. rewrite <- !app_assoc in Q. cbn [app] in Q. exact Q. }
  assert (LL' : slen l = Z.of_nat k4) by (unfold slen; lia).
  exists A, w, Bq, Cq, l, Ps. split; [reflexivity|]. split; [exact LA|]. split; [lia|]. split; [exact F2|]. split; [exact BL|]. split; [lia|]. split; [exact EW|]. split; [lia|].
  unfold zpdUnitsToHead. cbv zeta. rewrite (until_of_all _ _ _ _ _ _ E) by lia. cbn [bind]. unfold INT_HEAD_pdUnits.
  replace (n >? (arraySize - 5) * 4) with false by lia. fold W. rewrite P1. cbn [bind]. rewrite TI. cbn [bind]. change (5 + 1) with 6. rewrite P2. cbn [bind].
  rewrite NI, LL'. do 2 f_equal. lia.
Qed.

Lemma assign_until_spec srcs Ps : Forall2 packs srcs Ps -> forall X r,
  exists l, assign_until (length srcs) (X ++ packed Ps ++ r) (slen X) = Ok l /\ Forall2 read_back srcs l.
Proof.
  induction 1 as [|s P srcs Ps HP _ IH]; intros X r; cbn [length assign_until]; [exists []; split; [reflexivity|constructor]|].
  destruct HP as (C & B & M & T).
  rewrite packed_cons, <- app_assoc. cbn [app]. rewrite sdrop_app, cstr_c by assumption. cbn [bind]. cbv zeta.
  replace (slen P =? 0) with false by lia.
  destruct (IH (X ++ P ++ [0]) r) as (l & E & F). rewrite <- !app_assoc in E. cbn [app] in E.
  replace (slen (X ++ P ++ [0])) with (slen X + slen P + 1) in E by (rewrite !slen_app; change (slen [0]) with 1; lia).
  rewrite E. cbn [bind]. eexists. split; [reflexivity|]. constructor; [|exact F].
  replace (if trimLength P >? 0 then Some (mallocAndCopyTrim P) else None) with (match trim_of P with [] => None | u => Some u end).
  - apply read_back_of; exact T.
  - rewrite copyTrim. destruct (trimLength_spec P) as (b & EP & Hb & TL & TZ). destruct (trim_of P) as [|c u] eqn:TT.
    + apply trim_of_nil in TT. apply TZ in TT. rewrite TT. reflexivity.
    + destruct (trimLength P >? 0) eqn:G; [reflexivity|]. exfalso. assert (BP : blank_text P) by (apply TZ; lia). apply trim_of_nil in BP. congruence.
Qed.

Lemma unpack_spec strings A l more Ps carray2 : slen A = 5 -> length strings = 5%nat -> Forall2 packs strings Ps -> bytes_of_ints l = packed Ps ->
  4 * slen l = slen (packed Ps) -> 0 < slen l -> slen (packed Ps) <= slen carray2 ->
  exists r, zpdHeadToUnits ((A ++ 538976288 :: l) ++ more) (slen l + 6) carray2 = Ok r /\ Forall2 read_back strings r.
Proof.
  intros LA L5 F2 BL SL SP HC. destruct (assign_until_spec _ _ F2 [] (sdrop (slen (packed Ps)) carray2)) as (r & EA & FA).
  cbn [app] in EA. change (slen []) with 0 in EA. rewrite L5 in EA. exists r. split; [|exact FA].
  rewrite <- app_assoc. cbn [app]. unfold zpdHeadToUnits, INT_HEAD_pdUnits. cbv zeta. replace (slen l + 6 - 5 <=? 0) with false by lia.
  assert (PAD : unitsHavePadding (A ++ 538976288 :: l ++ more) 5 = Ok true).
  { unfold unitsHavePadding. rewrite <- LA. replace (aget (A ++ 538976288 :: l ++ more) (slen A)) with (@Ok Z 538976288) by (symmetry; apply CStrProofs.aget_mid). reflexivity. }
  rewrite PAD. cbn [bind]. change (5 + 1) with 6.
  replace (Z.min ((slen l + 6 - 5 - 1) * 4) (alen carray2)) with (slen (packed Ps)) by (unfold alen; fold (slen carray2); lia).
  replace (sdrop 6 (A ++ 538976288 :: l ++ more)) with (l ++ more).
  - unfold from_ints, get_prefix. unfold bytes_of_ints. rewrite flat_map_app. fold (bytes_of_ints l). rewrite BL. rewrite app_length.
    replace (slen (packed Ps) <=? _) with true by (unfold slen; lia). cbn [bind].
    replace (Z.to_nat (slen (packed Ps))) with (length (packed Ps)) by (unfold slen; lia). rewrite firstn_app, firstn_all, Nat.sub_diag. cbn [firstn]. rewrite app_nil_r.
    rewrite copy_prefix by (unfold slen in *; lia). rewrite firstn_all. cbn [bind]. unfold sdrop in EA.
    replace (Z.to_nat (slen (packed Ps))) with (length (packed Ps)) in EA by (unfold slen; lia). exact EA.
  - replace (A ++ 538976288 :: l ++ more) with ((A ++ [538976288]) ++ l ++ more) by (rewrite <- app_assoc; reflexivity).
    replace 6 with (slen (A ++ [538976288])) by (rewrite slen_app, LA; reflexivity). rewrite sdrop_app. reflexivity.
Qed.

(** ** Theorems *)
(** Partial: five strings whose rooms add up to at most 397 bytes (longer ones: see the refutations below); storing the header succeeds; its words before the strings are those given, with
    the length of the labels at word 3; and reading it gives every string back, without its leading and trailing blanks, whatever
    the local arrays held. *)
Theorem C60_paired_strings_partial strings labels h carray carray' carray2 :
  length strings = 5%nat -> Forall given_string strings -> rooms strings <= 397 ->
  slen h = 200 -> slen carray = 400 -> slen carray' = 400 -> slen carray2 = 400 ->
  exists h' n, zpdStore_strings strings labels h carray carray' = Ok (h', n) /\
    6 < n <= 105 /\ n mod 2 = 0 /\ slen h' = slen h /\
    (forall i, 0 <= i < 5 -> i <> 3 -> aget h' i = aget h i) /\ aget h' 3 = Ok labels /\
    forall more, exists r, zpdHeadToUnits (stake n h' ++ more) n carray2 = Ok r /\ Forall2 read_back strings r.
Proof.
  intros L5 HG HR HH HC HC' H2.
  assert (NE : strings <> []) by (intros ->; discriminate L5).
  assert (A1 : alen carray = 400) by exact HC. assert (A2 : alen carray' = 400) by exact HC'.
  assert (WR : widths strings <= rooms strings).
  { destruct (append_all_spec strings [] carray (alen carray - 2) HG) as (Ps & rest & E & _ & _ & B & _);
      [unfold alen; fold (slen carray); reflexivity|change (slen []) with 0; lia|].
    change (slen []) with 0 in E. cbn [app] in E. apply append_all_width in E. lia. }
  destruct (one_call strings h 200 carray HG NE ltac:(lia) ltac:(lia) ltac:(lia)) as (A & w & Bq & Cq & l & Ps & EH & LA & LB & F2 & BL & SL & SP & _ & EC).
  unfold zpdStore_strings. rewrite EC. cbn [bind fst snd].
  assert (HA : exists a0 a1 a2 a3 a4, A = [a0; a1; a2; a3; a4]).
  { do 5 (destruct A as [|? A]; [unfold slen in LA; cbn in LA; lia|]). destruct A; [|unfold slen in LA; cbn in LA; lia]. repeat eexists. }
  destruct HA as (a0 & a1 & a2 & a3 & a4 & ->). set (W := 538976288) in *.
  replace (aset ([a0; a1; a2; a3; a4] ++ W :: l ++ Cq) 3 labels) with (@Ok (list Z) ([a0; a1; a2; labels; a4] ++ W :: l ++ Cq))
    by (symmetry; exact (aset_slen [a0; a1; a2] a3 (a4 :: W :: l ++ Cq) labels)).
  cbn [bind]. set (h1 := [a0; a1; a2; labels; a4] ++ W :: l ++ Cq).
  assert (LH1 : slen h1 = 200).
  { pose proof (f_equal (@length Z) EH) as LE. unfold h1, slen in *. rewrite app_length in LE |- *. cbn [length] in LE |- *. rewrite app_length in LE |- *. lia. }
  destruct (one_call strings h1 (slen l + 6) carray' HG NE ltac:(lia) ltac:(lia) ltac:(lia)) as (A' & w' & Bq' & Cq' & l' & Ps' & EH' & LA' & LB' & F2' & BL' & SL' & SP' & _ & EC').
  assert (HA' : A' = [a0; a1; a2; labels; a4]).
  { unfold h1 in EH'. assert (S5 : firstn 5 ([a0; a1; a2; labels; a4] ++ W :: l ++ Cq) = firstn 5 (A' ++ w' :: Bq' ++ Cq')) by (rewrite EH'; reflexivity).
    rewrite firstn_app in S5. replace (5 - length [a0; a1; a2; labels; a4])%nat with 0%nat in S5 by reflexivity. rewrite firstn_O, app_nil_r in S5.
    rewrite firstn_app in S5. replace (5 - length A')%nat with 0%nat in S5 by (unfold slen in LA'; lia). rewrite firstn_O, app_nil_r in S5.
    rewrite !firstn_all2 in S5 by (unfold slen in LA'; cbn [length]; lia). symmetry. exact S5. }
  rewrite EC'. set (h' := A' ++ W :: l' ++ Cq'). exists h', (slen l' + 6).
  pose proof (widths_mod strings) as WM. assert (W8 : 0 < widths strings).
  { destruct strings as [|s t]; [congruence|]. change (widths (s :: t)) with (width s + widths t). pose proof (width_pos s). pose proof (widths_nonneg t). lia. }
  assert (LL : slen l' = widths strings / 8 * 2) by (pose proof (Z.div_mod (widths strings) 8 ltac:(lia)); lia).
  assert (LH' : slen h' = slen h1).
  { unfold h'. rewrite EH'. rewrite !slen_app, !slen_cons, !slen_app. unfold slen. lia. }
  split; [reflexivity|]. split; [lia|]. split; [replace (slen l' + 6) with ((widths strings / 8 + 3) * 2) by lia; apply Z.mod_mul; lia|]. split; [lia|].
  split; [|split].
  - intros i Hi Hi3. unfold h'. rewrite HA', EH. assert (C : i = 0 \/ i = 1 \/ i = 2 \/ i = 4) by lia. destruct C as [->|[->|[->| ->]]]; reflexivity.
  - unfold h'. rewrite HA'. reflexivity.
  - intros more. assert (SH : stake (slen l' + 6) h' = A' ++ W :: l').
    { unfold h'. replace (A' ++ W :: l' ++ Cq') with ((A' ++ W :: l') ++ Cq') by (rewrite <- app_assoc; reflexivity).
      replace (slen l' + 6) with (slen (A' ++ W :: l')) by (rewrite slen_app, slen_cons; lia). apply stake_app. }
    rewrite SH. apply (unpack_spec strings A' l' more Ps' carray2 LA' L5 F2' BL'); lia.
Qed.
Print Assumptions C60_paired_strings_partial.
Example C60_paired_strings_example :
  let s := [Some [70; 84]; Some [76; 73; 78; 69; 65; 82]; Some [32; 67; 70; 83; 32]; None; Some [80; 83; 84]] in
  let h := [4; 2; 1; 0; 33] ++ repeat 99 195 in
  length s = 5%nat /\ Forall given_string s /\ rooms s <= 397 /\ slen h = 200 /\
  (exists h' n, zpdStore_strings s 40 h (repeat 255 400) (repeat 254 400) = Ok (h', n) /\ n = 16 /\ firstn 5 h' = [4; 2; 1; 40; 33] /\
     zpdHeadToUnits (stake n h') n (repeat 253 400) = Ok [Some [70; 84]; Some [76; 73; 78; 69; 65; 82]; Some [67; 70; 83]; None; Some [80; 83; 84]]).
Proof.
  cbv zeta. split; [reflexivity|]. split; [repeat constructor|]. split; [vm_compute; discriminate|]. split; [reflexivity|].
  eexists. eexists. split; [vm_compute; reflexivity|]. split; [reflexivity|]. split; vm_compute; reflexivity.
Qed.

(** ** Strings of any length: no write outside the arrays; the strings are stored or the header is left as it was *)
Lemma put_len s buf b : put_str buf s = Ok b -> alen b = alen buf.
Proof.
  revert buf b. induction s as [|c s IH]; intros buf b E; destruct buf as [|x buf]; cbn [put_str] in E; try discriminate E.
  - injection E as <-. reflexivity.
  - destruct (put_str buf s) as [t|] eqn:P; cbn [bind] in E; [|discriminate E]. injection E as <-. apply IH in P. unfold alen in *. cbn [length]. lia.
Qed.
Lemma copy_val_fits size src n : 0 < size -> slen (stringCopy_val size src (Some n)) < size.
Proof.
  intros H. unfold stringCopy_val. destruct (n <=? 0); [cbn; lia|]. unfold stake, slen. rewrite firstn_length. lia.
Qed.
Lemma append_safe src c p size : size <= alen c - 2 -> 0 <= p < size ->
  exists c' p', appendStringToHeader src c p size = Ok (c', p') /\ alen c' = alen c /\ p + 8 <= p'.
Proof.
  intros HS HP. unfold appendStringToHeader, zcharTo8Byte. set (it := match src with Some s => s | None => repeat 32 7 end).
  cbv zeta. replace (size - p <? 0) with false by lia. replace (p >? alen c) with false by lia.
  destruct (trimLength_spec it) as (_ & _ & _ & TL & _). set (l := trimLength it) in *.
  assert (J : l + 1 <= numberLongsInBytes (l + 1) * 8 /\ 8 <= numberLongsInBytes (l + 1) * 8).
  { unfold numberLongsInBytes. replace (0 <? l + 1) with true by lia. rewrite Z.quot_div_nonneg by lia. pose proof (Z.div_mod (l + 1 - 1) 8 ltac:(lia)). pose proof (Z.mod_pos_bound (l + 1 - 1) 8 ltac:(lia)).
    pose proof (Z.div_pos (l + 1 - 1) 8 ltac:(lia) ltac:(lia)). lia. }
  set (j := numberLongsInBytes (l + 1) * 8) in *.
  assert (LD : alen (sdrop p c) = alen c - p) by (unfold alen, sdrop in *; rewrite skipn_length; lia).
  assert (LT : alen (stake p c) = p) by (unfold alen, stake in *; rewrite firstn_length; lia).
  assert (SC : forall s n, exists r, stringCopy (sdrop p c) (size - p) s (Some n) = Ok r /\ alen (fst r) = alen c - p).
  { intros s n. unfold stringCopy. destruct (match n with 0 => true | _ => false end).
    - replace (size - p >? 0) with true by lia. destruct (aset_ok' (sdrop p c) 0 0 ltac:(lia)) as (b & -> & LB). cbn [bind]. eexists. split; [reflexivity|]. cbn [fst]. lia.
    - replace (size - p =? 0) with false by lia. pose proof (copy_val_fits (size - p) s n ltac:(lia)) as F.
      rewrite put_str_val by lia. cbn [bind]. eexists. split; [reflexivity|]. cbn [fst].
      pose proof (put_str_val (stringCopy_val (size - p) s (Some n)) (sdrop p c) ltac:(lia)) as PV. apply put_len in PV. lia. }
  assert (ST : forall r (q : Z), alen r = alen c - p -> p + 8 <= q + 1 -> exists c' p', (let* c0 := if q <? size - 1 then aset (stake p c ++ r) q 0 else Ok (stake p c ++ r) in Ok (c0, q + 1)) = Ok (c', p') /\ alen c' = alen c /\ p + 8 <= p').
  { intros r q LR HQ. assert (LA : alen (stake p c ++ r) = alen c) by (unfold alen in *; rewrite app_length; lia).
    destruct (q <? size - 1) eqn:EQ.
    - destruct (aset_ok' (stake p c ++ r) q 0 ltac:(lia)) as (b & -> & LB). cbn [bind]. eexists. eexists. split; [reflexivity|]. lia.
    - cbn [bind]. eexists. eexists. split; [reflexivity|]. lia. }
  destruct (j =? l + 1) eqn:EJ.
  - destruct (SC it l) as (r & -> & LR). cbn [bind fst snd]. apply ST; lia.
  - destruct (SC (stake l it ++ repeat 32 (Z.to_nat (j - 1 - l))) (j - 1)) as (r & -> & LR). cbn [bind fst snd]. apply ST; lia.
Qed.
Lemma until_safe l : forall c p size, size <= alen c - 2 -> 0 <= p < size ->
  exists a, append_until l c p size = Ok a /\ match a with Some (c', n) => alen c' = alen c /\ n = p + widths l /\ n < size | None => size <= p + widths l end.
Proof.
  induction l as [|s t IH]; intros c p size HS HP; cbn [append_until].
  - eexists. split; [reflexivity|]. cbn. lia.
  - destruct (append_safe s c p size HS HP) as (c' & p' & E & L & G). rewrite E. cbn [bind fst snd]. apply append_width in E. cbn [snd] in E.
    change (widths (s :: t)) with (width s + widths t). pose proof (widths_nonneg t). destruct (p' >=? size) eqn:EP.
    + eexists. split; [reflexivity|]. cbv beta iota. lia.
    + destruct (IH c' p' size ltac:(lia) ltac:(lia)) as (a & -> & H'). eexists. split; [reflexivity|]. destruct a as [(c2 & n)|]; [|lia]. destruct H' as (? & ? & ?). repeat split; lia.
Qed.

(** one call, strings of any length: the strings are put after the word 5, or nothing is written *)
Lemma one_safe strings h arraySize carray : Forall given_string strings -> strings <> [] -> alen carray = 400 -> slen h = 200 ->
  (widths strings < 398 -> widths strings <= (arraySize - 5) * 4) ->
  exists h' n, zpdUnitsToHead strings h arraySize carray = Ok (h', n) /\ slen h' = 200 /\ firstn 5 h' = firstn 5 h /\
    (398 <= widths strings -> h' = h /\ n = 100) /\ (widths strings < 398 -> n = widths strings / 4 + 6).
Proof.
  intros HG NE HC HH HA. destruct (until_safe strings carray 0 398 ltac:(lia) ltac:(lia)) as (a & E & HR).
  unfold zpdUnitsToHead. cbv zeta. rewrite HC. change (400 - 2) with 398. rewrite E. cbn [bind].
  destruct a as [(c & n)|].
  - destruct HR as (LC & EN & LN). rewrite Z.add_0_l in EN. subst n. unfold INT_HEAD_pdUnits. specialize (HA LN).
    pose proof (widths_mod strings) as WM. pose proof (Z.div_mod (widths strings) 8 ltac:(lia)) as DM.
    assert (W8 : 0 < widths strings).
    { destruct strings as [|s t]; [congruence|]. change (widths (s :: t)) with (width s + widths t). pose proof (width_pos s). pose proof (widths_nonneg t). lia. }
    replace (widths strings >? (arraySize - 5) * 4) with false by lia.
    set (k := 2 * (widths strings / 8)). assert (W4 : widths strings = k * 4) by lia.
    assert (D4 : widths strings / 4 = k) by (rewrite W4; apply Z.div_mul; lia).
    assert (NI : numberIntsInBytes (widths strings) = k).
    { unfold numberIntsInBytes. replace (0 <? widths strings) with true by lia. rewrite Z.quot_div_nonneg by lia. rewrite W4. replace (k * 4 - 1) with (3 + (k - 1) * 4) by lia.
      rewrite Z.div_add by lia. change (3 / 4) with 0. lia. }
    unfold to_ints, get_prefix. replace (widths strings <=? Z.of_nat (length c)) with true by (unfold alen in *; lia). cbn [bind]. rewrite NI.
    set (l := ints_of_bytes _ _). assert (LL : length l = Z.to_nat k) by apply ints_len.
    assert (HD : exists A w B C, h = A ++ w :: B ++ C /\ slen A = 5 /\ length B = length l).
    { exists (firstn 5 h). destruct (skipn 5 h) as [|w h1] eqn:SK; [assert (length (skipn 5 h) = 0%nat) by (rewrite SK; reflexivity); rewrite skipn_length in *; unfold slen in HH; lia|].
      assert (length h1 = length h - 6)%nat by (assert (X : length (skipn 5 h) = S (length h1)) by (rewrite SK; reflexivity); rewrite skipn_length in X; lia).
      exists w, (firstn (length l) h1), (skipn (length l) h1). rewrite !firstn_skipn, <- SK, firstn_skipn. split; [reflexivity|]. unfold slen in *. rewrite !firstn_length. lia. }
    destruct HD as (A & w & Bq & Cq & -> & LA & LB). set (W := 538976288).
    assert (P1 : put_ints (A ++ w :: Bq ++ Cq) 5 [W] = Ok (A ++ W :: Bq ++ Cq)).
    { unfold put_ints. cbn [length copy_loop]. change (aget [W] 0) with (Ok W). cbn [bind]. rewrite <- LA, aset_slen. reflexivity. }
    assert (P2 : put_ints (A ++ W :: Bq ++ Cq) 6 l = Ok (A ++ W :: l ++ Cq)).
    { unfold put_ints. pose proof (copy_mid l [] (A ++ [W]) Bq Cq ltac:(lia)) as Q. cbn [app] in Q. change (slen []) with 0 in Q. rewrite slen_app, LA in Q.
      change (5 + slen [W]) with 6 in Q. rewrite <- !app_assoc in Q. cbn [app] in Q. exact Q. }
    rewrite P1. cbn [bind]. change (5 + 1) with 6. rewrite P2. cbn [bind].
    eexists. eexists. split; [reflexivity|].
    split; [rewrite <- HH; rewrite !slen_app, !slen_cons, !slen_app; unfold slen; lia|].
    split; [rewrite !firstn_app; replace (5 - length A)%nat with 0%nat by (unfold slen in LA; lia); reflexivity|].
    split; [intros; lia|]. intros _. lia.
  - exists h, 100. split; [reflexivity|]. split; [exact HH|]. split; [reflexivity|]. split; [intros; split; reflexivity|intros; lia].
Qed.

(** Five strings of any length: storing the header never leaves its arrays, keeps the words before the strings, and gives a size inside the header. *)
Theorem C60_never_overruns strings labels h carray carray' :
  length strings = 5%nat -> Forall given_string strings -> slen h = 200 -> slen carray = 400 -> slen carray' = 400 ->
  exists h' n, zpdStore_strings strings labels h carray carray' = Ok (h', n) /\ 6 < n <= 105 /\ slen h' = 200 /\
    (forall i, 0 <= i < 5 -> i <> 3 -> aget h' i = aget h i) /\ aget h' 3 = Ok labels.
Proof.
  intros L5 HG HH HC HC'. assert (NE : strings <> []) by (intros ->; discriminate L5).
  pose proof (widths_nonneg strings) as W0. pose proof (widths_mod strings) as WM.
  assert (W8 : 0 < widths strings).
  { destruct strings as [|s t]; [congruence|]. change (widths (s :: t)) with (width s + widths t). pose proof (width_pos s). pose proof (widths_nonneg t). lia. }
  assert (D : widths strings = 4 * (widths strings / 4)).
  { pose proof (Z.div_mod (widths strings) 8 ltac:(lia)). apply Z.div_exact; [lia|]. replace (widths strings) with (widths strings / 8 * 2 * 4) by lia. apply Z.mod_mul. lia. }
  destruct (one_safe strings h 200 carray HG NE HC HH ltac:(lia)) as (h1 & n1 & E1 & L1 & F1 & D1 & S1).
  unfold zpdStore_strings. rewrite E1. cbn [bind fst snd].
  destruct h as [|a0 [|a1 [|a2 [|a3 [|a4 h]]]]]; try (unfold slen in HH; cbn in HH; lia).
  destruct h1 as [|b0 [|b1 [|b2 [|b3 [|b4 h1]]]]]; try (unfold slen in L1; cbn in L1; lia).
  cbn [firstn] in F1. injection F1 as -> -> -> -> ->.
  replace (aset (a0 :: a1 :: a2 :: a3 :: a4 :: h1) 3 labels) with (@Ok (list Z) (a0 :: a1 :: a2 :: labels :: a4 :: h1))
    by (symmetry; exact (aset_slen [a0; a1; a2] a3 (a4 :: h1) labels)). cbn [bind].
  assert (LL : slen (a0 :: a1 :: a2 :: labels :: a4 :: h1) = 200) by (rewrite <- L1; unfold slen; cbn [length]; reflexivity).
  destruct (one_safe strings (a0 :: a1 :: a2 :: labels :: a4 :: h1) n1 carray' HG NE HC' LL ltac:(lia)) as (h2 & n2 & E2 & L2 & F2 & D2 & S2).
  rewrite E2. exists h2, n2. split; [reflexivity|].
  split; [destruct (Z_lt_le_dec (widths strings) 398) as [C|C]; [rewrite (S2 C); lia|destruct (D2 C) as (_ & ->); lia]|]. split; [exact L2|].
  destruct h2 as [|b0 [|b1 [|b2 [|b3 [|b4 h2]]]]]; try (unfold slen in L2; cbn in L2; lia). cbn [firstn] in F2. injection F2 as -> -> -> -> ->.
  split; [|reflexivity]. intros i Hi Hi3. assert (C : i = 0 \/ i = 1 \/ i = 2 \/ i = 4) by lia. destruct C as [->|[->|[->| ->]]]; reflexivity.
Qed.
Print Assumptions C60_never_overruns.

(** ** What fails for longer strings *)
(** 398 bytes or more: nothing is stored and nothing is reported.  The header array is a local array that was never filled, so what is
    written to the file, and read back as the strings of the record, is whatever the memory held: here a unit nobody gave. *)
Theorem C60_refuted_garbage : exists strings h h' r, length strings = 5%nat /\ Forall given_string strings /\ slen h = 200 /\
  zpdStore_strings strings 0 h (repeat 255 400) (repeat 255 400) = Ok (h', 100) /\
  zpdHeadToUnits (stake 100 h') 100 (repeat 0 400) = Ok r /\
  nth 0 strings None <> None /\ nth 0 r None = Some [88; 89; 90] /\ nth 2 r None = None /\ nth 2 strings None = Some [67; 70; 83].
Proof.
  exists [Some (repeat 65 200); None; Some [67; 70; 83]; Some (repeat 66 200); None], (repeat 0 5 ++ [538976288; 5921112] ++ repeat 0 193).
  eexists. eexists. split; [reflexivity|]. split; [cbn; repeat constructor|]. split; [reflexivity|].
  split; [vm_compute; reflexivity|]. split; [vm_compute; reflexivity|]. split; [discriminate|]. split; [reflexivity|]. split; reflexivity.
Qed.
Print Assumptions C60_refuted_garbage.
(** and if the memory held no zero byte, reading the record reads past the array of 400 bytes *)
Theorem C60_refuted_read_overrun : exists strings h h', length strings = 5%nat /\ Forall given_string strings /\ slen h = 200 /\
  zpdStore_strings strings 0 h (repeat 255 400) (repeat 255 400) = Ok (h', 100) /\ zpdHeadToUnits (stake 100 h') 100 (repeat 65 400) = Undef.
Proof.
  exists [Some (repeat 65 200); None; None; Some (repeat 66 200); None], (repeat 0 5 ++ repeat 1094795585 195).
  eexists. split; [reflexivity|]. split; [cbn; repeat constructor|]. split; [reflexivity|]. split; vm_compute; reflexivity.
Qed.
Print Assumptions C60_refuted_read_overrun.
