(** * C52: the location of a site is found again under any pathname of the site. *)
From Coq Require Import ZArith List Lia Bool ZifyBool.
From Verif Require Import Base ArrayLib PackModel PackProps CStr CStrProofs PathSpec PathModel PathProofs PathProps FileModel FileSpec FileHistSpec FileProps FileRefute TextModel TextProps HecModel HecSpec HecProofs HecProps LocModel LocSpec.
Import ListNotations.
Open Scope Z_scope.
Open Scope res_scope.

(** ** The name *)
Theorem C52_name : forall junk parts, alen junk = 7 -> six parts -> slen (partA parts) + slen (partB parts) <= 1000000000 ->
  zlocationPath junk (path_text parts) = Ok (location_name (partA parts) (partB parts)).
Proof.
  intros junk parts J (H6 & NS) HB. unfold zlocationPath. rewrite positions_spec by assumption. cbn [bind].
  do 6 (destruct parts as [|? parts]; [discriminate H6|]). destruct parts; [|discriminate H6]. cbn [partA partB nth] in *. cbn [map positions6].
  set (n := 1 + slen l + 1 + slen l0 + 1). change (aget _ 2) with (@Ok Z n). cbn [bind]. change (slen LOCATION_PATH) with 17.
  pose proof (slen_nonneg l). pose proof (slen_nonneg l0). rewrite chk32_ok by (unfold in32, INT_MIN, INT_MAX; lia). cbn [bind]. replace (n + 17 + 1 <? 1) with false by lia.
  f_equal. set (pre := 47 :: (l ++ [47]) ++ (l0 ++ [47])). assert (LP : slen pre = n) by (unfold pre, n, slen; cbn [length]; rewrite !app_length; cbn [length]; lia).
  assert (E : path_text [l; l0; l1; l2; l3; l4] = pre ++ (l1 ++ [47]) ++ (l2 ++ [47]) ++ (l3 ++ [47]) ++ (l4 ++ [47])).
  { unfold path_text, pre. cbn [map concat app]. rewrite app_nil_r. rewrite <- !app_assoc. cbn [app]. reflexivity. }
  assert (C : stringCopy_val (n + 17 + 1) (path_text [l; l0; l1; l2; l3; l4]) (Some n) = pre).
  { unfold stringCopy_val. replace (n <=? 0) with false by lia. rewrite Z.min_l by lia. rewrite E. unfold stake. rewrite firstn_app. unfold slen in LP.
    rewrite firstn_all2 by lia. replace (_ - length pre)%nat with 0%nat by lia. apply app_nil_r. }
  rewrite C. unfold stringCat_val. rewrite LP. replace (n + 17 + 1 - n - 1) with 17 by lia. change (stake 17 LOCATION_PATH) with LOCATION_PATH.
  unfold location_name, path_text, pre. cbn [map concat app]. rewrite <- !app_assoc. cbn [app]. reflexivity.
Qed.
Print Assumptions C52_name.

Lemma split_slash a a' r r' : no_slash a -> no_slash a' -> a ++ 47 :: r = a' ++ 47 :: r' -> a = a' /\ r = r'.
Proof.
  revert a'. induction a as [|x a IH]; intros [|y a'] N N' E; cbn [app] in E.
  - injection E as ->. split; reflexivity.
  - injection E as <- _. exfalso. apply N'. left. reflexivity.
  - injection E as -> _. exfalso. apply N. left. reflexivity.
  - injection E as -> E. destruct (IH a') as (-> & ->); [intros I; apply N; right; exact I|intros I; apply N'; right; exact I|exact E|]. split; reflexivity.
Qed.
Lemma canon_slash a : no_slash a -> no_slash (canon a).
Proof. intros N I. unfold canon in I. apply in_map_iff in I. destruct I as (x & E & I). apply N. unfold canon_char in E. destruct ((97 <=? x) && (x <=? 122)) eqn:B; [lia|subst; exact I]. Qed.
(** Two sites share their location exactly when their first two parts are the same but for case. *)
Theorem C52_separate : forall a b a' b', no_slash a -> no_slash b -> no_slash a' -> no_slash b' ->
  (canon (location_name a b) = canon (location_name a' b') <-> canon a = canon a' /\ canon b = canon b').
Proof.
  intros a b a' b' A B A' B'. assert (X : forall a b, canon (location_name a b) = 47 :: canon a ++ 47 :: canon b ++ 47 :: canon LOCATION_PATH ++ []).
  { intros. unfold location_name, path_text, canon. cbn [map concat app]. rewrite !map_app. cbn [map app]. rewrite <- !app_assoc. cbn [app]. reflexivity. }
  rewrite !X. split.
  - intros E. injection E as E. apply split_slash in E; try (apply canon_slash; assumption). destruct E as (-> & E). apply split_slash in E; try (apply canon_slash; assumption). destruct E as (-> & _). split; reflexivity.
  - intros (-> & ->). reflexivity.
Qed.
Print Assumptions C52_separate.

(** ** The record *)
Lemma is_zero_spec d : is_zero d = true <-> zero_double d.
Proof.
  unfold is_zero, zero_double. destruct d as [a b]. cbn [fst snd]. split.
  - intros H. destruct (b =? 0) eqn:E; [left|right]; f_equal; lia.
  - intros [H|H]; injection H as -> ->; reflexivity.
Qed.
Lemma valid_iff l tz : holds_text (lc_tz l) tz -> exists b, zlocationStructValid l = Ok b /\ (b = true <-> something l).
Proof.
  intros HT. unfold zlocationStructValid, something. pose proof (is_zero_spec (lc_x l)). pose proof (is_zero_spec (lc_y l)). pose proof (is_zero_spec (lc_z l)).
  destruct (is_zero (lc_x l)); cbn [negb]; [|exists true; split; [reflexivity|split; [intros _; left; rewrite <- H; discriminate|reflexivity]]].
  destruct (is_zero (lc_y l)); cbn [negb]; [|exists true; split; [reflexivity|split; [intros _; right; left; rewrite <- H0; discriminate|reflexivity]]].
  destruct (is_zero (lc_z l)); cbn [negb]; [|exists true; split; [reflexivity|split; [intros _; right; right; left; rewrite <- H1; discriminate|reflexivity]]].
  destruct (lc_hd l =? 0) eqn:E1; cbn [negb]; [|exists true; split; [reflexivity|split; [intros _; right; right; right; left; lia|reflexivity]]].
  destruct (lc_vd l =? 0) eqn:E2; cbn [negb]; [|exists true; split; [reflexivity|split; [intros _; right; right; right; right; left; lia|reflexivity]]].
  destruct (lc_sup l) as [u|]; [exists true; split; [reflexivity|split; [intros _; right; right; right; right; right; left; discriminate|reflexivity]]|].
  destruct tz as [s|]; cbn [holds_text] in HT.
  - destruct HT as (CT & rest & ->). rewrite cstr_in_buf by (eapply Forall_impl; [|exact CT]; cbn; intros; lia). cbn [bind]. eexists. split; [reflexivity|].
    destruct s as [|x s].
    + cbn. split; [discriminate|]. intros [Q|[Q|[Q|[Q|[Q|[Q|Q]]]]]]; try (exfalso; apply Q; tauto); try lia; try congruence. destruct Q as (x & s & Q & N). injection Q as <- _. lia.
    + unfold slen. cbn [length]. split; [|intros _; lia]. intros _. do 6 right. exists x, (s ++ 0 :: rest). split; [reflexivity|]. inversion CT; subst. lia.
  - rewrite HT. exists false. split; [reflexivity|]. split; [discriminate|]. intros [Q|[Q|[Q|[Q|[Q|[Q|Q]]]]]]; try (exfalso; apply Q; tauto); try lia; try congruence. destruct Q as (x & s & Q & N). congruence.
Qed.
Lemma c_nz s : c_text s -> Forall (fun c => c <> 0) s.
Proof. intros H. eapply Forall_impl; [|exact H]. cbn. intros; lia. Qed.
Lemma c_bytes s : c_text s -> bytes s.
Proof. intros H. eapply Forall_impl; [|exact H]. cbn. intros; lia. Qed.
Lemma ints_bytes n : 0 < n -> 0 < numberIntsInBytes n /\ n <= 4 * numberIntsInBytes n < n + 4.
Proof.
  intros H. unfold numberIntsInBytes. replace (0 <? n) with true by lia. rewrite Z.quot_div_nonneg by lia. pose proof (Z.div_mod (n - 1) 4 ltac:(lia)). pose proof (Z.mod_pos_bound (n - 1) 4 ltac:(lia)). lia.
Qed.
(** words of a text and back: the text, zeros up to a whole word *)
Lemma to_ints_back text n : bytes text -> 0 < n <= slen text ->
  exists l, to_ints text n = Ok l /\ zlen l = numberIntsInBytes n /\ bytes_of_ints l = stake n text ++ repeat 0 (Z.to_nat (4 * numberIntsInBytes n - n)).
Proof.
  intros H L. unfold to_ints, get_prefix. replace (n <=? Z.of_nat (length text)) with true by (unfold slen in *; lia). cbn [bind].
  destruct (ints_bytes n ltac:(lia)) as (P & Q). set (k := numberIntsInBytes n) in *. clearbody k.
  eexists. split; [reflexivity|]. split; [unfold zlen; rewrite ints_len; lia|].
  assert (LF : length (firstn (Z.to_nat n) text) = Z.to_nat n) by (rewrite firstn_length; unfold slen in *; lia).
  rewrite bytes_ints.
  - rewrite firstn_app, LF. rewrite firstn_all2 by lia. unfold stake. f_equal.
    assert (D : 4 * k - n = 0 \/ 4 * k - n = 1 \/ 4 * k - n = 2 \/ 4 * k - n = 3) by lia.
    replace (4 * Z.to_nat k - Z.to_nat n)%nat with (Z.to_nat (4 * k - n)) by lia. destruct D as [->|[->|[->| ->]]]; reflexivity.
  - apply Forall_app. split; [apply forall_stake; exact H|repeat constructor; lia].
  - rewrite app_length, LF. cbn [length]. lia.
Qed.

(** a struct that [l] is the content of *)
Section Record.
Variables (junk : list Z) (parts : list (list Z)) (l : location) (tz sup : option (list Z)).
Hypothesis J : alen junk = 7.
Hypothesis P6 : six parts.
Hypothesis PB : slen (partA parts) + slen (partB parts) <= 1000000000.
Hypothesis HT : holds_text (lc_tz l) tz.
Hypothesis HS : holds_text (lc_sup l) sup.

Lemma request_spec : something l -> exists x, zlocationStore_request junk (path_text parts) l = Ok (Some x) /\
  x_path x = location_name (partA parts) (partB parts) /\
  forall j1 j2, exists l', zlocationRetrieve_answer j1 j2 new_location (Some (stored x)) = Ok (Some l') /\ same_numbers l l' /\ shows_text (lc_sup l') sup /\
    match tz with
    | None => lc_tz l' = None
    | Some s => (s = [] \/ slen s > 72 -> lc_tz l' = None) /\
        (0 < slen s <= 72 -> exists b, lc_tz l' = Some b /\ b = s ++ repeat 0 (Z.to_nat (4 * numberIntsInBytes (slen s) - slen s)) ++ j1)
    end.
Proof.
  intros SM. unfold zlocationStore_request. destruct (valid_iff l tz HT) as (b & EV & VB). rewrite EV. cbn [bind]. rewrite (proj2 VB SM). cbn [negb].
  rewrite C52_name by assumption. cbn [bind].
  set (v := [fst (lc_x l); snd (lc_x l); fst (lc_y l); snd (lc_y l); fst (lc_z l); snd (lc_z l); lc_sys l; lc_id l; lc_hu l; lc_hd l; lc_vu l; lc_vd l]).
  change (zlen v) with 12.
  assert (ETZ : exists w, tz_words 12 (lc_tz l) = Ok w /\
    match tz with None => w = [] | Some s => (s = [] \/ slen s > 72 -> w = []) /\ (0 < slen s <= 72 -> 0 < zlen w /\ bytes_of_ints w = s ++ repeat 0 (Z.to_nat (4 * numberIntsInBytes (slen s) - slen s))) end).
  { unfold tz_words. destruct tz as [s|]; cbn [holds_text] in HT; [|rewrite HT; exists []; split; reflexivity]. destruct HT as (CT & rest & ->). rewrite cstr_in_buf by (apply c_nz, CT). cbn [bind].
    pose proof (slen_nonneg s). destruct (slen s >? 0) eqn:E0.
    - destruct (ints_bytes (slen s) ltac:(lia)) as (Q1 & Q2). destruct (numberIntsInBytes (slen s) + 12 <=? 30) eqn:E1.
      + destruct (to_ints_back (s ++ [0]) (slen s)) as (w & Ew & Lw & Bw).
        { apply Forall_app. split; [apply c_bytes, CT|repeat constructor; lia]. } { rewrite slen_app. change (slen [0]) with 1. lia. }
        assert (SF : forall r, firstn (Z.to_nat (slen s)) (s ++ r) = s). { intros r. unfold slen. rewrite firstn_app. rewrite Nat2Z.id, Nat.sub_diag, firstn_O, app_nil_r. apply firstn_all. }
        assert (ST : stake (slen s) (s ++ [0]) = s) by apply SF.
        exists w. split.
        * unfold to_ints, get_prefix in *. rewrite app_length. cbn [length]. replace (slen s <=? Z.of_nat (length s + S (length rest))) with true by (unfold slen; lia).
          rewrite app_length in Ew. cbn [length] in Ew. replace (slen s <=? Z.of_nat (length s + 1)) with true in Ew by (unfold slen; lia). cbn [bind] in *. rewrite SF in *. exact Ew.
        * split; [intros [->|Q]; [cbn in E0; discriminate|lia]|]. intros _. split; [lia|]. rewrite Bw, ST. reflexivity.
      + exists []. split; [reflexivity|]. split; [reflexivity|lia].
    - exists []. split; [reflexivity|]. split; [reflexivity|lia]. }
  destruct ETZ as (w & -> & HW). cbn [bind].
  assert (ESU : exists u, sup_words (lc_sup l) = Ok u /\ match sup with None => u = [] | Some s => 0 < zlen u /\ exists k, bytes_of_ints u = s ++ 0 :: repeat 0 k end).
  { unfold sup_words. destruct sup as [s|]; cbn [holds_text] in HS; [|rewrite HS; exists []; split; reflexivity]. destruct HS as (CT & rest & ->). rewrite cstr_in_buf by (apply c_nz, CT). cbn [bind].
    pose proof (slen_nonneg s). destruct (to_ints_back (s ++ [0]) (slen s + 1)) as (u & Eu & Lu & Bu).
    { apply Forall_app. split; [apply c_bytes, CT|repeat constructor; lia]. } { rewrite slen_app. change (slen [0]) with 1. lia. }
    exists u. split; [exact Eu|]. destruct (ints_bytes (slen s + 1) ltac:(lia)) as (Q1 & Q2). split; [lia|]. eexists. rewrite Bu. unfold stake. rewrite firstn_all2 by (unfold slen; rewrite app_length; cbn [length]; lia).
    rewrite <- app_assoc. reflexivity. }
  destruct ESU as (u & -> & HU). cbn [bind]. eexists. split; [reflexivity|]. split; [reflexivity|]. intros j1 j2.
  unfold zlocationRetrieve_answer, stored. cbn [ct_v1 ct_v2 x_v1 x_v2].
  assert (LV : zlen (v ++ w) = 12 + zlen w) by (unfold zlen, v; rewrite app_length; cbn [length]; lia). pose proof (Zle_0_nat (length w)) as W0. fold (zlen w) in W0. rewrite LV.
  replace (12 + zlen w <? 6) with false by lia. change (read_loop 6 (v ++ w) 0) with (Ok [fst (lc_x l); snd (lc_x l); fst (lc_y l); snd (lc_y l); fst (lc_z l); snd (lc_z l)]). cbn [bind].
  replace (12 + zlen w >=? 12) with true by lia. change (read_loop 6 (v ++ w) 6) with (Ok [lc_sys l; lc_id l; lc_hu l; lc_hd l; lc_vu l; lc_vd l]). cbn [bind].
  eexists. split; [reflexivity|]. split.
  { unfold same_numbers. cbn [lc_x lc_y lc_z lc_sys lc_id lc_hu lc_hd lc_vu lc_vd]. rewrite <- !surjective_pairing. repeat split. }
  cbn [lc_sup lc_tz]. split.
  - destruct sup as [s|]; cbn [shows_text].
    + destruct HU as (U0 & k & BU). replace (zlen u >? 0) with true by lia. eexists. split; [reflexivity|]. rewrite BU, <- app_assoc. cbn [app]. apply cstr_in_buf, c_nz, HS.
    + subst u. reflexivity.
  - change (skipn 12 (v ++ w)) with w. destruct tz as [s|].
    + destruct HW as (H1 & H2). split.
      * intros Q. rewrite (H1 Q). reflexivity.
      * intros Q. destruct (H2 Q) as (L0 & BW). replace (12 + zlen w >? 12) with true by lia. eexists. split; [reflexivity|]. rewrite BW, <- app_assoc. reflexivity.
    + subst w. reflexivity.
Qed.
End Record.
Lemma request_none junk path l tz : holds_text (lc_tz l) tz -> ~ something l -> zlocationStore_request junk path l = Ok None.
Proof.
  intros HT N. unfold zlocationStore_request. destruct (valid_iff l tz HT) as (b & EV & VB). rewrite EV. cbn [bind]. destruct b; [exfalso; apply N, VB; reflexivity|reflexivity].
Qed.

(** ** End to end *)

(** After any history, a location stored under a pathname and then left alone is found under every pathname with the same first two
    parts (but for case): the numbers, the supplemental text, and the time zone name when its length is not a multiple of 4 and at most 72.
    _partial: the histories of C22; other time zone names are lost or run on (refuted below). *)
Theorem C52_location_partial : forall c W ops1 s1 now prog junk parts l tz sup flag x s2 ops2 s3 junk' parts' j1 j2,
  usable c -> alen junk = 7 -> six parts -> slen (partA parts) + slen (partB parts) <= 1000000000 ->
  holds_text (lc_tz l) tz -> holds_text (lc_sup l) sup -> something l ->
  zlocationStore_request junk (path_text parts) l = Ok (Some x) -> flag <> 0 ->
  runs c W (new_file c) ops1 s1 -> allowed c W s1 (Write now prog x) -> zlocationStore c now prog junk (path_text parts) l flag s1 = Ok (Some (Done, s2)) ->
  runs c W s2 ops2 s3 -> untouched (location_name (partA parts) (partB parts)) ops2 ->
  alen junk' = 7 -> six parts' -> canon (partA parts') = canon (partA parts) -> canon (partB parts') = canon (partB parts) ->
  name_ok (location_name (partA parts') (partB parts')) ->
  exists lp ct l', zlocationPath junk' (path_text parts') = Ok lp /\ reads c s3 lp (Some ct) /\
    zlocationRetrieve_answer j1 j2 new_location (Some ct) = Ok (Some l') /\ same_numbers l l' /\ shows_text (lc_sup l') sup /\
    (forall s, tz = Some s -> s <> [] -> slen s <= 72 -> slen s mod 4 <> 0 -> shows_text (lc_tz l') (Some s)) /\ (tz = None \/ tz = Some [] -> lc_tz l' = None).
Proof.
  intros c W ops1 s1 now prog junk parts l tz sup flag x s2 ops2 s3 junk' parts' j1 j2 U J P6 PB HT HS SM EX F0 R1 A ST R2 UT J' P6' CA CB NO.
  destruct (request_spec junk parts l tz sup J P6 PB HT HS SM) as (x' & EX' & XP & SP). rewrite EX in EX'. injection EX' as <-.
  assert (PB' : slen (partA parts') + slen (partB parts') <= 1000000000).
  { assert (Q : forall a b : list Z, canon a = canon b -> slen a = slen b) by (intros a b E; apply (f_equal (@length Z)) in E; unfold canon in E; rewrite !map_length in E; unfold slen; lia).
    rewrite (Q _ _ CA), (Q _ _ CB). exact PB. }
  unfold zlocationStore in ST. rewrite EX in ST. cbn [bind] in ST. replace ((flag =? 0) && _) with false in ST by (replace (flag =? 0) with false by lia; reflexivity).
  injection ST as ST. destruct (SP j1 j2) as (l' & AN & SN & SS & TT).
  exists (location_name (partA parts') (partB parts')), (stored x), l'. split; [apply C52_name; assumption|]. split.
  { eapply C22_read_last_write_partial; eauto; rewrite XP; [exact UT|]. destruct P6 as (L6 & N6). destruct P6' as (L6' & N6').
    assert (NT : forall k ps, length ps = 6%nat -> (k < 6)%nat -> Forall no_slash ps -> no_slash (nth k ps [])) by (intros k ps L K NF; rewrite Forall_forall in NF; apply NF, nth_In; lia).
    apply C52_separate; [apply NT; auto; lia..|]. split; assumption. }
  split; [exact AN|]. split; [exact SN|]. split; [exact SS|]. split.
  - intros s -> N L72 M. destruct TT as (_ & TT). assert (S0 : 0 < slen s) by (unfold slen; destruct s; [congruence|cbn [length]; lia]). destruct (TT ltac:(lia)) as (b & EB & B). cbn [shows_text]. exists b. split; [exact EB|].
    destruct (ints_bytes (slen s) S0) as (Q1 & Q2). assert (Q3 : 0 < 4 * numberIntsInBytes (slen s) - slen s).
    { destruct (Z.eq_dec (4 * numberIntsInBytes (slen s)) (slen s)) as [Q|Q]; [|lia]. exfalso. apply M. rewrite <- Q, Z.mul_comm. apply Z.mod_mul. lia. }
    destruct (Z.to_nat (4 * numberIntsInBytes (slen s) - slen s)) as [|k] eqn:K; [lia|]. rewrite B. cbn [repeat app]. cbn [holds_text] in HT. apply cstr_in_buf, c_nz, HT.
  - intros [->| ->]; [exact TT|]. apply TT. left. reflexivity.
Qed.
Print Assumptions C52_location_partial.

(** Storage flag 0 does not replace a location; and when there is nothing to store nothing is written: the call succeeds all the same. *)
Theorem C52_kept : forall c now prog junk parts l tz sup s ct, alen junk = 7 -> six parts -> slen (partA parts) + slen (partB parts) <= 1000000000 ->
  holds_text (lc_tz l) tz -> holds_text (lc_sup l) sup -> reads c s (location_name (partA parts) (partB parts)) (Some ct) ->
  zlocationStore c now prog junk (path_text parts) l 0 s = Ok (Some (Done, s)).
Proof.
  intros c now prog junk parts l tz sup s ct J P6 PB HT HS (s' & R). unfold zlocationStore. destruct (valid_iff l tz HT) as (b & EV & VB). destruct b.
  - destruct (request_spec junk parts l tz sup J P6 PB HT HS) as (x & -> & XP & _); [apply VB; reflexivity|]. cbn [bind]. rewrite XP, R. reflexivity.
  - rewrite (request_none _ _ l tz HT) by (intros Q; apply VB in Q; discriminate). reflexivity.
Qed.
Print Assumptions C52_kept.
Theorem C52_nothing : forall c now prog junk path l tz flag s, holds_text (lc_tz l) tz -> ~ something l ->
  zlocationStore c now prog junk path l flag s = Ok (Some (Done, s)).
Proof. intros. unfold zlocationStore. rewrite (request_none _ _ l tz) by assumption. reflexivity. Qed.
Print Assumptions C52_nothing.

(** ** The calls of the library interface *)
Definition plain_or_empty (s : list Z) : Prop := s = [] \/ plain s.
Lemma copy_pe s rest : plain_or_empty s -> mallocAndCopy (s ++ 0 :: rest) = Ok (s ++ [0]).
Proof. intros [->|H]; [reflexivity|apply C51_copy_plain, H]. Qed.
Lemma pe_c s : plain_or_empty s -> c_text s.
Proof. intros [->|(_ & H & _)]; [constructor|]. eapply Forall_impl; [|exact H]. cbn. intros; lia. Qed.
(** The same through hec_dss_locationStore and hec_dss_locationRetrieve: the numbers come back, and each buffer of the caller holds, from its
    start, the text stored cut to the size of the buffer and its NUL; the rest of the buffer is as it was.  _partial: texts as in C51 and
    C52_location_partial. *)
Theorem C52_interface_partial : forall c W ops1 s1 now prog junk parts x y z sys id hu hd vu vd tz sup rt ru replace req s2 ops2 s3 junk' parts' j1 j2 btz ntz bsup nsup,
  usable c -> alen junk = 7 -> six parts -> slen (partA parts) + slen (partB parts) <= 1000000000 ->
  plain_or_empty tz -> plain_or_empty sup ->
  zlocationStore_request junk (path_text parts) (mkloc x y z sys id hu hd vu vd (Some (tz ++ [0])) (Some (sup ++ [0]))) = Ok (Some req) -> replace <> 0 ->
  runs c W (new_file c) ops1 s1 -> allowed c W s1 (Write now prog req) ->
  hec_dss_locationStore c now prog junk (path_text parts) x y z sys id hu hd vu vd (tz ++ 0 :: rt) (sup ++ 0 :: ru) replace s1 = Ok (Some (Done, s2)) ->
  runs c W s2 ops2 s3 -> untouched (location_name (partA parts) (partB parts)) ops2 ->
  alen junk' = 7 -> six parts' -> canon (partA parts') = canon (partA parts) -> canon (partB parts') = canon (partB parts) ->
  name_ok (location_name (partA parts') (partB parts')) ->
  0 < ntz <= alen btz -> 0 < nsup <= alen bsup -> slen tz <= 72 -> (tz = [] \/ slen tz mod 4 <> 0) ->
  exists lp ct, zlocationPath junk' (path_text parts') = Ok lp /\ reads c s3 lp (Some ct) /\
    hec_dss_locationRetrieve j1 j2 (Some ct) btz ntz bsup nsup =
      Ok (Some (x, y, z, (sys, id, hu, hd, vu, vd), match tz with [] => btz | _ => overlay (stake (ntz - 1) tz ++ [0]) btz end, overlay (stake (nsup - 1) sup ++ [0]) bsup)).
Proof.
  intros c W ops1 s1 now prog junk parts x y z sys id hu hd vu vd tz sup rt ru replace req s2 ops2 s3 junk' parts' j1 j2 btz ntz bsup nsup
    U J P6 PB PT PS EX F0 R1 A ST R2 UT J' P6' CA CB NO NT NS T72 TM.
  unfold hec_dss_locationStore in ST. rewrite !copy_pe in ST by assumption. cbn [bind] in ST. set (l := mkloc _ _ _ _ _ _ _ _ _ _ _) in *.
  destruct (C52_location_partial c W ops1 s1 now prog junk parts l (Some tz) (Some sup) replace req s2 ops2 s3 junk' parts' j1 j2) as (lp & ct & l' & E1 & E2 & E3 & SN & SS & T1 & T2); try assumption.
  - split; [apply pe_c, PT|]. exists []. reflexivity.
  - split; [apply pe_c, PS|]. exists []. reflexivity.
  - do 5 right. left. discriminate.
  - exists lp, ct. split; [exact E1|]. split; [exact E2|]. unfold hec_dss_locationRetrieve. rewrite E3. cbn [bind].
    destruct SN as (N1 & N2 & N3 & N4 & N5 & N6 & N7 & N8 & N9). rewrite N1, N2, N3, N4, N5, N6, N7, N8, N9.
    destruct SS as (bs & -> & CS). unfold text_out at 2. rewrite CS. cbn [bind]. destruct (stringCopy_overlay bsup nsup sup NS) as (q & ->). cbn [bind].
    destruct tz as [|t0 tz].
    + rewrite T2 by (right; reflexivity). reflexivity.
    + destruct (T1 (t0 :: tz)) as (bt & -> & CT); [reflexivity|discriminate|assumption|destruct TM; [discriminate|assumption]|]. unfold text_out. rewrite CT. cbn [bind].
      destruct (stringCopy_overlay btz ntz (t0 :: tz) NT) as (q' & ->). reflexivity.
Qed.
Print Assumptions C52_interface_partial.

(** ** The hypotheses are met *)
Definition stream : list (list Z) := [[83; 99; 105; 111]; [67; 97; 103; 101]; [70; 76; 79; 87]; []; [49; 72]; [79]].
Definition stage : list (list Z) := [[115; 99; 73; 111]; [67; 65; 71; 69]; [83]; []; []; []].
Definition gage (tz : list Z) : location := mkloc (7, 8) (9, 10) (0, 0) 1 2 3 4 5 6 (Some (tz ++ [0])) (Some [104; 105; 0]).
(** "Location" of /Scio/Cage/FLOW//1H/O/ read under /scIo/CAGE/S//// after another record was written *)
Definition loc_trip (tz j1 : list Z) : res (list Z * location) :=
  match zlocationStore cd 4 (0, 0) (repeat 0 7) (path_text stream) (gage tz) 1 (new_file cd) with
  | Ok (Some (Done, s2)) => match exec cd (Write 4 (0, 0) (hello_x)) s2 with
      | Some (Done, s3) => let* lp := zlocationPath (repeat 0 7) (path_text stage) in
          match exec cd (Read lp) s3 with
          | Some (Data ct, _) => let* l := zlocationRetrieve_answer j1 [] new_location ct in match l with Some l => Ok (lp, l) | None => Undef end
          | _ => Undef
          end
      | _ => Undef end
  | _ => Undef
  end.
Example C52_location_example : six stream /\ six stage /\ something (gage [67; 83; 84]) /\
  loc_trip [67; 83; 84] [] = Ok (location_name (partA stage) (partB stage), mkloc (7, 8) (9, 10) (0, 0) 1 2 3 4 5 6 (Some [67; 83; 84; 0]) (Some [104; 105; 0; 0])).
Proof.
  split; [|split; [|split]].
  - split; [reflexivity|]. repeat constructor; intros Q; cbn in Q; lia.
  - split; [reflexivity|]. repeat constructor; intros Q; cbn in Q; lia.
  - left. unfold zero_double. cbn. intros [Q|Q]; discriminate.
  - vm_compute. reflexivity.
Qed.
Example C52_interface_example :
  match hec_dss_locationStore cd 4 (0, 0) (repeat 0 7) (path_text stream) (7, 8) (9, 10) (0, 0) 1 2 3 4 5 6 [67; 83; 84; 0; 5] [104; 105; 0] 1 (new_file cd) with
  | Ok (Some (Done, s2)) => match exec cd (Read (location_name (partA stage) (partB stage))) s2 with
      | Some (Data ct, _) => hec_dss_locationRetrieve [] [] ct (repeat 9 6) 6 (repeat 9 3) 2 = Ok (Some ((7, 8), (9, 10), (0, 0), (1, 2, 3, 4, 5, 6), [67; 83; 84; 0; 9; 9], [104; 0; 9]))
      | _ => False end
  | _ => False
  end.
Proof. vm_compute. reflexivity. Qed.
(** a location with nothing in it *)
Example C52_nothing_example : ~ something (mkloc (0, 0) (0, -2147483648) (0, 0) 1 2 3 0 5 0 (Some [0]) None).
Proof. intros [Q|[Q|[Q|[Q|[Q|[Q|Q]]]]]]; cbn in Q; unfold zero_double in Q; try tauto; try congruence. destruct Q as (a & b & E & N). injection E as <- _. lia. Qed.

(** ** What goes wrong *)

(** A time zone name whose length is a multiple of 4 ("America/New_York") is written without a NUL, and read back into a buffer that has
    none either: the name runs on into what the memory holds, or past its end. *)
Definition new_york : list Z := [65; 109; 101; 114; 105; 99; 97; 47; 78; 101; 119; 95; 89; 111; 114; 107].
Theorem C52_refuted_time_zone :
  (exists l, loc_trip new_york [88; 0; 0; 0; 0; 0; 0; 0] = Ok (location_name (partA stage) (partB stage), l) /\ match lc_tz l with Some b => cstr b = Ok (new_york ++ [88]) | None => False end) /\
  (exists l, loc_trip new_york (repeat 88 8) = Ok (location_name (partA stage) (partB stage), l) /\ match lc_tz l with Some b => cstr b = Undef | None => False end).
Proof.
  split.
  - exists (mkloc (7, 8) (9, 10) (0, 0) 1 2 3 4 5 6 (Some (new_york ++ [88; 0; 0; 0; 0; 0; 0; 0])) (Some [104; 105; 0; 0])). split; vm_compute; reflexivity.
  - exists (mkloc (7, 8) (9, 10) (0, 0) 1 2 3 4 5 6 (Some (new_york ++ repeat 88 8)) (Some [104; 105; 0; 0])). split; vm_compute; reflexivity.
Qed.
Print Assumptions C52_refuted_time_zone.
(** A name of more than 72 bytes is dropped, and the call succeeds. *)
Theorem C52_refuted_long_zone : loc_trip (repeat 65 73) [] = Ok (location_name (partA stage) (partB stage), mkloc (7, 8) (9, 10) (0, 0) 1 2 3 4 5 6 None (Some [104; 105; 0; 0])).
Proof. vm_compute. reflexivity. Qed.
Print Assumptions C52_refuted_long_zone.
