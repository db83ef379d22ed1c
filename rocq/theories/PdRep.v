(** * Lemmas for C49: a record that holds a table. *)
From Coq Require Import ZArith List Lia Bool ZifyBool.
From Verif Require Import Base ArrayLib SeriesProofs PdModel PdSpec PdProofs PdLoop PdLabel.
Import ListNotations.
Open Scope Z_scope.
Open Scope res_scope.

Section S.
Variable widen : Z -> Z * Z.
Variable narrow : Z * Z -> Z.
Variable junk : Z.
Notation cast := (cast widen narrow).
Notation effect := (effect widen narrow).
Notation zpdStore := (zpdStore widen narrow junk).
Notation zpdRetrieve := (zpdRetrieve widen narrow).

Definition lab_rep (t : table) (r : pdrec) : Prop :=
  match t_labs t with
  | None => r_lablen r = 0 /\ r_head2 r = []
  | Some ls => alen ls = t_c t /\ Forall clean ls /\ alen (text ls) <= t_room t /\ r_lablen r = t_room t /\
      t_room t <= 50000000 /\ alen (r_head2 r) = ((t_room t - 1) / 8 + 1) * 8 /\
      exists z, r_head2 r = text ls ++ repeat 0 (Z.to_nat (t_room t - alen (text ls))) ++ z
  end.
Record rep (t : table) (r : pdrec) : Prop := mk_rep {
  rep_d : r_dbl r = t_dbl t; rep_n : r_n r = t_n t; rep_c : r_c r = t_c t; rep_small : small (t_n t) (t_c t);
  rep_lo : t_n t * size_of (t_dbl t) <= alen (r_ords r); rep_eo : Z.even (alen (r_ords r)) = true;
  rep_ord : forall k, 0 <= k < t_n t -> num_w (t_dbl t) (r_ords r) k = Ok (t_ord t k);
  rep_lv : t_c t * t_n t * size_of (t_dbl t) <= alen (r_vals r); rep_ev : Z.even (alen (r_vals r)) = true;
  rep_val : forall k q, 0 <= k < t_n t -> 0 <= q < t_c t -> num_w (t_dbl t) (r_vals r) (q * t_n t + k) = Ok (t_val t k q);
  rep_lab : lab_rep t r }.

Lemma text_pos ls : 1 <= alen ls -> alen ls <= alen (text ls).
Proof.
  induction ls as [|l ls IH]; [cbn; lia|]. intros _. rewrite alen_text_cons, alen_cons. pose proof (alen_nonneg l). destruct ls as [|y ls]; [cbn; lia|]. rewrite alen_cons in *. pose proof (alen_nonneg ls). lia.
Qed.
Lemma alen_repeat {A} (a : A) n : alen (repeat a n) = Z.of_nat n.
Proof. unfold alen. rewrite repeat_length. reflexivity. Qed.
Lemma read_all {A} (l t : list A) n : n = length l -> read_loop n (l ++ t) 0 = Ok l.
Proof. intros ->. apply (read_mid' (length l) [] l t 0 eq_refl eq_refl). Qed.
Lemma Forall_in {A} (P : A -> Prop) l : (forall x, In x l -> P x) -> Forall P l.
Proof. intros H. apply Forall_forall. exact H. Qed.
Lemma quot8 k : 1 <= k -> Z.quot (k - 1) 8 = (k - 1) / 8. Proof. intros H. apply Z.quot_div_nonneg; lia. Qed.

Lemma labels_new c labs : 1 <= c -> labels_ok c labs ->
  exists head2,
    (if Z.of_nat (length (lab_bytes labs)) >? 0 then
       let* l := read_loop (Z.to_nat (Z.of_nat (length (lab_bytes labs)))) (lab_bytes labs) 0 in
       Ok (l ++ repeat 0 (Z.to_nat ((Z.quot (Z.of_nat (length (lab_bytes labs)) - 1) 8 + 1) * 8 - Z.of_nat (length (lab_bytes labs)))))
     else Ok []) = Ok head2 /\
    forall d n o v r, r_lablen r = Z.of_nat (length (lab_bytes labs)) -> r_head2 r = head2 ->
      lab_rep (mk_table d n c o v (labels_of labs) (Z.of_nat (length (lab_bytes labs)))) r.
Proof.
  intros Hc H. destruct labs as [[ls extra]|].
  - destruct H as (H1 & H2 & H3 & H4). cbn [labels_of option_map fst]. set (b := lab_bytes (Some (ls, extra))) in *.
    assert (Eb : b = text ls ++ repeat 0 (Z.to_nat extra)) by reflexivity. fold (alen b) in *. fold (alen ls) in *.
    pose proof (text_pos ls ltac:(lia)) as P. assert (Lb : alen b = alen (text ls) + extra) by (rewrite Eb, alen_app, alen_repeat; lia).
    replace (alen b >? 0) with true by lia. cbv zeta. replace (Z.to_nat (alen b)) with (length b) by (unfold alen; lia).
    assert (Er : read_loop (length b) b 0 = Ok b) by (rewrite <- (app_nil_r b) at 2; apply read_all; reflexivity). rewrite Er. cbn [bind]. rewrite quot8 by lia.
    eexists. split; [reflexivity|]. intros d n o v r L1 L2. unfold lab_rep. cbn [t_labs t_c t_room]. rewrite L1, L2.
    pose proof (Z.div_mod (alen b - 1) 8 ltac:(lia)). pose proof (Z.mod_pos_bound (alen b - 1) 8 ltac:(lia)).
    split; [lia|]. split; [apply Forall_in; exact H2|]. split; [lia|]. split; [reflexivity|]. split; [lia|]. split.
    + rewrite alen_app, alen_repeat. lia.
    + eexists. rewrite Eb at 1. rewrite <- app_assoc. f_equal. f_equal. f_equal. lia.
  - exists []. split; [reflexivity|]. intros d n o v r L1 L2. unfold lab_rep. cbn [t_labs labels_of option_map]. split; [exact L1|exact L2].
Qed.

Lemma num_w_padded d l k n : 0 <= k < n -> n * size_of d <= alen l -> num_w d (padded junk l) k = num_w d l k.
Proof. intros Hk Hl. pose proof (size_pos d). apply num_w_ext. intros j Hj. apply padded_get. nia. Qed.
Lemma num_w_zero d k m : 0 <= k -> (k + 1) * size_of d <= Z.of_nat m -> num_w d (repeat 0 m) k = Ok (zero d).
Proof.
  intros Hk H. assert (G : forall i, 0 <= i < Z.of_nat m -> aget (repeat 0 m) i = Ok 0).
  { intros i Hi. destruct (aget_some (repeat 0 m) i) as [v V]; [rewrite alen_repeat; lia|]. rewrite V. f_equal. unfold aget in V. destruct (i <? 0); [discriminate|]. destruct (nth_error (repeat 0 m) (Z.to_nat i)) eqn:N; [|discriminate]. injection V as <-. apply nth_error_In, repeat_spec in N. exact N. }
  unfold num_w. destruct d; cbn [size_of] in H; rewrite !G by lia; reflexivity.
Qed.

Lemma same_double a b : same_kind a b -> Bool.eqb (is_double b) (is_double a) = true.
Proof. destruct a, b; cbn; tauto. Qed.

Lemma kind_some flag o : (if (flag =? 1) || (flag =? 11) then Some false else if (flag =? 2) || (flag =? 12) then Some true else Some (is_double o)) = Some (kind flag o).
Proof. unfold kind. destruct ((flag =? 1) || (flag =? 11)); [reflexivity|]. destruct ((flag =? 2) || (flag =? 12)); reflexivity. Qed.

(** ** whole records *)
Lemma put_all_ok flag ords vals n c labs t old : covered (PutAll flag ords vals n c labs) t ->
  exists r, zpdStore flag (snd (request (PutAll flag ords vals n c labs) t)) old = Ok (true, Some r) /\
    exists t', effect (PutAll flag ords vals n c labs) t = Some t' /\ rep t' r.
Proof.
  intros (Hf & Hs & Hk & Ho & Hv & Hl). destruct (labels_new c labs) as (h2 & Eh & Rh); [destruct Hs; lia|exact Hl|].
  unfold PdModel.zpdStore. replace (store_entire _) with true by reflexivity. unfold store_whole. cbn [request snd p_ords p_vals p_n p_c p_lablen p_labels].
  rewrite kind_some. set (d := kind flag ords). pose proof (size_pos d) as Sp. destruct Hs as (Hn & Hc & Hm). assert (P : 1 <= c * n) by nia.
  rewrite chk32_ok by (unfold in32, INT_MIN, INT_MAX; nia). cbn [bind]. replace (c * n <=? 0) with false by lia.
  rewrite !chk32_ok by (unfold in32, INT_MIN, INT_MAX; nia). cbn [bind]. rewrite Eh. cbn [bind].
  destruct (words_spec widen narrow d ords 0 n) as (w1 & E1 & L1 & G1); [lia|lia|lia|]. rewrite E1. cbn [bind]. replace (flag >? 5) with false by lia. rewrite (same_double _ _ Hk).
  destruct (words_spec widen narrow d vals 0 (c * n)) as (w2 & E2 & L2 & G2); [lia|lia|lia|]. rewrite E2. cbn [bind].
  eexists. split; [reflexivity|]. eexists. split; [reflexivity|]. fold d. destruct (padded_len junk w1). destruct (padded_len junk w2).
  constructor; cbn [r_dbl r_n r_c r_ords r_vals t_dbl t_n t_c t_ord t_val]; try reflexivity; try lia.
  - repeat split; lia.
  - intros k Hk'. rewrite (num_w_padded d w1 k n) by lia. rewrite G1 by lia. reflexivity.
  - intros k q Hk' Hq. assert (0 <= q * n + k < c * n) by nia. rewrite (num_w_padded d w2 _ (c * n)) by lia. rewrite G2 by lia. reflexivity.
  - apply Rh; reflexivity.
Qed.

Lemma reserve_ok flag ords n c labs t old : covered (Reserve flag ords n c labs) t ->
  exists r, zpdStore flag (snd (request (Reserve flag ords n c labs) t)) old = Ok (true, Some r) /\
    exists t', effect (Reserve flag ords n c labs) t = Some t' /\ rep t' r.
Proof.
  intros (Hf & Hs & Ho & Hl). destruct (labels_new c labs) as (h2 & Eh & Rh); [destruct Hs; lia|exact Hl|].
  unfold PdModel.zpdStore. replace (store_entire _) with true by reflexivity. unfold store_whole. cbn [request snd p_ords p_vals p_n p_c p_lablen p_labels].
  rewrite kind_some. set (d := kind flag ords). pose proof (size_pos d) as Sp. destruct Hs as (Hn & Hc & Hm). assert (P : 1 <= c * n) by nia.
  rewrite chk32_ok by (unfold in32, INT_MIN, INT_MAX; nia). cbn [bind]. replace (c * n <=? 0) with false by lia.
  rewrite !chk32_ok by (unfold in32, INT_MIN, INT_MAX; nia). cbn [bind]. rewrite Eh. cbn [bind].
  destruct (words_spec widen narrow d ords 0 n) as (w1 & E1 & L1 & G1); [lia|lia|lia|]. rewrite E1. cbn [bind]. replace (flag >? 5) with true by lia. cbn [bind].
  set (w2 := repeat 0 (Z.to_nat (c * n * size_of d))). assert (L2 : alen w2 = c * n * size_of d) by (unfold w2; rewrite alen_repeat; nia).
  eexists. split; [reflexivity|]. eexists. split; [reflexivity|]. fold d. destruct (padded_len junk w1). destruct (padded_len junk w2).
  constructor; cbn [r_dbl r_n r_c r_ords r_vals t_dbl t_n t_c t_ord t_val]; try reflexivity; try lia.
  - repeat split; lia.
  - intros k Hk'. rewrite (num_w_padded d w1 k n) by lia. rewrite G1 by lia. reflexivity.
  - intros k q Hk' Hq. assert (0 <= q * n + k < c * n) by nia. rewrite (num_w_padded d w2 _ (c * n)) by lia. unfold w2. apply num_w_zero; [lia|]. rewrite Z2Nat.id by nia. nia.
  - apply Rh; reflexivity.
Qed.

(** ** parts *)
Lemma limits_ok s e n : 1 <= n -> range_ok s e n -> limits s e n = (from s, upto e n).
Proof.
  intros Hn [[-> ->]|H]; unfold limits, from, upto.
  - cbn [Z.sub Z.ltb Z.compare Z.eqb orb]. change (0 - 1 <? 0) with true. cbv iota. replace (0 >? n) with false by lia. reflexivity.
  - replace (s - 1 <? 0) with false by lia. replace ((e =? 0) || (e >? n)) with false by lia. replace (s - 1 >? e) with false by lia. replace (s =? 0) with false by lia. replace (e =? 0) with false by lia. reflexivity.
Qed.
Lemma range_bounds s e n : 1 <= n -> range_ok s e n -> 0 <= from s /\ from s < upto e n /\ upto e n <= n.
Proof. intros Hn [[-> ->]|H]; unfold from, upto; [cbn [Z.eqb]; lia|]. replace (s =? 0) with false by lia. replace (e =? 0) with false by lia. lia. Qed.

Lemma char_int_ok l rest h n ext : alen l = n -> 1 <= n -> alen h = ext -> ints_in n * 4 <= ext ->
  exists h', char_int (l ++ rest) n ext h = Ok h' /\ alen h' = ext /\ exists z, h' = l ++ z.
Proof.
  intros Hl Hn Hh He. unfold char_int. assert (I : n <= ints_in n * 4 <= n + 3) by (unfold ints_in; rewrite Z.quot_div_nonneg by lia; pose proof (Z.div_mod (n - 1) 4); pose proof (Z.mod_pos_bound (n - 1) 4); lia).
  replace (if ext <? n then ext else n) with n by (destruct (ext <? n) eqn:E; lia).
  destruct (copy_loop_ok (Z.to_nat n) (l ++ rest) 0 h 0) as (h1 & E1 & L1 & G1); try lia; try (rewrite alen_app; pose proof (alen_nonneg rest); lia).
  rewrite E1. cbn [bind]. destruct (fill_loop_ok (Z.to_nat (ints_in n * 4 - n)) 0 h1 n) as (h2 & E2 & L2 & G2); try lia.
  rewrite E2. eexists. split; [reflexivity|]. split; [lia|]. exists (skipn (Z.to_nat n) h2). apply aget_ext.
  - rewrite alen_app, alen_skipn by lia. lia.
  - intros k Hk. rewrite aget_app by lia. destruct (k <? alen l) eqn:K.
    + rewrite G2, G1. replace ((n <=? k) && (k <? n + Z.of_nat (Z.to_nat (ints_in n * 4 - n)))) with false by lia. replace ((0 <=? k) && (k <? 0 + Z.of_nat (Z.to_nat n))) with true by lia.
      rewrite aget_app by lia. replace (0 + (k - 0) <? alen l) with true by lia. f_equal. lia.
    + rewrite aget_skipn by lia. f_equal. lia.
Qed.

Lemma store_labels_ok t r vals l ls sc : rep t r -> t_labs t = Some ls -> clean l -> 1 <= sc <= t_c t ->
  alen (text (relabel ls (Z.to_nat (sc - 1)) l)) <= t_room t ->
  forall p, p_lablen p = alen (l ++ [0]) -> p_labels p = l ++ [0] -> p_sc p = sc -> p_ec p = sc ->
  exists h, store_labels p (mk_pdrec (r_dbl r) (r_n r) (r_c r) (r_ords r) vals (r_lablen r) (r_head2 r)) =
            Ok (mk_pdrec (r_dbl r) (r_n r) (r_c r) (r_ords r) vals (r_lablen r) h) /\
    alen h = alen (r_head2 r) /\
    exists z, h = text (relabel ls (Z.to_nat (sc - 1)) l) ++ repeat 0 (Z.to_nat (t_room t - alen (text (relabel ls (Z.to_nat (sc - 1)) l)))) ++ z.
Proof.
  intros R El Hl Hsc Hfit p P1 P2 P3 P4. pose proof (rep_lab _ _ R) as Q. unfold lab_rep in Q. rewrite El in Q. destruct Q as (Q1 & Q2 & Q3 & Q4 & Q5 & Q6 & (z & Q7)).
  destruct (rep_small _ _ R) as (Hn & Hc & _). pose proof (text_pos ls ltac:(lia)) as Tp. pose proof (alen_nonneg l).
  set (room := t_room t) in *. set (new := text (relabel ls (Z.to_nat (sc - 1)) l)) in *.
  assert (Pl : p_lablen p = alen l + 1) by (rewrite P1, alen_app; reflexivity).
  unfold store_labels. cbn [r_lablen r_head2 r_c r_dbl r_n r_ords r_vals]. replace (p_lablen p >? 0) with true by lia. rewrite Q4. replace (room <=? 0) with false by lia.
  cbv zeta. rewrite Q7, app_assoc, read_all by (rewrite app_length, repeat_length; unfold alen in *; lia). cbn [bind]. rewrite <- app_assoc, <- Q7, Q6.
  assert (Bd : room <= ((room - 1) / 8 + 1) * 8) by (pose proof (Z.div_mod (room - 1) 8); pose proof (Z.mod_pos_bound (room - 1) 8); lia).
  set (j := (room - 1) / 8 + 1) in *. assert (Hq : Z.quot (j * 8) 4 = 2 * j) by (rewrite Z.quot_div_nonneg by lia; replace (j * 8) with (2 * j * 4) by lia; apply Z.div_mul; lia).
  rewrite Hq, P2, P3, P4, Pl, (rep_c _ _ R). rewrite <- Q1.
  rewrite (relabel_loop ls sc l _ room (2 * j * 4)) by (auto; lia). fold new. cbn [bind].
  replace (alen new >? room) with false by lia. cbv iota. replace (2 * j >? 2 * j) with false by lia.
  pose proof (alen_nonneg new).
  destruct (char_int_ok (new ++ repeat 0 (Z.to_nat (room - alen new))) (repeat 0 (Z.to_nat (alen l + 1))) (r_head2 r) room (2 * j * 4)) as (h & E & L & (z' & Ez)).
  { rewrite alen_app, alen_repeat. lia. } { lia. } { lia. }
  { unfold ints_in. rewrite Z.quot_div_nonneg by lia. unfold j. pose proof (Z.div_mod (room - 1) 8 ltac:(lia)). pose proof (Z.mod_pos_bound (room - 1) 8 ltac:(lia)). pose proof (Z.div_mod (room - 1) 4 ltac:(lia)). pose proof (Z.mod_pos_bound (room - 1) 4 ltac:(lia)). lia. }
  rewrite <- app_assoc, <- repeat_app in E. replace (Z.to_nat (room - alen new) + Z.to_nat (alen l + 1))%nat with (Z.to_nat (alen l + 1 + room - alen new)) in E by lia.
  rewrite E. cbn [bind]. exists h. split; [rewrite Q1, <- (rep_c _ _ R); reflexivity|]. split; [lia|]. exists z'. rewrite Ez, <- app_assoc. reflexivity.
Qed.

Lemma put_part_ok vals so eo sc ec lab t r : rep t r -> covered (PutPart vals so eo sc ec lab) (Some t) ->
  exists r', zpdStore 0 (snd (request (PutPart vals so eo sc ec lab) (Some t))) (Some r) = Ok (true, Some r') /\
    exists t', effect (PutPart vals so eo sc ec lab) (Some t) = Some t' /\ rep t' r'.
Proof.
  intros R (Hr & Hq & Hp & Hv & Hl). destruct (rep_small _ _ R) as (Hn & Hc & Hm). unfold PdModel.zpdStore. cbn [request snd].
  set (lb := match lab with Some l => l ++ [0] | None => [] end). set (p := mk_pds None (Some vals) (t_n t) (t_c t) sc ec so eo lb (Z.of_nat (length lb))).
  assert (Ee : store_entire p = false).
  { unfold store_entire, p; cbn [p_sc p_so p_eo p_ec p_n p_c]. unfold proper_part, range_ok in *. lia. }
  rewrite Ee. unfold store_part. rewrite (rep_n _ _ R), (rep_c _ _ R). cbn [p_so p_eo p_sc p_ec p].
  rewrite (limits_ok so eo), (limits_ok sc ec) by assumption. destruct (range_bounds so eo _ Hn Hr) as (B1 & B2 & B3). destruct (range_bounds sc ec _ Hc Hq) as (C1 & C2 & C3).
  set (rows := upto eo (t_n t) - from so) in *. replace (rows <? 0) with false by lia. rewrite (rep_d _ _ R). cbn [p_vals].
  destruct (put_curves_spec widen narrow (t_dbl t) (t_n t) (t_c t) (from so) rows (from sc) vals ltac:(lia) ltac:(lia) ltac:(lia) ltac:(lia) ltac:(lia) ltac:(lia)
            (Z.to_nat (upto ec (t_c t) - from sc)) (from sc) (r_vals r)) as (area & E & L & G); try lia; try (exact (rep_lv _ _ R)); try (exact (rep_ev _ _ R)).
  change (p_vals p) with (Some vals). rewrite E. cbn [bind]. clear E.
  assert (GV : forall k q, 0 <= k < t_n t -> 0 <= q < t_c t -> num_w (t_dbl t) area (q * t_n t + k) =
     Ok (if inside so eo (t_n t) k && inside sc ec (t_c t) q then cast (t_dbl t) (num_at vals ((q - from sc) * rows + (k - from so))) else t_val t k q)).
  { intros k q Hk Hq'. rewrite G by assumption. unfold inside. replace (from so + rows) with (upto eo (t_n t)) by (unfold rows; lia). replace (from sc + Z.of_nat (Z.to_nat (upto ec (t_c t) - from sc))) with (upto ec (t_c t)) by lia.
    destruct ((from so <=? k) && (k <? upto eo (t_n t)) && ((from sc <=? q) && (q <? upto ec (t_c t)))); [reflexivity|]. apply (rep_val _ _ R); assumption. }
  destruct lab as [l|].
  - destruct Hl as (Hcl & Hs1 & -> & ls & El & Hfit). fold (alen (text (relabel ls (Z.to_nat (from ec)) l))) in Hfit.
    assert (Ef : from ec = ec - 1) by (unfold from; replace (ec =? 0) with false by lia; reflexivity). rewrite Ef in Hfit.
    assert (Hle : ec <= t_c t) by (destruct Hq as [[Q _]|Q]; lia).
    destruct (store_labels_ok t r area l ls ec R El Hcl ltac:(lia) Hfit p eq_refl eq_refl eq_refl eq_refl) as (h & Es & Lh & Hz).
    rewrite (rep_d _ _ R), (rep_n _ _ R), (rep_c _ _ R) in Es. rewrite Es. cbn [bind]. eexists. split; [reflexivity|]. cbn [PdSpec.effect]. rewrite El. eexists. split; [reflexivity|].
    destruct R. constructor; cbn [r_dbl r_n r_c r_ords r_vals t_dbl t_n t_c t_ord t_val]; try assumption; try reflexivity; try lia; try (rewrite L; assumption).
    + unfold lab_rep in *. cbn [t_labs t_room t_c r_lablen r_head2]. rewrite El in rep_lab0. destruct rep_lab0 as (Q1 & Q2 & Q3 & Q4 & Q5 & Q6 & _). rewrite Ef.
      split; [unfold alen in *; rewrite relabel_length; exact Q1|]. split; [apply relabel_clean; assumption|]. split; [exact Hfit|]. split; [exact Q4|]. split; [exact Q5|]. split; [lia|]. exact Hz.
  - unfold store_labels. cbn [p_lablen p lb length]. change (Z.of_nat 0 >? 0) with false. cbv iota. cbn [bind]. eexists. split; [reflexivity|]. cbn [PdSpec.effect]. eexists. split; [reflexivity|].
    destruct R. constructor; cbn [r_dbl r_n r_c r_ords r_vals t_dbl t_n t_c t_ord t_val]; try assumption; try reflexivity; try lia; try (rewrite L; assumption).
Qed.
End S.
