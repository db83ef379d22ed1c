(** * Repeat compression: lemmas. *)
From Coq Require Import ZArith List Lia Bool ZifyBool.
From Verif Require Import Base ArrayLib RepeatModel.
Import ListNotations.
Open Scope Z_scope.

(** ** Header bits *)
Definition tb (h : list Z) (b : Z) : bool :=
  match aget h (b / 32) with Ok w => Z.testbit w (b mod 32) | Undef => false end.

Lemma land_bit w p : 0 <= p -> negb (Z.land w (Z.shiftl 1 p) =? 0) = Z.testbit w p.
Proof.
  intros Hp. rewrite Z.shiftl_1_l.
  destruct (Z.testbit w p) eqn:T.
  - destruct (Z.land w (2 ^ p) =? 0) eqn:E; [|reflexivity].
    apply Z.eqb_eq in E. assert (Z.testbit (Z.land w (2 ^ p)) p = false) by (rewrite E; apply Z.testbit_0_l).
    rewrite Z.land_spec, T, Z.pow2_bits_true in H by lia. discriminate.
  - replace (Z.land w (2 ^ p)) with 0; [reflexivity|]. symmetry. apply Z.bits_inj'. intros n Hn.
    rewrite Z.land_spec, Z.testbit_0_l. destruct (Z.eq_dec n p) as [->|N].
    + rewrite T. reflexivity.
    + rewrite Z.pow2_bits_false by lia. apply andb_false_r.
Qed.

Lemma quot32 i : 0 <= i -> Z.quot i 32 = i / 32 /\ i - Z.quot i 32 * 32 = i mod 32.
Proof.
  intros H. rewrite Z.quot_div_nonneg by lia. pose proof (Z.div_mod i 32). lia.
Qed.

Lemma bit_set_ok h i : 0 <= i -> i / 32 < alen h -> bit_set h i = Ok (tb h i).
Proof.
  intros H1 H2. unfold bit_set, tb. destruct (quot32 i H1) as [-> ->].
  assert (0 <= i / 32) by (apply Z.div_pos; lia).
  assert (0 <= i mod 32) by (apply Z.mod_pos_bound; lia).
  destruct (aget_some h (i / 32) ltac:(lia)) as [w ->]. cbn [bind]. rewrite land_bit by lia. reflexivity.
Qed.

Lemma set_bit_ok h hs i : 0 <= i -> i / 32 < hs -> i / 32 < alen h ->
  exists h', set_bit h hs i = Ok h' /\ alen h' = alen h /\
    (forall b, 0 <= b -> tb h' b = tb h b || (b =? i)) /\
    (forall w, w <> i / 32 -> aget h' w = aget h w).
Proof.
  intros H1 H2 H3. unfold set_bit. destruct (quot32 i H1) as [-> ->].
  assert (0 <= i / 32) by (apply Z.div_pos; lia).
  assert (Hm := Z.mod_pos_bound i 32 ltac:(lia)).
  destruct (i / 32 <? hs) eqn:E; [|lia].
  destruct (aget_some h (i / 32) ltac:(lia)) as [w Hw]. rewrite Hw. cbn [bind].
  destruct (aset_ok h (i / 32) (Z.lor w (Z.shiftl 1 (i mod 32))) ltac:(lia)) as (h' & E' & L & G).
  exists h'. split; [exact E'|]. split; [exact L|].
  split; [|intros k Hk; rewrite G; replace (k =? i / 32) with false by lia; reflexivity].
  intros b Hb. unfold tb. rewrite G.
  assert (Hmb := Z.mod_pos_bound b 32 ltac:(lia)).
  pose proof (Z.div_mod b 32 ltac:(lia)). pose proof (Z.div_mod i 32 ltac:(lia)).
  destruct (b / 32 =? i / 32) eqn:Q.
  - apply Z.eqb_eq in Q. rewrite Q, Hw, Z.lor_spec, Z.shiftl_1_l.
    destruct (Z.eq_dec (b mod 32) (i mod 32)) as [M|M].
    + rewrite M, Z.pow2_bits_true by lia. replace (b =? i) with true by lia. reflexivity.
    + rewrite Z.pow2_bits_false by lia. replace (b =? i) with false by lia. reflexivity.
  - replace (b =? i) with false by lia. rewrite orb_false_r. reflexivity.
Qed.

(** ** Elements *)
(** Elements [i] and [i'] of [a] agree word for word. *)
Definition eq_elem (a : list Z) (size i i' : Z) : Prop :=
  forall t, 0 <= t < size -> aget a (i * size + t) = aget a (i' * size + t).

Lemma same_loop_ok n a : forall k m, 0 <= k -> k + Z.of_nat n <= alen a -> 0 <= m -> m + Z.of_nat n <= alen a ->
  exists b, same_loop n a k m = Ok b /\
    (b = true <-> forall t, 0 <= t < Z.of_nat n -> aget a (k + t) = aget a (m + t)).
Proof.
  induction n as [|n IH]; intros k m H1 H2 H3 H4.
  - exists true. split; [reflexivity|]. split; [|reflexivity]. intros _ t Ht. lia.
  - cbn [same_loop]. destruct (aget_some a k ltac:(lia)) as [x Hx]. destruct (aget_some a m ltac:(lia)) as [y Hy].
    rewrite Hx, Hy. cbn [bind]. destruct (x =? y) eqn:E.
    + apply Z.eqb_eq in E. subst y.
      destruct (IH (k + 1) (m + 1)) as (b & Eb & Hb); try lia. exists b. split; [exact Eb|]. rewrite Hb. split.
      * intros G t Ht. destruct (Z.eq_dec t 0) as [->|N]; [rewrite !Z.add_0_r; congruence|].
        specialize (G (t - 1) ltac:(lia)). replace (k + 1 + (t - 1)) with (k + t) in G by lia.
        replace (m + 1 + (t - 1)) with (m + t) in G by lia. exact G.
      * intros G t Ht. specialize (G (t + 1) ltac:(lia)). replace (k + (t + 1)) with (k + 1 + t) in G by lia.
        replace (m + (t + 1)) with (m + 1 + t) in G by lia. exact G.
    + exists false. split; [reflexivity|]. split; [discriminate|]. intros G.
      specialize (G 0 ltac:(lia)). rewrite !Z.add_0_r in G. rewrite Hx, Hy in G. inversion G. lia.
Qed.

(** Element [i] repeats the one before it. *)
Definition repb (a : list Z) (size i : Z) : bool :=
  (0 <? i) && match same_loop (Z.to_nat size) a (i * size) ((i - 1) * size) with Ok b => b | Undef => false end.

(** Number of elements before [i] that do not repeat their predecessor. *)
Fixpoint rankn (a : list Z) (size : Z) (i : nat) : Z :=
  match i with
  | O => 0
  | S i' => rankn a size i' + (if repb a size (Z.of_nat i') then 0 else 1)
  end.
Definition rank a size i := rankn a size (Z.to_nat i).

Lemma rank_succ a size i : 0 <= i -> rank a size (i + 1) = rank a size i + (if repb a size i then 0 else 1).
Proof.
  intros H. unfold rank. replace (Z.to_nat (i + 1)) with (S (Z.to_nat i)) by lia. cbn [rankn].
  rewrite Z2Nat.id by lia. reflexivity.
Qed.

Lemma rank_0 a size : rank a size 0 = 0.
Proof. reflexivity. Qed.

Lemma rank_1 a size : rank a size 1 = 1.
Proof. unfold rank; cbn. reflexivity. Qed.

Lemma rankn_mono a size i j : (i <= j)%nat -> rankn a size i <= rankn a size j.
Proof. induction 1; [lia|]. cbn [rankn]. destruct (repb a size (Z.of_nat m)); lia. Qed.

Lemma rank_mono a size i j : 0 <= i <= j -> rank a size i <= rank a size j.
Proof. intros H. apply rankn_mono. lia. Qed.

Lemma rank_le a size i : 0 <= i -> 0 <= rank a size i <= i.
Proof.
  intros H. unfold rank. assert (0 <= rankn a size (Z.to_nat i) <= Z.of_nat (Z.to_nat i)).
  { generalize (Z.to_nat i) as n. induction n; cbn [rankn]; [lia|]. destruct (repb a size (Z.of_nat n)); lia. }
  lia.
Qed.

Lemma rank_pos a size i : 1 <= i -> 1 <= rank a size i.
Proof. intros H. rewrite <- (rank_1 a size). apply rank_mono. lia. Qed.

Lemma elem_bound size i n : 0 <= size -> 0 <= i < n -> 0 <= i * size /\ i * size + size <= n * size.
Proof. intros. nia. Qed.

Lemma repb_ok a size n i : 0 < size -> 0 < i < n -> n * size <= alen a ->
  same_loop (Z.to_nat size) a (i * size) ((i - 1) * size) = Ok (repb a size i) /\
  (repb a size i = true <-> eq_elem a size i (i - 1)).
Proof.
  intros Hs Hi Hn.
  pose proof (elem_bound size i n ltac:(lia) ltac:(lia)).
  pose proof (elem_bound size (i - 1) n ltac:(lia) ltac:(lia)).
  destruct (same_loop_ok (Z.to_nat size) a (i * size) ((i - 1) * size)) as (b & E & Hb); try lia.
  unfold repb. rewrite E. replace (0 <? i) with true by lia. cbn [andb]. split; [reflexivity|].
  rewrite Hb. unfold eq_elem. rewrite Z2Nat.id by lia. reflexivity.
Qed.

(** What compressing must produce from the elements before [i]. *)
Definition comp_inv (inp out hdr : list Z) (size i : Z) : Prop :=
  (forall b, 0 <= b -> tb hdr b = (b <? i) && repb inp size b) /\
  (forall j t, 0 <= j < i -> 0 <= t < size ->
     aget out ((rank inp size (j + 1) - 1) * size + t) = aget inp (j * size + t)).

Lemma compress_loop_ok inp size n osize hsize : forall cnt i out hdr jcount,
  0 < size -> 0 < i -> n = i + Z.of_nat cnt -> n * size <= alen inp ->
  rank inp size n * size <= osize -> rank inp size n * size <= alen out ->
  (n - 1) / 32 < hsize -> (n - 1) / 32 < alen hdr ->
  comp_inv inp out hdr size i -> jcount = rank inp size i * size ->
  exists o h, compress_loop cnt i size inp out osize hdr hsize (rank inp size i) jcount
              = Ok (o, h, rank inp size n * size) /\
    alen o = alen out /\ alen h = alen hdr /\ comp_inv inp o h size n /\
    (forall w, (n - 1) / 32 < w -> aget h w = aget hdr w).
Proof.
  induction cnt as [|cnt IH]; intros i out hdr jcount Hs Hi Hn Hin Hos Hout Hhs Hh [IB IE] Hj.
  - exists out, hdr. replace n with i by lia. cbn [compress_loop]. subst jcount.
    split; [reflexivity|]. split; [reflexivity|]. split; [reflexivity|]. split; [split; assumption|]. reflexivity.
  - cbn [compress_loop].
    destruct (repb_ok inp size n i Hs ltac:(lia) Hin) as [Es Hr]. rewrite Es. cbn [bind].
    assert (Hq : i / 32 <= (n - 1) / 32) by (apply Z.div_le_mono; lia).
    assert (Rs := rank_succ inp size i ltac:(lia)).
    assert (Rm := rank_mono inp size (i + 1) n ltac:(lia)).
    assert (Rp := rank_pos inp size i ltac:(lia)).
    destruct (repb inp size i) eqn:R.
    + destruct (set_bit_ok hdr hsize i) as (h & Eh & Lh & Gh & Wh); try lia. rewrite Eh. cbn [bind].
      rewrite Z.add_0_r in Rs. rewrite <- Rs in *.
      destruct (IH (i + 1) out h jcount) as (o & h' & E & L1 & L2 & Inv & W'); try lia.
      * split.
        -- intros b Hb. rewrite Gh, IB by lia. destruct (b =? i) eqn:Q.
           ++ apply Z.eqb_eq in Q. subst b. rewrite R. replace (i <? i + 1) with true by lia.
              rewrite orb_true_r. reflexivity.
           ++ rewrite orb_false_r. replace (b <? i + 1) with (b <? i) by lia. reflexivity.
        -- intros j t H1 H2. destruct (Z.eq_dec j i) as [->|N]; [|apply IE; lia].
           rewrite (proj1 Hr eq_refl t H2). rewrite Rs.
           replace i with (i - 1 + 1) at 1 by lia.
           replace (rank inp size (i + 1)) with (rank inp size ((i - 1) + 1)).
           ++ replace (i - 1 + 1) with i by lia. specialize (IE (i - 1) t ltac:(lia) H2).
              replace (i - 1 + 1) with i in IE by lia. exact IE.
           ++ replace (i - 1 + 1) with i by lia. rewrite rank_succ, R by lia. lia.
      * exists o, h'. split; [exact E|]. split; [lia|]. split; [lia|]. split; [exact Inv|].
        intros w Hw. rewrite W' by lia. apply Wh. lia.
    + assert (B : rank inp size i * size + size <= rank inp size n * size) by nia.
      destruct (rank inp size i * size + size <=? osize) eqn:Q; [|lia].
      pose proof (elem_bound size i n ltac:(lia) ltac:(lia)).
      destruct (copy_loop_ok (Z.to_nat size) inp (i * size) out (rank inp size i * size)) as (o & Eo & Lo & Go); try lia.
      rewrite Eo. cbn [bind]. rewrite <- Rs.
      destruct (IH (i + 1) o hdr (jcount + size)) as (o' & h' & E & L1 & L2 & Inv & W'); try lia.
      * split.
        -- intros b Hb. rewrite IB by lia. destruct (Z.eq_dec b i) as [->|N].
           ++ rewrite R, !andb_false_r. reflexivity.
           ++ replace (b <? i + 1) with (b <? i) by lia. reflexivity.
        -- intros j t H1 H2. rewrite Go. destruct (Z.eq_dec j i) as [->|N].
           ++ rewrite Rs. replace (rank inp size i + 1 - 1) with (rank inp size i) by lia.
              replace ((rank inp size i * size <=? rank inp size i * size + t) &&
                       (rank inp size i * size + t <? rank inp size i * size + Z.of_nat (Z.to_nat size))) with true by lia.
              f_equal. lia.
           ++ assert (rank inp size (j + 1) <= rank inp size i) by (apply rank_mono; lia).
              assert ((rank inp size (j + 1) - 1) * size + t < rank inp size i * size) by nia.
              replace (rank inp size i * size <=? (rank inp size (j + 1) - 1) * size + t) with false by lia.
              cbn [andb]. apply IE; lia.
      * exists o', h'. split; [exact E|]. split; [lia|]. split; [lia|]. split; [exact Inv|exact W'].
Qed.

Lemma compress_ok inp size n out osize hdr hsize :
  0 < size -> 0 < n -> n * size <= alen inp ->
  rank inp size n * size <= osize -> rank inp size n * size <= alen out ->
  (n - 1) / 32 < hsize -> (n - 1) / 32 < alen hdr ->
  (forall b, 0 <= b -> tb hdr b = false) ->
  exists o h, compress inp n size out osize hdr hsize = Ok (o, h, rank inp size n * size) /\
    alen o = alen out /\ alen h = alen hdr /\ comp_inv inp o h size n /\
    (forall w, (n - 1) / 32 < w -> aget h w = aget hdr w).
Proof.
  intros Hs Hn Hin Hos Hout Hhs Hh Hz. unfold compress.
  assert (1 <= rank inp size n) by (apply rank_pos; lia).
  destruct (copy_loop_ok (Z.to_nat size) inp 0 out 0) as (o & Eo & Lo & Go); try nia.
  rewrite Eo. cbn [bind].
  destruct (compress_loop_ok inp size n osize hsize (Z.to_nat (n - 1)) 1 o hdr size) as (o' & h' & E & L1 & L2 & Inv & W');
    try lia.
  - split.
    + intros b Hb. rewrite Hz by lia. destruct (b <? 1) eqn:E; [|reflexivity].
      replace b with 0 by lia. unfold repb. reflexivity.
    + intros j t H1 H2. replace j with 0 by lia. change (0 + 1) with 1. rewrite rank_1. cbn [Z.sub Z.mul].
      rewrite Go. replace ((0 <=? (1 - 1) * size + t) && ((1 - 1) * size + t <? 0 + Z.of_nat (Z.to_nat size))) with true by lia.
      f_equal. lia.
  - rewrite rank_1. lia.
  - exists o', h'. rewrite rank_1 in E. split; [exact E|]. split; [lia|]. split; [lia|]. split; [exact Inv|exact W'].
Qed.

(** ** Uncompressing *)
(** Word [t] of an element converted from [vsize] to [req] words, the element being given by its words [g]. *)
Definition cword (f2d : Z -> Z * Z) (d2f : Z -> Z -> Z) (isval : bool) (vsize req : Z) (g : Z -> res Z) (t : Z) : res Z :=
  if vsize =? req then g t
  else if isval then
    if vsize =? 1 then let* x := g 0 in Ok (if t =? 0 then fst (f2d x) else snd (f2d x))
    else let* x := g 0 in let* y := g 1 in Ok (d2f x y)
  else if t <? vsize then g t else Ok 0.

(** Sizes the library supports: equal, or float/double values, or any lengths for quality and notes. *)
Definition sizes_ok (isval : bool) (vsize req : Z) : Prop :=
  0 < vsize /\ 0 < req /\
  (vsize = req \/ isval = false \/ (vsize = 1 /\ req = 2) \/ (vsize = 2 /\ req = 1)).

Lemma cword_ext f2d d2f isval vsize req g g' t :
  sizes_ok isval vsize req -> 0 <= t < req ->
  (forall u, 0 <= u < vsize -> g u = g' u) ->
  cword f2d d2f isval vsize req g t = cword f2d d2f isval vsize req g' t.
Proof.
  intros (S1 & S2 & S3) Ht G. unfold cword. destruct (vsize =? req) eqn:E; [apply G; lia|].
  destruct isval.
  - destruct (vsize =? 1) eqn:E1.
    + rewrite (G 0) by lia. reflexivity.
    + rewrite (G 0), (G 1) by lia. reflexivity.
  - destruct (t <? vsize) eqn:E2; [apply G; lia|reflexivity].
Qed.

Lemma put_elem_ok f2d d2f isval src si dst di vsize req :
  sizes_ok isval vsize req ->
  0 <= si -> si + vsize <= alen src -> 0 <= di -> di + req <= alen dst ->
  exists d, put_elem f2d d2f isval src si dst di vsize req = Ok d /\ alen d = alen dst /\
    forall j, aget d j = if (di <=? j) && (j <? di + req)
                         then cword f2d d2f isval vsize req (fun t => aget src (si + t)) (j - di)
                         else aget dst j.
Proof.
  intros (S1 & S2 & S3) H1 H2 H3 H4. unfold put_elem, cword.
  destruct (vsize =? req) eqn:E.
  - apply Z.eqb_eq in E. subst req.
    destruct (copy_loop_ok (Z.to_nat vsize) src si dst di) as (d & Ed & Ld & Gd); try lia.
    exists d. split; [exact Ed|]. split; [exact Ld|]. intros j. rewrite Gd. rewrite Z2Nat.id by lia. reflexivity.
  - destruct isval.
    + unfold convert_type. rewrite E. destruct (vsize =? 1) eqn:E1.
      * replace (req =? 2) with true by lia. cbn [andb].
        destruct (aget_some src si ltac:(lia)) as [x Hx]. rewrite Hx. cbn [bind]. rewrite Z.add_0_r, Hx. cbn [bind].
        destruct (aset_ok dst di (fst (f2d x)) ltac:(lia)) as (d1 & Ed1 & Ld1 & Gd1). rewrite Ed1. cbn [bind].
        destruct (aset_ok d1 (di + 1) (snd (f2d x)) ltac:(lia)) as (d2 & Ed2 & Ld2 & Gd2). exists d2.
        split; [exact Ed2|]. split; [lia|]. intros j. rewrite Gd2, Gd1.
        destruct (Z.eq_dec j di) as [->|N1].
        { replace (di =? di + 1) with false by lia. rewrite Z.eqb_refl.
          replace ((di <=? di) && (di <? di + req)) with true by lia.
          replace (di - di =? 0) with true by lia. reflexivity. }
        destruct (Z.eq_dec j (di + 1)) as [->|N2].
        { rewrite Z.eqb_refl. replace ((di <=? di + 1) && (di + 1 <? di + req)) with true by lia.
          replace (di + 1 - di =? 0) with false by lia. reflexivity. }
        replace (j =? di + 1) with false by lia. replace (j =? di) with false by lia.
        replace ((di <=? j) && (j <? di + req)) with false by lia. reflexivity.
      * cbn [andb]. replace ((vsize =? 2) && (req =? 1)) with true by lia.
        destruct (aget_some src si ltac:(lia)) as [x Hx]. destruct (aget_some src (si + 1) ltac:(lia)) as [y Hy].
        cbv beta. rewrite Z.add_0_r, Hx, Hy. cbn [bind].
        destruct (aset_ok dst di (d2f x y) ltac:(lia)) as (d1 & Ed1 & Ld1 & Gd1). exists d1.
        split; [exact Ed1|]. split; [lia|]. intros j. rewrite Gd1.
        replace ((di <=? j) && (j <? di + req)) with (j =? di) by lia. reflexivity.
    + unfold convert_length. rewrite E. cbn [orb]. destruct (vsize >? req) eqn:Gt.
      * destruct (copy_loop_ok (Z.to_nat req) src si dst di) as (d & Ed & Ld & Gd); try lia.
        exists d. split; [exact Ed|]. split; [exact Ld|]. intros j. rewrite Gd, Z2Nat.id by lia.
        destruct ((di <=? j) && (j <? di + req)) eqn:B; [|reflexivity].
        replace (j - di <? vsize) with true by lia. reflexivity.
      * destruct (copy_loop_ok (Z.to_nat vsize) src si dst di) as (d & Ed & Ld & Gd); try lia.
        rewrite Ed. cbn [bind].
        destruct (fill_loop_ok (Z.to_nat (req - vsize)) 0 d (di + vsize)) as (d' & Ed' & Ld' & Gd'); try lia.
        exists d'. split; [exact Ed'|]. split; [lia|]. intros j. rewrite Gd', Gd.
        destruct ((di <=? j) && (j <? di + req)) eqn:B.
        -- destruct (j - di <? vsize) eqn:B1.
           ++ replace ((di + vsize <=? j) && (j <? di + vsize + Z.of_nat (Z.to_nat (req - vsize)))) with false by lia.
              replace ((di <=? j) && (j <? di + Z.of_nat (Z.to_nat vsize))) with true by lia. reflexivity.
           ++ replace ((di + vsize <=? j) && (j <? di + vsize + Z.of_nat (Z.to_nat (req - vsize)))) with true by lia.
              reflexivity.
        -- replace ((di + vsize <=? j) && (j <? di + vsize + Z.of_nat (Z.to_nat (req - vsize)))) with false by lia.
           replace ((di <=? j) && (j <? di + Z.of_nat (Z.to_nat vsize))) with false by lia. reflexivity.
Qed.

(** What the compressed arrays must satisfy to be expanded: bits and stored elements of [inp]. *)
Definition stored (inp src hdr : list Z) (size n : Z) : Prop :=
  0 < size /\ 0 < n /\ n * size <= alen inp /\ rank inp size n * size <= alen src /\
  (n - 1) / 32 < alen hdr /\
  (forall b, 0 <= b < n -> tb hdr b = repb inp size b) /\
  (forall j t, 0 <= j < n -> 0 <= t < size ->
     aget src ((rank inp size (j + 1) - 1) * size + t) = aget inp (j * size + t)).

(** Word [t] of element [i] of the original array, converted. *)
Definition oword f2d d2f isval vsize req (inp : list Z) (i t : Z) : res Z :=
  cword f2d d2f isval vsize req (fun u => aget inp (i * vsize + u)) t.

Lemma put_stored f2d d2f isval inp src hdr vsize req n i dst di :
  stored inp src hdr vsize n -> sizes_ok isval vsize req -> 0 <= i < n -> repb inp vsize i = false ->
  0 <= di -> di + req <= alen dst ->
  exists d, put_elem f2d d2f isval src (rank inp vsize i * vsize) dst di vsize req = Ok d /\ alen d = alen dst /\
    forall j, aget d j = if (di <=? j) && (j <? di + req)
                         then oword f2d d2f isval vsize req inp i (j - di) else aget dst j.
Proof.
  intros (S1 & S2 & S3 & S4 & S5 & IB & IE) Sz Hi R Hd1 Hd2.
  assert (Rs := rank_succ inp vsize i ltac:(lia)). rewrite R in Rs.
  assert (Rm := rank_mono inp vsize (i + 1) n ltac:(lia)).
  assert (R0 := rank_le inp vsize i ltac:(lia)).
  destruct (put_elem_ok f2d d2f isval src (rank inp vsize i * vsize) dst di vsize req Sz) as (d & Ed & Ld & Gd); try nia.
  exists d. split; [exact Ed|]. split; [exact Ld|]. intros j. rewrite Gd.
  destruct ((di <=? j) && (j <? di + req)) eqn:B; [|reflexivity].
  unfold oword. apply cword_ext; [exact Sz|lia|]. intros u Hu.
  rewrite <- (IE i u ltac:(lia) Hu). rewrite Rs. f_equal. lia.
Qed.

Lemma oword_rep f2d d2f isval inp vsize req n i t :
  0 < vsize -> 0 < i < n -> n * vsize <= alen inp -> sizes_ok isval vsize req -> 0 <= t < req ->
  repb inp vsize i = true ->
  oword f2d d2f isval vsize req inp i t = oword f2d d2f isval vsize req inp (i - 1) t.
Proof.
  intros H1 H2 H3 Sz Ht R. unfold oword. apply cword_ext; [exact Sz|exact Ht|].
  intros u Hu. apply (proj2 (repb_ok inp vsize n i H1 H2 H3)); assumption.
Qed.

Lemma repb_0 a s : repb a s 0 = false.
Proof. reflexivity. Qed.

Lemma tb_of inp src hdr vsize n i : stored inp src hdr vsize n -> 0 <= i < n -> bit_set hdr i = Ok (repb inp vsize i).
Proof.
  intros (S1 & S2 & S3 & S4 & S5 & IB & IE) Hi.
  assert (i / 32 <= (n - 1) / 32) by (apply Z.div_le_mono; lia).
  rewrite bit_set_ok by lia. rewrite IB by lia. reflexivity.
Qed.

Lemma skip_loop_ok f2d d2f isval inp src hdr vsize req n : forall cnt i dst,
  stored inp src hdr vsize n -> sizes_ok isval vsize req -> req <= alen dst ->
  0 <= i -> i + Z.of_nat cnt <= n ->
  (0 < i -> forall t, 0 <= t < req -> aget dst t = oword f2d d2f isval vsize req inp (i - 1) t) ->
  exists d, skip_loop cnt i f2d d2f isval vsize req hdr src dst (rank inp vsize i * vsize)
            = Ok (d, rank inp vsize (i + Z.of_nat cnt) * vsize) /\
    alen d = alen dst /\
    (0 < i + Z.of_nat cnt -> forall t, 0 <= t < req ->
       aget d t = oword f2d d2f isval vsize req inp (i + Z.of_nat cnt - 1) t) /\
    (forall t, req <= t -> aget d t = aget dst t).
Proof.
  induction cnt as [|cnt IH]; intros i dst St Sz Hd Hi Hn Inv.
  - exists dst. replace (i + Z.of_nat 0) with i by lia. cbn [skip_loop].
    split; [reflexivity|]. split; [reflexivity|]. split; [exact Inv|]. reflexivity.
  - cbn [skip_loop]. rewrite (tb_of inp src hdr vsize n i St ltac:(lia)). cbn [bind].
    assert (Rs := rank_succ inp vsize i ltac:(lia)).
    replace (i + Z.of_nat (S cnt)) with (i + 1 + Z.of_nat cnt) by lia.
    destruct (repb inp vsize i) eqn:R.
    + rewrite Z.add_0_r in Rs. rewrite <- Rs. apply IH; try assumption; try lia.
      intros _ t Ht. assert (0 < i) by (unfold repb in R; lia).
      rewrite Inv by lia. replace (i + 1 - 1) with i by lia. symmetry.
      apply (oword_rep f2d d2f isval inp vsize req n i t); try assumption; try lia; apply St.
    + destruct (put_stored f2d d2f isval inp src hdr vsize req n i dst 0 St Sz ltac:(lia) R ltac:(lia) ltac:(lia)) as (d & Ed & Ld & Gd).
      rewrite Ed. cbn [bind]. replace (rank inp vsize i * vsize + vsize) with (rank inp vsize (i + 1) * vsize) by (rewrite Rs; lia).
      destruct (IH (i + 1) d) as (d' & E' & L' & G' & K'); try assumption; try lia.
      { intros _ t Ht. rewrite Gd. replace ((0 <=? t) && (t <? 0 + req)) with true by lia. f_equal; lia. }
      exists d'. split; [exact E'|]. split; [lia|]. split; [exact G'|].
      intros t Ht. rewrite K' by lia. rewrite Gd. replace ((0 <=? t) && (t <? 0 + req)) with false by lia. reflexivity.
Qed.

Lemma expand_loop_ok f2d d2f isval inp src hdr vsize req n start dsize : forall cnt i dst,
  stored inp src hdr vsize n -> sizes_ok isval vsize req ->
  0 <= start < i -> i + Z.of_nat cnt <= n ->
  (i + Z.of_nat cnt - start) * req <= alen dst -> (i + Z.of_nat cnt - start) * req <= dsize ->
  (forall k t, start <= k < i -> 0 <= t < req ->
     aget dst ((k - start) * req + t) = oword f2d d2f isval vsize req inp k t) ->
  exists d, expand_loop cnt i f2d d2f isval vsize req hdr src dst dsize (rank inp vsize i * vsize) ((i - start) * req)
            = Ok d /\
    alen d = alen dst /\
    (forall k t, start <= k < i + Z.of_nat cnt -> 0 <= t < req ->
       aget d ((k - start) * req + t) = oword f2d d2f isval vsize req inp k t) /\
    (forall p, (i + Z.of_nat cnt - start) * req <= p -> aget d p = aget dst p).
Proof.
  induction cnt as [|cnt IH]; intros i dst St Sz Hi Hn Hd1 Hd2 Inv.
  - exists dst. replace (i + Z.of_nat 0) with i by lia. cbn [expand_loop].
    split; [reflexivity|]. split; [reflexivity|]. split; [exact Inv|]. reflexivity.
  - cbn [expand_loop].
    replace (i + Z.of_nat (S cnt)) with (i + 1 + Z.of_nat cnt) in * by lia.
    assert (Rq : 0 < req) by apply Sz.
    assert (B : (i - start) * req + req <= (i + 1 + Z.of_nat cnt - start) * req) by nia.
    assert (B0 : req <= (i - start) * req) by nia.
    destruct ((i - start) * req <? dsize) eqn:Q; [|lia].
    rewrite (tb_of inp src hdr vsize n i St ltac:(lia)). cbn [bind].
    assert (Rs := rank_succ inp vsize i ltac:(lia)).
    replace ((i - start) * req + req) with ((i + 1 - start) * req) by lia.
    destruct (repb inp vsize i) eqn:R.
    + destruct (self_copy_loop_ok (Z.to_nat req) dst ((i - start) * req - req) ((i - start) * req)) as (d & Ed & Ld & Gd); try lia.
      rewrite Ed. cbn [bind]. rewrite Z.add_0_r in Rs. rewrite <- Rs.
      destruct (IH (i + 1) d) as (d' & E' & L' & G' & K'); try assumption; try lia.
      { intros k t Hk Ht. rewrite Gd. destruct (Z.eq_dec k i) as [->|N].
        - replace (((i - start) * req <=? (i - start) * req + t) && ((i - start) * req + t <? (i - start) * req + Z.of_nat (Z.to_nat req))) with true by lia.
          replace ((i - start) * req - req + ((i - start) * req + t - (i - start) * req)) with ((i - 1 - start) * req + t) by lia.
          rewrite Inv by lia. symmetry.
          apply (oword_rep f2d d2f isval inp vsize req n i t); try assumption; try lia; apply St.
        - assert ((k - start) * req + t < (i - start) * req) by nia.
          replace (((i - start) * req <=? (k - start) * req + t)) with false by lia. cbn [andb]. apply Inv; lia. }
      exists d'. split; [exact E'|]. split; [lia|]. split; [exact G'|].
      intros p Hp. rewrite K' by lia. rewrite Gd.
      replace (p <? (i - start) * req + Z.of_nat (Z.to_nat req)) with false by lia. rewrite andb_false_r. reflexivity.
    + destruct (put_stored f2d d2f isval inp src hdr vsize req n i dst ((i - start) * req) St Sz ltac:(lia) R ltac:(lia) ltac:(lia)) as (d & Ed & Ld & Gd).
      rewrite Ed. cbn [bind]. replace (rank inp vsize i * vsize + vsize) with (rank inp vsize (i + 1) * vsize) by (rewrite Rs; lia).
      destruct (IH (i + 1) d) as (d' & E' & L' & G' & K'); try assumption; try lia.
      { intros k t Hk Ht. rewrite Gd. destruct (Z.eq_dec k i) as [->|N].
        - replace (((i - start) * req <=? (i - start) * req + t) && ((i - start) * req + t <? (i - start) * req + req)) with true by lia.
          f_equal. lia.
        - assert ((k - start) * req + t < (i - start) * req) by nia.
          replace (((i - start) * req <=? (k - start) * req + t)) with false by lia. cbn [andb]. apply Inv; lia. }
      exists d'. split; [exact E'|]. split; [lia|]. split; [exact G'|].
      intros p Hp. rewrite K' by lia. rewrite Gd.
      replace (p <? (i - start) * req + req) with false by lia. rewrite andb_false_r. reflexivity.
Qed.

Lemma uncompress_ok f2d d2f isval inp src hdr vsize req n start stop dst dsize :
  stored inp src hdr vsize n -> sizes_ok isval vsize req ->
  0 <= start < stop -> stop <= n ->
  (stop - start) * req <= alen dst -> (stop - start) * req <= dsize ->
  exists d, uncompress f2d d2f start stop vsize req isval hdr src dst dsize = Ok d /\
    alen d = alen dst /\
    (forall k t, start <= k < stop -> 0 <= t < req ->
       aget d ((k - start) * req + t) = oword f2d d2f isval vsize req inp k t) /\
    (forall p, (stop - start) * req <= p -> aget d p = aget dst p).
Proof.
  intros St Sz Hss Hn Hd1 Hd2. unfold uncompress.
  assert (Rq : 0 < req) by apply Sz. assert (req <= (stop - start) * req) by nia.
  assert (Hfirst : exists d, (if start =? 0 then
       let* d := put_elem f2d d2f isval src 0 dst 0 vsize req in Ok (d, vsize)
     else skip_loop (Z.to_nat (start + 1)) 0 f2d d2f isval vsize req hdr src dst 0) = Ok (d, rank inp vsize (start + 1) * vsize)
     /\ alen d = alen dst /\ (forall t, 0 <= t < req -> aget d t = oword f2d d2f isval vsize req inp start t)
     /\ (forall t, req <= t -> aget d t = aget dst t)).
  { destruct (start =? 0) eqn:E0.
    - replace start with 0 in * by lia. change (0 + 1) with 1.
      destruct (put_stored f2d d2f isval inp src hdr vsize req n 0 dst 0 St Sz ltac:(lia) (repb_0 _ _) ltac:(lia) ltac:(lia)) as (d & Ed & Ld & Gd).
      rewrite rank_0 in Ed. change (0 * vsize) with 0 in Ed. rewrite Ed. cbn [bind]. exists d.
      rewrite rank_1, Z.mul_1_l. split; [reflexivity|]. split; [exact Ld|]. split.
      + intros t Ht. rewrite Gd. replace ((0 <=? t) && (t <? 0 + req)) with true by lia. f_equal; lia.
      + intros t Ht. rewrite Gd. replace ((0 <=? t) && (t <? 0 + req)) with false by lia. reflexivity.
    - destruct (skip_loop_ok f2d d2f isval inp src hdr vsize req n (Z.to_nat (start + 1)) 0 dst St Sz) as (d & Ed & Ld & Gd & Kd); try lia.
      rewrite rank_0 in Ed. change (0 * vsize) with 0 in Ed. rewrite Ed.
      exists d. rewrite Z2Nat.id by lia. rewrite Z.add_0_l. split; [reflexivity|]. split; [exact Ld|]. split; [|exact Kd].
      intros t Ht. rewrite Gd by lia. f_equal. lia. }
  destruct Hfirst as (d & Ed & Ld & Gd & Kd). rewrite Ed. cbn [bind].
  destruct (start =? stop) eqn:Ess; [lia|].
  destruct (expand_loop_ok f2d d2f isval inp src hdr vsize req n start dsize (Z.to_nat (stop - (start + 1))) (start + 1) d St Sz)
    as (d' & E' & L' & G' & K'); try lia.
  { intros k t Hk Ht. replace k with start by lia. rewrite Z.sub_diag. apply Gd; lia. }
  replace ((start + 1 - start) * req) with req in E' by lia.
  replace (start + 1 + Z.of_nat (Z.to_nat (stop - (start + 1)))) with stop in * by lia.
  exists d'. split; [exact E'|]. split; [lia|]. split; [exact G'|].
  intros p Hp. rewrite K' by lia. apply Kd. lia.
Qed.

(** [start = stop] : one element is produced. *)
Lemma uncompress_one f2d d2f isval inp src hdr vsize req n start dst dsize :
  stored inp src hdr vsize n -> sizes_ok isval vsize req ->
  0 <= start < n -> req <= alen dst ->
  exists d, uncompress f2d d2f start start vsize req isval hdr src dst dsize = Ok d /\
    alen d = alen dst /\
    (forall t, 0 <= t < req -> aget d t = oword f2d d2f isval vsize req inp start t).
Proof.
  intros St Sz Hs Hd. unfold uncompress. rewrite Z.eqb_refl.
  destruct (start =? 0) eqn:E0.
  - replace start with 0 in * by lia.
    destruct (put_stored f2d d2f isval inp src hdr vsize req n 0 dst 0 St Sz ltac:(lia) (repb_0 _ _) ltac:(lia) ltac:(lia)) as (d & Ed & Ld & Gd).
    rewrite rank_0 in Ed. change (0 * vsize) with 0 in Ed. rewrite Ed. cbn [bind]. exists d.
    split; [reflexivity|]. split; [exact Ld|].
    intros t Ht. rewrite Gd. replace ((0 <=? t) && (t <? 0 + req)) with true by lia. f_equal; lia.
  - destruct (skip_loop_ok f2d d2f isval inp src hdr vsize req n (Z.to_nat (start + 1)) 0 dst St Sz) as (d & Ed & Ld & Gd & Kd); try lia.
    rewrite rank_0 in Ed. change (0 * vsize) with 0 in Ed. rewrite Ed. cbn [bind].
    exists d. split; [reflexivity|]. split; [exact Ld|].
    intros t Ht. rewrite Gd by lia. f_equal. lia.
Qed.
