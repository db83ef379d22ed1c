(** * Time-series record layout: lemmas. *)
From Coq Require Import ZArith List Lia Bool ZifyBool.
From Verif Require Import Base ArrayLib RepeatModel RepeatProofs RepeatProps AggModel.
Import ListNotations.
Open Scope Z_scope.

(** ** Array pieces *)
Lemma aget_skipn {A} (a : list A) p j : 0 <= p -> 0 <= j -> aget (skipn (Z.to_nat p) a) j = aget a (p + j).
Proof.
  intros Hp Hj. unfold aget. destruct (j <? 0) eqn:E; [lia|]. destruct (p + j <? 0) eqn:E2; [lia|].
  replace (Z.to_nat (p + j)) with (Z.to_nat p + Z.to_nat j)%nat by lia.
  generalize (Z.to_nat p) as m, (Z.to_nat j) as i. clear. intros m. revert a.
  induction m; intros a i; cbn; [reflexivity|]. destruct a; [destruct i; reflexivity|]. apply IHm.
Qed.

Lemma alen_skipn {A} (a : list A) p : 0 <= p <= alen a -> alen (skipn (Z.to_nat p) a) = alen a - p.
Proof. unfold alen. intros H. rewrite skipn_length. lia. Qed.

Lemma alen_app {A} (a b : list A) : alen (a ++ b) = alen a + alen b.
Proof. unfold alen. rewrite app_length. lia. Qed.

Lemma aget_app {A} (a b : list A) j : aget (a ++ b) j = if j <? alen a then aget a j else aget b (j - alen a).
Proof.
  unfold aget, alen. destruct (j <? 0) eqn:E.
  - destruct (j <? Z.of_nat (length a)) eqn:E1; [reflexivity|]. lia.
  - destruct (j <? Z.of_nat (length a)) eqn:E1.
    + rewrite nth_error_app1 by lia. reflexivity.
    + destruct (j - Z.of_nat (length a) <? 0) eqn:E2; [lia|]. rewrite nth_error_app2 by lia.
      replace (Z.to_nat (j - Z.of_nat (length a))) with (Z.to_nat j - length a)%nat by lia. reflexivity.
Qed.

Lemma alen_zeros n : 0 <= n -> alen (zeros n) = n.
Proof. intros H. unfold alen, zeros. rewrite repeat_length. lia. Qed.

Lemma aget_repeat {A} (x : A) n j : 0 <= j < Z.of_nat n -> aget (repeat x n) j = Ok x.
Proof.
  intros H. unfold aget. destruct (j <? 0) eqn:E; [lia|].
  assert (Hn : (Z.to_nat j < n)%nat) by lia. revert Hn. generalize (Z.to_nat j) as i. clear. induction n; intros i H; [lia|].
  destruct i; [reflexivity|]. cbn. apply IHn. lia.
Qed.

Lemma aget_zeros n j : 0 <= j < n -> aget (zeros n) j = Ok 0.
Proof. intros H. apply aget_repeat. lia. Qed.

Lemma zeros_in n w : In w (zeros n) -> w = 0.
Proof. intros H. apply repeat_spec in H. exact H. Qed.

Lemma at_offset_ok {B} (a : list Z) p (f : list Z -> res (list Z * B)) t b :
  0 <= p <= alen a -> f (skipn (Z.to_nat p) a) = Ok (t, b) -> alen t = alen a - p ->
  exists a', at_offset a p f = Ok (a', b) /\ alen a' = alen a /\
    (forall j, j < p -> aget a' j = aget a j) /\
    (forall j, 0 <= j -> aget a' (p + j) = aget t j) /\ skipn (Z.to_nat p) a' = t.
Proof.
  intros Hp Hf Ht. unfold at_offset.
  replace ((p <? 0) || (alen a <? p)) with false by lia. rewrite Hf. cbn [bind].
  eexists. split; [reflexivity|].
  assert (Lf : alen (firstn (Z.to_nat p) a) = p) by (apply alen_firstn; lia).
  split; [rewrite alen_app; lia|]. split; [|split].
  - intros j Hj. rewrite aget_app, Lf. replace (j <? p) with true by lia.
    destruct (Z.lt_ge_cases j 0); [rewrite !aget_out by lia; reflexivity|]. apply aget_firstn. lia.
  - intros j Hj. rewrite aget_app, Lf. replace (p + j <? p) with false by lia. f_equal; lia.
  - rewrite skipn_app. replace (Z.to_nat p - length (firstn (Z.to_nat p) a))%nat with O by (unfold alen in Lf; lia).
    rewrite skipn_all2 by (unfold alen in Lf; lia). reflexivity.
Qed.

(** ** Counting *)
Lemma count_loop_ok a size n : forall cnt i acc,
  0 < size -> 0 < i -> n = i + Z.of_nat cnt -> n * size <= alen a ->
  count_loop cnt i size a acc = Ok (acc + (n - i) - (rank a size n - rank a size i)).
Proof.
  induction cnt as [|cnt IH]; intros i acc Hs Hi Hn Ha.
  - cbn [count_loop]. replace n with i by lia. f_equal. lia.
  - cbn [count_loop]. destruct (repb_ok a size n i Hs ltac:(lia) Ha) as [E _]. rewrite E. cbn [bind].
    rewrite (IH (i + 1)) by lia. rewrite (rank_succ a size i) by lia.
    destruct (repb a size i); f_equal; lia.
Qed.

Lemma count_repeats_ok a n size : 0 < size -> 0 < n -> n * size <= alen a ->
  count_repeats a n size = Ok (n - rank a size n).
Proof.
  intros Hs Hn Ha. unfold count_repeats. rewrite (count_loop_ok a size n) by lia. rewrite rank_1. f_equal. lia.
Qed.

(** All elements repeat the first one when only one is counted as new. *)
Lemma rank_one_all a size n i : 0 < n -> rank a size n = 1 -> 0 < i < n -> repb a size i = true.
Proof.
  intros Hn R Hi. destruct (repb a size i) eqn:E; [reflexivity|].
  pose proof (rank_succ a size i ltac:(lia)). rewrite E in H.
  pose proof (rank_pos a size i ltac:(lia)). pose proof (rank_mono a size (i + 1) n ltac:(lia)). lia.
Qed.

Lemma first_elem a size n : 0 < size -> n * size <= alen a -> (forall i, 0 < i < n -> repb a size i = true) ->
  forall i, 0 <= i < n -> eq_elem a size i 0.
Proof.
  intros Hs Ha Hr i Hi. assert (G : forall k : nat, Z.of_nat k < n -> eq_elem a size (Z.of_nat k) 0).
  { induction k; intros Hk; [intros t Ht; reflexivity|].
    intros t Ht. rewrite (proj1 (proj2 (repb_ok a size n (Z.of_nat (S k)) Hs ltac:(lia) Ha)) (Hr (Z.of_nat (S k)) ltac:(lia)) t Ht).
    replace (Z.of_nat (S k) - 1) with (Z.of_nat k) by lia. apply IHk; lia. }
  specialize (G (Z.to_nat i)). rewrite Z2Nat.id in G by lia. apply G. lia.
Qed.

(** ** Writing *)
Lemma append_ok data cnt out p :
  0 <= cnt <= alen data -> 0 <= p -> p + cnt <= alen out ->
  exists o, append data cnt out p = Ok (o, p + cnt) /\ alen o = alen out /\
    (forall j, j < p -> aget o j = aget out j) /\
    (forall k, 0 <= k < cnt -> aget o (p + k) = aget data k).
Proof.
  intros H1 H2 H3. unfold append.
  destruct (copy_loop_ok (Z.to_nat cnt) data 0 out p) as (o & E & L & G); try lia. rewrite E. cbn [bind].
  exists o. split; [reflexivity|]. split; [exact L|]. split.
  - intros j Hj. rewrite G. replace (p <=? j) with false by lia. reflexivity.
  - intros k Hk. rewrite G. replace ((p <=? p + k) && (p + k <? p + Z.of_nat (Z.to_nat cnt))) with true by lia. f_equal; lia.
Qed.

Lemma even_up_bound p : p <= even_up p <= p + 1.
Proof. unfold even_up. destruct (Z.odd p); lia. Qed.

Lemma pad_odd_ok out p : 0 <= p -> p < alen out ->
  exists o, pad_odd out p = Ok (o, even_up p) /\ alen o = alen out /\ (forall j, j < p -> aget o j = aget out j).
Proof.
  intros H1 H2. unfold pad_odd, even_up. destruct (Z.odd p).
  - destruct (aset_ok out p 0 ltac:(lia)) as (o & E & L & G). rewrite E. cbn [bind]. exists o.
    split; [reflexivity|]. split; [exact L|]. intros j Hj. rewrite G. replace (j =? p) with false by lia. reflexivity.
  - exists out. auto.
Qed.

(** Section of array [c] at word [p] of [arr], its bits at word [hp] of [hdr]. *)
Definition sec_at (c : chan) (n : Z) (h : chead) (arr : list Z) (p : Z) (hdr : list Z) (hp : Z) : Prop :=
  h_size h = c_size c /\ 0 <= p /\ p + h_number h <= alen arr /\ 0 < c_size c /\ 0 < n /\
  n * c_size c <= alen (c_data c) /\ 0 <= hp /\ 0 < h_number h /\
  ((h_flag h = 0 /\ h_number h = n * c_size c /\
    forall k, 0 <= k < n * c_size c -> aget arr (p + k) = aget (c_data c) k) \/
   (h_flag h = 2 /\ h_number h = c_size c /\ (forall i, 0 < i < n -> repb (c_data c) (c_size c) i = true) /\
    forall k, 0 <= k < c_size c -> aget arr (p + k) = aget (c_data c) k) \/
   (h_flag h = 1 /\ h_number h = rank (c_data c) (c_size c) n * c_size c /\ hp + (n - 1) / 32 < alen hdr /\
    (forall b, 0 <= b < n -> tb (skipn (Z.to_nat hp) hdr) b = repb (c_data c) (c_size c) b) /\
    (forall j t, 0 <= j < n -> 0 <= t < c_size c ->
       aget arr (p + ((rank (c_data c) (c_size c) (j + 1) - 1) * c_size c + t)) = aget (c_data c) (j * c_size c + t)))).

Lemma sec_frame c n h arr p hdr hp arr' hdr' :
  sec_at c n h arr p hdr hp -> p + h_number h <= alen arr' -> alen hdr' = alen hdr ->
  (forall j, p <= j < p + h_number h -> aget arr' j = aget arr j) ->
  (h_flag h = 1 -> forall j, hp <= j <= hp + (n - 1) / 32 -> aget hdr' j = aget hdr j) ->
  sec_at c n h arr' p hdr' hp.
Proof.
  intros (A1 & A2 & A3 & A4 & A5 & A6 & A7 & A8 & D) La Lh Ga Gh.
  split; [exact A1|]. split; [exact A2|]. split; [lia|]. split; [exact A4|]. split; [exact A5|]. split; [exact A6|].
  split; [exact A7|]. split; [exact A8|].
  destruct D as [(F & N & G)|[(F & N & R & G)|(F & N & B & T & G)]].
  - left. split; [exact F|]. split; [exact N|]. intros k Hk. rewrite Ga by lia. apply G; lia.
  - right; left. split; [exact F|]. split; [exact N|]. split; [exact R|]. intros k Hk. rewrite Ga by lia. apply G; lia.
  - right; right. split; [exact F|]. split; [exact N|]. split; [lia|]. split.
    + intros b Hb. rewrite <- T by lia. unfold tb. assert (0 <= b / 32) by (apply Z.div_pos; lia).
      assert (b / 32 <= (n - 1) / 32) by (apply Z.div_le_mono; lia).
      rewrite !aget_skipn by lia. rewrite Gh by (try exact F; lia). reflexivity.
    + intros j t Hj Ht. rewrite <- G by lia. apply Ga.
      pose proof (rank_pos (c_data c) (c_size c) (j + 1) ltac:(lia)).
      pose proof (rank_mono (c_data c) (c_size c) (j + 1) n ltac:(lia)). nia.
Qed.

Lemma section_head_facts cmp c n :
  0 < c_size c -> 0 < n ->
  let h := section_head cmp (n - rank (c_data c) (c_size c) n) n (c_size c) in
  h_size h = c_size c /\ 0 < h_number h <= n * c_size c /\ (h_flag h = 1 -> cmp = true).
Proof.
  intros Hs Hn. cbn zeta. unfold section_head.
  pose proof (rank_pos (c_data c) (c_size c) n ltac:(lia)). pose proof (rank_le (c_data c) (c_size c) n ltac:(lia)).
  destruct cmp.
  - destruct (n - rank (c_data c) (c_size c) n + 1 =? n) eqn:E; cbn.
    + split; [reflexivity|]. split; [nia|]. discriminate.
    + split; [reflexivity|]. split; [nia|]. reflexivity.
  - cbn. split; [reflexivity|]. split; [nia|]. discriminate.
Qed.

Lemma hwords_val n : 0 < n -> hwords_of n = (n - 1) / 32 + 1.
Proof. intros H. unfold hwords_of. rewrite Z.quot_div_nonneg by lia. reflexivity. Qed.

Lemma append_section_ok cmp c n osize hsize out p hdr hp :
  0 < c_size c -> 0 < n -> n * c_size c <= alen (c_data c) ->
  let h := section_head cmp (n - rank (c_data c) (c_size c) n) n (c_size c) in
  n * c_size c <= osize -> 0 <= p -> p + h_number h <= alen out ->
  0 <= hp -> (cmp = true -> hp + hwords_of n <= alen hdr /\ hwords_of n <= hsize) ->
  hp <= alen hdr ->
  (forall j, hp <= j < alen hdr -> aget hdr j = Ok 0) ->
  exists o hd, append_section cmp c (n - rank (c_data c) (c_size c) n) n osize (hwords_of n) hsize out p hdr hp
    = Ok (o, p + h_number h, hd, hp + (if h_flag h =? 1 then hwords_of n else 0)) /\
    alen o = alen out /\ alen hd = alen hdr /\
    (forall j, j < p -> aget o j = aget out j) /\ (forall j, j < hp -> aget hd j = aget hdr j) /\
    (forall j, hp + (if h_flag h =? 1 then hwords_of n else 0) <= j < alen hd -> aget hd j = Ok 0) /\
    sec_at c n h o p hd hp.
Proof.
  intros Hs Hn Hd h Hos Hp Hout Hhp Hhw Hhl Hz.
  assert (HF := section_head_facts cmp c n Hs Hn). cbn zeta in HF. fold h in HF. destruct HF as (HF1 & HF2 & HF3).
  unfold append_section. fold h.
  destruct cmp.
  2: { (* plain *)
    assert (Eh : h = mk_chead (n * c_size c) (c_size c) 0) by reflexivity.
    rewrite Eh. cbn [h_flag h_number h_size Z.eqb Pos.eqb].
    rewrite Eh in Hout, HF2; cbn [h_number] in Hout, HF2.
    destruct (append_ok (c_data c) (n * c_size c) out p) as (o & E & L & G1 & G2); try lia.
    rewrite E. cbn [bind]. exists o, hdr. rewrite Z.add_0_r.
    split; [reflexivity|]. split; [exact L|]. split; [reflexivity|]. split; [exact G1|]. split; [reflexivity|].
    split; [exact Hz|].
    split; [reflexivity|]. split; [exact Hp|]. split; [cbn; lia|]. split; [exact Hs|]. split; [exact Hn|]. split; [exact Hd|].
    split; [exact Hhp|]. split; [cbn; lia|]. left. cbn. auto. }
  destruct (Hhw eq_refl) as [Hw1 Hw2].
  unfold section_head in h.
  destruct (n - rank (c_data c) (c_size c) n + 1 =? n) eqn:E1.
  - (* all the same *)
    assert (Eh : h = mk_chead (c_size c) (c_size c) 2) by reflexivity.
    rewrite Eh. cbn [h_flag h_number h_size Z.eqb Pos.eqb].
    rewrite Eh in Hout; cbn [h_number] in Hout.
    destruct (append_ok (c_data c) (c_size c) out p) as (o & E & L & G1 & G2); try nia.
    rewrite E. cbn [bind]. exists o, hdr. rewrite Z.add_0_r.
    split; [reflexivity|]. split; [exact L|]. split; [reflexivity|]. split; [exact G1|]. split; [reflexivity|].
    split; [exact Hz|].
    split; [reflexivity|]. split; [exact Hp|]. split; [cbn; lia|]. split; [exact Hs|]. split; [exact Hn|]. split; [exact Hd|].
    split; [exact Hhp|]. split; [cbn; lia|]. right; left. cbn. split; [reflexivity|]. split; [reflexivity|]. split; [|exact G2].
    intros i Hi. apply (rank_one_all _ _ n); lia.
  - (* compressed *)
    set (R := rank (c_data c) (c_size c) n) in *.
    assert (Eh : h = mk_chead ((n - (n - R)) * c_size c) (c_size c) 1) by reflexivity.
    rewrite Eh. cbn [h_flag h_number h_size Z.eqb Pos.eqb].
    rewrite Eh in Hout, HF2; cbn [h_number] in Hout, HF2.
    replace ((n - (n - R)) * c_size c) with (R * c_size c) in * by lia.
    assert (Hrp : 1 <= R) by (apply rank_pos; lia).
    assert (Q : 0 <= (n - 1) / 32) by (apply Z.div_pos; lia).
    rewrite hwords_val in * by lia.
    assert (Q2 : (n - 1) / 32 < alen (skipn (Z.to_nat hp) hdr)) by (rewrite alen_skipn by lia; lia).
    assert (Hzs : forall b, 0 <= b -> tb (skipn (Z.to_nat hp) hdr) b = false).
    { intros b Hb. unfold tb. assert (0 <= b / 32) by (apply Z.div_pos; lia).
      rewrite aget_skipn by lia. destruct (Z.lt_ge_cases (hp + b / 32) (alen hdr)).
      - rewrite Hz by lia. apply Z.testbit_0_l.
      - rewrite aget_out by lia. reflexivity. }
    destruct (compress_ok (c_data c) (c_size c) n (skipn (Z.to_nat p) out) osize (skipn (Z.to_nat hp) hdr) hsize)
      as (o1 & h1 & E & L1 & L2 & [IB IE] & Wh); try assumption; try (fold R); try nia.
    { rewrite alen_skipn by lia. lia. }
    fold R in E.
    set (fh := fun sub hsub => let* '(o, h', _) := compress (c_data c) n (c_size c) sub osize hsub hsize in Ok (h', o)).
    rewrite alen_skipn in L1 by lia. rewrite alen_skipn in L2 by lia.
    destruct (at_offset_ok hdr hp (fh (skipn (Z.to_nat p) out)) h1 o1) as (hd & Ehd & Lhd & Ghd1 & Ghd2 & Ghd3); try lia.
    { unfold fh. rewrite E. reflexivity. }
    set (fo := fun sub => let* '(hd, o) := at_offset hdr hp (fh sub) in Ok (o, hd)).
    destruct (at_offset_ok out p fo o1 hd) as (o & Eo & Lo & Go1 & Go2 & _); try lia.
    { unfold fo. rewrite Ehd. reflexivity. }
    unfold fo, fh in Eo. rewrite Eo. cbn [bind]. exists o, hd.
    split; [reflexivity|]. split; [exact Lo|]. split; [exact Lhd|]. split; [exact Go1|]. split; [exact Ghd1|].
    split.
    { intros j Hj. replace j with (hp + (j - hp)) by lia. rewrite Ghd2 by lia.
      rewrite Wh by lia. rewrite aget_skipn by lia. apply Hz. lia. }
    split; [reflexivity|]. split; [exact Hp|]. split; [cbn; lia|]. split; [exact Hs|]. split; [exact Hn|]. split; [exact Hd|].
    split; [exact Hhp|]. split; [cbn; nia|]. right; right. cbn. fold R. split; [reflexivity|]. split; [reflexivity|].
    split; [lia|]. split.
    + intros b Hb. rewrite Ghd3. rewrite IB by lia. replace (b <? n) with true by lia. reflexivity.
    + intros j t Hj Ht.
      pose proof (rank_pos (c_data c) (c_size c) (j + 1) ltac:(lia)). rewrite Go2 by nia. apply IE; lia.
Qed.

(** ** Reading *)
Lemma put_loop_ok f2d d2f isval src vsize req step : forall cnt si dst di,
  sizes_ok isval vsize req -> 0 <= step -> 0 <= si -> si + Z.of_nat cnt * step + vsize <= alen src + step ->
  0 <= di -> di + Z.of_nat cnt * req <= alen dst ->
  exists d, put_loop cnt f2d d2f isval src si step dst di vsize req = Ok d /\ alen d = alen dst /\
    (forall i t, 0 <= i < Z.of_nat cnt -> 0 <= t < req ->
       aget d (di + i * req + t) = cword f2d d2f isval vsize req (fun u => aget src (si + i * step + u)) t) /\
    (forall j, j < di \/ di + Z.of_nat cnt * req <= j -> aget d j = aget dst j).
Proof.
  induction cnt as [|cnt IH]; intros si dst di Sz Hst Hsi Hb Hdi Hd.
  - exists dst. split; [reflexivity|]. split; [reflexivity|]. split; [lia|]. reflexivity.
  - cbn [put_loop]. assert (0 < vsize /\ 0 < req) by (split; apply Sz).
    destruct (put_elem_ok f2d d2f isval src si dst di vsize req Sz) as (d & E & L & G); try nia.
    rewrite E. cbn [bind].
    destruct (IH (si + step) d (di + req)) as (d' & E' & L' & G' & K'); try assumption; try nia.
    exists d'. split; [exact E'|]. split; [lia|]. split.
    + intros i t Hi Ht. destruct (Z.eq_dec i 0) as [->|N].
      * rewrite K' by lia. rewrite G.
        replace ((di <=? di + 0 * req + t) && (di + 0 * req + t <? di + req)) with true by lia.
        replace (di + 0 * req + t - di) with t by lia. apply cword_ext; [exact Sz|exact Ht|].
        intros u Hu. f_equal. lia.
      * replace (di + i * req + t) with (di + req + (i - 1) * req + t) by lia. rewrite G' by lia.
        apply cword_ext; [exact Sz|exact Ht|]. intros u Hu. f_equal. lia.
    + intros j Hj. rewrite K' by lia. rewrite G. replace ((di <=? j) && (j <? di + req)) with false by nia. reflexivity.
Qed.

Lemma sec_stored c n h arr p hdr hp : sec_at c n h arr p hdr hp -> h_flag h = 1 ->
  stored (c_data c) (skipn (Z.to_nat p) arr) (skipn (Z.to_nat hp) hdr) (c_size c) n.
Proof.
  intros (A1 & A2 & A3 & A4 & A5 & A6 & A7 & A8 & D) F.
  destruct D as [(F0 & _)|[(F2 & _)|(F1 & N & B & T & G)]]; [congruence|congruence|].
  assert (0 <= (n - 1) / 32) by (apply Z.div_pos; lia).
  split; [exact A4|]. split; [exact A5|]. split; [exact A6|]. split; [rewrite alen_skipn by lia; lia|].
  split; [rewrite alen_skipn by lia; lia|]. split; [exact T|].
  intros j t Hj Ht. pose proof (rank_pos (c_data c) (c_size c) (j + 1) ltac:(lia)).
  rewrite aget_skipn by nia. apply G; lia.
Qed.

Lemma read_section_ok f2d d2f isval c n h arr p hdr hp req start stop dst dpos dsize :
  sec_at c n h arr p hdr hp -> sizes_ok isval (c_size c) req ->
  0 <= start < stop -> stop <= n ->
  0 <= dpos -> dpos + (stop - start) * req <= alen dst -> dpos + (stop - start) * req <= dsize ->
  exists d, read_section f2d d2f isval h req start stop arr p hdr hp dst dpos dsize = Ok d /\ alen d = alen dst /\
    (forall k t, start <= k < stop -> 0 <= t < req ->
       aget d (dpos + ((k - start) * req + t)) = oword f2d d2f isval (c_size c) req (c_data c) k t) /\
    (forall j, j < dpos \/ dpos + (stop - start) * req <= j -> aget d j = aget dst j).
Proof.
  intros S Sz Hss Hsn Hdp Hd1 Hd2.
  assert (S0 := S). destruct S0 as (A1 & A2 & A3 & A4 & A5 & A6 & A7 & A8 & D).
  assert (Rq : 0 < req) by apply Sz.
  unfold read_section. rewrite A1.
  destruct D as [(F & N & G)|[(F & N & R & G)|(F & N & B & T & G)]]; rewrite F; cbn [Z.eqb].
  - destruct (req =? c_size c) eqn:Er.
    + apply Z.eqb_eq in Er.
      assert (start * c_size c + (stop - start) * c_size c <= n * c_size c) by nia.
      destruct (copy_loop_ok (Z.to_nat ((stop - start) * c_size c)) arr (p + start * c_size c) dst dpos)
        as (d & E & L & G'); try nia.
      exists d. split; [exact E|]. split; [exact L|]. split.
      * intros k t Hk Ht. rewrite G'.
        assert ((k - start) * req + t < (stop - start) * c_size c) by nia.
        assert (0 <= (k - start) * req) by nia.
        replace ((dpos <=? dpos + ((k - start) * req + t)) &&
                 (dpos + ((k - start) * req + t) <? dpos + Z.of_nat (Z.to_nat ((stop - start) * c_size c)))) with true by lia.
        unfold oword, cword. replace (c_size c =? req) with true by lia.
        rewrite <- G by nia. f_equal. subst req. lia.
      * intros j Hj. rewrite G'. subst req.
        replace ((dpos <=? j) && (j <? dpos + Z.of_nat (Z.to_nat ((stop - start) * c_size c)))) with false by lia. reflexivity.
    + destruct (put_loop_ok f2d d2f isval arr (c_size c) req (c_size c) (Z.to_nat (stop - start)) (p + start * c_size c) dst dpos Sz)
        as (d & E & L & G' & K'); try nia.
      exists d. split; [exact E|]. split; [exact L|]. split.
      * intros k t Hk Ht. replace (dpos + ((k - start) * req + t)) with (dpos + (k - start) * req + t) by lia.
        rewrite G' by lia. unfold oword. apply cword_ext; [exact Sz|exact Ht|]. intros u Hu.
        rewrite <- G by nia. f_equal. lia.
      * intros j Hj. apply K'. lia.
  - destruct (put_loop_ok f2d d2f isval arr (c_size c) req 0 (Z.to_nat (stop - start)) p dst dpos Sz)
        as (d & E & L & G' & K'); try nia.
    exists d. split; [exact E|]. split; [exact L|]. split.
    + intros k t Hk Ht. replace (dpos + ((k - start) * req + t)) with (dpos + (k - start) * req + t) by lia.
      rewrite G' by lia. unfold oword. apply cword_ext; [exact Sz|exact Ht|]. intros u Hu.
      replace (p + (k - start) * 0 + u) with (p + u) by lia. rewrite G by lia.
      rewrite (first_elem (c_data c) (c_size c) n A4 A6 R k ltac:(lia) u Hu). reflexivity.
    + intros j Hj. apply K'. lia.
  - change (1 =? 1)%positive with true. cbn iota. assert (Ss := sec_stored c n h arr p hdr hp S F).
    assert (H0 : dpos <= alen dst) by nia.
    destruct (uncompress_ok f2d d2f isval (c_data c) _ _ (c_size c) req n start stop (skipn (Z.to_nat dpos) dst) (dsize - dpos) Ss Sz)
      as (d & E & L & G' & K'); try lia.
    { rewrite alen_skipn by lia. lia. }
    rewrite alen_skipn in L by lia.
    set (f := fun sub => let* d := uncompress f2d d2f start stop (c_size c) req isval (skipn (Z.to_nat hp) hdr)
                   (skipn (Z.to_nat p) arr) sub (dsize - dpos) in Ok (d, tt)).
    destruct (at_offset_ok dst dpos f d tt) as (d' & E' & L' & J1 & J2 & _); try lia.
    { unfold f. rewrite E. reflexivity. }
    rewrite E'. cbn [bind]. exists d'. split; [reflexivity|]. split; [exact L'|]. split.
    + intros k t Hk Ht. rewrite J2 by nia. apply G'; lia.
    + intros j [Hj|Hj]; [apply J1; exact Hj|].
      replace j with (dpos + (j - dpos)) by lia. rewrite J2 by nia. rewrite K' by nia. apply aget_skipn; nia.
Qed.

Lemma miss_loop_ok miss : forall cnt dst di,
  0 <= di -> di + Z.of_nat cnt * alen miss <= alen dst ->
  exists d, miss_loop cnt miss dst di = Ok d /\ alen d = alen dst /\
    (forall i t, 0 <= i < Z.of_nat cnt -> 0 <= t < alen miss -> aget d (di + (i * alen miss + t)) = aget miss t) /\
    (forall j, j < di \/ di + Z.of_nat cnt * alen miss <= j -> aget d j = aget dst j).
Proof.
  pose proof (alen_nonneg miss) as Hm.
  induction cnt as [|cnt IH]; intros dst di Hdi Hd.
  - exists dst. split; [reflexivity|]. split; [reflexivity|]. split; [lia|]. reflexivity.
  - cbn [miss_loop].
    destruct (copy_loop_ok (length miss) miss 0 dst di) as (d & E & L & G); try (unfold alen in *; nia).
    rewrite E. cbn [bind]. change (Z.of_nat (length miss)) with (alen miss) in G.
    destruct (IH d (di + alen miss)) as (d' & E' & L' & G' & K'); try nia.
    exists d'. split; [exact E'|]. split; [lia|]. split.
    + intros i t Hi Ht. destruct (Z.eq_dec i 0) as [->|N].
      * rewrite K' by lia. rewrite G. replace ((di <=? di + (0 * alen miss + t)) && (di + (0 * alen miss + t) <? di + alen miss)) with true by lia.
        f_equal; lia.
      * replace (di + (i * alen miss + t)) with (di + alen miss + ((i - 1) * alen miss + t)) by lia. apply G'; lia.
    + intros j Hj. rewrite K' by lia. rewrite G. replace ((di <=? j) && (j <? di + alen miss)) with false by nia. reflexivity.
Qed.

(** The word a window read must give at window position [i]. *)
Definition window_word f2d d2f isval (c : chan) (n s w req : Z) (miss : list Z) (i t : Z) : res Z :=
  if (s <=? w + i) && (w + i <? s + n) then oword f2d d2f isval (c_size c) req (c_data c) (w + i - s) t
  else aget miss t.

Lemma read_channel_ok f2d d2f isval c n h arr p hdr hp req s w nread miss dst dsize :
  sec_at c n h arr p hdr hp -> sizes_ok isval (c_size c) req -> alen miss = req -> 0 < nread ->
  nread * req <= alen dst -> nread * req <= dsize ->
  exists d, read_channel f2d d2f isval h req nread n (w - s) (nread + (w - s) - n) miss arr p hdr hp dst dsize = Ok d /\
    alen d = alen dst /\
    (forall i t, 0 <= i < nread -> 0 <= t < req ->
       aget d (i * req + t) = window_word f2d d2f isval c n s w req miss i t) /\
    (forall j, nread * req <= j -> aget d j = aget dst j).
Proof.
  intros S Sz Hm Hn Hd1 Hd2. assert (Rq : 0 < req) by apply Sz.
  assert (A := S). destruct A as (A1 & A2 & A3 & A4 & A5 & A6 & A7 & A8 & _).
  unfold read_channel. replace (h_number h =? 0) with false by lia.
  set (before := if w - s <? 0 then Z.min (Z.abs (w - s)) nread else 0).
  assert (Bf : before = Z.max 0 (Z.min (s - w) nread)) by (unfold before; destruct (w - s <? 0) eqn:E; lia).
  clearbody before.
  destruct (miss_loop_ok miss (Z.to_nat before) dst 0) as (d1 & E1 & L1 & G1 & K1); try nia.
  rewrite E1. cbn [bind]. rewrite Hm in *.
  destruct ((w - s <? 0) && (before >=? nread)) eqn:Ret.
  { exists d1. split; [reflexivity|]. split; [exact L1|]. split.
    - intros i t Hi Ht. replace (i * req + t) with (0 + (i * req + t)) by lia. rewrite G1 by lia.
      unfold window_word. replace (s <=? w + i) with false by lia. reflexivity.
    - intros j Hj. apply K1. nia. }
  set (start := if w - s >? 0 then w - s else 0).
  set (stop1 := if w - s >? 0 then start + (n - (w - s)) else n).
  set (stop2 := if nread + (w - s) - n <? 0 then stop1 + (nread + (w - s) - n) else stop1).
  set (stop := if stop2 - start >? nread then start + nread else stop2).
  assert (Hstart : start = Z.max 0 (w - s)) by (unfold start; destruct (w - s >? 0) eqn:E; lia).
  assert (Hstop1 : stop1 = n) by (unfold stop1; destruct (w - s >? 0) eqn:E; lia).
  assert (Hstop2 : stop2 = Z.min n (w - s + nread)) by (unfold stop2; destruct (nread + (w - s) - n <? 0) eqn:E; lia).
  assert (Hstop : stop = stop2) by (unfold stop; destruct (stop2 - start >? nread) eqn:E; lia).
  clearbody start stop1 stop2 stop. subst stop stop2 stop1.
  set (stop := Z.min n (w - s + nread)) in *.
  (* middle *)
  assert (Mid : exists d2, (if (stop - start >? 0) && (n - (w - s) >? 0)
               then read_section f2d d2f isval h req start stop arr p hdr hp d1 (before * req) dsize else Ok d1) = Ok d2 /\
     alen d2 = alen dst /\
     (forall i t, 0 <= i < nread -> w + i < s + n -> 0 <= t < req ->
        aget d2 (i * req + t) = window_word f2d d2f isval c n s w req miss i t) /\
     (forall j, nread * req <= j -> aget d2 j = aget dst j)).
  { assert (Before : forall i t, 0 <= i < before -> 0 <= t < req -> aget d1 (i * req + t) = aget miss t).
    { intros i t Hi Ht. replace (i * req + t) with (0 + (i * req + t)) by lia. apply G1; lia. }
    assert (Keep1 : forall j, nread * req <= j -> aget d1 j = aget dst j) by (intros j Hj; apply K1; nia).
    destruct ((stop - start >? 0) && (n - (w - s) >? 0)) eqn:C.
    - assert (Fit : before + (stop - start) <= nread) by (unfold stop; lia).
      destruct (read_section_ok f2d d2f isval c n h arr p hdr hp req start stop d1 (before * req) dsize S Sz)
        as (d2 & E2 & L2 & G2 & K2); try (unfold stop in *; nia).
      exists d2. split; [exact E2|]. split; [lia|]. split.
      + intros i t Hi Hlt Ht. destruct (Z.lt_ge_cases i before).
        * rewrite K2 by (left; nia). rewrite Before by lia.
          unfold window_word. replace (s <=? w + i) with false by lia. reflexivity.
        * replace (i * req + t) with (before * req + ((start + (i - before) - start) * req + t)) by lia.
          rewrite G2 by (unfold stop; lia). unfold window_word.
          replace ((s <=? w + i) && (w + i <? s + n)) with true by lia. f_equal. lia.
      + intros j Hj. rewrite K2 by (right; nia). apply Keep1; exact Hj.
    - exists d1. split; [reflexivity|]. split; [lia|]. split; [|exact Keep1].
      intros i t Hi Hlt Ht. destruct (Z.lt_ge_cases i before).
      + rewrite Before by lia. unfold window_word. replace (s <=? w + i) with false by lia. reflexivity.
      + exfalso. unfold stop in C. lia. }
  destruct Mid as (d2 & E2 & L2 & G2 & K2). rewrite E2. cbn [bind].
  destruct (nread + (w - s) - n >? 0) eqn:After.
  2: { exists d2. split; [reflexivity|]. split; [exact L2|]. split; [|exact K2]. intros i t Hi Ht. apply G2; lia. }
  set (pl := if n - (w - s) <? 0 then nread + (w - s) - n + (n - (w - s)) else nread + (w - s) - n).
  set (ps := if n - (w - s) <? 0 then 0 else n - (w - s)).
  assert (Hpl : pl + ps = nread /\ 0 <= ps /\ 0 <= pl /\ ps = Z.max 0 (n - (w - s))).
  { unfold pl, ps. destruct (n - (w - s) <? 0) eqn:E; lia. }
  clearbody pl ps. destruct Hpl as (P1 & P2 & P3 & P4).
  destruct (miss_loop_ok miss (Z.to_nat pl) d2 (ps * req)) as (d3 & E3 & L3 & G3 & K3); try nia.
  rewrite Hm in *. rewrite E3. exists d3. split; [reflexivity|]. split; [lia|]. split.
  - intros i t Hi Ht. destruct (Z.lt_ge_cases i ps).
    + rewrite K3 by (left; nia). apply G2; lia.
    + replace (i * req + t) with (ps * req + ((i - ps) * req + t)) by lia. rewrite G3 by lia.
      unfold window_word. replace (w + i <? s + n) with false by lia. rewrite andb_false_r. reflexivity.
  - intros j Hj. rewrite K3 by (right; nia). apply K2; exact Hj.
Qed.

(** ** A whole record *)
(** An array of the block: absent (element size 0), or [n] elements of [c_size] words. *)
Definition chan_ok (c : chan) (n : Z) : Prop := c_size c = 0 \/ (0 < c_size c /\ n * c_size c <= alen (c_data c)).

Definition placed (c : chan) (n : Z) (h : chead) (arr : list Z) (p : Z) (hdr : list Z) (hp : Z) : Prop :=
  (c_size c = 0 -> h_number h = 0 /\ h_flag h <> 1) /\ (0 < c_size c -> sec_at c n h arr p hdr hp).

Lemma placed_frame c n h arr p hdr hp arr' hdr' :
  placed c n h arr p hdr hp -> (0 < c_size c -> p + h_number h <= alen arr') -> alen hdr' = alen hdr ->
  (forall j, p <= j < p + h_number h -> aget arr' j = aget arr j) ->
  (h_flag h = 1 -> forall j, hp <= j <= hp + (n - 1) / 32 -> aget hdr' j = aget hdr j) ->
  placed c n h arr' p hdr' hp.
Proof.
  intros [P1 P2] La Lh Ga Gh. split; [exact P1|]. intros Hs.
  apply (sec_frame c n h arr p hdr hp); auto.
Qed.

Lemma even_up_idem p : even_up (even_up p) = even_up p.
Proof.
  unfold even_up. destruct (Z.odd p) eqn:E; [|rewrite E; reflexivity].
  rewrite Z.odd_add, E. reflexivity.
Qed.

Lemma even_up_even p : even_up p = p -> forall q, even_up (p + q) = p + even_up q.
Proof.
  unfold even_up. intros H q. destruct (Z.odd p) eqn:E; [lia|]. rewrite Z.odd_add, E. cbn [xorb].
  destruct (Z.odd q); lia.
Qed.

Lemma append_plain_ok c n out p hp :
  chan_ok c n -> 0 < n -> 0 <= p -> p + n * c_size c < alen out -> 0 <= hp -> even_up p = p ->
  exists o h, append_plain c n out p = Ok (o, even_up (p + h_number h), h) /\ alen o = alen out /\
    (forall j, j < p -> aget o j = aget out j) /\ placed c n h o p [] hp /\ h_number h = n * c_size c /\ h_flag h = 0.
Proof.
  intros Hc Hn Hp Ho Hhp Hev. unfold append_plain. destruct (c_size c =? 0) eqn:E.
  - apply Z.eqb_eq in E. exists out, (mk_chead 0 0 0). cbn [h_number h_flag]. rewrite Z.add_0_r, Hev, E, Z.mul_0_r.
    split; [reflexivity|]. split; [reflexivity|]. split; [reflexivity|]. split; [|split; reflexivity].
    split; [intros _; cbn; split; [reflexivity|discriminate]|]. lia.
  - destruct Hc as [Hc|[Hs Hd]]; [lia|].
    destruct (append_ok (c_data c) (n * c_size c) out p) as (o & E1 & L1 & G1 & G2); try nia.
    rewrite E1. cbn [bind].
    destruct (pad_odd_ok o (p + n * c_size c)) as (o2 & E2 & L2 & G3); try nia. rewrite E2. cbn [bind].
    exists o2, (mk_chead (n * c_size c) (c_size c) 0). cbn [h_number h_flag].
    split; [reflexivity|]. split; [lia|]. split; [|split; [|split; reflexivity]].
    + intros j Hj. rewrite G3 by nia. apply G1; lia.
    + split; [lia|]. intros _. split; [reflexivity|]. split; [exact Hp|]. split; [cbn; nia|]. split; [exact Hs|].
      split; [exact Hn|]. split; [exact Hd|]. split; [exact Hhp|]. split; [cbn; nia|]. left. cbn.
      split; [reflexivity|]. split; [reflexivity|]. intros k Hk. rewrite G3 by lia. apply G2; lia.
Qed.

(** A section that may be absent. *)
Lemma append_section_any cmp c n rep osize hsize out p hdr hp :
  chan_ok c n -> 0 < n -> (cmp = true -> 0 < c_size c -> rep = n - rank (c_data c) (c_size c) n) -> (c_size c = 0 -> cmp = false) ->
  let h := section_head cmp rep n (c_size c) in
  n * c_size c <= osize -> 0 <= p -> p + h_number h <= alen out ->
  0 <= hp -> (cmp = true -> hp + hwords_of n <= alen hdr /\ hwords_of n <= hsize) ->
  hp <= alen hdr ->
  (forall j, hp <= j < alen hdr -> aget hdr j = Ok 0) ->
  exists o hd, append_section cmp c rep n osize (hwords_of n) hsize out p hdr hp
    = Ok (o, p + h_number h, hd, hp + (if h_flag h =? 1 then hwords_of n else 0)) /\
    alen o = alen out /\ alen hd = alen hdr /\
    (forall j, j < p -> aget o j = aget out j) /\ (forall j, j < hp -> aget hd j = aget hdr j) /\
    (forall j, hp + (if h_flag h =? 1 then hwords_of n else 0) <= j < alen hd -> aget hd j = Ok 0) /\
    placed c n h o p hd hp.
Proof.
  intros Hc Hn Hrep Hcmp h Hos Hp Hout Hhp Hhw Hhl Hz.
  destruct Hc as [H0|[Hs Hd]].
  - assert (Ef := Hcmp H0). subst cmp h. unfold append_section, section_head in *. cbn [h_number h_flag] in *.
    rewrite H0, Z.mul_0_r in *.
    exists out, hdr. unfold append. cbn [Z.to_nat copy_loop bind]. change (0 =? 1) with false. cbn iota. rewrite !Z.add_0_r.
    split; [reflexivity|]. split; [reflexivity|]. split; [reflexivity|]. split; [reflexivity|]. split; [reflexivity|].
    split; [exact Hz|]. split; [intros _; cbn; split; [lia|discriminate]|lia].
  - assert (Hr : section_head cmp rep n (c_size c) = section_head cmp (n - rank (c_data c) (c_size c) n) n (c_size c) /\
                 append_section cmp c rep n osize (hwords_of n) hsize out p hdr hp =
                 append_section cmp c (n - rank (c_data c) (c_size c) n) n osize (hwords_of n) hsize out p hdr hp).
    { destruct cmp; [|split; reflexivity]. rewrite (Hrep eq_refl Hs). split; reflexivity. }
    destruct Hr as [Hr1 Hr2]. subst h. rewrite Hr1 in *. rewrite Hr2.
    destruct (append_section_ok cmp c n osize hsize out p hdr hp Hs Hn Hd Hos Hp Hout Hhp Hhw Hhl Hz)
      as (o & hd & E & L1 & L2 & G1 & G2 & G3 & Sec).
    exists o, hd. split; [exact E|]. split; [exact L1|]. split; [exact L2|]. split; [exact G1|]. split; [exact G2|].
    split; [exact G3|]. split; [lia|]. intros _. exact Sec.
Qed.

Lemma section_head_number cmp c n rep :
  chan_ok c n -> 0 < n -> (cmp = true -> 0 < c_size c -> rep = n - rank (c_data c) (c_size c) n) -> (c_size c = 0 -> cmp = false) ->
  let h := section_head cmp rep n (c_size c) in
  0 <= h_number h <= n * c_size c /\ (c_size c = 0 -> h_number h = 0).
Proof.
  intros [H0|[Hs Hd]] Hn Hrep Hcmp; cbn zeta.
  - rewrite (Hcmp H0), H0. cbn. lia.
  - assert (Hr : section_head cmp rep n (c_size c) = section_head cmp (n - rank (c_data c) (c_size c) n) n (c_size c)).
    { destruct cmp; [|reflexivity]. rewrite (Hrep eq_refl Hs). reflexivity. }
    rewrite Hr. pose proof (section_head_facts cmp c n Hs Hn). cbn zeta in *. lia.
Qed.

(** What the record array must contain: times first, then the three sections. *)
Definition laid_out (times : list Z) (v q i : chan) (n : Z) (g : agg) (arr : list Z) : Prop :=
  let tn := alen times in
  (forall k, 0 <= k < tn -> aget arr k = aget times k) /\
  sec_at v n (g_v g) arr tn (g_hdr2 g) 0 /\
  placed q n (g_q g) arr (q_pos tn (g_v g)) (g_hdr2 g) (q_hpos n (g_v g)) /\
  placed i n (g_i g) arr (i_pos tn (g_v g) (g_q g)) (g_hdr2 g) (i_hpos n (g_v g) (g_q g)).

Lemma rep_val big c n :
  chan_ok c n -> 0 < n ->
  exists r, (if big && (c_size c >? 0) then count_repeats (c_data c) n (c_size c) else Ok 0) = Ok r /\
    (big = true -> 0 < c_size c -> r = n - rank (c_data c) (c_size c) n).
Proof.
  intros Hc Hn. destruct (big && (c_size c >? 0)) eqn:E.
  - destruct Hc as [H0|[Hs Hd]]; [lia|]. exists (n - rank (c_data c) (c_size c) n).
    rewrite count_repeats_ok by lia. auto.
  - exists 0. split; [reflexivity|]. intros; lia.
Qed.

Lemma aggregate_ok gt05 gt10 times v q i n :
  0 < n -> 0 < c_size v -> n * c_size v <= alen (c_data v) -> chan_ok q n -> chan_ok i n ->
  exists g, aggregate gt05 gt10 times v q i n = Ok g /\
    0 <= g_number g <= alen (g_out g) /\
    laid_out times v q i n g (firstn (Z.to_nat (g_number g)) (g_out g)).
Proof.
  intros Hn Hvs Hvd Hq Hi. unfold aggregate.
  pose proof (alen_nonneg times) as Ht.
  set (tn := alen times) in *.
  set (big := n >? 12).
  assert (Hqs : 0 <= c_size q) by (destruct Hq; lia).
  assert (His : 0 <= c_size i) by (destruct Hi; lia).
  assert (Hqn : 0 <= n * c_size q) by nia. assert (Hin : 0 <= n * c_size i) by nia.
  assert (Hvn : 0 < n * c_size v) by nia.
  assert (Ev : exists vrep, (if big then count_repeats (c_data v) n (c_size v) else Ok 0) = Ok vrep /\
     (big = true -> vrep = n - rank (c_data v) (c_size v) n)).
  { destruct big; [rewrite count_repeats_ok by lia|]; eexists; split; eauto. discriminate. }
  destruct Ev as (vrep & Ev & Hvrep). rewrite Ev. cbn [bind].
  destruct (rep_val big q n Hq Hn) as (qrep & Eq & Hqrep). rewrite Eq. cbn [bind].
  destruct (rep_val big i n Hi Hn) as (irep & Ei & Hirep). rewrite Ei. cbn [bind].
  set (cv := big && gt05 vrep n). set (cq := big && negb (c_size q =? 0) && gt10 qrep n).
  set (ci := big && negb (c_size i =? 0) && gt10 irep n).
  assert (Hcv : cv = true -> big = true) by (unfold cv; lia).
  assert (Hcq : cq = true -> big = true) by (unfold cq; lia).
  assert (Hci : ci = true -> big = true) by (unfold ci; lia).
  assert (Hcq0 : c_size q = 0 -> cq = false) by (unfold cq; intros ->; lia).
  assert (Hci0 : c_size i = 0 -> ci = false) by (unfold ci; intros ->; lia).
  clearbody cv cq ci.
  assert (Cut : forall (o : list Z) m, m <= alen o -> forall j, 0 <= j < m -> aget (firstn (Z.to_nat m) o) j = aget o j).
  { intros o m Hm j Hj. apply aget_firstn. exact Hj. }
  destruct (negb cv && negb cq && negb ci) eqn:Plain.
  { (* uncompressed *)
    set (count := tn + n * c_size v + n * c_size q + n * c_size i + 4).
    assert (Lz : alen (zeros count) = count) by (apply alen_zeros; unfold count; lia).
    destruct (append_ok times tn (zeros count) 0) as (o1 & E1 & L1 & F1 & G1); try lia.
    rewrite E1. cbn [bind]. rewrite Z.add_0_l.
    destruct (append_ok (c_data v) (n * c_size v) o1 tn) as (o2 & E2 & L2 & F2 & G2); try (unfold count in *; lia).
    rewrite E2. cbn [bind].
    destruct (pad_odd_ok o2 (tn + n * c_size v)) as (o3 & E3 & L3 & F3); try (unfold count in *; lia).
    rewrite E3. cbn [bind].
    pose proof (even_up_bound (tn + n * c_size v)) as B3.
    set (p3 := even_up (tn + n * c_size v)) in *.
    destruct (append_plain_ok q n o3 p3 0) as (o4 & hq & E4 & L4 & F4 & P4 & N4 & Z4); try assumption;
      try (unfold count in *; lia). { apply even_up_idem. }
    rewrite E4. cbn [bind].
    pose proof (even_up_bound (p3 + h_number hq)) as B4.
    set (p4 := even_up (p3 + h_number hq)) in *.
    destruct (append_plain_ok i n o4 p4 0) as (o5 & hi & E5 & L5 & F5 & P5 & N5 & Z5); try assumption;
      try (unfold count in *; lia). { apply even_up_idem. }
    rewrite E5. cbn [bind].
    pose proof (even_up_bound (p4 + h_number hi)) as B5.
    set (p5 := even_up (p4 + h_number hi)) in *.
    eexists. split; [reflexivity|]. cbn [g_number g_out].
    assert (Hb : p5 <= alen o5) by (unfold count in *; lia).
    split; [lia|].
    assert (Lc : alen (firstn (Z.to_nat p5) o5) = p5) by (apply alen_firstn; lia).
    assert (HC := Cut o5 p5 Hb).
    unfold laid_out. cbn [g_v g_q g_i g_hdr2].
    unfold q_pos, i_pos, q_hpos, i_hpos. cbn [h_number h_flag Z.eqb]. rewrite Z4. cbn [Z.eqb]. rewrite Z.add_0_r.
    fold tn. unfold q_pos. cbn [h_number]. fold p3. fold p4.
    split; [|split; [|split]].
    - intros k Hk. rewrite HC, F5, F4, F3, F2 by lia. rewrite <- (G1 k) by lia. f_equal; lia.
    - split; [reflexivity|]. split; [lia|]. split; [cbn; lia|]. split; [lia|]. split; [lia|]. split; [lia|]. split; [lia|].
      split; [cbn; lia|]. left. cbn. split; [reflexivity|]. split; [reflexivity|].
      intros k Hk. rewrite HC, F5, F4, F3 by lia. apply G2; lia.
    - apply (placed_frame q n hq o4 p3 [] 0); [exact P4|lia|reflexivity| |].
      + intros j Hj. rewrite HC, F5 by lia. reflexivity.
      + rewrite Z4. discriminate.
    - apply (placed_frame i n hi o5 p4 [] 0); [exact P5|lia|reflexivity| |].
      + intros j Hj. apply HC; lia.
      + rewrite Z5. discriminate. }
  assert (Big : big = true) by (destruct cv, cq, ci; auto; discriminate).
  specialize (Hvrep Big). specialize (Hqrep Big). specialize (Hirep Big).
  destruct ((vrep + 1 =? n) && (c_size q =? 0) && (c_size i =? 0)) eqn:One.
  { (* one repeated value *)
    set (count := tn + c_size v + 1).
    assert (Lz : alen (zeros count) = count) by (apply alen_zeros; unfold count; lia).
    destruct (append_ok times tn (zeros count) 0) as (o1 & E1 & L1 & F1 & G1); try lia.
    rewrite E1. cbn [bind]. rewrite Z.add_0_l.
    destruct (append_ok (c_data v) (c_size v) o1 tn) as (o2 & E2 & L2 & F2 & G2); try (unfold count in *; nia).
    rewrite E2. cbn [bind].
    destruct (pad_odd_ok o2 (tn + c_size v)) as (o3 & E3 & L3 & F3); try (unfold count in *; lia).
    rewrite E3. cbn [bind].
    pose proof (even_up_bound (tn + c_size v)) as B3.
    set (p3 := even_up (tn + c_size v)) in *.
    eexists. split; [reflexivity|]. cbn [g_number g_out].
    assert (Hb : p3 <= alen o3) by (unfold count in *; lia).
    split; [lia|].
    assert (Lc : alen (firstn (Z.to_nat p3) o3) = p3) by (apply alen_firstn; lia).
    assert (HC := Cut o3 p3 Hb).
    unfold laid_out. cbn [g_v g_q g_i g_hdr2]. fold tn.
    split; [|split; [|split]].
    - intros k Hk. rewrite HC, F3, F2 by lia. rewrite <- (G1 k) by lia. f_equal; lia.
    - split; [reflexivity|]. split; [lia|]. split; [cbn; lia|]. split; [lia|]. split; [lia|]. split; [lia|]. split; [lia|].
      split; [cbn; lia|]. right; left. cbn. split; [reflexivity|]. split; [reflexivity|]. split.
      + intros k Hk. apply (rank_one_all _ _ n); lia.
      + intros k Hk. rewrite HC, F3 by lia. apply G2; lia.
    - split; [intros _; cbn; split; [reflexivity|discriminate]|lia].
    - split; [intros _; cbn; split; [reflexivity|discriminate]|lia]. }
  (* general *)
  change (Z.quot (n - 1) 32 + 1) with (hwords_of n).
  assert (Hw : hwords_of n = (n - 1) / 32 + 1) by (apply hwords_val; lia).
  assert (0 <= (n - 1) / 32) by (apply Z.div_pos; lia).
  set (W := hwords_of n) in *.
  set (hcount := (b2z cv + b2z cq + b2z ci) * W).
  set (count := tn + n * c_size v + n * c_size q + n * c_size i + 4).
  set (hv := section_head cv vrep n (c_size v)). set (hq := section_head cq qrep n (c_size q)).
  set (hi := section_head ci irep n (c_size i)).
  assert (Hv : chan_ok v n) by (right; lia).
  destruct (section_head_number cv v n vrep Hv Hn) as [Nv Nv0]; [auto|lia|]. fold hv in Nv, Nv0.
  destruct (section_head_number cq q n qrep Hq Hn) as [Nq Nq0]; [auto|exact Hcq0|]. fold hq in Nq, Nq0.
  destruct (section_head_number ci i n irep Hi Hn) as [Ni Ni0]; [auto|exact Hci0|]. fold hi in Ni, Ni0.
  assert (FlagV : h_flag hv = 1 -> cv = true) by (unfold hv, section_head; destruct cv; cbn; [reflexivity|discriminate]).
  assert (FlagQ : h_flag hq = 1 -> cq = true) by (unfold hq, section_head; destruct cq; cbn; [reflexivity|discriminate]).
  assert (FlagI : h_flag hi = 1 -> ci = true) by (unfold hi, section_head; destruct ci; cbn; [reflexivity|discriminate]).
  set (total := tn + h_number hv + h_number hq + h_number hi + 4).
  assert (Lz : alen (zeros total) = total) by (apply alen_zeros; unfold total; lia).
  assert (Hb2 : forall b, 0 <= b2z b <= 1) by (intros []; cbn; lia).
  assert (Hc0 : 0 <= hcount) by (unfold hcount; pose proof (Hb2 cv); pose proof (Hb2 cq); pose proof (Hb2 ci); nia).
  assert (Lh : alen (zeros hcount) = hcount) by (apply alen_zeros; lia).
  destruct (append_ok times tn (zeros total) 0) as (o1 & E1 & L1 & F1 & G1); try (unfold total in *; lia).
  rewrite E1. cbn [bind]. rewrite Z.add_0_l.
  (* values *)
  destruct (append_section_any cv v n vrep count hcount o1 tn (zeros hcount) 0 Hv Hn)
    as (o2 & hd2 & E2 & L2 & M2 & F2 & J2 & Z2 & P2); try (fold hv); auto; try (unfold count, total in *; lia).
  { intros ->. rewrite Lh. fold W. unfold hcount. pose proof (Hb2 cq); pose proof (Hb2 ci). cbn [b2z]. split; nia. }
  { intros j Hj. apply aget_zeros. lia. }
  fold hv in E2, Z2, P2. fold W in E2, Z2. rewrite E2. cbn [bind].
  destruct (pad_odd_ok o2 (tn + h_number hv)) as (o3 & E3 & L3 & F3); try (unfold total in *; lia).
  rewrite E3. cbn [bind].
  pose proof (even_up_bound (tn + h_number hv)) as B3. set (p3 := even_up (tn + h_number hv)) in *.
  rewrite Z.add_0_l in *. fold (q_hpos n hv). change (q_hpos n hv) with (if h_flag hv =? 1 then W else 0).
  set (hp3 := if h_flag hv =? 1 then W else 0) in *.
  assert (Hp3 : 0 <= hp3 <= b2z cv * W).
  { unfold hp3. destruct (h_flag hv =? 1) eqn:Q; [rewrite FlagV by lia; cbn [b2z]; lia|]. pose proof (Hb2 cv). nia. }
  (* quality *)
  destruct (append_section_any cq q n qrep count hcount o3 p3 hd2 hp3 Hq Hn)
    as (o4 & hd4 & E4 & L4 & M4 & F4 & J4 & Z4 & P4); try (fold hq); auto; try (unfold count, total in *; lia).
  { intros ->. fold W. rewrite M2, Lh. unfold hcount. pose proof (Hb2 cv); pose proof (Hb2 ci). cbn [b2z]. split; nia. }
  { rewrite M2, Lh. unfold hcount. pose proof (Hb2 cv); pose proof (Hb2 cq); pose proof (Hb2 ci). nia. }
  fold hq in E4, Z4, P4. fold W in E4, Z4. rewrite E4. cbn [bind].
  set (hp4 := hp3 + (if h_flag hq =? 1 then W else 0)) in *.
  assert (Hp4 : hp3 <= hp4 <= (b2z cv + b2z cq) * W).
  { unfold hp4. destruct (h_flag hq =? 1) eqn:Q; [rewrite FlagQ by lia; cbn [b2z]; lia|]. pose proof (Hb2 cq). nia. }
  assert (PadQ : exists o5, (if n * c_size q >? 0 then pad_odd o4 (p3 + h_number hq) else Ok (o4, p3 + h_number hq))
            = Ok (o5, even_up (p3 + h_number hq)) /\ alen o5 = alen o4 /\
            (forall j, j < p3 + h_number hq -> aget o5 j = aget o4 j)).
  { destruct (n * c_size q >? 0) eqn:Q.
    - apply pad_odd_ok; unfold total in *; lia.
    - assert (c_size q = 0) by nia. rewrite Nq0 by assumption. rewrite Z.add_0_r.
      exists o4. unfold p3 at 2. rewrite even_up_idem. fold p3. auto. }
  destruct PadQ as (o5 & E5 & L5 & F5). rewrite E5. cbn [bind].
  pose proof (even_up_bound (p3 + h_number hq)) as B5. set (p5 := even_up (p3 + h_number hq)) in *.
  (* notes *)
  destruct (append_section_any ci i n irep count hcount o5 p5 hd4 hp4 Hi Hn)
    as (o6 & hd6 & E6 & L6 & M6 & F6 & J6 & Z6 & P6); try (fold hi); auto; try (unfold count, total in *; lia).
  { intros ->. fold W. rewrite M4, M2, Lh. unfold hcount. pose proof (Hb2 cv); pose proof (Hb2 cq). cbn [b2z]. split; nia. }
  { rewrite M4, M2, Lh. unfold hcount. pose proof (Hb2 cv); pose proof (Hb2 cq); pose proof (Hb2 ci). nia. }
  fold hi in E6, Z6, P6. fold W in E6, Z6. rewrite E6. cbn [bind].
  assert (PadI : exists o7 p7, (if n * c_size i >? 0 then pad_odd o6 (p5 + h_number hi) else Ok (o6, p5 + h_number hi))
            = Ok (o7, p7) /\ alen o7 = alen o6 /\ p5 + h_number hi <= p7 <= alen o7 /\
            (forall j, j < p5 + h_number hi -> aget o7 j = aget o6 j)).
  { destruct (n * c_size i >? 0) eqn:Q.
    - destruct (pad_odd_ok o6 (p5 + h_number hi)) as (o7 & E7 & L7 & F7); try (unfold total in *; lia).
      exists o7, (even_up (p5 + h_number hi)). split; [exact E7|]. split; [exact L7|]. split; [|exact F7].
      pose proof (even_up_bound (p5 + h_number hi)). unfold total in *; lia.
    - exists o6, (p5 + h_number hi). split; [reflexivity|]. split; [reflexivity|]. split; [|reflexivity]. unfold total in *; lia. }
  destruct PadI as (o7 & p7 & E7 & L7 & B7 & F7). rewrite E7. cbn [bind].
  eexists. split; [reflexivity|]. cbn [g_number g_out]. split; [lia|].
  assert (Lc : alen (firstn (Z.to_nat p7) o7) = p7) by (apply alen_firstn; lia).
  assert (HC := Cut o7 p7 ltac:(lia)).
  unfold laid_out. cbn [g_v g_q g_i g_hdr2]. fold tn.
  unfold i_pos, q_pos. fold p3. fold p5. change (i_hpos n hv hq) with hp4. change (q_hpos n hv) with hp3.
  split; [|split; [|split]].
  - intros k Hk. rewrite HC, F7, F6, F5, F4, F3, F2 by lia. rewrite <- (G1 k) by lia. f_equal; lia.
  - destruct P2 as [_ P2]. specialize (P2 Hvs).
    apply (sec_frame v n hv o2 tn hd2 0); [exact P2|lia|lia| |].
    + intros j Hj. rewrite HC, F7, F6, F5, F4, F3 by lia. reflexivity.
    + intros Fl j Hj. assert (hp3 = W) by (unfold hp3; rewrite Fl; reflexivity).
      rewrite J6, J4 by lia. reflexivity.
  - apply (placed_frame q n hq o4 p3 hd4 hp3); [exact P4|lia|lia| |].
    + intros j Hj. rewrite HC, F7, F6, F5 by lia. reflexivity.
    + intros Fl j Hj. assert (hp4 = hp3 + W) by (unfold hp4; rewrite Fl; reflexivity). apply J6. lia.
  - apply (placed_frame i n hi o6 p5 hd6 hp4); [exact P6|lia|reflexivity| |].
    + intros j Hj. rewrite HC, F7 by lia. reflexivity.
    + reflexivity.
Qed.
