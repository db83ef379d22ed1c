(** * C41: what is stored in a time-series block is what any window read of it returns. *)
From Coq Require Import ZArith List Lia Bool ZifyBool.
From Verif Require Import Base ArrayLib RepeatModel RepeatProofs RepeatProps AggModel AggProofs.
Import ListNotations.
Open Scope Z_scope.

(** Only the first [g_number] words of the array are written to the record. *)
Definition on_disk (g : agg) : agg :=
  mk_agg (firstn (Z.to_nat (g_number g)) (g_out g)) (g_number g) (g_hdr2 g) (g_v g) (g_q g) (g_i g).

(** Specification: word [t] of the value of index [j], asked for in [req] words (1: float, 2: double). *)
Definition spec_value (f2d : Z -> Z * Z) (d2f : Z -> Z -> Z) (data : list Z) (size req j t : Z) : res Z :=
  if size =? req then aget data (j * size + t) else value_word f2d d2f data size j t.

(** Word [t] of the quality or note of index [j]: as stored, zero beyond the stored element or when there is none. *)
Definition spec_int (data : list Z) (size j t : Z) : res Z :=
  if t <? size then aget data (j * size + t) else Ok 0.

Lemma oword_value f2d d2f data size req j t :
  sizes_ok true size req -> 0 <= t < req ->
  oword f2d d2f true size req data j t = spec_value f2d d2f data size req j t.
Proof.
  intros (S1 & S2 & S3) Ht. unfold oword, cword, spec_value, value_word.
  destruct (size =? req) eqn:E; [reflexivity|].
  assert (size = 1 \/ size = 2) by lia. destruct H as [->| ->].
  - cbn [Z.eqb]. replace (j * 1 + 0) with j by lia. reflexivity.
  - change (2 =? 1) with false. cbn iota. replace (j * 2 + 0) with (2 * j) by lia. replace (j * 2 + 1) with (2 * j + 1) by lia. reflexivity.
Qed.

Lemma oword_int f2d d2f data size req j t : 0 <= t < req ->
  oword f2d d2f false size req data j t = spec_int data size j t.
Proof.
  intros Ht. unfold oword, cword, spec_int. destruct (size =? req) eqn:E; [|reflexivity].
  replace (t <? size) with true by lia. reflexivity.
Qed.

Lemma read_int_channel f2d d2f c n h arr p hdr hp req s w nread dst dsize :
  placed c n h arr p hdr hp -> chan_ok c n -> 0 < req -> 0 < nread -> nread * req <= alen dst -> nread * req <= dsize ->
  exists d, read_channel f2d d2f false h req nread n (w - s) (nread + (w - s) - n) (zeros req) arr p hdr hp dst dsize = Ok d /\
    alen d = alen dst /\
    (forall k t, 0 <= k < nread -> 0 <= t < req ->
       aget d (k * req + t) = if (s <=? w + k) && (w + k <? s + n) then spec_int (c_data c) (c_size c) (w + k - s) t else Ok 0) /\
    (forall j, nread * req <= j -> aget d j = aget dst j).
Proof.
  intros [P0 P1] Hc Hr Hn Hd1 Hd2.
  assert (Lm : alen (zeros req) = req) by (apply alen_zeros; lia).
  destruct Hc as [H0|[Hs Hd]].
  - destruct (P0 H0) as [N0 _]. unfold read_channel. rewrite N0. cbn [Z.eqb].
    destruct (miss_loop_ok (zeros req) (Z.to_nat nread) dst 0) as (d & E & L & G & K); try nia.
    rewrite Lm in *. exists d. split; [exact E|]. split; [exact L|]. split.
    + intros k t Hk Ht. replace (k * req + t) with (0 + (k * req + t)) by lia. rewrite G by lia. rewrite aget_zeros by lia.
      unfold spec_int. rewrite H0. replace (t <? 0) with false by lia. destruct ((s <=? w + k) && (w + k <? s + n)); reflexivity.
    + intros j Hj. apply K. lia.
  - assert (Sz : sizes_ok false (c_size c) req) by (split; [|split]; auto).
    destruct (read_channel_ok f2d d2f false c n h arr p hdr hp req s w nread (zeros req) dst dsize (P1 Hs) Sz Lm Hn Hd1 Hd2)
      as (d & E & L & G & K).
    exists d. split; [exact E|]. split; [exact L|]. split; [|exact K].
    intros k t Hk Ht. rewrite G by lia. unfold window_word. rewrite aget_zeros by lia. rewrite oword_int by lia. reflexivity.
Qed.

(** A block of [n] values (with optional quality and notes, and the times of an irregular block in front), stored
    from in-block position [s] with whatever compression the library chooses, and then read through any window of
    [nread] positions from [w]: every position inside [s, s+n) gives exactly the stored value, quality and note
    (converted to the requested element sizes); every other position gives the missing value and zero quality and
    note; nothing behind the window is touched. *)
Theorem C41_window_read :
  forall gt05 gt10 f2d d2f times v q i n s w nread vreq qreq ireq vmiss vdst qdst idst vsz qsz isz,
  0 < n -> 0 < c_size v -> n * c_size v <= alen (c_data v) ->
  (c_size q = 0 \/ (0 < c_size q /\ n * c_size q <= alen (c_data q))) ->
  (c_size i = 0 \/ (0 < c_size i /\ n * c_size i <= alen (c_data i))) ->
  (c_size v = vreq \/ (c_size v = 1 /\ vreq = 2) \/ (c_size v = 2 /\ vreq = 1)) ->
  alen vmiss = vreq -> 0 < qreq -> 0 < ireq -> 0 < nread ->
  nread * vreq <= alen vdst -> nread * vreq <= vsz ->
  nread * qreq <= alen qdst -> nread * qreq <= qsz ->
  nread * ireq <= alen idst -> nread * ireq <= isz ->
  exists g vd qd id,
    aggregate gt05 gt10 times v q i n = Ok g /\
    read_window f2d d2f (on_disk g) (alen times) n s w nread vreq vmiss vdst vsz qreq qdst qsz ireq idst isz
      = Ok (vd, qd, id) /\
    (forall k, 0 <= k < alen times -> aget (g_out (on_disk g)) k = aget times k) /\
    (forall k t, 0 <= k < nread -> 0 <= t < vreq ->
       aget vd (k * vreq + t) = if (s <=? w + k) && (w + k <? s + n)
                                then spec_value f2d d2f (c_data v) (c_size v) vreq (w + k - s) t else aget vmiss t) /\
    (forall k t, 0 <= k < nread -> 0 <= t < qreq ->
       aget qd (k * qreq + t) = if (s <=? w + k) && (w + k <? s + n)
                                then spec_int (c_data q) (c_size q) (w + k - s) t else Ok 0) /\
    (forall k t, 0 <= k < nread -> 0 <= t < ireq ->
       aget id (k * ireq + t) = if (s <=? w + k) && (w + k <? s + n)
                                then spec_int (c_data i) (c_size i) (w + k - s) t else Ok 0) /\
    (forall j, nread * vreq <= j -> aget vd j = aget vdst j) /\
    (forall j, nread * qreq <= j -> aget qd j = aget qdst j) /\
    (forall j, nread * ireq <= j -> aget id j = aget idst j).
Proof.
  intros gt05 gt10 f2d d2f times v q i n s w nread vreq qreq ireq vmiss vdst qdst idst vsz qsz isz
    Hn Hvs Hvd Hq Hi Hsz Hm Hqr Hir Hnr V1 V2 Q1 Q2 I1 I2.
  destruct (aggregate_ok gt05 gt10 times v q i n Hn Hvs Hvd Hq Hi) as (g & E & Hg & T & Pv & Pq & Pi).
  assert (Sz : sizes_ok true (c_size v) vreq) by (split; [|split]; lia).
  destruct (read_channel_ok f2d d2f true v n (g_v g) _ _ _ _ vreq s w nread vmiss vdst vsz Pv Sz Hm Hnr V1 V2)
    as (vd & Ev & Lv & Gv & Kv).
  destruct (read_int_channel f2d d2f q n (g_q g) _ _ _ _ qreq s w nread qdst qsz Pq Hq Hqr Hnr Q1 Q2) as (qd & Eq & Lq & Gq & Kq).
  destruct (read_int_channel f2d d2f i n (g_i g) _ _ _ _ ireq s w nread idst isz Pi Hi Hir Hnr I1 I2) as (id & Ei & Li & Gi & Ki).
  exists g, vd, qd, id. split; [exact E|]. split.
  { unfold read_window, on_disk. cbn [g_v g_q g_i g_out g_hdr2]. assert (0 < vreq) by apply Sz.
    replace (vreq >? 0) with true by lia. replace (qreq >? 0) with true by lia. replace (ireq >? 0) with true by lia.
    rewrite Ev. cbn [bind]. rewrite Eq. cbn [bind]. rewrite Ei. reflexivity. }
  split; [exact T|]. split; [|split; [exact Gq|split; [exact Gi|split; [exact Kv|split; [exact Kq|exact Ki]]]]].
  intros k t Hk Ht. rewrite Gv by lia. unfold window_word. rewrite oword_value by assumption. reflexivity.
Qed.

(** Concrete block: 20 two-word values, mostly repeated, one-word quality, no notes; window overlapping both ends. *)
Definition ex_v : chan := mk_chan (concat (map (fun k => [k / 5; 7]) [0;1;2;3;4;5;6;7;8;9;10;11;12;13;14;15;16;17;18;19])) 2.
Definition ex_q : chan := mk_chan [3;3;3;3;3;3;3;3;3;3;3;3;3;3;3;3;3;3;3;4] 1.
Definition ex_none : chan := mk_chan [] 0.
Definition ex_gt (lim r n : Z) : bool := 100 * r >? lim * n.

Example C41_example :
  exists g vd qd id, aggregate (ex_gt 5) (ex_gt 10) [] ex_v ex_q ex_none 20 = Ok g /\
    h_flag (g_v g) = 1 /\ h_flag (g_q g) = 1 /\ g_number g = 10 /\
    read_window (fun x => (x, 0)) (fun x _ => x) (on_disk g) 0 20 3 1 24
       2 [77; 78] (repeat 0 50) 50 2 (repeat 9 48) 48 1 (repeat 9 24) 24 = Ok (vd, qd, id) /\
    firstn 8 vd = [77;78;77;78;0;7;0;7] /\ skipn 40 vd = [3;7;3;7;77;78;77;78;0;0] /\
    firstn 8 qd = [0;0;0;0;3;0;3;0] /\ skipn 40 qd = [3;0;4;0;0;0;0;0] /\ id = repeat 0 24.
Proof.
  eexists _, _, _, _. split; [vm_compute; reflexivity|]. split; [vm_compute; reflexivity|]. split; [vm_compute; reflexivity|].
  split; [vm_compute; reflexivity|]. split; [vm_compute; reflexivity|]. vm_compute. repeat split; reflexivity.
Qed.

Print Assumptions C41_window_read.
