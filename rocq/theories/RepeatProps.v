(** * C19: repeat compression is lossless. *)
From Coq Require Import ZArith List Lia Bool ZifyBool.
From Verif Require Import Base ArrayLib RepeatModel RepeatProofs.
Import ListNotations.
Open Scope Z_scope.

Lemma tb_zeros hdr : (forall w, In w hdr -> w = 0) -> forall b, 0 <= b -> tb hdr b = false.
Proof.
  intros H b Hb. unfold tb. destruct (aget hdr (b / 32)) as [w|] eqn:E; [|reflexivity].
  unfold aget in E. destruct (b / 32 <? 0); [discriminate|].
  destruct (nth_error hdr (Z.to_nat (b / 32))) eqn:N; [|discriminate]. inversion E; subst.
  rewrite (H w (nth_error_In _ _ N)). apply Z.testbit_0_l.
Qed.

Lemma aget_firstn {A} (l : list A) c j : 0 <= j < c -> aget (firstn (Z.to_nat c) l) j = aget l j.
Proof.
  intros H. unfold aget. destruct (j <? 0) eqn:E; [reflexivity|].
  assert (Hn : (Z.to_nat j < Z.to_nat c)%nat) by lia. revert Hn.
  generalize (Z.to_nat j) as i, (Z.to_nat c) as m. clear. intros i m.
  assert (G : (i < m)%nat -> nth_error (firstn m l) i = nth_error l i).
  { revert l i. induction m; intros l i Hi; [lia|]. destruct l; [destruct i; reflexivity|].
    destruct i; [reflexivity|]. cbn. apply IHm. lia. }
  intros Hi. rewrite G by exact Hi. reflexivity.
Qed.

Lemma alen_firstn {A} (l : list A) c : 0 <= c <= alen l -> alen (firstn (Z.to_nat c) l) = c.
Proof. unfold alen. intros H. rewrite firstn_length. lia. Qed.

Lemma compress_stored data n size out osize hdr hsize :
  0 < size -> 0 < n -> n * size <= alen data ->
  rank data size n * size <= osize -> rank data size n * size <= alen out ->
  n <= 32 * hsize -> n <= 32 * alen hdr -> (forall w, In w hdr -> w = 0) ->
  exists o h, compress data n size out osize hdr hsize = Ok (o, h, rank data size n * size) /\
    alen o = alen out /\ alen h = alen hdr /\
    stored data (firstn (Z.to_nat (rank data size n * size)) o) h size n.
Proof.
  intros Hs Hn Hd Ho1 Ho2 Hh1 Hh2 Hz.
  assert (Q1 : (n - 1) / 32 < hsize) by (apply Z.div_lt_upper_bound; lia).
  assert (Q2 : (n - 1) / 32 < alen hdr) by (apply Z.div_lt_upper_bound; lia).
  destruct (compress_ok data size n out osize hdr hsize Hs Hn Hd Ho1 Ho2 Q1 Q2 (tb_zeros hdr Hz))
    as (o & h & E & L1 & L2 & [IB IE] & _).
  exists o, h. split; [exact E|]. split; [exact L1|]. split; [exact L2|].
  assert (R := rank_pos data size n ltac:(lia)).
  assert (Rz : 0 <= rank data size n * size) by nia.
  split; [exact Hs|]. split; [exact Hn|]. split; [exact Hd|].
  split; [rewrite alen_firstn by lia; lia|]. split; [lia|]. split; [intros b Hb; rewrite IB by lia; replace (b <? n) with true by lia; reflexivity|].
  intros j t Hj Ht. rewrite <- IE by lia. apply aget_firstn.
  assert (R1 := rank_pos data size (j + 1) ltac:(lia)).
  assert (R2 := rank_mono data size (j + 1) n ltac:(lia)). nia.
Qed.

Lemma rank_le_n data size n : 0 < size -> 0 < n -> rank data size n * size <= n * size.
Proof. intros. pose proof (rank_le data size n ltac:(lia)). nia. Qed.

(** Every array of [n] elements of [size] words is compressed without failure when the output has room for the
    uncompressed array and the (zeroed) header has a bit per element; and from the [cnt] words the function reports
    and the header, every sub-range [start, stop) is recovered exactly, nothing else of the destination being touched. *)
Theorem C19_repeat_compression_lossless :
  forall f2d d2f data n size out osize hdr hsize,
  0 < size -> 0 < n -> n * size <= alen data ->
  n * size <= osize -> n * size <= alen out ->
  n <= 32 * hsize -> n <= 32 * alen hdr -> (forall w, In w hdr -> w = 0) ->
  exists o h cnt,
    compress data n size out osize hdr hsize = Ok (o, h, cnt) /\
    size <= cnt <= n * size /\ alen o = alen out /\ alen h = alen hdr /\
    forall start stop isval dst dsize,
      0 <= start < stop -> stop <= n ->
      (stop - start) * size <= alen dst -> (stop - start) * size <= dsize ->
      exists d, uncompress f2d d2f start stop size size isval h (firstn (Z.to_nat cnt) o) dst dsize = Ok d /\
        alen d = alen dst /\
        forall p, aget d p = if (0 <=? p) && (p <? (stop - start) * size) then aget data (start * size + p)
                             else aget dst p.
Proof.
  intros f2d d2f data n size out osize hdr hsize Hs Hn Hd Ho1 Ho2 Hh1 Hh2 Hz.
  assert (Rl := rank_le_n data size n Hs Hn).
  destruct (compress_stored data n size out osize hdr hsize Hs Hn Hd ltac:(lia) ltac:(lia) Hh1 Hh2 Hz)
    as (o & h & E & L1 & L2 & St).
  exists o, h, (rank data size n * size). split; [exact E|].
  split; [pose proof (rank_pos data size n ltac:(lia)); nia|]. split; [exact L1|]. split; [exact L2|].
  intros start stop isval dst dsize Hss Hsn Hd1 Hd2.
  assert (Sz : sizes_ok isval size size) by (split; [|split]; auto).
  destruct (uncompress_ok f2d d2f isval data _ h size size n start stop dst dsize St Sz Hss Hsn Hd1 Hd2)
    as (d & Ed & Ld & Gd & Kd).
  exists d. split; [exact Ed|]. split; [exact Ld|]. intros p.
  destruct (0 <=? p) eqn:P0; cbn [andb].
  2: { rewrite !aget_out by lia. reflexivity. }
  destruct (p <? (stop - start) * size) eqn:P1.
  - set (k := start + p / size). set (t := p mod size).
    assert (Hp := Z.div_mod p size ltac:(lia)). assert (Hm := Z.mod_pos_bound p size ltac:(lia)).
    assert (0 <= p / size) by (apply Z.div_pos; lia).
    assert (p / size < stop - start) by (apply Z.div_lt_upper_bound; lia).
    specialize (Gd k t ltac:(unfold k; lia) ltac:(unfold t; lia)).
    replace ((k - start) * size + t) with p in Gd by (unfold k, t; lia).
    rewrite Gd. unfold oword, cword. rewrite Z.eqb_refl. f_equal. unfold k, t. lia.
  - apply Kd. lia.
Qed.

(** Word [t] of a value converted between single (1 word) and double (2 words) precision. *)
Definition value_word (f2d : Z -> Z * Z) (d2f : Z -> Z -> Z) (data : list Z) (size i t : Z) : res Z :=
  if size =? 1 then let* x := aget data i in Ok (if t =? 0 then fst (f2d x) else snd (f2d x))
  else let* x := aget data (2 * i) in let* y := aget data (2 * i + 1) in Ok (d2f x y).

(** Reading with another element size: values go through the float/double conversion, quality and notes are
    truncated or zero-extended word by word. *)
Theorem C19_repeat_compression_conversion :
  forall f2d d2f data n size out osize hdr hsize,
  0 < size -> 0 < n -> n * size <= alen data ->
  n * size <= osize -> n * size <= alen out ->
  n <= 32 * hsize -> n <= 32 * alen hdr -> (forall w, In w hdr -> w = 0) ->
  exists o h cnt,
    compress data n size out osize hdr hsize = Ok (o, h, cnt) /\
    (forall req start stop dst dsize, size <> req -> 0 < req ->
      0 <= start < stop -> stop <= n -> (stop - start) * req <= alen dst -> (stop - start) * req <= dsize ->
      exists d, uncompress f2d d2f start stop size req false h (firstn (Z.to_nat cnt) o) dst dsize = Ok d /\
        alen d = alen dst /\
        forall i t, start <= i < stop -> 0 <= t < req ->
          aget d ((i - start) * req + t) = if t <? size then aget data (i * size + t) else Ok 0) /\
    (forall req start stop dst dsize, (size = 1 /\ req = 2) \/ (size = 2 /\ req = 1) ->
      0 <= start < stop -> stop <= n -> (stop - start) * req <= alen dst -> (stop - start) * req <= dsize ->
      exists d, uncompress f2d d2f start stop size req true h (firstn (Z.to_nat cnt) o) dst dsize = Ok d /\
        alen d = alen dst /\
        forall i t, start <= i < stop -> 0 <= t < req ->
          aget d ((i - start) * req + t) = value_word f2d d2f data size i t).
Proof.
  intros f2d d2f data n size out osize hdr hsize Hs Hn Hd Ho1 Ho2 Hh1 Hh2 Hz.
  assert (Rl := rank_le_n data size n Hs Hn).
  destruct (compress_stored data n size out osize hdr hsize Hs Hn Hd ltac:(lia) ltac:(lia) Hh1 Hh2 Hz)
    as (o & h & E & L1 & L2 & St).
  exists o, h, (rank data size n * size). split; [exact E|]. split.
  - intros req start stop dst dsize Hne Hr Hss Hsn Hd1 Hd2.
    assert (Sz : sizes_ok false size req) by (split; [|split]; auto).
    destruct (uncompress_ok f2d d2f false data _ h size req n start stop dst dsize St Sz Hss Hsn Hd1 Hd2)
      as (d & Ed & Ld & Gd & _).
    exists d. split; [exact Ed|]. split; [exact Ld|]. intros i t Hi Ht. rewrite Gd by lia.
    unfold oword, cword. replace (size =? req) with false by lia. reflexivity.
  - intros req start stop dst dsize Hsz Hss Hsn Hd1 Hd2.
    assert (Sz : sizes_ok true size req) by (split; [|split]; lia).
    destruct (uncompress_ok f2d d2f true data _ h size req n start stop dst dsize St Sz Hss Hsn Hd1 Hd2)
      as (d & Ed & Ld & Gd & _).
    exists d. split; [exact Ed|]. split; [exact Ld|]. intros i t Hi Ht. rewrite Gd by lia.
    unfold oword, cword, value_word. replace (size =? req) with false by lia.
    destruct Hsz as [[-> ->]|[-> ->]]; cbn [Z.eqb].
    + replace (i * 1 + 0) with i by lia. reflexivity.
    + change (2 =? 1) with false. cbn iota. replace (i * 2 + 0) with (2 * i) by lia.
      replace (i * 2 + 1) with (2 * i + 1) by lia. reflexivity.
Qed.

(** The hypotheses are met by a 40-element array of two-word elements with runs that cross a header word. *)
Definition ex_data : list Z := concat (map (fun i => [i / 7; 5]) [0;1;2;3;4;5;6;7;8;9;10;11;12;13;14;15;16;17;18;19;20;21;22;23;24;25;26;27;28;29;30;31;32;33;34;35;36;37;38;39]).

Example C19_example :
  exists o h cnt, compress ex_data 40 2 (repeat 0 80) 80 [0; 0] 2 = Ok (o, h, cnt) /\ cnt = 12 /\
    uncompress (fun x => (x, 0)) (fun x _ => x) 30 37 2 2 true h (firstn 12 o) (repeat 9 16) 16
    = Ok [4;5; 4;5; 4;5; 4;5; 4;5; 5;5; 5;5; 9;9].
Proof. eexists _, _, _. split; [vm_compute; reflexivity|]. split; vm_compute; reflexivity. Qed.

Example C19_example_hyps : 40 * 2 <= alen ex_data /\ 40 <= 32 * alen [0; 0] /\ (forall w, In w [0;0] -> w = 0).
Proof. split; [vm_compute; discriminate|]. split; [vm_compute; discriminate|]. intros w [<-|[<-|[]]]; reflexivity. Qed.

Print Assumptions C19_repeat_compression_lossless.
Print Assumptions C19_repeat_compression_conversion.
