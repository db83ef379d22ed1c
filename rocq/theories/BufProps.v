(** * C21: buffered reading and writing. *)
From Coq Require Import ZArith List Bool Lia ZifyBool.
From Verif Require Import Base PackModel FileModel BufModel.
Import ListNotations.
Open Scope Z_scope.
Open Scope res_scope.
Ltac Zify.zify_post_hook ::= Z.to_euclidean_division_equations.

(** ** Specification: the same operations without a buffer *)
Definition file := Z -> Z.
(** the file after the ints [l] have been written at word [a] *)
Definition written (f : file) (a : Z) (l : list Z) : file :=
  fun p => if (2 * a <=? p) && (p <? 2 * a + zlen l) then nth (Z.to_nat (p - 2 * a)) l 0 else f p.
Fixpoint direct (f : file) (ops : list bop) : file :=
  match ops with
  | [] => f
  | Write a l _ :: t => direct (written f a l) t
  | Fill a l :: t => direct (written f a l) t
  | _ :: t => direct f t
  end.
(** the words that [n] ints take *)
Definition words (n : Z) : Z := (n + 1) / 2.
(** every write starts at or after the word where the write before it ended; reads are anywhere *)
Fixpoint ascending (e : Z) (ops : list bop) : Prop :=
  match ops with
  | [] => True
  | Write a l _ :: t | Fill a l :: t => e <= a /\ l <> [] /\ ascending (a + words (zlen l)) t
  | Flush :: t => ascending e t
  | Read a n :: t => 0 <= a /\ 0 <= n /\ ascending e t
  end.
(** the ints between the end of a write and the word where the next write starts, and the unused half of the last word of a
    write: nothing was stored there *)
Fixpoint gap (e : option Z) (ops : list bop) (p : Z) : Prop :=
  match ops with
  | [] => False
  | Write a l _ :: t | Fill a l :: t =>
      (match e with Some w => 2 * w <= p < 2 * a | None => False end) \/
      2 * a + zlen l <= p < 2 * (a + words (zlen l)) \/ gap (Some (a + words (zlen l))) t p
  | _ :: t => gap e t p
  end.
(** each read returned, outside the gaps, what the file without a buffer holds at that moment *)
Fixpoint reads_right (G : Z -> Prop) (f : file) (ops : list bop) (rs : list (list Z)) : Prop :=
  match ops, rs with
  | [], [] => True
  | Write a l _ :: t, r :: q => reads_right G (written f a l) t q
  | Fill a l :: t, r :: q => reads_right G (written f a l) t q
  | Flush :: t, r :: q => reads_right G f t q
  | Read a n :: t, r :: q => zlen r = n /\ (forall i, 0 <= i < n -> ~ G (2 * a + i) -> nth_error r (Z.to_nat i) = Some (f (2 * a + i))) /\ reads_right G f t q
  | _, _ => False
  end.

(** ** Proof *)
Lemma longs_words n : 0 <= n -> numberLongsInInts n = words n.
Proof. intros H. unfold numberLongsInInts, words. destruct (0 <? n) eqn:E; lia. Qed.
Lemma zlen_nonneg (l : list Z) : 0 <= zlen l. Proof. unfold zlen. lia. Qed.
Lemma grab_len f p n : 0 <= n -> zlen (grab f p n) = n.
Proof. intros H. unfold zlen, grab. rewrite map_length, seq_length. lia. Qed.
Lemma grab_nth f p n i : 0 <= i < n -> nth_error (grab f p n) (Z.to_nat i) = Some (f (p + i)).
Proof.
  intros H. unfold grab. rewrite nth_error_map. assert (E : nth_error (seq 0 (Z.to_nat n)) (Z.to_nat i) = Some (Z.to_nat i)).
  { rewrite (nth_error_nth' _ 0%nat) by (rewrite seq_length; lia). rewrite seq_nth by lia. reflexivity. }
  rewrite E. cbn. do 2 f_equal. lia.
Qed.
Lemma grab_nth0 f p n i : 0 <= i < n -> nth (Z.to_nat i) (grab f p n) 0 = f (p + i).
Proof. intros H. apply nth_error_nth. apply grab_nth. exact H. Qed.

(** the file as seen through the buffer *)
Definition in_buf (s : bstate) (p : Z) : Prop := 2 * b_address s <= p < 2 * b_address s + b_used s.
Definition coherent (G : Z -> Prop) (ref : file) (s : bstate) : Prop :=
  forall p, ~ G p ->
    (b_stat s <> UNUSED -> in_buf s p -> b_buf s (p - 2 * b_address s) = ref p) /\
    (b_stat s = DIRTY /\ in_buf s p \/ b_disk s p = ref p).
(** where the buffer stands: [lo] is the word where the last write ended *)
Definition placed (G : Z -> Prop) (started : bool) (lo : Z) (s : bstate) : Prop :=
  0 <= b_size s /\ b_size s mod 2 = 0 /\ 0 <= b_used s <= b_size s /\ 0 <= b_address s /\ b_size s <= 2 * lo /\
  (b_stat s = UNUSED \/ b_stat s = NOT_DIRTY \/ b_stat s = DIRTY) /\
  (b_stat s <> UNUSED ->
     (started = true /\ lo = b_address s + words (b_used s) /\ (forall p, 2 * b_address s + b_used s <= p < 2 * lo -> G p)) \/
     b_address s + b_size s / 2 <= lo) /\
  (b_stat s <> UNUSED -> b_used s mod 2 = 1 -> G (2 * b_address s + b_used s)).

Lemma flushed_spec G ref s : coherent G ref s -> 0 <= b_used s -> b_stat s <> UNUSED -> forall p, ~ G p -> flushed s p = ref p.
Proof.
  intros C U NU p HG. unfold flushed, zput, blit. rewrite grab_len by lia. destruct (C p HG) as (C1 & C2).
  destruct ((2 * b_address s <=? p) && (p <? 2 * b_address s + b_used s)) eqn:E.
  - rewrite grab_nth0 by lia. rewrite Z.add_0_l. apply C1; [exact NU|unfold in_buf; lia].
  - destruct C2 as [(_ & C2)|C2]; [unfold in_buf in C2; lia|exact C2].
Qed.

Lemma zlen_pos (l : list Z) : l <> [] -> 0 < zlen l.
Proof. destruct l; [congruence|]. intros _. unfold zlen. cbn [length]. lia. Qed.

Ltac simp := cbn [b_disk b_size b_stat b_address b_used b_buf] in *.

Lemma fresh_buffer G ref s a l : coherent G ref s -> b_stat s <> DIRTY ->
  coherent G (written ref a l) (mkb (b_disk s) (b_size s) DIRTY a (zlen l) (blit (b_buf s) 0 l)).
Proof.
  intros C ND p HG. unfold in_buf. simp. destruct (C p HG) as (_ & C2). assert (CD : b_disk s p = ref p) by (destruct C2 as [(C2 & _)|C2]; [congruence|exact C2]).
  unfold written, blit. destruct ((2 * a <=? p) && (p <? 2 * a + zlen l)) eqn:E.
  - split; [|left; split; [reflexivity|lia]]. intros _ _. replace ((0 <=? p - 2 * a) && (p - 2 * a <? 0 + zlen l)) with true by lia. f_equal. lia.
  - split; [|right; exact CD]. intros _ H. lia.
Qed.
Lemma direct_write G ref s a l : coherent G ref s -> (b_stat s <> UNUSED -> 2 * b_address s + b_used s <= 2 * a) ->
  coherent G (written ref a l) (mkb (zput (b_disk s) a l) (b_size s) (b_stat s) (b_address s) (b_used s) (b_buf s)).
Proof.
  intros C D p HG. unfold in_buf. simp. destruct (C p HG) as (C1 & C2). unfold in_buf in *. unfold zput, blit. split.
  - intros NU H. specialize (D NU). rewrite C1 by assumption. unfold written. replace ((2 * a <=? p) && (p <? 2 * a + zlen l)) with false by lia. reflexivity.
  - unfold written. destruct ((2 * a <=? p) && (p <? 2 * a + zlen l)) eqn:E; [right; reflexivity|exact C2].
Qed.
Lemma flush_coherent G ref s : coherent G ref s -> 0 <= b_used s -> b_stat s <> UNUSED ->
  coherent G ref (mkb (flushed s) (b_size s) NOT_DIRTY (b_address s) (b_used s) (b_buf s)).
Proof.
  intros C U NU p HG. unfold in_buf. simp. split; [intros _ H; apply C; assumption|right; apply (flushed_spec G); assumption].
Qed.

Lemma put_step G ref s a l (fl : bool) started lo : coherent G ref s -> placed G started lo s -> lo <= a -> l <> [] ->
  (started = true -> forall p, 2 * lo <= p < 2 * a -> G p) ->
  (forall p, 2 * a + zlen l <= p < 2 * (a + words (zlen l)) -> G p) ->
  exists s', zputBuff s a l (if fl then BUFF_WRITE_FLUSH else BUFF_WRITE) = Ok s' /\
    coherent G (written ref a l) s' /\ placed G true (a + words (zlen l)) s'.
Proof.
  intros C P HA NE G1 G2. pose proof (zlen_pos l NE) as NP. destruct P as (S0 & SE & U & A0 & SL & ST & PL & PG).
  set (act := if fl then BUFF_WRITE_FLUSH else BUFF_WRITE). assert (ACT : (act =? BUFF_NO_ACTION) = false) by (unfold act; destruct fl; reflexivity).
  unfold zputBuff. rewrite ACT. cbv zeta.
  (* after the new buffer or the in-place copy: possibly flush *)
  assert (TAIL : forall s2, b_stat s2 = DIRTY -> coherent G (written ref a l) s2 -> placed G true (a + words (zlen l)) s2 ->
    exists s', (if (act =? BUFF_WRITE_FLUSH) && (b_stat s2 =? DIRTY) then Ok (mkb (flushed s2) (b_size s2) NOT_DIRTY (b_address s2) (b_used s2) (b_buf s2)) else Ok s2) = Ok s' /\
      coherent G (written ref a l) s' /\ placed G true (a + words (zlen l)) s').
  { intros s2 D2 C2 P2. destruct ((act =? BUFF_WRITE_FLUSH) && (b_stat s2 =? DIRTY)); [|exists s2; auto].
    eexists. split; [reflexivity|]. split; [apply flush_coherent; [exact C2|apply P2|rewrite D2; discriminate]|].
    destruct P2 as (X1 & X2 & X3 & X4 & X5 & X6 & X7 & X8). unfold placed. simp. do 5 (split; [assumption|]). split; [right; left; reflexivity|].
    split; intros _; [apply X7|apply X8]; rewrite D2; discriminate. }
  (* a new buffer, from a state that is not dirty *)
  assert (NEWB : forall s1, b_stat s1 <> DIRTY -> coherent G ref s1 -> b_size s1 = b_size s -> zlen l < b_size s -> 0 <= a ->
    exists s', (let s2 := mkb (b_disk s1) (b_size s1) DIRTY a (zlen l) (blit (b_buf s1) 0 l) in
      if (act =? BUFF_WRITE_FLUSH) && (b_stat s2 =? DIRTY) then Ok (mkb (flushed s2) (b_size s2) NOT_DIRTY (b_address s2) (b_used s2) (b_buf s2)) else Ok s2) = Ok s' /\
      coherent G (written ref a l) s' /\ placed G true (a + words (zlen l)) s').
  { intros s1 ND C1 ES LT HA0. cbv zeta. apply TAIL; [reflexivity|apply fresh_buffer; assumption|]. unfold placed. simp. rewrite ES.
    split; [lia|]. split; [assumption|]. split; [lia|]. split; [lia|]. split; [unfold words; lia|]. split; [right; right; reflexivity|]. split; intros _; [left; split; [reflexivity|]; split; [reflexivity|exact G2]|intros OD; apply G2; unfold words; lia]. }
  destruct ST as [ST|ST].
  { (* unused *)
    replace (b_stat s =? UNUSED) with true by (unfold UNUSED in *; lia). cbn [negb bind]. replace (b_stat s =? DIRTY) with false by (unfold UNUSED, DIRTY in *; lia). cbn [negb andb]. destruct (zlen l >=? b_size s) eqn:E.
    - eexists. split; [reflexivity|]. split; [apply direct_write; [exact C|intros X; congruence]|].
      unfold placed. simp. repeat (split; [assumption|]). split; [unfold words; lia|]. split; [left; exact ST|]. split; intros X; congruence.
    - apply NEWB; try assumption; try lia; try reflexivity. rewrite ST. discriminate. }
  assert (NU : b_stat s <> UNUSED) by (destruct ST as [->| ->]; discriminate). specialize (PL NU). specialize (PG NU).
  assert (UE : (b_stat s =? UNUSED) = false) by lia. rewrite UE. cbn [negb].
  assert (BEF : 2 * b_address s + b_used s <= 2 * lo) by (destruct PL as [(_ & -> & _)|PL]; unfold words; lia).
  rewrite !longs_words by lia.
  destruct ((a >=? b_address s) && (a + words (zlen l) <=? b_address s + words (b_size s))) eqn:IN.
  - (* inside the buffer *)
    assert (PLL : started = true /\ lo = b_address s + words (b_used s) /\ (forall p, 2 * b_address s + b_used s <= p < 2 * lo -> G p)).
    { destruct PL as [PL|PL]; [exact PL|]. exfalso. unfold words in IN. lia. }
    destruct PLL as (-> & EL & GP). assert (RO : 2 * (a - b_address s) + zlen l <= b_size s) by (unfold words in IN; lia).
    replace ((0 <? zlen l) && (2 * (a - b_address s) + zlen l >? b_size s)) with false by lia. cbn [bind]. simp. cbn [Z.eqb DIRTY Pos.eqb negb andb].
    assert (US : (if 2 * (a - b_address s) + zlen l >? b_used s then 2 * (a - b_address s) + zlen l else b_used s) = 2 * (a - b_address s) + zlen l).
    { destruct (2 * (a - b_address s) + zlen l >? b_used s) eqn:X; lia. }
    rewrite US. apply TAIL; [reflexivity| |].
    + intros p HG. unfold in_buf. simp. destruct (C p HG) as (C1 & C2). unfold in_buf in *. unfold written, blit.
      destruct ((2 * a <=? p) && (p <? 2 * a + zlen l)) eqn:E.
      * split; [|left; split; [reflexivity|lia]]. intros _ _.
        replace ((2 * (a - b_address s) <=? p - 2 * b_address s) && (p - 2 * b_address s <? 2 * (a - b_address s) + zlen l)) with true by lia. f_equal. lia.
      * replace ((2 * (a - b_address s) <=? p - 2 * b_address s) && (p - 2 * b_address s <? 2 * (a - b_address s) + zlen l)) with false by lia.
        split.
        -- intros _ H. destruct (Z_lt_ge_dec p (2 * b_address s + b_used s)) as [Q|Q]; [apply C1; [exact NU|lia]|].
           exfalso. apply HG. destruct (Z_lt_ge_dec p (2 * lo)) as [Q2|Q2]; [apply GP; lia|apply G1; [reflexivity|lia]].
        -- destruct C2 as [(D & C2)|C2]; [left; split; [reflexivity|lia]|right; exact C2].
    + unfold placed. simp. split; [lia|]. split; [assumption|]. split; [lia|]. split; [lia|]. split; [unfold words; lia|]. split; [right; right; reflexivity|].
      split; intros _; [left; split; [reflexivity|]; split; [unfold words; lia|]; intros p Hp; apply G2; lia|intros OD; apply G2; unfold words; lia].
  - (* elsewhere *)
    assert (FL : exists s1, (if b_stat s =? DIRTY then Ok (mkb (flushed s) (b_size s) NOT_DIRTY (b_address s) (b_used s) (b_buf s))
        else Ok (mkb (b_disk s) (b_size s) NOT_DIRTY (b_address s) (b_used s) (b_buf s))) = Ok s1 /\ coherent G ref s1 /\ b_stat s1 = NOT_DIRTY /\ b_size s1 = b_size s /\
        b_address s1 = b_address s /\ b_used s1 = b_used s).
    { destruct (b_stat s =? DIRTY) eqn:D.
      - eexists. split; [reflexivity|]. split; [apply flush_coherent; [exact C|lia|exact NU]|auto].
      - eexists. split; [reflexivity|]. split; [|auto]. intros p HG. unfold in_buf. simp. destruct (C p HG) as (C1 & C2). split; [intros _; apply C1; exact NU|].
        right. destruct C2 as [(X & _)|C2]; [lia|exact C2]. }
    destruct FL as (s1 & -> & C1 & ST1 & SZ1 & AD1 & US1). cbn [bind]. rewrite ST1. cbn [Z.eqb NOT_DIRTY DIRTY Pos.eqb negb andb].
    destruct (zlen l >=? b_size s1) eqn:E.
    + eexists. split; [reflexivity|]. rewrite <- ST1. split; [apply direct_write; [exact C1|intros _; lia]|].
      unfold placed. simp. rewrite SZ1, AD1, US1, ST1. repeat (split; [assumption|]). split; [unfold words; lia|]. split; [right; left; reflexivity|]. split; intros _; [right; unfold words; lia|exact PG].
    + apply NEWB; try assumption; try lia. rewrite ST1. discriminate.
Qed.

Lemma flush_step G ref s started lo : coherent G ref s -> placed G started lo s -> 0 < lo ->
  exists s', zflushBuffers s = Ok s' /\ coherent G ref s' /\ b_stat s' <> DIRTY /\ b_size s' = b_size s /\
    forall started' lo', lo <= lo' -> placed G started' lo' s'.
Proof.
  intros C P L0. destruct P as (S0 & SE & U & A0 & SL & ST & PL & PG). unfold zflushBuffers, zputBuff. cbn [Z.eqb BUFF_WRITE_FLUSH BUFF_NO_ACTION]. cbv zeta. change (zlen []) with 0.
  (* the second half, from a state that is not dirty *)
  assert (TAIL : forall s1, b_stat s1 <> DIRTY -> coherent G ref s1 -> b_size s1 = b_size s ->
     (b_stat s1 = b_stat s /\ b_stat s1 = UNUSED /\ b_used s1 = b_used s /\ b_address s1 = b_address s \/ b_stat s1 = NOT_DIRTY /\ 0 <= b_used s1 <= b_size s1 /\ 0 <= b_address s1 /\ (b_size s1 = 0 -> b_address s1 <= lo)) -> 
     exists s', (if negb (b_stat s1 =? DIRTY) && (0 >=? b_size s1) then Ok (mkb (zput (b_disk s1) 0 []) (b_size s1) (b_stat s1) (b_address s1) (b_used s1) (b_buf s1))
    else
      let s2 := if negb (b_stat s1 =? DIRTY) then mkb (b_disk s1) (b_size s1) DIRTY 0 0 (blit (b_buf s1) 0 []) else s1 in
      if (BUFF_WRITE_FLUSH =? BUFF_WRITE_FLUSH) && (b_stat s2 =? DIRTY) then Ok (mkb (flushed s2) (b_size s2) NOT_DIRTY (b_address s2) (b_used s2) (b_buf s2))
      else Ok s2) = Ok s' /\ coherent G ref s' /\ b_stat s' <> DIRTY /\ b_size s' = b_size s /\
    forall started' lo', lo <= lo' -> placed G started' lo' s').
  { intros s1 ND C1 ES W. replace (b_stat s1 =? DIRTY) with false by lia. cbn [negb andb]. destruct (0 >=? b_size s1) eqn:E.
    - eexists. split; [reflexivity|]. split.
      + intros p HG. unfold in_buf. simp. destruct (C1 p HG) as (Q1 & Q2). split; [exact Q1|]. destruct Q2 as [Q2|Q2]; [left; exact Q2|right].
        unfold zput, blit. change (zlen []) with 0. replace ((2 * 0 <=? p) && (p <? 2 * 0 + 0)) with false by lia. exact Q2.
      + split; [exact ND|]. split; [exact ES|]. intros st' lo' HL. unfold placed. simp. rewrite ES in *.
        destruct W as [(W1 & W2 & W3 & W4)|(W1 & W2 & W3 & W4)].
        * rewrite W3, W4. do 5 (split; [assumption || lia|]). split; [left; exact W2|]. split; intros X; congruence.
        * do 5 (split; [assumption || lia|]). split; [right; left; exact W1|]. split; intros _; [right; specialize (W4 ltac:(lia)); lia|lia].
    - cbv zeta. cbn [b_stat]. cbn [Z.eqb BUFF_WRITE_FLUSH DIRTY Pos.eqb andb]. eexists. split; [reflexivity|]. split; [|split; [simp; discriminate|split; [exact ES|]]].
      + apply flush_coherent; [|cbn; lia|discriminate]. intros p HG. unfold in_buf. simp. split; [intros; lia|]. right. destruct (C1 p HG) as (_ & [(Q & _)|Q]); [congruence|exact Q].
      + intros st' lo' HL. unfold placed. simp. rewrite ES. do 5 (split; [assumption || lia|]). split; [right; left; reflexivity|]. split; intros _; [right; lia|lia]. }
  destruct ST as [ST|ST].
  { replace (b_stat s =? UNUSED) with true by lia. cbn [negb bind]. apply TAIL; [rewrite ST; discriminate|exact C|reflexivity|left; auto]. }
  assert (NU : b_stat s <> UNUSED) by (destruct ST as [->| ->]; discriminate). specialize (PL NU). specialize (PG NU).
  assert (AL : b_address s <= lo) by (destruct PL as [(_ & -> & _)|PL]; [unfold words|]; lia).
  replace (b_stat s =? UNUSED) with false by lia. cbn [negb]. rewrite !longs_words by lia. replace (words 0) with 0 by reflexivity.
  destruct ((0 >=? b_address s) && (0 + 0 <=? b_address s + words (b_size s))) eqn:IN.
  - (* the buffer is at word 0: it must be empty or hold the start of the file *)
    assert (A0' : b_address s = 0) by lia. rewrite A0'. cbn [Z.ltb Z.compare andb bind]. replace (2 * (0 - 0) + 0) with 0 by lia. replace (0 >? b_used s) with false by lia.
    simp. replace (2 * (0 - 0)) with 0 by lia. cbn [Z.eqb DIRTY Pos.eqb negb andb BUFF_WRITE_FLUSH]. eexists. split; [reflexivity|].
    assert (CB : coherent G ref (mkb (b_disk s) (b_size s) DIRTY 0 (b_used s) (blit (b_buf s) 0 []))).
    { intros p HG. unfold in_buf. simp. destruct (C p HG) as (C1 & C2). unfold in_buf in *. rewrite A0' in *. unfold blit. change (zlen []) with 0.
      replace ((0 <=? p - 2 * 0) && (p - 2 * 0 <? 0 + 0)) with false by lia. split; [intros _ H; apply C1; assumption|]. destruct C2 as [(Q1 & Q2)|Q]; [left; split; [reflexivity|exact Q2]|right; exact Q]. }
    split; [apply (flush_coherent _ _ _ CB); [simp; lia|discriminate]|]. split; [simp; discriminate|]. split; [reflexivity|].
    intros st' lo' HL. unfold placed. simp. do 5 (split; [assumption || lia|]). split; [right; left; reflexivity|]. split; intros _; [right; lia|rewrite A0' in PG; exact PG].
  - destruct (b_stat s =? DIRTY) eqn:D; cbn [bind]; simp.
    + apply (TAIL (mkb (flushed s) (b_size s) NOT_DIRTY (b_address s) (b_used s) (b_buf s))); [discriminate|apply flush_coherent; [exact C|lia|exact NU]|reflexivity|right; simp; repeat split; lia].
    + apply (TAIL (mkb (b_disk s) (b_size s) NOT_DIRTY (b_address s) (b_used s) (b_buf s))); [discriminate| |reflexivity|right; simp; repeat split; lia].
      intros p HG. unfold in_buf. simp. destruct (C p HG) as (C1 & C2). split; [intros _; apply C1; exact NU|]. right. destruct C2 as [(X & _)|C2]; [lia|exact C2].
Qed.

Lemma read_step G ref s a n started lo eof : coherent G ref s -> placed G started lo s -> 0 <= a -> 0 <= n ->
  exists r s', zgetBuff eof s a n BUFF_READ = Ok (r, s') /\ coherent G ref s' /\ placed G started lo s' /\
    zlen r = n /\ forall i, 0 <= i < n -> ~ G (2 * a + i) -> nth_error r (Z.to_nat i) = Some (ref (2 * a + i)).
Proof.
  intros C P HA HN. pose proof P as P0. destruct P as (S0 & SE & U & A0 & SL & ST & PL & PG).
  assert (RD : forall d, (forall p, ~ G p -> 2 * a <= p < 2 * a + n -> d p = ref p) -> zlen (zget d a n) = n /\
     (forall i, 0 <= i < n -> ~ G (2 * a + i) -> nth_error (zget d a n) (Z.to_nat i) = Some (ref (2 * a + i)))).
  { intros d HD. unfold zget. split; [apply grab_len; exact HN|]. intros i Hi Hg. rewrite grab_nth by exact Hi. f_equal. apply HD; [exact Hg|lia]. }
  assert (CLEAN : forall d, (forall p, ~ G p -> d p = ref p) -> b_stat s <> UNUSED -> let s' := mkb d (b_size s) NOT_DIRTY (b_address s) (b_used s) (b_buf s) in
      (forall p, ~ G p -> d p = flushed s p \/ d p = ref p) -> coherent G ref s' /\ placed G started lo s').
  { intros d HD NU s' _. split.
    - intros p HG. unfold in_buf, s'. simp. destruct (C p HG) as (C1 & _). split; [intros _; apply C1; exact NU|right; apply HD; exact HG].
    - unfold placed, s'. simp. do 5 (split; [assumption|]). split; [right; left; reflexivity|]. split; intros _; [apply PL|apply PG]; exact NU. }
  unfold zgetBuff. cbn [Z.eqb BUFF_READ BUFF_NO_ACTION BUFF_LOAD Pos.eqb orb andb].
  destruct (b_stat s =? UNUSED) eqn:EU.
  { do 2 eexists. split; [reflexivity|]. split; [exact C|]. split; [exact P0|].  apply RD.
    intros p HG _. destruct (C p HG) as (_ & [(Q & _)|Q]); [unfold UNUSED, DIRTY in *; lia|exact Q]. }
  assert (NU : b_stat s <> UNUSED) by lia. cbv zeta.
  pose proof (fun p => flushed_spec G ref s C ltac:(lia) NU p) as FS.
  destruct (n >? b_size s) eqn:EN.
  - destruct (b_stat s =? DIRTY) eqn:D; cbn [andb]; simp.
    + rewrite EN. destruct (CLEAN (flushed s) FS NU ltac:(auto)) as (K1 & K2). do 2 eexists. split; [reflexivity|]. split; [exact K1|]. split; [exact K2|]. simp.
       apply RD. auto.
    + rewrite EN. do 2 eexists. split; [reflexivity|]. split; [exact C|]. split; [exact P0|]. 
      apply RD. intros p HG _. destruct (C p HG) as (_ & [(Q & _)|Q]); [lia|exact Q].
  - replace ((b_stat s =? DIRTY) && false) with false by (destruct (b_stat s =? DIRTY); reflexivity). cbv iota. rewrite EN. rewrite !longs_words by lia.
    destruct ((a >=? b_address s) && (a + words n <=? b_address s + words (b_used s))) eqn:IN.
    + assert (RO : 2 * (a - b_address s) + n <= b_used s + 1) by (unfold words in IN; lia).
      assert (RO2 : 2 * (a - b_address s) + n <= b_size s) by (unfold words in IN; lia).
      replace ((0 <? n) && (2 * (a - b_address s) + n >? b_size s)) with false by lia.
      do 2 eexists. split; [reflexivity|]. split; [exact C|]. split; [exact P0|]. 
      split; [apply grab_len; exact HN|]. intros i Hi Hg. rewrite grab_nth by exact Hi. f_equal. destruct (C _ Hg) as (C1 & _). unfold in_buf in C1.
      destruct (Z_lt_ge_dec (2 * a + i) (2 * b_address s + b_used s)) as [Q|Q].
      * rewrite <- C1 by (exact NU || lia). f_equal. lia.
      * exfalso. apply Hg. assert (Q2 : 2 * a + i = 2 * b_address s + b_used s) by lia. rewrite Q2. apply PG; [exact NU|]. unfold words in IN. lia.
    + destruct ((b_stat s =? DIRTY) && negb ((a >? b_address s + words (b_used s)) || (a + words n <? b_address s))) eqn:D.
      * destruct (CLEAN (flushed s) FS NU ltac:(auto)) as (K1 & K2). do 2 eexists. split; [reflexivity|]. split; [exact K1|]. split; [exact K2|]. simp.
         apply RD. auto.
      * do 2 eexists. split; [reflexivity|]. split; [exact C|]. split; [exact P0|]. 
        apply RD. intros p HG HP. destruct (C p HG) as (_ & [(Q & Q2)|Q]); [|exact Q]. exfalso. unfold in_buf in Q2. unfold words in D. lia.
Qed.

Definition sofar (started : bool) (lo : Z) : option Z := if started then Some lo else None.
Lemma run_spec G ops : forall s ref started lo, coherent G ref s -> placed G started lo s -> 0 < lo -> ascending lo ops ->
  (forall p, gap (sofar started lo) ops p -> G p) ->
  exists rs s', brun s ops = Ok (rs, s') /\ reads_right G ref ops rs /\ coherent G (direct ref ops) s' /\ b_size s' = b_size s /\
    exists started' lo', placed G started' lo' s' /\ lo <= lo'.
Proof.
  induction ops as [|o t IH]; intros s ref started lo C P L A HG; [exists [], s; repeat split; eauto; [apply C; assumption|apply C; assumption|exists started, lo; split; [exact P|lia]]|].
  assert (SZ : forall a l act s', zputBuff s a l act = Ok s' -> b_size s' = b_size s).
  { intros a l act s' E. unfold zputBuff in E. cbv zeta in E. destruct (act =? BUFF_NO_ACTION); [injection E as <-; reflexivity|].
    match type of E with (let* _ := ?m in _) = _ => assert (Q : forall s1, m = Ok s1 -> b_size s1 = b_size s) end.
    { intros s1 Q. destruct (negb (b_stat s =? UNUSED)); [|injection Q as <-; reflexivity].
      destruct ((a >=? b_address s) && (a + numberLongsInInts (zlen l) <=? b_address s + numberLongsInInts (b_size s))).
      - destruct ((0 <? zlen l) && (2 * (a - b_address s) + zlen l >? b_size s)); [discriminate|]. injection Q as <-. reflexivity.
      - destruct (b_stat s =? DIRTY); injection Q as <-; reflexivity. }
    match type of E with (let* _ := ?m in _) = _ => destruct m as [s1|]; [|discriminate] end. specialize (Q s1 eq_refl). cbn [bind] in E.
    destruct (negb (b_stat s1 =? DIRTY) && (zlen l >=? b_size s1)); [injection E as <-; exact Q|].
    destruct (negb (b_stat s1 =? DIRTY)); simp; (destruct ((act =? BUFF_WRITE_FLUSH) && _); injection E as <-; exact Q). }
  cbn [brun]. destruct o as [a l fl|a l| |a n]; cbn [ascending gap direct reads_right] in *.
  - destruct A as (A1 & A2 & A3). destruct (put_step G ref s a l fl started lo C P A1 A2) as (s1 & E & C1 & P1).
    { intros -> p Hp. apply HG. left. exact Hp. }
    { intros p Hp. apply HG. right. left. exact Hp. }
    cbn [bstep]. rewrite E. cbn [bind fst snd]. pose proof (SZ _ _ _ _ E) as SZ1. pose proof (zlen_nonneg l).
    destruct (IH s1 (written ref a l) true (a + words (zlen l)) C1 P1 ltac:(unfold words; lia) A3) as (rs & s' & E' & R & C' & S' & st' & lo' & P' & L'); [intros p Hp; apply HG; right; right; exact Hp|].
    rewrite E'. cbn [bind fst snd]. exists ([] :: rs), s'. split; [reflexivity|]. split; [exact R|]. split; [exact C'|]. split; [congruence|]. exists st', lo'. split; [exact P'|]. unfold words in L'. lia.
  - destruct A as (A1 & A2 & A3). destruct (flush_step G ref s started lo C P L) as (s1 & E & C1 & D1 & S1 & P1).
    cbn [bstep]. rewrite E. cbn [bind]. unfold zputBuff at 1. cbn [Z.eqb BUFF_NO_ACTION]. cbn [bind fst snd]. pose proof (zlen_nonneg l).
    set (s2 := mkb (zput (b_disk s1) a l) (b_size s1) (b_stat s1) (b_address s1) (b_used s1) (b_buf s1)).
    assert (BEF : b_stat s1 <> UNUSED -> 2 * b_address s1 + b_used s1 <= 2 * a).
    { intros NU. pose proof (P1 false lo ltac:(lia)) as (X1 & X2 & X3 & X4 & X5 & X6 & X7 & X8). destruct (X7 NU) as [(X & _)|X]; [discriminate|]. lia. }
    assert (C2 : coherent G (written ref a l) s2) by (apply direct_write; [exact C1|exact BEF]).
    assert (P2 : placed G true (a + words (zlen l)) s2) by (apply P1; unfold words; lia).
    destruct (IH s2 (written ref a l) true (a + words (zlen l)) C2 P2 ltac:(unfold words; lia) A3) as (rs & s' & E' & R & C' & S' & st' & lo' & P' & L'); [intros p Hp; apply HG; right; right; exact Hp|].
    rewrite E'. cbn [bind fst snd]. exists ([] :: rs), s'. split; [reflexivity|]. split; [exact R|]. split; [exact C'|]. split; [rewrite S'; exact S1|]. exists st', lo'. split; [exact P'|]. unfold words in L'. lia.
  - destruct (flush_step G ref s started lo C P L) as (s1 & E & C1 & D1 & S1 & P1). cbn [bstep]. rewrite E. cbn [bind fst snd].
    destruct (IH s1 ref started lo C1 (P1 started lo (Z.le_refl lo)) L A HG) as (rs & s' & E' & R & C' & S' & st' & lo' & P' & L').
    rewrite E'. cbn [bind fst snd]. exists ([] :: rs), s'. split; [reflexivity|]. split; [exact R|]. split; [exact C'|]. split; [congruence|]. exists st', lo'. split; [exact P'|lia].
  - destruct A as (A1 & A2 & A3). destruct (read_step G ref s a n started lo 0 C P A1 A2) as (r & s1 & E & C1 & P1 & R1 & R2). cbn [bstep]. rewrite E. cbn [bind fst snd].
    destruct (IH s1 ref started lo C1 P1 L A3 HG) as (rs & s' & E' & R & C' & S' & st' & lo' & P' & L').
    rewrite E'. cbn [bind fst snd]. exists (r :: rs), s'. split; [reflexivity|]. split; [split; [exact R1|split; [exact R2|exact R]]|]. split; [exact C'|]. split; [|exists st', lo'; split; [exact P'|lia]].
    rewrite S'. clear - E. unfold zgetBuff in E. cbn [Z.eqb BUFF_READ BUFF_NO_ACTION BUFF_LOAD Pos.eqb orb andb] in E.
    destruct (b_stat s =? UNUSED); [injection E as _ <-; reflexivity|]. cbv zeta in E.
    set (q := if (b_stat s =? DIRTY) && (n >? b_size s) then mkb (flushed s) (b_size s) NOT_DIRTY (b_address s) (b_used s) (b_buf s) else s) in E.
    assert (Q : b_size q = b_size s) by (unfold q; destruct ((b_stat s =? DIRTY) && (n >? b_size s)); reflexivity). clearbody q.
    destruct (n >? b_size q); [injection E as _ <-; exact Q|].
    destruct ((a >=? b_address q) && _); [destruct ((0 <? n) && _); [discriminate|]; injection E as _ <-; exact Q|].
    destruct ((b_stat q =? DIRTY) && _); injection E as _ <-; exact Q.
Qed.

(** ** Theorems *)
(** a buffer as a program sets it up: its size, nothing in it *)
Definition new_buffer (f : file) (size : Z) (junk : Z -> Z) : bstate := mkb f size UNUSED 0 0 junk.

(** Writing through a buffer of any (even) size, in any mixture of small and large pieces, flushes, filled pieces and reads, as long
    as every piece starts at or after the end of the one before it: every read returns what the unbuffered file would, and after the
    final flush the file is the unbuffered one, except for ints where nothing was stored (gaps). *)
Theorem C21_ascending_writes_partial f size junk a0 ops :
  0 <= size -> size mod 2 = 0 -> 0 < a0 -> size <= 2 * a0 -> ascending a0 ops ->
  exists rs s', brun (new_buffer f size junk) (ops ++ [Flush]) = Ok (rs, s') /\
    reads_right (gap None ops) f (ops ++ [Flush]) rs /\
    (forall p, ~ gap None ops p -> b_disk s' p = direct f ops p).
Proof.
  intros S0 SE L SL A. set (G := gap None ops).
  assert (GF : forall e o p, gap e (o ++ [Flush]) p -> gap e o p).
  { intros e o. revert e. induction o as [|x o IHo]; intros e p H; [exact H|]. destruct x as [a l fl|a l| |a n]; cbn [app gap] in *; try (apply IHo; exact H).
    - destruct H as [H|[H|H]]; [left; exact H|right; left; exact H|right; right; apply IHo; exact H].
    - destruct H as [H|[H|H]]; [left; exact H|right; left; exact H|right; right; apply IHo; exact H]. }
  assert (AF : forall o e, ascending e o -> ascending e (o ++ [Flush])).
  { clear. induction o as [|x o IHo]; intros e H; [exact H|]. destruct x as [a l fl|a l| |a n]; cbn [app ascending] in *; intuition. }
  assert (DF : forall o r, direct r (o ++ [Flush]) = direct r o).
  { clear. induction o as [|x o IHo]; intros r; [reflexivity|]. destruct x as [a l fl|a l| |a n]; cbn [app direct]; apply IHo. }
  destruct (run_spec G ops (new_buffer f size junk) f false a0) as (rs & s' & E & R & C & _ & st & lo & P & LL); [| |exact L|exact A|intros p Hp; exact Hp|].
  { intros p _. unfold new_buffer, in_buf. simp. split; [intros X; congruence|right; reflexivity]. }
  { unfold placed, new_buffer. simp. do 5 (split; [assumption || lia|]). split; [left; reflexivity|]. split; intros X; congruence. }
  destruct (flush_step G (direct f ops) s' st lo C P ltac:(lia)) as (s2 & E2 & C2 & D2 & _).
  exists (rs ++ [[]]), s2. split; [|split].
  - clear - E E2. revert rs E. generalize (new_buffer f size junk). induction ops as [|o t IH]; intros s rs E; cbn [brun app] in *.
    + injection E as <- E3. subst s. cbn [bstep]. rewrite E2. reflexivity.
    + destruct (bstep s o) as [r|]; cbn [bind] in *; [|discriminate]. destruct (brun (snd r) t) as [q|] eqn:Q; cbn [bind] in *; [|discriminate].
      destruct q as (q1 & q2). cbn [fst snd] in *. injection E as <- E3. subst q2. rewrite (IH _ _ Q). reflexivity.
  - clear - R. revert rs R. generalize f. fold G. clearbody G. induction ops as [|o t IH]; intros r rs R.
    + destruct rs; [cbn; exact I|destruct R].
    + destruct o as [a l fl|a l| |a n]; destruct rs as [|x rs]; cbn [app reads_right] in *; try (destruct R; fail); try (apply IH; exact R).
      destruct R as (R1 & R2 & R3). split; [exact R1|]. split; [exact R2|]. apply IH. exact R3.
  - intros p Hp. destruct (C2 p Hp) as (_ & [(Q & _)|Q]); [congruence|exact Q].
Qed.
Print Assumptions C21_ascending_writes_partial.

(** a record of 5, 3 (odd), 12 ints and an end-of-file word through a buffer of 8 ints, with reads in between *)
Definition demo : list bop :=
  [Write 10 [1; 2; 3; 4; 5] false; Read 10 4; Write 13 [6; 7; 8] false; Write 15 [21; 22; 23; 24; 25; 26; 27; 28; 29; 30; 31; 32] false;
   Read 14 6; Write 22 [99; 98] true].
(** the answers to the reads, and [n] ints of the file at the end *)
Definition outcome (r : res (list (list Z) * bstate)) (p n : Z) : option (list (list Z) * list Z) :=
  match r with Ok (rs, s) => Some (rs, grab (b_disk s) p n) | Undef => None end.
Example C21_example : ascending 10 demo /\ 0 <= 8 /\ 8 mod 2 = 0 /\ 8 <= 2 * 10 /\
  outcome (brun (new_buffer (fun p => - p) 8 (fun _ => 777)) (demo ++ [Flush])) 19 28 =
    Some ([[]; [1; 2; 3; 4]; []; []; [8; -29; 21; 22; 23; 24]; []; []],
      [-19; 1; 2; 3; 4; 5; -25; 6; 7; 8; -29; 21; 22; 23; 24; 25; 26; 27; 28; 29; 30; 31; 32; -42; -43; 99; 98; -46]).
Proof.
  split; [cbn; repeat split; try lia; discriminate|]. split; [lia|]. split; [reflexivity|]. split; [lia|]. vm_compute. reflexivity.
Qed.

(** ** Reading through a buffer that nobody writes through (Internal/zreadInternal.c:274-300, 315-479) *)
Inductive rop := Load (address n : Z) | Get (address n : Z) (action : Z).
Definition rstep (eof : Z) (s : bstate) (o : rop) : res (list Z * bstate) :=
  match o with Load a n => zgetBuff eof s a n BUFF_LOAD | Get a n act => zgetBuff eof s a n act end.
Fixpoint rrun (eof : Z) (s : bstate) (ops : list rop) : res (list (list Z) * bstate) :=
  match ops with
  | [] => Ok ([], s)
  | o :: t => let* r := rstep eof s o in let* q := rrun eof (snd r) t in Ok (fst r :: fst q, snd q)
  end.
(** a load of whole words that starts inside the file; a read through the buffer or past it *)
Definition rop_ok (eof : Z) (o : rop) : Prop :=
  match o with
  | Load a n => 0 <= a <= eof /\ 0 <= n /\ n mod 2 = 0
  | Get a n act => 0 <= a /\ 0 <= n /\ (act = BUFF_READ \/ act = BUFF_NO_ACTION)
  end.
Definition rop_right (f : file) (o : rop) (r : list Z) : Prop :=
  match o with Load _ _ => r = [] | Get a n _ => r = map (fun i => f (2 * a + Z.of_nat i)) (seq 0 (Z.to_nat n)) end.
Definition clean (f : file) (s : bstate) : Prop :=
  b_disk s = f /\ 0 <= b_size s /\ b_size s mod 2 = 0 /\ 0 <= b_used s <= b_size s /\ b_used s mod 2 = 0 /\ 0 <= b_address s /\ (b_stat s = UNUSED \/ b_stat s = NOT_DIRTY) /\
  (b_stat s <> UNUSED -> forall i, 0 <= i < b_used s -> b_buf s i = f (2 * b_address s + i)).
Lemma get_clean eof s f o : clean f s -> rop_ok eof o -> exists r s', rstep eof s o = Ok (r, s') /\ clean f s' /\ rop_right f o r.
Proof.
  intros C H. pose proof C as (CD & S0 & SE & U & UE & A0 & ST & CB). assert (ND : (b_stat s =? DIRTY) = false) by (clear - ST; destruct ST as [->| ->]; reflexivity).
  destruct o as [a n|a n act]; cbn [rstep rop_ok rop_right] in *.
  - destruct H as (HA & HN & HE). unfold zgetBuff. cbn [Z.eqb BUFF_LOAD BUFF_READ BUFF_NO_ACTION Pos.eqb orb andb]. rewrite ND. cbn [andb].
    destruct (((b_stat s =? UNUSED) || negb (b_address s =? a) || (b_used s <? n)) && negb (b_size s <=? 0)) eqn:E; [|exists [], s; auto].
    cbv zeta. set (n1 := if n >? b_size s then b_size s else n). assert (N1 : 0 <= n1 <= b_size s /\ n1 mod 2 = 0) by (unfold n1; destruct (n >? b_size s) eqn:X; lia).
    rewrite longs_words by lia. set (n2 := if a + words n1 >? eof then 2 * (a + words n1 - eof) else n1).
    assert (N2 : 0 <= n2 <= b_size s /\ n2 mod 2 = 0) by (unfold n2, words; destruct (a + (n1 + 1) / 2 >? eof) eqn:X; lia).
    clearbody n1 n2. replace (n2 >? b_size s) with false by lia. do 2 eexists. split; [reflexivity|]. split; [|reflexivity].
    unfold clean. simp. split; [exact CD|]. split; [lia|]. split; [assumption|]. split; [lia|]. split; [lia|]. split; [lia|]. split; [right; reflexivity|]. intros _ i Hi. unfold blit, zget. rewrite grab_len by lia.
    replace ((0 <=? i) && (i <? 0 + n2)) with true by lia. replace (i - 0) with i by lia. rewrite grab_nth0 by lia. rewrite CD. reflexivity.
  - destruct H as (HA & HN & HACT). unfold zgetBuff. assert (AL : (act =? BUFF_LOAD) = false) by (destruct HACT as [->| ->]; reflexivity).
    destruct ((act =? BUFF_NO_ACTION) || ((act =? BUFF_READ) && (b_stat s =? UNUSED))) eqn:E; [do 2 eexists; split; [reflexivity|]; split; [exact C|rewrite CD; reflexivity]|].
    rewrite ND, AL. cbn [andb]. cbv zeta. destruct (n >? b_size s) eqn:EN; [do 2 eexists; split; [reflexivity|]; split; [exact C|rewrite CD; reflexivity]|].
    rewrite !longs_words by lia. destruct ((a >=? b_address s) && (a + words n <=? b_address s + words (b_used s))) eqn:IN.
    + assert (R : 2 * (a - b_address s) + n <= b_used s) by (unfold words in IN; lia). replace ((0 <? n) && (2 * (a - b_address s) + n >? b_size s)) with false by lia.
      do 2 eexists. split; [reflexivity|]. split; [exact C|]. unfold grab. apply map_ext_in. intros i Hi. apply in_seq in Hi. rewrite CB; [f_equal; lia| |lia].
      destruct HACT as [-> | ->]; [|discriminate E]. intros X. rewrite X in E. discriminate E.
    + rewrite ND. cbn [andb]. do 2 eexists. split; [reflexivity|]. split; [exact C|rewrite CD; reflexivity].
Qed.
(** any sequence of loads and reads: every read returns the contents of the file *)
Theorem C21_reads f size junk eof ops : 0 <= size -> size mod 2 = 0 -> Forall (rop_ok eof) ops ->
  exists rs s', rrun eof (new_buffer f size junk) ops = Ok (rs, s') /\ b_disk s' = f /\ Forall2 (rop_right f) ops rs.
Proof.
  intros S0 SE H. assert (C : clean f (new_buffer f size junk)).
  { unfold clean, new_buffer. simp. split; [reflexivity|]. split; [lia|]. split; [assumption|]. split; [lia|]. split; [reflexivity|]. split; [lia|]. split; [left; reflexivity|]. intros X. congruence. }
  revert C. generalize (new_buffer f size junk). induction H as [|o t HO HT IH]; intros s C; [exists [], s; split; [reflexivity|]; split; [apply C|constructor]|].
  destruct (get_clean eof s f o C HO) as (r & s1 & E & C1 & R). destruct (IH s1 C1) as (rs & s' & E' & D' & R'). cbn [rrun]. rewrite E. cbn [bind snd fst]. rewrite E'. cbn [bind fst snd].
  exists (r :: rs), s'. split; [reflexivity|]. split; [exact D'|]. constructor; assumption.
Qed.
Print Assumptions C21_reads.
Definition demo_reads := [Load 10 6; Get 10 3 BUFF_READ; Get 12 8 BUFF_READ; Load 90 40; Get 91 2 BUFF_READ].
Example C21_reads_example : Forall (rop_ok 100) demo_reads /\
  option_map fst (outcome (rrun 100 (new_buffer (fun p => p * p) 8 (fun _ => 7)) demo_reads) 0 0) =
    Some [[]; [400; 441; 484]; [576; 625; 676; 729; 784; 841; 900; 961]; []; [33124; 33489]].
Proof. split; [repeat (constructor; [cbn; unfold BUFF_READ; lia|]); constructor|]. vm_compute. reflexivity. Qed.

(** ** What fails outside these uses *)
(** a gap inside the buffer: what the file held there is replaced by what the buffer happened to hold *)
Theorem C21_refuted_gap : exists f size junk ops p, 0 <= size /\ size mod 2 = 0 /\ ascending 100 ops /\ direct f ops p = 5 /\
  option_map snd (outcome (brun (new_buffer f size junk) (ops ++ [Flush])) p 1) = Some [7].
Proof.
  exists (fun _ => 5), 20, (fun _ => 7), [Write 100 [1; 2] false; Write 104 [3; 4] false], 204.
  split; [lia|]. split; [reflexivity|]. split; [cbn; repeat split; lia || discriminate|]. split; vm_compute; reflexivity.
Qed.
Print Assumptions C21_refuted_gap.
(** a piece larger than the buffer over one that is in it: the read that follows returns the old contents *)
Theorem C21_refuted_stale_read : exists f size junk, 0 <= size /\ size mod 2 = 0 /\
  option_map fst (outcome (brun (new_buffer f size junk) [Write 100 [1; 2] true; Write 100 [8; 8; 8; 8; 8; 8] true; Read 100 2]) 0 0) = Some [[]; []; [1; 2]].
Proof. exists (fun _ => 5), 4, (fun _ => 7). split; [lia|]. split; [reflexivity|]. vm_compute. reflexivity. Qed.
Print Assumptions C21_refuted_stale_read.
(** and a small piece after it puts the old contents back in the file *)
Theorem C21_refuted_lost_write : exists f size junk ops p, 0 <= size /\ size mod 2 = 0 /\ direct f ops p = 8 /\
  option_map snd (outcome (brun (new_buffer f size junk) (ops ++ [Flush])) p 1) = Some [1].
Proof.
  exists (fun _ => 5), 4, (fun _ => 7), [Write 100 [1; 2] true; Write 100 [8; 8; 8; 8; 8; 8] true; Write 101 [9; 9] false], 200.
  split; [lia|]. split; [reflexivity|]. split; vm_compute; reflexivity.
Qed.
Print Assumptions C21_refuted_lost_write.
(** a buffer of an odd number of ints is overrun *)
Theorem C21_refuted_odd_size : exists f junk, outcome (brun (new_buffer f 3 junk) [Write 100 [1; 2] false; Write 101 [3; 4] false]) 0 0 = None.
Proof. exists (fun _ => 5), (fun _ => 7). vm_compute. reflexivity. Qed.
Print Assumptions C21_refuted_odd_size.
