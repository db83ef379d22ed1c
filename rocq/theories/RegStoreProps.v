(** * C32: what each storage flag keeps when data are stored into part of a regular block. *)
From Coq Require Import ZArith List Lia Bool ZifyBool.
From Verif Require Import Base ArrayLib RegStoreModel RegStoreProofs.
Import ListNotations.
Open Scope Z_scope.

(** ** Specification *)

(** What a reader sees at position [p] of a block: the stored value, or the missing value. *)
Definition value_at (mval : Z) (b : option rblk) (p : Z) : Z :=
  match b with
  | None => mval
  | Some r => if (r_start r <=? p) && (p <? r_start r + alen (r_vals r)) then
                match aget (r_vals r) (p - r_start r) with Ok v => v | Undef => mval end
              else mval
  end.
(** The quality a reader sees (zero if there is none). *)
Definition quality_at (b : option rblk) (p : Z) : Z :=
  match b with
  | Some (mk_rblk s v (Some q)) => match aget q (p - s) with Ok x => x | Undef => 0 end
  | _ => 0
  end.

(** The documented meaning of the storage flags: does the new value replace the old one.
    0, 2, 3: always; 1: only replace missing values; 4: do not let a missing value replace anything. *)
Definition replaces (miss : Z -> bool) (flag old new : Z) : bool :=
  match flag with 1 => miss old | 4 => negb (miss new) | _ => true end.

(** Equal, or both missing (there is more than one bit pattern for "missing"). *)
Definition same_value (miss : Z -> bool) (a b : Z) : Prop := a = b \/ (miss a = true /\ miss b = true).

(** A stored block lies inside the [nb] positions of its block and has as many quality words as values. *)
Definition block_ok (nb : Z) (b : option rblk) : Prop :=
  match b with
  | None => True
  | Some r => 0 <= r_start r /\ r_start r + alen (r_vals r) <= nb /\
              match r_qual r with None => True | Some q => alen q = alen (r_vals r) end
  end.

(** The position [p] lies in the [n] positions written from [bsp]; the new datum there. *)
Definition written (bsp n p : Z) : bool := (bsp <=? p) && (p <? bsp + n).
Definition new_at (a : list Z) (bsp p : Z) : Z := match aget a (p - bsp) with Ok v => v | Undef => 0 end.

(** ** Proofs *)
Lemma value_vat mval b p : value_at mval b p = vat mval b p.
Proof.
  unfold value_at, vat, getd. destruct b as [r|]; [|reflexivity].
  destruct ((r_start r <=? p) && (p <? r_start r + alen (r_vals r))) eqn:E; [reflexivity|].
  rewrite aget_out by lia. reflexivity.
Qed.
Lemma quality_qat b p : quality_at b p = qat b p.
Proof. destruct b as [[s v [q|]]|]; reflexivity. Qed.
Lemma takes_replaces miss flag o v : 0 <= flag <= 4 -> takes miss flag o v = replaces miss flag o v.
Proof.
  intros H. assert (C : flag = 0 \/ flag = 1 \/ flag = 2 \/ flag = 3 \/ flag = 4) by lia.
  destruct C as [->|[->|[->|[->| ->]]]]; reflexivity.
Qed.

Lemma combine_ok miss mval old vals qual n nb bsp flag :
  0 < n -> 0 <= bsp -> bsp + n <= nb -> arr_ok n vals qual -> 0 <= flag <= 4 ->
  let vr := read_vals mval old nb in
  let qr := match qual with Some _ => Some (read_qual old nb) | None => None end in
  exists v q,
    (if (flag =? 0) || (flag =? 2) || (flag =? 3) then
         let* v := copy_loop (Z.to_nat n) vals 0 vr bsp in
         let* q := match qr, qual with
                   | Some qq, Some nq => let* x := copy_loop (Z.to_nat n) nq 0 qq bsp in Ok (Some x)
                   | _, _ => Ok qr
                   end in Ok (v, q)
       else merge_loop (Z.to_nat n) miss flag vals qual 0 vr qr bsp) = Ok (v, q) /\
    alen v = nb /\
    (forall p, 0 <= p < nb -> getd 0 v p = if written bsp n p && takes miss flag (vat mval old p) (new_at vals bsp p)
                                           then new_at vals bsp p else vat mval old p) /\
    match q, qual with
    | None, None => True
    | Some q', Some nq => alen q' = nb /\
        forall p, 0 <= p < nb -> getd 0 q' p = if written bsp n p && takes miss flag (vat mval old p) (new_at vals bsp p)
                                           then new_at nq bsp p else qat old p
    | _, _ => False
    end.
Proof.
  intros Hn Hb Hnb [A1 A2] Hf vr qr.
  assert (Lv : alen vr = nb) by (apply read_vals_len; lia).
  assert (Gv : forall p, 0 <= p < nb -> getd 0 vr p = vat mval old p).
  { intros p Hp. unfold getd, vr. rewrite read_vals_ok by lia. reflexivity. }
  destruct ((flag =? 0) || (flag =? 2) || (flag =? 3)) eqn:Ef.
  - assert (T : forall o v, takes miss flag o v = true).
    { intros. unfold takes. replace (flag =? 1) with false by lia. replace (flag =? 4) with false by lia. reflexivity. }
    destruct (copy_loop_ok (Z.to_nat n) vals 0 vr bsp) as (v & Ev & L & G); try lia. rewrite Ev. cbn [bind].
    assert (GV : forall p, 0 <= p < nb -> getd 0 v p = if written bsp n p && takes miss flag (vat mval old p) (new_at vals bsp p)
                                           then new_at vals bsp p else vat mval old p).
    { intros p Hp. rewrite T, andb_true_r. unfold getd at 1, written. rewrite G. rewrite Z2Nat.id by lia.
      destruct ((bsp <=? p) && (p <? bsp + n)); [|apply Gv; lia]. unfold new_at. rewrite Z.add_0_l. reflexivity. }
    unfold qr. destruct qual as [nq|].
    + destruct (copy_loop_ok (Z.to_nat n) nq 0 (read_qual old nb) bsp) as (q & Eq & L2 & G2); try (rewrite ?read_qual_len; lia).
      rewrite Eq. cbn [bind]. exists v, (Some q). split; [reflexivity|]. split; [lia|]. split; [exact GV|].
      split; [rewrite L2; apply read_qual_len; lia|]. intros p Hp. rewrite T, andb_true_r. unfold getd at 1, written. rewrite G2.
      rewrite Z2Nat.id by lia. destruct ((bsp <=? p) && (p <? bsp + n)); [unfold new_at; rewrite Z.add_0_l; reflexivity|].
      rewrite read_qual_ok by lia. reflexivity.
    + cbn [bind]. exists v, None. split; [reflexivity|]. split; [lia|]. split; [exact GV|exact I].
  - destruct (merge_loop_ok miss flag vals qual ltac:(lia) (Z.to_nat n) 0 vr qr bsp) as (v & q & E & L & G & Q); try lia.
    { split; [lia|]. destruct qual; [lia|exact I]. }
    { unfold qr. destruct qual; [|exact I]. rewrite read_qual_len; lia. }
    { unfold qr. destruct qual; split; intros; try discriminate; reflexivity. }
    exists v, q. split; [exact E|]. split; [lia|].
    assert (N : forall a p, getd 0 a (0 + (p - bsp)) = new_at a bsp p) by reflexivity.
    split.
    + intros p Hp. rewrite G, N, Gv by lia. unfold written. rewrite Z2Nat.id by lia. reflexivity.
    + unfold qr in Q. destruct q as [q'|], qual as [nq|]; try contradiction; auto. destruct Q as [Q1 Q2].
      split; [rewrite Q1; apply read_qual_len; lia|].
      intros p Hp. rewrite Q2, !N, Gv by lia. unfold written. rewrite Z2Nat.id by lia.
      unfold getd at 1. rewrite read_qual_ok by lia. reflexivity.
Qed.

Definition expect_v miss mval old flag vals bsp n p :=
  if written bsp n p && takes miss flag (vat mval old p) (new_at vals bsp p) then new_at vals bsp p else vat mval old p.
Definition expect_q miss mval old flag vals nq bsp n p :=
  if written bsp n p && takes miss flag (vat mval old p) (new_at vals bsp p) then new_at nq bsp p else qat old p.

Lemma eqm_refl miss a : eqm miss a a.
Proof. left. reflexivity. Qed.

Definition hide (P : Prop) : Prop := P.
Ltac hd H := let T := type of H in change (hide T) in H.

Lemma store_gen miss mval old vals qual n nb bsp flag read empty :
  miss mval = true -> 0 < n -> 0 <= bsp -> bsp + n <= nb -> arr_ok n vals qual -> block_ok nb old -> 0 <= flag <= 4 ->
  (read = true \/ ((flag = 0 \/ flag = 2) /\ bsp = 0 /\ n = nb /\
     (old = None \/ empty = true \/ flag = 2 \/ exists j, 0 <= j < n /\ isvalid miss vals qual j = true))) ->
  exists o, store_block miss mval old vals qual n nb bsp flag read empty = Ok o /\
    (forall p, 0 <= p < nb -> eqm miss (vat mval (after old o) p) (expect_v miss mval old flag vals bsp n p)) /\
    match qual with
    | None => match o with Written r => r_qual r = None | _ => True end
    | Some nq => forall p, 0 <= p < nb -> qat (after old o) p = expect_q miss mval old flag vals nq bsp n p
    end.
Proof.
  intros Hm Hn Hb Hnb A Hold Hf Hread. unfold store_block.
  destruct (first_last_ok miss vals qual n A ltac:(lia)) as (a & f & l & E & D). rewrite E. cbn [bind]. hd D.
  set (found := read && match old with Some _ => true | None => false end).
  set (same := match old with Some r => _ | None => false end).
  set (rd := match qual with Some _ => true | None => if same then false else read end).
  assert (Hfnd : hide (found = read && match old with Some _ => true | None => false end)) by reflexivity.
  assert (Hsame : hide (same = true -> exists r, old = Some r /\ flag <> 1 /\ flag <> 4 /\
            (qual = None -> bsp + f = r_start r /\ bsp + l = r_end r))).
  { unfold hide, same. destruct old as [r|]; [|discriminate]. rewrite !andb_true_iff.
    intros (((((_ & F1) & F4) & _) & P) & _). exists r. split; [reflexivity|]. split; [clear -F1; lia|]. split; [clear -F4; lia|].
    intros ->. rewrite andb_true_iff in P. clear -P. lia. }
  assert (Hrd : hide (rd = match qual with Some _ => true | None => if same then false else read end)) by reflexivity.
  clearbody rd. clearbody same. clearbody found.
  destruct rd eqn:Erd.
  - (* the block is read and combined *)
    set (vr := read_vals mval old nb). set (qr := match qual with Some _ => Some (read_qual old nb) | None => None end).
    assert (GO : exists go, (if flag =? 1 then any_loop (Z.to_nat n) miss vr bsp
                else if flag =? 4 then any_loop (Z.to_nat n) (fun v => negb (miss v)) vals 0 else Ok true) = Ok go /\
              (go = false -> forall p, 0 <= p < nb -> written bsp n p && takes miss flag (vat mval old p) (new_at vals bsp p) = false)).
    { assert (Lv : alen vr = nb) by (apply read_vals_len; lia). destruct (flag =? 1) eqn:F1; [|destruct (flag =? 4) eqn:F4].
      - destruct (any_loop_ok miss vr nb ltac:(lia) (Z.to_nat n) bsp) as (b & Eb & B); try lia. exists b. split; [exact Eb|].
        intros Hgo p Hp. specialize (B Hgo p). unfold written, takes. rewrite F1.
        destruct ((bsp <=? p) && (p <? bsp + n)) eqn:W; [|reflexivity]. cbn [andb].
        rewrite <- B by lia. unfold getd, vr. rewrite read_vals_ok by lia. reflexivity.
      - destruct (any_loop_ok (fun v => negb (miss v)) vals n ltac:(apply A) (Z.to_nat n) 0) as (b & Eb & B); try lia.
        exists b. split; [exact Eb|]. intros Hgo p Hp. specialize (B Hgo (p - bsp)). unfold written, takes. rewrite F1, F4.
        destruct ((bsp <=? p) && (p <? bsp + n)) eqn:W; [|reflexivity]. cbn [andb]. cbn beta in B. apply B. lia.
      - exists true. split; [reflexivity|discriminate]. }
    destruct GO as (go & Ego & HGo). rewrite Ego. cbn [bind].
    destruct go; cbn [negb].
    + destruct (combine_ok miss mval old vals qual n nb bsp flag Hn Hb Hnb A Hf) as (v & q & EC & L & G & Q).
      fold vr in EC. fold qr in EC. rewrite EC. cbn [bind].
      assert (Av : arr_ok nb v q). { split; [lia|]. destruct q, qual; try contradiction; [lia|exact I]. }
      destruct (first_last_ok miss v q nb Av ltac:(lia)) as (a2 & f2 & l2 & E2 & D2). rewrite E2. cbn [bind].
      hd D2. destruct (finish_ok miss mval old found flag empty nb 0 nb v q a2 f2 l2) as (o & Eo & Go & Qo); auto; try lia.
      { intros Ha Hfo. destruct D2 as [(_ & _ & _ & D2)|(D2 & _)]; [|congruence].
        destruct Hread as [->|(Hf2 & -> & -> & Hc)].
        - unfold hide in Hfnd. rewrite Hfnd in Hfo. cbn [andb] in Hfo. destruct old; [discriminate|]. left. reflexivity.
        - destruct Hc as [->|[->|[->|(j & Hj & Vj)]]]; auto; try (right; split; [lia|]; auto; fail).
          exfalso. assert (Hjn : 0 <= j < nb) by exact Hj. specialize (D2 j Hj). unfold isvalid in D2, Vj.
          assert (W : written 0 nb j && takes miss flag (vat mval old j) (new_at vals 0 j) = true).
          { clear -Hj Hf2. unfold written, takes. replace ((0 <=? j) && (j <? 0 + nb)) with true by lia.
            replace (flag =? 1) with false by lia. replace (flag =? 4) with false by lia. reflexivity. }
          rewrite (G j Hjn) in D2. rewrite W in D2.
          assert (N : forall a, new_at a 0 j = getd 0 a j). { intros. unfold new_at, getd. rewrite Z.sub_0_r. reflexivity. }
          rewrite N in D2. destruct q as [q'|], qual as [nq|]; try contradiction; [|congruence].
          destruct Q as [_ Q]. rewrite (Q j Hjn) in D2. rewrite W, N in D2. congruence. }
      exists o. split; [exact Eo|]. split.
      * intros p Hp. specialize (Go p Hp). replace ((0 <=? p) && (p <? 0 + nb)) with true in Go by lia.
        rewrite Z.sub_0_r in Go. rewrite G in Go by lia. exact Go.
      * destruct q as [q'|], qual as [nq|]; try contradiction; [|exact Qo].
        intros p Hp. rewrite Qo by lia. destruct Q as [_ Q]. rewrite Q by lia. reflexivity.
    + exists Unchanged. split; [reflexivity|]. cbn [after]. specialize (HGo eq_refl). split.
      * intros p Hp. unfold expect_v. rewrite HGo by lia. apply eqm_refl.
      * destruct qual; [|exact I]. intros p Hp. unfold expect_q. rewrite HGo by lia. reflexivity.
  - (* the new data are stored as they are *)
    unfold hide in Hrd. clear Erd. destruct qual as [nq|]; [discriminate|].
    destruct (finish_ok miss mval old found flag empty nb bsp n vals None a f l) as (o & Eo & Go & Qo); auto; try lia; try (intros X; exfalso; apply X; reflexivity).
    { intros Ha Hfo. destruct Hread as [->|(Hf2 & -> & -> & Hc)].
      - unfold hide in Hfnd. rewrite Hfnd in Hfo. cbn [andb] in Hfo. destruct old; [discriminate|]. left. reflexivity.
      - destruct Hc as [->|[->|[->|(j & Hj & Vj)]]]; auto; try (right; split; [lia|]; auto; fail).
        destruct D as [(_ & _ & _ & D)|(D & _)]; [|congruence]. rewrite D in Vj by lia. discriminate. }
    exists o. split; [exact Eo|]. split; [|exact Qo].
    intros p Hp. specialize (Go p Hp). unfold expect_v, written.
    destruct same eqn:Es.
    + destruct (Hsame eq_refl) as (r & -> & F1 & F4 & P). destruct (P eq_refl) as [P1 P2].
      assert (T : takes miss flag (vat mval (Some r) p) (new_at vals bsp p) = true).
      { unfold takes. replace (flag =? 1) with false by lia. replace (flag =? 4) with false by lia. reflexivity. }
      rewrite T, andb_true_r. destruct ((bsp <=? p) && (p <? bsp + n)) eqn:C; [exact Go|].
      assert (vat mval (Some r) p = mval).
      { cbn [vat]. unfold getd. rewrite aget_out; [reflexivity|]. unfold r_end in P2.
        destruct D as [(_ & -> & -> & _)|(_ & ? & ? & _)]; lia. }
      congruence.
    + destruct Hread as [->|(Hf2 & -> & -> & _)]; [discriminate Hrd|].
      replace ((0 <=? p) && (p <? 0 + nb)) with true in Go by lia. replace ((0 <=? p) && (p <? 0 + nb)) with true by lia.
      replace (takes miss flag (vat mval old p) (new_at vals 0 p)) with true; [exact Go|].
      unfold takes. replace (flag =? 1) with false by lia. replace (flag =? 4) with false by lia. reflexivity.
Qed.

(** ** C32 *)

(** Storing [n] new values from position [bsp] of a block of [nb] positions, for each flag: at every position of the
    block the value read afterwards is the new one where the flag says so and the old one elsewhere; the quality
    given with the new data follows the value. *)
Theorem C32_store_flags :
  forall miss mval old vals qual n nb bsp flag empty,
  miss mval = true -> 0 < n -> 0 <= bsp -> bsp + n <= nb -> n <= alen vals ->
  (forall q, qual = Some q -> n <= alen q) -> block_ok nb old -> 0 <= flag <= 4 ->
  exists o, store_block miss mval old vals qual n nb bsp flag true empty = Ok o /\
    forall p, 0 <= p < nb ->
      let oldv := value_at mval old p in let newv := new_at vals bsp p in
      let rep := written bsp n p && replaces miss flag oldv newv in
      same_value miss (value_at mval (after old o) p) (if rep then newv else oldv) /\
      (forall q, qual = Some q ->
         quality_at (after old o) p = if rep then new_at q bsp p else quality_at old p) /\
      (qual = None -> (forall r, old = Some r -> r_qual r = None) -> quality_at (after old o) p = 0).
Proof.
  intros miss mval old vals qual n nb bsp flag empty Hm Hn Hb Hnb Hv Hq Hold Hf.
  assert (A : arr_ok n vals qual). { split; [lia|]. destruct qual; [apply Hq; reflexivity|exact I]. }
  destruct (store_gen miss mval old vals qual n nb bsp flag true empty Hm Hn Hb Hnb A Hold Hf) as (o & E & G & Q); [auto|].
  exists o. split; [exact E|]. intros p Hp. cbv zeta. rewrite !value_vat. rewrite <- takes_replaces by exact Hf.
  split; [exact (G p Hp)|]. split.
  - intros q ->. rewrite !quality_qat. exact (Q p Hp).
  - intros -> Ho. rewrite quality_qat. destruct o as [|r|]; cbn [after qat]; [|rewrite Q; reflexivity|reflexivity].
    destruct old as [r|]; [|reflexivity]. cbn [qat]. rewrite (Ho r eq_refl). reflexivity.
Qed.

(** The same when the caller's time window covers the whole block, in which case the library does not look for the
    old record (ztsStoreReg7.c:273-276); some value must not be missing (see C32_refuted_spanning_missing). *)
Theorem C32_store_spanning :
  forall miss mval old vals qual nb flag empty,
  miss mval = true -> 0 < nb -> nb <= alen vals ->
  (forall q, qual = Some q -> nb <= alen q) -> block_ok nb old -> flag = 0 \/ flag = 2 ->
  (exists j v, 0 <= j < nb /\ aget vals j = Ok v /\ miss v = false) \/ flag = 2 \/ empty = true \/ old = None ->
  exists o, store_block miss mval old vals qual nb nb 0 flag false empty = Ok o /\
    forall p, 0 <= p < nb ->
      same_value miss (value_at mval (after old o) p) (new_at vals 0 p) /\
      (forall q, qual = Some q -> quality_at (after old o) p = new_at q 0 p).
Proof.
  intros miss mval old vals qual nb flag empty Hm Hn Hv Hq Hold Hf Hc.
  assert (A : arr_ok nb vals qual). { split; [lia|]. destruct qual; [apply Hq; reflexivity|exact I]. }
  assert (Hf4 : 0 <= flag <= 4) by lia.
  destruct (store_gen miss mval old vals qual nb nb 0 flag false empty Hm Hn ltac:(lia) ltac:(lia) A Hold Hf4) as (o & E & G & Q).
  { right. split; [exact Hf|]. split; [reflexivity|]. split; [reflexivity|].
    destruct Hc as [(j & v & Hj & Ev & Mv)|[?|[?|?]]]; auto.
    right. right. right. exists j. split; [lia|]. unfold isvalid, getd. rewrite Ev, Mv. reflexivity. }
  exists o. split; [exact E|]. intros p Hp.
  assert (W : forall x y, written 0 nb p && takes miss flag x y = true).
  { intros. unfold written, takes. replace ((0 <=? p) && (p <? 0 + nb)) with true by lia.
    replace (flag =? 1) with false by lia. replace (flag =? 4) with false by lia. reflexivity. }
  rewrite value_vat. split.
  - specialize (G p Hp). unfold expect_v in G. rewrite W in G. exact G.
  - intros q ->. rewrite quality_qat. rewrite (Q p Hp). unfold expect_q. rewrite W. reflexivity.
Qed.

Lemma finish_flag2 found empty nb bsp vals qual a f l o :
  finish found 2 empty nb bsp vals qual a f l = Ok o -> exists r, o = Written r.
Proof.
  unfold finish. change (2 =? 3) with false. change (2 =? 2) with true. rewrite orb_true_r. cbn [negb].
  rewrite andb_true_r. destruct a; cbn [negb]; (destruct qual as [q|]; intros H;
    [apply bind_ok in H; destruct H as (v & _ & H); apply bind_ok in H; destruct H as (w & _ & H)
    |apply bind_ok in H; destruct H as (v & _ & H)]; inversion H; eauto).
Qed.

(** Flag 2 always leaves a record, even if every value is missing. *)
Theorem C32_flag2_always_writes :
  forall miss mval old vals qual n nb bsp read empty o,
  store_block miss mval old vals qual n nb bsp 2 read empty = Ok o -> exists r, o = Written r.
Proof.
  intros miss mval old vals qual n nb bsp read empty o. unfold store_block. intros H.
  apply bind_ok in H. destruct H as ([[a f] l] & _ & H).
  match type of H with (if ?c then _ else _) = _ => destruct c end; [|eapply finish_flag2; exact H].
  change (2 =? 1) with false in H. change (2 =? 4) with false in H. cbn [bind negb] in H. cbv iota in H.
  apply bind_ok in H. destruct H as ([v q] & _ & H). apply bind_ok in H. destruct H as ([[a2 f2] l2] & _ & H).
  eapply finish_flag2. exact H.
Qed.

(** Flag 3 leaves no record when nothing but missing values (and no quality) would be in it. *)
Theorem C32_flag3_removes_all_missing :
  forall miss mval old vals n nb bsp empty,
  miss mval = true -> 0 < n -> 0 <= bsp -> bsp + n <= nb -> n <= alen vals -> block_ok nb old ->
  (forall p, 0 <= p < nb -> miss (if written bsp n p then new_at vals bsp p else value_at mval old p) = true) ->
  exists o, store_block miss mval old vals None n nb bsp 3 true empty = Ok o /\ after old o = None.
Proof.
  intros miss mval old vals n nb bsp empty Hm Hn Hb Hnb Hv Hold Hall.
  assert (A : arr_ok n vals None) by (split; [lia|exact I]).
  unfold store_block. destruct (first_last_ok miss vals None n A ltac:(lia)) as (a & f & l & E & D). rewrite E. cbn [bind].
  assert (Fin : forall nb b v f l, finish (true && match old with Some _ => true | None => false end) 3 empty nb b v None true f l
           = Ok (if match old with Some _ => true | None => false end then Deleted else Unchanged)).
  { intros. unfold finish. change (3 =? 3) with true. cbn [negb andb]. destruct old; reflexivity. }
  assert (Aft : after old (if match old with Some _ => true | None => false end then Deleted else Unchanged) = None).
  { destruct old; reflexivity. }
  assert (Es : forall x, x && ((3 =? 0) || (3 =? 2)) = false) by (intros x; destruct x; reflexivity).
  match goal with |- context [if ?c then _ else _] => replace c with true end.
  2:{ symmetry. destruct old as [r|]; [|reflexivity]. rewrite Es. reflexivity. }
  change (3 =? 1) with false. change (3 =? 4) with false. cbn [bind negb]. cbv iota.
  destruct (combine_ok miss mval old vals None n nb bsp 3 Hn Hb Hnb A ltac:(lia)) as (v & q & EC & L & G & Q).
  destruct q; [contradiction|]. cbv beta iota zeta in EC. change ((3 =? 0) || (3 =? 2) || (3 =? 3)) with true in *. cbv iota in *.
  cbn [bind] in EC. rewrite EC. cbn [bind].
  destruct (first_last_ok miss v None nb ltac:(split; [lia|exact I]) ltac:(lia)) as (a2 & f2 & l2 & E2 & D2). rewrite E2. cbn [bind].
  assert (a2 = true).
  { destruct D2 as [(-> & _)|(_ & D3 & D4 & D5 & _)]; [reflexivity|]. exfalso.
    unfold isvalid in D5. rewrite G in D5 by lia. specialize (Hall f2 ltac:(lia)). rewrite value_vat in Hall.
    replace (takes miss 3 (vat mval old f2) (new_at vals bsp f2)) with true in D5 by reflexivity.
    rewrite andb_true_r in D5. rewrite Hall in D5. discriminate. }
  subst a2. rewrite Fin. eexists. split; [reflexivity|exact Aft].
Qed.

(** ** What the code gets wrong *)

Definition ex_miss (v : Z) : bool := v =? -901.
Definition ex_old : option rblk := Some (mk_rblk 1 [10; 20; -901; 40] None).
Definition ex_oldq : option rblk := Some (mk_rblk 0 [10; 20; 30; 40] (Some [1; 2; 3; 4])).

(** A window that covers the whole block with missing values (flag 0, "always replace"): the old values survive,
    because the old record is not looked for and so is not deleted. *)
Theorem C32_refuted_spanning_missing :
  store_block ex_miss (-901) ex_old [-901; -901; -901; -901; -901; -901] None 6 6 0 0 false false = Ok Unchanged /\
  value_at (-901) (after ex_old Unchanged) 2 = 20 /\
  (* storing the same values when the window ends inside the block removes them *)
  store_block ex_miss (-901) ex_old [-901; -901; -901; -901; -901; -901] None 6 6 0 0 true false = Ok Deleted.
Proof. repeat split. Qed.

(** Storing one value without quality into a block that has quality removes the quality of every other value. *)
Theorem C32_refuted_quality_dropped :
  exists o, store_block ex_miss (-901) ex_oldq [99] None 1 4 1 0 true false = Ok o /\
    value_at (-901) (after ex_oldq o) 3 = 40 /\ quality_at ex_oldq 3 = 4 /\ quality_at (after ex_oldq o) 3 = 0.
Proof. eexists. vm_compute. repeat split. Qed.

(** Examples: the hypotheses are met and each flag acts differently. *)
Example C32_example_flags :
  (forall flag, In flag [0;1;2;3;4] ->
     exists o, store_block ex_miss (-901) ex_old [-901; 7; 8] None 3 6 2 flag true false = Ok o /\
       map (value_at (-901) (after ex_old o)) [0;1;2;3;4;5] =
         match flag with
         | 1 => [-901; 10; 20; 7; 40; -901]
         | 4 => [-901; 10; 20; 7; 8; -901]
         | _ => [-901; 10; -901; 7; 8; -901]
         end) /\ block_ok 6 ex_old /\ ex_miss (-901) = true.
Proof.
  split; [|vm_compute; repeat split; discriminate].
  intros flag H. repeat (destruct H as [<-|H]; [eexists; vm_compute; split; reflexivity|]). destruct H.
Qed.
Example C32_example_quality :
  exists o, store_block ex_miss (-901) ex_oldq [7; 8] (Some [70; 80]) 2 4 1 0 true false = Ok o /\
    map (quality_at (after ex_oldq o)) [0;1;2;3] = [1; 70; 80; 4] /\ block_ok 4 ex_oldq.
Proof. eexists. vm_compute. repeat split; discriminate. Qed.
Example C32_example_flag3 :
  store_block ex_miss (-901) ex_old [-901; -901; -901; -901] None 4 6 1 3 true false = Ok Deleted.
Proof. reflexivity. Qed.

Print Assumptions C32_store_flags.
Print Assumptions C32_store_spanning.
Print Assumptions C32_flag2_always_writes.
Print Assumptions C32_flag3_removes_all_missing.
Print Assumptions C32_refuted_spanning_missing.
Print Assumptions C32_refuted_quality_dropped.
