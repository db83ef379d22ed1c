(** * Lemmas for RegStoreModel. *)
From Coq Require Import ZArith List Lia Bool ZifyBool.
From Verif Require Import Base ArrayLib RegStoreModel.
Import ListNotations.
Open Scope Z_scope.

Definition getd {A} (d : A) (l : list A) (i : Z) : A := match aget l i with Ok v => v | Undef => d end.

Lemma aget_getd {A} (d : A) l i : 0 <= i < alen l -> aget l i = Ok (getd d l i).
Proof. intros H. destruct (aget_some l i H) as (v & E). unfold getd. rewrite E. reflexivity. Qed.

Lemma aget_map_seq {A} (f : nat -> A) n i : 0 <= i < Z.of_nat n -> aget (map f (seq 0 n)) i = Ok (f (Z.to_nat i)).
Proof.
  intros H. unfold aget. replace (i <? 0) with false by lia.
  rewrite nth_error_map.
  replace (nth_error (seq 0 n) (Z.to_nat i)) with (Some (Z.to_nat i)); [reflexivity|].
  symmetry. rewrite nth_error_nth' with (d := O) by (rewrite seq_length; lia).
  rewrite seq_nth by lia. reflexivity.
Qed.

Lemma alen_map_seq {A} (f : nat -> A) n : alen (map f (seq 0 n)) = Z.of_nat n.
Proof. unfold alen. rewrite map_length, seq_length. reflexivity. Qed.

Definition isvalid (miss : Z -> bool) (vals : list Z) (qual : option (list Z)) (i : Z) : bool :=
  negb (miss (getd 0 vals i)) || match qual with None => false | Some q => negb (getd 0 q i =? 0) end.

Definition arr_ok (n : Z) (vals : list Z) (qual : option (list Z)) : Prop :=
  n <= alen vals /\ match qual with None => True | Some q => n <= alen q end.

Lemma valid_at_ok miss vals qual n i : arr_ok n vals qual -> 0 <= i < n -> valid_at miss vals qual i = Ok (isvalid miss vals qual i).
Proof.
  intros [H1 H2] Hi. unfold valid_at, isvalid. rewrite (aget_getd 0) by lia. cbn [bind].
  destruct (miss (getd 0 vals i)); cbn [negb orb]; [|reflexivity].
  destruct qual as [q|]; [|reflexivity]. rewrite (aget_getd 0) by lia. reflexivity.
Qed.

Lemma first_loop_ok miss vals qual n : arr_ok n vals qual -> forall cnt i, 0 <= i -> i + Z.of_nat cnt <= n ->
  exists f, first_loop cnt miss vals qual i = Ok f /\
    ((f = -1 /\ forall j, i <= j < i + Z.of_nat cnt -> isvalid miss vals qual j = false) \/
     (i <= f < i + Z.of_nat cnt /\ isvalid miss vals qual f = true /\ forall j, i <= j < f -> isvalid miss vals qual j = false)).
Proof.
  intros A. induction cnt as [|cnt IH]; intros i H0 H1; cbn [first_loop].
  - exists (-1). split; [reflexivity|]. left. split; [reflexivity|]. lia.
  - rewrite (valid_at_ok miss vals qual n) by (auto; lia). cbn [bind].
    destruct (isvalid miss vals qual i) eqn:E.
    + exists i. split; [reflexivity|]. right. split; [lia|]. split; [exact E|]. lia.
    + destruct (IH (i + 1)) as (f & Ef & [[F G]|(F & G & K)]); try lia; exists f; (split; [exact Ef|]).
      * left. split; [exact F|]. intros j Hj. destruct (Z.eq_dec j i); [subst; exact E|]. apply G. lia.
      * right. split; [lia|]. split; [exact G|]. intros j Hj. destruct (Z.eq_dec j i); [subst; exact E|]. apply K. lia.
Qed.

Lemma last_loop_ok miss vals qual n : arr_ok n vals qual -> forall cnt i, i < n -> Z.of_nat cnt <= i + 1 ->
  exists f, last_loop cnt miss vals qual i = Ok f /\
    ((f = -1 /\ forall j, i - Z.of_nat cnt < j <= i -> isvalid miss vals qual j = false) \/
     (i - Z.of_nat cnt < f <= i /\ isvalid miss vals qual f = true /\ forall j, f < j <= i -> isvalid miss vals qual j = false)).
Proof.
  intros A. induction cnt as [|cnt IH]; intros i H0 H1; cbn [last_loop].
  - exists (-1). split; [reflexivity|]. left. split; [reflexivity|]. lia.
  - rewrite (valid_at_ok miss vals qual n) by (auto; lia). cbn [bind].
    destruct (isvalid miss vals qual i) eqn:E.
    + exists i. split; [reflexivity|]. right. split; [lia|]. split; [exact E|]. lia.
    + destruct (IH (i - 1)) as (f & Ef & [[F G]|(F & G & K)]); try lia; exists f; (split; [exact Ef|]).
      * left. split; [exact F|]. intros j Hj. destruct (Z.eq_dec j i); [subst; exact E|]. apply G. lia.
      * right. split; [lia|]. split; [exact G|]. intros j Hj. destruct (Z.eq_dec j i); [subst; exact E|]. apply K. lia.
Qed.

Lemma first_last_ok miss vals qual n : arr_ok n vals qual -> 0 <= n ->
  exists a f l, first_last miss vals qual n = Ok (a, f, l) /\
    ((a = true /\ f = 0 /\ l = 0 /\ forall j, 0 <= j < n -> isvalid miss vals qual j = false) \/
     (a = false /\ 0 <= f <= l /\ l < n /\ isvalid miss vals qual f = true /\
      forall j, 0 <= j < n -> ~ (f <= j <= l) -> isvalid miss vals qual j = false)).
Proof.
  intros A Hn. unfold first_last.
  destruct (first_loop_ok miss vals qual n A (Z.to_nat n) 0) as (f & Ef & [[F G]|(F & G & K)]); try lia; rewrite Ef; cbn [bind].
  - subst f. exists true, 0, 0. split; [reflexivity|]. left. repeat split. intros j Hj. apply G. lia.
  - replace (f =? -1) with false by lia.
    destruct (last_loop_ok miss vals qual n A (Z.to_nat n) (n - 1)) as (l & El & [[L M]|(L & M & N)]); try lia; rewrite El; cbn [bind].
    + rewrite M in G by lia. discriminate.
    + exists false, f, l. split; [reflexivity|]. right. split; [reflexivity|].
      assert (f <= l). { destruct (Z_lt_le_dec l f) as [D|D]; [|exact D]. rewrite K in M by lia. discriminate. }
      split; [lia|]. split; [lia|]. split; [exact G|]. intros j Hj Hn2.
      destruct (Z_lt_le_dec j f); [apply K; lia|]. apply N. lia.
Qed.

Lemma any_loop_ok p a n : n <= alen a -> forall cnt i, 0 <= i -> i + Z.of_nat cnt <= n ->
  exists b, any_loop cnt p a i = Ok b /\ (b = false -> forall j, i <= j < i + Z.of_nat cnt -> p (getd 0 a j) = false).
Proof.
  intros A. induction cnt as [|cnt IH]; intros i H0 H1; cbn [any_loop].
  - exists false. split; [reflexivity|]. lia.
  - rewrite (aget_getd 0) by lia. cbn [bind]. destruct (p (getd 0 a i)) eqn:E.
    + exists true. split; [reflexivity|]. discriminate.
    + destruct (IH (i + 1)) as (b & Eb & B); try lia. exists b. split; [exact Eb|].
      intros F j Hj. destruct (Z.eq_dec j i); [subst; exact E|]. apply B; [exact F|lia].
Qed.

(** Is the new value taken at a position inside the stored window. *)
Definition takes (miss : Z -> bool) (flag o v : Z) : bool :=
  if flag =? 1 then miss o else if flag =? 4 then negb (miss v) else true.

Lemma merge_loop_ok miss flag vals qual : (flag = 1 \/ flag = 4) -> forall cnt i vr qr ipos,
  0 <= i -> arr_ok (i + Z.of_nat cnt) vals qual -> 0 <= ipos -> ipos + Z.of_nat cnt <= alen vr ->
  match qr with None => True | Some q => alen q = alen vr end ->
  (qr = None <-> qual = None) ->
  exists vr' qr', merge_loop cnt miss flag vals qual i vr qr ipos = Ok (vr', qr') /\ alen vr' = alen vr /\
    (forall j, getd 0 vr' j = if (ipos <=? j) && (j <? ipos + Z.of_nat cnt) && takes miss flag (getd 0 vr j) (getd 0 vals (i + (j - ipos)))
                              then getd 0 vals (i + (j - ipos)) else getd 0 vr j) /\
    match qr', qr, qual with
    | None, None, None => True
    | Some q', Some q, Some nq => alen q' = alen q /\
       forall j, getd 0 q' j = if (ipos <=? j) && (j <? ipos + Z.of_nat cnt) && takes miss flag (getd 0 vr j) (getd 0 vals (i + (j - ipos)))
                              then getd 0 nq (i + (j - ipos)) else getd 0 q j
    | _, _, _ => False
    end.
Proof.
  intros Hf. induction cnt as [|cnt IH]; intros i vr qr ipos H0 A H1 H2 H3 H4.
  - exists vr, qr. split; [reflexivity|]. split; [reflexivity|].
    assert (N : forall j, (ipos <=? j) && (j <? ipos + Z.of_nat 0) = false) by (intros; lia).
    split; [intros j; rewrite N; reflexivity|].
    destruct qr as [q|], qual as [nq|]; auto.
    + split; [reflexivity|]. intros j. rewrite N. reflexivity.
    + destruct H4 as [_ H4]. specialize (H4 eq_refl). discriminate.
    + destruct H4 as [H4 _]. specialize (H4 eq_refl). discriminate.
  - cbn [merge_loop]. destruct A as [A1 A2]. rewrite !(aget_getd 0) by lia. cbn [bind].
    set (o := getd 0 vr ipos). set (v := getd 0 vals i).
    assert (R : (if flag =? 1 then miss o else if flag =? 4 then negb (miss v) else false) = takes miss flag o v).
    { unfold takes. destruct Hf; subst flag; reflexivity. }
    rewrite R. clear R.
    assert (S1 : exists vr1, (if takes miss flag o v then aset vr ipos v else Ok vr) = Ok vr1 /\ alen vr1 = alen vr /\
               forall j, getd 0 vr1 j = if (j =? ipos) && takes miss flag o v then v else getd 0 vr j).
    { destruct (takes miss flag o v).
      - destruct (aset_ok vr ipos v) as (w & W1 & W2 & W3); [lia|]. exists w. split; [exact W1|]. split; [exact W2|].
        intros j. unfold getd. rewrite W3. destruct (j =? ipos); reflexivity.
      - exists vr. split; [reflexivity|]. split; [reflexivity|]. intros j. rewrite andb_false_r. reflexivity. }
    destruct S1 as (vr1 & E1 & L1 & G1). rewrite E1. cbn [bind].
    assert (S2 : exists qr1, match qr, qual with
                  | Some q, Some nq =>
                      if takes miss flag o v then let* x := aget nq i in let* q' := aset q ipos x in Ok (Some q') else Ok (Some q)
                  | _, _ => Ok qr end = Ok qr1 /\
                match qr1, qr, qual with
                | None, None, None => True
                | Some q', Some q, Some nq => alen q' = alen q /\
                    forall j, getd 0 q' j = if (j =? ipos) && takes miss flag o v then getd 0 nq i else getd 0 q j
                | _, _, _ => False end).
    { destruct qr as [q|], qual as [nq|].
      - destruct (takes miss flag o v).
        + rewrite (aget_getd 0) by lia. cbn [bind].
          destruct (aset_ok q ipos (getd 0 nq i)) as (w & W1 & W2 & W3); [lia|]. rewrite W1. cbn [bind].
          exists (Some w). split; [reflexivity|]. split; [exact W2|]. intros j. unfold getd at 1. rewrite W3.
          destruct (j =? ipos); reflexivity.
        + exists (Some q). split; [reflexivity|]. split; [reflexivity|]. intros j. rewrite andb_false_r. reflexivity.
      - destruct H4 as [_ H4]. specialize (H4 eq_refl). discriminate.
      - destruct H4 as [H4 _]. specialize (H4 eq_refl). discriminate.
      - exists None. split; [reflexivity|exact I]. }
    destruct S2 as (qr1 & E2 & G2). rewrite E2. cbn [bind].
    destruct (IH (i + 1) vr1 qr1 (ipos + 1)) as (vr' & qr' & E3 & L3 & G3 & Q3); try lia.
    { split; [lia|]. destruct qual; [lia|exact I]. }
    { destruct qr1, qr, qual; try contradiction; auto; try lia. }
    { destruct qr1, qr, qual; try contradiction; split; intros; try discriminate; auto. }
    exists vr', qr'. split; [exact E3|]. split; [lia|].
    assert (K : forall j, (ipos + 1 <=? j) && (j <? ipos + 1 + Z.of_nat cnt) = true ->
                getd 0 vr1 j = getd 0 vr j /\ i + 1 + (j - (ipos + 1)) = i + (j - ipos)).
    { intros j Hj. rewrite G1. replace (j =? ipos) with false by lia. cbn [andb]. split; [reflexivity|lia]. }
    split.
    + intros j. rewrite G3. destruct ((ipos + 1 <=? j) && (j <? ipos + 1 + Z.of_nat cnt)) eqn:C.
      * destruct (K j C) as [K1 K2]. rewrite K1, K2.
        replace ((ipos <=? j) && (j <? ipos + Z.of_nat (S cnt))) with true by lia. reflexivity.
      * rewrite G1. destruct (j =? ipos) eqn:Ej; cbn [andb].
        { assert (j = ipos) by lia. subst j. replace (ipos <=? ipos) with true by lia.
          replace (ipos <? ipos + Z.of_nat (S cnt)) with true by lia.
          replace (i + (ipos - ipos)) with i by lia. cbn [andb]. reflexivity. }
        { replace ((ipos <=? j) && (j <? ipos + Z.of_nat (S cnt))) with false by lia. reflexivity. }
    + destruct qr' as [q'|], qr1 as [q1|], qr as [q|], qual as [nq|]; try contradiction; auto.
      destruct Q3 as [Q3 Q4], G2 as [G2 G4]. split; [lia|]. intros j. rewrite Q4.
      destruct ((ipos + 1 <=? j) && (j <? ipos + 1 + Z.of_nat cnt)) eqn:C.
      * destruct (K j C) as [K1 K2]. rewrite K1, K2.
        replace ((ipos <=? j) && (j <? ipos + Z.of_nat (S cnt))) with true by lia. cbn [andb]. rewrite G4.
        replace (j =? ipos) with false by lia. reflexivity.
      * rewrite G4. cbn [andb]. destruct (j =? ipos) eqn:Ej; cbn [andb].
        { assert (j = ipos) by lia. subst j. replace (ipos <=? ipos) with true by lia.
          replace (ipos <? ipos + Z.of_nat (S cnt)) with true by lia.
          replace (i + (ipos - ipos)) with i by lia. cbn [andb]. reflexivity. }
        { replace ((ipos <=? j) && (j <? ipos + Z.of_nat (S cnt))) with false by lia. reflexivity. }
Qed.

Definition vat (mval : Z) (b : option rblk) (p : Z) : Z :=
  match b with None => mval | Some r => getd mval (r_vals r) (p - r_start r) end.
Definition qat (b : option rblk) (p : Z) : Z :=
  match b with None => 0 | Some r => match r_qual r with None => 0 | Some q => getd 0 q (p - r_start r) end end.

Lemma read_vals_ok mval old nb p : 0 <= p < nb -> aget (read_vals mval old nb) p = Ok (vat mval old p).
Proof.
  intros H. unfold read_vals. rewrite aget_map_seq by lia. rewrite Z2Nat.id by lia.
  unfold vat, getd. destruct old; reflexivity.
Qed.
Lemma read_qual_ok old nb p : 0 <= p < nb -> aget (read_qual old nb) p = Ok (qat old p).
Proof.
  intros H. unfold read_qual. rewrite aget_map_seq by lia. rewrite Z2Nat.id by lia.
  unfold qat, getd. destruct old as [r|]; [destruct (r_qual r)|]; reflexivity.
Qed.
Lemma read_vals_len mval old nb : 0 <= nb -> alen (read_vals mval old nb) = nb.
Proof. intros. unfold read_vals. rewrite alen_map_seq. lia. Qed.
Lemma read_qual_len old nb : 0 <= nb -> alen (read_qual old nb) = nb.
Proof. intros. unfold read_qual. rewrite alen_map_seq. lia. Qed.

Definition eqm (miss : Z -> bool) (a b : Z) : Prop := a = b \/ (miss a = true /\ miss b = true).

Lemma read_loop_get n (src : list Z) si : 0 <= si -> si + Z.of_nat n <= alen src ->
  exists d, read_loop n src si = Ok d /\ alen d = Z.of_nat n /\
    forall m j, 0 <= j < Z.of_nat n -> getd m d j = getd 0 src (si + j).
Proof.
  intros H1 H2. destruct (read_loop_ok n src si H1 H2) as (d & E & L & G).
  exists d. split; [exact E|]. split; [unfold alen; lia|].
  intros m j Hj. unfold getd. rewrite G by lia. rewrite (aget_getd 0) by lia. reflexivity.
Qed.

(** [finish] stores the array it is given (the window [bsp, bsp+n) of the block), up to missing ends. *)
Lemma finish_ok miss mval old found flag empty nb bsp n vals qual a f l :
  miss mval = true -> 0 < n -> 0 <= bsp -> bsp + n <= nb -> arr_ok n vals qual ->
  (qual <> None -> bsp = 0 /\ n = nb) -> 0 <= flag <= 4 ->
  first_last miss vals qual n = Ok (a, f, l) ->
  (a = true -> found = false -> old = None \/ (flag <> 3 /\ (empty = true \/ flag = 2))) ->
  exists o, finish found flag empty nb bsp vals qual a f l = Ok o /\
    (forall p, 0 <= p < nb ->
       eqm miss (vat mval (after old o) p) (if (bsp <=? p) && (p <? bsp + n) then getd 0 vals (p - bsp) else mval)) /\
    match qual with
    | None => match o with Written r => r_qual r = None | _ => True end
    | Some q => forall p, 0 <= p < nb -> qat (after old o) p = getd 0 q p
    end.
Proof.
  intros Hm Hn Hb Hnb A Hq Hf E Hold.
  destruct (first_last_ok miss vals qual n A ltac:(lia)) as (a' & f' & l' & E' & D).
  rewrite E in E'. inversion E'; subst a' f' l'. clear E'.
  assert (A0 := A). destruct A0 as [A1 A2]. unfold finish.
  set (a2 := if a && negb (flag =? 3) then if empty || (flag =? 2) then false else true else a).
  assert (Inv : forall j, isvalid miss vals qual j = false -> miss (getd 0 vals j) = true /\
            match qual with None => True | Some q => getd 0 q j = 0 end).
  { intros j. unfold isvalid. destruct (miss (getd 0 vals j)); cbn [negb orb]; [|discriminate].
    destruct qual as [q|]; intros; split; auto. lia. }
  destruct (negb a2) eqn:Ea2.
  - destruct qual as [q|].
    + destruct (Hq ltac:(discriminate)) as [-> ->].
      destruct (read_loop_get (Z.to_nat nb) vals 0) as (v & Ev & Lv & Gv); try lia. rewrite Ev. cbn [bind].
      destruct (read_loop_get (Z.to_nat nb) q 0) as (q' & Eq & Lq & Gq); try lia. rewrite Eq. cbn [bind].
      eexists. split; [reflexivity|]. cbn [after vat qat r_vals r_start r_qual]. split.
      * intros p Hp. left. rewrite Gv by lia. replace ((0 <=? p) && (p <? 0 + nb)) with true by lia.
        f_equal; lia.
      * intros p Hp. rewrite Gq by lia. f_equal; lia.
    + destruct (read_loop_get (Z.to_nat (l - f + 1)) vals f) as (v & Ev & Lv & Gv).
      { destruct D as [(-> & -> & -> & _)|(-> & ? & _)]; lia. }
      { destruct D as [(-> & -> & -> & _)|(-> & ? & ? & _)]; lia. }
      rewrite Ev. cbn [bind]. eexists. split; [reflexivity|]. cbn [after vat qat r_vals r_start r_qual]. split.
      * intros p Hp.
        assert (Hfl : 0 <= f <= l /\ l < n). { destruct D as [(-> & -> & -> & _)|(-> & ? & ? & _)]; lia. }
        destruct (Z_le_dec f (p - bsp)) as [L1|L1], (Z_le_dec (p - bsp) l) as [L2|L2].
        { left. rewrite Gv by lia. replace ((bsp <=? p) && (p <? bsp + n)) with true by lia. f_equal; lia. }
        all: right; (split; [unfold getd; rewrite aget_out by lia; exact Hm|]).
        all: destruct ((bsp <=? p) && (p <? bsp + n)) eqn:C; [|exact Hm].
        all: apply Inv; destruct D as [(-> & -> & -> & D)|(-> & ? & ? & _ & D)]; apply D; lia.
      * reflexivity.
  - assert (Ha : a = true). { unfold a2 in Ea2. destruct a; [reflexivity|]. cbn in Ea2. discriminate. }
    destruct D as [(_ & -> & -> & D)|(D & _)]; [|congruence].
    assert (Hfound : found = false -> old = None).
    { intros Hfo. destruct (Hold Ha Hfo) as [|[F1 F2]]; auto.
      unfold a2 in Ea2. rewrite Ha in Ea2. replace (flag =? 3) with false in Ea2 by lia. cbn [andb negb] in Ea2.
      replace (empty || (flag =? 2)) with true in Ea2; [discriminate|].
      destruct F2 as [->| ->]; [reflexivity|]. symmetry. apply orb_true_r. }
    exists (if found then Deleted else Unchanged). split; [destruct found; reflexivity|].
    assert (Haf : after old (if found then Deleted else Unchanged) = None) by (destruct found; cbn [after]; auto).
    rewrite Haf. cbn [vat qat]. split.
    + intros p Hp. right. split; [exact Hm|]. destruct ((bsp <=? p) && (p <? bsp + n)) eqn:C; [|exact Hm].
      apply Inv. apply D. lia.
    + destruct qual as [q|]; [|destruct found; exact I]. intros p Hp. destruct (Hq ltac:(discriminate)) as [-> ->].
      destruct (Inv p) as [_ I2]; [apply D; lia|]. symmetry. exact I2.
Qed.
