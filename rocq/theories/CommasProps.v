(** * C64: a number printed with commas. *)
From Coq Require Import ZArith List Bool Lia ZifyBool.
From Verif Require Import Base CStr CStrProofs CommasModel.
Import ListNotations.
Open Scope Z_scope.
Open Scope res_scope.

(** ** Specification *)
(** the text without its commas is a run of digits with value [v], without a leading zero unless it is 0 alone *)
Definition reads_as (body : list Z) (v : Z) : Prop :=
  let ds := filter (fun c => negb (c =? 44)) body in
  Forall (fun c => 48 <= c <= 57) ds /\ digits_val 0 ds = v /\ (hd 0 ds = 48 -> ds = [48]) /\ ds <> [].
(** counted from the right, starting with 0: the characters 3, 7, 11, ... are commas and no others; the text does not begin
    with one *)
Definition grouped (body : list Z) : Prop :=
  (forall i, (i < length body)%nat -> nth i (rev body) 0 = 44 <-> (i mod 4 = 3)%nat) /\ hd 0 body <> 44.
Definition sign_of (n : Z) : list Z := if n <? 0 then [45] else [].

(** ** lemmas *)
Fixpoint gr (rs : list Z) (ipos : Z) : list Z :=
  match rs with
  | [] => []
  | c :: rest => if (ipos + 1 =? 3) && negb (match rest with [] => true | _ => false end) then c :: 44 :: gr rest 0 else c :: gr rest (ipos + 1)
  end.

Lemma lwc_loop_gr rs : forall ipos count cap, count + slen (gr rs ipos) < cap -> lwc_loop rs ipos count cap = Some (gr rs ipos).
Proof.
  induction rs as [|c rest IH]; intros ipos count cap H; cbn [lwc_loop gr] in *; [reflexivity|].
  destruct ((ipos + 1 =? 3) && _) eqn:E.
  - rewrite !slen_cons in H. pose proof (slen_nonneg (gr rest 0)).
    destruct (count + 1 =? cap) eqn:A; [lia|]. destruct (count + 2 =? cap) eqn:B; [lia|]. rewrite IH by lia. reflexivity.
  - rewrite slen_cons in H. pose proof (slen_nonneg (gr rest (ipos + 1))).
    destruct (count + 1 =? cap) eqn:A; [lia|]. rewrite IH by lia. reflexivity.
Qed.

Lemma gr_filter rs : Forall (fun c => 48 <= c <= 57) rs -> forall ipos, filter (fun c => negb (c =? 44)) (gr rs ipos) = rs.
Proof.
  induction 1 as [|c rest Hc H IH]; intros ipos; cbn [gr]; [reflexivity|].
  assert (N : negb (c =? 44) = true) by lia.
  destruct ((ipos + 1 =? 3) && _); cbn [filter]; rewrite N; [change (negb (44 =? 44)) with false; cbn iota|]; now rewrite IH.
Qed.

Lemma gr_pos rs : Forall (fun c => 48 <= c <= 57) rs -> forall k, (k < 3)%nat -> forall i, (i < length (gr rs (Z.of_nat k)))%nat ->
  nth i (gr rs (Z.of_nat k)) 0 = 44 <-> ((i + k) mod 4 = 3)%nat.
Proof.
  induction 1 as [|c rest Hc H IH]; intros k Hk i Hi; cbn [gr] in *; [cbn in Hi; lia|].
  destruct ((Z.of_nat k + 1 =? 3) && negb (match rest with [] => true | _ => false end)) eqn:E.
  - assert (k = 2)%nat by lia. subst k. destruct i as [|[|i]].
    + cbn [nth]. cbn. lia.
    + cbn [nth]. cbn. tauto.
    + cbn [nth]. cbn [length] in Hi. specialize (IH 0%nat ltac:(lia) i). change (Z.of_nat 0) with 0 in IH. rewrite IH by lia.
      replace (S (S i) + 2)%nat with (i + 0 + 1 * 4)%nat by lia. rewrite Nat.mod_add by lia. reflexivity.
  - destruct rest as [|d rest'].
    + cbn [gr length] in Hi. assert (i = 0)%nat by lia. subst i. cbn [nth]. rewrite Nat.mod_small by lia. lia.
    + assert (k < 2)%nat by (cbn [negb] in E; lia).
      destruct i as [|i].
      * cbn [nth]. rewrite Nat.mod_small by lia. lia.
      * remember (d :: rest') as rr. cbn [nth]. cbn [length] in Hi. specialize (IH (S k) ltac:(lia) i).
        replace (Z.of_nat (S k)) with (Z.of_nat k + 1) in IH by lia. rewrite IH by lia.
        replace (i + S k)%nat with (S i + k)%nat by lia. reflexivity.
Qed.

Lemma gr_last rs : Forall (fun c => 48 <= c <= 57) rs -> rs <> [] -> forall ipos, last (gr rs ipos) 0 = last rs 0.
Proof.
  induction 1 as [|c rest Hc H IH]; intros N ipos; [congruence|]. cbn [gr].
  destruct rest as [|d r].
  - rewrite andb_false_r. reflexivity.
  - assert (G : forall i, gr (d :: r) i <> []) by (intro i; cbn [gr]; destruct (_ && _); discriminate).
    destruct ((ipos + 1 =? 3) && _).
    + remember (d :: r) as rr. specialize (IH ltac:(subst; discriminate) 0). specialize (G 0).
      destruct (gr rr 0) as [|x y] eqn:X; [congruence|]. subst rr. cbn [last] in *. exact IH.
    + remember (d :: r) as rr. specialize (IH ltac:(subst; discriminate) (ipos + 1)). specialize (G (ipos + 1)).
      destruct (gr rr (ipos + 1)) as [|x y] eqn:X; [congruence|]. subst rr. cbn [last] in *. exact IH.
Qed.

Lemma filter_rev_z (f : Z -> bool) l : filter f (rev l) = rev (filter f l).
Proof. induction l as [|x l IH]; cbn; [reflexivity|]. rewrite filter_app, IH. cbn. destruct (f x); cbn; [reflexivity|now rewrite app_nil_r]. Qed.

Lemma hd_rev (l : list Z) : hd 0 (rev l) = last l 0.
Proof.
  induction l as [|x l IH]; [reflexivity|]. cbn [rev]. destruct l as [|y l]; [reflexivity|].
  change (last (x :: y :: l) 0) with (last (y :: l) 0). rewrite <- IH.
  destruct (rev (y :: l)) eqn:R; [cbn in R; destruct (rev l); discriminate|reflexivity].
Qed.

Lemma dec_fuel_hd f : forall n, 0 <= n < 10 ^ Z.of_nat f -> (0 < f)%nat -> hd 0 (dec_fuel f n) = 48 -> n = 0.
Proof.
  induction f as [|f IH]; intros n H Hf; [lia|]. cbn [dec_fuel]. destruct (n <? 10) eqn:E.
  - cbn [hd]. lia.
  - intros X. destruct f as [|f]; [change (10 ^ Z.of_nat 1) with 10 in H; lia|].
    assert (B : 0 <= n / 10 < 10 ^ Z.of_nat (S f)).
    { rewrite Nat2Z.inj_succ, Z.pow_succ_r in H by lia. split; [apply Z.div_pos; lia|apply Z.div_lt_upper_bound; lia]. }
    destruct (dec_fuel_spec (S f) (n / 10) B ltac:(lia)) as (_ & _ & L).
    specialize (IH (n / 10) B ltac:(lia)).
    destruct (dec_fuel (S f) (n / 10)) as [|y z]; [unfold slen in L; cbn in L; lia|]. cbn [app hd] in *.
    specialize (IH X). pose proof (Z.div_str_pos n 10). lia.
Qed.

Lemma alldig_forall t : alldig t = true -> Forall (fun c => 48 <= c <= 57) t.
Proof.
  intros H. apply Forall_forall. intros x I. unfold alldig in H. rewrite forallb_forall in H. apply is_digit_range. now apply H.
Qed.

(** ** Theorems *)
(** for every number but the least long long there is one text, the number in groups of three, and every buffer with room for it
    and the terminating zero gets it, and its length *)
Theorem C64_grouped_partial n : - 9223372036854775808 < n < 9223372036854775808 ->
  exists body, reads_as body (Z.abs n) /\ grouped body /\
    forall cap, slen (sign_of n ++ body) < cap -> longWithCommas cap n = Ok (Some (sign_of n ++ body, slen (sign_of n ++ body))).
Proof.
  intros Hn.
  assert (B : 0 <= Z.abs n < 10 ^ Z.of_nat 20) by (change (10 ^ Z.of_nat 20) with 100000000000000000000; lia).
  destruct (dec_fuel_spec 20 (Z.abs n) B ltac:(lia)) as (D & V & L). fold (dec (Z.abs n)) in *.
  pose proof (dec_fuel_hd 20 (Z.abs n) B ltac:(lia)) as HD. fold (dec (Z.abs n)) in HD.
  set (ds := dec (Z.abs n)) in *.
  assert (F : Forall (fun c => 48 <= c <= 57) ds) by now apply alldig_forall.
  assert (FR : Forall (fun c => 48 <= c <= 57) (rev ds)) by now apply Forall_rev.
  assert (NE : ds <> []) by (intro X; rewrite X in L; unfold slen in L; cbn in L; lia).
  exists (rev (gr (rev ds) 0)). split; [|split].
  - unfold reads_as. rewrite filter_rev_z, gr_filter, rev_involutive by assumption. repeat split; auto.
    intros X. apply HD in X. unfold ds. rewrite X. reflexivity.
  - split.
    + intros i Hi. rewrite rev_involutive. rewrite rev_length in Hi. rewrite (gr_pos _ FR 0 ltac:(lia) i Hi).
      now rewrite Nat.add_0_r.
    + rewrite hd_rev, gr_last by (auto; intro X; apply (f_equal (@rev Z)) in X; rewrite rev_involutive in X; auto).
      rewrite <- hd_rev, rev_involutive. destruct ds as [|x y]; [congruence|]. inversion F; subst. cbn [hd]. lia.
  - intros cap Hc. unfold longWithCommas. destruct (n =? - 9223372036854775808) eqn:E; [lia|]. fold ds.
    assert (G : slen (sign_of n ++ rev (gr (rev ds) 0)) >= slen (gr (rev ds) 0)).
    { rewrite slen_app. pose proof (slen_nonneg (sign_of n)). unfold slen. rewrite rev_length. unfold slen in *. lia. }
    assert (DL : slen ds <= slen (gr (rev ds) 0)).
    { pose proof (gr_filter _ FR 0) as X. unfold slen. rewrite <- (rev_length ds), <- X at 1.
      clear. generalize (gr (rev ds) 0). intro l. induction l as [|x l IH]; [cbn; lia|]. cbn [filter]. destruct (negb _); cbn [length]; lia. }
    rewrite stake_all by lia. cbv zeta. rewrite lwc_loop_gr by lia. fold (sign_of n).
    destruct (slen (sign_of n ++ rev (gr (rev ds) 0)) <? cap) eqn:X; [reflexivity|lia].
Qed.
Print Assumptions C64_grouped_partial.

(** "or -1 if str is not large enough" is refuted: a buffer of four bytes gets the first three digits of 12345, with no -1 *)
Theorem C64_refuted_cut : longWithCommas 4 12345 = Ok (Some ([49; 50; 51], 3)).
Proof. vm_compute. reflexivity. Qed.
Print Assumptions C64_refuted_cut.

(** and a negative number whose digits fit, but not with the sign, is written one byte past the buffer *)
Theorem C64_refuted_overrun : longWithCommas 4 (-123) = Undef.
Proof. vm_compute. reflexivity. Qed.
Print Assumptions C64_refuted_overrun.

(** the least long long cannot be negated *)
Theorem C64_refuted_least cap : longWithCommas cap (- 9223372036854775808) = Undef.
Proof. reflexivity. Qed.
Print Assumptions C64_refuted_least.

(** -12,345,678 *)
Example C64_example : longWithCommas 20 (-12345678) = Ok (Some ([45; 49; 50; 44; 51; 52; 53; 44; 54; 55; 56], 11)).
Proof. vm_compute. reflexivity. Qed.
(** 123 needs no comma, and a buffer that is too small for the comma gives -1 *)
Example C64_example_small : longWithCommas 4 123 = Ok (Some ([49; 50; 51], 3)) /\ longWithCommas 5 1234 = Ok None.
Proof. split; vm_compute; reflexivity. Qed.
