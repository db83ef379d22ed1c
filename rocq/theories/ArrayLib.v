(** * C arrays as lists with checked access: the loops the models use, and their meaning. *)
From Coq Require Import ZArith List Lia Bool ZifyBool.
From Verif Require Import Base.
Import ListNotations.
Open Scope Z_scope.

(** Number of cells of an array. *)
Definition alen {A} (l : list A) : Z := Z.of_nat (length l).

(** [for (j=0; j<n; j++) dst[di+j] = src[si+j];] *)
Fixpoint copy_loop {A} (n : nat) (src : list A) (si : Z) (dst : list A) (di : Z) : res (list A) :=
  match n with
  | O => Ok dst
  | S n' => let* v := aget src si in
            let* d := aset dst di v in
            copy_loop n' src (si + 1) d (di + 1)
  end.

(** [for (j=0; j<n; j++) dst[di+j] = v;] *)
Fixpoint fill_loop {A} (n : nat) (v : A) (dst : list A) (di : Z) : res (list A) :=
  match n with
  | O => Ok dst
  | S n' => let* d := aset dst di v in fill_loop n' v d (di + 1)
  end.

(** The same copy inside one array, in increasing order: [for (j..) a[di+j] = a[si+j];] *)
Fixpoint self_copy_loop {A} (n : nat) (a : list A) (si di : Z) : res (list A) :=
  match n with
  | O => Ok a
  | S n' => let* v := aget a si in
            let* d := aset a di v in
            self_copy_loop n' d (si + 1) (di + 1)
  end.

(** [n] cells starting at [si]. *)
Fixpoint read_loop {A} (n : nat) (src : list A) (si : Z) : res (list A) :=
  match n with
  | O => Ok []
  | S n' => let* v := aget src si in
            let* r := read_loop n' src (si + 1) in Ok (v :: r)
  end.

Lemma alen_nonneg {A} (l : list A) : 0 <= alen l.
Proof. unfold alen; lia. Qed.

Lemma aget_some {A} (l : list A) i : 0 <= i < alen l -> exists v, aget l i = Ok v.
Proof.
  unfold aget, alen. intros H. destruct (i <? 0) eqn:E; [apply Z.ltb_lt in E; lia|].
  destruct (nth_error l (Z.to_nat i)) eqn:N; eauto.
  apply nth_error_None in N. lia.
Qed.

Lemma aget_range {A} (l : list A) i v : aget l i = Ok v -> 0 <= i < alen l.
Proof.
  unfold aget, alen. destruct (i <? 0) eqn:E; [discriminate|]. apply Z.ltb_ge in E.
  destruct (nth_error l (Z.to_nat i)) eqn:N; [|discriminate]. intros _.
  assert (nth_error l (Z.to_nat i) <> None) by congruence. apply nth_error_Some in H. lia.
Qed.

Lemma aget_out {A} (l : list A) i : ~ (0 <= i < alen l) -> aget l i = Undef.
Proof.
  intros H. destruct (aget l i) eqn:E; [|reflexivity]. apply aget_range in E. contradiction.
Qed.

Lemma aset_ok {A} (l : list A) i v : 0 <= i < alen l ->
  exists l', aset l i v = Ok l' /\ alen l' = alen l /\
             forall j, aget l' j = if j =? i then Ok v else aget l j.
Proof.
  unfold alen. intros H. unfold aset. destruct (i <? 0) eqn:E; [apply Z.ltb_lt in E; lia|].
  rewrite upd_nat_some by lia. eexists; split; [reflexivity|].
  pose proof (upd_nat_some l (Z.to_nat i) v ltac:(lia)) as U.
  split; [rewrite (upd_nat_length _ _ _ _ U); reflexivity|].
  intros j. unfold aget. destruct (j <? 0) eqn:Ej.
  - apply Z.ltb_lt in Ej. destruct (j =? i) eqn:Eji; [apply Z.eqb_eq in Eji; lia|reflexivity].
  - apply Z.ltb_ge in Ej. rewrite (upd_nat_nth _ _ _ _ (Z.to_nat j) U).
    destruct (j =? i) eqn:Eji.
    + apply Z.eqb_eq in Eji; subst. rewrite Nat.eqb_refl. reflexivity.
    + apply Z.eqb_neq in Eji. destruct (Nat.eqb_spec (Z.to_nat j) (Z.to_nat i)); [lia|reflexivity].
Qed.

Lemma copy_loop_ok {A} n (src : list A) : forall si dst di,
  0 <= si -> si + Z.of_nat n <= alen src -> 0 <= di -> di + Z.of_nat n <= alen dst ->
  exists d, copy_loop n src si dst di = Ok d /\ alen d = alen dst /\
    forall j, aget d j = if (di <=? j) && (j <? di + Z.of_nat n) then aget src (si + (j - di)) else aget dst j.
Proof.
  induction n as [|n IH]; intros si dst di H1 H2 H3 H4.
  - exists dst. split; [reflexivity|]. split; [reflexivity|]. intros j.
    replace (di + Z.of_nat 0) with di by lia.
    destruct (di <=? j) eqn:E1, (j <? di) eqn:E2; cbn [andb]; try reflexivity. lia.
  - cbn [copy_loop]. destruct (aget_some src si ltac:(lia)) as [v Hv]. rewrite Hv. cbn [bind].
    destruct (aset_ok dst di v ltac:(lia)) as (d1 & E1 & L1 & G1). rewrite E1. cbn [bind].
    destruct (IH (si + 1) d1 (di + 1)) as (d2 & E2 & L2 & G2); try lia.
    exists d2. split; [exact E2|]. split; [lia|]. intros j. rewrite G2, G1.
    destruct (Z.eq_dec j di) as [->|N].
    + rewrite Z.eqb_refl. destruct (di + 1 <=? di) eqn:A1; [lia|]. cbn [andb].
      destruct (di <=? di) eqn:A2; [|lia]. destruct (di <? di + Z.of_nat (S n)) eqn:A3; [|lia]. cbn [andb].
      rewrite Z.sub_diag, Z.add_0_r. symmetry; exact Hv.
    + destruct (j =? di) eqn:A0; [lia|].
      replace (di + 1 <=? j) with (di <=? j) by lia.
      replace (j <? di + 1 + Z.of_nat n) with (j <? di + Z.of_nat (S n)) by lia.
      destruct ((di <=? j) && (j <? di + Z.of_nat (S n))); [|reflexivity]. f_equal; lia.
Qed.

Lemma fill_loop_ok {A} n (v : A) : forall dst di,
  0 <= di -> di + Z.of_nat n <= alen dst ->
  exists d, fill_loop n v dst di = Ok d /\ alen d = alen dst /\
    forall j, aget d j = if (di <=? j) && (j <? di + Z.of_nat n) then Ok v else aget dst j.
Proof.
  induction n as [|n IH]; intros dst di H3 H4.
  - exists dst. split; [reflexivity|]. split; [reflexivity|]. intros j.
    replace (di + Z.of_nat 0) with di by lia.
    destruct (di <=? j) eqn:E1, (j <? di) eqn:E2; cbn [andb]; try reflexivity. lia.
  - cbn [fill_loop].
    destruct (aset_ok dst di v ltac:(lia)) as (d1 & E1 & L1 & G1). rewrite E1. cbn [bind].
    destruct (IH d1 (di + 1)) as (d2 & E2 & L2 & G2); try lia.
    exists d2. split; [exact E2|]. split; [lia|]. intros j. rewrite G2, G1.
    destruct (Z.eq_dec j di) as [->|N].
    + rewrite Z.eqb_refl. destruct (di + 1 <=? di) eqn:A1; [lia|]. cbn [andb].
      destruct (di <=? di) eqn:A2; [|lia]. destruct (di <? di + Z.of_nat (S n)) eqn:A3; [|lia]. reflexivity.
    + destruct (j =? di) eqn:A0; [lia|].
      replace (di + 1 <=? j) with (di <=? j) by lia.
      replace (j <? di + 1 + Z.of_nat n) with (j <? di + Z.of_nat (S n)) by lia. reflexivity.
Qed.

Lemma self_copy_loop_ok {A} n : forall (a : list A) si di,
  0 <= si -> si + Z.of_nat n <= di -> di + Z.of_nat n <= alen a ->
  exists d, self_copy_loop n a si di = Ok d /\ alen d = alen a /\
    forall j, aget d j = if (di <=? j) && (j <? di + Z.of_nat n) then aget a (si + (j - di)) else aget a j.
Proof.
  induction n as [|n IH]; intros a si di H1 H2 H3.
  - exists a. split; [reflexivity|]. split; [reflexivity|]. intros j.
    replace (di + Z.of_nat 0) with di by lia.
    destruct (di <=? j) eqn:E1, (j <? di) eqn:E2; cbn [andb]; try reflexivity. lia.
  - cbn [self_copy_loop]. destruct (aget_some a si ltac:(lia)) as [v Hv]. rewrite Hv. cbn [bind].
    destruct (aset_ok a di v ltac:(lia)) as (d1 & E1 & L1 & G1). rewrite E1. cbn [bind].
    destruct (IH d1 (si + 1) (di + 1)) as (d2 & E2 & L2 & G2); try lia.
    exists d2. split; [exact E2|]. split; [lia|]. intros j. rewrite G2, !G1.
    destruct (Z.eq_dec j di) as [->|N].
    + rewrite Z.eqb_refl. destruct (di + 1 <=? di) eqn:A1; [lia|]. cbn [andb].
      destruct (di <=? di) eqn:A2; [|lia]. destruct (di <? di + Z.of_nat (S n)) eqn:A3; [|lia]. cbn [andb].
      rewrite Z.sub_diag, Z.add_0_r. symmetry; exact Hv.
    + destruct (j =? di) eqn:A0; [lia|].
      replace (di + 1 <=? j) with (di <=? j) by lia.
      replace (j <? di + 1 + Z.of_nat n) with (j <? di + Z.of_nat (S n)) by lia.
      destruct ((di <=? j) && (j <? di + Z.of_nat (S n))) eqn:B; [|reflexivity].
      destruct (si + 1 + (j - (di + 1)) =? di) eqn:C; [lia|]. f_equal; lia.
Qed.

Lemma read_loop_ok {A} n (src : list A) : forall si,
  0 <= si -> si + Z.of_nat n <= alen src ->
  exists r, read_loop n src si = Ok r /\ length r = n /\
    forall j, 0 <= j < Z.of_nat n -> aget r j = aget src (si + j).
Proof.
  induction n as [|n IH]; intros si H1 H2.
  - exists []. split; [reflexivity|]. split; [reflexivity|]. lia.
  - cbn [read_loop]. destruct (aget_some src si ltac:(lia)) as [v Hv]. rewrite Hv. cbn [bind].
    destruct (IH (si + 1)) as (r & E & L & G); try lia. rewrite E. cbn [bind].
    exists (v :: r). split; [reflexivity|]. split; [cbn [length]; lia|]. intros j Hj.
    destruct (Z.eq_dec j 0) as [->|N].
    + rewrite Z.add_0_r, Hv. reflexivity.
    + replace (si + j) with (si + 1 + (j - 1)) by lia. rewrite <- G by lia.
      unfold aget. destruct (j <? 0) eqn:E1; [lia|]. destruct (j - 1 <? 0) eqn:E2; [lia|].
      replace (Z.to_nat j) with (S (Z.to_nat (j - 1))) by lia. reflexivity.
Qed.

(** Two arrays of one length with the same cells are equal. *)
Lemma aget_ext {A} (l1 l2 : list A) :
  alen l1 = alen l2 -> (forall j, 0 <= j < alen l1 -> aget l1 j = aget l2 j) -> l1 = l2.
Proof.
  unfold alen. revert l2; induction l1 as [|x t IH]; intros [|y u] H G; cbn [length] in *; try lia; [reflexivity|].
  assert (E0 := G 0 ltac:(lia)). unfold aget in E0; cbn in E0. inversion E0; subst. f_equal.
  apply IH; [lia|]. intros j Hj. specialize (G (j + 1) ltac:(lia)). unfold aget in *.
  destruct (j <? 0) eqn:E1; [lia|]. destruct (j + 1 <? 0) eqn:E2; [lia|].
  replace (Z.to_nat (j + 1)) with (S (Z.to_nat j)) in G by lia. exact G.
Qed.
