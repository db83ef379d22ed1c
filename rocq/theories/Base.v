(** * Conventions shared by all models: C integers, undefined behaviour, arrays. *)
From Coq Require Import ZArith List Lia Bool.
Import ListNotations.
Open Scope Z_scope.

(** Outcome of a modelled C computation: a value, or undefined behaviour
    (signed overflow, division by zero, out-of-bounds access, read of an uninitialised cell). *)
Inductive res (A : Type) : Type :=
| Ok (a : A)
| Undef.
Arguments Ok {A} a.
Arguments Undef {A}.

Definition bind {A B} (r : res A) (f : A -> res B) : res B :=
  match r with Ok a => f a | Undef => Undef end.

Declare Scope res_scope.
Delimit Scope res_scope with res.
Notation "'let*' x ':=' e 'in' k" := (bind e (fun x => k))
  (at level 200, x name, e at level 100, k at level 200, right associativity) : res_scope.
Notation "'let*' ' p ':=' e 'in' k" := (bind e (fun x => match x with p => k end))
  (at level 200, p strict pattern, e at level 100, k at level 200, right associativity) : res_scope.
Open Scope res_scope.

(** Range of a C [int] (32 bits) and [long long] (64 bits). *)
Definition INT_MIN : Z := -2147483648.
Definition INT_MAX : Z := 2147483647.
Definition in32 (z : Z) : Prop := INT_MIN <= z <= INT_MAX.
Definition in32b (z : Z) : bool := (INT_MIN <=? z) && (z <=? INT_MAX).

(** Signed arithmetic result: overflow is undefined behaviour. *)
Definition chk32 (z : Z) : res Z := if in32b z then Ok z else Undef.

(** Conversion of a wider integer to [int] (implementation-defined: wraps on every supported compiler). *)
Definition wrap32 (z : Z) : Z := (z + 2147483648) mod 4294967296 - 2147483648.

(** C boolean result of a comparison used as an [int]. *)
Definition b2z (b : bool) : Z := if b then 1 else 0.

Lemma chk32_ok z : in32 z -> chk32 z = Ok z.
Proof.
  unfold chk32, in32b, in32. intros [H1 H2].
  apply Z.leb_le in H1. apply Z.leb_le in H2. rewrite H1, H2. reflexivity.
Qed.

Lemma chk32_inv z v : chk32 z = Ok v -> v = z /\ in32 z.
Proof.
  unfold chk32, in32b, in32. destruct (INT_MIN <=? z) eqn:E1, (z <=? INT_MAX) eqn:E2; cbn [andb];
    intros H; inversion H; subst; split; auto; split; apply Z.leb_le; assumption.
Qed.

Lemma wrap32_id z : in32 z -> wrap32 z = z.
Proof.
  unfold wrap32, in32, INT_MIN, INT_MAX. intros H. rewrite Z.mod_small by lia. lia.
Qed.

Lemma bind_ok {A B} (r : res A) (f : A -> res B) b :
  bind r f = Ok b <-> exists a, r = Ok a /\ f a = Ok b.
Proof.
  destruct r as [a|]; cbn [bind]; split.
  - intros H; exists a; auto.
  - intros (a' & H1 & H2). inversion H1; subst; assumption.
  - discriminate.
  - intros (a' & H1 & _). discriminate.
Qed.

(** Array access with C bounds: indices outside [0, length) are undefined behaviour. *)
Definition aget {A} (l : list A) (i : Z) : res A :=
  if (i <? 0) then Undef else
  match nth_error l (Z.to_nat i) with Some a => Ok a | None => Undef end.

Fixpoint upd_nat {A} (l : list A) (i : nat) (v : A) : option (list A) :=
  match l, i with
  | [], _ => None
  | _ :: t, O => Some (v :: t)
  | h :: t, S i' => match upd_nat t i' v with Some t' => Some (h :: t') | None => None end
  end.

Definition aset {A} (l : list A) (i : Z) (v : A) : res (list A) :=
  if (i <? 0) then Undef else
  match upd_nat l (Z.to_nat i) v with Some l' => Ok l' | None => Undef end.

Lemma upd_nat_some {A} (l : list A) i v :
  (i < length l)%nat -> upd_nat l i v = Some (firstn i l ++ v :: skipn (S i) l).
Proof.
  revert i; induction l as [|h t IH]; intros i Hi; cbn [length] in Hi; [lia|].
  destruct i as [|i]; cbn [upd_nat]; [reflexivity|].
  rewrite IH by lia. reflexivity.
Qed.

Lemma upd_nat_length {A} (l : list A) i v l' : upd_nat l i v = Some l' -> length l' = length l.
Proof.
  revert i l'; induction l as [|h t IH]; intros i l' H; cbn [upd_nat] in H; [discriminate|].
  destruct i as [|i]; [inversion H; reflexivity|].
  destruct (upd_nat t i v) as [t'|] eqn:E; [|discriminate]. inversion H; subst. cbn [length].
  rewrite (IH _ _ E). reflexivity.
Qed.

Lemma upd_nat_nth {A} (l : list A) i v l' j :
  upd_nat l i v = Some l' ->
  nth_error l' j = if Nat.eqb j i then Some v else nth_error l j.
Proof.
  revert i l' j; induction l as [|h t IH]; intros i l' j H; cbn [upd_nat] in H; [discriminate|].
  destruct i as [|i].
  - inversion H; subst. destruct j; reflexivity.
  - destruct (upd_nat t i v) as [t'|] eqn:E; [|discriminate]. inversion H; subst.
    destruct j as [|j]; cbn [nth_error Nat.eqb]; [reflexivity|]. apply IH; assumption.
Qed.

Lemma upd_nat_none {A} (l : list A) i v : (length l <= i)%nat -> upd_nat l i v = None.
Proof.
  revert i; induction l as [|h t IH]; intros i Hi; cbn [upd_nat]; [reflexivity|].
  destruct i as [|i]; cbn [length] in Hi; [lia|]. rewrite IH by lia. reflexivity.
Qed.

(** Tactic: discharge [chk32] in a goal when [lia] can bound the argument. *)
Ltac chk := repeat (rewrite chk32_ok by (unfold in32, INT_MIN, INT_MAX; lia); cbn [bind]).

Lemma skipn_plus {A} (n m : nat) (l : list A) : skipn n (skipn m l) = skipn (m + n) l.
Proof.
  revert l; induction m as [|m IH]; intros l; cbn [Nat.add]; [reflexivity|].
  destruct l as [|x t]; [rewrite !skipn_nil; reflexivity|]. cbn [skipn]. apply IH.
Qed.
