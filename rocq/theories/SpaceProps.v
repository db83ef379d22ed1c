(** * C23: the sections of a record rewritten in place stay inside the space allocated when it was created. *)
From Coq Require Import ZArith List Lia Bool.
From Verif Require Import Base PackModel FileModel FileLemmas FileExist.
Import ListNotations.
Open Scope Z_scope.

(** Space requested for the sections of a new record (zwriteNew.c:243-250: total less the info block). *)
Definition created_words (x : xfer) : Z := lw (x_ih x) + lw (x_h2 x) + lw (x_uh x) + numberLongsInInts (start_alloc x).
(** The test of zwriteExisting.c:246-262, and the info block written when it chooses "in place". *)
Definition fits_in_place (info : Z -> Z) (x : xfer) : Prop :=
  zlen (x_ih x) + zlen (x_h2 x) + zlen (x_uh x) + start_alloc x <= info 14 + info 16 + info 18 + info 25.
Definition in_place (info : Z -> Z) (x : xfer) : Z -> Z :=
  lay_info info (info 13) x (start_alloc x + (info 14 + info 16 + info 18 + info 25 - (zlen (x_ih x) + zlen (x_h2 x) + zlen (x_uh x) + start_alloc x))).
(** Any number of rewrites, each accepted as in place. *)
Inductive rewritten (info : Z -> Z) (odd : Z) : list xfer -> (Z -> Z) -> Prop :=
| rewritten_nil : rewritten info odd [] info
| rewritten_snoc l x f : rewritten info odd l f -> fits_in_place f x -> odd_headers x <= odd -> rewritten info odd (l ++ [x]) (in_place f x).

(** Where the six sections of the record are: address and number of words of each. *)
Definition extents (x : xfer) (f : Z -> Z) : list (Z * Z) :=
  [(f 13, lw (x_ih x)); (f 15, lw (x_h2 x)); (f 17, lw (x_uh x)); (f 19, lw (x_v1 x)); (f 21, lw (x_v2 x)); (f 23, lw (x_v3 x))].

Lemma lay_get f a x alloc :
  let g := lay_info f a x alloc in
  g 13 = a /\ g 14 = zlen (x_ih x) /\ g 16 = zlen (x_h2 x) /\ g 18 = zlen (x_uh x) /\ g 25 = alloc /\
  g 15 = a + lw (x_ih x) /\ g 17 = a + lw (x_ih x) + lw (x_h2 x) /\ g 19 = a + lw (x_ih x) + lw (x_h2 x) + lw (x_uh x) /\
  g 21 = a + lw (x_ih x) + lw (x_h2 x) + lw (x_uh x) + lw (x_v1 x) /\
  g 23 = a + lw (x_ih x) + lw (x_h2 x) + lw (x_uh x) + lw (x_v1 x) + lw (x_v2 x).
Proof. cbv zeta. repeat split. Qed.

Lemma start_ge x : data_ints x <= start_alloc x.
Proof. unfold start_alloc. destruct (x_alloc x <? data_ints x) eqn:E; [lia|apply Z.ltb_ge in E; lia]. Qed.

Lemma rewritten_inv info0 base x0 l f : rewritten (lay_info info0 base x0 (start_alloc x0)) (odd_headers x0) l f ->
  f 13 = base /\ 0 <= f 14 /\ 0 <= f 16 /\ 0 <= f 18 /\ f 14 + f 16 + f 18 + f 25 + odd_headers x0 <= 2 * created_words x0.
Proof.
  intros H. remember (lay_info info0 base x0 (start_alloc x0)) as i0 eqn:E0. remember (odd_headers x0) as o eqn:EO. induction H as [|l x f HR IH HF HO].
  - subst i0 o. pose proof (lay_get info0 base x0 (start_alloc x0)) as G. cbv zeta in G. destruct G as (G1 & G2 & G3 & G4 & G5 & _).
    rewrite G1, G2, G3, G4, G5. unfold created_words, odd_headers.
    pose proof (zlen_nonneg (x_ih x0)). pose proof (zlen_nonneg (x_h2 x0)). pose proof (zlen_nonneg (x_uh x0)).
    pose proof (lw_mod (x_ih x0)). pose proof (lw_mod (x_h2 x0)). pose proof (lw_mod (x_uh x0)).
    pose proof (start_ge x0). pose proof (lw_nonneg (x_v1 x0)). pose proof (lw_nonneg (x_v2 x0)). pose proof (lw_nonneg (x_v3 x0)).
    unfold data_ints in *. pose proof (nlii_bounds (start_alloc x0) ltac:(lia)). lia.
  - destruct IH as (I1 & I2 & I3 & I4 & I5). unfold in_place.
    pose proof (lay_get f (f 13) x (start_alloc x + (f 14 + f 16 + f 18 + f 25 - (zlen (x_ih x) + zlen (x_h2 x) + zlen (x_uh x) + start_alloc x)))) as G. cbv zeta in G. destruct G as (G1 & G2 & G3 & G4 & G5 & _).
    rewrite G1, G2, G3, G4, G5.
    pose proof (zlen_nonneg (x_ih x)). pose proof (zlen_nonneg (x_h2 x)). pose proof (zlen_nonneg (x_uh x)). lia.
Qed.

(** A record created by [x0] at [base] and rewritten in place any number of times, last by [x]: every section of [x]
    lies in the [created_words x0] words allocated, and the sections do not overlap (each ends where the next begins).
    _partial: the rewrites have at most as many odd-length headers as [x0]; false otherwise (C23_refuted_...). *)
Theorem C23_in_place_stays_inside_partial info0 base x0 l x f :
  rewritten (lay_info info0 base x0 (start_alloc x0)) (odd_headers x0) l f -> fits_in_place f x -> odd_headers x <= odd_headers x0 ->
  Forall (fun an => base <= fst an /\ 0 <= snd an /\ fst an + snd an <= base + created_words x0) (extents x (in_place f x)) /\
  (forall j, (j < 5)%nat -> fst (nth (S j) (extents x (in_place f x)) (0, 0)) = fst (nth j (extents x (in_place f x)) (0, 0)) + snd (nth j (extents x (in_place f x)) (0, 0))).
Proof.
  intros HR HF HO. destruct (rewritten_inv _ _ _ _ _ HR) as (I1 & I2 & I3 & I4 & I5).
  unfold in_place.
  pose proof (lay_get f (f 13) x (start_alloc x + (f 14 + f 16 + f 18 + f 25 - (zlen (x_ih x) + zlen (x_h2 x) + zlen (x_uh x) + start_alloc x)))) as G. cbv zeta in G.
  set (g := lay_info f (f 13) x _) in *. destruct G as (G1 & G2 & G3 & G4 & G5 & G6 & G7 & G8 & G9 & G10).
  pose proof (start_ge x) as SG. unfold data_ints in SG. unfold fits_in_place in HF. unfold odd_headers in *.
  pose proof (lw_mod (x_ih x)). pose proof (lw_mod (x_h2 x)). pose proof (lw_mod (x_uh x)).
  pose proof (lw_nonneg (x_ih x)). pose proof (lw_nonneg (x_h2 x)). pose proof (lw_nonneg (x_uh x)).
  pose proof (lw_nonneg (x_v1 x)). pose proof (lw_nonneg (x_v2 x)). pose proof (lw_nonneg (x_v3 x)). unfold extents. split.
  - repeat apply Forall_cons; try apply Forall_nil; cbn [fst snd]; lia.
  - intros j Hj. destruct j as [|[|[|[|[|j]]]]]; cbn [nth fst snd]; lia.
Qed.
Example C23_example : let x0 := mkxfer [] 300 [1; 2; 3] [] [4] [5; 6; 7] [] [] 0 0 0 0 in let x1 := mkxfer [] 300 [1] [] [4; 5; 6] [7] [] [] 0 0 0 0 in
  rewritten (lay_info (fun _ => 0) 1000 x0 (start_alloc x0)) (odd_headers x0) [x1] (in_place (lay_info (fun _ => 0) 1000 x0 (start_alloc x0)) x1).
Proof. cbv zeta. apply (rewritten_snoc _ _ []); [constructor|unfold fits_in_place; vm_compute; discriminate|vm_compute; discriminate]. Qed.
Print Assumptions C23_in_place_stays_inside_partial.
