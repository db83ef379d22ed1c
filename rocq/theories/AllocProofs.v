(** * The invariant of the allocator (AllocModel.v). *)
From Coq Require Import ZArith List Bool Lia Permutation ZifyBool.
From Verif Require Import Base AllocModel.
Import ListNotations.
Open Scope Z_scope.

(** ** Lists of regions without common words *)
Definition disj (r q : Z * Z) : Prop :=
  snd r <= 0 \/ snd q <= 0 \/ fst r + snd r <= fst q \/ fst q + snd q <= fst r.
Fixpoint PW (l : list (Z * Z)) : Prop :=
  match l with [] => True | r :: t => Forall (disj r) t /\ PW t end.

Lemma disj_sym r q : disj r q -> disj q r.
Proof. unfold disj. tauto. Qed.
Lemma PW_app l m : PW (l ++ m) <-> PW l /\ PW m /\ forall r q, In r l -> In q m -> disj r q.
Proof.
  induction l as [|a l IH]; cbn.
  - split; [intros H; repeat split; auto; intros ? ? []|tauto].
  - rewrite IH, Forall_app, !Forall_forall. split.
    + intros ((A & B) & C & D & E). repeat split; auto. intros r q [<-|R] Q; auto.
    + intros ((A & B) & C & D). repeat split; auto.
Qed.
Lemma PW_cons r l : PW (r :: l) <-> PW l /\ forall q, In q l -> disj r q.
Proof. cbn. rewrite Forall_forall. tauto. Qed.
Lemma PW_perm l m : Permutation l m -> PW l -> PW m.
Proof.
  induction 1 as [|x l m P IH|x y l|l m n P1 IH1 P2 IH2]; intros H; auto.
  - rewrite PW_cons in *. destruct H as [H1 H2]. split; auto. intros q Q. apply H2. eapply Permutation_in; [apply Permutation_sym|]; eauto.
  - rewrite !PW_cons in *. destruct H as ((H1 & H2) & H3). repeat split; auto.
    + intros q Q. apply H3. right; auto.
    + intros q [<-|Q]; [apply disj_sym, H3; left; auto|apply H2; auto].
Qed.

(** [l] is part of [m] *)
Definition part (l m : list (Z * Z)) : Prop := exists r, Permutation (l ++ r) m.
Lemma PW_part l m : part l m -> PW m -> PW l.
Proof. intros [r P] H. apply (PW_perm m (l ++ r)) in H; [|apply Permutation_sym, P]. apply PW_app in H. tauto. Qed.
Lemma Forall_part (Q : Z * Z -> Prop) l m : part l m -> Forall Q m -> Forall Q l.
Proof. intros [r P] H. eapply Permutation_Forall in H; [|apply Permutation_sym, P]. apply Forall_app in H. tauto. Qed.
Lemma part_in l m x : part l m -> In x l -> In x m.
Proof. intros [r P] I. eapply Permutation_in; [exact P|]. apply in_or_app; auto. Qed.

(** ** Segments *)
Definition seg (c : Z) : Z * Z := (c, kreclaimSize).
Fixpoint chain (m : Z -> Z) (a : Z) (cs : list Z) : Prop :=
  match cs with [] => a = 0 | c :: t => a = c /\ c <> 0 /\ chain m (m (c + iaddLoc)) t end.
Definition opt (e : Z * Z) : list (Z * Z) := if snd e =? 0 then [] else [e].
Definition entries (a : arr) : list (Z * Z) :=
  flat_map (fun i => opt (a (2 * Z.of_nat i + 1), a (2 * Z.of_nat i))) (seq 0 (Z.to_nat kreclaimNumber)).
Definition free (m : Z -> Z) (cs : list Z) : list (Z * Z) := flat_map (fun c => entries (fun j => m (c + j))) cs.

Lemma numE : kreclaimNumber = 500. Proof. reflexivity. Qed.
Opaque kreclaimNumber.

Lemma flat_map_ext_in {A B} (f g : A -> list B) l : (forall x, In x l -> f x = g x) -> flat_map f l = flat_map g l.
Proof. induction l as [|a l IH]; cbn; intros H; auto. rewrite H by auto. rewrite IH; auto. Qed.

Lemma entries_ext a b : (forall j, 0 <= j < kreclaimSize - 2 -> a j = b j) -> entries a = entries b.
Proof.
  intros H. apply flat_map_ext_in. intros i I. apply in_seq in I. rewrite numE in I. unfold kreclaimSize in H. rewrite !H by lia. reflexivity.
Qed.
Lemma entries_upd a k : 0 <= k < kreclaimNumber -> exists l1 l2,
  entries a = l1 ++ opt (a (2 * k + 1), a (2 * k)) ++ l2 /\
  forall v w, entries (upd (upd a (2 * k) v) (2 * k + 1) w) = l1 ++ opt (w, v) ++ l2.
Proof.
  intros K. unfold entries.
  replace (Z.to_nat kreclaimNumber) with (Z.to_nat k + S (Z.to_nat (kreclaimNumber - 1 - k)))%nat by lia.
  rewrite seq_app, flat_map_app. cbn [seq flat_map]. rewrite Nat.add_0_l.
  set (n1 := seq 0 (Z.to_nat k)). set (n2 := seq (S (Z.to_nat k)) _).
  eexists (flat_map _ n1), (flat_map _ n2). split.
  - rewrite Z2Nat.id by lia. reflexivity.
  - intros v w. rewrite flat_map_app. cbn [flat_map]. f_equal; [|f_equal].
    + apply flat_map_ext_in. intros i I. apply in_seq in I. unfold upd.
      rewrite !(proj2 (Z.eqb_neq _ _)) by lia. reflexivity.
    + unfold upd. rewrite Z2Nat.id by lia. rewrite !Z.eqb_refl. rewrite (proj2 (Z.eqb_neq (2 * k) (2 * k + 1))) by lia. reflexivity.
    + apply flat_map_ext_in. intros i I. apply in_seq in I. unfold upd.
      rewrite !(proj2 (Z.eqb_neq _ _)) by lia. reflexivity.
Qed.
Lemma entries_zero : entries (fun _ => 0) = [].
Proof. unfold entries. induction (seq 0 (Z.to_nat kreclaimNumber)); cbn; auto. Qed.

Lemma free_app m l1 l2 : free m (l1 ++ l2) = free m l1 ++ free m l2.
Proof. apply flat_map_app. Qed.
Lemma free_ext m m' cs : (forall c j, In c cs -> 0 <= j < kreclaimSize -> m' (c + j) = m (c + j)) -> free m' cs = free m cs.
Proof. intros H. apply flat_map_ext_in. intros c C. apply entries_ext. intros j J. apply H; auto. lia. Qed.
Lemma chain_ext m m' a cs : (forall c j, In c cs -> 0 <= j < kreclaimSize -> m' (c + j) = m (c + j)) -> chain m a cs -> chain m' a cs.
Proof.
  revert a. induction cs as [|c cs IH]; cbn; intros a H C; auto. destruct C as (-> & N & C). repeat split; auto.
  rewrite H by (auto; unfold iaddLoc, kreclaimSize; lia). apply IH; auto.
Qed.

(** ** The invariant *)
Definition region_ok (lo hi : Z) (r : Z * Z) : Prop := lo <= fst r /\ 0 <= snd r /\ fst r + snd r <= hi.
Definition regions (s : fs) (live : list (Z * Z)) (cs ds : list Z) : list (Z * Z) :=
  live ++ free (f_mem s) cs ++ map seg (cs ++ ds).
Record Inv (s : fs) (live : list (Z * Z)) (cs ds : list Z) : Prop := mkInv {
  i_table : kreclaimSize <= f_table s;
  i_chain : chain (f_mem s) (f_table s) cs;
  i_len : (List.length cs <= 20)%nat;
  i_segno : 0 <= f_segno s <= 20;
  i_avail : f_avail s = 0 \/ In (f_avail s) (cs ++ ds);
  i_pw : PW (regions s live cs ds);
  i_in : Forall (region_ok (f_table s) (f_size s)) (regions s live cs ds);
  i_free : Forall (fun e => 0 < snd e <= INT_MAX) (free (f_mem s) cs);
  i_live : Forall (fun e => 0 <= snd e <= INT_MAX) live }.

(** what an operation does to the file *)
Definition Ext (s : fs) (ss : list Z) (s' : fs) (ss' : list Z) : Prop :=
  f_table s' = f_table s /\ f_size s <= f_size s' /\
  (forall x, f_table s <= x < f_size s -> (forall c, In c ss -> ~ (c <= x < c + kreclaimSize)) -> f_mem s' x = f_mem s x) /\
  (forall c, In c ss' -> In c ss \/ f_size s <= c).
Lemma Ext_refl s ss : Ext s ss s ss.
Proof. repeat split; auto; lia. Qed.
Lemma Ext_trans s ss s1 ss1 s2 ss2 : Ext s ss s1 ss1 -> Ext s1 ss1 s2 ss2 -> Ext s ss s2 ss2.
Proof.
  intros (A1 & A2 & A3 & A4) (B1 & B2 & B3 & B4). repeat split; [congruence|lia| |].
  - intros x X C. rewrite B3; [apply A3; auto|rewrite A1; lia|]. intros c I. destruct (A4 c I); [auto|lia].
  - intros c I. destruct (B4 c I) as [J|J]; [destruct (A4 c J); auto|right; lia].
Qed.

Lemma in_chain_not m a cs c : chain m a cs -> In c cs -> c <> 0.
Proof. revert a. induction cs as [|d cs IH]; cbn; intros a C []; destruct C as (_ & N & C); subst; auto. eapply IH; eauto. Qed.
(** chain up to a given segment: the address that leads to it *)
Fixpoint leads (m : Z -> Z) (a : Z) (l1 : list Z) (c : Z) : Prop :=
  match l1 with [] => a = c | d :: t => a = d /\ d <> 0 /\ leads m (m (d + iaddLoc)) t c end.
Lemma chain_app m a l1 c l2 : chain m a (l1 ++ c :: l2) <-> leads m a l1 c /\ c <> 0 /\ chain m (m (c + iaddLoc)) l2.
Proof. revert a. induction l1 as [|d l1 IH]; cbn; intros a; [tauto|]. rewrite IH. tauto. Qed.
Lemma leads_ext m m' a l1 c : (forall d j, In d l1 -> 0 <= j < kreclaimSize -> m' (d + j) = m (d + j)) -> leads m a l1 c -> leads m' a l1 c.
Proof.
  revert a. induction l1 as [|d l1 IH]; cbn; intros a H C; auto. destruct C as (-> & N & C). repeat split; auto.
  rewrite H by (auto; unfold iaddLoc, kreclaimSize; lia). apply IH; auto.
Qed.

(** ** Writing a segment *)
Lemma write_mem s p a x : f_mem (write_seg s p a) x = if (p <=? x) && (x <? p + kreclaimSize) then a (x - p) else f_mem s x.
Proof. reflexivity. Qed.

Lemma seg_disj s live cs ds c d : Inv s live cs ds -> In c (cs ++ ds) -> In d (cs ++ ds) -> c <> d ->
  c + kreclaimSize <= d \/ d + kreclaimSize <= c.
Proof.
  intros I C D N. pose proof (i_pw _ _ _ _ I) as P. unfold regions in P. apply PW_app in P. destruct P as (_ & P & _).
  apply PW_app in P. destruct P as (_ & P & _). clear I.
  induction (cs ++ ds) as [|e l IH]; [destruct C|]. cbn [map] in P. apply PW_cons in P. destruct P as [P Q].
  destruct C as [->|C], D as [->|D]; try congruence; auto.
  - destruct (Q (seg d)) as [X|[X|[X|X]]]; [apply in_map; auto|cbn in X; unfold kreclaimSize in *; lia..].
  - destruct (Q (seg c)) as [X|[X|[X|X]]]; [apply in_map; auto|cbn in X; unfold kreclaimSize in *; lia..].
Qed.
Lemma seg_in s live cs ds c : Inv s live cs ds -> In c (cs ++ ds) -> f_table s <= c /\ c + kreclaimSize <= f_size s.
Proof.
  intros I C. pose proof (i_in _ _ _ _ I) as P. rewrite Forall_forall in P. specialize (P (seg c)). unfold region_ok in P. cbn in P.
  assert (X : In (seg c) (regions s live cs ds)) by (unfold regions; rewrite !in_app_iff; right; right; apply in_map; auto).
  apply P in X. lia.
Qed.
Lemma cs_nodup s live cs ds : Inv s live cs ds -> NoDup (cs ++ ds).
Proof.
  intros I. pose proof (i_pw _ _ _ _ I) as P. unfold regions in P. apply PW_app in P. destruct P as (_ & P & _).
  apply PW_app in P. destruct P as (_ & P & _). clear I.
  induction (cs ++ ds) as [|e l IH]; [constructor|]. cbn [map] in P. apply PW_cons in P. destruct P as [P Q]. constructor; auto.
  intros E. destruct (Q (seg e)) as [X|[X|[X|X]]]; [apply in_map; auto|cbn in X; unfold kreclaimSize in *; lia..].
Qed.

(** words of other segments are not touched *)
Lemma write_other s live cs ds p a : Inv s live cs ds -> (p = 0 \/ In p (cs ++ ds)) ->
  forall c j, In c (cs ++ ds) -> c <> p -> 0 <= j < kreclaimSize -> f_mem (write_seg s p a) (c + j) = f_mem s (c + j).
Proof.
  intros I P c j C N J. rewrite write_mem. destruct (_ && _) eqn:E; [|reflexivity]. exfalso.
  destruct (seg_in _ _ _ _ _ I C) as [C1 C2]. pose proof (i_table _ _ _ _ I).
  destruct P as [->|P]; [lia|]. destruct (seg_disj _ _ _ _ _ _ I C P N); lia.
Qed.
Lemma Ext_write s live cs ds p a ss : Inv s live cs ds -> (p = 0 \/ In p (cs ++ ds)) ->
  (forall c, In c (cs ++ ds) -> In c ss) -> Ext s ss (write_seg s p a) ss.
Proof.
  intros I P Sub. repeat split; auto; [cbn; lia|]. intros x X C. rewrite write_mem. destruct (_ && _) eqn:E; [|reflexivity]. exfalso.
  pose proof (i_table _ _ _ _ I). destruct P as [->|P]; [lia|]. apply (C p); auto. lia.
Qed.

Lemma inv_offchain s live cs ds p a : Inv s live cs ds -> (p = 0 \/ In p ds) -> Inv (write_seg s p a) live cs ds.
Proof.
  intros I P.
  assert (W : forall c j, In c cs -> 0 <= j < kreclaimSize -> f_mem (write_seg s p a) (c + j) = f_mem s (c + j)).
  { intros c j C J. apply (write_other _ _ _ _ _ _ I); auto; [destruct P; auto; right; apply in_or_app; auto|apply in_or_app; auto|].
    intros ->. destruct P as [->|P]; [eapply in_chain_not; [apply (i_chain _ _ _ _ I)|exact C|reflexivity]|].
    pose proof (cs_nodup _ _ _ _ I) as N. apply in_split in C. destruct C as (x & y & ->). rewrite <- app_assoc in N.
    apply NoDup_remove_2 in N. apply N. rewrite !in_app_iff. auto. }
  pose proof (free_ext (f_mem s) (f_mem (write_seg s p a)) cs W) as F.
  destruct I. constructor; auto.
  - cbn. eapply chain_ext; eauto.
  - unfold regions. rewrite F. exact i_pw0.
  - unfold regions. rewrite F. exact i_in0.
  - rewrite F. exact i_free0.
Qed.

Lemma inv_write s live live' l1 p l2 ds a : Inv s live (l1 ++ p :: l2) ds ->
  a iaddLoc = f_mem s (p + iaddLoc) ->
  PW (live' ++ (free (f_mem s) l1 ++ entries a ++ free (f_mem s) l2) ++ map seg ((l1 ++ p :: l2) ++ ds)) ->
  Forall (region_ok (f_table s) (f_size s)) (live' ++ (free (f_mem s) l1 ++ entries a ++ free (f_mem s) l2) ++ map seg ((l1 ++ p :: l2) ++ ds)) ->
  Forall (fun e => 0 < snd e <= INT_MAX) (entries a) ->
  Forall (fun e => 0 <= snd e <= INT_MAX) live' ->
  Inv (write_seg s p a) live' (l1 ++ p :: l2) ds.
Proof.
  intros I L P1 P2 P3 P4.
  pose proof (cs_nodup _ _ _ _ I) as N. rewrite <- app_assoc in N. cbn in N.
  assert (W : forall c j, In c l1 \/ In c l2 -> 0 <= j < kreclaimSize -> f_mem (write_seg s p a) (c + j) = f_mem s (c + j)).
  { intros c j C J. apply (write_other _ _ _ _ _ _ I); auto.
    - right. rewrite !in_app_iff. cbn. auto.
    - rewrite !in_app_iff. cbn. tauto.
    - intros ->. apply NoDup_remove_2 in N. apply N. rewrite !in_app_iff. tauto. }
  assert (E : entries (fun j => f_mem (write_seg s p a) (p + j)) = entries a).
  { apply entries_ext. intros j J. rewrite write_mem. replace (_ && _) with true by lia. f_equal. lia. }
  assert (F : free (f_mem (write_seg s p a)) (l1 ++ p :: l2) = free (f_mem s) l1 ++ entries a ++ free (f_mem s) l2).
  { rewrite free_app. f_equal; [apply free_ext; auto|]. change (p :: l2) with ([p] ++ l2). rewrite free_app. f_equal; [|apply free_ext; auto].
    cbn. rewrite app_nil_r. exact E. }
  destruct I. rewrite free_app in i_free0. change (p :: l2) with ([p] ++ l2) in i_free0. rewrite free_app in i_free0.
  apply Forall_app in i_free0. destruct i_free0 as [F1 F2]. apply Forall_app in F2. destruct F2 as [_ F2].
  constructor; auto.
  - cbn [f_table write_seg set_mem]. apply chain_app. apply chain_app in i_chain0. destruct i_chain0 as (C1 & C2 & C3).
    split; [apply (leads_ext (f_mem s)); auto|]. split; auto.
    replace (f_mem (write_seg s p a) (p + iaddLoc)) with (f_mem s (p + iaddLoc)).
    + apply (chain_ext (f_mem s)); auto.
    + rewrite write_mem. unfold iaddLoc, kreclaimSize in *. replace (_ && _) with true by lia. rewrite <- L. f_equal. lia.
  - unfold regions. rewrite F. exact P1.
  - unfold regions. rewrite F. exact P2.
  - rewrite F. rewrite !Forall_app. auto.
Qed.

Lemma perm_mid {A} (live F1 l1 X l2 F2 S : list A) :
  Permutation (live ++ (F1 ++ (l1 ++ X ++ l2) ++ F2) ++ S) (X ++ (live ++ F1 ++ l1 ++ l2 ++ F2 ++ S)).
Proof.
  rewrite <- !app_assoc.
  replace (live ++ F1 ++ l1 ++ X ++ l2 ++ F2 ++ S) with ((live ++ F1 ++ l1) ++ X ++ (l2 ++ F2 ++ S)) by (rewrite <- !app_assoc; reflexivity).
  replace (X ++ live ++ F1 ++ l1 ++ l2 ++ F2 ++ S) with (X ++ (live ++ F1 ++ l1) ++ (l2 ++ F2 ++ S)) by (rewrite <- !app_assoc; reflexivity).
  rewrite (app_assoc (live ++ F1 ++ l1) X), (app_assoc X (live ++ F1 ++ l1)). apply Permutation_app_tail. apply Permutation_app_comm.
Qed.

(** one entry of a segment of the chain is replaced *)
Lemma inv_entry s live live' LV Y0 Y1 cs p ds k v w :
  Inv s live cs ds -> In p cs -> 0 <= k < kreclaimNumber ->
  Permutation live (Y0 ++ LV) -> Permutation live' (Y1 ++ LV) ->
  (forall Q, PW (Y0 ++ opt (f_mem s (p + (2 * k + 1)), f_mem s (p + 2 * k)) ++ Q) -> PW (Y1 ++ opt (w, v) ++ Q)) ->
  (forall Q, Forall (region_ok (f_table s) (f_size s)) (Y0 ++ opt (f_mem s (p + (2 * k + 1)), f_mem s (p + 2 * k)) ++ Q) ->
             Forall (region_ok (f_table s) (f_size s)) (Y1 ++ opt (w, v) ++ Q)) ->
  (v <> 0 -> 0 < v <= INT_MAX) -> Forall (fun e => 0 <= snd e <= INT_MAX) Y1 ->
  Inv (write_seg s p (upd (upd (read_seg s p) (2 * k) v) (2 * k + 1) w)) live' cs ds.
Proof.
  intros I Pin K L0 L1 H1 H2 HV HY. apply in_split in Pin. destruct Pin as (c1 & c2 & ->).
  destruct (entries_upd (read_seg s p) k K) as (l1 & l2 & E1 & E2).
  pose proof (i_pw _ _ _ _ I) as PW0. pose proof (i_in _ _ _ _ I) as IN0. pose proof (i_free _ _ _ _ I) as FR.
  unfold regions in PW0, IN0. rewrite free_app in PW0, IN0, FR. change (p :: c2) with ([p] ++ c2) in PW0, IN0, FR.
  rewrite (free_app _ [p]) in PW0, IN0, FR.
  assert (FP : free (f_mem s) [p] = l1 ++ opt (f_mem s (p + (2 * k + 1)), f_mem s (p + 2 * k)) ++ l2) by (cbn; rewrite app_nil_r; exact E1).
  rewrite FP in PW0, IN0, FR.
  set (e := opt (_, f_mem s (p + 2 * k))) in *.
  set (S := map seg _) in *. set (F1 := free _ c1) in *. set (F2 := free _ c2) in *.
  assert (P0 : Permutation (live ++ (F1 ++ (l1 ++ e ++ l2) ++ F2) ++ S) (Y0 ++ e ++ (LV ++ F1 ++ l1 ++ l2 ++ F2 ++ S))).
  { rewrite L0, <- app_assoc. apply Permutation_app_head. apply perm_mid. }
  assert (P1 : Permutation (live' ++ (F1 ++ (l1 ++ opt (w, v) ++ l2) ++ F2) ++ S) (Y1 ++ opt (w, v) ++ (LV ++ F1 ++ l1 ++ l2 ++ F2 ++ S))).
  { rewrite L1, <- app_assoc. apply Permutation_app_head. apply perm_mid. }
  apply (inv_write s live live' c1 p c2 ds); [exact I|..].
  - unfold upd. rewrite !(proj2 (Z.eqb_neq _ _)) by (unfold iaddLoc, kreclaimSize; rewrite numE in K; lia). reflexivity.
  - rewrite E2. eapply PW_perm; [apply Permutation_sym; exact P1|]. apply H1. eapply PW_perm; [exact P0|exact PW0].
  - rewrite E2. eapply Permutation_Forall; [apply Permutation_sym; exact P1|]. apply H2. eapply Permutation_Forall; [exact P0|exact IN0].
  - rewrite E2. apply Forall_app in FR. destruct FR as [_ FR]. apply Forall_app in FR. destruct FR as [FR _]. rewrite !Forall_app in FR. destruct FR as (A & _ & B). rewrite !Forall_app. repeat split; auto.
    unfold opt. cbn. destruct (Z.eqb_spec v 0); auto.
  - eapply Permutation_Forall; [apply Permutation_sym, L1|]. apply Forall_app. split; auto.
    pose proof (i_live _ _ _ _ I) as LL. eapply Permutation_Forall in LL; [|exact L0]. apply Forall_app in LL. tauto.
Qed.
