(** * C44: selecting the times of an irregular block that lie in a time window. *)
From Coq Require Import ZArith List Bool Lia Sorting.Sorted.
From Verif Require Import Base DateModel DateSpec.
Import ListNotations.
Open Scope Z_scope.
Open Scope res_scope.

(** ** Specification *)
(** time [t], in units of [g] seconds from 00:00 of day [base], is in the window *)
Definition in_window (g base sj ss ej es t : Z) : Prop :=
  instant sj ss <= instant base (t * g) <= instant ej es.
(** what a caller does (Internal/ztsIrregReadBlock.c:500-520): tests the times of a block one after the other, passing the
    status on, starting with "before" (-1) *)
Fixpoint test_all (g base sj ss ej es last : Z) (times : list Z) : res (list Z) :=
  match times with
  | [] => Ok []
  | t :: r => let* x := isTimeInRange t last g base sj ss ej es in
              let* l := test_all g base sj ss ej es (snd x) r in Ok (fst x :: l)
  end.

Lemma test_all_spec g base sj ss ej es : 0 < g -> 86400 mod g = 0 -> ss mod g = 0 -> es mod g = 0 -> 0 <= ss -> 0 <= es ->
  in32 (sj - base) -> in32 (ej - base) -> forall times last, Sorted Z.le times ->
  (0 <= last -> forall t, In t times -> instant sj ss <= instant base (t * g)) ->
  exists l, test_all g base sj ss ej es last times = Ok l /\
    Forall2 (fun t r => (r = 1 /\ in_window g base sj ss ej es t) \/ (r = 0 /\ ~ in_window g base sj ss ej es t)) times l.
Proof.
  intros Hg HD HS HE Hss Hes I1 I2. 
  assert (ED : 86400 = g * (86400 / g)) by (pose proof (Z.div_mod 86400 g ltac:(lia)); lia).
  assert (ES : ss = g * (ss / g)) by (pose proof (Z.div_mod ss g ltac:(lia)); lia).
  assert (EE : es = g * (es / g)) by (pose proof (Z.div_mod es g ltac:(lia)); lia).
  set (D := 86400 / g) in *. set (S := ss / g) in *. set (E := es / g) in *.
  assert (C1 : forall t, (t <? (sj - base) * D + S) = true <-> ~ instant sj ss <= instant base (t * g)).
  { intros t. rewrite Z.ltb_lt. unfold instant. rewrite ES. clear HD HS HE Hss Hes I1 I2 ES EE. clearbody D S E.
    replace (sj * 86400) with (g * (D * sj)) by (rewrite ED; ring). replace (base * 86400) with (g * (D * base)) by (rewrite ED; ring). split; intros; nia. }
  assert (C2 : forall t, (t >? (ej - base) * D + E) = true <-> ~ instant base (t * g) <= instant ej es).
  { intros t. rewrite Z.gtb_ltb, Z.ltb_lt. unfold instant. rewrite EE. clear HD HS HE Hss Hes I1 I2 ES EE C1. clearbody D S E.
    replace (ej * 86400) with (g * (D * ej)) by (rewrite ED; ring). replace (base * 86400) with (g * (D * base)) by (rewrite ED; ring). split; intros; nia. }
  assert (ST : forall t last, (0 <= last -> instant sj ss <= instant base (t * g)) ->
    exists r last', isTimeInRange t last g base sj ss ej es = Ok (r, last') /\
      ((r = 1 /\ in_window g base sj ss ej es t) \/ (r = 0 /\ ~ in_window g base sj ss ej es t)) /\
      (0 <= last' -> instant sj ss <= instant base (t * g))).
  { intros t last HL. unfold isTimeInRange, SECS_IN_1_DAY. replace (g <? 1) with false by (symmetry; apply Z.ltb_ge; lia). cbv zeta.
    rewrite !Z.quot_div_nonneg by lia. fold D S E. rewrite !chk32_ok by assumption. cbn [bind]. unfold in_window. destruct (last <? 0) eqn:L.
    - destruct (t <? (sj - base) * D + S) eqn:B.
      + do 2 eexists. split; [reflexivity|]. split; [right; split; [reflexivity|apply C1 in B; tauto]|]. apply Z.ltb_lt in L. lia.
      + assert (G : instant sj ss <= instant base (t * g)) by (destruct (Z_le_gt_dec (instant sj ss) (instant base (t * g))) as [Q|Q]; [exact Q|exfalso; assert (X : true = false); [|discriminate X]; rewrite <- B; symmetry; apply C1; lia]).
        destruct (t >? (ej - base) * D + E) eqn:A; do 2 eexists; (split; [reflexivity|]); (split; [|intros _; exact G]).
        * right. split; [reflexivity|apply C2 in A; tauto].
        * left. split; [reflexivity|]. split; [exact G|]. destruct (Z_le_gt_dec (instant base (t * g)) (instant ej es)) as [Q|Q]; [exact Q|exfalso; assert (X : true = false); [|discriminate X]; rewrite <- A; symmetry; apply C2; lia].
    - apply Z.ltb_ge in L. assert (G := HL L). destruct (t >? (ej - base) * D + E) eqn:A; do 2 eexists; (split; [reflexivity|]); (split; [|intros _; exact G]).
      + right. split; [reflexivity|apply C2 in A; tauto].
      + left. split; [reflexivity|]. split; [exact G|]. destruct (Z_le_gt_dec (instant base (t * g)) (instant ej es)) as [Q|Q]; [exact Q|exfalso; assert (X : true = false); [|discriminate X]; rewrite <- A; symmetry; apply C2; lia]. }
  clear C1 C2. clearbody D S E. induction times as [|t times IH]; intros last HSo HL; cbn [test_all]; [exists []; split; [reflexivity|constructor]|].
  destruct (ST t last) as (r & last' & EQ & R & N); [intros Q; apply HL; [exact Q|left; reflexivity]|]. rewrite EQ. cbn [bind fst snd].
  apply Sorted_extends in HSo as HX; [|intros a b c; apply Z.le_trans]. inversion HSo as [|? ? HS1 HS2]; subst.
  destruct (IH last' HS1) as (l & EL & FL).
  { intros Q u Hu. specialize (N Q). rewrite Forall_forall in HX. specialize (HX u Hu). unfold instant in *. nia. }
  rewrite EL. cbn [bind]. exists (r :: l). split; [reflexivity|]. constructor; assumption.
Qed.

(** Over the (ascending) times of a block, each test answers exactly whether that time is in the window.
    _partial: the window is expressed in whole units of the block's granularity; see the refutation. *)
Theorem C44_in_window_partial g base sj ss ej es times :
  0 < g -> 86400 mod g = 0 -> ss mod g = 0 -> es mod g = 0 -> 0 <= ss -> 0 <= es -> in32 (sj - base) -> in32 (ej - base) ->
  Sorted Z.le times ->
  exists l, test_all g base sj ss ej es (-1) times = Ok l /\
    Forall2 (fun t r => (r = 1 /\ in_window g base sj ss ej es t) \/ (r = 0 /\ ~ in_window g base sj ss ej es t)) times l.
Proof. intros. apply test_all_spec; auto. lia. Qed.
Print Assumptions C44_in_window_partial.
(** A window that starts at 08:00:30 over a block kept in minutes: 08:00:00, before the window, is taken as inside. *)
Theorem C44_refuted_start_truncated : exists t, isTimeInRange t (-1) 60 45000 45000 28830 45001 86400 = Ok (1, 0) /\ ~ in_window 60 45000 45000 28830 45001 86400 t.
Proof. exists 480. split; [vm_compute; reflexivity|]. unfold in_window, instant. lia. Qed.
Print Assumptions C44_refuted_start_truncated.
Example C44_example : test_all 60 45000 45000 28800 45001 28800 (-1) [0; 479; 480; 481; 1900; 1920; 1921; 5000] = Ok [0; 0; 1; 1; 1; 1; 0; 0]
  /\ Sorted Z.le [0; 479; 480; 481; 1900; 1920; 1921; 5000] /\ 86400 mod 60 = 0 /\ 28800 mod 60 = 0.
Proof. split; [vm_compute; reflexivity|]. split; [repeat constructor; lia|]. split; reflexivity. Qed.
