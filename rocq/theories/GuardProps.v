(** * C65: the integrity keys of an open file. *)
From Coq Require Import ZArith List Bool Lia ZifyBool.
From Verif Require Import Base ArrayLib GuardModel.
Import ListNotations.
Open Scope Z_scope.
Open Scope res_scope.

(** ** Specification *)
Definition blocks (t : table) : list (option (list Z)) := [header t; bin t; info t; reclaim t].
(** the second word of a block is the number of its data words *)
Definition sized (b : list Z) : Prop := exists size, 0 <= size <= 2147483644 /\ alen b = size + 3 /\ aget b 1 = Ok size.
(** and the words before and after them are 24680 *)
Definition guarded (b : list Z) : Prop := sized b /\ aget b 0 = Ok 24680 /\ aget b (alen b - 1) = Ok 24680.
(** a table of 20 words and more, whose blocks, where it has some, have the right sizes *)
Definition wf (t : table) : Prop := alen (first20 t) = 20 /\ (forall b, In (Some b) (blocks t) -> sized b).
(** the table of an open version 7 file, with nothing written over *)
Definition sound (t : table) : Prop :=
  (exists w, aget (first20 t) 0 = Ok w /\ wrap32 w = 7) /\ aget (first20 t) 2 = Ok 13579 /\ key2 t = 13579 /\ key3 t = 13579 /\
  (forall b, In (Some b) (blocks t) -> guarded b).
(** [t'] is [t], set to read only *)
Definition made_read_only (t t' : table) : Prop :=
  aget (first20 t') 6 = Ok 1 /\ (forall j, j <> 6 -> aget (first20 t') j = aget (first20 t) j) /\
  key2 t' = key2 t /\ key3 t' = key3 t /\ blocks t' = blocks t.

(** ** lemmas *)
Definition sized_o (b : option (list Z)) : Prop := match b with None => True | Some x => sized x end.
Definition guarded_o (b : option (list Z)) : Prop := match b with None => True | Some x => guarded x end.

Lemma check_block_ok b : sized_o b -> exists r, check_block b = Ok r /\ (r = true <-> guarded_o b).
Proof.
  destruct b as [blk|]; cbn [sized_o guarded_o check_block]; [|intros _; exists true; tauto].
  intros (size & R & L & S1). rewrite S1. cbn [bind].
  destruct (aget_some blk 0 ltac:(lia)) as (a & Ea). destruct (aget_some blk (size + 2) ltac:(lia)) as (e & Ee).
  rewrite Ea. cbn [bind]. rewrite wrap32_id by (unfold in32, INT_MIN, INT_MAX; lia). rewrite Ee. cbn [bind].
  eexists. split; [reflexivity|]. unfold guarded, MEMORY_KEY. replace (alen blk - 1) with (size + 2) by lia. rewrite Ea, Ee.
  split.
  - intros H. split; [now exists size|]. split; f_equal; lia.
  - intros (_ & A & B). injection A as ->. injection B as ->. reflexivity.
Qed.

Lemma check_blocks_ok t : (forall b, In (Some b) (blocks t) -> sized b) ->
  check_blocks t = Ok OKAY /\ (forall b, In (Some b) (blocks t) -> guarded b) \/
  check_blocks t = Ok KEY_CORRUPT /\ ~ (forall b, In (Some b) (blocks t) -> guarded b).
Proof.
  intros W.
  assert (S : forall o, In o (blocks t) -> sized_o o) by (intros [b|] I; [now apply W|exact Logic.I]).
  destruct (check_block_ok (header t) ltac:(apply S; cbn; tauto)) as (h & Eh & Hh).
  destruct (check_block_ok (bin t) ltac:(apply S; cbn; tauto)) as (b & Eb & Hb).
  destruct (check_block_ok (info t) ltac:(apply S; cbn; tauto)) as (i & Ei & Hi).
  destruct (check_block_ok (reclaim t) ltac:(apply S; cbn; tauto)) as (r & Er & Hr).
  assert (N : forall o, In o (blocks t) -> (forall b, In (Some b) (blocks t) -> guarded b) -> guarded_o o) by (intros [x|] I G; [now apply G|exact Logic.I]).
  unfold check_blocks. rewrite Eh. cbn [bind].
  destruct h; cbn [negb]; [|right; split; [reflexivity|]; intros G; enough (false = true) by discriminate; apply Hh, N; cbn; tauto].
  rewrite Eb. cbn [bind].
  destruct b; cbn [negb]; [|right; split; [reflexivity|]; intros G; enough (false = true) by discriminate; apply Hb, N; cbn; tauto].
  rewrite Ei. cbn [bind].
  destruct i; cbn [negb]; [|right; split; [reflexivity|]; intros G; enough (false = true) by discriminate; apply Hi, N; cbn; tauto].
  rewrite Er. cbn [bind].
  destruct r; cbn [negb]; [|right; split; [reflexivity|]; intros G; enough (false = true) by discriminate; apply Hr, N; cbn; tauto].
  left. split; [reflexivity|]. intros x [X|[X|[X|[X|[]]]]].
  - assert (Q : guarded_o (header t)) by now apply Hh. rewrite X in Q. exact Q.
  - assert (Q : guarded_o (bin t)) by now apply Hb. rewrite X in Q. exact Q.
  - assert (Q : guarded_o (info t)) by now apply Hi. rewrite X in Q. exact Q.
  - assert (Q : guarded_o (reclaim t)) by now apply Hr. rewrite X in Q. exact Q.
Qed.

Lemma set_ro t : wf t -> exists t', set_read_only t = Ok t' /\ made_read_only t t'.
Proof.
  intros (L & _). destruct (aset_ok (first20 t) 6 STAT_READ_ONLY ltac:(lia)) as (w & E & _ & G).
  unfold set_read_only. rewrite E. cbn [bind]. eexists. split; [reflexivity|].
  unfold made_read_only, blocks. cbn [first20 key2 key3 header bin info reclaim]. repeat split.
  - rewrite G. reflexivity.
  - intros j J. rewrite G. destruct (j =? 6) eqn:X; [lia|reflexivity].
Qed.

Lemma zcheckKeys_ok t : wf t ->
  zcheckKeys t = Ok (OKAY, t) /\ sound t \/
  ~ sound t /\ exists c t', zcheckKeys t = Ok (c, t') /\ c <> OKAY /\ (c = NOT_OPENED /\ t' = t \/ c <> NOT_OPENED /\ made_read_only t t').
Proof.
  intros W. pose proof W as (L & B). destruct (aget_some (first20 t) 0 ltac:(lia)) as (w & E0).
  destruct (aget_some (first20 t) 2 ltac:(lia)) as (k & E2). destruct (set_ro t W) as (t' & Et & R).
  unfold zcheckKeys. rewrite E0. cbn [bind].
  destruct ((wrap32 w <? 0) && forallb (fun w => w <? 0) (first20 t)) eqn:C.
  { right. split; [intros ((w' & A & V) & _); rewrite E0 in A; injection A as <-; lia|].
    exists NOT_OPENED, t. split; [reflexivity|]. split; [discriminate|]. now left. }
  destruct (wrap32 w =? 7) eqn:V; cbn [negb].
  2: { right. split; [intros ((w' & A & V') & _); rewrite E0 in A; injection A as <-; lia|].
    cbn [bind]. destruct (forallb (fun w => w =? 0) (first20 t)); rewrite Et; cbn [bind]; do 2 eexists; (split; [reflexivity|]); (split; [discriminate|]); right; (split; [discriminate|exact R]). }
  rewrite E2. cbn [bind].
  assert (BAD : ~ sound t -> (let* t0 := set_read_only t in Ok (KEY_CORRUPT, t0)) = Ok (OKAY, t) /\ sound t \/
    ~ sound t /\ exists c t', (let* t0 := set_read_only t in Ok (KEY_CORRUPT, t0)) = Ok (c, t') /\ c <> OKAY /\ (c = NOT_OPENED /\ t' = t \/ c <> NOT_OPENED /\ made_read_only t t')).
  { intros N. right. split; [exact N|]. rewrite Et. cbn [bind]. do 2 eexists. split; [reflexivity|]. split; [discriminate|].
    right. split; [discriminate|exact R]. }
  unfold INTEGRITY_KEY.
  destruct (k =? 13579) eqn:K1; cbn [negb bind]; [|apply BAD; intros (_ & A & _); rewrite E2 in A; injection A as A; lia].
  destruct (key2 t =? 13579) eqn:K2; cbn [negb bind]; [|apply BAD; intros (_ & _ & A & _); lia].
  destruct (key3 t =? 13579) eqn:K3; cbn [negb bind]; [|apply BAD; intros (_ & _ & _ & A & _); lia].
  destruct (check_blocks_ok t B) as [(E & G)|(E & G)]; rewrite E; cbn [bind].
  - left. split; [reflexivity|]. repeat split.
    + exists w. split; [exact E0|lia].
    + rewrite E2. f_equal. lia.
    + lia.
    + lia.
    + apply (G b H).
    + apply (G b H).
    + apply (G b H).
  - apply BAD. intros (_ & _ & _ & _ & A). contradiction.
Qed.

(** ** Theorems *)
(** a block as obtained is guarded, whatever is then written in its data words *)
Theorem C65_fresh size : 0 <= size <= 2147483644 -> guarded (zmemoryGet size).
Proof.
  intros H. assert (L : alen (zmemoryGet size) = size + 3).
  { unfold alen, zmemoryGet. cbn [app length]. rewrite app_length, repeat_length. cbn [length]. lia. }
  split; [|split].
  - exists size. split; [exact H|]. split; [exact L|reflexivity].
  - reflexivity.
  - rewrite L. unfold aget. destruct (size + 3 - 1 <? 0) eqn:E; [lia|].
    unfold zmemoryGet. rewrite app_assoc. rewrite nth_error_app2 by (cbn [app length]; rewrite repeat_length; lia).
    cbn [app length]. rewrite repeat_length. replace (Z.to_nat (size + 3 - 1) - S (S (Z.to_nat size)))%nat with 0%nat by lia. reflexivity.
Qed.
Print Assumptions C65_fresh.

Theorem C65_use b i v : guarded b -> 2 <= i < alen b - 1 -> exists b', aset b i v = Ok b' /\ guarded b'.
Proof.
  intros ((size & R & L & S1) & A & E) H. destruct (aset_ok b i v ltac:(lia)) as (b' & X & L' & G).
  exists b'. split; [exact X|]. split; [|split].
  - exists size. split; [exact R|]. split; [lia|]. rewrite G. destruct (1 =? i) eqn:Q; [lia|exact S1].
  - rewrite G. destruct (0 =? i) eqn:Q; [lia|exact A].
  - rewrite L', G. destruct (alen b - 1 =? i) eqn:Q; [lia|exact E].
Qed.
Print Assumptions C65_use.

(** as long as the sizes of the blocks are right: the check passes exactly for the table of an open version 7 file with no key
    written over, and then changes nothing *)
Theorem C65_passes_partial t : wf t -> ((exists t', zcheckKeys t = Ok (OKAY, t')) <-> sound t) /\
  (sound t -> zcheckKeys t = Ok (OKAY, t)).
Proof.
  intros W. destruct (zcheckKeys_ok t W) as [(E & S)|(N & c & t' & E & C & _)].
  - split; [split; [auto|eauto]|auto].
  - split; [|contradiction]. split; [|contradiction]. intros (t2 & E2). rewrite E in E2. injection E2 as X _. contradiction.
Qed.
Print Assumptions C65_passes_partial.

(** and otherwise there is an error, and the file is set to read only, unless it was never opened *)
Theorem C65_refuses_partial t : wf t -> ~ sound t ->
  exists c t', zcheckKeys t = Ok (c, t') /\ c <> OKAY /\ (c = NOT_OPENED /\ t' = t \/ c <> NOT_OPENED /\ made_read_only t t').
Proof. intros W N. destruct (zcheckKeys_ok t W) as [(_ & S)|(_ & H)]; [contradiction|exact H]. Qed.
Print Assumptions C65_refuses_partial.

(** refuted without that condition: when the write before a block covers its size too, the check itself reads outside of the block *)
Definition sample_words : list Z := [7; 3; 13579; 0; 0; 0; 2; 0; 0; 0; 0; 0; 0; 0; 0; 0; 0; 0; 0; 0].
Definition sample (b : list Z) : table := mkTable sample_words 13579 13579 (Some b) None (Some (zmemoryGet 4)) None.
Theorem C65_refuted_size : zcheckKeys (sample [24680; 1000; 0; 0; 24680]) = Undef.
Proof. vm_compute. reflexivity. Qed.
Print Assumptions C65_refuted_size.

(** "closed" is said only once: the check of a closed table marks it, and the next check calls it corrupt *)
Definition closed_table : table := mkTable (repeat 0 20) 0 0 None None None None.
Definition marked_table : table := mkTable (repeat 0 6 ++ [1] ++ repeat 0 13) 0 0 None None None None.
Theorem C65_refuted_closed : zcheckKeys closed_table = Ok (CLOSED_FILE, marked_table) /\ zcheckKeys marked_table = Ok (IFLTAB_CORRUPT, marked_table).
Proof. split; vm_compute; reflexivity. Qed.
Print Assumptions C65_refuted_closed.

(** the table of an open version 6 file is not called incompatible but corrupt, and its word 6 is overwritten *)
Theorem C65_refuted_version6 rest w k2 k3 h b i r a1 a2 a3 a4 a5 :
  zcheckKeys (mkTable (6 :: a1 :: a2 :: a3 :: a4 :: a5 :: w :: rest) k2 k3 h b i r) =
  Ok (IFLTAB_CORRUPT, mkTable (6 :: a1 :: a2 :: a3 :: a4 :: a5 :: 1 :: rest) k2 k3 h b i r).
Proof. reflexivity. Qed.
Print Assumptions C65_refuted_version6.

(** an open file passes; with the word after a block written over it does not *)
Example C65_example_pass : zcheckKeys (sample (zmemoryGet 3)) = Ok (OKAY, sample (zmemoryGet 3)).
Proof. vm_compute. reflexivity. Qed.
Example C65_example_overrun : match zcheckKeys (sample [24680; 2; 0; 0; 5]) with Ok (KEY_CORRUPT, _) => True | _ => False end.
Proof. vm_compute. exact Logic.I. Qed.
Example C65_example_wf : wf (sample [24680; 2; 0; 0; 5]).
Proof.
  split; [reflexivity|]. intros b [X|[X|[X|[X|[]]]]]; inversion X; subst.
  - exists 2. repeat split; lia.
  - apply C65_fresh. lia.
Qed.
