(** * C59: concrete blocks. *)
From Coq Require Import ZArith List Lia Bool ZifyBool.
From Verif Require Import Base ArrayLib TrimModel TrimProofs ValidModel ValidSpec ValidProps.
Import ListNotations.
Open Scope Z_scope.

(** -901 is missing *)
Definition m901 (v : Z) : bool := v =? -901.
Definition blk1 (v q : list Z) (lines : list (list Z)) : blk :=
  mkblk v 0 (Z.of_nat (length v)) q (if 0 <? Z.of_nat (length q) then 1 else 0) [] 0 (notes_text lines) (Z.of_nat (length (notes_text lines))).
Lemma blk1_ok v q lines : Z.of_nat (length v) < 2 ^ 31 -> q = [] \/ length q = length v -> lines = [] \/ length lines = length v ->
  forallb (forallb (fun c => negb (c =? 0))) lines = true -> block_ok (blk1 v q lines) lines.
Proof.
  intros H1 H2 H3 H4. unfold block_ok, blk1, width. cbn [b_vals b_depth b_num b_qual b_qsize b_notes b_nsize b_cnotes b_clen]. change (0 =? 0) with true. cbv iota.
  assert (HQ : (if 0 <? Z.of_nat (length q) then 1 else 0) = 0 \/ ((if 0 <? Z.of_nat (length q) then 1 else 0) = 1 /\ length q = length v)).
  { destruct H2 as [->|H2]; [left; reflexivity|]. destruct (0 <? Z.of_nat (length q)); [right|left]; auto. }
  destruct HQ as [->|[-> HQ]]; (repeat (split; [lia|])); (split; [reflexivity|]); (split; [reflexivity|]); (split; [destruct H3 as [->|H3]; [left; reflexivity|right; lia]|]);
    rewrite forallb_forall in H4; apply Forall_forall; intros l Hl Q; specialize (H4 l Hl); rewrite forallb_forall in H4; specialize (H4 0 Q); discriminate.
Qed.
(** missing, a quality, a value, a text, missing: the first is time 1, the last is time 3 *)
Definition mixed_block (v3 : Z) : blk := blk1 [-901; -901; 5; v3; -901] [0; 3; 0; 0; 0] [[]; []; [65]; [66; 67]; []].
Example mixed_ok v3 : block_ok (mixed_block v3) [[]; []; [65]; [66; 67]; []].
Proof. apply blk1_ok; auto. cbn. lia. Qed.
Lemma nothing_at_4 v3 i : 3 < i < b_num (mixed_block v3) -> ~ something m901 (mixed_block v3) [[]; []; [65]; [66; 67]; []] i.
Proof.
  intros H. cbn in H. assert (i = 4) by lia. subst i. intros [[(j & J & Q)|[(j & J & Q)|(j & J & Q)]]|Q].
  - change (width (mixed_block v3)) with 1 in *. assert (j = 0) by lia. subst j. discriminate.
  - change (b_qsize (mixed_block v3)) with 1 in *. assert (j = 0) by lia. subst j. apply Q. reflexivity.
  - change (b_nsize (mixed_block v3)) with 0 in *. lia.
  - apply Q. reflexivity.
Qed.
Example C59_last_example : exists f, ztsFirstLastValidValues m901 1 (mixed_block 7) = Ok (0, f, 3).
Proof.
  apply (C59_last_partial m901 1 (mixed_block 7) _ 3 (mixed_ok 7)); [auto|cbn; lia| |apply nothing_at_4]. left. exists 0. split; [cbn; lia|reflexivity].
Qed.
Example C59_first_example : ztsFirstLastValidValues m901 1 (mixed_block 7) = Ok (0, 1, 3) /\ ztsFirstLastValidValues m901 2 (mixed_block 7) = Ok (0, 1, 3).
Proof. split; vm_compute; reflexivity. Qed.
(** time 3 has only a text, time 2 a value: both searches answer 2 *)
Example C59_note_example : ztsFirstLastValidValues m901 1 (mixed_block (-901)) = Ok (0, 1, 2) /\ ztsFirstLastValidValues m901 2 (mixed_block (-901)) = Ok (0, 1, 2).
Proof. split; vm_compute; reflexivity. Qed.
Example C59_float_hypotheses_example : exists f, ztsFirstLastValidValues m901 1 (mixed_block (-901)) = Ok (0, f, 2).
Proof.
  apply (C59_refuted_float_note m901 (mixed_block (-901)) _ 3 (mixed_ok _)); [cbn; lia|discriminate| |apply nothing_at_4].
  intros [(j & J & Q)|[(j & J & Q)|(j & J & Q)]].
  - change (width (mixed_block (-901))) with 1 in *. assert (j = 0) by lia. subst j. discriminate.
  - change (b_qsize (mixed_block (-901))) with 1 in *. assert (j = 0) by lia. subst j. apply Q. reflexivity.
  - change (b_nsize (mixed_block (-901))) with 0 in *. lia.
Qed.
(** with nothing at time 2 the search for doubles is right *)
Example C59_double_example :
  let b := blk1 [5; -901; -901; -901] [] [[]; []; [66; 67]; []] in
  ztsFirstLastValidValues m901 2 b = Ok (0, 0, 2) /\ ztsFirstLastValidValues m901 1 b = Ok (0, 0, 1).
Proof. split; vm_compute; reflexivity. Qed.
Example C59_only_first_example : ztsFirstLastValidValues m901 1 (blk1 [-901; -901] [] [[65; 66; 67]; []]) = Ok (0, 0, -1).
Proof. vm_compute. reflexivity. Qed.
Example C59_all_missing_example : ztsFirstLastValidValues m901 2 (blk1 [-901; -901] [0; 0] [[]; []]) = Ok (1, 0, 0).
Proof. vm_compute. reflexivity. Qed.
