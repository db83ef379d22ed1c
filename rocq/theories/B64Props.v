(** * C53: base 64 text stands for the bytes it was made from. *)
From Coq Require Import ZArith List Lia Bool ZifyBool.
From Verif Require Import Base ArrayLib CStr CStrProofs HecProofs B64Model B64Spec B64Proofs.
Import ListNotations.
Open Scope Z_scope.
Open Scope res_scope.

Lemma text_length s : length (b64_text s) = text_len (length s).
Proof.
  assert (H : forall n s, (length s < n)%nat -> length (b64_text s) = text_len (length s)); [|exact (H (S (length s)) s (Nat.lt_succ_diag_r _))].
  clear s. induction n as [|n IH]; intros s L; [lia|]. destruct s as [|a [|b [|c s]]]; [reflexivity..|]. cbn [b64_text length] in *. rewrite text_len_step, IH by lia. reflexivity.
Qed.
Lemma b64_char_nz d : b64_char d <> 0 \/ d < 0.
Proof. unfold b64_char. destruct (d <? 26) eqn:A; [lia|]. destruct (d <? 52) eqn:B; [lia|]. destruct (d <? 62) eqn:C; [lia|]. destruct (d =? 62); lia. Qed.
Lemma digit_nn v k : 0 <= b64_digit v k.
Proof. unfold b64_digit. apply Z.mod_pos_bound. lia. Qed.
Lemma nzc v k : b64_char (b64_digit v k) <> 0.
Proof. pose proof (digit_nn v k). destruct (b64_char_nz (b64_digit v k)); [assumption|lia]. Qed.
Lemma text_nz s : Forall (fun c => c <> 0) (b64_text s).
Proof.
  assert (H : forall n s, (length s < n)%nat -> Forall (fun c => c <> 0) (b64_text s)); [|exact (H (S (length s)) s (Nat.lt_succ_diag_r _))].
  clear s. induction n as [|n IH]; intros s L; [lia|]. destruct s as [|a [|b [|c s]]]; cbn [b64_text length] in *; repeat constructor; try apply nzc; try discriminate. apply IH. lia.
Qed.
Lemma text_len_bounds n : (n <= 3 * (text_len n / 4) <= text_len n)%nat /\ (text_len n = 4 * (text_len n / 4))%nat /\ (3 * (text_len n / 4) <= n + 2)%nat.
Proof.
  unfold text_len. pose proof (Nat.div_mod (n + 2) 3 ltac:(lia)). pose proof (Nat.mod_upper_bound (n + 2) 3 ltac:(lia)). replace (4 * ((n + 2) / 3))%nat with ((n + 2) / 3 * 4)%nat by lia. rewrite Nat.div_mul by lia. lia.
Qed.

(** The text made of any bytes is the base 64 text of RFC 4648. *)
Theorem C53_encode : forall s tail, Forall byte s -> slen s <= 1500000000 -> b64Encode (s ++ tail) (slen s) = Ok (0, Some (b64_text s ++ [0])).
Proof.
  intros s tail B L. unfold b64Encode. pose proof (slen_nonneg s). assert (E : b64EncodedLen (slen s) = Z.of_nat (text_len (length s))).
  { unfold b64EncodedLen, text_len, slen. destruct (Z.of_nat (length s) =? 0) eqn:E0; [replace (length s) with 0%nat by lia; reflexivity|]. replace (Z.of_nat (length s) <? 0) with false by lia.
    rewrite Z.quot_div_nonneg by lia. pose proof (Nat.div_mod (length s + 2) 3 ltac:(lia)). pose proof (Nat.mod_upper_bound (length s + 2) 3 ltac:(lia)). dm (Z.of_nat (length s) - 1) 3. lia. }
  rewrite E. destruct (text_len_bounds (length s)) as (_ & T1 & T2). rewrite chk32_ok by (unfold in32, INT_MIN, INT_MAX, slen in *; lia). cbn [bind]. replace (Z.of_nat (text_len (length s)) <? 0) with false by lia.
  replace (Z.to_nat (Z.of_nat (text_len (length s)) + 1)) with (text_len (length s) + 1)%nat by lia.
  pose proof (enc_loop_ok (S (Z.to_nat (slen s))) s [] tail [] 1 B ltac:(unfold slen; lia)) as Q. cbn [app] in Q. change (slen []) with 0 in Q. rewrite Q. cbn [bind repeat].
  rewrite aset_at by (unfold slen; rewrite text_length; reflexivity). reflexivity.
Qed.
Print Assumptions C53_encode.

(** Decoding the text of four bytes or more gives the bytes back, and zeros after them.  _partial: shorter ones are refused (refuted below). *)
Theorem C53_round_trip_partial : forall s tail, Forall byte s -> 4 <= slen s <= 1500000000 -> exists text buf n,
  b64Encode s (slen s) = Ok (0, Some text) /\ b64Decode (text ++ tail) = Ok (0, Some (buf, n)) /\ stake (slen s) buf = s /\ Forall (fun c => c = 0) (sdrop (slen s) buf).
Proof.
  intros s tail B L. exists (b64_text s ++ [0]), (s ++ repeat 0 (text_len (length s) - length s)), (used s). split.
  { rewrite <- (app_nil_r s) at 1. apply C53_encode; [assumption|lia]. }
  split; [|split; [apply stake_app|rewrite sdrop_app; apply Forall_forall; intros x I; apply repeat_spec in I; exact I]].
  rewrite <- app_assoc. cbn [app]. unfold b64Decode. rewrite cstr_in_buf by apply text_nz. cbn [bind]. destruct (text_len_bounds (length s)) as (T0 & T1 & T2).
  set (q := (text_len (length s) / 4)%nat) in *. clearbody q.
  assert (ED : b64DecodedLen (slen (b64_text s)) = 3 * Z.of_nat q).
  { unfold b64DecodedLen, slen. rewrite text_length. rewrite T1. replace (Z.of_nat (4 * q)) with (Z.of_nat q * 4) by lia.
    replace (Z.of_nat q * 4 <? 0) with false by lia. rewrite Z.rem_mul by lia. change (negb (0 =? 0)) with false. cbv iota. rewrite Z.quot_mul by lia. lia. }
  rewrite ED. unfold slen in L. replace (3 * Z.of_nat q <? 4) with false by lia.
  assert (AL : alen (b64_text s ++ 0 :: tail) = 4 * Z.of_nat q + 1 + Z.of_nat (length tail)) by (unfold alen; rewrite app_length, text_length; cbn [length]; lia).
  destruct (aget_some (b64_text s ++ 0 :: tail) (3 * Z.of_nat q - 2) ltac:(lia)) as (u & ->). cbn [bind].
  assert (X : exists len, (if u =? 61 then Ok (3 * Z.of_nat q - 2) else let* b := aget (b64_text s ++ 0 :: tail) (3 * Z.of_nat q - 1) in if b =? 61 then Ok (3 * Z.of_nat q - 1) else Ok (3 * Z.of_nat q)) = Ok len /\ 0 <= len).
  { destruct (u =? 61); [eexists; split; [reflexivity|lia]|]. destruct (aget_some (b64_text s ++ 0 :: tail) (3 * Z.of_nat q - 1) ltac:(lia)) as (v & ->). cbn [bind]. destruct (v =? 61); eexists; (split; [reflexivity|lia]). }
  destruct X as (len & -> & P). cbn [bind]. replace (len <? 0) with false by lia. rewrite text_length.
  pose proof (dec_loop_ok (S (text_len (length s))) s [] tail [] 0 B ltac:(lia)) as Q. cbn [app] in Q. change (slen []) with 0 in Q. rewrite Nat.add_0_r in Q. rewrite Q. cbn [bind]. change (0 =? 0) with true. cbv iota. rewrite Nat.add_0_r. reflexivity.
Qed.
Print Assumptions C53_round_trip_partial.
(** Different bytes have different texts. *)
Theorem C53_distinct : forall s s', Forall byte s -> Forall byte s' -> slen s <= 1500000000 -> slen s' <= 1500000000 -> b64_text s = b64_text s' -> s = s'.
Proof.
  intros s s' B B' L L' E. pose proof (f_equal (@length Z) E) as E2. rewrite !text_length in E2.
  pose proof (dec_loop_ok (S (length s)) s [] [] [] 0 B ltac:(lia)) as Q. pose proof (dec_loop_ok (S (S (length s) + length s')) s' [] [] [] 0 B' ltac:(lia)) as Q'.
  pose proof (dec_loop_ok (S (S (length s) + length s')) s [] [] [] 0 B ltac:(lia)) as Q2. rewrite E in Q2 at 1. rewrite E2 in Q2 at 1. rewrite Q' in Q2. injection Q2 as Q2 U.
  assert (LL : length s = length s').
  { cut (forall n s, (length s < n)%nat -> Z.of_nat (length s) = used s - (used s + 3) / 4). { intros H. pose proof (H (S (length s)) s ltac:(lia)). pose proof (H (S (length s')) s' ltac:(lia)). rewrite U in *. lia. }
    clear. induction n as [|n IH]; intros s L; [lia|]. destruct s as [|a [|b [|c s]]]; [reflexivity..|]. cbn [used length] in *. specialize (IH s ltac:(lia)). replace (4 + used s + 3) with (used s + 3 + 1 * 4) by lia. rewrite Z.div_add by lia. lia. }
  apply (f_equal (firstn (length s))) in Q2. cbn [app] in Q2. rewrite !firstn_app in Q2. rewrite LL in Q2 at 1 2. rewrite !firstn_all in Q2. rewrite Nat.sub_diag in Q2. rewrite <- LL, Nat.sub_diag in Q2. cbn [firstn] in Q2. rewrite !app_nil_r in Q2. symmetry. exact Q2.
Qed.
Print Assumptions C53_distinct.

(** the hypotheses are met *)
Example C53_example : b64Encode [72; 101; 108; 108; 200] 5 = Ok (0, Some ([83; 71; 86; 115; 98; 77; 103; 61] ++ [0])) /\
  b64Decode ([83; 71; 86; 115; 98; 77; 103; 61] ++ [0]) = Ok (0, Some ([72; 101; 108; 108; 200; 0; 0; 0], 7)) /\ Forall byte [72; 101; 108; 108; 200].
Proof. split; [vm_compute; reflexivity|]. split; [vm_compute; reflexivity|]. repeat constructor; unfold byte; lia. Qed.

(** ** What goes wrong *)

(** The text of one to three bytes is refused. *)
Theorem C53_refuted_short : forall s tail, 1 <= slen s <= 3 -> b64Decode (b64_text s ++ 0 :: tail) = Ok (-1, None).
Proof.
  intros s tail L. unfold b64Decode. rewrite cstr_in_buf by apply text_nz. cbn [bind]. replace (slen (b64_text s)) with 4; [reflexivity|].
  unfold slen in *. rewrite text_length. assert (D : length s = 1%nat \/ length s = 2%nat \/ length s = 3%nat) by lia. destruct D as [->|[->| ->]]; reflexivity.
Qed.
Print Assumptions C53_refuted_short.
(** The length given back counts the characters of the text that were read: always more than the bytes decoded. *)
Theorem C53_refuted_length : forall s tail, Forall byte s -> 4 <= slen s <= 1500000000 -> exists buf n, b64Decode (b64_text s ++ 0 :: tail) = Ok (0, Some (buf, n)) /\ slen s < n.
Proof.
  intros s tail B L. pose proof (C53_encode s [] B ltac:(lia)) as E. rewrite app_nil_r in E. destruct (C53_round_trip_partial s tail B L) as (text & buf & n & E' & D & _). rewrite E' in E. injection E as ->.
  rewrite <- app_assoc in D. cbn [app] in D. exists buf, n. split; [exact D|]. unfold b64Decode in D. rewrite cstr_in_buf in D by apply text_nz. cbn [bind] in D.
  destruct (if b64DecodedLen _ <? 4 then _ else _) as [len|]; [|discriminate]. cbn [bind] in D. destruct (len <? 0); [congruence|]. rewrite text_length in D.
  destruct (text_len_bounds (length s)) as (T0 & _). pose proof (dec_loop_ok (S (text_len (length s))) s [] tail [] 0 B ltac:(lia)) as Q. cbn [app] in Q. change (slen []) with 0 in Q. rewrite Nat.add_0_r in Q. rewrite Q in D. cbn [bind] in D.
  change (0 =? 0) with true in D. cbv iota in D. injection D as _ <-.
  assert (H : forall k s, (length s < k)%nat -> s <> [] -> Z.of_nat (length s) < used s).
  { clear. induction k as [|k IH]; intros s L N; [lia|]. destruct s as [|a [|b [|c s]]]; [congruence|cbn; lia|cbn; lia|]. cbn [used length] in *. destruct s as [|d s]; [cbn; lia|]. specialize (IH (d :: s) ltac:(lia) ltac:(discriminate)). lia. }
  unfold slen. apply (H (S (length s))); [lia|]. destruct s; [unfold slen in L; cbn in L; lia|discriminate].
Qed.
Print Assumptions C53_refuted_length.
(** A text that is not base 64 is decoded all the same (the test compares a signed char with 255); a byte above 127 reads before the table. *)
Theorem C53_refuted_invalid : b64Decode (repeat 33 8 ++ [0]) = Ok (0, Some ([255; 255; 255; 255; 255; 255; 0; 0], 8)) /\ b64Decode (repeat 200 8 ++ [0]) = Undef.
Proof. split; vm_compute; reflexivity. Qed.
Print Assumptions C53_refuted_invalid.
