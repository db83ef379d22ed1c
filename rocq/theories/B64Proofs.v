(** * Lemmas for C53: the bit operations, checked for all bytes. *)
From Coq Require Import ZArith List Lia Bool ZifyBool.
From Verif Require Import Base ArrayLib CStr CStrProofs B64Model B64Spec.
Import ListNotations.
Open Scope Z_scope.
Open Scope res_scope.

Definition byte (c : Z) : Prop := 0 <= c <= 255.
Definition all_bytes : list Z := map Z.of_nat (seq 0 256).
Lemma in_bytes c : byte c -> In c all_bytes.
Proof. intros H. unfold byte in H. unfold all_bytes. apply in_map_iff. exists (Z.to_nat c). split; [lia|]. apply in_seq. lia. Qed.
Lemma byte1 (P : Z -> bool) : forallb P all_bytes = true -> forall a, byte a -> P a = true.
Proof. intros H a A. rewrite forallb_forall in H. apply H, in_bytes, A. Qed.
Lemma byte2 (P : Z -> Z -> bool) : forallb (fun a => forallb (P a) all_bytes) all_bytes = true -> forall a b, byte a -> byte b -> P a b = true.
Proof. intros H a b A B. rewrite forallb_forall in H. specialize (H a (in_bytes a A)). rewrite forallb_forall in H. apply H, in_bytes, B. Qed.
Definition ok_eq (r : res Z) (v : Z) : bool := match r with Ok x => x =? v | Undef => false end.
Lemma ok_eq_spec r v : ok_eq r v = true -> r = Ok v.
Proof. destruct r; cbn; intros H; [f_equal; lia|discriminate]. Qed.

(** the sextets of three bytes *)
Definition s0 (a : Z) := a / 4.
Definition s1 (a b : Z) := a mod 4 * 16 + b / 16.
Definition s2 (b c : Z) := b mod 16 * 4 + c / 64.
Definition s3 (c : Z) := c mod 64.
Lemma enc0 a : byte a -> aget base64chars (e0_0 (schar a)) = Ok (b64_char (s0 a)).
Proof. intros A. apply ok_eq_spec. revert a A. apply (byte1 (fun a => ok_eq (aget base64chars (e0_0 (schar a))) (b64_char (s0 a)))). vm_compute. reflexivity. Qed.
Lemma enc1 a b : byte a -> byte b -> aget base64chars (Z.lor (e0_1 (schar a)) (e1_1 (schar b))) = Ok (b64_char (s1 a b)).
Proof. intros A B. apply ok_eq_spec. revert a b A B. apply (byte2 (fun a b => ok_eq (aget base64chars (Z.lor (e0_1 (schar a)) (e1_1 (schar b)))) (b64_char (s1 a b)))). vm_compute. reflexivity. Qed.
Lemma enc1' a : byte a -> aget base64chars (e0_1 (schar a)) = Ok (b64_char (s1 a 0)).
Proof. intros A. apply ok_eq_spec. revert a A. apply (byte1 (fun a => ok_eq (aget base64chars (e0_1 (schar a))) (b64_char (s1 a 0)))). vm_compute. reflexivity. Qed.
Lemma enc2 a b : byte a -> byte b -> aget base64chars (Z.lor (e1_2 (schar a)) (e2_2 (schar b))) = Ok (b64_char (s2 a b)).
Proof. intros A B. apply ok_eq_spec. revert a b A B. apply (byte2 (fun a b => ok_eq (aget base64chars (Z.lor (e1_2 (schar a)) (e2_2 (schar b)))) (b64_char (s2 a b)))). vm_compute. reflexivity. Qed.
Lemma enc2' a : byte a -> aget base64chars (e1_2 (schar a)) = Ok (b64_char (s2 a 0)).
Proof. intros A. apply ok_eq_spec. revert a A. apply (byte1 (fun a => ok_eq (aget base64chars (e1_2 (schar a))) (b64_char (s2 a 0)))). vm_compute. reflexivity. Qed.
Lemma enc3 a : byte a -> aget base64chars (e2_3 (schar a)) = Ok (b64_char (s3 a)).
Proof. intros A. apply ok_eq_spec. revert a A. apply (byte1 (fun a => ok_eq (aget base64chars (e2_3 (schar a))) (b64_char (s3 a)))). vm_compute. reflexivity. Qed.

Ltac dm x k := pose proof (Z.div_mod x k ltac:(lia)); pose proof (Z.mod_pos_bound x k ltac:(lia)).
Lemma digit0 a b c : byte a -> byte b -> byte c -> b64_digit (a * 65536 + b * 256 + c) 0 = s0 a.
Proof. unfold byte, b64_digit, s0. intros. dm a 4. change (64 ^ (3 - 0)) with 262144. replace (a * 65536 + b * 256 + c) with (a / 4 * 262144 + (a mod 4 * 65536 + b * 256 + c)) by lia. rewrite Z.div_add_l by lia. rewrite (Z.div_small (_ + _)) by lia. rewrite Z.add_0_r, Z.mod_small by lia. reflexivity. Qed.
Lemma digit1 a b c : byte a -> byte b -> byte c -> b64_digit (a * 65536 + b * 256 + c) 1 = s1 a b.
Proof. unfold byte, b64_digit, s1. intros. dm a 4. dm b 16. change (64 ^ (3 - 1)) with 4096. replace (a * 65536 + b * 256 + c) with ((a / 4 * 64 + (a mod 4 * 16 + b / 16)) * 4096 + (b mod 16 * 256 + c)) by lia. rewrite Z.div_add_l by lia. rewrite (Z.div_small (_ + c)) by lia.
  rewrite Z.add_0_r, Z.add_comm, Z.mod_add by lia. apply Z.mod_small. lia. Qed.
Lemma digit2 a b c : byte a -> byte b -> byte c -> b64_digit (a * 65536 + b * 256 + c) 2 = s2 b c.
Proof. unfold byte, b64_digit, s2. intros. dm b 16. dm c 64. change (64 ^ (3 - 2)) with 64. replace (a * 65536 + b * 256 + c) with (((a * 16 + b / 16) * 64 + (b mod 16 * 4 + c / 64)) * 64 + c mod 64) by lia. rewrite Z.div_add_l by lia. rewrite (Z.div_small (c mod 64)) by lia.
  rewrite Z.add_0_r, Z.add_comm, Z.mod_add by lia. apply Z.mod_small. lia. Qed.
Lemma digit3 a b c : byte a -> byte b -> byte c -> b64_digit (a * 65536 + b * 256 + c) 3 = s3 c.
Proof. unfold byte, b64_digit, s3. intros. change (64 ^ (3 - 3)) with 1. rewrite Z.div_1_r. replace (a * 65536 + b * 256 + c) with (c + (a * 1024 + b * 4) * 64) by lia. apply Z.mod_add. lia. Qed.

(** ** Encoding *)
Lemma aset_here pre (v x : Z) rest : aset (pre ++ x :: rest) (slen pre) v = Ok (pre ++ v :: rest).
Proof.
  unfold aset, slen. replace (_ <? 0) with false by lia. rewrite Nat2Z.id, upd_nat_some by (rewrite app_length; cbn [length]; lia).
  rewrite firstn_app, firstn_all, Nat.sub_diag, firstn_O, app_nil_r. f_equal. f_equal. f_equal. rewrite skipn_app. rewrite skipn_all2 by lia.
  replace (S (length pre) - length pre)%nat with 1%nat by lia. reflexivity.
Qed.
Lemma aset_at pre (v x : Z) rest o : o = slen pre -> aset (pre ++ x :: rest) o v = Ok (pre ++ v :: rest).
Proof. intros ->. apply aset_here. Qed.
Lemma put4_ok pre w x y z rest a b c d : put4 (pre ++ w :: x :: y :: z :: rest) (slen pre) a b c d = Ok ((pre ++ [a; b; c; d]) ++ rest).
Proof.
  unfold put4. rewrite aset_here. cbn [bind]. change (pre ++ a :: x :: y :: z :: rest) with (pre ++ [a] ++ x :: y :: z :: rest). rewrite app_assoc.
  rewrite aset_at by (rewrite slen_app; change (slen [a]) with 1; lia). cbn [bind]. change ((pre ++ [a]) ++ b :: y :: z :: rest) with ((pre ++ [a]) ++ [b] ++ y :: z :: rest). rewrite app_assoc.
  rewrite aset_at by (rewrite !slen_app; change (slen [a]) with 1; change (slen [b]) with 1; lia). cbn [bind]. change (((pre ++ [a]) ++ [b]) ++ c :: z :: rest) with (((pre ++ [a]) ++ [b]) ++ [c] ++ z :: rest). rewrite app_assoc.
  rewrite aset_at by (rewrite !slen_app; change (slen [a]) with 1; change (slen [b]) with 1; change (slen [c]) with 1; lia). f_equal. rewrite <- !app_assoc. reflexivity.
Qed.
Lemma char_at_app pre c t k : k = slen pre -> char_at (pre ++ c :: t) k = Ok (schar c).
Proof. intros ->. unfold char_at, slen. rewrite CStrProofs.aget_mid. reflexivity. Qed.
Definition text_len (n : nat) : nat := (4 * ((n + 2) / 3))%nat.
Lemma text_len_step n : text_len (S (S (S n))) = (4 + text_len n)%nat.
Proof. unfold text_len. replace (S (S (S n)) + 2)%nat with (n + 2 + 1 * 3)%nat by lia. rewrite Nat.div_add by lia. lia. Qed.

Lemma enc_loop_ok : forall fuel s pre tail out k, Forall byte s -> (length s < fuel)%nat ->
  enc_loop fuel (pre ++ s ++ tail) (slen pre) (out ++ repeat 0 (text_len (length s) + k)) (slen out) (slen s) = Ok ((out ++ b64_text s) ++ repeat 0 k, slen out + Z.of_nat (text_len (length s))).
Proof.
  induction fuel as [|f IH]; intros s pre tail out k B L; [lia|]. destruct s as [|a [|b [|c s]]].
  - cbn [enc_loop length slen b64_text]. change (slen [] <=? 0) with true. cbv iota. rewrite app_nil_r. f_equal. f_equal. cbn. lia.
  - cbn [enc_loop length b64_text app]. change (slen [a]) with 1. change (1 <=? 0) with false. change (1 =? 1) with true. cbv iota. inversion B as [|? ? A _]; subst.
    rewrite char_at_app by reflexivity. cbn [bind]. rewrite enc0, enc1' by assumption. cbn [bind]. change (text_len 1 + k)%nat with (4 + k)%nat. cbn [repeat Nat.add]. rewrite put4_ok. cbn [bind].
    replace (a * 65536) with (a * 65536 + 0 * 256 + 0) by lia. rewrite digit0, digit1 by (unfold byte in *; lia).
    destruct f; cbn [enc_loop]; change (0 <=? 0) with true; cbv iota; reflexivity.
  - cbn [enc_loop length b64_text app]. change (slen [a; b]) with 2. change (2 <=? 0) with false. change (2 =? 1) with false. change (2 =? 2) with true. cbv iota. inversion B as [|? ? A B']; subst. inversion B' as [|? ? Bb _]; subst.
    rewrite char_at_app by reflexivity. cbn [bind]. rewrite enc0 by assumption. cbn [bind]. change (pre ++ a :: b :: tail) with (pre ++ [a] ++ b :: tail). rewrite (app_assoc pre).
    rewrite char_at_app by (rewrite slen_app; change (slen [a]) with 1; lia). cbn [bind]. rewrite enc1, enc2' by assumption. cbn [bind]. change (text_len 2 + k)%nat with (4 + k)%nat. cbn [repeat Nat.add]. rewrite put4_ok. cbn [bind].
    replace (a * 65536 + b * 256) with (a * 65536 + b * 256 + 0) by lia. rewrite digit0, digit1, digit2 by (unfold byte in *; lia).
    destruct f; cbn [enc_loop]; change (0 <=? 0) with true; cbv iota; reflexivity.
  - cbn [enc_loop b64_text]. assert (LS : slen (a :: b :: c :: s) = slen s + 3) by (unfold slen; cbn [length]; lia). pose proof (slen_nonneg s). rewrite LS.
    replace (slen s + 3 <=? 0) with false by lia. replace (slen s + 3 =? 1) with false by lia. replace (slen s + 3 =? 2) with false by lia. replace (slen s + 3 - 3) with (slen s) by lia.
    inversion B as [|? ? A B']; subst. inversion B' as [|? ? Bb B'']; subst. inversion B'' as [|? ? Bc Bs]; subst. cbn [app].
    rewrite char_at_app by reflexivity. cbn [bind]. rewrite enc0 by assumption. cbn [bind]. 
    assert (E1 : pre ++ a :: b :: c :: s ++ tail = (pre ++ [a]) ++ b :: c :: s ++ tail) by (rewrite <- app_assoc; reflexivity).
    assert (E2 : pre ++ a :: b :: c :: s ++ tail = (pre ++ [a; b]) ++ c :: s ++ tail) by (rewrite <- app_assoc; reflexivity).
    assert (E3 : pre ++ a :: b :: c :: s ++ tail = (pre ++ [a; b; c]) ++ s ++ tail) by (rewrite <- app_assoc; reflexivity).
    rewrite E1 at 1. rewrite char_at_app by (rewrite slen_app; change (slen [a]) with 1; lia). cbn [bind]. rewrite enc1 by assumption. cbn [bind].
    rewrite E2 at 1. rewrite char_at_app by (rewrite slen_app; change (slen [a; b]) with 2; lia). cbn [bind]. rewrite enc2, enc3 by assumption. cbn [bind].
    cbn [length]. rewrite text_len_step. replace (4 + text_len (length s) + k)%nat with (4 + (text_len (length s) + k))%nat by lia. cbn [repeat Nat.add]. rewrite put4_ok. cbn [bind].
    rewrite digit0, digit1, digit2, digit3 by assumption. rewrite E3. replace (slen pre + 3) with (slen (pre ++ [a; b; c])) by (rewrite slen_app; reflexivity).
    replace (slen out + 4) with (slen (out ++ [b64_char (s0 a); b64_char (s1 a b); b64_char (s2 b c); b64_char (s3 c)])) by (rewrite slen_app; reflexivity).
    rewrite IH by (cbn [length] in L; try assumption; lia). f_equal. f_equal; [rewrite <- !app_assoc; reflexivity|]. rewrite slen_app. change (slen [b64_char (s0 a); b64_char (s1 a b); b64_char (s2 b c); b64_char (s3 c)]) with 4. lia.
Qed.

(** ** Decoding *)
Lemma dec0 a b : byte a -> byte b -> u8 (Z.lor (d0_0 (s0 a)) (d1_0 (s1 a b))) = a.
Proof. intros A B. apply Z.eqb_eq. revert a b A B. apply (byte2 (fun a b => u8 (Z.lor (d0_0 (s0 a)) (d1_0 (s1 a b))) =? a)). vm_compute. reflexivity. Qed.
Lemma dec1' a b : byte a -> byte b -> u8 (d1_1 (s1 a b)) = b / 16 * 16.
Proof. intros A B. apply Z.eqb_eq. revert a b A B. apply (byte2 (fun a b => u8 (d1_1 (s1 a b)) =? b / 16 * 16)). vm_compute. reflexivity. Qed.
Lemma dec1 b c : byte b -> byte c -> u8 (Z.lor (schar (b / 16 * 16)) (d2_1 (s2 b c))) = b.
Proof. intros A B. apply Z.eqb_eq. revert b c A B. apply (byte2 (fun b c => u8 (Z.lor (schar (b / 16 * 16)) (d2_1 (s2 b c))) =? b)). vm_compute. reflexivity. Qed.
Lemma dec2' b c : byte b -> byte c -> u8 (d2_2 (s2 b c)) = c / 64 * 64.
Proof. intros A B. apply Z.eqb_eq. revert b c A B. apply (byte2 (fun b c => u8 (d2_2 (s2 b c)) =? c / 64 * 64)). vm_compute. reflexivity. Qed.
Lemma dec2 c : byte c -> u8 (Z.lor (schar (c / 64 * 64)) (d3_2 (s3 c))) = c.
Proof. intros A. apply Z.eqb_eq. revert c A. apply (byte1 (fun c => u8 (Z.lor (schar (c / 64 * 64)) (d3_2 (s3 c))) =? c)). vm_compute. reflexivity. Qed.
Definition sextets : list Z := map Z.of_nat (seq 0 64).
Lemma six_all (P : Z -> bool) : forallb P sextets = true -> forall d, 0 <= d <= 63 -> P d = true.
Proof. intros H d D. rewrite forallb_forall in H. apply H. unfold sextets. apply in_map_iff. exists (Z.to_nat d). split; [lia|]. apply in_seq. lia. Qed.
Lemma s_range a b : byte a -> byte b -> 0 <= s0 a <= 63 /\ 0 <= s1 a b <= 63 /\ 0 <= s2 a b <= 63 /\ 0 <= s3 a <= 63.
Proof. unfold byte, s0, s1, s2, s3. intros. dm a 4. dm a 16. dm a 64. dm b 16. dm b 64. lia. Qed.
Lemma char_good d : 0 <= d <= 63 -> 1 <= b64_char d <= 127 /\ b64_char d <> 61.
Proof.
  intros D. assert (H : (1 <=? b64_char d) && (b64_char d <=? 127) && negb (b64_char d =? 61) = true); [|lia].
  revert d D. apply (six_all (fun d => (1 <=? b64_char d) && (b64_char d <=? 127) && negb (b64_char d =? 61))). vm_compute. reflexivity.
Qed.
Lemma table_back d : 0 <= d <= 63 -> aget base64bytes (schar (b64_char d)) = Ok d.
Proof. intros D. apply ok_eq_spec. revert d D. apply (six_all (fun d => ok_eq (aget base64bytes (schar (b64_char d))) d)). vm_compute. reflexivity. Qed.
Lemma sextet_ok pre d t k : 0 <= d <= 63 -> k = slen pre -> sextet (pre ++ b64_char d :: t) k = Ok d.
Proof. intros D K. unfold sextet. rewrite char_at_app by exact K. cbn [bind]. rewrite table_back by exact D. cbn [bind]. unfold schar. replace (d >? 127) with false by lia. reflexivity. Qed.
Lemma sextet_pad pre t k : k = slen pre -> sextet (pre ++ 61 :: t) k = Ok (-1).
Proof. intros K. unfold sextet. rewrite char_at_app by exact K. reflexivity. Qed.
Lemma aget_app_at pre (c : Z) t k : k = slen pre -> aget (pre ++ c :: t) k = Ok c.
Proof. intros ->. unfold slen. apply CStrProofs.aget_mid. Qed.

(** the characters that stand for bytes *)
Fixpoint used (s : list Z) : Z := match s with [] => 0 | [_] => 2 | [_; _] => 3 | _ :: _ :: _ :: t => 4 + used t end.
Lemma dec_loop_ok : forall fuel s pre tail out k, Forall byte s -> (length s < fuel)%nat ->
  dec_loop fuel (pre ++ b64_text s ++ 0 :: tail) (slen pre) (out ++ repeat 0 (text_len (length s) + k)) (slen out) =
  Ok (0, (out ++ s) ++ repeat 0 (text_len (length s) - length s + k), slen pre + used s).
Proof.
  induction fuel as [|f IH]; intros s pre tail out k B L; [lia|]. destruct s as [|a [|b [|c s]]].
  - cbn [dec_loop length b64_text app used]. rewrite aget_app_at by reflexivity. cbn [bind]. change (0 =? 0) with true. cbv iota. rewrite app_nil_r. f_equal. f_equal. lia.
  - cbn [dec_loop length b64_text app used]. inversion B as [|? ? A _]; subst. assert (Z0 : byte 0) by (unfold byte; lia). destruct (s_range a 0 A Z0) as (R0 & R1 & _).
    replace (a * 65536) with (a * 65536 + 0 * 256 + 0) by lia. rewrite digit0, digit1 by assumption.
    destruct (char_good (s0 a) R0) as (G0 & _). rewrite aget_app_at by reflexivity. cbn [bind]. replace (b64_char (s0 a) =? 0) with false by lia.
    set (x := b64_char (s0 a)) in *. set (y := b64_char (s1 a 0)).
    assert (E1 : pre ++ x :: y :: 61 :: 61 :: 0 :: tail = (pre ++ [x]) ++ y :: 61 :: 61 :: 0 :: tail) by (rewrite <- app_assoc; reflexivity).
    assert (E2 : pre ++ x :: y :: 61 :: 61 :: 0 :: tail = (pre ++ [x; y]) ++ 61 :: 61 :: 0 :: tail) by (rewrite <- app_assoc; reflexivity).
    assert (E3 : pre ++ x :: y :: 61 :: 61 :: 0 :: tail = (pre ++ [x; y; 61]) ++ 61 :: 0 :: tail) by (rewrite <- app_assoc; reflexivity).
    unfold x at 1. rewrite sextet_ok by (assumption || reflexivity). fold x. cbn [bind]. rewrite E1 at 1. unfold y at 1. rewrite sextet_ok by (assumption || (rewrite slen_app; reflexivity)). fold y. cbn [bind].
    rewrite E2 at 1. rewrite sextet_pad by (rewrite slen_app; reflexivity). cbn [bind]. rewrite E3 at 1. rewrite sextet_pad by (rewrite slen_app; reflexivity). cbn [bind].
    replace ((s0 a =? 255) || (s1 a 0 =? 255)) with false by lia. change (text_len 1 + k)%nat with (4 + k)%nat. cbn [repeat Nat.add]. rewrite aset_here. cbn [bind]. rewrite dec0, dec1' by assumption.
    change (0 / 16 * 16) with 0. change (out ++ a :: 0 :: 0 :: 0 :: repeat 0 k) with (out ++ [a] ++ 0 :: 0 :: 0 :: repeat 0 k). rewrite (app_assoc out). rewrite aset_at by (rewrite slen_app; reflexivity). cbn [bind].
    rewrite E2 at 1. rewrite aget_app_at by (rewrite slen_app; reflexivity). cbn [bind]. change (61 =? 61) with true. cbv iota. reflexivity.
  - cbn [dec_loop length b64_text app used]. inversion B as [|? ? A B']; subst. inversion B' as [|? ? Bb _]; subst. assert (Z0 : byte 0) by (unfold byte; lia).
    destruct (s_range a b A Bb) as (R0 & R1 & _). destruct (s_range b 0 Bb Z0) as (_ & _ & R2 & _).
    replace (a * 65536 + b * 256) with (a * 65536 + b * 256 + 0) by lia. rewrite digit0, digit1, digit2 by assumption.
    destruct (char_good (s0 a) R0) as (G0 & _). destruct (char_good (s2 b 0) R2) as (_ & G2). rewrite aget_app_at by reflexivity. cbn [bind]. replace (b64_char (s0 a) =? 0) with false by lia.
    set (x := b64_char (s0 a)) in *. set (y := b64_char (s1 a b)). set (z := b64_char (s2 b 0)) in *.
    assert (E1 : pre ++ x :: y :: z :: 61 :: 0 :: tail = (pre ++ [x]) ++ y :: z :: 61 :: 0 :: tail) by (rewrite <- app_assoc; reflexivity).
    assert (E2 : pre ++ x :: y :: z :: 61 :: 0 :: tail = (pre ++ [x; y]) ++ z :: 61 :: 0 :: tail) by (rewrite <- app_assoc; reflexivity).
    assert (E3 : pre ++ x :: y :: z :: 61 :: 0 :: tail = (pre ++ [x; y; z]) ++ 61 :: 0 :: tail) by (rewrite <- app_assoc; reflexivity).
    unfold x at 1. rewrite sextet_ok by (assumption || reflexivity). fold x. cbn [bind]. rewrite E1 at 1. unfold y at 1. rewrite sextet_ok by (assumption || (rewrite slen_app; reflexivity)). fold y. cbn [bind].
    rewrite E2 at 1. unfold z at 1. rewrite sextet_ok by (assumption || (rewrite slen_app; reflexivity)). fold z. cbn [bind]. rewrite E3 at 1. rewrite sextet_pad by (rewrite slen_app; reflexivity). cbn [bind].
    replace ((s0 a =? 255) || (s1 a b =? 255)) with false by lia. change (text_len 2 + k)%nat with (4 + k)%nat. cbn [repeat Nat.add]. rewrite aset_here. cbn [bind]. rewrite dec0, dec1' by assumption.
    change (out ++ a :: 0 :: 0 :: 0 :: repeat 0 k) with (out ++ [a] ++ 0 :: 0 :: 0 :: repeat 0 k). rewrite (app_assoc out). rewrite aset_at by (rewrite slen_app; reflexivity). cbn [bind].
    rewrite E2 at 1. rewrite aget_app_at by (rewrite slen_app; reflexivity). cbn [bind]. replace (z =? 61) with false by lia.
    rewrite aset_at by (rewrite slen_app; reflexivity). cbn [bind]. rewrite dec1, dec2' by assumption. change (0 / 64 * 64) with 0.
    change ((out ++ [a]) ++ b :: 0 :: 0 :: repeat 0 k) with ((out ++ [a]) ++ [b] ++ 0 :: 0 :: repeat 0 k). rewrite (app_assoc (out ++ [a])). rewrite aset_at by (rewrite !slen_app; change (slen [a]) with 1; change (slen [b]) with 1; lia). cbn [bind].
    rewrite E3 at 1. rewrite aget_app_at by (rewrite slen_app; reflexivity). cbn [bind]. change (61 =? 61) with true. cbv iota. rewrite <- !app_assoc. reflexivity.
  - cbn [dec_loop b64_text used app]. inversion B as [|? ? A B']; subst. inversion B' as [|? ? Bb B'']; subst. inversion B'' as [|? ? Bc Bs]; subst.
    destruct (s_range a b A Bb) as (R0 & R1 & _). destruct (s_range b c Bb Bc) as (_ & _ & R2 & _). destruct (s_range c c Bc Bc) as (_ & _ & _ & R3).
    rewrite digit0, digit1, digit2, digit3 by assumption.
    destruct (char_good (s0 a) R0) as (G0 & _). destruct (char_good (s2 b c) R2) as (_ & G2). destruct (char_good (s3 c) R3) as (_ & G3). rewrite aget_app_at by reflexivity. cbn [bind]. replace (b64_char (s0 a) =? 0) with false by lia.
    set (x := b64_char (s0 a)) in *. set (y := b64_char (s1 a b)). set (z := b64_char (s2 b c)) in *. set (w := b64_char (s3 c)) in *. set (R := b64_text s ++ 0 :: tail).
    assert (E1 : pre ++ x :: y :: z :: w :: R = (pre ++ [x]) ++ y :: z :: w :: R) by (rewrite <- app_assoc; reflexivity).
    assert (E2 : pre ++ x :: y :: z :: w :: R = (pre ++ [x; y]) ++ z :: w :: R) by (rewrite <- app_assoc; reflexivity).
    assert (E3 : pre ++ x :: y :: z :: w :: R = (pre ++ [x; y; z]) ++ w :: R) by (rewrite <- app_assoc; reflexivity).
    assert (E4 : pre ++ x :: y :: z :: w :: R = (pre ++ [x; y; z; w]) ++ R) by (rewrite <- app_assoc; reflexivity).
    unfold x at 1. rewrite sextet_ok by (assumption || reflexivity). fold x. cbn [bind]. rewrite E1 at 1. unfold y at 1. rewrite sextet_ok by (assumption || (rewrite slen_app; reflexivity)). fold y. cbn [bind].
    rewrite E2 at 1. unfold z at 1. rewrite sextet_ok by (assumption || (rewrite slen_app; reflexivity)). fold z. cbn [bind]. rewrite E3 at 1. unfold w at 1. rewrite sextet_ok by (assumption || (rewrite slen_app; reflexivity)). fold w. cbn [bind].
    replace ((s0 a =? 255) || (s1 a b =? 255)) with false by lia. cbn [length]. rewrite text_len_step. replace (4 + text_len (length s) + k)%nat with (3 + (text_len (length s) + (1 + k)))%nat by lia.
    set (rest := repeat 0 (text_len (length s) + (1 + k))). cbn [repeat Nat.add]. change (repeat 0 (text_len (length s) + S k)) with rest. rewrite aset_here. cbn [bind]. rewrite dec0, dec1' by assumption.
    change (out ++ a :: 0 :: 0 :: rest) with (out ++ [a] ++ 0 :: 0 :: rest). rewrite (app_assoc out). rewrite aset_at by (rewrite slen_app; reflexivity). cbn [bind].
    rewrite E2 at 1. rewrite aget_app_at by (rewrite slen_app; reflexivity). cbn [bind]. replace (z =? 61) with false by lia.
    rewrite aset_at by (rewrite slen_app; reflexivity). cbn [bind]. rewrite dec1, dec2' by assumption.
    change ((out ++ [a]) ++ b :: 0 :: rest) with ((out ++ [a]) ++ [b] ++ 0 :: rest). rewrite (app_assoc (out ++ [a])). rewrite aset_at by (rewrite !slen_app; change (slen [a]) with 1; change (slen [b]) with 1; lia). cbn [bind].
    rewrite E3 at 1. rewrite aget_app_at by (rewrite slen_app; reflexivity). cbn [bind]. replace (w =? 61) with false by lia.
    rewrite aset_at by (rewrite !slen_app; change (slen [a]) with 1; change (slen [b]) with 1; lia). cbn [bind]. rewrite dec2 by assumption.
    change (((out ++ [a]) ++ [b]) ++ c :: rest) with (((out ++ [a]) ++ [b]) ++ [c] ++ rest). rewrite (app_assoc ((out ++ [a]) ++ [b])). rewrite E4. unfold rest, R.
    replace (slen pre + 4) with (slen (pre ++ [x; y; z; w])) by (rewrite slen_app; reflexivity). replace (slen out + 3) with (slen (((out ++ [a]) ++ [b]) ++ [c])) by (rewrite !slen_app; change (slen [a]) with 1; change (slen [b]) with 1; change (slen [c]) with 1; lia).
    rewrite IH by (cbn [length] in L; try assumption; lia). f_equal. f_equal; [f_equal|].
    + rewrite <- !app_assoc. cbn [app]. do 4 f_equal. f_equal. f_equal. unfold text_len. pose proof (Nat.div_mod (length s + 2) 3 ltac:(lia)). pose proof (Nat.mod_upper_bound (length s + 2) 3 ltac:(lia)). lia.
    + rewrite slen_app. change (slen [x; y; z; w]) with 4. lia.
Qed.
