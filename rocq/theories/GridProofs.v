(** * C56: lemmas. *)
From Coq Require Import ZArith List Lia Bool ZifyBool.
From Verif Require Import Base ArrayLib PackModel PackProps CStr CStrProofs PathSpec PathProps B64Proofs FileModel FileSpec TextModel TextProps HecModel HecSpec HecProofs HecProps LocModel LocProps GridModel GridSpec.
Import ListNotations.
Open Scope Z_scope.
Open Scope res_scope.

(** ** Texts *)
Lemma simple_c s : simple s -> c_text s.
Proof. exact (pe_c s). Qed.
Lemma holds_nz f s : holds f s -> Forall (fun c => c <> 0) s.
Proof. intros (H & _). apply c_nz, simple_c, H. Qed.
Lemma packed_len texts : slen (packed texts) = Z.of_nat (length (concat texts)) + Z.of_nat (length texts).
Proof. induction texts as [|s t IH]; [reflexivity|]. rewrite packed_cons, slen_app, slen_cons, IH. cbn [concat length]. rewrite app_length. unfold slen. lia. Qed.
Lemma size_spec fs texts : Forall2 holds fs texts -> texts_size fs = Ok (slen (packed texts)).
Proof.
  induction 1 as [|f s fs texts H _ IH]; [reflexivity|]. cbn [texts_size]. rewrite IH, packed_cons, slen_app, slen_cons.
  destruct H as (H & [(-> & ->)|(rest & ->)]); cbn [bind].
  - f_equal. change (slen []) with 0. lia.
  - rewrite cstr_in_buf by (apply c_nz, simple_c, H). cbn [bind]. f_equal. lia.
Qed.
Lemma sdrop_repeat n k : 0 <= n -> sdrop n (repeat 0 k) = repeat 0 (k - Z.to_nat n).
Proof.
  intros H. unfold sdrop. revert k. generalize (Z.to_nat n). intros m. induction m as [|m IH]; intros k; [cbn; f_equal; lia|]. destruct k; [reflexivity|]. cbn [repeat skipn]. rewrite IH. reflexivity.
Qed.
Lemma put_spec fs texts : Forall2 holds fs texts -> forall pre k total, slen (packed texts) <= Z.of_nat k -> Z.of_nat k <= total ->
  put_texts fs (pre ++ repeat 0 k) (slen pre) total = Ok (pre ++ packed texts ++ repeat 0 (k - length (packed texts))).
Proof.
  induction 1 as [|f s fs texts H _ IH]; intros pre k total L T.
  - cbn. rewrite Nat.sub_0_r. reflexivity.
  - rewrite packed_cons, slen_app, slen_cons in L. pose proof (slen_nonneg s). pose proof (slen_nonneg (packed texts)). cbn [put_texts].
    assert (E : (match f with None => Ok (pre ++ repeat 0 k, slen pre) | Some b => let* s0 := cstr b in
      let* '(d, _) := stringCopy (sdrop (slen pre) (pre ++ repeat 0 k)) total s0 (Some (slen s0)) in Ok (stake (slen pre) (pre ++ repeat 0 k) ++ d, slen pre + slen s0) end)
      = Ok ((pre ++ s) ++ repeat 0 (k - length s), slen (pre ++ s))).
    { destruct H as (H & [(-> & ->)|(rest & ->)]).
      - rewrite app_nil_r, Nat.sub_0_r. reflexivity.
      - rewrite cstr_in_buf by (apply c_nz, simple_c, H). cbn [bind]. rewrite sdrop_app, stake_app, slen_app. unfold stringCopy. destruct s as [|c s].
        + change (slen []) with 0. cbv iota. replace (total >? 0) with true by (unfold slen in *; cbn in L; lia). destruct k as [|k]; [unfold slen in *; cbn in L; lia|].
          cbn [repeat]. change (aset (0 :: repeat 0 k) 0 0) with (@Ok (list Z) (0 :: repeat 0 k)). cbn [bind]. rewrite app_nil_r. reflexivity.
        + set (t := c :: s) in *. assert (T0 : 0 < slen t) by (unfold t; rewrite slen_cons; pose proof (slen_nonneg s); lia).
          replace (match slen t with 0 => true | _ => false end) with false by (destruct (slen t); [lia|reflexivity|reflexivity]).
          replace (total =? 0) with false by lia. unfold stringCopy_val. replace (slen t <=? 0) with false by lia. rewrite Z.min_l by lia. rewrite stake_all by lia.
          rewrite put_str_val by (unfold alen; rewrite repeat_length; lia). cbn [bind]. rewrite sdrop_repeat by lia. f_equal. f_equal. rewrite <- app_assoc. f_equal. f_equal.
          replace (k - length t)%nat with (S (k - Z.to_nat (slen t + 1))) by (unfold slen in *; lia). reflexivity. }
    rewrite E. cbn [bind]. replace (k - length s)%nat with (S (k - length s - 1)) by (unfold slen in *; lia). cbn [repeat]. rewrite aset_here. cbn [bind].
    replace ((pre ++ s) ++ 0 :: repeat 0 (k - length s - 1)) with ((pre ++ s ++ [0]) ++ repeat 0 (k - length s - 1)) by (rewrite <- !app_assoc; reflexivity).
    replace (slen (pre ++ s) + 1) with (slen (pre ++ s ++ [0])) by (rewrite !slen_app; change (slen [0]) with 1; lia).
    rewrite IH by (unfold slen in *; lia). f_equal. rewrite packed_cons. rewrite <- !app_assoc. cbn [app]. f_equal. f_equal. f_equal. f_equal. f_equal. rewrite app_length. cbn [length]. lia.
Qed.
Lemma packed_bytes texts : Forall c_text texts -> bytes (packed texts).
Proof. induction 1 as [|s t H _ IH]; [constructor|]. rewrite packed_cons. apply Forall_app. split; [apply c_bytes, H|]. constructor; [lia|exact IH]. Qed.
Lemma holds_c fs texts : Forall2 holds fs texts -> Forall c_text texts.
Proof. induction 1 as [|f s fs texts H _ IH]; constructor; [apply simple_c, H|exact IH]. Qed.
Lemma words_spec fs texts : Forall2 holds fs texts -> texts <> [] -> Z.of_nat (length (concat texts)) + Z.of_nat (length texts) <= 2147483647 ->
  exists h2 j, texts_words fs = Ok h2 /\ 0 < zlen h2 /\ bytes_of_ints h2 = packed texts ++ repeat 0 j.
Proof.
  intros H N L. rewrite <- packed_len in L. unfold texts_words. rewrite (size_spec _ _ H). cbn [bind]. pose proof (slen_nonneg (packed texts)).
  rewrite chk32_ok by (unfold in32, INT_MIN, INT_MAX; lia). cbn [bind]. pose proof (put_spec _ _ H [] (Z.to_nat (slen (packed texts))) (slen (packed texts)) ltac:(lia) ltac:(lia)) as PS. cbn [app] in PS. change (slen []) with 0 in PS. rewrite PS. cbn [bind app].
  replace (Z.to_nat (slen (packed texts)) - length (packed texts))%nat with 0%nat by (unfold slen; lia). cbn [repeat]. rewrite app_nil_r.
  assert (P : 0 < slen (packed texts)). { destruct texts as [|s t]; [congruence|]. rewrite packed_cons, slen_app, slen_cons. pose proof (slen_nonneg s). pose proof (slen_nonneg (packed t)). lia. }
  destruct (to_ints_back (packed texts) (slen (packed texts))) as (h & E & LH & B); [apply packed_bytes, (holds_c _ _ H)|lia|]. destruct (ints_bytes _ P) as (Q & _).
  exists h. eexists. split; [exact E|]. split; [lia|]. rewrite B, stake_all by lia. reflexivity.
Qed.
Lemma get_spec texts : Forall simple texts -> forall pre rest, get_texts (length texts) (pre ++ packed texts ++ rest) (slen pre) = Ok (map (fun s => s ++ [0]) texts).
Proof.
  induction 1 as [|s t H _ IH]; intros pre rest; [reflexivity|]. cbn [length get_texts map]. rewrite packed_cons, sdrop_app, <- app_assoc. cbn [app].
  rewrite copy_pe by exact H. cbn [bind]. change (s ++ [0]) with (s ++ 0 :: []) at 1. rewrite cstr_in_buf by (apply c_nz, simple_c, H). cbn [bind].
  specialize (IH (pre ++ s ++ [0]) rest). rewrite !slen_app in IH. change (slen [0]) with 1 in IH. rewrite <- !app_assoc in IH. cbn [app] in IH.
  replace (slen pre + (slen s + 1)) with (slen pre + slen s + 1) in IH by lia. rewrite IH. reflexivity.
Qed.

(** ** Words *)
Lemma word_bytes w : word w -> signed_of false 4 (bytes_le 4 w) = w.
Proof.
  intros W. unfold signed_of, unsigned_of. rewrite unsigned_bytes_le. change (256 ^ Z.of_nat 4) with 4294967296. change (sgn32 (w mod 4294967296) = w). apply sgn32_mod. unfold in32, INT_MIN, INT_MAX, word in *. lia.
Qed.
Lemma ints_back l : Forall word l -> forall rest, ints_of_bytes (length l) (bytes_of_ints l ++ rest) = l.
Proof.
  induction 1 as [|w l W _ IH]; intros rest; [reflexivity|]. unfold bytes_of_ints in *. cbn [length ints_of_bytes flat_map]. rewrite <- app_assoc.
  assert (L4 : length (bytes_le 4 w) = 4%nat) by apply bytes_le_length.
  rewrite firstn_app, L4, Nat.sub_diag, firstn_O, app_nil_r, firstn_all2 by lia. rewrite word_bytes by exact W. f_equal.
  rewrite skipn_app, L4, Nat.sub_diag, skipn_all2 by lia. cbn [app skipn]. apply IH.
Qed.
Lemma bytes_of_len l : slen (bytes_of_ints l) = 4 * zlen l.
Proof. unfold bytes_of_ints, slen, zlen. induction l as [|w l IH]; [reflexivity|]. cbn [flat_map]. rewrite app_length, bytes_le_length. cbn [length]. lia. Qed.
Lemma read_has p n l : has_or_null p n l -> words_at n p = Ok l.
Proof.
  unfold words_at. intros [(L & rest & ->)|(-> & -> & ->)]; [|reflexivity]. destruct (n <=? 0) eqn:E; [destruct l; [reflexivity|cbn in L; lia]|]. cbn [deref bind].
  rewrite read_start by (unfold alen; rewrite app_length; lia). rewrite firstn_app. replace (Z.to_nat n - length l)%nat with 0%nat by lia. rewrite firstn_O, app_nil_r, firstn_all2 by lia. reflexivity.
Qed.
Lemma read_at {A} (a b c : list A) i n : i = alen a -> n = length b -> read_loop n (a ++ b ++ c) i = Ok b.
Proof.
  intros -> ->. revert a. induction b as [|x b IH]; intros a; [reflexivity|]. cbn [length read_loop app]. unfold alen. rewrite CStrProofs.aget_mid. cbn [bind].
  specialize (IH (a ++ [x])). rewrite <- app_assoc in IH. cbn [app] in IH. replace (Z.of_nat (length a) + 1) with (alen (a ++ [x])) by (unfold alen; rewrite app_length; cbn [length]; lia). rewrite IH. reflexivity.
Qed.
