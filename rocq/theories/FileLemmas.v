(** * Elementary lemmas about the file model: disk words, packed items, text, pathname comparison. *)
From Coq Require Import ZArith List Lia Bool.
From Verif Require Import Base PackModel PackProps HashModel FileModel.
Import ListNotations.
Open Scope Z_scope.

Ltac bz := repeat match goal with
  | H : _ && _ = true |- _ => apply andb_prop in H; destruct H
  | H : (_ <=? _) = true |- _ => apply Z.leb_le in H
  | H : (_ <? _) = true |- _ => apply Z.ltb_lt in H
  | H : (_ =? _) = true |- _ => apply Z.eqb_eq in H
  | H : (_ <=? _) = false |- _ => apply Z.leb_gt in H
  | H : (_ <? _) = false |- _ => apply Z.ltb_ge in H
  | H : (_ =? _) = false |- _ => apply Z.eqb_neq in H
  | H : _ || _ = false |- _ => apply orb_false_elim in H; destruct H
  | H : negb _ = true |- _ => apply negb_true_iff in H
  | H : negb _ = false |- _ => apply negb_false_iff in H
  end.

Lemma ltb_t a b : a < b -> (a <? b) = true. Proof. intros; apply Z.ltb_lt; lia. Qed.
Lemma ltb_f a b : b <= a -> (a <? b) = false. Proof. intros; apply Z.ltb_ge; lia. Qed.
Lemma leb_t a b : a <= b -> (a <=? b) = true. Proof. intros; apply Z.leb_le; lia. Qed.
Lemma leb_f a b : b < a -> (a <=? b) = false. Proof. intros; apply Z.leb_gt; lia. Qed.
Lemma eqb_t a b : a = b -> (a =? b) = true. Proof. intros; apply Z.eqb_eq; lia. Qed.
Lemma eqb_f a b : a <> b -> (a =? b) = false. Proof. intros; apply Z.eqb_neq; lia. Qed.

Lemma bindM_OK {A B} (m : M A) (f : A -> M B) s a s' : m s = OK a s' -> bindM m f s = f a s'.
Proof. unfold bindM. intros ->. reflexivity. Qed.

(** ** words *)
Lemma zseq_length a n : length (zseq a n) = Z.to_nat n.
Proof. unfold zseq. rewrite map_length, seq_length. reflexivity. Qed.
Lemma words_length d a n : length (words d a n) = Z.to_nat n.
Proof. unfold words. rewrite map_length, zseq_length. reflexivity. Qed.
Lemma zseq_nth a n k d : (k < Z.to_nat n)%nat -> nth k (zseq a n) d = a + Z.of_nat k.
Proof.
  intros H. unfold zseq. rewrite nth_indep with (d' := a + Z.of_nat 0) by (rewrite map_length, seq_length; lia).
  rewrite (map_nth (fun k => a + Z.of_nat k)). rewrite seq_nth by lia. f_equal.
Qed.
Lemma words_nth d a n k : 0 <= k < n -> nth (Z.to_nat k) (words d a n) 0 = d (a + k).
Proof.
  intros H. unfold words.
  rewrite nth_indep with (d' := d 0) by (rewrite map_length, zseq_length; lia).
  rewrite map_nth, zseq_nth by lia. f_equal; lia.
Qed.
Lemma words_ext d d' a n : (forall x, a <= x < a + n -> d x = d' x) -> words d a n = words d' a n.
Proof.
  intros H. unfold words. apply map_ext_in. intros x Hx. apply H.
  unfold zseq in Hx. apply in_map_iff in Hx. destruct Hx as (k & <- & Hk). apply in_seq in Hk. lia.
Qed.
Lemma words_eq_nth d a n ws : Z.of_nat (length ws) = n -> words d a n = ws ->
  forall k, 0 <= k < n -> d (a + k) = nth (Z.to_nat k) ws 0.
Proof. intros L <- k Hk. rewrite words_nth; auto. Qed.
Lemma words_of_nth d a n ws : Z.of_nat (length ws) = n ->
  (forall k, 0 <= k < n -> d (a + k) = nth (Z.to_nat k) ws 0) -> words d a n = ws.
Proof.
  intros L H. apply nth_ext with (d := 0) (d' := 0); [rewrite words_length; lia|].
  intros m Hm. rewrite words_length in Hm.
  replace m with (Z.to_nat (Z.of_nat m)) by lia. rewrite words_nth by lia. apply H. lia.
Qed.

Lemma put_in d a ws x : a <= x < a + zlen ws -> put d a ws x = nth (Z.to_nat (x - a)) ws 0.
Proof. unfold put, zlen. intros H. rewrite leb_t, ltb_t by lia. reflexivity. Qed.
Lemma put_out d a ws x : x < a \/ a + zlen ws <= x -> put d a ws x = d x.
Proof.
  unfold put, zlen. intros [H|H]; [rewrite leb_f by lia; reflexivity|].
  destruct (a <=? x); [|reflexivity]. rewrite ltb_f by lia. reflexivity.
Qed.
Lemma zero_in d a n x : a <= x < a + n -> zero d a n x = 0.
Proof. unfold zero. intros H. rewrite leb_t, ltb_t by lia. reflexivity. Qed.
Lemma zero_out d a n x : x < a \/ a + n <= x -> zero d a n x = d x.
Proof.
  unfold zero. intros [H|H]; [rewrite leb_f by lia; reflexivity|].
  destruct (a <=? x); [|reflexivity]. rewrite ltb_f by lia. reflexivity.
Qed.
Lemma words_put d a ws : words (put d a ws) a (zlen ws) = ws.
Proof.
  apply words_of_nth; [reflexivity|]. intros k Hk. rewrite put_in by lia. f_equal; lia.
Qed.

Lemma zlen_app a b : zlen (a ++ b) = zlen a + zlen b.
Proof. unfold zlen. rewrite app_length. lia. Qed.
Lemma zlen_nonneg l : 0 <= zlen l. Proof. unfold zlen; lia. Qed.
Lemma zlen_nil l : zlen l = 0 -> l = [].
Proof. unfold zlen. destruct l; [reflexivity|cbn [length]; lia]. Qed.

Lemma tabulate_length f n : length (tabulate f n) = Z.to_nat n.
Proof. unfold tabulate. rewrite map_length, zseq_length. reflexivity. Qed.
Lemma zlen_tabulate f n : 0 <= n -> zlen (tabulate f n) = n.
Proof. intros. unfold zlen. rewrite tabulate_length. lia. Qed.
Lemma tabulate_nth f n k : 0 <= k < n -> nth (Z.to_nat k) (tabulate f n) 0 = f k.
Proof. intros H. unfold tabulate. fold (words f 0 n). rewrite words_nth by lia. f_equal; lia. Qed.
Lemma put_tabulate d a f n x : a <= x < a + n -> put d a (tabulate f n) x = f (x - a).
Proof.
  intros H. rewrite put_in by (rewrite zlen_tabulate by lia; lia). apply tabulate_nth; lia.
Qed.

(** ** numberLongs *)
Lemma nlii n : 0 <= n -> numberLongsInInts n = (n + 1) / 2.
Proof.
  intros H. unfold numberLongsInInts. destruct (0 <? n) eqn:E; bz.
  - rewrite Z.quot_div_nonneg by lia. replace (n + 1) with (n - 1 + 1 * 2) by lia.
    rewrite Z.div_add by lia. reflexivity.
  - assert (n = 0) by lia. subst. reflexivity.
Qed.
Lemma nlib n : 0 <= n -> numberLongsInBytes n = (n + 7) / 8.
Proof.
  intros H. unfold numberLongsInBytes. destruct (0 <? n) eqn:E; bz.
  - rewrite Z.quot_div_nonneg by lia. replace (n + 7) with (n - 1 + 1 * 8) by lia.
    rewrite Z.div_add by lia. reflexivity.
  - assert (n = 0) by lia. subst. reflexivity.
Qed.
Lemma nlii_bounds n : 0 <= n -> n <= 2 * numberLongsInInts n <= n + 1.
Proof. intros H. rewrite nlii by lia. pose proof (Z.div_mod (n + 1) 2). pose proof (Z.mod_pos_bound (n + 1) 2). lia. Qed.
Lemma nlib_bounds n : 0 <= n -> n <= 8 * numberLongsInBytes n <= n + 7.
Proof. intros H. rewrite nlib by lia. pose proof (Z.div_mod (n + 7) 8). pose proof (Z.mod_pos_bound (n + 7) 8). lia. Qed.
Lemma nlii_0 : numberLongsInInts 0 = 0. Proof. reflexivity. Qed.
Lemma lw_nonneg l : 0 <= lw l.
Proof. unfold lw. pose proof (nlii_bounds (zlen l) (zlen_nonneg l)). pose proof (zlen_nonneg l). lia. Qed.

(** ** Packed 32-bit items *)
Definition int32s (l : list Z) : Prop := Forall in32 l.

Lemma pack_ints_length d l : forall a, length (pack_ints d a l) = Z.to_nat (lw l).
Proof.
  unfold lw, zlen.
  enough (H : forall n l, (length l <= n)%nat -> forall a,
            length (pack_ints d a l) = Z.to_nat (numberLongsInInts (Z.of_nat (length l)))) by (intros; eapply H; eauto).
  clear l. induction n as [|n IH]; intros l Hl a.
  - destruct l; [reflexivity|cbn [length] in Hl; lia].
  - destruct l as [|x [|y t]]; [reflexivity|reflexivity|].
    cbn [pack_ints length]. cbn [length] in Hl. rewrite IH by lia.
    rewrite !nlii by lia. replace (Z.of_nat (S (S (length t))) + 1) with (Z.of_nat (length t) + 1 + 1 * 2) by lia.
    rewrite Z.div_add by lia. pose proof (Z.div_pos (Z.of_nat (length t) + 1) 2). lia.
Qed.
Lemma zlen_pack d a l : zlen (pack_ints d a l) = lw l.
Proof. unfold zlen. rewrite pack_ints_length. pose proof (lw_nonneg l). lia. Qed.

Lemma unpack_pack d l : int32s l -> forall a, firstn (length l) (unpack_ints (pack_ints d a l)) = l.
Proof.
  enough (H : forall n l, (length l <= n)%nat -> int32s l -> forall a,
            firstn (length l) (unpack_ints (pack_ints d a l)) = l) by (intros; eapply H; eauto).
  clear l. induction n as [|n IH]; intros l Hl H32 a.
  - destruct l; [reflexivity|cbn [length] in Hl; lia].
  - destruct l as [|x [|y t]]; [reflexivity| |].
    + inversion_clear H32. cbn [pack_ints unpack_ints flat_map length].
      assert (Hh : in32 (snd (i8toi4 false (d a)))).
      { rewrite i8toi4_value. cbn [snd]. unfold sgn32, in32, INT_MIN, INT_MAX.
        pose proof (Z.mod_pos_bound (d a / 4294967296) 4294967296 ltac:(lia)).
        destruct (2 * _ <? _) eqn:E; bz; lia. }
      rewrite C14_unpack_pack by assumption. reflexivity.
    + inversion_clear H32 as [|? ? Hx H32']. inversion_clear H32' as [|? ? Hy Ht].
      cbn [pack_ints unpack_ints flat_map length]. rewrite C14_unpack_pack by assumption.
      cbn [app firstn]. f_equal. f_equal. apply IH; [cbn [length] in Hl; lia|assumption].
Qed.

Lemma ints_at_put d a l : int32s l -> ints_at (put d a (pack_ints d a l)) a (zlen l) = l.
Proof.
  intros H. unfold ints_at. fold (lw l). rewrite <- (zlen_pack d a l). rewrite words_put.
  unfold zlen. rewrite Nat2Z.id. apply unpack_pack; assumption.
Qed.
Lemma ints_at_ext d d' a n : (forall x, a <= x < a + numberLongsInInts n -> d x = d' x) ->
  ints_at d a n = ints_at d' a n.
Proof. intros H. unfold ints_at. rewrite (words_ext d d' a _ H). reflexivity. Qed.
Lemma ints_at_0 d a : ints_at d a 0 = [].
Proof. reflexivity. Qed.

Lemma unpack_length ws : length (unpack_ints ws) = (2 * length ws)%nat.
Proof.
  induction ws as [|w t IH]; [reflexivity|]. cbn [unpack_ints flat_map]. destruct (i8toi4 false w).
  rewrite app_length. cbn [length]. unfold unpack_ints in IH. rewrite IH. lia.
Qed.
Lemma isOdd_spec n : 0 <= n -> isOdd n = Z.odd n.
Proof.
  intros H. unfold isOdd. rewrite Z.quot_div_nonneg by lia.
  pose proof (Z.div2_odd n) as E. rewrite Z.div2_div in E.
  destruct (Z.odd n) eqn:O; cbn [Z.b2z] in E; [rewrite eqb_f by lia|rewrite eqb_t by lia]; reflexivity.
Qed.
Lemma ints_at_odd d a n : 0 <= n -> firstn (Z.to_nat n) (ints_at d a (if isOdd n then n + 1 else n)) = ints_at d a n.
Proof.
  intros H. unfold ints_at. rewrite isOdd_spec by lia. destruct (Z.odd n) eqn:O.
  - rewrite firstn_firstn, Nat.min_l by lia. f_equal. f_equal. f_equal.
    rewrite !nlii by lia. apply Z.odd_spec in O. destruct O as (m & ->).
    replace (2 * m + 1 + 1) with ((m + 1) * 2) by lia. rewrite Z.div_mul by lia.
    replace ((m + 1) * 2 + 1) with (1 + (m + 1) * 2) by lia. rewrite Z.div_add by lia. reflexivity.
  - rewrite firstn_firstn, Nat.min_id. reflexivity.
Qed.

(** ** Text in words *)
Lemma bytes_of_words_length ws : length (bytes_of_words ws) = (8 * length ws)%nat.
Proof.
  induction ws as [|w t IH]; [reflexivity|]. cbn [bytes_of_words flat_map].
  rewrite app_length, bytes_le_length. unfold bytes_of_words in IH. rewrite IH. cbn [length]. lia.
Qed.
Definition is_bytes (l : list Z) : Prop := Forall (fun c => 0 <= c < 256) l.
Lemma bytes_le_bytes n : forall v, is_bytes (bytes_le n v).
Proof.
  induction n as [|n IH]; intros v; [constructor|]. cbn [bytes_le]. constructor; [|apply IH].
  apply Z.mod_pos_bound; lia.
Qed.
Lemma bytes_of_words_bytes ws : is_bytes (bytes_of_words ws).
Proof.
  induction ws as [|w t IH]; [constructor|]. cbn [bytes_of_words flat_map]. apply Forall_app. split; [apply bytes_le_bytes|exact IH].
Qed.
Lemma bytes_unsigned_le b : is_bytes b -> bytes_le (length b) (unsigned_le b) = b.
Proof.
  induction b as [|x t IH]; intros H; [reflexivity|]. inversion_clear H as [|? ? Hx Ht].
  cbn [length bytes_le unsigned_le]. rewrite (Z.mul_comm 256), Z.mod_add, Z.mod_small by lia.
  rewrite Z.div_add by lia. rewrite (Z.div_small x) by lia. rewrite Z.add_0_l, IH by assumption. reflexivity.
Qed.
Lemma words_of_bytes_length n : forall b, length (words_of_bytes n b) = n.
Proof. induction n as [|n IH]; intros b; [reflexivity|]. cbn [words_of_bytes length]. rewrite IH. reflexivity. Qed.
Lemma bytes_words_of_bytes n : forall b, length b = (8 * n)%nat -> is_bytes b -> bytes_of_words (words_of_bytes n b) = b.
Proof.
  induction n as [|n IH]; intros b L H.
  - destruct b; [reflexivity|cbn [length] in L; lia].
  - cbn [words_of_bytes bytes_of_words flat_map].
    assert (L8 : length (firstn 8 b) = 8%nat) by (rewrite firstn_length; lia).
    assert (HF : is_bytes (firstn 8 b) /\ is_bytes (skipn 8 b)).
    { apply Forall_app. rewrite firstn_skipn. exact H. }
    destruct HF as [H8 HS].
    pose proof (bytes_unsigned_le _ H8) as E. rewrite L8 in E. rewrite E.
    fold (bytes_of_words (words_of_bytes n (skipn 8 b))).
    rewrite IH; [apply firstn_skipn|rewrite skipn_length; lia|exact HS].
Qed.
Lemma path_words_length p old : length (path_words p old) = length old.
Proof. unfold path_words. apply words_of_bytes_length. Qed.
Lemma path_words_bytes p old : is_bytes p -> (length p <= 8 * length old)%nat ->
  bytes_of_words (path_words p old) = p ++ skipn (length p) (bytes_of_words old).
Proof.
  intros Hp Hl. unfold path_words. apply bytes_words_of_bytes.
  - rewrite app_length, skipn_length, bytes_of_words_length. lia.
  - apply Forall_app. split; [exact Hp|].
    pose proof (bytes_of_words_bytes old) as HB. rewrite <- (firstn_skipn (length p)) in HB.
    apply Forall_app in HB. apply HB.
Qed.
Lemma path_words_text p old : is_bytes p -> (length p <= 8 * length old)%nat ->
  firstn (length p) (bytes_of_words (path_words p old)) = p.
Proof.
  intros Hp Hl. rewrite path_words_bytes by assumption. rewrite firstn_app, Nat.sub_diag, firstn_all. cbn [firstn].
  apply app_nil_r.
Qed.

(** ** Pathname comparison *)
Lemma toupper_idem c : toupper (toupper c) = toupper c.
Proof. unfold toupper. destruct ((97 <=? c) && (c <=? 122)) eqn:E; [|rewrite E; reflexivity].
  bz. rewrite leb_f by lia. reflexivity. Qed.
Lemma hash_char_toupper c : hash_char (toupper c) = hash_char c.
Proof.
  unfold hash_char, toupper. destruct ((97 <=? c) && (c <=? 122)) eqn:E; [|rewrite E; reflexivity]. bz.
  rewrite !ltb_f by lia. cbn [orb]. rewrite leb_f by lia. reflexivity.
Qed.
Definition key (p : list Z) : list Z := map toupper p.
Lemma key_length p : length (key p) = length p. Proof. apply map_length. Qed.
Lemma hash_key p : map hash_char (key p) = map hash_char p.
Proof. unfold key. rewrite map_map. apply map_ext. intros c. apply hash_char_toupper. Qed.

Lemma string_compare_spec n : forall a b, (n <= length a)%nat -> (n <= length b)%nat ->
  string_compare n a b = true <-> key (firstn n a) = key (firstn n b).
Proof.
  induction n as [|n IH]; intros a b Ha Hb; cbn [string_compare firstn]; [split; auto|].
  destruct a as [|x s]; [cbn [length] in Ha; lia|]. destruct b as [|y t]; [cbn [length] in Hb; lia|].
  cbn [firstn key map]. cbn [length] in Ha, Hb. rewrite andb_true_iff, IH by lia. split.
  - intros [H1 H2]. bz. rewrite H1. f_equal. exact H2.
  - intros H. inversion H. split; [apply Z.eqb_eq; reflexivity|assumption].
Qed.
Lemma string_compare_app n : forall a b c, (n <= length b)%nat -> string_compare n a (b ++ c) = string_compare n a b.
Proof.
  induction n as [|n IH]; intros a b c H; [reflexivity|]. destruct b as [|y t]; [cbn [length] in H; lia|].
  cbn [app string_compare]. destruct a; [reflexivity|]. rewrite IH by (cbn [length] in H; lia). reflexivity.
Qed.

Lemma zhash_key dt m p q : key p = key q -> zhash dt m p = zhash dt m q.
Proof.
  intros H. unfold zhash, table_hash, path_hash.
  assert (L : length p = length q) by (rewrite <- (key_length p), H; apply key_length).
  assert (E : map hash_char p = map hash_char q) by (rewrite <- (hash_key p), H; apply hash_key).
  rewrite L, E. reflexivity.
Qed.
