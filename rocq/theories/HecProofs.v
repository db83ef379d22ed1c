(** * C51: the loops of the library interface. *)
From Coq Require Import ZArith List Lia Bool ZifyBool.
From Verif Require Import Base ArrayLib CStr CStrProofs FileModel TextModel TextProps PdModel TrimModel HecModel HecSpec.
Import ListNotations.
Open Scope Z_scope.
Open Scope res_scope.

Lemma aget_firstn {A} (l : list A) n i : 0 <= i < Z.of_nat n -> aget (firstn n l) i = aget l i.
Proof.
  intros H. unfold aget. destruct (i <? 0) eqn:E; [reflexivity|]. rewrite <- (firstn_skipn n l) at 2.
  destruct (Nat.lt_ge_cases (Z.to_nat i) (length (firstn n l))) as [L|L].
  - rewrite nth_error_app1 by exact L. reflexivity.
  - pose proof (firstn_le_length n l) as Q. rewrite firstn_length in L. rewrite skipn_all2 by lia. rewrite app_nil_r. reflexivity.
Qed.
Lemma aget_overlay {A} (new old : list A) i : 0 <= i -> aget (overlay new old) i = if i <? alen new then aget new i else aget old i.
Proof.
  intros H. unfold overlay, aget, alen. destruct (i <? 0) eqn:E; [lia|]. destruct (i <? Z.of_nat (length new)) eqn:L.
  - rewrite nth_error_app1 by lia. reflexivity.
  - rewrite nth_error_app2 by lia. assert (X : forall n k (l : list A), nth_error (skipn n l) k = nth_error l (n + k)%nat).
    { clear. induction n as [|n IH]; intros k l; [reflexivity|]. destruct l; [destruct k; reflexivity|]. cbn [skipn]. rewrite IH. reflexivity. }
    rewrite X. replace (length new + _)%nat with (Z.to_nat i) by lia. reflexivity.
Qed.
Lemma alen_overlay {A} (new old : list A) : alen new <= alen old -> alen (overlay new old) = alen old.
Proof. unfold overlay, alen. rewrite app_length, skipn_length. lia. Qed.
Lemma overlay_get {A} (new old d : list A) : alen new <= alen old -> alen d = alen old ->
  (forall i, 0 <= i < alen old -> aget d i = if i <? alen new then aget new i else aget old i) -> d = overlay new old.
Proof. intros L E H. apply aget_ext; [rewrite alen_overlay by exact L; exact E|]. intros i Hi. rewrite aget_overlay by lia. apply H. lia. Qed.
Lemma copy_start {A} n (src dst : list A) : Z.of_nat n <= alen src -> Z.of_nat n <= alen dst -> copy_loop n src 0 dst 0 = Ok (overlay (firstn n src) dst).
Proof.
  intros H1 H2. destruct (copy_loop_ok n src 0 dst 0) as (d & E & L & G); try lia. rewrite E. f_equal. assert (LN : alen (firstn n src) = Z.of_nat n) by (unfold alen in *; rewrite firstn_length; lia).
  apply overlay_get; [lia|exact L|]. intros i Hi. rewrite G, LN. destruct (i <? Z.of_nat n) eqn:E1.
  - replace ((0 <=? i) && (i <? 0 + Z.of_nat n)) with true by lia. rewrite aget_firstn by lia. f_equal. lia.
  - replace ((0 <=? i) && (i <? 0 + Z.of_nat n)) with false by lia. reflexivity.
Qed.
Lemma read_start {A} n (src : list A) : Z.of_nat n <= alen src -> read_loop n src 0 = Ok (firstn n src).
Proof.
  intros H. destruct (read_loop_ok n src 0) as (r & E & L & G); try lia. rewrite E. f_equal. apply aget_ext.
  - unfold alen in *. rewrite firstn_length. lia.
  - intros j Hj. unfold alen in *. rewrite G by lia. rewrite aget_firstn by lia. reflexivity.
Qed.

(** ** mallocAndCopy *)
Lemma legal_cons c d s i : legal_len (c :: d :: s) i = if schar c <=? 0 then i + 1 else legal_len (d :: s) (i + 1).
Proof. reflexivity. Qed.
Lemma legal_all s : forall i, s <> [] -> Forall (fun c => 1 <= c <= 127) s -> legal_len s i = i + slen s.
Proof.
  induction s as [|c s IH]; intros i N H; [congruence|]. inversion H as [|? ? Hc Hs]; subst. destruct s as [|d s]; [reflexivity|].
  rewrite legal_cons. unfold schar at 1. replace (c >? 127) with false by lia. replace (c <=? 0) with false by lia.
  rewrite IH by (discriminate || assumption). unfold slen. cbn [length]. lia.
Qed.
Lemma legal_bound s : forall i, i <= legal_len s i <= i + slen s /\ (s <> [] -> i < legal_len s i).
Proof.
  induction s as [|c s IH]; intros i; [cbn; unfold slen; cbn; split; [lia|congruence]|]. destruct s as [|d s]; [cbn; unfold slen; cbn; split; [lia|lia]|].
  rewrite legal_cons. destruct (schar c <=? 0); [unfold slen; cbn [length]; split; lia|].
  destruct (IH (i + 1)) as (A & B). unfold slen in *. cbn [length] in *. split; [lia|]. intros _. specialize (B ltac:(discriminate)). lia.
Qed.
Lemma black_ok n s len : Z.of_nat n < alen s -> 0 <= len <= alen s -> exists k, last_black n s len = Ok k /\ 0 <= k <= alen s.
Proof.
  induction n as [|n IH]; intros H HL; [exists len; split; [reflexivity|exact HL]|]. cbn [last_black]. destruct (aget_some s (Z.of_nat (S n)) ltac:(lia)) as (c & ->). cbn [bind].
  destruct (negb (c =? 32)); [eexists; split; [reflexivity|lia]|]. apply IH; lia.
Qed.
Lemma cstr_in_buf s rest : Forall (fun c => c <> 0) s -> cstr (s ++ 0 :: rest) = Ok s.
Proof. induction 1 as [|c s Hc Hs IH]; [reflexivity|]. cbn [app cstr]. replace (c =? 0) with false by lia. rewrite IH. reflexivity. Qed.
Lemma plain_nz s : plain s -> Forall (fun c => c <> 0) s.
Proof. intros (_ & H & _). eapply Forall_impl; [|exact H]. cbn. intros; lia. Qed.
Lemma aget_last (s : list Z) : s <> [] -> aget s (slen s - 1) = Ok (last s 0).
Proof.
  intros N. unfold aget, slen. destruct s as [|c s] using rev_ind; [congruence|]. clear. rewrite app_length, last_last. cbn [length].
  destruct (_ <? 0) eqn:E; [lia|]. rewrite nth_error_app2 by lia. replace (Z.to_nat _ - length s)%nat with 0%nat by lia. reflexivity.
Qed.

(** ** strncpy *)
Lemma strncpy_plain n s : forall rest, Forall (fun c => c <> 0) s -> (n <= length s)%nat -> strncpy_bytes n (s ++ rest) = Ok (firstn n s).
Proof.
  revert s. induction n as [|n IH]; intros s rest H L; [reflexivity|]. destruct s as [|c s]; [cbn in L; lia|]. inversion H; subst. cbn [app strncpy_bytes]. replace (c =? 0) with false by lia.
  rewrite IH by (assumption || cbn in L; lia). reflexivity.
Qed.
Lemma strncpy_nul s rest : Forall (fun c => c <> 0) s -> strncpy_bytes (S (length s)) (s ++ 0 :: rest) = Ok (s ++ [0]).
Proof.
  intros H. induction H as [|c s Hc Hs IH]; [reflexivity|]. cbn [length app]. change (strncpy_bytes (S (S (length s))) (c :: s ++ 0 :: rest)) with (if c =? 0 then Ok (repeat 0 (S (S (length s)))) else let* r := strncpy_bytes (S (length s)) (s ++ 0 :: rest) in Ok (c :: r)).
  replace (c =? 0) with false by lia. rewrite IH. reflexivity.
Qed.

(** ** hec_dss_array_copy_* *)
Lemma array_copy_all {A} (held : list A) buf : room buf (alen held) -> array_copy buf (alen held) held (alen held) = Ok (option_map (overlay held) buf).
Proof.
  intros H. unfold array_copy. destruct buf as [d|]; [|reflexivity]. cbn in H. destruct (_ || _) eqn:E.
  - cbn [option_map]. unfold alen in *. destruct held; [reflexivity|cbn [length] in E; lia].
  - rewrite Z.min_id. rewrite copy_start by (unfold alen in *; lia). cbn [bind option_map]. rewrite firstn_all2 by (unfold alen; lia). reflexivity.
Qed.
Lemma array_copy_n {A} (held : list A) buf n : alen held = n -> room buf n -> array_copy buf n held n = Ok (option_map (overlay held) buf).
Proof. intros <-. apply array_copy_all. Qed.
Lemma array_filled {A} (held : list A) buf n : room buf n ->
  (if n =? alen held then array_copy buf n held (alen held) else Ok buf) = Ok (filled held buf n).
Proof.
  intros H. unfold filled. destruct (n =? alen held) eqn:E; [|reflexivity]. assert (n = alen held) by lia. subst n. apply array_copy_all, H.
Qed.
Lemma given_handed {A} (a : option (list A)) n : 0 <= n -> room a n -> array_given a n = Ok (handed a n).
Proof.
  intros H0 H. unfold array_given, handed. destruct a as [l|]; [|reflexivity]. cbn in H. destruct (n >? 0) eqn:E; [apply read_start; lia|]. replace (Z.to_nat n) with 0%nat by lia. reflexivity.
Qed.

(** ** The catalogue *)
Lemma put_str_overlay s : forall b, slen s < alen b -> put_str b s = Ok (overlay (s ++ [0]) b).
Proof.
  induction s as [|c s IH]; intros b L.
  - destruct b as [|x b]; [cbn in L; unfold slen, alen in L; cbn in L; lia|]. reflexivity.
  - destruct b as [|x b]; [unfold slen, alen in L; cbn in L; lia|]. cbn [put_str]. rewrite IH by (unfold slen, alen in *; cbn [length] in L; lia). reflexivity.
Qed.
Lemma stringCopy_overlay b size s : 0 < size <= alen b -> exists q, stringCopy b size s (Some (slen s)) = Ok (overlay (stake (size - 1) s ++ [0]) b, q).
Proof.
  intros H. unfold stringCopy. destruct s as [|c s].
  - change (slen []) with 0. cbv iota. replace (size >? 0) with true by lia. destruct b as [|x b]; [unfold alen in H; cbn in H; lia|].
    change (aset (x :: b) 0 0) with (Ok (0 :: b)). cbn [bind]. exists 0. unfold stake, overlay. rewrite firstn_nil. reflexivity.
  - assert (P : 0 < slen (c :: s)) by (unfold slen; cbn [length]; lia). destruct (slen (c :: s)) as [|p|p] eqn:E; try lia. cbv iota. replace (size =? 0) with false by lia.
    unfold stringCopy_val. replace (Z.pos p <=? 0) with false by lia.
    assert (T : stake (Z.min (Z.pos p) (size - 1)) (c :: s) = stake (size - 1) (c :: s)).
    { unfold stake. destruct (Z.le_gt_cases (Z.pos p) (size - 1)) as [L|L].
      - rewrite Z.min_l by lia. rewrite !firstn_all2 by (unfold slen in E; lia). reflexivity.
      - rewrite Z.min_r by lia. reflexivity. }
    rewrite T. rewrite put_str_overlay.
    + cbn [bind]. eexists. reflexivity.
    + unfold stake, slen, alen in *. rewrite firstn_length. lia.
Qed.
Lemma sdrop_nat (l : list Z) n k : 0 <= n -> 0 <= k -> sdrop k (sdrop n l) = sdrop (n + k) l.
Proof.
  intros. unfold sdrop. assert (X : forall m j (l : list Z), skipn j (skipn m l) = skipn (m + j) l).
  { clear. induction m as [|m IH]; intros j l; [reflexivity|]. destruct l; [rewrite !skipn_nil; reflexivity|]. cbn [skipn Nat.add]. apply IH. }
  rewrite X. f_equal. lia.
Qed.
Lemma cstr_overlay s b : Forall (fun c => c <> 0) s -> cstr (overlay (s ++ [0]) b) = Ok s.
Proof. intros H. unfold overlay. rewrite <- app_assoc. apply cstr_in_buf, H. Qed.

Lemma catalog_copy_ok size names types : 0 < size -> alen types = alen names ->
  forall cnt i buf rt, 0 <= i -> i + Z.of_nat cnt <= alen names -> (i + Z.of_nat cnt) * size <= alen buf -> alen buf <= INT_MAX -> i + Z.of_nat cnt <= alen rt ->
  exists b t, catalog_copy cnt names types i size buf rt = Ok (b, t) /\ copy_loop cnt types i rt i = Ok t /\ alen b = alen buf /\
    stake (i * size) b = stake (i * size) buf /\ sdrop ((i + Z.of_nat cnt) * size) b = sdrop ((i + Z.of_nat cnt) * size) buf /\
    forall j, i <= j < i + Z.of_nat cnt -> exists w, sdrop (j * size) b = stake (size - 1) (nth (Z.to_nat j) names []) ++ 0 :: w.
Proof.
  intros S0 LT. induction cnt as [|cnt IH]; intros i buf rt I0 I1 LB HM LR.
  - exists buf, rt. repeat split; try reflexivity. intros j Hj. lia.
  - cbn [catalog_copy copy_loop]. destruct (aget_some types i) as (ty & Ety); [lia|]. rewrite Ety. cbn [bind].
    destruct (aset_ok rt i ty ltac:(lia)) as (rt1 & Er & Lr & _). rewrite Er. cbn [bind].
    assert (P0 : 0 <= i * size) by (clear - I0 S0; nia). assert (P1 : i * size + size <= alen buf) by (clear - LB S0; nia).
    rewrite chk32_ok by (unfold in32, INT_MIN in *; lia). cbn [bind].
    assert (EN : aget names i = Ok (nth (Z.to_nat i) names [])).
    { unfold aget, alen in *. destruct (i <? 0) eqn:E; [lia|]. rewrite (nth_error_nth' names []) by lia. reflexivity. }
    rewrite EN. cbn [bind]. replace ((i * size <? 0) || (i * size >? alen buf)) with false by lia.
    set (pos := i * size) in *. assert (LD : alen (sdrop pos buf) = alen buf - pos) by (unfold sdrop, alen in *; rewrite skipn_length; lia).
    destruct (stringCopy_overlay (sdrop pos buf) size (nth (Z.to_nat i) names []) ltac:(lia)) as (q & Es). rewrite Es. cbn [bind].
    set (nm := stake (size - 1) (nth (Z.to_nat i) names [])) in *. assert (LN : slen nm <= size - 1) by (unfold nm, stake, slen; rewrite firstn_length; lia).
    set (buf1 := stake pos buf ++ overlay (nm ++ [0]) (sdrop pos buf)).
    assert (LA : length (stake pos buf) = Z.to_nat pos) by (unfold stake, alen in *; rewrite firstn_length; lia).
    assert (LV : alen (overlay (nm ++ [0]) (sdrop pos buf)) = alen buf - pos) by (rewrite alen_overlay; [exact LD|]; unfold alen, slen in *; rewrite app_length; cbn [length]; lia).
    assert (L1 : alen buf1 = alen buf) by (unfold buf1, alen in *; rewrite app_length; lia).
    assert (NX : (i + 1) * size = pos + size) by (unfold pos; lia).
    destruct (IH (i + 1) buf1 rt1) as (b & t & E & ET & LB' & ST & SD & IT); try lia.
    exists b, t. replace (i + 1 + Z.of_nat cnt) with (i + Z.of_nat (S cnt)) in * by lia.
    split; [exact E|]. split; [exact ET|]. split; [lia|].
    assert (D1 : sdrop pos buf1 = overlay (nm ++ [0]) (sdrop pos buf)).
    { unfold buf1, sdrop at 1. rewrite skipn_app, skipn_all2, LA, Nat.sub_diag by lia. reflexivity. }
    assert (S1 : stake pos buf1 = stake pos buf).
    { unfold buf1, stake at 1. rewrite firstn_app, LA, Nat.sub_diag, firstn_O, app_nil_r. apply firstn_all2. lia. }
    split.
    { rewrite <- S1. assert (X : forall l : list Z, stake pos l = stake pos (stake (pos + size) l)) by (intros l; unfold stake; rewrite firstn_firstn; f_equal; lia).
      rewrite (X b), (X buf1). rewrite NX in ST. rewrite ST. reflexivity. }
    split.
    { rewrite SD. set (m := (i + Z.of_nat (S cnt)) * size) in *. assert (M : pos + size <= m) by (unfold m, pos; clear - S0; nia).
      replace m with (pos + (m - pos)) by lia. rewrite <- !sdrop_nat by lia. rewrite D1. unfold overlay, sdrop at 1. rewrite skipn_app.
      rewrite (skipn_all2 (nm ++ [0])) by (unfold slen in *; rewrite app_length; cbn [length]; lia). cbn [app].
      assert (X : forall a j (l : list Z), skipn j (skipn a l) = skipn (a + j) l).
      { clear. induction a as [|a IH]; intros j l; [reflexivity|]. destruct l; [rewrite !skipn_nil; reflexivity|]. cbn [skipn Nat.add]. apply IH. }
      rewrite X. unfold sdrop. rewrite X. rewrite X. f_equal. unfold slen in *. rewrite app_length. cbn [length]. lia. }
    intros j Hj. destruct (Z.eq_dec j i) as [->|N]; [|apply IT; lia]. fold pos nm. rewrite NX in ST.
    assert (Q : stake size (sdrop pos b) = stake size (sdrop pos buf1)).
    { assert (X : forall l : list Z, stake size (sdrop pos l) = sdrop pos (stake (pos + size) l)).
      { intros l. unfold stake, sdrop. rewrite skipn_firstn_comm. f_equal. lia. }
      rewrite !X, ST. reflexivity. }
    rewrite D1 in Q. exists (skipn (length nm + 1) (stake size (sdrop pos b)) ++ sdrop size (sdrop pos b)).
    rewrite <- (firstn_skipn (Z.to_nat size) (sdrop pos b)) at 1. fold (stake size (sdrop pos b)). fold (sdrop size (sdrop pos b)).
    change (0 :: ?a ++ ?b0) with ((0 :: a) ++ b0). rewrite app_assoc. f_equal. rewrite Q. unfold overlay.
    rewrite <- app_assoc. unfold stake. rewrite firstn_app. rewrite firstn_all2 by (unfold slen in *; lia). f_equal. cbn [app].
    destruct (Z.to_nat size - length nm)%nat as [|k] eqn:EK; [unfold slen in *; lia|]. cbn [firstn]. f_equal.
    rewrite skipn_app, (skipn_all2 nm) by lia. cbn [app]. replace (length nm + 1 - length nm)%nat with 1%nat by lia. reflexivity.
Qed.

(** ** The time series *)
Lemma ts_copy_ok t width : forall cnt i ta va qa a b c,
  match times t with Some l => copy_loop cnt l i ta i = Ok a | None => a = ta end -> copy_loop cnt (vals t) i va i = Ok b ->
  (if width >? 0 then match qual t with Some q => copy_loop cnt q i qa i = Ok c | None => False end else c = qa) ->
  ts_copy cnt t width i ta va qa = Ok (a, b, c).
Proof.
  induction cnt as [|cnt IH]; intros i ta va qa a b c HT HV HQ.
  - cbn in *. destruct (times t), (width >? 0), (qual t); try contradiction; congruence.
  - cbn [copy_loop ts_copy] in *. destruct (aget (vals t) i) as [v|]; [|discriminate]. cbn [bind] in *. destruct (aset va i v) as [va'|]; [|discriminate]. cbn [bind] in *.
    destruct (times t) as [lt|] eqn:ET.
    + destruct (aget lt i) as [x|]; [|discriminate]. cbn [bind] in *. destruct (aset ta i x) as [ta'|]; [|discriminate]. cbn [bind] in *.
      destruct (width >? 0) eqn:EW.
      * destruct (qual t) as [lq|] eqn:EQ; [|contradiction]. destruct (aget lq i) as [y|]; [|discriminate]. cbn [bind] in *. destruct (aset qa i y) as [qa'|]; [|discriminate]. cbn [bind] in *. apply IH; assumption.
      * cbn [bind]. apply IH; assumption.
    + cbn [bind]. destruct (width >? 0) eqn:EW.
      * destruct (qual t) as [lq|] eqn:EQ; [|contradiction]. destruct (aget lq i) as [y|]; [|discriminate]. cbn [bind] in *. destruct (aset qa i y) as [qa'|]; [|discriminate]. cbn [bind] in *. apply IH; assumption.
      * cbn [bind]. apply IH; assumption.
Qed.
