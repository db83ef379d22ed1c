(** * Lemmas for C54. *)
From Coq Require Import ZArith List Lia Bool ZifyBool.
From Verif Require Import Base ArrayLib CStr CStrProofs HecSpec HecProofs B64Proofs DelimModel DelimSpec.
Import ListNotations.
Open Scope Z_scope.
Open Scope res_scope.

Lemma is_prefix_spec p s : is_prefix p s = true <-> exists b, s = p ++ b.
Proof.
  revert s. induction p as [|a p IH]; intros s; cbn [is_prefix].
  - split; [intros _; exists s; reflexivity|reflexivity].
  - destruct s as [|b s]; [split; [discriminate|intros (x & H); discriminate]|]. split.
    + intros H. apply andb_prop in H. destruct H as (E & H). apply IH in H. destruct H as (x & ->). exists x. cbn. f_equal. lia.
    + intros (x & H). injection H as <- H. rewrite Z.eqb_refl. cbn [andb]. apply IH. exists x. exact H.
Qed.
Lemma prefix_no_delim p e d rest : ~ In d p -> is_prefix p (e ++ d :: rest) = true -> exists b, e = p ++ b.
Proof.
  revert e. induction p as [|a p IH]; intros e N H.
  - exists e. reflexivity.
  - destruct e as [|x e]; cbn [app is_prefix] in H; apply andb_prop in H; destruct H as (E & H).
    + exfalso. apply N. left. lia.
    + destruct (IH e) as (b & ->); [intros I; apply N; right; exact I|exact H|]. exists b. cbn. f_equal. lia.
Qed.
Lemma strstr_skip p d : p <> [] -> ~ In d p -> forall e rest, ~ occurs p e ->
  strstr (e ++ d :: rest) p = match strstr rest p with Some k => Some (slen e + 1 + k) | None => None end.
Proof.
  intros P N. induction e as [|x e IH]; intros rest NO.
  - cbn [app strstr]. destruct (is_prefix p (d :: rest)) eqn:E.
    + exfalso. destruct (prefix_no_delim p [] d rest N E) as (b & Q). destruct p; [congruence|discriminate].
    + destruct (strstr rest p); [f_equal; unfold slen; cbn [length]; lia|reflexivity].
  - cbn [app strstr]. destruct (is_prefix p (x :: e ++ d :: rest)) eqn:E.
    + exfalso. apply NO. destruct (prefix_no_delim p (x :: e) d rest N E) as (b & Q). exists [], b. exact Q.
    + rewrite IH by (intros (a & b & Q); apply NO; exists (x :: a), b; rewrite Q; reflexivity). destruct (strstr rest p); [f_equal; rewrite slen_cons; lia|reflexivity].
Qed.
Definition chunks (d : Z) (es : list (list Z)) : list Z := concat (map (fun e => e ++ [d]) es).
Lemma strstr_chunks p d : p <> [] -> ~ In d p -> forall es tail, Forall (fun e => ~ occurs p e) es ->
  strstr (chunks d es ++ tail) p = match strstr tail p with Some k => Some (slen (chunks d es) + k) | None => None end.
Proof.
  intros P N. induction es as [|e es IH]; intros tail H.
  - cbn. destruct (strstr tail p); reflexivity.
  - inversion H as [|? ? H1 H2]; subst. unfold chunks in *. cbn [map concat]. rewrite <- !app_assoc. cbn [app]. rewrite strstr_skip by assumption. rewrite IH by assumption.
    destruct (strstr tail p); [f_equal; rewrite !slen_app, slen_cons; lia|reflexivity].
Qed.
Lemma strstr_here p t : strstr (p ++ t) p = Some 0.
Proof. destruct (p ++ t) eqn:E; cbn [strstr]; rewrite <- E, (proj2 (is_prefix_spec p (p ++ t))) by (exists t; reflexivity); reflexivity. Qed.
Lemma strstr_none_nil p : p <> [] -> strstr [] p = None.
Proof. destruct p; [congruence|reflexivity]. Qed.
Lemma strstr_absent p s : ~ occurs p s -> strstr s p = None.
Proof.
  induction s as [|x s IH]; intros N.
  - cbn [strstr]. destruct (is_prefix p []) eqn:E; [|reflexivity]. exfalso. apply is_prefix_spec in E. destruct E as (b & E). apply N. exists [], b. exact E.
  - cbn [strstr]. destruct (is_prefix p (x :: s)) eqn:E; [exfalso; apply is_prefix_spec in E; destruct E as (b & E); apply N; exists [], b; exact E|].
    rewrite IH; [reflexivity|]. intros (a & b & Q). apply N. exists (x :: a), b. rewrite Q. reflexivity.
Qed.

(** ** Without regard to case *)
Lemma iprefix_lower p s : is_iprefix p s = is_prefix (map tolower p) (map tolower s).
Proof. revert s. induction p as [|a p IH]; intros [|b s]; cbn; try reflexivity. rewrite IH. reflexivity. Qed.
Lemma casestr_lower : forall n s p k, strstr (map tolower s) (map tolower p) = Some k -> k < Z.of_nat n -> casestr_loop n s p = Some k.
Proof.
  induction n as [|n IH]; intros s p k H L.
  - assert (0 <= k); [|lia]. clear L. remember (map tolower s) as t. clear Heqt. revert k H. induction t as [|x t IHt]; intros k H; cbn [strstr] in H; destruct (is_prefix _ _); try (injection H as <-; lia); try discriminate.
    destruct (strstr t _) as [j|]; [|discriminate]. injection H as <-. specialize (IHt j eq_refl). lia.
  - cbn [casestr_loop]. rewrite iprefix_lower. destruct s as [|x s].
    + cbn [map strstr] in H. cbn [map]. destruct (is_prefix (map tolower p) []); [exact H|discriminate].
    + cbn [map strstr] in H. cbn [map]. destruct (is_prefix (map tolower p) (tolower x :: map tolower s)); [exact H|].
      destruct (strstr (map tolower s) (map tolower p)) as [j|] eqn:E; [|discriminate]. injection H as <-. rewrite (IH s p j E) by lia. reflexivity.
Qed.

(** ** The end of a value, and reading it *)
Lemma scan_ok d : forall v fuel pre stop R, Forall (fun c => c <> 0 /\ c <> d) v -> (stop = 0 \/ stop = d) -> (length v < fuel)%nat ->
  scan_end fuel (pre ++ v ++ stop :: R) (slen pre) d = Ok (slen pre + slen v).
Proof.
  induction v as [|c v IH]; intros fuel pre stop R H S L.
  - destruct fuel; [lia|]. cbn [app scan_end]. rewrite aget_app_at by reflexivity. cbn [bind]. replace ((stop =? 0) || (stop =? d)) with true by (destruct S; subst; rewrite Z.eqb_refl; [reflexivity|symmetry; apply orb_true_r]). f_equal. unfold slen. cbn [length]. lia.
  - destruct fuel; [lia|]. inversion H as [|? ? (A1 & A2) B]; subst. cbn [app scan_end]. rewrite aget_app_at by reflexivity. cbn [bind]. replace ((c =? 0) || (c =? d)) with false by lia.
    replace (pre ++ c :: v ++ stop :: R) with ((pre ++ [c]) ++ v ++ stop :: R) by (rewrite <- app_assoc; reflexivity). replace (slen pre + 1) with (slen (pre ++ [c])) by (rewrite slen_app; reflexivity).
    rewrite IH by (try assumption; cbn [length] in L; lia). f_equal. rewrite slen_app, !slen_cons. unfold slen at 2. cbn [length]. lia.
Qed.
Lemma read_mid3 (pre v R : list Z) n k : n = slen v -> k = slen pre -> read_loop (Z.to_nat n) (pre ++ v ++ R) k = Ok v.
Proof.
  intros -> ->. unfold slen. rewrite Nat2Z.id. revert pre. induction v as [|c v IH]; intros pre; [reflexivity|]. cbn [length read_loop app]. change (Z.of_nat (length pre)) with (slen pre). rewrite aget_app_at by reflexivity. cbn [bind].
  replace (pre ++ c :: v ++ R) with ((pre ++ [c]) ++ v ++ R) by (rewrite <- app_assoc; reflexivity). replace (slen pre + 1) with (Z.of_nat (length (pre ++ [c]))) by (unfold slen; rewrite app_length; cbn [length]; lia). rewrite IH. reflexivity.
Qed.
Lemma sdrop_app2 (a b : list Z) n : n = slen a -> sdrop n (a ++ b) = b.
Proof. intros ->. apply sdrop_app. Qed.
Lemma stake_app2 (a b : list Z) n : n = slen a -> stake n (a ++ b) = a.
Proof. intros ->. apply stake_app. Qed.
Lemma splice_ok A X data pos : pos = slen A -> slen data <= slen X -> splice (A ++ X) pos data = Ok (A ++ data ++ sdrop (slen data) X).
Proof.
  intros -> L. unfold splice. pose proof (slen_nonneg A). rewrite slen_app. replace ((0 <=? slen A) && (slen A + slen data <=? slen A + slen X)) with true by lia. rewrite stake_app. f_equal. f_equal. f_equal.
  unfold sdrop. rewrite skipn_app. pose proof (slen_nonneg data). rewrite skipn_all2 by (unfold slen in *; lia). cbn [app]. f_equal. unfold slen. lia.
Qed.

(** what extraction does once the place is known *)
Lemma extract_at (A p q v : list Z) (d stop : Z) (R k sep : list Z) (mc rm : bool) :
  p = k ++ sep -> slen q = slen p -> v <> [] -> Forall (fun c => c <> 0 /\ c <> d) v -> (stop = 0 \/ stop = d) ->
  forall s, cstr (A ++ q ++ v ++ stop :: R) = Ok s -> (if mc then strstr s p else dss_strcasestr s p) = Some (slen A) ->
  extractFromDelimitedString (A ++ q ++ v ++ stop :: R) k (Some sep) mc rm d =
  (let* b := (if rm then if negb (stop =? 0) then let* rest := cstr R in Ok (A ++ (rest ++ [0]) ++ sdrop (slen (rest ++ [0])) (q ++ v ++ stop :: R))
                         else Ok (A ++ 0 :: sdrop 1 (q ++ v ++ stop :: R))
              else Ok (A ++ q ++ v ++ stop :: R)) in Ok (Some (v ++ [0]), b)).
Proof.
  intros -> LQ NV FV S s C E. unfold extractFromDelimitedString. rewrite C. cbn [bind]. rewrite E. clear E C. set (p := k ++ sep) in *.
  destruct v as [|c v]; [congruence|]. inversion FV as [|? ? _ FV']; subst.
  set (B := A ++ q ++ (c :: v) ++ stop :: R). assert (EB : B = (A ++ q ++ [c]) ++ v ++ stop :: R) by (unfold B; rewrite <- !app_assoc; reflexivity).
  assert (SE : scan_end (length B) B (slen A + slen p + 1) d = Ok (slen A + slen p + slen (c :: v))).
  { rewrite EB at 2. replace (slen A + slen p + 1) with (slen (A ++ q ++ [c])) by (rewrite !slen_app; change (slen [c]) with 1; lia). rewrite scan_ok; [|assumption..|].
    - f_equal. rewrite !slen_app, !slen_cons. change (slen []) with 0. lia.
    - rewrite EB. rewrite !app_length. cbn [length]. lia. }
  rewrite SE. cbn [bind].
  assert (RD : read_loop (Z.to_nat (slen A + slen p + slen (c :: v) - (slen A + slen p))) B (slen A + slen p) = Ok (c :: v)).
  { unfold B. rewrite app_assoc. apply read_mid3; [lia|rewrite slen_app; lia]. }
  rewrite RD. cbn [bind]. destruct rm; [|reflexivity].
  assert (AG : aget B (slen A + slen p + slen (c :: v)) = Ok stop).
  { unfold B. rewrite !app_assoc. apply aget_app_at. rewrite !slen_app. lia. }
  rewrite AG. cbn [bind]. destruct (stop =? 0) eqn:S0; cbn [negb].
  - assert (AS : aset B (slen A) 0 = Ok (A ++ 0 :: sdrop 1 (q ++ (c :: v) ++ stop :: R))).
    { unfold B. destruct (q ++ (c :: v) ++ stop :: R) as [|y Y] eqn:Q; [destruct q; discriminate|]. rewrite aset_here. reflexivity. }
    rewrite AS. reflexivity.
  - assert (SD : sdrop (slen A + slen p + slen (c :: v) + 1) B = R).
    { unfold B. replace (A ++ q ++ (c :: v) ++ stop :: R) with ((A ++ q ++ (c :: v) ++ [stop]) ++ R) by (rewrite <- !app_assoc; reflexivity). apply sdrop_app2. rewrite !slen_app. change (slen [stop]) with 1. lia. }
    rewrite SD. destruct (cstr R) as [rest|] eqn:CR; [|reflexivity]. cbn [bind].
    assert (LR : slen (rest ++ [0]) <= slen R).
    { clear -CR. revert rest CR. induction R as [|x R IH]; intros rest CR; cbn in CR; [discriminate|]. destruct (x =? 0); [injection CR as <-; rewrite slen_cons; pose proof (slen_nonneg R); cbn; lia|].
      destruct (cstr R) as [r|]; [|discriminate]. cbn [bind] in CR. injection CR as <-. specialize (IH r eq_refl). cbn [app]. rewrite !slen_cons. lia. }
    unfold B. rewrite splice_ok; [reflexivity|reflexivity|]. rewrite !slen_app, !slen_cons in *. pose proof (slen_nonneg q). pose proof (slen_nonneg v). lia.
Qed.

(** ** Writing *)
Lemma put_text_ok : forall text A X size, slen (stake (size - slen A) text) <= slen X ->
  put_text text (A ++ X) (slen A) size = Ok (A ++ stake (size - slen A) text ++ sdrop (slen (stake (size - slen A) text)) X, slen A + slen (stake (size - slen A) text)).
Proof.
  induction text as [|c t IH]; intros A X size L; cbn [put_text].
  - replace (stake (size - slen A) []) with (@nil Z) by (unfold stake; rewrite firstn_nil; reflexivity). cbn. f_equal. f_equal. unfold slen. cbn [length]. lia.
  - destruct (slen A <? size) eqn:E.
    + assert (S1 : stake (size - slen A) (c :: t) = c :: stake (size - slen (A ++ [c])) t).
      { rewrite slen_app. change (slen [c]) with 1. unfold stake. replace (Z.to_nat (size - slen A)) with (S (Z.to_nat (size - (slen A + 1)))) by lia. reflexivity. }
      rewrite S1 in *. destruct X as [|x X]; [rewrite slen_cons in L; pose proof (slen_nonneg (stake (size - slen (A ++ [c])) t)); change (slen []) with 0 in L; lia|].
      rewrite aset_here. cbn [bind]. replace (A ++ c :: X) with ((A ++ [c]) ++ X) by (rewrite <- app_assoc; reflexivity). replace (slen A + 1) with (slen (A ++ [c])) by (rewrite slen_app; reflexivity).
      rewrite IH by (rewrite !slen_cons in L; lia). f_equal. f_equal.
      * rewrite <- app_assoc. cbn [app]. do 3 f_equal. rewrite slen_cons. unfold sdrop. pose proof (slen_nonneg (stake (size - slen (A ++ [c])) t)). replace (Z.to_nat (slen (stake (size - slen (A ++ [c])) t) + 1)) with (S (Z.to_nat (slen (stake (size - slen (A ++ [c])) t)))) by lia. reflexivity.
      * rewrite slen_cons, slen_app. change (slen [c]) with 1. lia.
    + replace (stake (size - slen A) (c :: t)) with (@nil Z) by (unfold stake; replace (Z.to_nat (size - slen A)) with 0%nat by lia; reflexivity). cbn. f_equal. f_equal. unfold slen. cbn [length]. lia.
Qed.
