(** * C15, C16, C17: forming, reading, replacing and cleaning pathnames. *)
From Coq Require Import ZArith List Bool Lia ZifyBool.
From Verif Require Import Base ArrayLib HashModel CStr CStrProofs DateTextModel TimeTextProps PathModel PathSpec PathProofs.
Import ListNotations.
Open Scope Z_scope.
Open Scope res_scope.

Lemma c_text_absent s : c_text s -> absent 0 s = true.
Proof. induction 1 as [|c t H _ IH]; [reflexivity|]. cbn [absent forallb]. rewrite andb_true_iff. split; [lia|exact IH]. Qed.
Lemma trimmed_c s t : trimmed s t -> c_text s -> c_text t.
Proof. intros (l & r & -> & _) H. apply Forall_app in H. destruct H as [_ H]. apply Forall_app in H. apply H. Qed.
Lemma path_text_c parts : Forall c_text parts -> c_text (path_text parts).
Proof.
  intros H. constructor; [lia|]. induction H as [|p t Hp _ IH]; [constructor|]. cbn [map concat].
  apply Forall_app. split; [|exact IH]. apply Forall_app. split; [exact Hp|]. constructor; [lia|constructor].
Qed.
Lemma forall_stake (P : Z -> Prop) n s : Forall P s -> Forall P (stake n s).
Proof.
  intros H. unfold stake. rewrite Forall_forall in *. intros x Hx. apply H.
  rewrite <- (firstn_skipn (Z.to_nat n) s). apply in_or_app. left. exact Hx.
Qed.
Lemma cstr_c s q : c_text s -> cstr (s ++ 0 :: q) = Ok s.
Proof. intros H. apply cstr_app. apply c_text_absent in H. exact H. Qed.
Lemma Forall2_trim parts : Forall2 trimmed parts (map trim_of parts).
Proof. induction parts; cbn [map]; constructor; [apply trim_of_trimmed|assumption]. Qed.
Lemma Forall2_trim_eq parts ts : Forall2 trimmed parts ts -> map trim_of parts = ts.
Proof. induction 1; cbn [map]; [reflexivity|]. f_equal; [|assumption]. eapply trimmed_unique; [apply trim_of_trimmed|assumption]. Qed.

(** ** C15: forming *)

(** Forming never writes outside the buffer, and leaves as much of /A/B/C/D/E/F/ (parts trimmed) as fits. *)
Theorem C15_form : forall parts ts buf size, Forall c_text parts -> Forall2 trimmed parts ts -> 0 < size <= alen buf ->
  exists n b, zpathnameForm parts buf size = Ok (n, b) /\ alen b = alen buf /\
    cstr b = Ok (firstn (Z.to_nat (size - 1)) (path_text ts)) /\
    (slen (path_text ts) < size -> cstr b = Ok (path_text ts) /\ n = slen (path_text ts) + 1).
Proof.
  intros parts ts buf size Hc Ht Hs. pose proof (Forall2_trim_eq _ _ Ht) as E.
  destruct (form_spec parts buf size Hs) as (b & F & A & q & B). rewrite E in *.
  assert (C : c_text (path_text ts)).
  { apply path_text_c. clear - Hc Ht. induction Ht as [|p t ps ts H _ IH]; [constructor|].
    inversion Hc; subst. constructor; [eapply trimmed_c; eassumption|apply IH; assumption]. }
  eexists. exists b. split; [exact F|]. split; [exact A|].
  assert (K : cstr b = Ok (stake (size - 1) (path_text ts))) by (rewrite B; apply cstr_c, forall_stake, C).
  split; [exact K|]. intros L. split; [rewrite stake_all in K by lia; exact K|].
  destruct (slen (path_text ts) <? size) eqn:G; [reflexivity|lia].
Qed.
Print Assumptions C15_form.

(** six parts give seven slashes (when no part contains one) *)
Theorem C15_seven_slashes : forall ts, length ts = 6%nat -> Forall no_slash ts -> count_occ Z.eq_dec (path_text ts) 47 = 7%nat.
Proof.
  intros ts H6 Hn. unfold path_text. rewrite count_occ_cons_eq by reflexivity. f_equal. rewrite <- H6. clear H6.
  induction Hn as [|p t Hp _ IH]; [reflexivity|]. cbn [map concat length]. rewrite !count_occ_app.
  rewrite (proj1 (count_occ_not_In Z.eq_dec p 47) Hp). rewrite IH. reflexivity.
Qed.

Lemma aget_nth {A} (l : list A) k x : nth_error l k = Some x -> aget l (Z.of_nat k) = Ok x.
Proof. intros H. unfold aget. destruct (Z.of_nat k <? 0) eqn:E; [lia|]. rewrite Nat2Z.id, H. reflexivity. Qed.

(** Reading part k (1..6) of a pathname gives that part (up to 128 characters, and what fits the buffer). *)
Theorem C15_get : forall junk ts k p buf size, alen junk = 7 -> length ts = 6%nat -> Forall no_slash ts -> Forall c_text ts ->
  nth_error ts (Z.to_nat (k - 1)) = Some p -> 1 <= k <= 6 -> 0 < size <= alen buf ->
  exists b, zpathnameGetPart junk (path_text ts) k buf size = Ok (Z.min (slen p) 128, b) /\ alen b = alen buf /\
    cstr b = Ok (firstn (Z.to_nat (Z.min 128 (size - 1))) p).
Proof.
  intros junk ts k p buf size Hj H6 Hn Hc Hp Hk Hs. unfold zpathnameGetPart.
  destruct ((k <? 1) || (k >? 6)) eqn:Ek; [lia|]. clear Ek.
  rewrite positions_spec by assumption. cbn [bind snd].
  destruct (path_text_split ts _ p Hp H6) as (pre & post & E & P1 & P2 & _).
  pose proof (aget_nth _ _ _ P1) as A1. pose proof (aget_nth _ _ _ P2) as A2.
  replace (Z.of_nat (S (Z.to_nat (k - 1)))) with k in A2 by lia.
  replace (Z.of_nat (Z.to_nat (k - 1))) with (k - 1) in A1 by lia.
  rewrite A2. cbn [bind]. rewrite A1. cbn [bind]. clear A1 A2 P1 P2.
  replace (slen pre + slen p + 1 - slen pre - 1) with (slen p) by lia.
  assert (Cp : c_text p). { apply nth_error_In in Hp. rewrite Forall_forall in Hc. apply Hc, Hp. }
  destruct (slen p <? 1) eqn:E1.
  - assert (p = []) by (destruct p; [reflexivity|unfold slen in E1; cbn in E1; lia]). subst p.
    destruct (aset_ok' buf 0 0) as (b & B & L); [lia|]. rewrite B. cbn [bind]. exists b.
    split; [reflexivity|]. split; [exact L|]. rewrite firstn_nil.
    destruct buf as [|x buf]; [discriminate|]. cbn in B. injection B as <-. reflexivity.
  - assert (Ep : (if slen p >=? 129 then 128 else slen p) = Z.min (slen p) 128) by (destruct (slen p >=? 129) eqn:G; lia).
    rewrite Ep. rewrite E. rewrite !slen_app.
    pose proof (slen_nonneg pre). pose proof (slen_nonneg (47 :: post)).
    destruct ((slen pre <? 0) || (slen pre >? slen pre + (slen p + slen (47 :: post)))) eqn:E2; [lia|]. clear E2.
    rewrite sdrop_app. unfold stringCopy.
    assert (E0 : (match Some (Z.min (slen p) 128) with Some 0 => true | _ => false end) = false).
    { destruct (Z.min (slen p) 128) eqn:X; try reflexivity. lia. }
    rewrite E0. clear E0. destruct (size =? 0) eqn:E3; [lia|].
    unfold stringCopy_val. destruct (Z.min (slen p) 128 <=? 0) eqn:E4; [lia|].
    set (m := Z.min (Z.min (slen p) 128) (size - 1)).
    assert (Em : stake m (p ++ 47 :: post) = stake (Z.min 128 (size - 1)) p).
    { rewrite stake_app_le by (subst m; lia). unfold stake, slen in *. subst m.
      destruct (Z.leb_spec (Z.min 128 (size - 1)) (Z.of_nat (length p))) as [X|X]; [f_equal; lia|].
      rewrite !firstn_all2 by lia. reflexivity. }
    rewrite Em. clear Em m.
    destruct (cstr_put buf (stake (Z.min 128 (size - 1)) p)) as (b & P & C & A).
    + apply c_text_absent, forall_stake, Cp.
    + rewrite slen_stake by lia. lia.
    + rewrite P. cbn [bind fst]. exists b. split; [reflexivity|]. split; [exact A|exact C].
Qed.
Print Assumptions C15_get.

(** Formed from six parts, and read back. *)
Theorem C15_round_trip : forall junk parts ts k t buf size pbuf psize,
  alen junk = 7 -> length parts = 6%nat -> Forall c_text parts -> Forall2 trimmed parts ts -> Forall no_slash ts ->
  slen (path_text ts) < size -> size <= alen buf -> 1 <= k <= 6 ->
  nth_error ts (Z.to_nat (k - 1)) = Some t -> slen t <= 128 -> slen t < psize -> psize <= alen pbuf ->
  exists n b s pb, zpathnameForm parts buf size = Ok (n, b) /\ cstr b = Ok s /\
    zpathnameGetPart junk s k pbuf psize = Ok (slen t, pb) /\ cstr pb = Ok t.
Proof.
  intros junk parts ts k t buf size pbuf psize Hj H6 Hc Ht Hn L1 L2 Hk Hp Lt Lp1 Lp2.
  pose proof (slen_nonneg (path_text ts)). pose proof (slen_nonneg t).
  destruct (C15_form parts ts buf size Hc Ht) as (n & b & F & A & _ & K); [lia|]. destruct (K L1) as [K1 K2].
  assert (H6t : length ts = 6%nat) by (rewrite <- H6; clear - Ht; induction Ht; cbn [length]; congruence).
  assert (Hct : Forall c_text ts).
  { clear - Hc Ht. induction Ht as [|p t ps ts H _ IH]; [constructor|].
    inversion Hc; subst. constructor; [eapply trimmed_c; eassumption|apply IH; assumption]. }
  destruct (C15_get junk ts k t pbuf psize Hj H6t Hn Hct Hp Hk) as (pb & G & _ & C); [lia|].
  exists n, b, (path_text ts), pb. split; [exact F|]. split; [exact K1|].
  rewrite Z.min_l in G by lia. split; [exact G|]. rewrite C. f_equal. apply firstn_all2. unfold slen in *. lia.
Qed.
Print Assumptions C15_round_trip.

(** The returned "length" counts the terminating NUL. *)
Theorem C15_refuted_returned_length : exists parts b s, zpathnameForm parts (repeat 0 20) 20 = Ok (slen s + 1, b) /\ cstr b = Ok s.
Proof.
  exists [[65];[66];[];[68];[];[70]]. eexists. exists (path_text [[65];[66];[];[68];[];[70]]).
  split; [vm_compute; reflexivity|]. vm_compute; reflexivity.
Qed.
(** A part longer than 128 characters is cut by reading although the pathname holds all of it. *)
Theorem C15_refuted_long_part : exists p b, slen p = 130 /\
  zpathnameGetPart (repeat 0 7) (path_text [p; []; []; []; []; []]) 1 (repeat 0 200) 200 = Ok (128, b) /\ cstr b <> Ok p.
Proof. exists (repeat 65 130). eexists. split; [reflexivity|]. split; [vm_compute; reflexivity|]. vm_compute. discriminate. Qed.
(** A text without a second slash makes the function use an uninitialised position. *)
Theorem C15_refuted_uninitialised : exists s junk junk', alen junk = 7 /\ alen junk' = 7 /\
  zpathnameGetPart junk s 1 (repeat 0 20) 20 = Undef /\ zpathnameGetPart junk' s 1 (repeat 0 20) 20 <> Undef.
Proof.
  exists [47; 65], (repeat (-50) 7), (repeat 0 7). split; [reflexivity|]. split; [reflexivity|].
  split; [vm_compute; reflexivity|]. vm_compute. discriminate.
Qed.

Example C15_example : exists parts ts, Forall c_text parts /\ Forall2 trimmed parts ts /\ Forall no_slash ts /\ length parts = 6%nat /\
  nth_error ts 1 = Some [66; 32; 66] /\ slen (path_text ts) < 393.
Proof.
  exists [[65]; [32; 66; 32; 66; 32]; [67]; []; [69]; [32; 32]], [[65]; [66; 32; 66]; [67]; []; [69]; []].
  split; [repeat constructor; lia|].
  split; [exact (Forall2_trim [[65]; [32; 66; 32; 66; 32]; [67]; []; [69]; [32; 32]])|].
  split; [repeat constructor; intros X; cbn in X; intuition discriminate|].
  split; [reflexivity|]. split; [reflexivity|]. vm_compute. reflexivity.
Qed.

(** ** C16: replacing a part *)
Fixpoint set_nth {A} (k : nat) (x : A) (l : list A) : list A :=
  match l, k with [], _ => [] | _ :: t, O => x :: t | h :: t, S m => h :: set_nth m x t end.

Lemma set_nth_split {A} (l : list A) k x : (k < length l)%nat -> set_nth k x l = firstn k l ++ x :: skipn (S k) l.
Proof. revert k. induction l as [|h t IH]; intros [|k] H; cbn [length] in H; try lia; cbn [set_nth firstn skipn app]; [reflexivity|]. rewrite IH by lia. reflexivity. Qed.

Lemma path_text_app a b : path_text (a ++ b) = path_text a ++ concat (map (fun p => p ++ [47]) b).
Proof. unfold path_text. rewrite map_app, concat_app. reflexivity. Qed.

Lemma self_copy_shift S0 : forall P G R, exists X, length X = length G /\
  self_copy_loop (length S0) (P ++ G ++ S0 ++ R) (slen P + slen G) (slen P) = Ok (P ++ S0 ++ X ++ R).
Proof.
  induction S0 as [|s S0 IH]; intros P G R.
  - exists G. split; reflexivity.
  - cbn [length self_copy_loop].
    assert (A : aget (P ++ G ++ (s :: S0) ++ R) (slen P + slen G) = Ok s).
    { rewrite app_assoc. cbn [app]. replace (slen P + slen G) with (slen (P ++ G)) by (rewrite slen_app; reflexivity). apply aget_mid. }
    rewrite A. cbn [bind]. destruct G as [|g G].
    + cbn [app]. rewrite aset_slen. cbn [bind].
      destruct (IH (P ++ [s]) [] R) as (X & LX & E). exists X. split; [exact LX|].
      replace (slen P + slen [] + 1) with (slen (P ++ [s]) + slen []) by (rewrite slen_app; change (slen [s]) with 1; lia).
      replace (slen P + 1) with (slen (P ++ [s])) by (rewrite slen_app; reflexivity).
      rewrite <- app_assoc in E. cbn [app] in E. rewrite E. rewrite <- app_assoc. reflexivity.
    + cbn [app]. rewrite aset_slen. cbn [bind].
      destruct (IH (P ++ [s]) (G ++ [s]) R) as (X & LX & E).
      exists X. split; [rewrite LX, app_length; cbn [length]; lia|].
      replace (slen P + slen (g :: G) + 1) with (slen (P ++ [s]) + slen (G ++ [s]))
        by (rewrite !slen_app, (slen_cons g G); change (slen [s]) with 1; lia).
      replace (slen P + 1) with (slen (P ++ [s])) by (rewrite slen_app; reflexivity).
      rewrite <- !app_assoc in E. cbn [app] in E. rewrite E. reflexivity.
Qed.

Lemma shift_down_spec S0 : forall P G R,
  shift_down (length S0) (P ++ S0 ++ G ++ R) (slen P + slen S0 + slen G - 1) (slen G) =
  Ok (P ++ firstn (length G) (S0 ++ G) ++ S0 ++ R).
Proof.
  induction S0 as [|s S0 IH] using rev_ind; intros P G R.
  - cbn [app length shift_down]. rewrite firstn_all. reflexivity.
  - rewrite app_length. cbn [length]. rewrite Nat.add_1_r. cbn [shift_down].
    rewrite slen_app. change (slen [s]) with 1.
    assert (A : aget (P ++ (S0 ++ [s]) ++ G ++ R) (slen P + (slen S0 + 1) + slen G - 1 - slen G) = Ok s).
    { rewrite <- app_assoc, app_assoc. cbn [app].
      replace (slen P + (slen S0 + 1) + slen G - 1 - slen G) with (slen (P ++ S0)) by (rewrite slen_app; lia). apply aget_mid. }
    rewrite A. cbn [bind]. destruct G as [|g G] using rev_ind.
    + cbn [app length firstn]. rewrite <- app_assoc. cbn [app].
      replace (P ++ S0 ++ s :: R) with ((P ++ S0) ++ s :: R) by (rewrite <- app_assoc; reflexivity).
      replace (slen P + (slen S0 + 1) + slen [] - 1) with (slen (P ++ S0)) by (rewrite slen_app; change (slen []) with 0; lia).
      rewrite aset_slen. cbn [bind].
      pose proof (IH P [] (s :: R)) as E. cbn [app length firstn] in E.
      rewrite <- app_assoc. rewrite slen_app.
      replace (slen P + slen S0 - 1) with (slen P + slen S0 + slen [] - 1) by (change (slen []) with 0; lia). rewrite E. reflexivity.
    + clear IHG.
      replace (P ++ (S0 ++ [s]) ++ (G ++ [g]) ++ R) with ((P ++ S0 ++ [s] ++ G) ++ g :: R) by (rewrite <- !app_assoc; reflexivity).
      replace (slen P + (slen S0 + 1) + slen (G ++ [g]) - 1) with (slen (P ++ S0 ++ [s] ++ G))
        by (rewrite !slen_app; change (slen [s]) with 1; change (slen [g]) with 1; lia).
      rewrite aset_slen. cbn [bind].
      pose proof (IH P ([s] ++ G) (s :: R)) as E.
      replace ((P ++ S0 ++ [s] ++ G) ++ s :: R) with (P ++ S0 ++ ([s] ++ G) ++ s :: R) by (rewrite <- !app_assoc; reflexivity).
      replace (slen (P ++ S0 ++ [s] ++ G) - 1) with (slen P + slen S0 + slen ([s] ++ G) - 1) by (rewrite !slen_app; lia).
      replace (slen (G ++ [g])) with (slen ([s] ++ G)) by (rewrite !slen_app; change (slen [s]) with 1; change (slen [g]) with 1; lia).
      rewrite E. f_equal. f_equal. rewrite <- app_assoc. cbn [app]. f_equal.
      replace (length (G ++ [g])) with (length (s :: G)) by (rewrite app_length; cbn [length]; lia).
      replace (S0 ++ s :: G ++ [g]) with ((S0 ++ s :: G) ++ [g]) by (rewrite <- app_assoc; reflexivity).
      rewrite (firstn_app (length (s :: G)) (S0 ++ s :: G) [g]).
      replace (length (s :: G) - length (S0 ++ s :: G))%nat with 0%nat by (rewrite app_length; lia).
      cbn [firstn]. rewrite app_nil_r. cbn [app]. f_equal. rewrite <- app_assoc. reflexivity.
Qed.

Lemma split_at (l : list Z) n : 0 <= n <= alen l -> exists a b, l = a ++ b /\ slen a = n.
Proof.
  intros H. exists (stake n l), (sdrop n l). split; [symmetry; apply firstn_skipn|].
  unfold slen, stake, alen in *. rewrite firstn_length. lia.
Qed.

Lemma put_at p m q s : length m = length s -> put_chars (p ++ m ++ q) (slen p) s = Ok (p ++ s ++ q).
Proof. apply put_chars_app. Qed.

Lemma same_len (a b : list Z) : slen a = slen b -> length a = length b.
Proof. unfold slen. lia. Qed.

(** Replacing part [k] of a complete pathname held by a buffer by a text without slash.
    [diff <= stop]: the new part is not longer than the old one by more than the text in front of the next part
    (otherwise the shifting loop reads in front of the buffer, see [C16_refuted_underread]). *)
Theorem C16_set_partial : forall junk ts k old part buf size,
  alen junk = 7 -> length ts = 6%nat -> Forall no_slash ts -> Forall c_text ts -> c_text part ->
  nth_error ts (Z.to_nat (k - 1)) = Some old -> 1 <= k <= 6 ->
  cstr buf = Ok (path_text ts) -> size <= alen buf ->
  slen (path_text ts) + slen part - slen old < size ->
  slen part - slen old <= slen (path_text (firstn (Z.to_nat k) ts)) ->
  exists b, zpathnameSetPart junk buf size part k = Ok (0, b) /\ alen b = alen buf /\
    cstr b = Ok (path_text (set_nth (Z.to_nat (k - 1)) part ts)).
Proof.
  intros junk ts k old part buf size Hj H6 Hn Hc Hcp Hold Hk Hbuf Hs Hfit Hdiff.
  destruct (path_text_split ts _ old Hold H6) as (pre & post & E & P1 & P2 & P6 & Epre & Epost).
  assert (HB : exists q, buf = pre ++ old ++ 47 :: post ++ 0 :: q).
  { assert (G : forall b s, cstr b = Ok s -> exists q, b = s ++ 0 :: q).
    { clear. induction b as [|c b IH]; intros s H; [discriminate|]. cbn [cstr] in H. destruct (c =? 0) eqn:Z0.
      - injection H as <-. exists b. cbn [app]. f_equal. lia.
      - destruct (cstr b) as [r|]; [|discriminate]. cbn [bind] in H. injection H as <-.
        destruct (IH r eq_refl) as (q & ->). exists q. reflexivity. }
    destruct (G _ _ Hbuf) as (q & ->). exists q. rewrite E, <- !app_assoc. reflexivity. }
  destruct HB as (q & HB).
  assert (Hlt : (Z.to_nat (k - 1) < length ts)%nat) by (apply nth_error_Some; rewrite Hold; discriminate).
  assert (Enew : path_text (set_nth (Z.to_nat (k - 1)) part ts) = pre ++ part ++ 47 :: post).
  { rewrite set_nth_split by exact Hlt. rewrite path_text_app, Epre, Epost. cbn [map concat]. rewrite <- app_assoc. reflexivity. }
  assert (Cnew : c_text (pre ++ part ++ 47 :: post)).
  { pose proof (path_text_c _ Hc) as C. rewrite E in C. apply Forall_app in C. destruct C as [C1 C]. apply Forall_app in C. destruct C as [_ C].
    apply Forall_app. split; [exact C1|]. apply Forall_app. split; [exact Hcp|exact C]. }
  assert (Efk : path_text (firstn (Z.to_nat k) ts) = pre ++ old ++ [47]).
  { replace (Z.to_nat k) with (S (Z.to_nat (k - 1))) by lia.
    assert (F : firstn (S (Z.to_nat (k - 1))) ts = firstn (Z.to_nat (k - 1)) ts ++ [old]).
    { clear - Hold. revert Hold. generalize (Z.to_nat (k - 1)) as n. intros n. revert ts. induction n as [|n IH]; intros [|h t] Hold; try discriminate.
      - injection Hold as ->. reflexivity.
      - cbn [nth_error] in Hold. change (firstn (S (S n)) (h :: t)) with (h :: firstn (S n) t).
        rewrite (IH t Hold). reflexivity. }
    rewrite F, path_text_app, Epre. cbn [map concat]. rewrite app_nil_r. reflexivity. }
  rewrite Efk in Hdiff. rewrite !slen_app in Hdiff. change (slen [47]) with 1 in Hdiff.
  unfold zpathnameSetPart. destruct ((k <? 1) || (k >? 6)) eqn:Ek; [lia|]. clear Ek.
  rewrite Hbuf. cbn [bind]. rewrite positions_spec by assumption. cbn [bind snd].
  pose proof (aget_nth _ _ _ P1) as A1. pose proof (aget_nth _ _ _ P2) as A2. pose proof (aget_nth _ _ _ P6) as A6.
  replace (Z.of_nat (S (Z.to_nat (k - 1)))) with k in A2 by lia.
  replace (Z.of_nat (Z.to_nat (k - 1))) with (k - 1) in A1 by lia. change (Z.of_nat 6) with 6 in A6.
  rewrite A2. cbn [bind]. rewrite A1. cbn [bind]. rewrite A6. cbn [bind]. clear A1 A2 A6 P1 P2 P6.
  replace (slen pre + slen old + 1 - slen pre - 1) with (slen old) by lia.
  assert (EL : slen (path_text ts) = slen pre + slen old + 1 + slen post).
  { rewrite E, !slen_app, slen_cons. lia. }
  rewrite EL in *. rewrite Enew. clear E Enew EL Efk Hbuf.
  pose proof (slen_nonneg pre). pose proof (slen_nonneg old). pose proof (slen_nonneg post). pose proof (slen_nonneg part).
  assert (AL : alen buf = slen pre + slen old + 1 + slen post + 1 + slen q).
  { rewrite HB. change (@alen Z) with slen. rewrite !slen_app, slen_cons, slen_app, slen_cons. lia. }
  assert (Fin : forall r, alen (pre ++ part ++ 47 :: post ++ 0 :: r) = alen buf ->
     forall b, b = pre ++ part ++ 47 :: post ++ 0 :: r -> alen b = alen buf /\ cstr b = Ok (pre ++ part ++ 47 :: post)).
  { intros r Hr b ->. split; [exact Hr|].
    replace (pre ++ part ++ 47 :: post ++ 0 :: r) with ((pre ++ part ++ 47 :: post) ++ 0 :: r)
      by (rewrite <- !app_assoc; reflexivity). apply cstr_c, Cnew. }
  destruct (slen part =? slen old) eqn:E1.
  - (* same length *)
    rewrite HB. rewrite (put_at pre old (47 :: post ++ 0 :: q) part) by (apply same_len; lia). cbn [bind].
    eexists. split; [reflexivity|]. rewrite <- HB. apply (Fin q); [|reflexivity].
    rewrite AL. change (@alen Z) with slen. rewrite !slen_app, slen_cons, slen_app, slen_cons. lia.
  - destruct (slen part <? slen old) eqn:E2.
    + (* shorter *)
      destruct (split_at old (slen part)) as (o1 & o2 & Eo & Lo); [change (@alen Z) with slen; lia|].
      assert (Lo2 : slen o2 = slen old - slen part) by (rewrite Eo, slen_app; lia).
      rewrite HB, Eo. rewrite <- app_assoc.
      rewrite (put_at pre o1 (o2 ++ 47 :: post ++ 0 :: q) part) by (apply same_len; lia). cbn [bind].
      destruct (self_copy_shift (47 :: post) (pre ++ part) o2 (0 :: q)) as (X & LX & SC).
      rewrite <- Eo. 
      replace (Z.to_nat (slen pre + slen old + 1 + slen post - (slen old - slen part) - (slen pre + slen part))) with (length (47 :: post))
        by (cbn [length]; unfold slen in *; lia).
      replace (slen pre + slen part + (slen old - slen part)) with (slen (pre ++ part) + slen o2) by (rewrite slen_app; lia).
      replace (slen pre + slen part) with (slen (pre ++ part)) by (rewrite slen_app; lia).
      rewrite <- !app_assoc in SC. cbn [app] in SC. rewrite SC. cbn [bind].
      destruct X as [|x X]; [exfalso; cbn [length] in LX; unfold slen in *; lia|].
      replace (pre ++ part ++ 47 :: post ++ (x :: X) ++ 0 :: q) with ((pre ++ part ++ 47 :: post) ++ x :: (X ++ 0 :: q))
        by (rewrite <- !app_assoc; reflexivity).
      replace (slen pre + slen old + 1 + slen post - (slen old - slen part)) with (slen (pre ++ part ++ 47 :: post))
        by (rewrite !slen_app, slen_cons; lia).
      rewrite aset_slen. cbn [bind]. eexists. split; [reflexivity|].
      replace (pre ++ o1 ++ o2 ++ 47 :: post ++ 0 :: q) with buf by (rewrite HB, Eo, <- app_assoc; reflexivity).
      apply (Fin (X ++ 0 :: q)); [|rewrite <- !app_assoc; reflexivity].
      rewrite AL. change (@alen Z) with slen. rewrite !slen_app, slen_cons, slen_app, slen_cons, slen_app, slen_cons.
      assert (slen X + 1 = slen o2) by (unfold slen in *; cbn [length] in LX; lia). lia.
    + (* longer *)
      assert (Hd : 0 < slen part - slen old) by lia.
      set (d := slen part - slen old) in *.
      destruct (slen pre + slen old + 1 + slen post + d >? size) eqn:E3; [subst d; lia|]. clear E3.
      (* room after the NUL *)
      destruct (split_at q (d - 1)) as (q1 & q2 & Eq & Lq); [change (@alen Z) with slen in *; subst d; lia|].
      assert (Lq2 : 1 <= slen q2) by (assert (slen q = d - 1 + slen q2) by (rewrite Eq, slen_app; lia); subst d; lia).
      destruct q2 as [|y q2]; [unfold slen in Lq2; cbn in Lq2; lia|].
      rewrite HB, Eq.
      replace (pre ++ old ++ 47 :: post ++ 0 :: q1 ++ y :: q2) with ((pre ++ old ++ 47 :: post ++ 0 :: q1) ++ y :: q2)
        by (rewrite <- !app_assoc; cbn [app]; rewrite <- !app_assoc; reflexivity).
      assert (El : slen (pre ++ old ++ 47 :: post ++ 0 :: q1) = slen pre + slen old + 1 + slen post + d)
        by (rewrite !slen_app, slen_cons, slen_app, slen_cons, Lq; lia).
      rewrite <- El. rewrite aset_slen. cbn [bind]. rewrite El.
      (* the moved text *)
      destruct (split_at (pre ++ old ++ [47]) (slen pre + slen old + 1 - d)) as (P & S1 & EP & LP).
      { change (@alen Z) with slen. rewrite !slen_app. change (slen [47]) with 1. lia. }
      assert (LS1 : slen S1 = d).
      { assert (slen (pre ++ old ++ [47]) = slen P + slen S1) by (rewrite EP, slen_app; reflexivity).
        rewrite !slen_app in *. change (slen [47]) with 1 in *. lia. }
      pose proof (shift_down_spec (S1 ++ post) P (0 :: q1) (0 :: q2)) as SD.
      replace ((pre ++ old ++ 47 :: post ++ 0 :: q1) ++ 0 :: q2) with (P ++ (S1 ++ post) ++ (0 :: q1) ++ 0 :: q2).
      2: { transitivity ((P ++ S1) ++ post ++ 0 :: q1 ++ 0 :: q2); [rewrite <- !app_assoc; reflexivity|].
           rewrite <- EP. rewrite <- !app_assoc. cbn [app]. rewrite <- app_assoc. reflexivity. }
      replace (Z.to_nat (slen pre + slen old + 1 + slen post + d - 1 - (slen pre + slen old + 1) + 1)) with (length (S1 ++ post))
        by (rewrite app_length; unfold slen in *; lia).
      replace (length (0 :: q1)) with (length S1) in SD by (unfold slen in *; cbn [length]; lia).
      rewrite <- (app_assoc S1 post (0 :: q1)), firstn_app, firstn_all, Nat.sub_diag in SD. cbn [firstn] in SD. rewrite app_nil_r in SD.
      replace (slen (0 :: q1)) with d in SD by (rewrite slen_cons; lia).
      replace (slen P + slen (S1 ++ post) + d - 1) with (slen pre + slen old + 1 + slen post + d - 1) in SD by (rewrite slen_app; lia).
      rewrite SD. cbn [bind]. rewrite (app_assoc P S1 _), <- EP.
      (* S1 ends with the slash *)
      assert (ES1 : exists S2, S1 = S2 ++ [47] /\ slen S2 = d - 1).
      { destruct S1 as [|z S2] using rev_ind; [change (slen []) with 0 in LS1; lia|]. clear IHS2.
        rewrite app_assoc in EP. rewrite app_assoc in EP. apply app_inj_tail in EP. destruct EP as [_ <-].
        exists S2. split; [reflexivity|]. rewrite slen_app in LS1. change (slen [47]) with 1 in LS1. lia. }
      destruct ES1 as (S2 & -> & LS2).
      replace ((pre ++ old ++ [47]) ++ ((S2 ++ [47]) ++ post) ++ 0 :: q2) with (pre ++ (old ++ [47] ++ S2) ++ 47 :: post ++ 0 :: q2)
        by (rewrite <- !app_assoc; reflexivity).
      rewrite put_at by (apply same_len; rewrite !slen_app; change (slen [47]) with 1; subst d; lia). cbn [bind].
      eexists. split; [reflexivity|].
      replace ((pre ++ old ++ 47 :: post ++ 0 :: q1) ++ y :: q2) with buf
        by (rewrite HB, Eq, <- !app_assoc; cbn [app]; rewrite <- !app_assoc; reflexivity).
      apply (Fin q2); [|reflexivity]. rewrite AL, Eq. change (@alen Z) with slen.
      rewrite !slen_app, !slen_cons, !slen_app, !slen_cons. subst d. lia.
Qed.
Print Assumptions C16_set_partial.

(** Reading any part of the result: the new part at k, the others as before. *)
Theorem C16_set_get_partial : forall junk ts k old part buf size j pbuf psize p,
  alen junk = 7 -> length ts = 6%nat -> Forall no_slash ts -> no_slash part -> Forall c_text ts -> c_text part ->
  nth_error ts (Z.to_nat (k - 1)) = Some old -> 1 <= k <= 6 ->
  cstr buf = Ok (path_text ts) -> size <= alen buf ->
  slen (path_text ts) + slen part - slen old < size ->
  slen part - slen old <= slen (path_text (firstn (Z.to_nat k) ts)) ->
  1 <= j <= 6 -> (if j =? k then Some part else nth_error ts (Z.to_nat (j - 1))) = Some p ->
  slen p <= 128 -> slen p < psize -> psize <= alen pbuf ->
  exists b s pb, zpathnameSetPart junk buf size part k = Ok (0, b) /\ cstr b = Ok s /\
    zpathnameGetPart junk s j pbuf psize = Ok (slen p, pb) /\ cstr pb = Ok p.
Proof.
  intros junk ts k old part buf size j pbuf psize p Hj H6 Hn Hnp Hc Hcp Hold Hk Hbuf Hs Hfit Hdiff Hjr Hp L1 L2 L3.
  destruct (C16_set_partial junk ts k old part buf size) as (b & E & _ & C); try assumption.
  pose proof (slen_nonneg p).
  assert (Hlt : (Z.to_nat (k - 1) < length ts)%nat) by (apply nth_error_Some; rewrite Hold; discriminate).
  assert (SF : forall P : list Z -> Prop, Forall P ts -> P part -> Forall P (set_nth (Z.to_nat (k - 1)) part ts)).
  { intros P HP HP1. rewrite set_nth_split by exact Hlt. apply Forall_app. split.
    - rewrite Forall_forall in *. intros x Hx. apply HP. rewrite <- (firstn_skipn (Z.to_nat (k - 1)) ts). apply in_or_app. left. exact Hx.
    - constructor; [exact HP1|]. rewrite Forall_forall in *. intros x Hx. apply HP.
      rewrite <- (firstn_skipn (S (Z.to_nat (k - 1))) ts). apply in_or_app. right. exact Hx. }
  assert (Sj : nth_error (set_nth (Z.to_nat (k - 1)) part ts) (Z.to_nat (j - 1)) = Some p).
  { assert (G : forall (l : list (list Z)) n m, (n < length l)%nat -> nth_error (set_nth n part l) m = if (m =? n)%nat then Some part else nth_error l m).
    { clear. induction l as [|h t IH]; intros [|n] [|m] L; cbn [length] in L; try lia; cbn [set_nth nth_error]; try reflexivity.
      rewrite IH by lia. reflexivity. }
    rewrite G by exact Hlt. destruct (j =? k) eqn:Ejk.
    - destruct (Z.to_nat (j - 1) =? Z.to_nat (k - 1))%nat eqn:X; [exact Hp|]. apply Nat.eqb_neq in X. lia.
    - destruct (Z.to_nat (j - 1) =? Z.to_nat (k - 1))%nat eqn:X; [|exact Hp]. apply Nat.eqb_eq in X. lia. }
  destruct (C15_get junk (set_nth (Z.to_nat (k - 1)) part ts) j p pbuf psize) as (pb & G & _ & Cp); try assumption; try lia.
  - rewrite set_nth_split by exact Hlt. rewrite app_length. cbn [length]. rewrite firstn_length, skipn_length. lia.
  - apply SF; assumption.
  - apply SF; assumption.
  - exists b, (path_text (set_nth (Z.to_nat (k - 1)) part ts)), pb. split; [exact E|]. split; [exact C|].
    rewrite Z.min_l in G by lia. split; [exact G|]. rewrite Cp. f_equal. apply firstn_all2. unfold slen in *. lia.
Qed.
Print Assumptions C16_set_get_partial.

(** a result that does not fit (beyond the exact size) is refused and nothing is written *)
Theorem C16_too_long : forall junk ts k old part buf size,
  alen junk = 7 -> length ts = 6%nat -> Forall no_slash ts ->
  nth_error ts (Z.to_nat (k - 1)) = Some old -> 1 <= k <= 6 -> cstr buf = Ok (path_text ts) ->
  slen (path_text ts) <= size -> size < slen (path_text ts) + slen part - slen old ->
  zpathnameSetPart junk buf size part k = Ok (-1, buf).
Proof.
  intros junk ts k old part buf size Hj H6 Hn Hold Hk Hbuf Hs Hfit.
  destruct (path_text_split ts _ old Hold H6) as (pre & post & E & P1 & P2 & P6 & _).
  unfold zpathnameSetPart. destruct ((k <? 1) || (k >? 6)) eqn:Ek; [lia|]. clear Ek.
  rewrite Hbuf. cbn [bind]. rewrite positions_spec by assumption. cbn [bind snd].
  pose proof (aget_nth _ _ _ P1) as A1. pose proof (aget_nth _ _ _ P2) as A2. pose proof (aget_nth _ _ _ P6) as A6.
  replace (Z.of_nat (S (Z.to_nat (k - 1)))) with k in A2 by lia.
  replace (Z.of_nat (Z.to_nat (k - 1))) with (k - 1) in A1 by lia. change (Z.of_nat 6) with 6 in A6.
  rewrite A2. cbn [bind]. rewrite A1. cbn [bind]. rewrite A6. cbn [bind]. clear A1 A2 A6 P1 P2 P6.
  replace (slen pre + slen old + 1 - slen pre - 1) with (slen old) by lia.
  destruct (slen part =? slen old) eqn:E1; [lia|]. destruct (slen part <? slen old) eqn:E2; [lia|].
  destruct (slen (path_text ts) + (slen part - slen old) >? size) eqn:E3; [reflexivity|lia].
Qed.

(** The result that needs exactly [size] characters writes its NUL one past the end of the caller's buffer. *)
Theorem C16_refuted_overflow : exists ts part, length ts = 6%nat /\ Forall no_slash ts /\ no_slash part /\
  zpathnameSetPart (repeat 0 7) (path_text ts ++ [0; 0; 0]) 12 part 2 = Undef /\ alen (path_text ts ++ [0; 0; 0]) = 12.
Proof.
  exists [[65]; [66]; []; []; []; []], [66; 66; 66; 66]. split; [reflexivity|].
  split; [repeat constructor; intros X; cbn in X; intuition discriminate|].
  split; [intros X; cbn in X; intuition discriminate|]. split; [vm_compute; reflexivity|]. reflexivity.
Qed.
(** A part that grows by more than the text before the next part reads in front of the buffer. *)
Theorem C16_refuted_underread : exists ts part, length ts = 6%nat /\ Forall no_slash ts /\ no_slash part /\
  zpathnameSetPart (repeat 0 7) (path_text ts ++ repeat 0 300) 307 part 1 = Undef.
Proof.
  exists [[]; []; []; []; []; []], [66; 65; 83; 73; 78]. split; [reflexivity|].
  split; [repeat constructor; intros X; cbn in X; intuition discriminate|].
  split; [intros X; cbn in X; intuition discriminate|]. vm_compute; reflexivity.
Qed.

Example C16_example : exists ts part old buf, Forall c_text ts /\ Forall no_slash ts /\ length ts = 6%nat /\ c_text part /\
  nth_error ts 3 = Some old /\ cstr buf = Ok (path_text ts) /\ slen (path_text ts) + slen part - slen old < 40 /\ 40 <= alen buf /\
  0 < slen part - slen old <= slen (path_text (firstn 4 ts)).
Proof.
  exists [[65]; [66]; [67]; []; [69]; [70]], [48; 49; 74; 97; 110], [], (path_text [[65]; [66]; [67]; []; [69]; [70]] ++ repeat 0 30).
  repeat split; try (repeat constructor; lia); try reflexivity.
  - repeat constructor; intros X; cbn in X; intuition discriminate.
  - vm_compute. discriminate.
  - vm_compute. discriminate.
Qed.

(** ** C17: cleaning *)
Lemma cleaned_cons_skip c t n : printable c = false -> upto_slash n (filter printable (c :: t)) = upto_slash n (filter printable t).
Proof. intros H. cbn [filter]. rewrite H. reflexivity. Qed.

Lemma schar_print c : 0 <= c < 256 -> ((schar c <? 32) || (schar c >? 126)) = negb (printable c).
Proof. intros H. unfold schar, printable. destruct (c >? 127) eqn:E; lia. Qed.

Lemma clean_loop_spec s : Forall (fun c => 0 <= c < 256) s -> forall T sl buf size, 0 <= sl < 7 ->
  0 <= size <= alen buf -> slen T <= size ->
  let N := upto_slash (Z.to_nat (7 - sl)) (filter printable s) in
  clean_loop s (slen T) sl (T ++ sdrop (slen T) buf) size =
  Ok (Z.min size (slen (T ++ N)), stake size (T ++ N) ++ sdrop (Z.min size (slen (T ++ N))) buf).
Proof.
  induction 1 as [|c t Hc _ IH]; intros T sl buf size Hsl Hs HT; cbn zeta.
  - cbn [clean_loop filter]. replace (upto_slash (Z.to_nat (7 - sl)) []) with (@nil Z) by (destruct (Z.to_nat (7 - sl)); reflexivity).
    rewrite app_nil_r, Z.min_r by lia. rewrite stake_all by lia. reflexivity.
  - cbn [clean_loop]. pose proof (schar_print c Hc) as P.
    destruct (schar c <? 32) eqn:E1.
    + assert (F : printable c = false) by (destruct (printable c); [discriminate P|reflexivity]).
      rewrite cleaned_cons_skip by exact F. apply IH; assumption.
    + destruct (schar c >? 126) eqn:E2.
      * assert (F : printable c = false) by (destruct (printable c); [discriminate P|reflexivity]).
        rewrite cleaned_cons_skip by exact F. apply IH; assumption.
      * assert (F : printable c = true) by (destruct (printable c); [reflexivity|discriminate P]).
        cbn [filter]. rewrite F. replace (Z.to_nat (7 - sl)) with (S (Z.to_nat (6 - sl))) by lia. cbn [upto_slash].
        assert (Sc : schar c = c) by (unfold schar in *; unfold printable in F; destruct (c >? 127) eqn:E; lia). rewrite Sc.
        pose proof (slen_nonneg T) as NT.
        destruct (slen T >=? size) eqn:G.
        -- assert (slen T = size) by lia.
           assert (EN : exists N, c :: upto_slash (if c =? 47 then Z.to_nat (6 - sl) else S (Z.to_nat (6 - sl))) (filter printable t) = N) by (eexists; reflexivity).
           destruct EN as (N & ->). pose proof (slen_nonneg N). rewrite slen_app, Z.min_l by lia. rewrite stake_app_le by lia.
           rewrite stake_all by lia. f_equal. f_equal; [assumption|]. f_equal. f_equal. assumption.
        -- destruct (sdrop_cons (slen T) buf) as (x & X); [lia|]. rewrite X. rewrite aset_slen. cbn [bind].
           destruct (c =? 47) eqn:Esl.
           ++ destruct (sl + 1 =? 7) eqn:E7.
              ** replace (Z.to_nat (6 - sl)) with 0%nat by lia.
                 replace (upto_slash 0 (filter printable t)) with (@nil Z) by (destruct (filter printable t); reflexivity).
                 rewrite slen_app. change (slen [c]) with 1. rewrite Z.min_r by lia.
                 rewrite stake_all by (rewrite slen_app; change (slen [c]) with 1; lia). rewrite <- app_assoc. reflexivity.
              ** pose proof (IH (T ++ [c]) (sl + 1) buf size ltac:(lia) Hs) as I. cbn zeta in I.
                 rewrite slen_app in I. change (slen [c]) with 1 in I. rewrite <- !app_assoc in I. cbn [app] in I.
                 replace (7 - (sl + 1)) with (6 - sl) in I by lia. apply I. lia.
           ++ destruct (sl =? 7) eqn:E7; [lia|].
              pose proof (IH (T ++ [c]) sl buf size Hsl Hs) as I. cbn zeta in I.
              rewrite slen_app in I. change (slen [c]) with 1 in I. rewrite <- !app_assoc in I. cbn [app] in I.
              replace (Z.to_nat (7 - sl)) with (S (Z.to_nat (6 - sl))) in I by lia. apply I. lia.
Qed.

Lemma cleaned_c s : Forall (fun c => 0 < c < 256) (cleaned s).
Proof.
  unfold cleaned. generalize 7%nat as n. induction s as [|c t IH]; intros n.
  - destruct n; constructor.
  - cbn [filter]. destruct (printable c) eqn:P; [|apply IH]. destruct n as [|n]; [constructor|]. cbn [upto_slash].
    constructor; [unfold printable in P; lia|apply IH].
Qed.

(** When the cleaned text and its NUL fit, the buffer holds exactly the cleaned text and its length is returned. *)
Theorem C17_clean : forall s buf size, Forall (fun c => 0 <= c < 256) s -> slen (cleaned s) < size -> size <= alen buf ->
  exists b, zpathnameClean buf size s = Ok (slen (cleaned s), b) /\ alen b = alen buf /\ cstr b = Ok (cleaned s).
Proof.
  intros s buf size Hc L Hs. unfold zpathnameClean. pose proof (slen_nonneg (cleaned s)) as N.
  pose proof (clean_loop_spec s Hc [] 0 buf size ltac:(lia) ltac:(lia) ltac:(change (slen []) with 0; lia)) as C.
  cbn zeta in C. change (slen []) with 0 in C. change (Z.to_nat (7 - 0)) with 7%nat in C. cbn [app] in C.
  change (sdrop 0 buf) with buf in C. fold (cleaned s) in C. rewrite C. cbn [bind fst snd].
  rewrite Z.min_r by lia. rewrite stake_all by lia.
  destruct (sdrop_cons (slen (cleaned s)) buf) as (x & X); [lia|]. rewrite X, aset_slen. cbn [bind].
  eexists. split; [reflexivity|]. split.
  - unfold alen, sdrop, slen in *. rewrite app_length. cbn [length]. rewrite skipn_length. lia.
  - apply cstr_c, cleaned_c.
Qed.
Print Assumptions C17_clean.

(** When it does not fit, the NUL is written at index [size]: one past the end of a buffer of that size. *)
Theorem C17_no_room : forall s buf size, Forall (fun c => 0 <= c < 256) s -> 0 <= size <= slen (cleaned s) -> size <= alen buf ->
  (alen buf = size -> zpathnameClean buf size s = Undef) /\
  (size < alen buf -> exists b, zpathnameClean buf size s = Ok (size, b) /\ cstr b = Ok (firstn (Z.to_nat size) (cleaned s))).
Proof.
  intros s buf size Hc L Hs. unfold zpathnameClean.
  pose proof (clean_loop_spec s Hc [] 0 buf size ltac:(lia) ltac:(lia) ltac:(change (slen []) with 0; lia)) as C.
  cbn zeta in C. change (slen []) with 0 in C. change (Z.to_nat (7 - 0)) with 7%nat in C. cbn [app] in C.
  change (sdrop 0 buf) with buf in C. fold (cleaned s) in C. rewrite C. cbn [bind fst snd].
  rewrite Z.min_l by lia. clear C.
  assert (LS : slen (stake size (cleaned s)) = size) by (rewrite slen_stake by lia; lia).
  split.
  - intros E. unfold aset. destruct (size <? 0) eqn:X; [lia|].
    assert (D : sdrop size buf = []) by (unfold sdrop, alen in *; apply skipn_all2; lia). rewrite D, app_nil_r.
    assert (U : forall (l : list Z) v, upd_nat l (length l) v = None).
    { clear. induction l as [|h t IH]; intros v; [reflexivity|]. cbn [length upd_nat]. rewrite IH. reflexivity. }
    replace (Z.to_nat size) with (length (stake size (cleaned s))) by (unfold slen in LS; lia). rewrite U. reflexivity.
  - intros E. destruct (sdrop_cons size buf) as (x & X); [lia|]. rewrite X.
    pose proof (aset_slen (stake size (cleaned s)) x (sdrop (size + 1) buf) 0) as P. rewrite LS in P. rewrite P. cbn [bind]. eexists. split; [reflexivity|].
    apply cstr_c, forall_stake, cleaned_c.
Qed.
Print Assumptions C17_no_room.

Theorem C17_refuted_overflow : exists s, zpathnameClean (repeat 0 8) 8 s = Undef.
Proof. exists (path_text [[65]; []; []; []; []; []]). vm_compute. reflexivity. Qed.

(** Cleaning twice is cleaning once; a clean pathname is unchanged; every kept character is printable. *)
Theorem C17_idempotent : forall s, cleaned (cleaned s) = cleaned s.
Proof.
  intros s. unfold cleaned.
  assert (A : forall n l, filter printable (upto_slash n (filter printable l)) = upto_slash n (filter printable l)).
  { intros n l. revert n. induction l as [|c t IH]; intros n; [destruct n; reflexivity|].
    cbn [filter]. destruct (printable c) eqn:P; [|apply IH]. destruct n as [|n]; [reflexivity|]. cbn [upto_slash filter]. rewrite P, IH. reflexivity. }
  rewrite A. generalize (filter printable s) as l. generalize 7%nat as n. intros n l. revert n.
  induction l as [|c t IH]; intros n; [destruct n; reflexivity|]. destruct n as [|n]; [reflexivity|].
  cbn [upto_slash]. rewrite IH. reflexivity.
Qed.
Theorem C17_keeps_clean : forall ts, length ts = 6%nat -> Forall no_slash ts -> Forall (Forall (fun c => printable c = true)) ts ->
  forall rest, cleaned (path_text ts ++ rest) = path_text ts.
Proof.
  intros ts H6 Hn Hp rest. unfold cleaned, path_text. cbn [app filter]. change (printable 47) with true. cbn iota. cbn [upto_slash].
  change (47 =? 47) with true. cbn iota. f_equal. rewrite <- H6. clear H6. induction ts as [|p t IH]; [cbn [map concat app length]; destruct (filter printable rest); reflexivity|].
  inversion Hn; inversion Hp; subst. cbn [map concat length]. rewrite <- !app_assoc. rewrite filter_app.
  assert (Fp : filter printable p = p).
  { clear - H5. induction H5 as [|c q Hc _ IH]; [reflexivity|]. cbn [filter]. rewrite Hc, IH. reflexivity. }
  rewrite Fp. cbn [app filter]. change (printable 47) with true. cbn iota.
  assert (U : forall (q r : list Z) n, no_slash q -> upto_slash (S n) (q ++ 47 :: r) = q ++ 47 :: upto_slash n r).
  { clear. induction q as [|c q IH]; intros r n Hq; [reflexivity|]. cbn [app upto_slash].
    destruct (c =? 47) eqn:E; [exfalso; apply Hq; left; lia|]. rewrite IH; [reflexivity|]. intros X. apply Hq. right. exact X. }
  rewrite U by assumption. rewrite IH by assumption. reflexivity.
Qed.
Example C17_example : Forall (fun c => 0 <= c < 256) [47; 65; 7; 200; 66; 47] /\ cleaned [47; 65; 7; 200; 66; 47] = [47; 65; 66; 47].
Proof. split; [repeat constructor; lia|reflexivity]. Qed.
Print Assumptions C15_refuted_long_part.
Print Assumptions C15_refuted_returned_length.
Print Assumptions C15_refuted_uninitialised.
Print Assumptions C15_seven_slashes.
Print Assumptions C16_refuted_overflow.
Print Assumptions C16_refuted_underread.
Print Assumptions C16_too_long.
Print Assumptions C17_idempotent.
Print Assumptions C17_keeps_clean.
Print Assumptions C17_refuted_overflow.
