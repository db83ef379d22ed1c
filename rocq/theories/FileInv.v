(** * Representation invariant of a DSS-7 file, and a small program logic that records every physical write. *)
From Coq Require Import ZArith List Lia Bool Arith.
From Verif Require Import Base PackModel PackProps HashModel FileModel FileLemmas FileScan.
Import ListNotations.
Open Scope Z_scope.

(** ** Program logic *)
Definition image := ((Z -> Z) * hdr)%type.
Definition replay (dh : image) (ws : list wr) : image := fold_left apply_wr ws dh.

(** Every file image between [s] and [s'] satisfies [G]. *)
Definition allpre (G : image -> Prop) (s s' : st) : Prop :=
  exists ws, s_log s' = s_log s ++ ws /\ (s_disk s', s_dhdr s') = replay (s_disk s, s_dhdr s) ws /\
    forall k, G (replay (s_disk s, s_dhdr s) (firstn k ws)).

Definition run (G : image -> Prop) {A} (m : M A) (s : st) (Q : A -> st -> Prop) (E : st -> Prop) : Prop :=
  match m s with
  | OK a s' => allpre G s s' /\ Q a s'
  | ERR s' => allpre G s s' /\ E s'
  | UB => False
  end.

Lemma allpre_refl (G : image -> Prop) s s' : G (s_disk s, s_dhdr s) -> same_file s s' -> allpre G s s'.
Proof.
  intros H (E1 & E2 & E3 & E4). exists []. rewrite app_nil_r. split; [congruence|]. split; [cbn; congruence|].
  intros k. rewrite firstn_nil. exact H.
Qed.
Lemma allpre_trans (G : image -> Prop) a b c : allpre G a b -> allpre G b c -> allpre G a c.
Proof.
  intros (w1 & L1 & D1 & G1) (w2 & L2 & D2 & G2). exists (w1 ++ w2). split; [rewrite L2, L1, app_assoc; reflexivity|].
  split; [unfold replay in *; rewrite fold_left_app, <- D1; exact D2|].
  intros k. rewrite firstn_app. unfold replay in *. rewrite fold_left_app.
  destruct (le_lt_dec k (length w1)) as [H|H].
  - replace (k - length w1)%nat with 0%nat by lia. cbn [firstn fold_left]. apply G1.
  - rewrite (firstn_all2 w1) by lia. rewrite <- D1. apply G2.
Qed.
Lemma allpre_issue (G : image -> Prop) w s : G (s_disk s, s_dhdr s) -> G (apply_wr (s_disk s, s_dhdr s) w) -> allpre G s (issue w s).
Proof.
  intros H1 H2. exists [w]. unfold issue. destruct (apply_wr (s_disk s, s_dhdr s) w) as [d h] eqn:E. cbn [s_log s_disk s_dhdr].
  split; [reflexivity|]. split; [unfold replay; cbn [fold_left]; symmetry; exact E|]. intros [|k]; [exact H1|].
  cbn [firstn]. rewrite firstn_nil. unfold replay. cbn [fold_left]. rewrite E. exact H2.
Qed.
Lemma allpre_start (G : image -> Prop) s s' : allpre G s s' -> G (s_disk s, s_dhdr s).
Proof. intros (w & _ & _ & H). apply (H 0%nat). Qed.
Lemma allpre_end (G : image -> Prop) s s' : allpre G s s' -> G (s_disk s', s_dhdr s').
Proof. intros (w & _ & D & H). rewrite D. rewrite <- (firstn_all w). apply H. Qed.

Section RUN.
Variable G : image -> Prop.
Notation here s := (G (s_disk s, s_dhdr s)).

Lemma run_ret {A} (a : A) s (Q : A -> st -> Prop) E : here s -> Q a s -> run G (ret a) s Q E.
Proof. intros H1 H2. unfold run, ret. split; [apply allpre_refl; [assumption|repeat split]|assumption]. Qed.
Lemma run_err {A} s (Q : A -> st -> Prop) (E : st -> Prop) : here s -> E s -> run G (@errM A) s Q E.
Proof. intros H1 H2. unfold run, errM. split; [apply allpre_refl; [assumption|repeat split]|assumption]. Qed.
Lemma run_bind {A B} (m : M A) (f : A -> M B) s Q E :
  run G m s (fun a s' => run G (f a) s' Q E) E -> run G (bindM m f) s Q E.
Proof.
  unfold run, bindM. destruct (m s) as [a s'|s'|]; [|tauto|tauto]. intros [H1 H2].
  destruct (f a s') as [b s''|s''|]; [| |assumption]; (split; [eapply allpre_trans; [exact H1|apply H2]|apply H2]).
Qed.
Lemma run_conseq {A} (m : M A) s (Q Q' : A -> st -> Prop) (E E' : st -> Prop) :
  run G m s Q E -> (forall a s', here s' -> Q a s' -> Q' a s') -> (forall s', here s' -> E s' -> E' s') -> run G m s Q' E'.
Proof.
  unfold run. destruct (m s) as [a s'|s'|]; [| |tauto]; intros [H1 H2] H3 H4; (split; [exact H1|]);
    pose proof (allpre_end _ _ _ H1); auto.
Qed.
Lemma run_getI s (Q : ifl -> st -> Prop) E : here s -> Q (s_ifl s) s -> run G getI s Q E.
Proof. intros H1 H2. apply (run_ret (s_ifl s)); assumption. Qed.
Lemma run_getH s (Q : hdr -> st -> Prop) E : here s -> Q (s_hdr s) s -> run G getH s Q E.
Proof. intros H1 H2. apply (run_ret (s_hdr s)); assumption. Qed.
Lemma run_setI i s (Q : unit -> st -> Prop) E : here s ->
  Q tt (mkst (s_disk s) (s_dhdr s) (s_log s) (s_hdr s) i) -> run G (setI i) s Q E.
Proof. intros H1 H2. unfold run, setI. split; [apply allpre_refl; [assumption|repeat split]|assumption]. Qed.
Lemma run_setH h s (Q : unit -> st -> Prop) E : here s ->
  Q tt (mkst (s_disk s) (s_dhdr s) (s_log s) h (s_ifl s)) -> run G (setH h) s Q E.
Proof.
  intros H1 H2. unfold run, setH. split; [|assumption]. exists []. cbn. rewrite app_nil_r.
  split; [reflexivity|]. split; [reflexivity|]. intros k. rewrite firstn_nil. assumption.
Qed.
Lemma run_modI f s (Q : unit -> st -> Prop) E : here s ->
  Q tt (mkst (s_disk s) (s_dhdr s) (s_log s) (s_hdr s) (f (s_ifl s))) -> run G (modI f) s Q E.
Proof. intros H1 H2. unfold modI. apply run_bind, run_getI; [assumption|]. apply run_setI; assumption. Qed.
Lemma run_modH f s (Q : unit -> st -> Prop) E : here s ->
  Q tt (mkst (s_disk s) (s_dhdr s) (s_log s) (f (s_hdr s)) (s_ifl s)) -> run G (modH f) s Q E.
Proof. intros H1 H2. unfold modH. apply run_bind, run_getH; [assumption|]. apply run_setH; assumption. Qed.
Lemma run_liftR {A} (r : res A) a s (Q : A -> st -> Prop) E : here s -> r = Ok a -> Q a s -> run G (liftR r) s Q E.
Proof. intros H1 -> H2. apply run_ret; assumption. Qed.

Lemma run_zputw a ws s (Q : unit -> st -> Prop) E : here s ->
  0 <= a <= h_fileSize (s_hdr s) + 10000 -> 2 * zlen ws <= 100000000 -> ws <> [] ->
  G (put (s_disk s) a ws, s_dhdr s) ->
  Q tt (mkst (put (s_disk s) a ws) (s_dhdr s) (s_log s ++ [WWords a ws]) (s_hdr s) (s_ifl s)) ->
  run G (zputw a ws) s Q E.
Proof.
  intros H0 H1 H2 H3 H4 H5. unfold run, zputw. rewrite ltb_f by lia. rewrite ltb_f by lia. cbn [orb].
  rewrite ltb_f by (unfold zlen in H2; lia). destruct ws; [congruence|].
  split; [apply allpre_issue; assumption|exact H5].
Qed.
Lemma run_zputzero a n s (Q : unit -> st -> Prop) E : here s ->
  0 <= a <= h_fileSize (s_hdr s) + 10000 ->
  G (zero (s_disk s) a n, s_dhdr s) ->
  Q tt (mkst (zero (s_disk s) a n) (s_dhdr s) (s_log s ++ [WZero a n]) (s_hdr s) (s_ifl s)) ->
  run G (zputzero a n) s Q E.
Proof.
  intros H0 H1 H4 H5. unfold run, zputzero. rewrite ltb_f by lia. rewrite ltb_f by lia. cbn [orb].
  split; [apply allpre_issue; assumption|exact H5].
Qed.
Lemma run_zputi a l s (Q : unit -> st -> Prop) E : here s ->
  0 <= a <= h_fileSize (s_hdr s) + 10000 -> zlen l <= 100000000 ->
  (forall d', (forall x, d' x = put (s_disk s) a (pack_ints (s_disk s) a l) x) ->
     G (d', s_dhdr s) /\
     forall lg, Q tt (mkst d' (s_dhdr s) lg (s_hdr s) (s_ifl s))) ->
  run G (zputi a l) s Q E.
Proof.
  intros H0 H1 H2 H3. unfold run, zputi. rewrite ltb_f by lia. rewrite ltb_f by lia. cbn [orb].
  rewrite ltb_f by (unfold zlen in H2; lia). destruct l as [|x t].
  - split; [apply allpre_refl; [assumption|repeat split]|].
    destruct (H3 (s_disk s)) as [_ H]; [intros y; symmetry; apply put_out; cbn; unfold zlen; cbn; lia|].
    specialize (H (s_log s)). destruct s; exact H.
  - destruct (H3 (put (s_disk s) a (pack_ints (s_disk s) a (x :: t))) (fun _ => eq_refl)) as [H4 H5].
    split; [apply allpre_issue; assumption|]. apply H5.
Qed.
Lemma run_zgetw a n s (Q : list Z -> st -> Prop) E : here s ->
  0 <= a <= h_fileSize (s_hdr s) + 100000 -> 2 * n <= 10000000 ->
  Q (words (s_disk s) a n) s -> run G (zgetw a n) s Q E.
Proof.
  intros H0 H1 H2 H3. unfold run, zgetw. rewrite ltb_f by lia. rewrite ltb_f by lia. cbn [orb]. rewrite ltb_f by lia.
  split; [apply allpre_refl; [assumption|repeat split]|assumption].
Qed.
Lemma run_zgeti a n s (Q : list Z -> st -> Prop) E : here s ->
  0 <= a <= h_fileSize (s_hdr s) + 100000 -> 0 <= n <= 10000000 ->
  Q (ints_at (s_disk s) a n) s -> run G (zgeti a n) s Q E.
Proof.
  intros H0 H1 H2 H3. unfold run, zgeti. rewrite ltb_f by lia. rewrite ltb_f by lia. cbn [orb]. rewrite ltb_f by lia.
  rewrite ltb_f by lia. cbn [orb].
  split; [apply allpre_refl; [assumption|repeat split]|assumption].
Qed.
Lemma run_zpermWrite s (Q : unit -> st -> Prop) E : here s -> G (s_disk s, s_hdr s) ->
  Q tt (mkst (s_disk s) (s_hdr s) (s_log s ++ [WHdr (s_hdr s)]) (s_hdr s) (s_ifl s)) -> run G zpermWrite s Q E.
Proof. intros H0 H1 H2. unfold run, zpermWrite. split; [apply allpre_issue; assumption|exact H2]. Qed.
(** A computation known to leave the file alone. *)
Lemma run_known {A} (m : M A) a s s' (Q : A -> st -> Prop) E : here s ->
  m s = OK a s' -> same_file s s' -> Q a s' -> run G m s Q E.
Proof. intros H0 H1 H2 H3. unfold run. rewrite H1. split; [apply allpre_refl; assumption|assumption]. Qed.
End RUN.

(** ** Ownership *)
Inductive tag := TFree | TSys | THash | TBin (h : Z) (i : nat) | TSpare | TLink | TPend | TRec (h : Z) (i k : nat).
Definition pos := (Z * nat * nat)%type.
Definition TR (p : pos) : tag := let '(h, i, k) := p in TRec h i k.

Definition chains := Z -> list bin.
Definition entry_at (ch : chains) (p : pos) : option entry :=
  let '(h, i, k) := p in
  match nth_error (ch h) i with Some (_, es) => nth_error es k | None => None end.

(** Entries that point to a record of their own. *)
Definition storing (e : entry) : Prop := e_status e = 0 \/ e_status e = 1 \/ e_status e = 11.
Definition live (e : entry) : Prop := e_status e = 0 \/ e_status e = 1.

Definition wf_cfg (c : cfg) : Prop :=
  2 <= c_maxHash c /\ (c_detune c = true -> 4 <= c_maxHash c) /\ 58 <= c_binSize c <= 1000 /\ 1 <= c_bpb c /\
  100 <= c_hashStart c.

Definition eok (c : cfg) (h : Z) (e : entry) : Prop :=
  shape e /\ zhash (c_detune c) (c_maxHash c) (e_path e) = Ok (h, e_hash e) /\ (storing e \/ e_status e = 12).

(** The content stored under an info block [f]. *)
Definition rec_content (d : Z -> Z) (f : Z -> Z) : content :=
  mkcontent (fst (i8toi4 false (f 4))) (ints_at d (f 13) (f 14)) (ints_at d (f 15) (f 16)) (ints_at d (f 17) (f 18))
    (ints_at d (f 19) (f 20)) (ints_at d (f 21) (f 22)) (ints_at d (f 23) (f 24)) (f 26) (f 27).

Definition cnt_ok (n : Z) : Prop := 0 <= n <= 10000000.

(** Shape of an info block whose sections lie in [f 13, f 13 + cap). *)
Definition lay_ok (f : Z -> Z) (cap : Z) : Prop :=
  cnt_ok (f 14) /\ cnt_ok (f 16) /\ cnt_ok (f 18) /\ cnt_ok (f 20) /\ cnt_ok (f 22) /\ cnt_ok (f 24) /\
  f 15 = f 13 + numberLongsInInts (f 14) /\ f 17 = f 15 + numberLongsInInts (f 16) /\
  f 19 = f 17 + numberLongsInInts (f 18) /\ f 21 = f 19 + numberLongsInInts (f 20) /\
  f 23 = f 21 + numberLongsInInts (f 22) /\ f 23 + numberLongsInInts (f 24) <= f 13 + cap /\
  2 * (numberLongsInInts (f 14) + numberLongsInInts (f 16) + numberLongsInInts (f 18)) + f 25 <= 2 * cap.

(** The info block [f] belongs to the entry [e]: flag, status, length, hash and pathname. *)
Definition named (f : Z -> Z) (e : entry) : Prop :=
  f 3 = e_hash e /\ f 0 = INFO_FLAG /\ (live e -> 0 <= f 1 <= 1) /\ f 2 = e_len e /\
  firstn (Z.to_nat (e_len e)) (bytes_of_words (tabulate (fun k => f (30 + k)) (numberLongsInBytes (e_len e)))) = e_path e.
Lemma named_ext f g e : (forall k, 0 <= k < numInfo (e_len e) -> g k = f k) -> 0 <= e_len e <= 392 -> named f e -> named g e.
Proof.
  intros H L (N1 & N2 & N3 & N4 & N5). pose proof (nlib392 _ L) as B. unfold numInfo in H. unfold named. rewrite !H by lia.
  split; [exact N1|]. split; [exact N2|]. split; [exact N3|]. split; [exact N4|]. rewrite <- N5. f_equal. f_equal. unfold tabulate.
  apply map_ext_in. intros k Hk. apply H. unfold zseq in Hk. apply in_map_iff in Hk. destruct Hk as (j & <- & Hj). apply in_seq in Hj. lia.
Qed.

Lemma named_upd f g e e' : named f e -> e_hash e' = e_hash e -> e_len e' = e_len e -> e_words e' = e_words e ->
  g 3 = f 3 -> g 0 = INFO_FLAG -> (live e' -> 0 <= g 1 <= 1) -> g 2 = f 2 -> (forall k, 30 <= k -> g k = f k) -> named g e'.
Proof.
  intros (N1 & N2 & N3 & N4 & N5) X1 X2 X3 G3 G0 G1 G2 GK. unfold named, e_path. unfold e_path in N5. rewrite X1, X2, X3.
  split; [congruence|]. split; [exact G0|]. split; [exact G1|]. split; [congruence|]. rewrite <- N5. f_equal. f_equal. unfold tabulate.
  apply map_ext_in. intros k Hk. unfold zseq in Hk. apply in_map_iff in Hk. destruct Hk as (j & <- & Hj). apply GK. lia.
Qed.
Lemma path_info_low p len f j : j < 30 -> path_info p len f j = f j.
Proof. intros H. unfold path_info. rewrite (proj2 (Z.leb_gt 30 j)) by lia. reflexivity. Qed.
Lemma path_info_text p f : is_bytes p -> zlen p <= 392 ->
  firstn (Z.to_nat (zlen p)) (bytes_of_words (tabulate (fun k => path_info (firstn (Z.to_nat (zlen p)) p) (zlen p) f (30 + k)) (numberLongsInBytes (zlen p)))) = p.
Proof.
  intros Hp Hl. pose proof (zlen_nonneg p) as L0. pose proof (nlib_bounds (zlen p) L0) as B.
  assert (EP : firstn (Z.to_nat (zlen p)) p = p) by (unfold zlen; rewrite Nat2Z.id; apply firstn_all). rewrite EP.
  set (n := numberLongsInBytes (zlen p)) in *. set (ws := path_words p (tabulate (fun k => f (30 + k)) n)).
  assert (LT : forall g, length (tabulate g n) = Z.to_nat n) by (intros g; unfold tabulate, zseq; rewrite !map_length, seq_length; reflexivity).
  assert (LW : length ws = Z.to_nat n) by (unfold ws; rewrite path_words_length; apply LT).
  assert (ET : tabulate (fun k => path_info p (zlen p) f (30 + k)) n = ws).
  { apply nth_ext with (d := 0) (d' := 0); [rewrite LT, LW; reflexivity|]. rewrite LT. intros k Hk.
    unfold tabulate, zseq. rewrite map_map. rewrite nth_indep with (d' := (fun x => path_info p (zlen p) f (30 + (0 + Z.of_nat x))) 0%nat) by (rewrite map_length, seq_length; exact Hk).
    rewrite (map_nth (fun x => path_info p (zlen p) f (30 + (0 + Z.of_nat x)))). rewrite seq_nth by exact Hk. unfold path_info. fold n.
    rewrite (proj2 (Z.leb_le 30 _)) by lia. rewrite (proj2 (Z.ltb_lt _ (30 + n))) by lia. cbn [andb]. fold ws. f_equal. lia. }
  rewrite ET. replace (Z.to_nat (zlen p)) with (length p) by (unfold zlen; lia). apply path_words_text; [exact Hp|]. rewrite LT. unfold zlen in *. lia.
Qed.
Lemma named_new f e p : is_bytes p -> zlen p <= 392 -> e_path e = p -> e_len e = zlen p ->
  f 3 = e_hash e -> f 0 = INFO_FLAG -> f 1 = ST_PRIMARY -> f 2 = zlen p ->
  named (path_info (firstn (Z.to_nat (zlen p)) p) (zlen p) f) e.
Proof.
  intros Hp Hl EP EL F3 F0 F1 F2. unfold named. rewrite !path_info_low by lia. rewrite F3, F0, F1, F2, EL, EP.
  split; [reflexivity|]. split; [reflexivity|]. split; [unfold ST_PRIMARY; lia|]. split; [reflexivity|]. apply path_info_text; assumption.
Qed.

Definition rec_ok (d : Z -> Z) (own : Z -> tag) (t : tag) (e : entry) : Prop :=
  let f := fun k => d (e_info e + k) in
  let n := numInfo (e_len e) in
  0 < e_info e /\
  (forall x, e_info e <= x < e_info e + n -> own x = t) /\
  named f e /\
  exists cap, (forall x, f 13 <= x < f 13 + cap -> own x = t) /\ (0 < f 13 /\ own (f 13 - 1) = t) /\
    (f 13 + cap <= e_info e \/ e_info e + n <= f 13) /\
    lay_ok f cap /\ rec_content d f = e_ct e.

(** The directory and the records on disk.  [dang h]: the word that ends chain [h]; [ex]: a record being changed. *)
Record Dsk (c : cfg) (d : Z -> Z) (own : Z -> tag) (ch : chains) (dang : Z -> Z) (ex : option pos) : Prop := {
  dk_hash : forall h, 0 <= h < c_maxHash c ->
    own (c_hashStart c + h) = THash /\ d (c_hashStart c + h) = head_addr (dang h) (ch h);
  dk_bin : forall h i a es, 0 <= h < c_maxHash c -> nth_error (ch h) i = Some (a, es) ->
    100 <= a /\ (forall x, a <= x < a + c_binSize c -> own x = TBin h i) /\
    words d a (c_binSize c) = bin_words (c_binSize c) es (next_addr (dang h) (ch h) i) /\
    zlen (encs es) <= c_binSize c - 2 /\ Forall (eok c h) es;
  dk_rec : forall h i k e, 0 <= h < c_maxHash c -> entry_at ch (h, i, k) = Some e -> storing e ->
    ex <> Some (h, i, k) -> rec_ok d own (TRec h i k) e }.

Definition critical (own : Z -> tag) (ex : option pos) (x : Z) : Prop :=
  match own x with
  | THash | TBin _ _ => True
  | TRec h i k => ex <> Some (h, i, k)
  | _ => False
  end.

Lemma numInfo_bounds n : 0 <= n <= 392 -> 30 <= numInfo n <= 79.
Proof. intros H. unfold numInfo. pose proof (nlib392 n H). lia. Qed.
Lemma cnt_words n : cnt_ok n -> 0 <= numberLongsInInts n /\ n <= 2 * numberLongsInInts n <= n + 1.
Proof. unfold cnt_ok. intros H. pose proof (nlii_bounds n). lia. Qed.

Lemma rec_ok_ext d d' own own' t e : shape e -> rec_ok d own t e ->
  (forall x, own x = t -> d' x = d x) -> (forall x, own x = t -> own' x = t) -> rec_ok d' own' t e.
Proof.
  intros Hs (H1 & H2 & H3 & cap & H4 & H5 & H6 & H7 & H8) HD HO.
  pose proof (numInfo_bounds (e_len e) (proj1 (proj2 Hs))) as HN.
  assert (F : forall k, 0 <= k < 30 -> d' (e_info e + k) = d (e_info e + k)) by (intros k Hk; apply HD, H2; lia).
  unfold rec_ok. cbv zeta.
  split; [assumption|]. split; [intros x Hx; apply HO, H2, Hx|].
  split; [eapply named_ext; [|apply Hs|exact H3]; intros k Hk; cbv beta; apply HD, H2; lia|]. rewrite !F by lia.
  exists cap. split; [intros x Hx; apply HO, H4, Hx|]. split; [split; [apply H5|apply HO, H5]|]. split; [exact H6|].
  split; [unfold lay_ok in *; rewrite !F by lia; exact H7|].
  rewrite <- H8. unfold rec_content. rewrite !F by lia.
  destruct H7 as (C1 & C2 & C3 & C4 & C5 & C6 & E1 & E2 & E3 & E4 & E5 & E6 & _).
  pose proof (cnt_words _ C1). pose proof (cnt_words _ C2). pose proof (cnt_words _ C3).
  pose proof (cnt_words _ C4). pose proof (cnt_words _ C5). pose proof (cnt_words _ C6).
  f_equal; apply ints_at_ext; intros x Hx; apply HD, H4; lia.
Qed.

(** Writes outside the critical words, and re-tagging of non-critical words, keep the directory. *)
Lemma Dsk_ext c d d' own own' ch dang ex : Dsk c d own ch dang ex ->
  (forall x, critical own ex x -> d' x = d x) -> (forall x, critical own ex x -> own' x = own x) ->
  Dsk c d' own' ch dang ex.
Proof.
  intros [DH DB DR] HD HO. split.
  - intros h Hh. destruct (DH h Hh) as [E1 E2].
    assert (C : critical own ex (c_hashStart c + h)) by (unfold critical; rewrite E1; exact I).
    rewrite HO, HD by exact C. auto.
  - intros h i a es Hh Hi. destruct (DB h i a es Hh Hi) as (E1 & E2 & E3 & E4 & E5).
    assert (C : forall x, a <= x < a + c_binSize c -> critical own ex x) by (intros x Hx; unfold critical; rewrite (E2 x Hx); exact I).
    split; [assumption|]. split; [intros x Hx; rewrite HO by auto; auto|]. split; [|auto].
    rewrite <- E3. apply words_ext. intros x Hx. apply HD, C, Hx.
  - intros h i k e Hh He Hs Hex.
    assert (SH : shape e).
    { unfold entry_at in He. destruct (nth_error (ch h) i) as [[a es]|] eqn:E; [|discriminate].
      destruct (DB h i a es Hh E) as (_ & _ & _ & _ & F). rewrite Forall_forall in F. apply F. eapply nth_error_In; eauto. }
    eapply rec_ok_ext; [exact SH|apply (DR h i k e); assumption| |].
    + intros x Hx. apply HD. unfold critical. rewrite Hx. assumption.
    + intros x Hx. rewrite HO; [assumption|]. unfold critical. rewrite Hx. assumption.
Qed.
Lemma Dsk_exempt c d own ch dang ex : Dsk c d own ch dang None -> Dsk c d own ch dang ex.
Proof. intros [DH DB DR]. split; auto. intros. apply DR; auto. discriminate. Qed.
Lemma Dsk_unexempt c d own ch dang h i k e : Dsk c d own ch dang (Some (h, i, k)) ->
  entry_at ch (h, i, k) = Some e -> (storing e -> rec_ok d own (TRec h i k) e) -> Dsk c d own ch dang None.
Proof.
  intros [DH DB DR] He HR. split; auto. intros h' i' k' e' Hh He' Hs _.
  destruct (Z.eq_dec h h') as [->|N1]; [|apply DR; auto; congruence].
  destruct (Nat.eq_dec i i') as [->|N2]; [|apply DR; auto; congruence].
  destruct (Nat.eq_dec k k') as [->|N3]; [|apply DR; auto; congruence].
  rewrite He' in He. inversion He; subst. auto.
Qed.
