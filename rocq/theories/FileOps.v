(** * Effect of zwrite on the records of a file. *)
From Coq Require Import ZArith List Lia Bool Arith.
From Verif Require Import Base PackModel PackProps HashModel FileModel FileLemmas FileScan FileInv FileDir FileLook FileRead FileAlloc FileBin FileSlot FileUpd FileStep FileWrite FileExist.
Import ListNotations.
Open Scope Z_scope.

Lemma pos_eq_dec (p q : pos) : {p = q} + {p <> q}.
Proof. decide equality. - apply Nat.eq_dec. - decide equality. apply Nat.eq_dec. apply Z.eq_dec. Qed.
Lemma pos_tri i k i' k' : ~ pos_lt i' k' i k -> (i, k) <> (i', k') -> pos_lt i k i' k'.
Proof.
  unfold pos_lt. intros H1 H2. destruct (Nat.lt_trichotomy i i') as [H|[->|H]]; [left; exact H| |exfalso; apply H1; left; exact H].
  destruct (Nat.lt_trichotomy k k') as [H|[->|H]]; [right; auto|congruence|exfalso; apply H1; right; auto].
Qed.

Lemma Rep_placed c s s' own own' ch ch' blocks blocks' h i k e : Rep c s own ch blocks ->
  Dsk c (s_disk s') own' ch' (fun _ => 0) None -> Alloc c (s_disk s') own' ch' (s_hdr s') blocks' -> s_dhdr s' = s_hdr s' ->
  Placed c ch ch' h i k e -> live e ->
  (forall i' k' e', entry_at ch (h, i', k') = Some e' -> key (e_path e') = key (e_path e) -> ~ live e') ->
  Rep c s' own' ch' blocks'.
Proof.
  intros [R1 R2 R3 R4 R5 R6] DK AL EH (P1 & P2 & P3 & P4 & P5) HV HN.
  assert (X : forall h' i' k' x, entry_at ch' (h', i', k') = Some x -> ((h', i', k') = (h, i, k) /\ x = e) \/ ((h', i', k') <> (h, i, k) /\ entry_at ch (h', i', k') = Some x)).
  { intros h' i' k' x Hx. destruct (pos_eq_dec (h', i', k') (h, i, k)) as [Q|Q].
    - left. rewrite Q, P1 in Hx. split; congruence.
    - right. rewrite P2 in Hx by exact Q. auto. }
  split; auto.
  - intros h1 i1 k1 e1 i2 k2 e2 H1 E1 E2 V1 V2 EK.
    destruct (X _ _ _ _ E1) as [[Q1 ->]|[N1 Y1]]; destruct (X _ _ _ _ E2) as [[Q2 ->]|[N2 Y2]].
    + split; congruence.
    + exfalso. assert (h1 = h) by congruence. subst h1. apply (HN _ _ _ Y2); [congruence|exact V2].
    + exfalso. assert (h1 = h) by congruence. subst h1. apply (HN _ _ _ Y1); [congruence|exact V1].
    + eapply R4; eauto.
  - intros h1 i1 k1 e1 i2 k2 e2 H1 E1 E2 V1 V2 EK.
    destruct (X _ _ _ _ E2) as [[Q2 ->]|[N2 Y2]]; [unfold live in HV; lia|].
    destruct (X _ _ _ _ E1) as [[Q1 ->]|[N1 Y1]]; [|eapply R5; eauto].
    assert (h1 = h) by congruence. subst h1. assert (i1 = i) by congruence. assert (k1 = k) by congruence. subst i1 k1.
    apply pos_tri; [eapply P4; eauto|congruence].
Qed.

Lemma Live_placed c ch ch' h i k e own d p ct : 0 <= h < c_maxHash c -> Dsk c d own ch (fun _ => 0) None ->
  zhash (c_detune c) (c_maxHash c) (e_path e) = Ok (h, e_hash e) ->
  Placed c ch ch' h i k e -> live e ->
  (forall i' k' e', entry_at ch (h, i', k') = Some e' -> key (e_path e') = key (e_path e) -> ~ live e') ->
  Live c ch' p ct <-> ((key p = key (e_path e) /\ ct = e_ct e) \/ (key p <> key (e_path e) /\ Live c ch p ct)).
Proof.
  intros Hh DK HZ (P1 & P2 & P3 & P4 & P5) HV HN. split.
  - intros (h' & i' & k' & e' & Hh' & HE & V & KP & CT). destruct (pos_eq_dec (h', i', k') (h, i, k)) as [Q|Q].
    + rewrite Q, P1 in HE. assert (e' = e) by congruence. subst e'. left. split; congruence.
    + rewrite P2 in HE by exact Q. right. split; [|exists h', i', k', e'; auto].
      intros EK. assert (h' = h).
      { pose proof (Dsk_eok _ _ _ _ _ _ _ _ _ _ DK Hh' HE) as (_ & Z' & _).
        rewrite <- KP in EK. rewrite (zhash_key _ _ _ _ EK), HZ in Z'. congruence. }
      subst h'. apply (HN _ _ _ HE); [congruence|exact V].
  - intros [[EK ->]|[NK (h' & i' & k' & e' & Hh' & HE & V & KP & CT)]].
    + exists h, i, k, e. auto.
    + exists h', i', k', e'. split; [exact Hh'|]. split; [|auto]. rewrite P2; [exact HE|].
      intros Q. inversion Q; subst h' i' k'. destruct (P3 _ HE) as [S|S]; unfold live in V; lia.
Qed.
Lemma Dead_placed c ch ch' h i k e p ct : Placed c ch ch' h i k e -> live e -> Dead c ch' p ct -> Dead c ch p ct.
Proof.
  intros (P1 & P2 & P3 & P4 & P5) HV (h' & i' & k' & e' & Hh' & HE & V & KP & CT).
  destruct (pos_eq_dec (h', i', k') (h, i, k)) as [Q|Q].
  - rewrite Q, P1 in HE. assert (e' = e) by congruence. subst e'. unfold live in HV. lia.
  - rewrite P2 in HE by exact Q. exists h', i', k', e'. auto.
Qed.

Lemma Live_rewritten c s own ch blocks ch' h i k e e' p ct : wf_cfg c -> Rep c s own ch blocks -> 0 <= h < c_maxHash c ->
  Rewritten ch ch' h i k e' -> entry_at ch (h, i, k) = Some e -> e_path e' = e_path e -> e_status e' = e_status e -> live e ->
  Live c ch' p ct <-> ((key p = key (e_path e) /\ ct = e_ct e') \/ (key p <> key (e_path e) /\ Live c ch p ct)).
Proof.
  intros WF RP Hh (W1 & W2 & W3) HE EP ES HV.
  assert (HV' : live e') by (unfold live in *; rewrite ES; exact HV).
  pose proof (Dsk_eok _ _ _ _ _ _ _ _ _ _ (rp_dsk _ _ _ _ _ RP) Hh HE) as (_ & HZ & _). split.
  - intros (h1 & i1 & k1 & e1 & Hh1 & HE1 & V1 & KP & CT). destruct (pos_eq_dec (h1, i1, k1) (h, i, k)) as [Q|Q].
    + rewrite Q, W1 in HE1. assert (e1 = e') by congruence. subst e1. left. split; congruence.
    + rewrite W2 in HE1 by exact Q. right. split; [|exists h1, i1, k1, e1; auto].
      intros EK. rewrite <- KP in EK. pose proof (entry_chain c s own ch blocks RP (e_path e) h (e_hash e) h1 i1 k1 e1 HZ Hh1 HE1 EK). subst h1.
      destruct (rp_uniq _ _ _ _ _ RP h i1 k1 e1 i k e Hh HE1 HE V1 HV EK). congruence.
  - intros [[EK ->]|[NK (h1 & i1 & k1 & e1 & Hh1 & HE1 & V1 & KP & CT)]].
    + exists h, i, k, e'. split; [exact Hh|]. split; [exact W1|]. split; [exact HV'|]. split; congruence.
    + exists h1, i1, k1, e1. split; [exact Hh1|]. split; [|auto]. rewrite W2; [exact HE1|]. intros Q. rewrite Q, HE in HE1.
      assert (e = e1) by congruence. subst e1. congruence.
Qed.
Lemma Dead_rewritten c ch ch' h i k e e' p ct : Rewritten ch ch' h i k e' -> entry_at ch (h, i, k) = Some e ->
  e_status e' = e_status e -> live e -> Dead c ch' p ct <-> Dead c ch p ct.
Proof.
  intros (W1 & W2 & W3) HE ES HV. split; intros (h1 & i1 & k1 & e1 & Hh1 & HE1 & V1 & KP & CT).
  - exists h1, i1, k1, e1. split; [exact Hh1|]. split; [|auto]. rewrite W2 in HE1; [exact HE1|]. intros Q. rewrite Q, W1 in HE1.
    assert (e1 = e') by congruence. subst e1. unfold live in HV. lia.
  - exists h1, i1, k1, e1. split; [exact Hh1|]. split; [|auto]. rewrite W2; [exact HE1|]. intros Q. rewrite Q, HE in HE1.
    assert (e1 = e) by congruence. subst e1. unfold live in HV. lia.
Qed.

(** ** Looking a name up *)
Lemma rep_lookup c s own ch blocks path h hash : wf_cfg c -> Rep c s own ch blocks ->
  zhash (c_detune c) (c_maxHash c) path = Ok (h, hash) -> 0 <= h < c_maxHash c ->
  (exists ct, Live c ch path ct) \/ (forall i k e, entry_at ch (h, i, k) = Some e -> key (e_path e) = key path -> ~ live e).
Proof.
  intros WF RP HP Hh.
  assert (D1 : forall e, {key (e_path e) = key path /\ live e} + {~ (key (e_path e) = key path /\ live e)}).
  { intros e. destruct (list_eq_dec Z.eq_dec (key (e_path e)) (key path)) as [Q|Q]; [|right; tauto].
    unfold live. destruct (Z.eq_dec (e_status e) 0); [left; tauto|]. destruct (Z.eq_dec (e_status e) 1); [left; tauto|right; tauto]. }
  set (f := fun b : bin => existsb (fun e => if D1 e then true else false) (snd b)).
  destruct (existsb f (ch h)) eqn:E.
  - left. apply existsb_exists in E. destruct E as ([a es] & Hb & Ef). unfold f in Ef. apply existsb_exists in Ef. destruct Ef as (e & He & Q).
    destruct (D1 e) as [[K V]|]; [|discriminate]. cbn [snd] in He. apply In_nth_error in Hb. destruct Hb as [i Hi]. apply In_nth_error in He. destruct He as [k Hk].
    exists (e_ct e), h, i, k, e. split; [exact Hh|]. split; [unfold entry_at; rewrite Hi; exact Hk|]. auto.
  - right. intros i k e HE HK HV. destruct (entry_at_bin _ _ _ _ _ HE) as (a & es & E1 & E2).
    assert (Q : existsb f (ch h) = true); [|congruence]. apply existsb_exists. exists (a, es). split; [eapply nth_error_In; eauto|].
    unfold f. apply existsb_exists. exists e. split; [eapply nth_error_In; eauto|]. destruct (D1 e); [reflexivity|tauto].
Qed.

Lemma rep_live_at c s own ch blocks path ct : wf_cfg c -> Rep c s own ch blocks -> Live c ch path ct ->
  exists h hash i k a es e, zhash (c_detune c) (c_maxHash c) path = Ok (h, hash) /\ 0 <= h < c_maxHash c /\
    nth_error (ch h) i = Some (a, es) /\ nth_error es k = Some e /\ live e /\ key (e_path e) = key path /\ e_ct e = ct.
Proof.
  intros WF RP (h & i & k & e & Hh & HE & V & KP & CT). destruct (entry_at_bin _ _ _ _ _ HE) as (a & es & E1 & E2).
  pose proof (Dsk_eok _ _ _ _ _ _ _ _ _ _ (rp_dsk _ _ _ _ _ RP) Hh HE) as (_ & HZ & _). rewrite (zhash_key _ _ _ _ KP) in HZ.
  exists h, (e_hash e), i, k, a, es, e. auto 10.
Qed.

(** zreadInfo for a record that exists. *)
Lemma rep_readInfo c s own ch blocks path h hash i k a es e : wf_cfg c -> Rep c s own ch blocks -> zlen path <= 392 ->
  zhash (c_detune c) (c_maxHash c) path = Ok (h, hash) -> 0 <= h < c_maxHash c ->
  nth_error (ch h) i = Some (a, es) -> nth_error es k = Some e -> key (e_path e) = key path -> live e ->
  exists s' i0, zreadInfo c path 0 s = OK true s' /\ same_file s s' /\ seen c path h hash (head_addr 0 (ch h)) a es k e i0 (s_ifl s') /\
    (forall j, 0 <= j < numInfo (zlen path) -> i_info (s_ifl s') j = s_disk s (e_info e + j)).
Proof.
  intros WF RP HL HP Hh Hi Hk HK HV. pose proof WF as (W1 & W2 & W3 & W4 & W5).
  assert (HE : entry_at ch (h, i, k) = Some e) by (unfold entry_at; rewrite Hi; exact Hk).
  destruct (zreadInfo_found c (s_disk s) own ch (fun _ => 0) None h hash path i k a es e s 0) as (s1 & E1 & SF & SN & IN); auto.
  - apply (rp_dsk _ _ _ _ _ RP).
  - intros i' k' e' HLT HE' EK' HV'.
    destruct (rp_uniq _ _ _ _ _ RP h i k e i' k' e' Hh HE HE' HV HV') as [-> ->]; [congruence|]. unfold pos_lt in HLT. lia.
  - pose proof (rep_hash c s own ch blocks RP). lia.
  - intros i' a' es' _ Q. destruct (rep_bin c s own ch blocks WF RP h i' a' es' Hh Q). lia.
  - apply nth_error_lt in Hi. pose proof (rep_len c s own ch blocks WF RP h Hh). lia.
  - discriminate.
  - intros y Hy. pose proof (rep_rec c s own ch blocks RP y h i k Hy). lia.
  - eexists s1, _. split; [exact E1|]. split; [exact SF|]. split; [exact SN|exact IN].
Qed.
(** ... and for one that does not. *)
Lemma rep_readInfo_none c s own ch blocks path h hash : wf_cfg c -> Rep c s own ch blocks -> zlen path <= 392 ->
  zhash (c_detune c) (c_maxHash c) path = Ok (h, hash) -> 0 <= h < c_maxHash c -> ztsPathCompatible path = None ->
  (forall i k e, entry_at ch (h, i, k) = Some e -> key (e_path e) = key path -> ~ live e) ->
  exists s', zreadInfo c path 0 s = OK false s' /\ same_file s s' /\
    i_hash (s_ifl s') = hash /\ i_len (s_ifl s') = zlen path /\ i_addTable (s_ifl s') = h + c_hashStart c /\
    i_firstDate (s_ifl s') = i_firstDate (s_ifl s) /\ i_lastDate (s_ifl s') = i_lastDate (s_ifl s) /\
    i_hashBin (s_ifl s') = head_addr 0 (ch h) /\ i_withSpace (s_ifl s') = roomc (zlen path) (ch h) /\
    match ch h with
    | [] => True
    | b :: t => i_binCur (s_ifl s') = fst (last_b t b) /\
                i_bin (s_ifl s') = bin_words (c_binSize c) (snd (last_b t b)) 0
    end.
Proof.
  intros WF RP HL HP Hh HT HN. pose proof WF as (W1 & W2 & W3 & W4 & W5).
  eapply (zreadInfo_none c (s_disk s) own ch (fun _ => 0) None h hash path 0 s); auto.
  - apply (rp_dsk _ _ _ _ _ RP).
  - pose proof (rep_hash c s own ch blocks RP). lia.
  - intros i' a' es' Q. destruct (rep_bin c s own ch blocks WF RP h i' a' es' Hh Q). lia.
  - apply (rep_len c s own ch blocks WF RP h Hh).
Qed.

(** zread returns the record stored under the name. *)
Lemma rep_read c s own ch blocks path ct : wf_cfg c -> Rep c s own ch blocks -> zlen path <= 392 -> Live c ch path ct ->
  exists s', zreadInternal c path s = OK (Some ct) s' /\ same_file s s'.
Proof.
  intros WF RP HL HV. apply (GI_read c (h_fileSize (s_hdr s)) (Live c ch) (fun _ => False) (s_disk s, s_dhdr s)); auto.
  - apply (rep_good c s own ch blocks WF RP).
  - cbn. symmetry. apply (rp_hdr _ _ _ _ _ RP).
Qed.
Lemma rep_read_none c s own ch blocks path : wf_cfg c -> Rep c s own ch blocks -> zlen path <= 392 -> ztsPathCompatible path = None ->
  (forall ct, ~ Live c ch path ct) -> exists s', zreadInternal c path s = OK None s' /\ same_file s s'.
Proof.
  intros WF RP HL HT HV. destruct (zhash_ok c path WF) as (h & hash & HP & Hh & _).
  destruct (rep_readInfo_none c s own ch blocks path h hash WF RP HL HP Hh HT) as (s' & E & SF & _).
  { intros i k e HE HK V. apply (HV (e_ct e)). exists h, i, k, e. auto. }
  exists s'. split; [|exact SF]. unfold zreadInternal. change ST_VALID with 0. rewrite bindM_OK with (a := false) (s' := s'); [reflexivity|exact E].
Qed.

(** ** zwrite *)
Definition words_of (path : list Z) : Z := numberLongsInBytes (zlen path).
(** Every deleted entry uses at most [W] words for its name. *)
Definition dead_max (c : cfg) (ch : chains) (W : Z) : Prop :=
  forall h i k e, 0 <= h < c_maxHash c -> entry_at ch (h, i, k) = Some e -> e_status e = 11 -> zlen (e_words e) <= W.

Lemma roomc_in len l a : roomc len l = a -> a <> 0 -> exists i es, nth_error l i = Some (a, es) /\ existsb (roomb len) es = true.
Proof.
  induction l as [|[b es] t IH]; cbn [roomc]; intros H N; [congruence|]. destruct (existsb (roomb len) es) eqn:E.
  - exists 0%nat, es. subst b. auto.
  - destruct (IH H N) as (i & es' & H1 & H2). exists (S i), es'. auto.
Qed.
Lemma dead_max_safe c d own ch h path W : wf_cfg c -> Dsk c d own ch (fun _ => 0) None -> 0 <= h < c_maxHash c ->
  dead_max c ch W -> W <= words_of path -> safe_slot c (ch h) (zlen path).
Proof.
  intros WF DK Hh HM HW i es Hi HR. pose proof WF as (_ & _ & W3 & _).
  destruct (roomc_in (zlen path) (ch h) _ eq_refl HR) as (i' & es' & Hi' & EX).
  assert (es' = es).
  { destruct (dk_bin _ _ _ _ _ _ DK h i _ es Hh Hi) as (_ & O1 & _). destruct (dk_bin _ _ _ _ _ _ DK h i' _ es' Hh Hi') as (_ & O2 & _).
    specialize (O1 (roomc (zlen path) (ch h)) ltac:(lia)). specialize (O2 (roomc (zlen path) (ch h)) ltac:(lia)). rewrite O1 in O2. inversion O2; subst i'. congruence. }
  subst es'. left. apply existsb_exists in EX. destruct EX as (e & He & Q). unfold roomb in Q. apply andb_prop in Q. destruct Q as [Q1 Q2]. bz.
  exists e. split; [exact He|]. split; [left; exact Q1|]. apply In_nth_error in He. destruct He as [k Hk].
  pose proof (HM h i' k e Hh ltac:(unfold entry_at; rewrite Hi'; exact Hk) Q1). unfold words_of in HW. lia.
Qed.

(** At most [n] deleted entries. *)
Definition dead_le (c : cfg) (ch : chains) (n : Z) : Prop :=
  exists l : list pos, NoDup l /\ (forall h i k e, 0 <= h < c_maxHash c -> entry_at ch (h, i, k) = Some e -> e_status e = 11 -> In (h, i, k) l) /\ Z.of_nat (length l) <= n.
Lemma dead_le_sub c ch ch' n : (forall h i k e, 0 <= h < c_maxHash c -> entry_at ch' (h, i, k) = Some e -> e_status e = 11 ->
    exists e0, entry_at ch (h, i, k) = Some e0 /\ e_status e0 = 11) -> dead_le c ch n -> dead_le c ch' n.
Proof.
  intros H (l & L1 & L2 & L3). exists l. split; [exact L1|]. split; [|exact L3]. intros h i k e Hh HE HS.
  destruct (H h i k e Hh HE HS) as (e0 & E1 & E2). eauto.
Qed.
Lemma dead_le_add c ch ch' n p : (forall h i k e, 0 <= h < c_maxHash c -> (h, i, k) <> p -> entry_at ch' (h, i, k) = Some e -> e_status e = 11 ->
    exists e0, entry_at ch (h, i, k) = Some e0 /\ e_status e0 = 11) -> dead_le c ch n -> dead_le c ch' (n + 1).
Proof.
  intros H (l & L1 & L2 & L3). destruct (in_dec pos_eq_dec p l) as [HI|HI].
  - exists l. split; [exact L1|]. split; [|lia]. intros h i k e Hh HE HS.
    destruct (pos_eq_dec (h, i, k) p) as [->|N]; [exact HI|]. destruct (H h i k e Hh N HE HS) as (e0 & E1 & E2). eauto.
  - exists (p :: l). split; [constructor; assumption|]. split; [|cbn [length]; lia]. intros h i k e Hh HE HS.
    destruct (pos_eq_dec (h, i, k) p) as [<-|N]; [left; reflexivity|]. destruct (H h i k e Hh N HE HS) as (e0 & E1 & E2). right. eauto.
Qed.
Lemma dead_le_remove c ch ch' n h0 i0 k0 e0 : 0 <= h0 < c_maxHash c -> entry_at ch (h0, i0, k0) = Some e0 -> e_status e0 = 11 ->
  (forall h i k e, 0 <= h < c_maxHash c -> entry_at ch' (h, i, k) = Some e -> e_status e = 11 ->
    (h, i, k) <> (h0, i0, k0) /\ exists e0, entry_at ch (h, i, k) = Some e0 /\ e_status e0 = 11) -> dead_le c ch n -> dead_le c ch' (n - 1).
Proof.
  intros Hh0 HE0 HS0 H (l & L1 & L2 & L3). exists (remove pos_eq_dec (h0, i0, k0) l).
  split. { clear - L1. induction l as [|x t IH]; [constructor|]. inversion_clear L1. cbn [remove].
    destruct (pos_eq_dec (h0, i0, k0) x); [auto|]. constructor; [|auto]. intros Q. apply in_remove in Q. tauto. }
  split.
  - intros h i k e Hh HE HS. destruct (H h i k e Hh HE HS) as (N & e1 & E1 & E2). apply in_in_remove; [exact N|]. eauto.
  - pose proof (remove_length_lt pos_eq_dec l (h0, i0, k0) (L2 _ _ _ _ Hh0 HE0 HS0)). lia.
Qed.
Lemma dead_le_nonneg c ch n : dead_le c ch n -> 0 <= n.
Proof. intros (l & _ & _ & L). lia. Qed.

(** What an operation leaves behind: a well-formed file with the records [V] and nothing new among the deleted ones. *)
(** One record, [q], got the time [now] in the directory; nothing else in the directory changed. *)
Definition Stamped (c : cfg) (ch ch' : chains) (q : list Z) (now : Z) : Prop :=
  exists h i k e, 0 <= h < c_maxHash c /\ entry_at ch' (h, i, k) = Some e /\ live e /\ key (e_path e) = q /\ e_lw e = now /\
    (forall p, p <> (h, i, k) -> entry_at ch' p = entry_at ch p).
Definition After (c : cfg) (ch : chains) (q : list Z) (now : Z) (V : list Z -> content -> Prop) (s' : st) : Prop :=
  exists own' ch' blocks', Rep c s' own' ch' blocks' /\ (forall p ct, Live c ch' p ct <-> V p ct) /\
    (forall p ct, Dead c ch' p ct -> Dead c ch p ct) /\ (forall W, dead_max c ch W -> dead_max c ch' W) /\
    (forall n, dead_le c ch n -> dead_le c ch' n) /\ Stamped c ch ch' q now.

(** After a successful write, the handle holds the address and the info block of the record written. *)
Definition Aimed (c : cfg) (ch : chains) (q : list Z) (s : st) : Prop :=
  exists h i k e, 0 <= h < c_maxHash c /\ entry_at ch (h, i, k) = Some e /\ live e /\ key (e_path e) = q /\
    i_addInfo (s_ifl s) = e_info e /\ (forall j, 0 <= j < numInfo (e_len e) -> s_disk s (e_info e + j) = i_info (s_ifl s) j).
Definition AfterW (c : cfg) (ch : chains) (q : list Z) (now : Z) (V : list Z -> content -> Prop) (s' : st) : Prop :=
  exists own' ch' blocks', Rep c s' own' ch' blocks' /\ (forall p ct, Live c ch' p ct <-> V p ct) /\
    (forall p ct, Dead c ch' p ct -> Dead c ch p ct) /\ (forall W, dead_max c ch W -> dead_max c ch' W) /\
    (forall n, dead_le c ch n -> dead_le c ch' n) /\ Aimed c ch' q s' /\ Stamped c ch ch' q now.

Lemma dead_max_rewritten c ch ch' h i k e e' W : Rewritten ch ch' h i k e' -> entry_at ch (h, i, k) = Some e ->
  e_status e' = e_status e -> live e -> dead_max c ch W -> dead_max c ch' W.
Proof.
  intros (W1 & W2 & W3) HE ES HV HM h1 i1 k1 e1 H1 E1 S1. apply (HM h1 i1 k1 e1 H1); [|exact S1]. rewrite W2 in E1; [exact E1|].
  intros Q. rewrite Q, W1 in E1. assert (e1 = e') by congruence. subst e1. unfold live in HV. lia.
Qed.
Lemma dead_max_placed c ch ch' h i k e W : Placed c ch ch' h i k e -> live e -> dead_max c ch W -> dead_max c ch' W.
Proof.
  intros (P1 & P2 & P3 & P4 & P5) HV HM h1 i1 k1 e1 H1 E1 S1. apply (HM h1 i1 k1 e1 H1); [|exact S1]. rewrite P2 in E1; [exact E1|].
  intros Q. rewrite Q, P1 in E1. assert (e1 = e) by congruence. subst e1. unfold live in HV. lia.
Qed.

Lemma dead_le_rewritten c ch ch' h i k e e' n : Rewritten ch ch' h i k e' -> entry_at ch (h, i, k) = Some e ->
  e_status e' = e_status e -> dead_le c ch n -> dead_le c ch' n.
Proof.
  intros (W1 & W2 & W3) HE ES. apply dead_le_sub. intros h1 i1 k1 e1 H1 E1 S1. destruct (pos_eq_dec (h1, i1, k1) (h, i, k)) as [Q|Q].
  - rewrite Q in *. exists e. split; [exact HE|]. congruence.
  - rewrite W2 in E1 by exact Q. eauto.
Qed.
Lemma dead_le_placed c ch ch' h i k e n : Placed c ch ch' h i k e -> live e -> dead_le c ch n -> dead_le c ch' n.
Proof.
  intros (P1 & P2 & P3 & P4 & P5) HV. apply dead_le_sub. intros h1 i1 k1 e1 H1 E1 S1. destruct (pos_eq_dec (h1, i1, k1) (h, i, k)) as [Q|Q].
  - rewrite Q, P1 in E1. assert (e1 = e) by congruence. subst e1. unfold live in HV. lia.
  - rewrite P2 in E1 by exact Q. eauto.
Qed.

Lemma run_zwriteInternal c now prog x s own ch blocks : wf_cfg c -> Rep c s own ch blocks -> request_ok x -> (forall ct, Live c ch (x_path x) ct -> odd_headers x <= odd_content ct) ->
  ztsPathCompatible (x_path x) = None ->
  (forall h hash, zhash (c_detune c) (c_maxHash c) (x_path x) = Ok (h, hash) -> safe_slot c (ch h) (zlen (x_path x))) ->
  run (GI c (h_fileSize (s_hdr s)) (Live c ch) (fun q => q = key (x_path x))) (zwriteInternal c now prog x) s
    (fun _ s' => (forall ct, Live c ch (x_path x) ct -> type_compatible (ct_type ct) (x_type x) = true) /\
       AfterW c ch (key (x_path x)) now (fun p ct => (key p = key (x_path x) /\ ct = content_of x) \/ (key p <> key (x_path x) /\ Live c ch p ct)) s')
    (fun s' => (exists ct, Live c ch (x_path x) ct /\ type_compatible (ct_type ct) (x_type x) = false) /\ After c ch (key (x_path x)) now (Live c ch) s').
Proof.
  intros WF RP RQ EV HT SS. pose proof RQ as (Q1 & Q2 & Q3 & Q4). pose proof WF as (W1 & W2 & W3 & W4 & W5).
  destruct (zhash_ok c (x_path x) WF) as (h & hash & HP & Hh & HN0).
  set (K := fun q => q = key (x_path x)). set (fs0 := h_fileSize (s_hdr s)). set (L0 := Live c ch).
  assert (G0 : GI c fs0 L0 K (s_disk s, s_dhdr s)) by (apply (rep_good c s own ch blocks WF RP K)).
  assert (HD0 : data_ints x <= start_alloc x) by (unfold start_alloc; destruct (x_alloc x <? data_ints x) eqn:E; bz; lia).
  unfold zwriteInternal. step. destruct (rep_lookup c s own ch blocks (x_path x) h hash WF RP HP Hh) as [[ct LV]|NLV].
  - destruct (rep_live_at c s own ch blocks (x_path x) ct WF RP LV) as (h' & hash' & i & k & a & es & e & HP' & _ & Hi & Hk & HV & HK & HC).
    rewrite HP in HP'. assert (h' = h) by congruence. assert (hash' = hash) by congruence. subst h' hash'.
    assert (HE : entry_at ch (h, i, k) = Some e) by (unfold entry_at; rewrite Hi; exact Hk).
    assert (EVe : odd_headers x <= odd_content (e_ct e)) by (rewrite HC; apply EV, LV).
    destruct (rep_readInfo c s own ch blocks (x_path x) h hash i k a es e WF RP Q1 HP Hh Hi Hk HK HV) as (s1 & i0 & E1 & SF & SN & IN).
    eapply run_known; [exact G0|exact E1|exact SF|]. cbv beta iota. step.
    eapply run_conseq; [eapply (run_zwriteExisting c s own ch blocks x h hash i k a es e WF RP RQ EVe HP Hh Hi Hk HV HK now prog (start_alloc x) s1); eauto| |].
    + cbv beta. intros b s2 G2 (TC & own' & ch' & e' & RD & RW & EP & ES & ELW).
      change (run (GI c fs0 L0 K) (tail x b) s2
        (fun _ s' => (forall ct, Live c ch (x_path x) ct -> type_compatible (ct_type ct) (x_type x) = true) /\
       AfterW c ch (key (x_path x)) now (fun p ct => (key p = key (x_path x) /\ ct = content_of x) \/ (key p <> key (x_path x) /\ Live c ch p ct)) s')
        (fun s' => (exists ct, Live c ch (x_path x) ct /\ type_compatible (ct_type ct) (x_type x) = false) /\ After c ch (key (x_path x)) now (Live c ch) s')).
      pose proof RD as RD0. destruct RD0 as (base & cap & f & alloc & _ & _ & _ & _ & _ & _ & _ & _ & _ & _ & _ & ECT & EE & AI).
      eapply run_conseq; [eapply (run_tail_ready c fs0 L0 K x b own' ch' h i k blocks e' s2 _ WF Hh RQ RD)| |intros s' _ Q; exact Q].
      cbv beta. intros _ s3 G3 (DK3 & AL3 & DH3 & HD3 & IF3 & FI3). split.
      { intros ct' LV'. rewrite (live_fun c s own ch blocks WF RP _ _ _ LV' LV), <- HC. exact TC. }
      exists own', ch', blocks. split; [eapply (Rep_rewritten c s s3 own own' ch ch' blocks blocks h i k e e'); eauto|]. split; [|split].
      * intros p ct'. rewrite (Live_rewritten c s own ch blocks ch' h i k e e' p ct') by assumption. rewrite HK, ECT. reflexivity.
      * intros p ct'. apply (Dead_rewritten c ch ch' h i k e e' p ct'); assumption.
      * split; [intros W; eapply dead_max_rewritten; eauto|]. split; [intros n; eapply dead_le_rewritten; eauto|].
        split.
        { exists h, i, k, e'. split; [exact Hh|]. split; [exact EE|]. split; [unfold live in *; rewrite ES; exact HV|]. split; [congruence|].
          rewrite IF3. split; [exact AI|exact FI3]. }
        exists h, i, k, e'. split; [exact Hh|]. split; [exact EE|]. split; [unfold live in *; rewrite ES; exact HV|]. split; [congruence|]. split; [exact ELW|apply RW].
    + cbv beta. intros s2 G2 (TC & ch' & e' & RW & EP & ES & ECT & ELW & DK2 & AL2 & HD2 & DH2). split.
      { exists ct. split; [exact LV|rewrite <- HC; exact TC]. }
      exists own, ch', blocks. split; [eapply (Rep_rewritten c s s2 own own ch ch' blocks blocks h i k e e'); eauto|].
      { rewrite HD2, DH2. apply (rp_hdr _ _ _ _ _ RP). }
      split; [|split].
      * intros p ct'. rewrite (Live_rewritten c s own ch blocks ch' h i k e e' p ct') by assumption. rewrite HK, ECT, HC. split.
        { intros [[T1 T2]|[T1 T2]]; [|exact T2]. subst ct'. destruct LV as (h1 & i1 & k1 & e1 & L1 & L2 & L3 & L4 & L5). exists h1, i1, k1, e1. rewrite T1. auto. }
        { intros LV'. destruct (list_eq_dec Z.eq_dec (key p) (key (x_path x))) as [Q|Q]; [left|right; auto]. split; [exact Q|].
          eapply (live_fun c s own ch blocks WF RP p); [exact LV'|]. destruct LV as (h1 & i1 & k1 & e1 & L1 & L2 & L3 & L4 & L5). exists h1, i1, k1, e1. rewrite Q. auto. }
      * intros p ct'. apply (Dead_rewritten c ch ch' h i k e e' p ct'); assumption.
      * split; [intros W; eapply dead_max_rewritten; eauto|]. split; [intros n; eapply dead_le_rewritten; eauto|].
        exists h, i, k, e'. split; [exact Hh|]. split; [apply RW|]. split; [unfold live in *; rewrite ES; exact HV|]. split; [congruence|]. split; [exact ELW|apply RW].
  - destruct (rep_readInfo_none c s own ch blocks (x_path x) h hash WF RP Q1 HP Hh HT NLV) as (s1 & E1 & SF & J1 & J2 & J3 & J4 & J5 & J6 & J7 & J8).
    eapply run_known; [exact G0|exact E1|exact SF|]. cbv beta iota. step. step.
    eapply run_conseq; [eapply (run_zwriteNew c s own ch blocks x h hash WF RP RQ HP Hh now prog (start_alloc x) s1); eauto| |intros s' _ Q; exact Q].
    cbv beta. intros _ s2 G2 (own' & ch' & blocks' & i & k & e & RD & PL & EP & HV & ELW). apply run_ret; [exact G2|].
    change (run (GI c fs0 L0 K) (tail x true) s2
        (fun _ s' => (forall ct, Live c ch (x_path x) ct -> type_compatible (ct_type ct) (x_type x) = true) /\
       AfterW c ch (key (x_path x)) now (fun p ct => (key p = key (x_path x) /\ ct = content_of x) \/ (key p <> key (x_path x) /\ Live c ch p ct)) s')
        (fun s' => (exists ct, Live c ch (x_path x) ct /\ type_compatible (ct_type ct) (x_type x) = false) /\ After c ch (key (x_path x)) now (Live c ch) s')).
    pose proof RD as RD0. destruct RD0 as (base & cap & f & alloc & FL & _ & _ & _ & _ & _ & _ & _ & _ & _ & _ & ECT & EE & AI).
    assert (HZ : zhash (c_detune c) (c_maxHash c) (e_path e) = Ok (h, e_hash e)).
    { pose proof (Dsk_eok _ _ _ _ _ _ _ _ _ _ (cx_dsk _ _ _ _ _ _ _ _ _ (fl_ctx _ _ _ _ _ _ _ _ _ _ _ _ _ _ _ _ FL)) Hh EE) as (_ & Q & _). exact Q. }
    eapply run_conseq; [eapply (run_tail_ready c fs0 L0 K x true own' ch' h i k blocks' e s2 _ WF Hh RQ RD)| |intros s' _ Q; exact Q].
    cbv beta. intros _ s3 G3 (DK3 & AL3 & DH3 & HD3 & IF3 & FI3). split.
    { intros ct (h1 & i1 & k1 & e1 & L1 & L2 & L3 & L4 & L5). exfalso.
      pose proof (entry_chain c s own ch blocks RP (x_path x) h hash h1 i1 k1 e1 HP L1 L2 L4). subst h1. exact (NLV _ _ _ L2 L4 L3). }
    assert (NLE : forall i' k' e', entry_at ch (h, i', k') = Some e' -> key (e_path e') = key (e_path e) -> ~ live e') by (rewrite EP; exact NLV).
    exists own', ch', blocks'. split; [eapply (Rep_placed c s s3 own own' ch ch' blocks blocks' h i k e); eauto|]. split; [|split].
    + intros p ct'. rewrite (Live_placed c ch ch' h i k e own (s_disk s) p ct' Hh (rp_dsk _ _ _ _ _ RP) HZ PL HV NLE). rewrite EP, ECT. reflexivity.
    + intros p ct'. apply (Dead_placed c ch ch' h i k e p ct' PL HV).
    + split; [intros W; eapply dead_max_placed; eauto|]. split; [intros n; eapply dead_le_placed; eauto|].
      split.
      { exists h, i, k, e. split; [exact Hh|]. split; [exact EE|]. split; [exact HV|]. split; [congruence|]. rewrite IF3. split; [exact AI|exact FI3]. }
      exists h, i, k, e. split; [exact Hh|]. split; [exact EE|]. split; [exact HV|]. split; [congruence|]. split; [exact ELW|apply PL].
Qed.
