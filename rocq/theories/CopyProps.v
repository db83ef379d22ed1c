(** * Property C57: copying records. *)
From Coq Require Import ZArith List Lia Bool Arith.
From Verif Require Import Base PackModel PackProps HashModel PathModel FileModel FileLemmas FileScan FileInv FileDir FileLook FileRead FileAlloc FileBin FileSlot FileUpd FileStep FileWrite FileExist FileOps FileDel FileRen FileCount FileCat FileSpec FileHist FileHistSpec FileProps SqueezeModel SqueezeSpec SqueezeProofs SqueezeProps CopyModel CopyProofs CopySpec.
Import ListNotations.
Open Scope Z_scope.

(** ** Every file reached is a map *)
Definition named (f : file) : Prop :=
  (forall q ct, records f q = Some ct -> exists p, name_ok p /\ q = canon p) /\ (forall q ct, trash f q ct -> exists p, name_ok p /\ q = canon p).
Record sound (c : cfg) (W : Z) (s : st) (f : file) : Prop := {
  so_usable : usable c; so_inv : Inv c W s f; so_normal : all_normal f; so_named : named f }.

Lemma step_named c W s f o r f' : Inv c W s f -> usable c -> step f o r f' -> allowed c W s o -> named f -> named f'.
Proof.
  intros IV U ST HA [N1 N2].
  assert (NM : forall q, In q (names_of o) -> exists p, name_ok p /\ q = canon p).
  { destruct o as [now prog x|p|p|p|old new| |]; cbn [names_of allowed] in *; cbn [In]; intros q Hq.
    - destruct Hq as [<-|[]]. destruct HA as [[HA _] _]. eauto.
    - contradiction.
    - destruct Hq as [<-|[]]. destruct HA. eauto.
    - destruct Hq as [<-|[]]. destruct HA. eauto.
    - destruct HA as (H1 & H2 & _). destruct Hq as [<-|[<-|[]]]; eauto.
    - contradiction.
    - contradiction. }
  assert (X : forall g q v, (forall q ct, g q = Some ct -> exists p, name_ok p /\ q = canon p) -> (exists p, name_ok p /\ q = canon p) ->
    forall q' ct, set g q v q' = Some ct -> exists p, name_ok p /\ q' = canon p).
  { intros g q v H1 H2 q' ct. unfold set. destruct (list_eq_dec Z.eq_dec q' q) as [->|]; eauto. }
  inversion ST; subst; cbn [names_of In] in NM; split; cbn [records trash]; auto.
  - apply X; auto.
  - apply X; auto.
  - intros q ct' [Q|[-> ->]]; eauto.
  - apply X; auto.
  - apply X; [apply X; auto|auto].
  - intros q ct' [Q|[-> Q]]; eauto.
  - apply X; auto.
  - intros q ct' [Q|[-> Q]]; eauto.
Qed.
Lemma sound_set c W s f t to ct : sound c W s f -> name_ok to -> normal ct ->
  Inv c W t (mkfile (set (records f) (canon to) (Some ct)) (trash f)) -> sound c W t (mkfile (set (records f) (canon to) (Some ct)) (trash f)).
Proof.
  intros [U IV [A1 A2] [N1 N2]] NO NM IV'. split; [exact U|exact IV'| |]; split; cbn [records trash]; auto; intros q v; unfold set;
    destruct (list_eq_dec Z.eq_dec q (canon to)) as [->|]; eauto. congruence.
Qed.

(** Reading, in terms of the map. *)
Lemma sound_reads c W s f p v : sound c W s f -> name_ok p -> (reads c s p v <-> v = records f (canon p)).
Proof. intros [U IV _ _]. apply (inv_reads_iff c W U s f p v IV). Qed.

(** ** Looking up the source *)
Lemma rep_zcheck c s own ch blocks path h hash i k a es e : wf_cfg c -> Rep c s own ch blocks -> zlen path <= 392 ->
  zhash (c_detune c) (c_maxHash c) path = Ok (h, hash) -> 0 <= h < c_maxHash c ->
  nth_error (ch h) i = Some (a, es) -> nth_error es k = Some e -> key (e_path e) = key path -> live e ->
  exists s', zcheck c path s = OK true s' /\ same_file s s' /\ i_typeCat (s_ifl s') = e_tc e.
Proof.
  intros WF RP HL HP Hh Hi Hk HK HV. pose proof WF as (W1 & W2 & W3 & W4 & W5).
  assert (HE : entry_at ch (h, i, k) = Some e) by (unfold entry_at; rewrite Hi; exact Hk).
  destruct (zcheck_found c (s_disk s) own ch (fun _ => 0) None h hash path 0 i k a es e s) as (s1 & E1 & SF & LK & _ & _ & FA); auto.
  - apply (rp_dsk _ _ _ _ _ RP).
  - intros i' k' e' HLT HE' EK' HV'.
    destruct (rp_uniq _ _ _ _ _ RP h i k e i' k' e' Hh HE HE' HV HV') as [-> ->]; [congruence|]. unfold pos_lt in HLT. lia.
  - pose proof (rep_hash c s own ch blocks RP). lia.
  - intros i' a' es' _ Q. destruct (rep_bin c s own ch blocks WF RP h i' a' es' Hh Q). lia.
  - apply nth_error_lt in Hi. pose proof (rep_len c s own ch blocks WF RP h Hh). lia.
  - exists s1. split; [|split; [exact SF|]]. { unfold zcheck. unfold bindM. change ST_VALID with 0. rewrite E1. reflexivity. }
    apply FA.
Qed.
Lemma rep_zcheck_none c s own ch blocks path h hash : wf_cfg c -> Rep c s own ch blocks -> zlen path <= 392 ->
  zhash (c_detune c) (c_maxHash c) path = Ok (h, hash) -> 0 <= h < c_maxHash c -> ztsPathCompatible path = None ->
  (forall i k e, entry_at ch (h, i, k) = Some e -> key (e_path e) = key path -> ~ live e) ->
  exists s', zcheck c path s = OK false s' /\ same_file s s'.
Proof.
  intros WF RP HL HP Hh HT HN. pose proof WF as (W1 & W2 & W3 & W4 & W5).
  destruct (zcheck_none c (s_disk s) own ch (fun _ => 0) None h hash path 0 s) as (s1 & E1 & SF & LK & _); auto.
  - apply (rp_dsk _ _ _ _ _ RP).
  - pose proof (rep_hash c s own ch blocks RP). lia.
  - intros i' a' es' Q. destruct (rep_bin c s own ch blocks WF RP h i' a' es' Hh Q). lia.
  - apply (rep_len c s own ch blocks WF RP h Hh).
  - exists s1. split; [|exact SF]. unfold zcheck. unfold bindM. change ST_VALID with 0. rewrite E1, HT. reflexivity.
Qed.

(** What a name leads to in a sound file: the record with its header and directory entry, or nothing. *)
Lemma found_or_not c W s f p : sound c W s f -> name_ok p ->
  (records f (canon p) = None /\ (exists s', zreadInfo c p 0 s = OK false s' /\ same_file s s') /\ exists s', zcheck c p s = OK false s' /\ same_file s s') \/
  exists ct own ch blocks h i k e, records f (canon p) = Some ct /\ e_ct e = ct /\ Rep c s own ch blocks /\ 0 <= h < c_maxHash c /\
    entry_at ch (h, i, k) = Some e /\ live e /\
    (exists s', zreadInfo c p 0 s = OK true s' /\ same_file s s' /\ forall j, 0 <= j < numInfo (e_len e) -> i_info (s_ifl s') j = s_disk s (e_info e + j)) /\
    (exists s', zcheck c p s = OK true s' /\ same_file s s' /\ i_typeCat (s_ifl s') = e_tc e).
Proof.
  intros [U IV _ _] NO. pose proof (proj1 (usable_wf c U)) as WF. apply name_ok_parts in NO. destruct NO as (N1 & N2 & N3).
  pose proof IV as [(own & ch & blocks & RP & LV & _) _ _]. destruct (zhash_ok c p WF) as (h & hash & HP & Hh & _).
  destruct (rep_lookup c s own ch blocks p h hash WF RP HP Hh) as [[ct L]|NLV].
  - right. destruct (rep_live_at c s own ch blocks p ct WF RP L) as (h' & hash' & i & k & b & es & e & HP' & _ & Hi & Hk & HV & HK & HC).
    rewrite HP in HP'. assert (h' = h) by congruence. assert (hash' = hash) by congruence. subst h' hash'.
    destruct (rep_readInfo c s own ch blocks p h hash i k b es e WF RP N1 HP Hh Hi Hk HK HV) as (s1 & i0 & E1 & SF & SN & IN).
    destruct (rep_zcheck c s own ch blocks p h hash i k b es e WF RP N1 HP Hh Hi Hk HK HV) as (s2 & E2 & SF2 & TC).
    assert (HE : entry_at ch (h, i, k) = Some e) by (unfold entry_at; rewrite Hi; exact Hk).
    assert (EL : e_len e = zlen p).
    { assert (Q : zlen (key (e_path e)) = zlen (key p)) by congruence. unfold key, zlen in Q. rewrite !map_length in Q.
      rewrite (e_path_length e (src_shape c s own ch blocks RP h i k e Hh HE)) in Q. pose proof (src_shape c s own ch blocks RP h i k e Hh HE) as (_ & B & _). unfold zlen. lia. }
    exists ct, own, ch, blocks, h, i, k, e. split; [apply LV, L|]. split; [exact HC|]. split; [exact RP|]. split; [exact Hh|]. split; [exact HE|]. split; [exact HV|].
    split; [exists s1; rewrite EL; auto|exists s2; auto].
  - left. split.
    + destruct (records f (canon p)) as [ct|] eqn:Q; [|reflexivity]. exfalso. change (canon p) with (key p) in Q. apply LV in Q.
      destruct Q as (h1 & i1 & k1 & e1 & L1 & L2 & L3 & L4 & L5).
      pose proof (entry_chain c s own ch blocks RP p h hash h1 i1 k1 e1 HP L1 L2 L4). subst h1. exact (NLV _ _ _ L2 L4 L3).
    + destruct (rep_readInfo_none c s own ch blocks p h hash WF RP N1 HP Hh N3 NLV) as (s1 & E1 & SF & _).
      destruct (rep_zcheck_none c s own ch blocks p h hash WF RP N1 HP Hh N3 NLV) as (s2 & E2 & SF2). eauto 8.
Qed.
Lemma sound_same c W s s' f : same_file s s' -> sound c W s f -> sound c W s' f.
Proof. intros SF [U IV A N]. split; auto. eapply same_file_inv; eauto. Qed.
Lemma same_rep c s s' own ch blocks : same_file s s' -> Rep c s own ch blocks -> Rep c s' own ch blocks.
Proof. intros (E1 & E2 & E3 & E4) []. split; rewrite ?E1, ?E2, ?E4; auto. Qed.

(** ** The copy of one record *)
Lemma copy_step c s own ch blocks h i k e f W0 g0 c' W t g ev dup to : sound c W0 s g0 -> Rep c s own ch blocks -> 0 <= h < c_maxHash c ->
  entry_at ch (h, i, k) = Some e -> live e -> normal (e_ct e) -> (forall j, 0 <= j < numInfo (e_len e) -> f j = s_disk s (e_info e + j)) ->
  sound c' W t g -> takes c' W t to (e_ct e) ->
  (agrees c' t to (e_ct e) /\ exists t', copy_internal c' ev dup f s to t = OK tt t' /\
     sound c' W t' (mkfile (set (records g) (canon to) (Some (e_ct e))) (trash g)))
  \/ (~ agrees c' t to (e_ct e) /\ exists t', copy_internal c' ev dup f s to t = ERR t' /\ sound c' W t' g).
Proof.
  intros SO RP Hh HE HV NM AG SO' (T1 & T2 & T3 & T4 & T5). pose proof SO as [U _ _ _]. pose proof SO' as [U' IV' AN' NN'].
  destruct (copy_into c s own ch blocks h i k e f c' W t g ev dup to (proj1 (usable_wf c U)) RP Hh HE HV AG (proj1 (usable_wf c' U')) IV' T1 T2 T3 T4 NM)
    as [(TC & t' & E & IVt)|((old & R1 & R2) & t' & E & IVt)].
  - intros old Q. apply T5. apply (sound_reads c' W t g); auto.
  - left. split; [intros old Q; apply TC; symmetry; apply (sound_reads c' W t g) in Q; auto|]. exists t'. split; [exact E|]. apply (sound_set c' W t g); auto.
  - right. split; [intros Q; apply R2, Q; apply (sound_reads c' W t g); auto|]. exists t'. split; [exact E|]. split; auto.
Qed.
Lemma sound_normal c W s f q ct : sound c W s f -> records f q = Some ct -> normal ct.
Proof. intros [_ _ [A _] _]. apply A. Qed.

(** zreadInfo, then the copy: into the same file or another. *)
Lemma copy_found_step c s W0 f0 c' W t g ev from to : sound c W0 s f0 -> sound c' W t g -> name_ok from ->
  (forall ct, records f0 (canon from) = Some ct -> takes c' W t to ct) ->
  match records f0 (canon from) with
  | None => copy_found c s c' ev from to t = Answer (Found false) t
  | Some ct => (agrees c' t to ct /\ exists t', copy_found c s c' ev from to t = Answer Done t' /\ sound c' W t' (mkfile (set (records g) (canon to) (Some ct)) (trash g)))
      \/ (~ agrees c' t to ct /\ exists t', copy_found c s c' ev from to t = Answer Refused t' /\ sound c' W t' g)
  end.
Proof.
  intros SO SO' NO HT. destruct (found_or_not c W0 s f0 from SO NO) as [(R & (s1 & E1 & _) & _)|(ct & own & ch & blocks & h & i & k & e & R & EC & RP & Hh & HE & HV & (s1 & E1 & SF & IN) & _)]; rewrite R.
  - unfold copy_found. rewrite E1. reflexivity.
  - subst ct. unfold copy_found. rewrite E1. pose proof SF as (D1 & _).
    destruct (copy_step c s1 own ch blocks h i k e (i_info (s_ifl s1)) W0 f0 c' W t g ev false to) as [(A & t' & E & S)|(A & t' & E & S)]; auto.
    + eapply sound_same; eauto.
    + eapply same_rep; eauto.
    + exact (sound_normal _ _ _ _ _ _ SO R).
    + intros j Hj. rewrite IN by exact Hj. rewrite D1. reflexivity.
    + left. split; [exact A|]. exists t'. rewrite E. auto.
    + right. split; [exact A|]. exists t'. rewrite E. auto.
Qed.
Lemma duplicate_step c s W f ev from to : sound c W s f -> name_ok from ->
  (forall ct, records f (canon from) = Some ct -> takes c W s to ct) -> pathnameIsElevTsOrPd from && pathnameIsElevTsOrPd to = false ->
  match records f (canon from) with
  | None => exists t, zduplicateRecord c ev from to s = Answer (Found false) t /\ sound c W t f
  | Some ct => (agrees c s to ct /\ exists t', zduplicateRecord c ev from to s = Answer Done t' /\ sound c W t' (mkfile (set (records f) (canon to) (Some ct)) (trash f)))
      \/ (~ agrees c s to ct /\ exists t', zduplicateRecord c ev from to s = Answer Refused t' /\ sound c W t' f)
  end.
Proof.
  intros SO NO HT EL. unfold zduplicateRecord. rewrite EL.
  destruct (found_or_not c W s f from SO NO) as [(R & (s1 & E1 & SF) & _)|(ct & own & ch & blocks & h & i & k & e & R & EC & RP & Hh & HE & HV & (s1 & E1 & SF & IN) & _)]; rewrite R, E1.
  - exists s1. split; [reflexivity|]. eapply sound_same; eauto.
  - subst ct. pose proof SF as (D1 & _). pose proof (sound_same c W s s1 f SF SO) as SO1.
    assert (RD : forall p v, name_ok p -> (reads c s1 p v <-> reads c s p v)).
    { intros p v NP. rewrite (sound_reads c W s f), (sound_reads c W s1 f) by assumption. tauto. }
    assert (TK : takes c W s1 to (e_ct e)).
    { destruct (HT _ R) as (T1 & T2 & T3 & T4 & T5). repeat (split; [assumption|]). intros old Q. apply T5, RD; assumption. }
    assert (TO : name_ok to) by apply TK.
    destruct (copy_step c s1 own ch blocks h i k e (i_info (s_ifl s1)) W f c W s1 f ev true to) as [(A & t' & E & S)|(A & t' & E & S)]; auto.
    + eapply same_rep; eauto.
    + exact (sound_normal _ _ _ _ _ _ SO R).
    + intros j Hj. rewrite IN by exact Hj. rewrite D1. reflexivity.
    + left. split; [intros old Q; apply A, RD; assumption|]. exists t'. rewrite E. auto.
    + right. split; [intros Q; apply A; intros old Q'; apply Q, RD; assumption|]. exists t'. rewrite E. auto.
Qed.

(** ** The copy of a file *)
Lemma copy_record_as c' ev src a : forall t, copy_record c' ev src a t = copy_internal c' ev false (info_at (s_disk src) a) src (info_path (info_at (s_disk src) a)) t.
Proof. intros t. reflexivity. Qed.

Section FILE.
Variables (c : cfg) (W0 : Z) (s : st) (f0 : file) (own : Z -> tag) (ch : chains) (blocks : list Z) (c' : cfg) (W : Z) (ev : env).
Hypothesis SO : sound c W0 s f0.
Hypothesis RP : Rep c s own ch blocks.
Hypothesis LV : forall p ct, Live c ch p ct <-> records f0 (key p) = Some ct.
Notation owned := (owner c ch).

Lemma owned_name a e : owned a e -> name_ok (e_path e) /\ records f0 (canon (e_path e)) = Some (e_ct e).
Proof.
  intros (h & i & k & Hh & HE & HV & EA). pose proof SO as [U _ _ [NN _]]. pose proof (proj1 (usable_wf c U)) as WF.
  assert (L : Live c ch (e_path e) (e_ct e)) by (exists h, i, k, e; auto). apply LV in L. split; [|exact L].
  destruct (NN _ _ L) as (p & (_ & _ & NP) & EP). eapply src_name; eauto. apply (compat_same p); [symmetry; exact EP|exact NP].
Qed.
Lemma one_owner a e a' e' : owned a e -> owned a' e' -> key (e_path e) = key (e_path e') -> e = e' /\ a = a'.
Proof. apply (owner_key c s own ch blocks RP). Qed.
Lemma same_place a e e' : owned a e -> owned a e' -> e = e'.
Proof.
  intros (h & i & k & Hh & HE & HV & EA) (h1 & i1 & k1 & Hh1 & HE1 & HV1 & EA1).
  pose proof (src_rec c s own ch blocks RP h i k e Hh HE HV) as (_ & O1 & _).
  pose proof (src_rec c s own ch blocks RP h1 i1 k1 e' Hh1 HE1 HV1) as (_ & O2 & _).
  pose proof (src_shape c s own ch blocks RP h i k e Hh HE) as SH. pose proof (src_shape c s own ch blocks RP h1 i1 k1 e' Hh1 HE1) as SH1.
  pose proof (numInfo_bounds _ (proj1 (proj2 SH))). pose proof (numInfo_bounds _ (proj1 (proj2 SH1))).
  specialize (O1 a ltac:(lia)). specialize (O2 a ltac:(lia)). rewrite O1 in O2. inversion O2; subst h1 i1 k1. congruence.
Qed.

Definition fit (g : file) (e : entry) : Prop :=
  proper (e_path e) /\ W <= name_words (e_path e) /\ plain_units (e_ct e) /\
  forall old, records g (canon (e_path e)) = Some old -> odd_record (e_ct e) <= odd_record old.
Definition kind (g : file) (e : entry) : Prop := forall old, records g (canon (e_path e)) = Some old -> same_family (ct_type old) (ct_type (e_ct e)).

Lemma copy_file_list : forall l, NoDup l -> (forall a, In a l -> exists e, owned a e) ->
  forall t g, sound c' W t g -> (forall a e, In a l -> owned a e -> fit g e) ->
  (exists t' g', copy_all c' ev s l t = OK tt t' /\ sound c' W t' g' /\ (forall a e, In a l -> owned a e -> kind g e) /\ trash g' = trash g /\
    (forall a e, In a l -> owned a e -> records g' (canon (e_path e)) = Some (e_ct e)) /\
    forall q, (forall a e, In a l -> owned a e -> q <> canon (e_path e)) -> records g' q = records g q)
  \/ (exists t' g' a e, copy_all c' ev s l t = ERR t' /\ In a l /\ owned a e /\ ~ kind g e /\ sound c' W t' g' /\ trash g' = trash g /\
    forall q, records g' q = records g q \/ exists b eb, In b l /\ owned b eb /\ q = canon (e_path eb) /\ records g' q = Some (e_ct eb)).
Proof.
  induction l as [|a l IH]; intros ND HO t g ST FT.
  - left. exists t, g. split; [reflexivity|]. split; [exact ST|]. split; [intros a e []|]. split; [reflexivity|]. split; [intros a e []|]. reflexivity.
  - inversion_clear ND as [|? ? NI ND']. destruct (HO a (or_introl eq_refl)) as [e OE]. pose proof (owned_name a e OE) as [NO R0].
    assert (OE' := OE). destruct OE' as (h & i & k & Hh & HE & HV & EA). destruct (FT a e (or_introl eq_refl) OE) as (F1 & F2 & F3 & F4).
    assert (KA : forall t0 g0, sound c' W t0 g0 -> (agrees c' t0 (e_path e) (e_ct e) <-> kind g0 e)).
    { intros t0 g0 S0. split; intros Q old R; apply Q.
      - apply (sound_reads c' W t0 g0); [exact S0|exact NO|symmetry; exact R].
      - apply (sound_reads c' W t0 g0 _ _ S0 NO) in R. symmetry. exact R. }
    assert (EP : info_path (info_at (s_disk s) a) = e_path e) by (rewrite <- EA; eapply src_path; eauto).
    assert (TK : takes c' W t (e_path e) (e_ct e)).
    { split; [exact F1|]. split; [exact NO|]. split; [exact F2|]. split; [exact F3|]. intros old R. apply (sound_reads c' W t g _ _ ST NO) in R. apply F4. congruence. }
    cbn [copy_all]. unfold bindM. rewrite copy_record_as, EP.
    destruct (copy_step c s own ch blocks h i k e (info_at (s_disk s) a) W0 f0 c' W t g ev false (e_path e)) as [(A & t1 & E & S1)|(A & t1 & E & S1)]; auto.
    { exact (sound_normal _ _ _ _ _ _ SO R0). }
    { intros j Hj. unfold info_at. rewrite EA. reflexivity. }
    2:{ right. rewrite E. exists t1, g, a, e. split; [reflexivity|]. split; [left; reflexivity|]. split; [exact OE|]. split; [intros Q; apply A, (KA t g ST), Q|].
        split; [exact S1|]. split; [reflexivity|]. auto. }
    rewrite E. set (g1 := mkfile (set (records g) (canon (e_path e)) (Some (e_ct e))) (trash g)) in *.
    assert (OT : forall b eb, In b l -> owned b eb -> canon (e_path eb) <> canon (e_path e)).
    { intros b eb Hb OB Q. destruct (one_owner b eb a e OB OE Q) as [_ ->]. contradiction. }
    assert (SM : forall b eb, In b l -> owned b eb -> records g1 (canon (e_path eb)) = records g (canon (e_path eb))).
    { intros b eb Hb OB. cbn [g1 records]. apply set_other. eauto. }
    destruct (IH ND' (fun b Hb => HO b (or_intror Hb)) t1 g1 S1) as [(t2 & g2 & E2 & S2 & K2 & T2 & R2 & R3)|(t2 & g2 & b & eb & E2 & Hb & OB & K2 & S2 & T2 & R2)].
    { intros b eb Hb OB. destruct (FT b eb (or_intror Hb) OB) as (G1 & G2 & G3 & G4). split; [exact G1|]. split; [exact G2|]. split; [exact G3|].
      rewrite (SM b eb Hb OB). exact G4. }
    + left. exists t2, g2. split; [exact E2|]. split; [exact S2|]. split; [|split; [rewrite T2; reflexivity|split]].
      * intros b eb [<-|Hb] OB; [rewrite (same_place a eb e OB OE); apply (KA t g ST), A|].
        intros old Q. apply (K2 b eb Hb OB). rewrite (SM b eb Hb OB). exact Q.
      * intros b eb [<-|Hb] OB; [|eauto]. rewrite (same_place a eb e OB OE). rewrite R3; [cbn [g1 records]; apply set_same|].
        intros b' eb' Hb' OB' Q. apply (OT b' eb' Hb' OB'). symmetry. exact Q.
      * intros q Hq. rewrite R3; [|intros b eb Hb OB; apply (Hq b eb); [right; exact Hb|exact OB]]. cbn [g1 records]. apply set_other.
        apply (Hq a e); [left; reflexivity|exact OE].
    + right. exists t2, g2, b, eb. split; [exact E2|]. split; [right; exact Hb|]. split; [exact OB|].
      split; [intros Q; apply K2; unfold kind; rewrite (SM b eb Hb OB); exact Q|]. split; [exact S2|]. split; [rewrite T2; reflexivity|].
      intros q. destruct (R2 q) as [Q|(b1 & eb1 & Hb1 & OB1 & Q1 & Q2)].
      * cbn [g1 records] in Q. destruct (list_eq_dec Z.eq_dec q (canon (e_path e))) as [->|N].
        { rewrite set_same in Q. right. exists a, e. split; [left; reflexivity|]. auto. }
        { rewrite set_other in Q by exact N. auto. }
      * right. exists b1, eb1. split; [right; exact Hb1|]. auto.
Qed.
End FILE.

(** The words of the file that look like record headers are those of its records. *)
Lemma headers_owned c W s f own ch blocks : sound c W s f -> Rep c s own ch blocks ->
  no_lookalike c s -> forall a, In a (found_headers s) -> exists e, owner c ch a e.
Proof.
  intros SO RP NL a Ha. pose proof SO as [U _ _ _]. pose proof (proj1 (usable_wf c U)) as WF. destruct (NL a Ha) as (p & NO & s1 & EC & EA).
  apply name_ok_parts in NO. destruct NO as (N1 & N2 & N3).
  destruct (zhash_ok c p WF) as (h & hash & HZ & Hh & _).
  destruct (rep_lookup c s own ch blocks p h hash WF RP HZ Hh) as [[ct L]|NLV].
  - destruct (rep_live_at c s own ch blocks p ct WF RP L) as (h' & hash' & i & k & b & es & e & HZ' & _ & Hi & Hk & HV & HK & HC).
    rewrite HZ in HZ'. assert (h' = h) by congruence. assert (hash' = hash) by congruence. subst h' hash'.
    destruct (rep_check c s own ch blocks p h hash i k b es e WF RP N1 HZ Hh Hi Hk HK HV) as (s2 & EC2 & _ & _ & FA).
    change ST_PRIMARY with 1 in EC. rewrite EC2 in EC. inversion EC; subst s2.
    exists e, h, i, k. split; [exact Hh|]. split; [unfold entry_at; rewrite Hi; exact Hk|]. split; [exact HV|]. rewrite <- EA. symmetry. apply FA.
  - exfalso. destruct (rep_check_none c s own ch blocks p h hash WF RP N1 HZ Hh NLV) as (s2 & EC2 & _).
    change ST_PRIMARY with 1 in EC. rewrite EC2 in EC. discriminate.
Qed.

(** The whole file: every record of the source replaces what the target had under its name. *)
Lemma copy_file_step c W0 s f0 c' W t g ev : sound c W0 s f0 -> sound c' W t g -> no_lookalike c s ->
  (forall p ct, name_ok p -> records f0 (canon p) = Some ct -> takes c' W t p ct) ->
  (exists t' g', zcopyFile c' ev s t = Answer Done t' /\ sound c' W t' g' /\ trash g' = trash g /\
    (forall p ct, name_ok p -> records f0 (canon p) = Some ct -> agrees c' t p ct) /\
    forall p, name_ok p -> records g' (canon p) = match records f0 (canon p) with Some ct => Some ct | None => records g (canon p) end)
  \/ (exists t' g' p ct, zcopyFile c' ev s t = Answer Refused t' /\ name_ok p /\ records f0 (canon p) = Some ct /\ ~ agrees c' t p ct /\
    sound c' W t' g' /\ forall p, name_ok p -> records g' (canon p) = records g (canon p) \/ exists ct, records f0 (canon p) = Some ct /\ records g' (canon p) = Some ct).
Proof.
  intros SO ST NL TK. pose proof SO as [U IV _ _]. pose proof (proj1 (usable_wf c U)) as WF. pose proof IV as [(own & ch & blocks & RP & LV & _) _ _].
  pose proof (headers_owned c W0 s f0 own ch blocks SO RP NL) as OWN.
  assert (FT : forall a e, In a (found_headers s) -> owner c ch a e -> fit W g e).
  { intros a e _ OE. destruct (owned_name c W0 s f0 own ch blocks SO RP LV a e OE) as [NO R0]. destruct (TK _ _ NO R0) as (T1 & T2 & T3 & T4 & T5).
    split; [exact T1|]. split; [exact T3|]. split; [exact T4|]. intros old R. apply T5. apply (sound_reads c' W t g _ _ ST NO). symmetry. exact R. }
  unfold zcopyFile.
  destruct (copy_file_list c W0 s f0 own ch blocks c' W ev SO RP LV (found_headers s) (NoDup_filter _ (zseq_NoDup _ _)) OWN t g ST FT)
    as [(t' & g' & E & S' & K & T & R1 & R2)|(t' & g' & a & e & E & Ha & OE & K & S' & T & R1)]; rewrite E.
  - left. exists t', g'. split; [reflexivity|]. split; [exact S'|]. split; [exact T|].
    assert (X : forall p ct, name_ok p -> records f0 (canon p) = Some ct -> exists a e, In a (found_headers s) /\ owner c ch a e /\ canon (e_path e) = canon p /\ e_ct e = ct).
    { intros p ct NP Q. change (canon p) with (key p) in Q. apply LV in Q. destruct Q as (h & i & k & e & Hh & HE & HV & Q1 & Q2).
      assert (OE : owner c ch (e_info e) e) by (exists h, i, k; auto). exists (e_info e), e. split; [|split; [exact OE|split; [exact Q1|exact Q2]]].
      eapply src_listed; eauto. pose proof (src_shape c s own ch blocks RP h i k e Hh HE) as SH. pose proof (e_path_length e SH) as EL.
      destruct (owned_name c W0 s f0 own ch blocks SO RP LV _ e OE) as [NO R0]. destruct (TK _ _ NO R0) as ((P1 & _) & _). destruct SH as (_ & B & _).
      destruct (e_path e); [cbn in P1; discriminate|cbn [length] in EL; lia]. }
    split.
    + intros p ct NP Q. destruct (X p ct NP Q) as (a & e & Ha & OE & Q1 & Q2). intros old RD. apply (sound_reads c' W t g _ _ ST NP) in RD. subst ct.
      apply (K a e Ha OE). rewrite Q1. symmetry. exact RD.
    + intros p NP. destruct (records f0 (canon p)) as [ct|] eqn:Q.
      * destruct (X p ct NP Q) as (a & e & Ha & OE & Q1 & Q2). rewrite <- Q1, <- Q2. eauto.
      * apply R2. intros a e Ha OE Q'. destruct (owned_name c W0 s f0 own ch blocks SO RP LV a e OE) as [_ R0]. congruence.
  - right. destruct (owned_name c W0 s f0 own ch blocks SO RP LV a e OE) as [NO R0]. exists t', g', (e_path e), (e_ct e). split; [reflexivity|]. split; [exact NO|].
    split; [exact R0|]. split; [intros Q; apply K; intros old R; apply Q; apply (sound_reads c' W t g _ _ ST NO); symmetry; exact R|]. split; [exact S'|].
    intros p NP. destruct (R1 (canon p)) as [Q|(b & eb & Hb & OB & Q1 & Q2)]; [auto|]. right.
    destruct (owned_name c W0 s f0 own ch blocks SO RP LV b eb OB) as [_ R2]. exists (e_ct eb). split; [rewrite Q1; exact R2|exact Q2].
Qed.

(** ** Every file reached is a map *)
Lemma sound_new c W : usable c -> sound c W (new_file c) empty_file.
Proof. intros U. split; [exact U|apply usable_inv, U| |]; split; cbn; try discriminate; tauto. Qed.
Lemma takes_map c0 W0 s f0 from c W t : sound c0 W0 s f0 -> name_ok from ->
  forall to, (forall ct, reads c0 s from (Some ct) -> takes c W t to ct) -> forall ct, records f0 (canon from) = Some ct -> takes c W t to ct.
Proof. intros SO NO to H ct Q. apply H. apply (sound_reads c0 W0 s f0 _ _ SO NO). symmetry. exact Q. Qed.

(** zcopyRecord, when it answers. *)
Lemma zcopy_step c s W0 f0 c' W t g ev from to r t' : sound c W0 s f0 -> sound c' W t g -> name_ok from ->
  (forall ct, records f0 (canon from) = Some ct -> takes c' W t to ct) -> zcopyRecord c s c' ev from to t = Answer r t' ->
  exists ct, records f0 (canon from) = Some ct /\
    ((r = Done /\ agrees c' t to ct /\ sound c' W t' (mkfile (set (records g) (canon to) (Some ct)) (trash g)))
     \/ (r = Refused /\ sound c' W t' g)).
Proof.
  intros SO ST NO HT E. unfold zcopyRecord in E.
  destruct (found_or_not c W0 s f0 from SO NO) as [(R & _ & (s2 & E2 & _))|(ct & own & ch & blocks & h & i & k & e & R & EC & RP & Hh & HE & HV & _ & (s2 & E2 & SF2 & TC))]; rewrite E2 in E; [discriminate|].
  exists ct. split; [exact R|]. pose proof (sound_same c W0 s s2 f0 SF2 SO) as SO2.
  pose proof (copy_found_step c s2 W0 f0 c' W t g ev from to SO2 ST NO HT) as P. rewrite R in P.
  assert (K : forall x, x = copy_found c s2 c' ev from to t -> x = Answer r t' -> (r = Done /\ agrees c' t to ct /\ sound c' W t' (mkfile (set (records g) (canon to) (Some ct)) (trash g))) \/ (r = Refused /\ sound c' W t' g)).
  { intros x EX Q. rewrite EX in Q. destruct P as [(A & t1 & E1 & S1)|(A & t1 & E1 & S1)]; rewrite E1 in Q; inversion Q; subst; auto. }
  cbv zeta in E. destruct (fst (i8toi4 false (i_typeCat (s_ifl s2))) <? 0); [inversion E; subst; auto|].
  destruct ((100 <=? fst (i8toi4 false (i_typeCat (s_ifl s2)))) && (fst (i8toi4 false (i_typeCat (s_ifl s2))) <? 200)).
  - destruct (series_internal from to) as [[|]|]; [eapply K; eauto|discriminate|discriminate].
  - destruct ((200 <=? fst (i8toi4 false (i_typeCat (s_ifl s2)))) && (fst (i8toi4 false (i_typeCat (s_ifl s2))) <? 300) && pathnameIsElevPd from && pathnameIsElevPd to); [discriminate|eapply K; eauto].
Qed.

Lemma squeeze_step c W s f c' W' ev t : sound c W s f -> usable c' -> no_lookalike c s ->
  (forall p ct, name_ok p -> records f (canon p) = Some ct -> proper p /\ plain_units ct) ->
  squeeze c' ev s = Some t -> exists g, sound c' W' t g /\ (forall p, name_ok p -> records g (canon p) = records f (canon p)).
Proof.
  intros SO U' NL HP E. assert (X : exists W1, (forall p, name_ok p -> W1 <= name_words p) /\ W1 = 0).
  { exists 0. split; [|reflexivity]. intros p _. unfold name_words. apply Z.div_pos; lia. }
  destruct X as (W1 & HW & ->). pose proof (sound_new c' 0 U') as SN.
  destruct (copy_file_step c W s f c' 0 (new_file c') empty_file ev SO SN NL) as [(t1 & g & E1 & S1 & T1 & _ & R1)|(t1 & g & p & ct & E1 & NO & _ & A & _)].
  - intros p ct NO Q. destruct (HP p ct NO Q) as [P1 P2]. split; [exact P1|]. split; [exact NO|]. split; [apply HW, NO|]. split; [exact P2|].
    intros old RD. apply (sound_reads _ _ _ _ _ _ SN NO) in RD. discriminate.
  - unfold zcopyFile, squeeze in *. destruct (copy_all c' ev s (found_headers s) (new_file c')) as [[] t2|t2|]; try discriminate. inversion E1; subst t2. inversion E; subst t.
    exists g. split.
    + destruct S1 as [_ IV A N]. split; auto. apply inv_reopen. apply (inv_any c' 0); [exact IV|]. rewrite T1. cbn. tauto.
    + intros p NO. rewrite R1 by exact NO. cbn [empty_file records]. destruct (records f (canon p)); reflexivity.
  - exfalso. apply A. intros old RD. apply (sound_reads _ _ _ _ _ _ SN NO) in RD. discriminate.
Qed.

Lemma reached_sound c W s : reached c W s -> exists f, sound c W s f.
Proof.
  induction 1 as [c W U|c W s o r s' _ [f SO] HA EX|c W s ev from to r s' _ [f SO] NO HT EX|c0 W0 s c W t ev from to r t' _ [f0 SO] _ [g ST] NO HT EX
                 |c0 W0 s c W t ev r t' _ [f0 SO] _ [g ST] NL HT EX|c W s c' W' ev t _ [f SO] U' NL HT EX].
  - exists empty_file. apply sound_new, U.
  - pose proof SO as [U IV A N]. destruct (step_fun c W U s f o r s' IV HA EX) as (_ & _ & f' & STP & IV'). exists f'. split; auto.
    + exact (step_normal f o r f' STP A).
    + exact (step_named c W s f o r f' IV U STP HA N).
  - destruct (pathnameIsElevTsOrPd from && pathnameIsElevTsOrPd to) eqn:EL; [unfold zduplicateRecord in EX; rewrite EL in EX; discriminate|].
    pose proof (duplicate_step c s W f ev from to SO NO (takes_map _ _ _ _ _ _ _ _ SO NO to HT) EL) as P.
    destruct (records f (canon from)) as [ct|].
    + destruct P as [(_ & t1 & E1 & S1)|(_ & t1 & E1 & S1)]; rewrite E1 in EX; inversion EX; subst; eauto.
    + destruct P as (t1 & E1 & S1). rewrite E1 in EX. inversion EX; subst. eauto.
  - destruct (zcopy_step c0 s W0 f0 c W t g ev from to r t' SO ST NO (takes_map _ _ _ _ _ _ _ _ SO NO to HT) EX) as (ct & _ & [(_ & _ & S)|(_ & S)]); eauto.
  - destruct (copy_file_step c0 W0 s f0 c W t g ev SO ST NL) as [(t1 & g' & E1 & S1 & _)|(t1 & g' & p & ct & E1 & _ & _ & _ & S1 & _)].
    + intros p ct NO Q. apply HT; [exact NO|]. apply (sound_reads _ _ _ _ _ _ SO NO). symmetry. exact Q.
    + rewrite E1 in EX. inversion EX; subst. eauto.
    + rewrite E1 in EX. inversion EX; subst. eauto.
  - destruct (squeeze_step c W s f c' W' ev t SO U' NL) as (g & S & _); eauto.
    intros p ct NO Q. apply HT; [exact NO|]. apply (sound_reads _ _ _ _ _ _ SO NO). symmetry. exact Q.
Qed.

(** ** The theorems *)

(** A file reached through calls, duplicates, copies and squeezes behaves as a map: reads answer from a map, and every
    later history of calls conforms to it. *)
Theorem C57_reached_partial c W s : reached c W s ->
  exists f, (forall p, name_ok p -> reads c s p (records f (canon p))) /\ forall ops, conforms c W ops s f.
Proof.
  intros R. destruct (reached_sound c W s R) as [f SO]. exists f. split.
  - intros p NO. apply (sound_reads c W s f _ _ SO NO). reflexivity.
  - intros ops. apply conforms_inv; [apply (usable_wf c), SO|apply SO].
Qed.

Lemma set_only_change c W s f W' t to ct c' g : sound c W s f -> sound c' W' t (mkfile (set (records f) (canon to) (Some ct)) g) -> c = c' -> only_change c s t to ct.
Proof.
  intros SO ST <-. split.
  - intros p NO E. apply (sound_reads _ _ _ _ _ _ ST NO). cbn [records]. rewrite E, set_same. reflexivity.
  - intros p v NO E. rewrite (sound_reads _ _ _ _ _ _ ST NO), (sound_reads _ _ _ _ _ _ SO NO). cbn [records]. rewrite set_other by exact E. tauto.
Qed.
Lemma same_no_change c W s f W' t : sound c W s f -> sound c W' t f -> no_change c s t.
Proof. intros SO ST p v NO. rewrite (sound_reads _ _ _ _ _ _ ST NO), (sound_reads _ _ _ _ _ _ SO NO). tauto. Qed.

(** Duplicating a record: the new name reads what the old one reads, nothing else changes.  _partial: names with ELEV
    C parts go elsewhere, see [takes] for the rest. *)
Theorem C57_duplicate_partial c W s ev from to ct : reached c W s -> name_ok from -> reads c s from (Some ct) -> takes c W s to ct -> agrees c s to ct ->
  pathnameIsElevTsOrPd from && pathnameIsElevTsOrPd to = false ->
  exists t, zduplicateRecord c ev from to s = Answer Done t /\ reached c W t /\ only_change c s t to ct.
Proof.
  intros R NO RD TK AG EL. destruct (reached_sound c W s R) as [f SO]. pose proof (sound_reads _ _ _ _ _ (Some ct) SO NO) as Q. apply Q in RD. clear Q.
  pose proof (duplicate_step c s W f ev from to SO NO ltac:(intros ct' Q'; assert (ct' = ct) by congruence; subst ct'; exact TK) EL) as P.
  rewrite <- RD in P. destruct P as [(_ & t & E & S)|(A & _)]; [|contradiction]. exists t. split; [exact E|]. split.
  - eapply by_duplicate; [exact R|exact NO| |exact E]. intros ct' RD'. apply (sound_reads _ _ _ _ _ _ SO NO) in RD'. assert (ct' = ct) by congruence. subst ct'. exact TK.
  - eapply set_only_change; eauto.
Qed.
(** A record of another kind under the new name: refused, nothing changes.  No record under the old name: the same. *)
Theorem C57_duplicate_refused_partial c W s ev from to ct : reached c W s -> name_ok from -> reads c s from (Some ct) -> takes c W s to ct -> ~ agrees c s to ct ->
  pathnameIsElevTsOrPd from && pathnameIsElevTsOrPd to = false ->
  exists t, zduplicateRecord c ev from to s = Answer Refused t /\ no_change c s t.
Proof.
  intros R NO RD TK AG EL. destruct (reached_sound c W s R) as [f SO]. apply (sound_reads _ _ _ _ _ _ SO NO) in RD.
  pose proof (duplicate_step c s W f ev from to SO NO ltac:(intros ct' Q'; assert (ct' = ct) by congruence; subst ct'; exact TK) EL) as P.
  rewrite <- RD in P. destruct P as [(A & _)|(_ & t & E & S)]; [contradiction|]. exists t. split; [exact E|]. eapply same_no_change; eauto.
Qed.
Theorem C57_duplicate_missing_partial c W s ev from to : reached c W s -> name_ok from -> reads c s from None ->
  pathnameIsElevTsOrPd from && pathnameIsElevTsOrPd to = false ->
  exists t, zduplicateRecord c ev from to s = Answer (Found false) t /\ no_change c s t.
Proof.
  intros R NO RD EL. destruct (reached_sound c W s R) as [f SO]. apply (sound_reads _ _ _ _ _ _ SO NO) in RD.
  pose proof (duplicate_step c s W f ev from to SO NO ltac:(intros ct' Q'; congruence) EL) as P.
  rewrite <- RD in P. destruct P as (t & E & S). exists t. split; [exact E|]. eapply same_no_change; eauto.
Qed.

(** Copying a record to another file, whenever it is copied as it is: the target reads it under the new name and is
    otherwise unchanged, or the call is refused and the target unchanged. *)
Theorem C57_copy_partial c0 W0 s c W t ev from to r t' : reached c0 W0 s -> reached c W t -> name_ok from ->
  (forall ct, reads c0 s from (Some ct) -> takes c W t to ct) -> zcopyRecord c0 s c ev from to t = Answer r t' ->
  exists ct, reads c0 s from (Some ct) /\ ((r = Done /\ only_change c t t' to ct) \/ (r = Refused /\ no_change c t t')).
Proof.
  intros R R' NO HT E. destruct (reached_sound _ _ _ R) as [f0 SO]. destruct (reached_sound _ _ _ R') as [g ST].
  destruct (zcopy_step c0 s W0 f0 c W t g ev from to r t' SO ST NO (takes_map _ _ _ _ _ _ _ _ SO NO to HT) E) as (ct & Q & P).
  exists ct. split; [apply (sound_reads _ _ _ _ _ _ SO NO); congruence|]. destruct P as [(-> & _ & S)|(-> & S)]; [left|right]; (split; [reflexivity|]).
  - eapply set_only_change; eauto.
  - eapply same_no_change; eauto.
Qed.

(** Copying a file into another that may hold records: every record of the source is there afterwards, in place of one
    of the same name, and nothing else has changed. *)
Theorem C57_file_partial c0 W0 s c W t ev : reached c0 W0 s -> reached c W t -> no_lookalike c0 s ->
  (forall p ct, name_ok p -> reads c0 s p (Some ct) -> takes c W t p ct /\ agrees c t p ct) ->
  exists t', zcopyFile c ev s t = Answer Done t' /\ reached c W t' /\
    forall p, name_ok p -> (forall ct, reads c0 s p (Some ct) -> reads c t' p (Some ct)) /\
                           (reads c0 s p None -> forall v, reads c t' p v <-> reads c t p v).
Proof.
  intros R R' NL HT. destruct (reached_sound _ _ _ R) as [f0 SO]. destruct (reached_sound _ _ _ R') as [g ST].
  destruct (copy_file_step c0 W0 s f0 c W t g ev SO ST NL) as [(t' & g' & E & S' & _ & _ & RC)|(t' & g' & p & ct & _ & NO & Q & A & _)].
  - intros p ct NO Q. apply HT; [exact NO|]. apply (sound_reads _ _ _ _ _ _ SO NO). symmetry. exact Q.
  - exists t'. split; [exact E|]. split.
    + eapply by_copy_file; [exact R|exact R'|exact NL| |exact E]. intros p ct NO Q. apply HT; assumption.
    + intros p NO. specialize (RC p NO). split.
      * intros ct Q. apply (sound_reads _ _ _ _ _ _ SO NO) in Q. apply (sound_reads _ _ _ _ _ _ S' NO). rewrite RC, <- Q. reflexivity.
      * intros Q v. apply (sound_reads _ _ _ _ _ _ SO NO) in Q. rewrite (sound_reads _ _ _ _ _ _ S' NO), (sound_reads _ _ _ _ _ _ ST NO), RC, <- Q. tauto.
  - exfalso. apply A, HT; [exact NO|]. apply (sound_reads _ _ _ _ _ _ SO NO). symmetry. exact Q.
Qed.

(** A record of another kind stands in the way of one of the records: the call is refused.  The target is a file whose
    every name reads as before or as in the source. *)
Theorem C57_file_refused_partial c0 W0 s c W t ev p0 ct0 : reached c0 W0 s -> reached c W t -> no_lookalike c0 s ->
  (forall p ct, name_ok p -> reads c0 s p (Some ct) -> takes c W t p ct) ->
  name_ok p0 -> reads c0 s p0 (Some ct0) -> ~ agrees c t p0 ct0 ->
  exists t', zcopyFile c ev s t = Answer Refused t' /\ reached c W t' /\
    forall p v, name_ok p -> reads c t' p v -> reads c t p v \/ (v <> None /\ reads c0 s p v).
Proof.
  intros R R' NL HT NO0 RD0 NA. destruct (reached_sound _ _ _ R) as [f0 SO]. destruct (reached_sound _ _ _ R') as [g ST].
  destruct (copy_file_step c0 W0 s f0 c W t g ev SO ST NL) as [(t' & g' & _ & _ & _ & AG & _)|(t' & g' & p & ct & E & _ & _ & _ & S' & RC)].
  - intros p ct NO Q. apply HT; [exact NO|]. apply (sound_reads _ _ _ _ _ _ SO NO). symmetry. exact Q.
  - exfalso. apply NA, AG; [exact NO0|]. apply (sound_reads _ _ _ _ _ _ SO NO0) in RD0. symmetry. exact RD0.
  - exists t'. split; [exact E|]. split; [eapply by_copy_file; [exact R|exact R'|exact NL|exact HT|exact E]|].
    intros q v NO RD. apply (sound_reads _ _ _ _ _ _ S' NO) in RD. subst v. destruct (RC q NO) as [Q|(ct1 & Q1 & Q2)].
    + left. rewrite Q. apply (sound_reads _ _ _ _ _ _ ST NO). reflexivity.
    + right. rewrite Q2. split; [discriminate|]. apply (sound_reads _ _ _ _ _ _ SO NO). symmetry. exact Q1.
Qed.

(** When zcopyRecord copies a record as it is: the directory of the source gives it a type that is not a series, or a
    series whose names pass the check; not paired data of elevations. *)
Theorem C57_copy_done_partial c0 W0 s c W t ev from to ct : reached c0 W0 s -> reached c W t -> name_ok from ->
  reads c0 s from (Some ct) -> takes c W t to ct -> agrees c t to ct -> copied_as_is c0 s from to ->
  exists t', zcopyRecord c0 s c ev from to t = Answer Done t' /\ reached c W t' /\ only_change c t t' to ct.
Proof.
  intros R R' NO RD TK AG (s1 & ty & EZ & T0 & AS1 & AS2 & ETY). destruct (reached_sound _ _ _ R) as [f0 SO]. destruct (reached_sound _ _ _ R') as [g ST].
  apply (sound_reads _ _ _ _ _ _ SO NO) in RD.
  assert (HT : forall ct', records f0 (canon from) = Some ct' -> takes c W t to ct') by (intros ct' Q; assert (ct' = ct) by congruence; subst; exact TK).
  destruct (found_or_not c0 W0 s f0 from SO NO) as [(Q & _)|(ct' & own & ch & blocks & h & i & k & e & Q & EC & RP & Hh & HE & HV & _ & (s2 & E2 & SF2 & TC))]; [congruence|].
  assert (s2 = s1) by congruence. subst s2.
  pose proof (copy_found_step c0 s1 W0 f0 c W t g ev from to (sound_same _ _ _ _ _ SF2 SO) ST NO HT) as P. rewrite <- RD in P.
  destruct P as [(_ & t' & E & S)|(A & _)]; [|contradiction].
  assert (EA : zcopyRecord c0 s c ev from to t = Answer Done t').
  { unfold zcopyRecord. rewrite EZ. cbv zeta. rewrite <- ETY. rewrite (proj2 (Z.ltb_ge ty 0)) by exact T0.
    destruct ((100 <=? ty) && (ty <? 200)) eqn:B1.
    - rewrite AS1 by lia. exact E.
    - destruct ((200 <=? ty) && (ty <? 300)) eqn:B2; cbn [andb]; [|exact E]. rewrite AS2 by lia. exact E. }
  exists t'. split; [exact EA|]. split; [|eapply set_only_change; eauto].
  eapply by_copy; [exact R|exact R'|exact NO| |exact EA]. intros ct1 Q1. apply (sound_reads _ _ _ _ _ _ SO NO) in Q1. apply HT. congruence.
Qed.

Print Assumptions C57_reached_partial.
Print Assumptions C57_duplicate_partial.
Print Assumptions C57_duplicate_refused_partial.
Print Assumptions C57_duplicate_missing_partial.
Print Assumptions C57_copy_partial.
Print Assumptions C57_file_partial.
Print Assumptions C57_file_refused_partial.
Print Assumptions C57_copy_done_partial.
