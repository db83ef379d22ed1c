(** * Property C35: squeezing a file keeps its records. *)
From Coq Require Import ZArith List Lia Bool Arith FinFun.
From Verif Require Import Base PackModel PackProps HashModel FileModel FileLemmas FileScan FileInv FileDir FileLook FileRead FileAlloc FileBin FileSlot FileUpd FileStep FileWrite FileExist FileOps FileDel FileRen FileCount FileCat FileSpec FileHist FileHistSpec FileProps SqueezeModel SqueezeSpec SqueezeProofs.
Import ListNotations.
Open Scope Z_scope.

(** ** Copying a list of records *)
Section ALL.
Variables (c : cfg) (s : st) (own : Z -> tag) (ch : chains) (blocks : list Z) (c' : cfg) (ev : env).
Hypothesis WF : wf_cfg c.
Hypothesis RP : Rep c s own ch blocks.
Hypothesis WF' : wf_cfg c'.
(** A live entry whose header is at [a]. *)
Definition owner (a : Z) (e : entry) : Prop :=
  exists h i k, 0 <= h < c_maxHash c /\ entry_at ch (h, i, k) = Some e /\ live e /\ e_info e = a.
Hypothesis GOOD : forall a e, owner a e ->
  ztsPathCompatible (e_path e) = None /\ proper (e_path e) /\ plain_units (e_ct e) /\ normal (e_ct e).

Lemma owner_key a a' e e' : owner a e -> owner a' e' -> key (e_path e) = key (e_path e') -> e = e' /\ a = a'.
Proof.
  intros (h & i & k & Hh & HE & HV & EA) (h' & i' & k' & Hh' & HE' & HV' & EA') EK.
  pose proof (Dsk_eok _ _ _ _ _ _ _ _ _ _ (rp_dsk _ _ _ _ _ RP) Hh HE) as (_ & HZ & _).
  pose proof (entry_chain c s own ch blocks RP (e_path e) h (e_hash e) h' i' k' e' HZ Hh' HE' (eq_sym EK)). subst h'.
  destruct (rp_uniq _ _ _ _ _ RP h i k e i' k' e' Hh HE HE' HV HV' EK). subst i' k'. assert (e = e') by congruence. subst e'. split; congruence.
Qed.

Lemma copy_list : forall l, NoDup l -> (forall a, In a l -> exists e, owner a e) ->
  forall t g, Inv c' 0 t g -> (forall q ct, ~ trash g q ct) ->
  (forall a e, In a l -> owner a e -> records g (key (e_path e)) = None) ->
  exists t' g', copy_all c' ev s l t = OK tt t' /\ Inv c' 0 t' g' /\ (forall q ct, ~ trash g' q ct) /\
    (forall q ct, records g' q = Some ct <-> records g q = Some ct \/ exists a e, In a l /\ owner a e /\ key (e_path e) = q /\ e_ct e = ct).
Proof.
  induction l as [|a l IH]; intros ND HO t g IV TE RN.
  - exists t, g. split; [reflexivity|]. split; [exact IV|]. split; [exact TE|]. intros q ct. split; [auto|]. intros [Q|(a & e & [] & _)]. exact Q.
  - inversion_clear ND as [|? ? NI ND']. destruct (HO a (or_introl eq_refl)) as [e OE]. destruct (GOOD a e OE) as (G1 & G2 & G3 & G4).
    assert (OE' := OE). destruct OE' as (h & i & k & Hh & HE & HV & EA).
    destruct (copy_one c s own ch blocks c' ev t g h i k e WF RP WF' Hh HE HV G1 G2 G3 G4 IV TE (RN a e (or_introl eq_refl) OE)) as (t1 & E1 & IV1).
    destruct (IH ND' (fun b Hb => HO b (or_intror Hb)) t1 _ IV1 TE) as (t2 & g2 & E2 & IV2 & TE2 & R2).
    { intros b eb Hb OB. unfold clean_add. cbn [records]. rewrite set_other; [apply (RN b eb); [right; exact Hb|exact OB]|].
      intros Q. destruct (owner_key b a eb e OB OE Q). subst b. contradiction. }
    exists t2, g2. split; [|split; [exact IV2|split; [exact TE2|]]].
    + cbn [copy_all]. unfold bindM. rewrite <- EA, E1. exact E2.
    + intros q ct. rewrite R2. unfold clean_add. cbn [records]. split.
      * intros [Q|(b & eb & Hb & OB & Q1 & Q2)]; [|right; exists b, eb; cbn [In]; auto].
        destruct (list_eq_dec Z.eq_dec q (key (e_path e))) as [->|N]; [|rewrite set_other in Q by exact N; auto].
        rewrite set_same in Q. right. exists a, e. split; [left; reflexivity|]. split; [exact OE|]. split; congruence.
      * intros [Q|(b & eb & Hb & OB & Q1 & Q2)].
        { left. rewrite set_other; [exact Q|]. intros E. rewrite E, (RN a e (or_introl eq_refl) OE) in Q. discriminate. }
        { destruct Hb as [<-|Hb]; [|right; exists b, eb; auto]. left. subst q.
          assert (eb = e).
          { destruct OB as (h1 & i1 & k1 & Hh1 & HE1 & HV1 & EA1).
            pose proof (src_rec c s own ch blocks RP h i k e Hh HE HV) as (_ & O1 & _).
            pose proof (src_rec c s own ch blocks RP h1 i1 k1 eb Hh1 HE1 HV1) as (_ & O2 & _).
            pose proof (src_shape c s own ch blocks RP h i k e Hh HE) as SH. pose proof (src_shape c s own ch blocks RP h1 i1 k1 eb Hh1 HE1) as SH1.
            pose proof (numInfo_bounds _ (proj1 (proj2 SH))). pose proof (numInfo_bounds _ (proj1 (proj2 SH1))).
            specialize (O1 a ltac:(lia)). specialize (O2 a ltac:(lia)). rewrite O1 in O2. inversion O2; subst h1 i1 k1. congruence. }
          subst eb. rewrite set_same. congruence. }
Qed.
End ALL.

Lemma zseq_NoDup a n : NoDup (zseq a n).
Proof. unfold zseq. apply Injective_map_NoDup; [intros x y H; lia|apply seq_NoDup]. Qed.

Lemma squeeze_spec c W c' ev ops s : usable c -> usable c' -> runs c W (new_file c) ops s ->
  (forall p ct, name_ok p -> reads c s p (Some ct) -> proper p /\ plain_units ct) -> no_lookalike c s ->
  exists t f g, squeeze c' ev s = Some t /\ Inv c W s f /\ (forall W', Inv c' W' t g) /\ (forall q ct, ~ trash g q ct) /\
    forall p, name_ok p -> records g (canon p) = records f (canon p).
Proof.
  intros U U' R HP NL. pose proof (proj1 (usable_wf c U)) as WF. pose proof (proj1 (usable_wf c' U')) as WF'.
  destruct (runs_new c W U _ _ R) as (f & M & IV). assert (NM : all_normal f) by (eapply mapped_normal; [exact M|]; split; cbn; [discriminate|tauto]).
  pose proof IV as [(own & ch & blocks & RP & LV & DD) _ _].
  assert (AL : forall o, In o ops -> forall q, In q (names_of o) -> exists p, name_ok p /\ q = canon p).
  { clear - R. induction R as [|s0 o r s1 t s2 HA EX HR IH]; [contradiction|]. intros o' [<-|Ho] q Hq; [|eapply IH; eauto].
    destruct o as [now prog x|p|p|p|old new| |]; cbn [names_of allowed] in *; cbn [In] in Hq.
    - destruct Hq as [<-|[]]. destruct HA as [[HA _] _]. eauto.
    - contradiction.
    - destruct Hq as [<-|[]]. destruct HA. eauto.
    - destruct Hq as [<-|[]]. destruct HA. eauto.
    - destruct HA as (H1 & H2 & _). destruct Hq as [<-|[<-|[]]]; eauto.
    - contradiction.
    - contradiction. }
  assert (GOOD : forall a e, owner c ch a e -> ztsPathCompatible (e_path e) = None /\ proper (e_path e) /\ plain_units (e_ct e) /\ normal (e_ct e)).
  { intros a e (h & i & k & Hh & HE & HV & EA).
    assert (L : Live c ch (e_path e) (e_ct e)) by (exists h, i, k, e; auto). apply LV in L.
    assert (Q : records f (key (e_path e)) <> None) by congruence. destruct (mapped_names _ _ _ _ M Q) as [Q1|(o & Q1 & Q2)]; [exfalso; apply Q1; reflexivity|].
    destruct (AL o Q1 _ Q2) as (p & (_ & _ & NP) & EP).
    assert (CP : ztsPathCompatible (e_path e) = None) by (apply (compat_same p); [symmetry; exact EP|exact NP]).
    assert (NO : name_ok (e_path e)) by (eapply src_name; eauto).
    destruct (HP (e_path e) (e_ct e) NO) as [P1 P2].
    { apply (inv_reads_iff c W U s f); [exact IV|exact NO|]. symmetry. exact L. }
    split; [exact CP|]. split; [exact P1|]. split; [exact P2|]. apply (proj1 NM) in L. exact L. }
  assert (OWN : forall a, In a (found_headers s) -> exists e, owner c ch a e).
  { intros a Ha. destruct (NL a Ha) as (p & NO & s1 & EC & EA). apply name_ok_parts in NO. destruct NO as (N1 & N2 & N3).
    destruct (zhash_ok c p WF) as (h & hash & HZ & Hh & _).
    destruct (rep_lookup c s own ch blocks p h hash WF RP HZ Hh) as [[ct L]|NLV].
    - destruct (rep_live_at c s own ch blocks p ct WF RP L) as (h' & hash' & i & k & b & es & e & HZ' & _ & Hi & Hk & HV & HK & HC).
      rewrite HZ in HZ'. assert (h' = h) by congruence. assert (hash' = hash) by congruence. subst h' hash'.
      destruct (rep_check c s own ch blocks p h hash i k b es e WF RP N1 HZ Hh Hi Hk HK HV) as (s2 & EC2 & _ & _ & FA).
      change ST_PRIMARY with 1 in EC. rewrite EC2 in EC. inversion EC; subst s2.
      exists e, h, i, k. split; [exact Hh|]. split; [unfold entry_at; rewrite Hi; exact Hk|]. split; [exact HV|]. rewrite <- EA. symmetry. apply FA.
    - exfalso. destruct (rep_check_none c s own ch blocks p h hash WF RP N1 HZ Hh NLV) as (s2 & EC2 & _).
      change ST_PRIMARY with 1 in EC. rewrite EC2 in EC. discriminate. }
  destruct (copy_list c s own ch blocks c' ev WF RP WF' GOOD (found_headers s)) with (t := new_file c') (g := empty_file) as (t & g & E & IVt & TE & RG).
  { apply NoDup_filter, zseq_NoDup. }
  { exact OWN. }
  { apply usable_inv, U'. }
  { cbn. tauto. }
  { reflexivity. }
  exists (reopen t), f, g. split; [unfold squeeze; rewrite E; reflexivity|]. split; [exact IV|].
  split; [intros W'; apply inv_reopen, (inv_any c' 0); assumption|]. split; [exact TE|].
  intros p _. change (canon p) with (key p).
  assert (X : forall ct, records g (key p) = Some ct <-> records f (key p) = Some ct).
  { intros ct. rewrite RG, <- LV. cbn [empty_file records]. split.
    - intros [Q|(a & e & _ & (h & i & k & Hh & HE & HV & EA) & Q1 & Q2)]; [discriminate|]. exists h, i, k, e. auto.
    - intros (h & i & k & e & Hh & HE & HV & Q1 & Q2). right.
      assert (OE : owner c ch (e_info e) e) by (exists h, i, k; auto). exists (e_info e), e. split; [|split; [exact OE|auto]].
      eapply src_listed; eauto. pose proof (src_shape c s own ch blocks RP h i k e Hh HE) as SH. pose proof (e_path_length e SH) as EL.
      destruct (GOOD _ _ OE) as (_ & (P1 & _) & _). destruct SH as (_ & B & _). destruct (e_path e); [cbn in P1; discriminate|cbn [length] in EL; lia]. }
  destruct (records g (key p)) as [ct|] eqn:Q.
  - symmetry. apply X. reflexivity.
  - destruct (records f (key p)) as [ct|] eqn:Q'; [|reflexivity]. apply (X ct). reflexivity.
Qed.

(** ** Histories of plain requests hold plain records *)
Lemma toupper_slash ch : toupper ch = 47 <-> ch = 47.
Proof. unfold toupper. destruct ((97 <=? ch) && (ch <=? 122)) eqn:E; lia. Qed.
Lemma toupper_nul ch : toupper ch = 0 <-> ch = 0.
Proof. unfold toupper. destruct ((97 <=? ch) && (ch <=? 122)) eqn:E; lia. Qed.
Lemma count_key p : count_occ Z.eq_dec (key p) 47 = count_occ Z.eq_dec p 47.
Proof.
  induction p as [|a p IH]; [reflexivity|]. cbn [key map count_occ]. change (map toupper p) with (key p). rewrite IH.
  pose proof (toupper_slash a). destruct (Z.eq_dec (toupper a) 47), (Z.eq_dec a 47); tauto || reflexivity.
Qed.
Lemma last_key p : last (key p) 0 = toupper (last p 0).
Proof. induction p as [|a [|b p] IH]; [reflexivity|reflexivity|]. exact IH. Qed.
Lemma proper_key p : proper (key p) <-> proper p.
Proof.
  unfold proper. rewrite count_key, last_key, toupper_slash. assert (In 0 (key p) <-> In 0 p); [|tauto].
  unfold key. rewrite in_map_iff. split; [intros (x & H & I); apply (proj1 (toupper_nul x)) in H; subst x; exact I|]. intros I. exists 0. auto.
Qed.
Definition all_plain (f : file) : Prop :=
  (forall q ct, records f q = Some ct -> proper q /\ plain_units ct) /\ (forall q ct, trash f q ct -> proper q /\ plain_units ct).
Lemma step_plain f o r f' : step f o r f' -> op_plain o -> all_plain f -> all_plain f'.
Proof.
  intros ST OP [N1 N2].
  assert (S : forall g q v, (forall q ct, g q = Some ct -> proper q /\ plain_units ct) -> (forall ct, v = Some ct -> proper q /\ plain_units ct) ->
    forall q' ct, set g q v q' = Some ct -> proper q' /\ plain_units ct).
  { intros g q v H1 H2 q' ct. unfold set. destruct (list_eq_dec Z.eq_dec q' q); [subst|]; eauto. }
  inversion ST; subst; cbn [op_plain] in OP; split; cbn [records trash]; auto.
  - apply S; [exact N1|]. intros ct E. inversion E; subst. split; [apply proper_key|]; apply OP.
  - apply S; [exact N1|discriminate].
  - intros q ct' [Q|[-> ->]]; eauto.
  - apply S; [exact N1|]. intros ct' E. inversion E; subst. eauto.
  - apply S; [apply S; [exact N1|discriminate]|]. intros ct' E. inversion E; subst. split; [apply proper_key, OP|]. eapply N1; eauto.
  - intros q ct' [Q|[-> Q]]; eauto.
  - apply S; [exact N1|discriminate].
  - intros q ct' [Q|[-> Q]]; eauto.
Qed.
Lemma mapped_plain f ops f' : mapped f ops f' -> (forall o, In o ops -> op_plain o) -> all_plain f -> all_plain f'.
Proof. induction 1; [auto|]. intros HO H1. apply IHmapped; [intros; apply HO; cbn; auto|]. eapply step_plain; eauto. apply HO. cbn; auto. Qed.
Lemma runs_plain c W ops s : usable c -> runs c W (new_file c) ops s -> (forall o, In o ops -> op_plain o) ->
  forall p ct, name_ok p -> reads c s p (Some ct) -> proper p /\ plain_units ct.
Proof.
  intros U R HO p ct NO RD. destruct (runs_new c W U _ _ R) as (f & M & IV).
  assert (AP : all_plain f) by (eapply mapped_plain; [exact M|exact HO|]; split; cbn; [discriminate|tauto]).
  apply (inv_reads_iff c W U s f) in RD; [|assumption..]. symmetry in RD. apply (proj1 AP) in RD. change (canon p) with (key p) in RD. rewrite proper_key in RD. exact RD.
Qed.

(** The squeezed file answers every read as the file did.  _partial: every pathname given is proper, every time series has
    padded units; nothing but the records looks like a record header.  False otherwise, see
    SqueezeRefute.v. *)
Theorem C35_squeeze_reads_same_partial c W c' ev ops s : usable c -> usable c' -> runs c W (new_file c) ops s ->
  (forall o, In o ops -> op_plain o) -> no_lookalike c s ->
  exists t, squeeze c' ev s = Some t /\ forall p v, name_ok p -> (reads c s p v <-> reads c' t p v).
Proof.
  intros U U' R HP NL. destruct (squeeze_spec c W c' ev ops s U U' R (runs_plain c W ops s U R HP) NL) as (t & f & g & E & IV & IVt & _ & X).
  exists t. split; [exact E|]. intros p v NO. rewrite (inv_reads_iff c W U s f), (inv_reads_iff c' 0 U' t g) by auto. rewrite X by exact NO. tauto.
Qed.

(** From then on it behaves as a map that holds those records and nothing deleted: nothing can be undeleted, and every
    later history conforms, with no restriction from the names deleted before. *)
Theorem C35_squeezed_history_partial c W c' ev ops s : usable c -> usable c' -> runs c W (new_file c) ops s ->
  (forall o, In o ops -> op_plain o) -> no_lookalike c s ->
  exists t f, squeeze c' ev s = Some t /\ (forall p, name_ok p -> reads c s p (records f (canon p))) /\ (forall q ct, ~ trash f q ct) /\
    forall W' ops', conforms c' W' ops' t f.
Proof.
  intros U U' R HP NL. destruct (squeeze_spec c W c' ev ops s U U' R (runs_plain c W ops s U R HP) NL) as (t & f & g & E & IV & IVt & TE & X).
  exists t, g. split; [exact E|]. split.
  - intros p NO. rewrite X by exact NO. apply (inv_reads c W U); assumption.
  - split; [exact TE|]. intros W' ops'. apply conforms_inv; [apply (usable_wf c' U')|apply IVt].
Qed.
Theorem C35_nothing_to_undelete_partial c W c' ev ops s p : usable c -> usable c' -> runs c W (new_file c) ops s ->
  (forall o, In o ops -> op_plain o) -> no_lookalike c s ->
  name_ok p -> reads c s p None ->
  exists t t', squeeze c' ev s = Some t /\ exec c' (Undelete p) t = Some (Found false, t').
Proof.
  intros U U' R HP NL NO RN. destruct (squeeze_spec c W c' ev ops s U U' R (runs_plain c W ops s U R HP) NL) as (t & f & g & E & IV & IVt & TE & X).
  apply (inv_reads_iff c W U s f) in RN; [|assumption..].
  destruct (out_undelete c' 0 t g (proj1 (usable_wf c' U')) (IVt 0) p NO) as (r & t' & EX & _ & g' & ST & _); [rewrite X by exact NO; congruence|].
  exists t, t'. split; [exact E|]. inversion ST; subst; [exfalso; eapply TE; eauto|exact EX].
Qed.
