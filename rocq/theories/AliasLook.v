(** * zcheck, zaliasGetPrimary and zreadInfo on a file that satisfies the invariant. *)
From Coq Require Import ZArith List Lia Bool.
From Verif Require Import Base PackModel HashModel FileModel FileLemmas FileSpec AliasModel AliasSpec AliasProofs.
Import ListNotations.
Open Scope Z_scope.

Section LOOK.
Variables (c : dcfg) (W : Z).

Lemma check_unfold p wanted s : check c p wanted s =
  match scan (snd (hashes c p)) p wanted (concat (a_dir s (fst (hashes c p)))) (set_key (hashes c p) (zlen p) s) with
  | Val found s1 =>
      if found && negb (zcompareRecordStatus (a_stat s1) wanted) && (a_stat s1 =? 2) && negb (wanted =? 2)
      then match follow (fuel_of s1) (a_mem s1) (a_info s1) with None => Bad | Some None => Err s1 | Some (Some z) => Val found (set_addr z s1) end
      else Val found s1
  | Err s1 => Err s1 | Bad => Bad end.
Proof.
  unfold check, bindP, modP, getP, followP, retP. cbn [a_hash a_table a_dir set_key].
  destruct (scan _ p wanted _ _) as [found s1| |]; [|reflexivity|reflexivity].
  destruct (found && negb (zcompareRecordStatus (a_stat s1) wanted) && (a_stat s1 =? 2) && negb (wanted =? 2)); [|reflexivity].
  destruct (follow _ _ _) as [[z|]|]; reflexivity.
Qed.

Variables (s : ast) (b : book) (ch : list Z -> list Z).
Hypothesis D : Dir c W (a_mem s) (a_dir s) (a_next s).
Hypothesis LK : Links c (a_mem s) (a_dir s) b ch.

Lemma check_rec p v a e n wanted : Rec c (a_mem s) (a_dir s) ch (key p) v a e n -> In wanted [0; 1; 100] ->
  exists s', check c p wanted s = Val true s' /\ core s s' /\ at_name c p s' /\ a_stat s' = 1 /\ a_bin s' = a /\ a_info s' = t_info e.
Proof.
  intros (R1 & R2 & R3 & _) HW. rewrite check_unfold.
  destruct (scan_live c W s D p a e wanted R1 R3 (or_introl R2)) as (s' & H1 & H2 & H3 & H4 & H5 & H6).
  { rewrite R2. cbn in HW. destruct HW as [<-|[<-|[<-|[]]]]; reflexivity. }
  rewrite H1. exists s'. rewrite H4, R2. cbn [Z.eqb]. rewrite andb_false_r. cbn [andb]. repeat split; auto; try apply H2; try apply H3.
Qed.
Lemma check_alias p q a e wanted : In a (ch q) -> E c (a_mem s) (a_dir s) a e -> t_status e = 2 -> key (t_name e) = key p -> In wanted [0; 1; 2; 100] ->
  exists s', check c p wanted s = Val true s' /\ core s s' /\ at_name c p s' /\ a_stat s' = 2 /\ a_bin s' = a /\ (wanted <> 1 -> a_info s' = t_info e).
Proof.
  intros HA HE HS HK HW. rewrite check_unfold.
  destruct (scan_live c W s D p a e wanted HE HK (or_intror HS)) as (s' & H1 & H2 & H3 & H4 & H5 & H6).
  { rewrite HS. cbn in HW. destruct HW as [<-|[<-|[<-|[<-|[]]]]]; reflexivity. }
  rewrite H1, H4, HS. destruct (Z.eq_dec wanted 1) as [->|N].
  - cbn. destruct (ali_chain c W _ _ _ _ _ D LK q a HA) as (e' & l & Q1 & Q2 & Q3 & Q4). assert (e' = e) by (destruct Q1 as [_ Q1], HE as [_ HE]; congruence). subst e'.
    destruct H2 as (M1 & M2 & M3). destruct (follow_chain (a_mem s') q l (a_info s') (fuel_of s')) as (z & n & F1 & F2 & F3).
    { unfold fuel_of. rewrite M3. exact Q4. } { rewrite M1, H6. exact Q3. }
    rewrite F1. exists (set_addr z s'). repeat split; auto; try apply H3. cbn. congruence. congruence.
  - exists s'. assert (Q : zcompareRecordStatus 2 wanted = true) by (cbn in HW; destruct HW as [<-|[<-|[<-|[<-|[]]]]]; try reflexivity; congruence).
    rewrite Q. cbn. repeat split; auto; try apply H2; try apply H3. congruence.
Qed.
Lemma check_none p wanted : (forall a e, E c (a_mem s) (a_dir s) a e -> key (t_name e) = key p -> ~ live e) -> In wanted [0; 1; 2] ->
  exists s', check c p wanted s = Val false s' /\ core s s' /\ at_name c p s' /\ (a_stat s' = a_stat s \/ a_stat s' <> 2).
Proof.
  intros HN HW. rewrite check_unfold.
  destruct (scan_none c W s D p wanted) as (s' & H1 & H2 & H3 & H4).
  { intros a e HE HK. specialize (HN a e HE HK). pose proof (E_ok c W _ _ _ D a e HE) as OK.
    destruct (status_cases c W e OK) as [Q|[Q|[Q|Q]]]; [exfalso; apply HN; left; exact Q|exfalso; apply HN; right; exact Q| |]; rewrite Q; cbn in HW; destruct HW as [<-|[<-|[<-|[]]]]; reflexivity. }
  rewrite H1. cbn [andb]. exists s'. repeat split; auto; try apply H2; try apply H3. destruct H4 as [H4|[H4|(a & e & Q1 & Q2 & Q3)]]; [left; exact H4|right; lia|right].
  specialize (HN a e Q1 Q2). intros Q. apply HN. right. congruence.
Qed.
Lemma check_rec2 p v a e n : Rec c (a_mem s) (a_dir s) ch (key p) v a e n ->
  exists s', check c p 2 s = Val false s' /\ core s s' /\ (a_stat s' = a_stat s \/ a_stat s' <> 2).
Proof.
  intros (R1 & R2 & R3 & _). rewrite check_unfold.
  assert (HS : forall x e', E c (a_mem s) (a_dir s) x e' -> key (t_name e') = key p -> t_status e' <> 2).
  { intros x e' HE HK Q. destruct (E_uniq c W _ _ _ D x a e' e HE R1) as [_ ->]; [congruence|right; exact Q|left; exact R2|]. congruence. }
  destruct (scan_none c W s D p 2) as (s' & H1 & H2 & H3 & H4).
  { intros x e' HE HK. specialize (HS x e' HE HK). pose proof (E_ok c W _ _ _ D x e' HE) as OK.
    destruct (status_cases c W e' OK) as [Q|[Q|[Q|Q]]]; [|congruence| |]; rewrite Q; reflexivity. }
  rewrite H1. cbn [andb]. exists s'. repeat split; auto; try apply H2. destruct H4 as [H4|[H4|(x & e' & Q1 & Q2 & Q3)]]; [left; exact H4|right; lia|right].
  rewrite Q3. eauto.
Qed.
Lemma check_none_any p : (forall a e, E c (a_mem s) (a_dir s) a e -> key (t_name e) = key p -> ~ live e) ->
  exists f s', check c p 100 s = Val f s' /\ core s s' /\ at_name c p s' /\ (a_stat s' = a_stat s \/ a_stat s' <> 2) /\
    (f = true -> a_stat s' = 11 /\ exists n, a_mem s (a_info s') = Inf n /\ n_head n = 0).
Proof.
  intros HN. rewrite check_unfold.
  destruct (scan_spec (snd (hashes c p)) p 100 (concat (a_dir s (fst (hashes c p)))) (set_key (hashes c p) (zlen p) s)) as (found & s' & H1 & H2 & H3).
  { intros a Ha. eapply ents; eauto. }
  rewrite H1. destruct H2 as (H2 & K1 & K2 & K3). cbn [a_mem set_key a_hash a_len a_table a_stat] in *. destruct found.
  - destruct H3 as (l1 & x & l2 & e' & Q1 & Q2 & Q3 & Q4 & Q5 & Q6 & Q7 & _).
    assert (Hx : In x (concat (a_dir s (fst (hashes c p))))) by (rewrite Q1; apply in_or_app; right; left; reflexivity).
    pose proof (here_E c W s D p x e' Hx Q2) as HE'. pose proof (E_ok c W _ _ _ D _ _ HE') as OK'.
    assert (S13 : t_status e' <> 13) by (intros Q; rewrite Q in Q4; unfold wanted_ok, zcompareRecordStatus in Q4; cbn in Q4; discriminate).
    assert (KE : key (t_name e') = key p) by (apply (hits_live c W) in Q3; auto). specialize (HN x e' HE' KE).
    destruct (status_cases c W e' OK') as [Q|[Q|[Q|Q]]]; [exfalso; apply HN; left; exact Q|exfalso; apply HN; right; exact Q| |congruence].
    rewrite Q5, Q. exists true, s'. cbn. split; [reflexivity|]. split; [exact H2|]. split; [repeat split; assumption|]. split; [right; lia|]. intros _. split; [congruence|].
    destruct (k_dead _ _ _ _ _ LK x e' HE' Q) as (n & N1 & N2 & N3). exists n. rewrite Q7. auto.
  - exists false, s'. cbn. split; [reflexivity|]. split; [exact H2|]. split; [repeat split; assumption|]. split; [|discriminate].
    destruct H3 as [H3 [H4|(x & e' & Q1 & Q2 & Q3 & Q4)]]; [left; exact H4|right]. intros Q. pose proof (here_E c W s D p x e' Q1 Q2) as HE'. rewrite Q4 in Q.
    apply (HN x e' HE'); [|right; exact Q]. apply (hits_live c W) in Q3; auto; [eapply E_ok; eauto|lia].
Qed.
End LOOK.

(** The invariant only looks at cells, chains and the next address. *)
Lemma Dir_core c W s s' : core s s' -> Dir c W (a_mem s) (a_dir s) (a_next s) -> Dir c W (a_mem s') (a_dir s') (a_next s').
Proof. intros (H1 & H2 & H3) D. rewrite H1, H2, H3. exact D. Qed.
Lemma Links_core c s s' b ch : core s s' -> Links c (a_mem s) (a_dir s) b ch -> Links c (a_mem s') (a_dir s') b ch.
Proof. intros (H1 & H2 & H3) D. rewrite H1, H2. exact D. Qed.
Lemma Rec_core c s s' ch q v a e n : core s s' -> Rec c (a_mem s) (a_dir s) ch q v a e n -> Rec c (a_mem s') (a_dir s') ch q v a e n.
Proof. intros (H1 & H2 & H3) D. rewrite H1, H2. exact D. Qed.

Section PRIM.
Variables (c : dcfg) (W : Z).
Variables (s : ast) (b : book) (ch : list Z -> list Z).
Hypothesis D : Dir c W (a_mem s) (a_dir s) (a_next s).
Hypothesis LK : Links c (a_mem s) (a_dir s) b ch.

Lemma core_addr s1 s2 z : core s1 s2 -> core s1 (set_addr z s2).
Proof. intros H. exact H. Qed.

Lemma primary_rec p v a e n : Rec c (a_mem s) (a_dir s) ch (key p) v a e n ->
  exists s', get_primary c p s = Val p s' /\ core s s' /\ a_stat s' = 1.
Proof.
  intros HR. unfold get_primary, bindP, modP, getP.
  destruct (check_rec c W s ch D p v a e n 0 HR (or_introl eq_refl)) as (s1 & H1 & C1 & _). rewrite H1.
  assert (C1' : core s (set_addr 0 s1)) by exact C1.
  destruct (check_rec c W _ ch (Dir_core _ _ _ _ C1' D) p v a e n 0 (Rec_core _ _ _ _ _ _ _ _ _ C1' HR) (or_introl eq_refl)) as (s2 & H2 & C2 & _ & S2 & _).
  rewrite H2. cbn [negb]. rewrite S2. cbn. exists s2. split; [reflexivity|]. split; [eapply core_trans; eauto|exact S2].
Qed.
Lemma primary_alias p q a e : In a (ch q) -> E c (a_mem s) (a_dir s) a e -> t_status e = 2 -> key (t_name e) = key p ->
  exists path s', get_primary c p s = Val path s' /\ core s s' /\ a_stat s' = 2 /\ key path = q.
Proof.
  intros HA HE HS HK. unfold get_primary, bindP, modP, getP.
  destruct (check_alias c W s b ch D LK p q a e 0 HA HE HS HK (or_introl eq_refl)) as (s1 & H1 & C1 & _). rewrite H1.
  assert (C1' : core s (set_addr 0 s1)) by exact C1.
  assert (HE1 : E c (a_mem (set_addr 0 s1)) (a_dir (set_addr 0 s1)) a e) by (destruct C1' as (M1 & M2 & _); rewrite M1, M2; exact HE).
  destruct (check_alias c W _ b ch (Dir_core _ _ _ _ C1' D) (Links_core _ _ _ _ _ C1' LK) p q a e 0 HA HE1 HS HK (or_introl eq_refl)) as (s2 & H2 & C2 & _ & S2 & _ & I2).
  rewrite H2. cbn [negb]. rewrite S2. cbn [Z.eqb negb]. pose proof (core_trans _ _ _ C1' C2) as C. destruct C as (M1 & M2 & M3).
  destruct (ali_chain c W _ _ _ _ _ D LK q a HA) as (e' & l & Q1 & Q2 & Q3 & Q4). assert (e' = e) by (destruct Q1 as [_ Q1], HE as [_ HE]; congruence). subst e'.
  destruct (follow_chain (a_mem s2) q l (a_info s2) (fuel_of s2)) as (z & n & F1 & F2 & F3).
  { unfold fuel_of. rewrite M3. exact Q4. } { rewrite M1, I2 by lia. exact Q3. }
  unfold followP. change (Pos.eqb 2 2) with true. cbn [negb]. rewrite F1. cbn [a_mem set_addr]. rewrite F2. eexists _, _. split; [reflexivity|]. split; [repeat split; assumption|]. split; [exact S2|exact F3].
Qed.
Lemma primary_none p : (forall a e, E c (a_mem s) (a_dir s) a e -> key (t_name e) = key p -> ~ live e) ->
  exists s', get_primary c p s = Err s' /\ core s s' /\ (a_stat s' = a_stat s \/ a_stat s' <> 2).
Proof.
  intros HN. unfold get_primary, bindP, modP, getP.
  destruct (check_none c W s D p 0 HN (or_introl eq_refl)) as (s1 & H1 & C1 & _ & S1). rewrite H1.
  assert (C1' : core s (set_addr 0 s1)) by exact C1.
  assert (HN1 : forall a e, E c (a_mem (set_addr 0 s1)) (a_dir (set_addr 0 s1)) a e -> key (t_name e) = key p -> ~ live e) by (destruct C1' as (M1 & M2 & _); rewrite M1, M2; exact HN).
  destruct (check_none c W _ (Dir_core _ _ _ _ C1' D) p 0 HN1 (or_introl eq_refl)) as (s2 & H2 & C2 & _ & S2). rewrite H2. cbn [negb].
  exists s2. split; [reflexivity|]. split; [eapply core_trans; eauto|]. cbn [a_stat set_addr] in S2. destruct S2 as [S2|S2]; [rewrite S2; exact S1|right; exact S2].
Qed.

End PRIM.

(** ** zreadInfo *)
Section INFO.
Variables (c : dcfg) (W : Z).
Variables (s : ast) (b : book) (ch : list Z -> list Z).
Hypothesis D : Dir c W (a_mem s) (a_dir s) (a_next s).
Hypothesis LK : Links c (a_mem s) (a_dir s) b ch.
Definition on_record (q : list Z) (v : Z * list Z) (a : Z) (e : entry) (n : info) (s' : ast) : Prop :=
  Rec c (a_mem s) (a_dir s) ch q v a e n /\ a_stat s' = 1 /\ a_bin s' = a /\ a_info s' = t_info e.
Lemma read_tail q v a e n s' p : Rec c (a_mem s) (a_dir s) ch q v a e n -> core s s' -> at_name c p s' -> key p = q -> a_info s' = t_info e ->
  match a_mem s' (a_info s') with
  | Inf n => Val (if n_hash n =? a_hash s' then Some n else None) s'
  | Ent e => if t_info e =? a_hash s' then Bad else Val None s'
  | Free => Bad
  end = Val (Some n) s'.
Proof.
  intros (R1 & R2 & R3 & R4 & R5 & R6 & R7 & R8 & R9) (M1 & M2 & M3) (N1 & N2 & N3) HK HI. rewrite M1, HI, R4, R7, N1. rewrite <- HK, hashes_of_key, Z.eqb_refl. reflexivity.
Qed.
Lemma read_info_unfold p wanted s0 : read_info c p wanted s0 =
  match check c p wanted s0 with
  | Val found s1 =>
      match (if a_stat s1 =? 2 then match get_primary c p s1 with Val path s2 => check c path wanted s2 | Err s2 => Err s2 | Bad => Bad end else Val found s1) with
      | Val found s2 => if negb found then Val None s2 else
          match a_mem s2 (a_info s2) with
          | Inf n => Val (if n_hash n =? a_hash s2 then Some n else None) s2
          | Ent e => if t_info e =? a_hash s2 then Bad else Val None s2
          | Free => Bad
          end
      | Err s2 => Err s2 | Bad => Bad end
  | Err s1 => Err s1 | Bad => Bad end.
Proof.
  unfold read_info, bindP, getP, retP. destruct (check c p wanted s0) as [f s1| |]; [|reflexivity|reflexivity].
  destruct (a_stat s1 =? 2).
  - destruct (get_primary c p s1) as [path s2| |]; [|reflexivity|reflexivity]. destruct (check c path wanted s2) as [f2 s3| |]; [|reflexivity|reflexivity]. destruct f2; reflexivity.
  - destruct f; reflexivity.
Qed.

(** Found: by its own name or an alias. *)
Lemma read_found p v wanted : record_of b (key p) = Some v -> In wanted [0; 1; 100] ->
  exists a e n s', read_info c p wanted s = Val (Some n) s' /\ core s s' /\ on_record (resolve b (key p)) v a e n s'.
Proof.
  intros HR HW. rewrite read_info_unfold. destruct (kinds c _ _ _ _ LK (key p)) as [v' a e n H1 H2 H3|q v' a e H1 H2 H3 H4 H5 H6 H7|H1 H2 H3].
  - destruct (record_of_rec b (key p) v' H2 H1) as [Q1 Q2]. assert (v' = v) by congruence. subst v'. rewrite Q2.
    destruct (check_rec c W s ch D p v a e n wanted H3 HW) as (s1 & K1 & K2 & K3 & K4 & K5 & K6). rewrite K1, K4. cbn [Z.eqb negb].
    change (Pos.eqb 1 2) with false. cbv iota. cbn [negb]. rewrite (read_tail (key p) v a e n s1 p H3 K2 K3 eq_refl K6).
    exists a, e, n, s1. repeat split; auto; try apply K2; apply H3.
  - destruct (record_of_alias b (key p) q v' H1 H3) as [Q1 Q2]. assert (v' = v) by congruence. subst v'. rewrite Q2.
    assert (HW4 : In wanted [0; 1; 2; 100]) by (cbn in HW |- *; tauto).
    destruct (check_alias c W s b ch D LK p q a e wanted H4 H5 H6 H7 HW4) as (s1 & K1 & C1 & _ & K4 & _). rewrite K1, K4. change (2 =? 2) with true. cbv iota.
    pose proof (Dir_core c W _ _ C1 D) as D1. pose proof (Links_core c _ _ _ _ C1 LK) as LK1.
    assert (E1 : E c (a_mem s1) (a_dir s1) a e) by (destruct C1 as (M1 & M2 & _); rewrite M1, M2; exact H5).
    assert (PR : exists path s', get_primary c p s1 = Val path s' /\ core s1 s' /\ key path = q).
    { destruct (primary_alias c W s1 b ch D1 LK1 p q a e H4 E1 H6 H7) as (path & s2 & X1 & X2 & X3 & X4). exists path, s2. auto. }
    destruct PR as (path & s2 & P1 & C2 & KP). rewrite P1. pose proof (core_trans _ _ _ C1 C2) as C12.
    destruct (k_rec _ _ _ _ _ LK q v H3) as (a0 & e0 & n0 & R0). rewrite <- KP in R0 |- *.
    destruct (check_rec c W s2 ch (Dir_core _ _ _ _ C12 D) path v a0 e0 n0 wanted (Rec_core _ _ _ _ _ _ _ _ _ C12 R0) HW) as (s3 & X1 & X2 & X3 & X4 & X5 & X6).
    rewrite X1. cbn [negb]. pose proof (core_trans _ _ _ C12 X2) as C3.
    rewrite (read_tail (key path) v a0 e0 n0 s3 path R0 C3 X3 eq_refl X6). exists a0, e0, n0, s3. repeat split; auto; try apply C3; apply R0.
  - unfold record_of, resolve in HR. rewrite H2 in HR. congruence.
Qed.
(** Not found. *)
Lemma read_missing p wanted : record_of b (key p) = None -> In wanted [0; 1] ->
  exists s', core s s' /\ ((read_info c p wanted s = Val None s' /\ at_name c p s' /\ a_stat s' <> 2) \/ (read_info c p wanted s = Err s' /\ a_stat s = 2)).
Proof.
  intros HR HW. rewrite read_info_unfold. destruct (kinds c _ _ _ _ LK (key p)) as [v' a e n H1 H2 H3|q v' a e H1 H2 H3 H4 H5 H6 H7|H1 H2 H3].
  - destruct (record_of_rec b (key p) v' H2 H1) as [Q1 Q2]. congruence.
  - destruct (record_of_alias b (key p) q v' H1 H3) as [Q1 Q2]. congruence.
  - assert (HW3 : In wanted [0; 1; 2]) by (cbn in HW |- *; tauto).
    destruct (check_none c W s D p wanted H3 HW3) as (s1 & K1 & C1 & K3 & K4). rewrite K1. destruct (a_stat s1 =? 2) eqn:Q.
    + apply Z.eqb_eq in Q.
      pose proof (Dir_core c W _ _ C1 D) as D1.
      assert (HN1 : forall a e, E c (a_mem s1) (a_dir s1) a e -> key (t_name e) = key p -> ~ live e) by (destruct C1 as (M1 & M2 & _); rewrite M1, M2; exact H3).
      destruct (primary_none c W s1 D1 p HN1) as (s2 & X1 & C2 & _). rewrite X1. exists s2. split; [eapply core_trans; eauto|]. right. split; [reflexivity|]. destruct K4 as [K4|K4]; congruence.
    + apply Z.eqb_neq in Q. cbn [negb]. exists s1. split; [exact C1|]. left. auto.
Qed.
Lemma read_missing_any p : record_of b (key p) = None ->
  exists s', core s s' /\ ((a_stat s' <> 2 /\ (read_info c p 100 s = Val None s' \/ exists n, read_info c p 100 s = Val (Some n) s' /\ n_head n = 0)) \/
                           (read_info c p 100 s = Err s' /\ a_stat s = 2)).
Proof.
  intros HR. rewrite read_info_unfold. destruct (kinds c _ _ _ _ LK (key p)) as [v' a e n H1 H2 H3|q v' a e H1 H2 H3 H4 H5 H6 H7|H1 H2 H3].
  - destruct (record_of_rec b (key p) v' H2 H1) as [Q1 Q2]. congruence.
  - destruct (record_of_alias b (key p) q v' H1 H3) as [Q1 Q2]. congruence.
  - destruct (check_none_any c W s b ch D LK p H3) as (f & s1 & K1 & C1 & K3 & K4 & K5). rewrite K1. destruct (a_stat s1 =? 2) eqn:Q.
    + apply Z.eqb_eq in Q.
      pose proof (Dir_core c W _ _ C1 D) as D1.
      assert (HN1 : forall a e, E c (a_mem s1) (a_dir s1) a e -> key (t_name e) = key p -> ~ live e) by (destruct C1 as (M1 & M2 & _); rewrite M1, M2; exact H3).
      destruct (primary_none c W s1 D1 p HN1) as (s2 & X1 & C2 & _). rewrite X1. exists s2. split; [eapply core_trans; eauto|]. right. split; [reflexivity|]. destruct K4 as [K4|K4]; congruence.
    + apply Z.eqb_neq in Q. exists s1. split; [exact C1|]. left. split; [exact Q|]. destruct f; cbn [negb]; [|left; reflexivity].
      destruct (K5 eq_refl) as (S1 & n & N1 & N2). destruct C1 as (M1 & _). rewrite M1, N1. destruct (n_hash n =? a_hash s1); [right; eauto|left; reflexivity].
Qed.
End INFO.
