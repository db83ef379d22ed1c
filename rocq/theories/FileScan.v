(** * What a lookup finds: bins as lists of entries, and the behaviour of zcheckInternal on them. *)
From Coq Require Import ZArith List Lia Bool.
From Verif Require Import Base PackModel PackProps HashModel FileModel FileLemmas.
Import ListNotations.
Open Scope Z_scope.

Record entry := mke {
  e_hash : Z; e_status : Z; e_len : Z; e_info : Z; e_tc : Z; e_lw : Z; e_dates : Z; e_words : list Z;
  (** ghost: the content of the record the entry points to *)
  e_ct : content }.

(** Words of an entry in a bin (zdssBinKeys). *)
Definition enc (e : entry) : list Z :=
  [e_hash e; e_status e; i4toi8 false (e_len e) (zlen (e_words e)); e_info e; e_tc e; e_lw e; e_dates e] ++ e_words e.
Definition encs (es : list entry) : list Z := flat_map enc es.
Definition bin_words (isize : Z) (es : list entry) (next : Z) : list Z :=
  encs es ++ repeat 0 (Z.to_nat (isize - 1 - zlen (encs es))) ++ [next].

Definition shape (e : entry) : Prop :=
  e_hash e <> 0 /\ 0 <= e_len e <= 392 /\ zlen (e_words e) = numberLongsInBytes (e_len e).
(** Stored pathname. *)
Definition e_path (e : entry) : list Z := firstn (Z.to_nat (e_len e)) (bytes_of_words (e_words e)).

Lemma encs_cons e t : encs (e :: t) = enc e ++ encs t. Proof. reflexivity. Qed.
Lemma encs_app a b : encs (a ++ b) = encs a ++ encs b.
Proof. unfold encs. apply flat_map_app. Qed.
Lemma zlen_enc e : zlen (enc e) = 7 + zlen (e_words e).
Proof. unfold enc. rewrite zlen_app. reflexivity. Qed.
Lemma nlib392 n : 0 <= n <= 392 -> 0 <= numberLongsInBytes n <= 49.
Proof. intros H. pose proof (nlib_bounds n). lia. Qed.
Lemma shape_words e : shape e -> 0 <= zlen (e_words e) <= 49.
Proof. intros (_ & H & ->). apply nlib392; assumption. Qed.
Lemma shape_unpack e : shape e ->
  i8toi4 false (i4toi8 false (e_len e) (zlen (e_words e))) = (e_len e, zlen (e_words e)).
Proof.
  intros H. pose proof (shape_words e H). destruct H as (_ & H & _).
  apply C14_unpack_pack; unfold in32, INT_MIN, INT_MAX; lia.
Qed.
Lemma bin_words_length isize es next : zlen (encs es) <= isize - 1 -> zlen (bin_words isize es next) = isize.
Proof.
  intros H. unfold bin_words. rewrite !zlen_app. unfold zlen at 2. rewrite repeat_length.
  change (zlen [next]) with 1. lia.
Qed.
Lemma bin_words_last isize es next : zlen (encs es) <= isize - 1 ->
  nth (Z.to_nat (isize - 1)) (bin_words isize es next) 0 = next.
Proof.
  intros H. pose proof (zlen_nonneg (encs es)). unfold bin_words. rewrite app_assoc.
  rewrite app_nth2; rewrite app_length, repeat_length; unfold zlen in *; [|lia].
  replace (Z.to_nat (isize - 1) - _)%nat with 0%nat by lia. reflexivity.
Qed.

(** ** Scan of one bin *)
Section SCAN.
Variables (path : list Z) (wanted a isize : Z).

Definition hitb (hash len : Z) (e : entry) : bool :=
  (e_hash e =? hash) && (e_len e =? len) && string_compare (Z.to_nat len) path (bytes_of_words (e_words e)).
Definition stok (e : entry) : bool :=
  zcompareRecordStatus (e_status e) wanted || ((e_status e =? ST_ALIAS) && negb (wanted =? ST_ALIAS)).
Definition matchb (hash len : Z) (e : entry) : bool := hitb hash len e && stok e.
Definition roomb (len : Z) (e : entry) : bool :=
  (e_status e =? ST_DELETED) && (numberLongsInBytes len <=? zlen (e_words e)).

Fixpoint ascan (es : list entry) (icount : Z) (i : ifl) : bool * ifl :=
  match es with
  | [] => (false, i)
  | e :: t =>
      let hit := hitb (i_hash i) (i_len i) e in
      let i1 := if hit then remember i a icount (e_status e) (zlen (e_words e)) (e_info e) (e_tc e) (e_lw e) (e_dates e)
                else i in
      if hit && stok e then (true, i1)
      else
        let i2 := if (e_status e =? ST_DELETED) && (i_withSpace i1 =? 0)
                     && (numberLongsInBytes (i_len i) <=? zlen (e_words e))
                  then set_withSpace a i1 else i1 in
        ascan t (icount + 7 + zlen (e_words e)) i2
  end.

Lemma scan_encs (next : Z) : forall es fuel icount i z,
  Forall shape es -> 0 <= i_len i <= 392 ->
  icount + zlen (encs es) + z + 1 = isize -> 1 <= z -> (length es < fuel)%nat ->
  scan fuel isize path wanted a (encs es ++ repeat 0 (Z.to_nat z) ++ [next]) icount i = Some (ascan es icount i).
Proof.
  induction es as [|e t IH]; intros fuel icount i z HS Hlen Hsz Hz Hf; (destruct fuel as [|fuel]; [cbn [length] in Hf; lia|]).
  - cbn [encs flat_map app scan]. destruct (Z.to_nat z) eqn:E; [lia|]. reflexivity.
  - inversion_clear HS as [|? ? He Ht]. pose proof (shape_words e He) as Hw. pose proof (shape_unpack e He) as Hu.
    assert (Hl : zlen (e_words e) = numberLongsInBytes (e_len e)) by apply He.
    rewrite encs_cons in Hsz |- *. rewrite zlen_app, zlen_enc in Hsz.
    unfold enc at 1. cbn [app scan]. rewrite eqb_f by apply He. rewrite Hu. cbv zeta.
    pose proof (zlen_nonneg (encs t)) as Hnn.
    assert (Ehit : (e_hash e =? i_hash i) && (e_len e =? i_len i) &&
       string_compare (Z.to_nat (i_len i)) path
         (bytes_of_words ((e_words e ++ encs t) ++ repeat 0 (Z.to_nat z) ++ [next]))
       = hitb (i_hash i) (i_len i) e).
    { unfold hitb. destruct (e_len e =? i_len i) eqn:El; [|rewrite !andb_false_r; reflexivity]. bz.
      f_equal. rewrite <- !app_assoc. unfold bytes_of_words at 1. rewrite flat_map_app.
      apply string_compare_app. fold (bytes_of_words (e_words e)). rewrite bytes_of_words_length.
      pose proof (nlib_bounds (e_len e)). unfold zlen in Hl. lia. }
    rewrite Ehit. cbn [ascan]. fold (stok e). set (i1 := if hitb _ _ _ then _ else i).
    assert (Hlen1 : i_len i1 = i_len i) by (unfold i1; destruct (hitb _ _ _); reflexivity).
    destruct (hitb (i_hash i) (i_len i) e && stok e) eqn:Ef; [reflexivity|].
    set (i2 := if _ && _ && _ then set_withSpace a i1 else i1).
    assert (Hlen2 : i_len i2 = i_len i) by (clear Ehit; unfold i2; destruct (_ && _ && _); exact Hlen1).
    destruct (isize - 2 <=? icount + 7 + zlen (e_words e)) eqn:Eend; bz.
    + assert (HZ : zlen (encs t) = 0) by lia. apply zlen_nil in HZ.
      assert (HT : t = []) by (destruct t as [|e' t']; [reflexivity|]; rewrite encs_cons in HZ; discriminate).
      subst t. reflexivity.
    + replace (skipn (Z.to_nat (7 + zlen (e_words e))) _) with (encs t ++ repeat 0 (Z.to_nat z) ++ [next]).
      * apply IH; auto; cbn [length] in Hf; lia.
      * replace (Z.to_nat (7 + zlen (e_words e))) with (7 + length (e_words e))%nat by (unfold zlen; lia).
        cbn [Nat.add skipn]. rewrite <- !app_assoc. rewrite skipn_app, skipn_all, Nat.sub_diag. reflexivity.
Qed.

(** First matching entry with its offset. *)
Fixpoint pick (f : entry -> bool) (off : Z) (es : list entry) : option (Z * entry) :=
  match es with
  | [] => None
  | e :: t => if f e then Some (off, e) else pick f (off + zlen (enc e)) t
  end.

Definition same_core (i i' : ifl) : Prop :=
  i_hash i' = i_hash i /\ i_addTable i' = i_addTable i /\ i_len i' = i_len i /\ i_hashBin i' = i_hashBin i /\
  i_binCur i' = i_binCur i /\ i_firstDate i' = i_firstDate i /\ i_lastDate i' = i_lastDate i /\
  i_bin i' = i_bin i /\ i_info i' = i_info i.

Definition found_at (i : ifl) (off : Z) (e : entry) : Prop :=
  i_addInfo i = e_info e /\ i_pathBinAdd i = a + off /\ i_infoAddInBin i = a + off + 3 /\
  i_status i = e_status e /\ i_pathLen i = i4toi8 false (i_len i) (zlen (e_words e)) /\ i_typeCat i = e_tc e.

Lemma ascan_spec : forall es icount i,
  match pick (matchb (i_hash i) (i_len i)) icount es with
  | Some (off, e) => exists i', ascan es icount i = (true, i') /\ same_core i i' /\ found_at i' off e
  | None => exists i', ascan es icount i = (false, i') /\ same_core i i' /\
      i_withSpace i' = if negb (i_withSpace i =? 0) then i_withSpace i
                       else if existsb (roomb (i_len i)) es then a else 0
  end.
Proof.
  induction es as [|e t IH]; intros icount i; cbn [pick ascan existsb].
  - eexists. split; [reflexivity|]. split; [unfold same_core; tauto|].
    destruct (i_withSpace i =? 0) eqn:E; cbn [negb]; bz; auto.
  - unfold matchb at 1. destruct (hitb (i_hash i) (i_len i) e && stok e) eqn:Em.
    + bz. rewrite H. eexists. split; [reflexivity|]. split; [unfold same_core; cbn; tauto|].
      unfold found_at; cbn. tauto.
    + set (i1 := if hitb _ _ _ then _ else i).
      assert (C1 : same_core i i1) by (unfold i1; destruct (hitb _ _ _); unfold same_core; cbn; tauto).
      assert (W1 : i_withSpace i1 = i_withSpace i) by (unfold i1; destruct (hitb _ _ _); reflexivity).
      set (i2 := if _ && _ && _ then set_withSpace a i1 else i1).
      assert (C2 : same_core i i2).
      { unfold i2. destruct (_ && _ && _); [|exact C1]. unfold same_core in *; cbn. tauto. }
      specialize (IH (icount + 7 + zlen (e_words e)) i2).
      replace (i_hash i2) with (i_hash i) in IH by (symmetry; apply C2).
      replace (i_len i2) with (i_len i) in IH by (symmetry; apply C2).
      rewrite zlen_enc. replace (icount + (7 + zlen (e_words e))) with (icount + 7 + zlen (e_words e)) by lia.
      destruct (pick _ _ t) as [[off e']|].
      * destruct IH as (i' & E & C & F). exists i'. split; [exact E|]. split; [|exact F].
        unfold same_core in *. intuition congruence.
      * destruct IH as (i' & E & C & F). exists i'. split; [exact E|]. split; [unfold same_core in *; intuition congruence|].
        rewrite F. unfold i2. rewrite W1.
        destruct (i_withSpace i =? 0) eqn:EW; bz; cbn [negb].
        -- unfold roomb at 2. rewrite andb_true_r.
           destruct ((e_status e =? ST_DELETED) && (numberLongsInBytes (i_len i) <=? zlen (e_words e))) eqn:ER; cbn [orb].
           ++ cbn [i_withSpace set_withSpace]. destruct (a =? 0) eqn:EA; cbn [negb]; [|reflexivity].
              bz. rewrite EA. destruct (existsb _ t); reflexivity.
           ++ rewrite W1, EW. rewrite Z.eqb_refl. cbn [negb]. reflexivity.
        -- rewrite andb_false_r. cbn [andb]. rewrite W1. rewrite eqb_f by assumption. reflexivity.
Qed.
End SCAN.

Lemma pick_spec f : forall es off o e, pick f off es = Some (o, e) ->
  exists k, nth_error es k = Some e /\ o = off + zlen (encs (firstn k es)) /\ f e = true /\
            forall j e', (j < k)%nat -> nth_error es j = Some e' -> f e' = false.
Proof.
  induction es as [|e0 t IH]; intros off o e H; cbn [pick] in H; [discriminate|].
  destruct (f e0) eqn:E.
  - inversion H; subst. exists 0%nat. cbn. split; [reflexivity|]. split; [unfold zlen; cbn; lia|]. split; [assumption|]. intros; lia.
  - apply IH in H. destruct H as (k & H1 & H2 & H3 & H4). exists (S k). cbn [nth_error firstn]. split; [assumption|].
    rewrite encs_cons, zlen_app. split; [lia|]. split; [assumption|].
    intros [|j] e' Hj He'; cbn [nth_error] in He'; [congruence|]. eapply H4; eauto. lia.
Qed.
Lemma pick_none f : forall es off, pick f off es = None <-> forall e, In e es -> f e = false.
Proof.
  induction es as [|e0 t IH]; intros off; cbn [pick]; [split; [intros _ e []|reflexivity]|].
  destruct (f e0) eqn:E; split; intros H.
  - discriminate.
  - rewrite (H e0) in E by (left; reflexivity). discriminate.
  - intros e [<-|He]; [assumption|]. eapply IH; eauto.
  - apply IH. intros e He. apply H. right; assumption.
Qed.

(** ** Chains of bins *)
Notation bin := (Z * list entry)%type.
(** Address of the first bin of a chain that ends with the word [z] (0 in a complete file). *)
Definition head_addr (z : Z) (l : list bin) : Z := match l with [] => z | (a, _) :: _ => a end.
Definition next_addr (z : Z) (l : list bin) (i : nat) : Z := head_addr z (skipn (S i) l).

Definition bin_ok (isize fs z : Z) (d : Z -> Z) (l : list bin) : Prop :=
  forall i a es, nth_error l i = Some (a, es) ->
    0 < a <= fs + 100000 /\ words d a isize = bin_words isize es (next_addr z l i) /\
    zlen (encs es) <= isize - 2 /\ Forall shape es.

Lemma bin_ok_tail isize fs z d x l : bin_ok isize fs z d (x :: l) -> bin_ok isize fs z d l.
Proof. intros H i a es Hi. exact (H (S i) a es Hi). Qed.

Fixpoint pickc (f : entry -> bool) (l : list bin) : option (Z * Z * entry) :=
  match l with
  | [] => None
  | (a, es) :: t => match pick f 0 es with Some (o, e) => Some (a, o, e) | None => pickc f t end
  end.
Fixpoint roomc (len : Z) (l : list bin) : Z :=
  match l with
  | [] => 0
  | (a, es) :: t => if existsb (roomb len) es then a else roomc len t
  end.
Fixpoint last_b (l : list bin) (d : bin) : bin := match l with [] => d | x :: t => last_b t x end.

Definition same_file (s s' : st) : Prop :=
  s_disk s' = s_disk s /\ s_dhdr s' = s_dhdr s /\ s_log s' = s_log s /\ s_hdr s' = s_hdr s.
Lemma same_file_trans a b c : same_file a b -> same_file b c -> same_file a c.
Proof. unfold same_file. intuition congruence. Qed.

Lemma length_encs es : Z.of_nat (length es) <= zlen (encs es).
Proof.
  induction es as [|e t IHt]; [cbn; lia|]. rewrite encs_cons, zlen_app, zlen_enc. cbn [length].
  pose proof (zlen_nonneg (e_words e)). lia.
Qed.

(** Parts of ifltab a chain walk leaves alone. *)
Definition same_walk (i i' : ifl) : Prop :=
  i_hash i' = i_hash i /\ i_len i' = i_len i /\ i_addTable i' = i_addTable i /\ i_hashBin i' = i_hashBin i /\
  i_firstDate i' = i_firstDate i /\ i_lastDate i' = i_lastDate i /\ i_info i' = i_info i.

Lemma chase_step c path wanted fuel a es l z s :
  58 <= c_binSize c <= 1000 ->
  bin_ok (c_binSize c) (h_fileSize (s_hdr s)) z (s_disk s) ((a, es) :: l) ->
  0 <= i_len (s_ifl s) <= 392 ->
  exists s1, same_file s s1 /\ same_walk (s_ifl s) (s_ifl s1) /\ i_binCur (s_ifl s1) = a /\
    i_bin (s_ifl s1) = bin_words (c_binSize c) es (head_addr z l) /\
    match pick (matchb path wanted (i_hash (s_ifl s)) (i_len (s_ifl s))) 0 es with
    | Some (off, e) => chase (S fuel) c path wanted a s = OK true s1 /\ found_at a (s_ifl s1) off e
    | None => i_withSpace (s_ifl s1) = (if negb (i_withSpace (s_ifl s) =? 0) then i_withSpace (s_ifl s)
                       else if existsb (roomb (i_len (s_ifl s))) es then a else 0) /\
        chase (S fuel) c path wanted a s =
          (if head_addr z l =? 0 then OK false s1 else chase fuel c path wanted (head_addr z l) s1)
    end.
Proof.
  intros Hb HB Hlen. destruct (HB 0%nat a es eq_refl) as (Ha & Hw & Hs & Hsh).
  change (next_addr z ((a, es) :: l) 0) with (head_addr z l) in Hw.
  set (b := bin_words (c_binSize c) es (head_addr z l)) in *.
  pose proof (zlen_nonneg (encs es)) as Hnn. pose proof (length_encs es) as HLE.
  pose proof (bin_words_length (c_binSize c) es (head_addr z l) ltac:(lia)) as HL. fold b in HL.
  set (i0 := set_bin b (set_binCur a (s_ifl s))).
  assert (Hsc : scan (length b) (c_binSize c) path wanted a b 0 i0 = Some (ascan path wanted a es 0 i0)).
  { unfold b, bin_words. apply scan_encs; [assumption|exact Hlen|lia|lia|].
    fold (bin_words (c_binSize c) es (head_addr z l)). fold b. unfold zlen in HL. lia. }
  assert (EQ : chase (S fuel) c path wanted a s =
    let (found, i') := ascan path wanted a es 0 i0 in
    let s1 := mkst (s_disk s) (s_dhdr s) (s_log s) (s_hdr s) i' in
    if found then OK true s1 else if head_addr z l =? 0 then OK false s1
                                  else chase fuel c path wanted (head_addr z l) s1).
  { cbn [chase]. unfold modI, getI, setI, bindM, zgetw, ret. cbn [s_hdr s_ifl s_disk s_log s_dhdr set_binCur].
    rewrite (ltb_f a 0) by lia. rewrite (ltb_f _ a) by lia. rewrite (ltb_f 10000000) by lia. cbn [orb s_hdr s_ifl s_disk s_log s_dhdr].
    rewrite Hw. fold (set_binCur a (s_ifl s)). fold i0. rewrite Hsc. destruct (ascan path wanted a es 0 i0) as [found i'].
    destruct found; [reflexivity|]. unfold b. rewrite bin_words_last by lia.
    destruct (head_addr z l =? 0); reflexivity. }
  rewrite EQ. pose proof (ascan_spec path wanted a es 0 i0) as SP.
  change (i_hash i0) with (i_hash (s_ifl s)) in SP. change (i_len i0) with (i_len (s_ifl s)) in SP.
  destruct (pick _ 0 es) as [[off e]|].
  - destruct SP as (i' & E & C & F). rewrite E. eexists. split; [|split; [|split; [|split; [|split; [reflexivity|]]]]];
      cbn [s_ifl]; [repeat split|unfold same_core, same_walk, i0 in *; cbn in C; tauto|apply C|apply C|exact F].
  - destruct SP as (i' & E & C & F). rewrite E. eexists. split; [|split; [|split; [|split; [|split; [|reflexivity]]]]];
      cbn [s_ifl]; [repeat split|unfold same_core, same_walk, i0 in *; cbn in C; tauto|apply C|apply C|exact F].
Qed.

Lemma chase_spec c path wanted z : forall l fuel a es s,
  58 <= c_binSize c <= 1000 ->
  bin_ok (c_binSize c) (h_fileSize (s_hdr s)) z (s_disk s) ((a, es) :: l) ->
  0 <= i_len (s_ifl s) <= 392 ->
  (length l < fuel)%nat ->
  match pickc (matchb path wanted (i_hash (s_ifl s)) (i_len (s_ifl s))) ((a, es) :: l) with
  | Some (a', off, e) => exists s', chase fuel c path wanted a s = OK true s' /\ same_file s s' /\
      same_walk (s_ifl s) (s_ifl s') /\ i_binCur (s_ifl s') = a' /\ found_at a' (s_ifl s') off e
  | None => z = 0 -> exists s', chase fuel c path wanted a s = OK false s' /\ same_file s s' /\
      same_walk (s_ifl s) (s_ifl s') /\ i_binCur (s_ifl s') = fst (last_b l (a, es)) /\
      i_bin (s_ifl s') = bin_words (c_binSize c) (snd (last_b l (a, es))) 0 /\
      i_withSpace (s_ifl s') = if negb (i_withSpace (s_ifl s) =? 0) then i_withSpace (s_ifl s)
                               else roomc (i_len (s_ifl s)) ((a, es) :: l)
  end.
Proof.
  induction l as [|[a1 es1] l IH]; intros fuel a es s Hb HB Hlen Hf; (destruct fuel as [|fuel]; [cbn [length] in Hf; lia|]).
  - destruct (chase_step c path wanted fuel a es [] z s Hb HB Hlen) as (s1 & SF & SW & BC & BN & R).
    cbn [pickc last_b fst snd head_addr roomc] in *.
    destruct (pick _ 0 es) as [[off e]|].
    + exists s1. tauto.
    + intros ->. exists s1. destruct R as [R1 R2]. rewrite Z.eqb_refl in R2. tauto.
  - destruct (chase_step c path wanted fuel a es ((a1, es1) :: l) z s Hb HB Hlen) as (s1 & SF & SW & BC & BN & R).
    assert (Ha1 : 0 < a1) by apply (HB 1%nat a1 es1 eq_refl).
    cbn [pickc last_b fst snd head_addr] in *.
    destruct (pick _ 0 es) as [[off e]|].
    + exists s1. tauto.
    + destruct R as [R1 R2]. rewrite eqb_f in R2 by lia. rewrite R2.
      assert (HB1 : bin_ok (c_binSize c) (h_fileSize (s_hdr s1)) z (s_disk s1) ((a1, es1) :: l)).
      { destruct SF as (-> & _ & _ & ->). eapply bin_ok_tail; eauto. }
      pose proof SW as (SH & SL & _).
      specialize (IH fuel a1 es1 s1 Hb HB1 ltac:(rewrite SL; assumption) ltac:(cbn [length] in Hf; lia)).
      rewrite SH, SL in IH. cbn [pickc] in IH. cbn [roomc].
      destruct (match pick _ 0 es1 with Some _ => _ | None => _ end) as [[[a' off] e]|].
      * destruct IH as (s' & E & F & W & B & X). exists s'. split; [exact E|]. split; [eapply same_file_trans; eauto|].
        split; [unfold same_walk in *; intuition congruence|]. tauto.
      * intros Hz. destruct (IH Hz) as (s' & E & F & W & B & X & Y). exists s'. split; [exact E|]. split; [eapply same_file_trans; eauto|].
        split; [unfold same_walk in *; intuition congruence|]. split; [exact B|]. split; [exact X|].
        rewrite Y, R1. destruct (i_withSpace (s_ifl s) =? 0) eqn:E0; cbn [negb].
        -- destruct (existsb (roomb (i_len (s_ifl s))) es) eqn:ER.
           ++ assert (0 < a) by apply (HB 0%nat a es eq_refl). rewrite eqb_f by lia. reflexivity.
           ++ rewrite Z.eqb_refl. cbn [negb]. reflexivity.
        -- rewrite E0. reflexivity.
Qed.

Lemma pickc_spec f : forall l a o e, pickc f l = Some (a, o, e) ->
  exists i es k, nth_error l i = Some (a, es) /\ nth_error es k = Some e /\ o = zlen (encs (firstn k es)) /\ f e = true /\
    (forall j e', (j < k)%nat -> nth_error es j = Some e' -> f e' = false) /\
    (forall i' a' es' e', (i' < i)%nat -> nth_error l i' = Some (a', es') -> In e' es' -> f e' = false).
Proof.
  induction l as [|[a0 es0] t IH]; intros a o e H; cbn [pickc] in H; [discriminate|].
  destruct (pick f 0 es0) as [[o' e']|] eqn:E.
  - inversion H; subst. apply pick_spec in E. destruct E as (k & H1 & H2 & H3 & H4).
    exists 0%nat, es0, k. cbn [nth_error]. repeat split; auto. intros; lia.
  - apply IH in H. destruct H as (i & es & k & H1 & H2 & H3 & H4 & H5 & H6). exists (S i), es, k. cbn [nth_error].
    repeat split; auto. intros [|i'] a' es' e' Hi Hn; cbn [nth_error] in Hn.
    + inversion Hn; subst. intros Hin. eapply pick_none; eauto.
    + eapply H6; eauto. lia.
Qed.
Lemma pickc_none f : forall l, pickc f l = None <-> forall a es e, In (a, es) l -> In e es -> f e = false.
Proof.
  induction l as [|[a0 es0] t IH]; cbn [pickc]; [split; [intros _ ? ? ? []|reflexivity]|].
  destruct (pick f 0 es0) as [[o' e']|] eqn:E; split; intros H.
  - discriminate.
  - exfalso. apply pick_spec in E. destruct E as (k & H1 & _ & H3 & _). apply nth_error_In in H1.
    rewrite (H a0 es0 e') in H3; [discriminate|left; reflexivity|assumption].
  - intros a es e [Heq|Hin] He; [inversion Heq; subst; eapply pick_none; eauto|eapply IH; eauto].
  - apply IH. intros a es e Hin He. eapply H; [right; eassumption|assumption].
Qed.
