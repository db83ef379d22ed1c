(** * zbinUpdate: where a new directory entry goes. *)
From Coq Require Import ZArith List Lia Bool Arith.
From Verif Require Import Base PackModel PackProps HashModel FileModel FileLemmas FileScan FileInv FileDir FileLook FileRead FileAlloc FileBin.
Import ListNotations.
Open Scope Z_scope.

(** ** find_slot *)
Definition selb (useRec : bool) (path : list Z) (hash len : Z) (e : entry) : bool :=
  (useRec && ((e_status e =? ST_DELETED) || (e_status e =? ST_RENAMED)) && (zlen (e_words e) =? numberLongsInBytes len))
  || ((e_hash e =? hash) && ((Z.of_nat (length path) =? e_len e)
      && string_compare (length path) path (bytes_of_words (e_words e)))).
Fixpoint findk (f : entry -> bool) (es : list entry) : nat :=
  match es with [] => 0 | e :: t => if f e then 0 else S (findk f t) end.

Lemma find_slot_encs useRec path hash len isize next : next <> 11 -> next <> 12 ->
  forall es fuel icount z, Forall shape es -> hash <> 0 ->
  icount + zlen (encs es) + z + 1 = isize -> 1 <= z -> (length es < fuel)%nat ->
  find_slot fuel isize useRec path hash len (encs es ++ repeat 0 (Z.to_nat z) ++ [next]) icount =
    SlotAt (icount + zlen (encs (firstn (findk (selb useRec path hash len) es) es))).
Proof.
  intros N1 N2. induction es as [|e t IH]; intros fuel icount z HS HN Hsz Hz Hf; (destruct fuel as [|fuel]; [cbn [length] in Hf; lia|]).
  - cbn [encs flat_map app findk firstn]. destruct (Z.to_nat z) as [|[|zz]] eqn:E; [lia| |].
    + cbn [repeat app find_slot nth]. change (i8toi4 false 0) with (0, 0). unfold ST_DELETED, ST_RENAMED.
      rewrite (eqb_f next 11), (eqb_f next 12) by assumption. cbn [orb]. rewrite andb_false_r. cbn [andb Z.eqb].
      f_equal. unfold zlen. cbn. lia.
    + cbn [repeat app find_slot nth].
      match goal with |- context[i8toi4 false ?w] => destruct (i8toi4 false w) as [q1 q2] end.
      change (0 =? ST_DELETED) with false. change (0 =? ST_RENAMED) with false. cbn [orb]. rewrite andb_false_r. cbn [andb Z.eqb].
      f_equal. unfold zlen. cbn. lia.
  - inversion_clear HS as [|? ? He Ht]. pose proof (shape_words e He) as Hw. pose proof (shape_unpack e He) as Hu.
    assert (Hl : zlen (e_words e) = numberLongsInBytes (e_len e)) by apply He.
    rewrite encs_cons in Hsz |- *. rewrite zlen_app, zlen_enc in Hsz.
    pose proof (zlen_nonneg (encs t)) as Hnn.
    assert (ES : skipn (Z.to_nat (7 + zlen (e_words e))) (enc e ++ encs t ++ repeat 0 (Z.to_nat z) ++ [next]) =
                 encs t ++ repeat 0 (Z.to_nat z) ++ [next]).
    { replace (Z.to_nat (7 + zlen (e_words e))) with (length (enc e)) by (pose proof (zlen_enc e) as Q; unfold zlen in *; lia).
      rewrite skipn_app, skipn_all, Nat.sub_diag. reflexivity. }
    cbn [findk]. rewrite <- app_assoc.
    assert (REC : find_slot fuel isize useRec path hash len (encs t ++ repeat 0 (Z.to_nat z) ++ [next]) (icount + 7 + zlen (e_words e)) =
      SlotAt (icount + zlen (encs (firstn (S (findk (selb useRec path hash len) t)) (e :: t))))).
    { rewrite IH by (try assumption; try lia; cbn [length] in Hf; lia). cbn [firstn]. rewrite encs_cons, zlen_app, zlen_enc. f_equal. lia. }
    unfold enc at 1 in ES. unfold enc at 1. cbn [app] in ES |- *. cbn [find_slot nth]. rewrite Hu. unfold selb at 1.
    destruct (useRec && ((e_status e =? ST_DELETED) || (e_status e =? ST_RENAMED)) && (zlen (e_words e) =? numberLongsInBytes len)) eqn:ER.
    { cbn [orb firstn]. f_equal. unfold zlen. cbn. lia. }
    cbn [orb]. rewrite (eqb_f (e_hash e) 0) by apply He.
    destruct (e_hash e =? hash) eqn:EH; cbn [andb].
    + destruct (Z.of_nat (length path) =? e_len e) eqn:EL; cbn [andb].
      * bz.
        replace (string_compare (length path) path (bytes_of_words (skipn 7 (e_hash e :: e_status e :: i4toi8 false (e_len e) (zlen (e_words e)) :: e_info e :: e_tc e :: e_lw e :: e_dates e :: e_words e ++ encs t ++ repeat 0 (Z.to_nat z) ++ [next]))))
          with (string_compare (length path) path (bytes_of_words (e_words e))).
        2:{ cbn [skipn]. unfold bytes_of_words at 2. rewrite flat_map_app. symmetry. apply string_compare_app.
            fold (bytes_of_words (e_words e)). rewrite bytes_of_words_length. destruct He as (_ & B & _).
            pose proof (nlib_bounds (e_len e)). unfold zlen in Hl. lia. }
        destruct (string_compare (length path) path (bytes_of_words (e_words e))).
        -- cbn [firstn]. f_equal. unfold zlen. cbn. lia.
        -- rewrite ES. exact REC.
      * rewrite ES. exact REC.
    + rewrite leb_f by lia. rewrite ES. exact REC.
Qed.

Lemma findk_le f es : (findk f es <= length es)%nat.
Proof. induction es as [|e t IH]; cbn [findk length]; [lia|]. destruct (f e); lia. Qed.
Lemma findk_hit f es e : nth_error es (findk f es) = Some e -> f e = true.
Proof.
  revert e. induction es as [|x t IH]; intros e H; cbn [findk] in H; [discriminate|].
  destruct (f x) eqn:E; cbn [nth_error] in H; [congruence|auto].
Qed.
Lemma findk_before f es : forall j e, nth_error es j = Some e -> f e = true -> (findk f es <= j)%nat.
Proof.
  induction es as [|x t IH]; intros j e H1 H2; [destruct j; discriminate|]. cbn [findk].
  destruct j as [|j]; cbn [nth_error] in H1; [inversion H1; subst; rewrite H2; lia|].
  destruct (f x); [lia|]. specialize (IH j e H1 H2). lia.
Qed.

(** ** Splicing an entry into a bin *)
Lemma splice_replace isize l1 e0 e l2 next : zlen (enc e) = zlen (enc e0) ->
  let n := Z.to_nat (zlen (encs l1)) in
  let b := bin_words isize (l1 ++ e0 :: l2) next in
  firstn n b ++ enc e ++ skipn (n + length (enc e)) b = bin_words isize (l1 ++ e :: l2) next.
Proof.
  intros HL n b. assert (EN : n = length (encs l1)) by (unfold n, zlen; lia).
  assert (LE : length (enc e) = length (enc e0)) by (unfold zlen in HL; lia).
  unfold b, bin_words. rewrite !encs_app, !encs_cons. rewrite <- !app_assoc.
  rewrite EN. rewrite firstn_app, Nat.sub_diag, firstn_all. cbn [firstn]. rewrite app_nil_r. f_equal. f_equal.
  rewrite LE. rewrite skipn_app. rewrite skipn_all2 by lia. cbn [app].
  replace (length (encs l1) + length (enc e0) - length (encs l1))%nat with (length (enc e0)) by lia.
  rewrite skipn_app, skipn_all, Nat.sub_diag. cbn [skipn app]. f_equal. f_equal.
  rewrite !zlen_app. rewrite HL. reflexivity.
Qed.
Lemma splice_append isize es e next : zlen (encs es) + zlen (enc e) <= isize - 1 ->
  let n := Z.to_nat (zlen (encs es)) in
  let b := bin_words isize es next in
  firstn n b ++ enc e ++ skipn (n + length (enc e)) b = bin_words isize (es ++ [e]) next.
Proof.
  intros HL n b. assert (EN : n = length (encs es)) by (unfold n, zlen; lia).
  unfold b, bin_words. rewrite !encs_app, !encs_cons. cbn [encs flat_map]. rewrite !app_nil_r. rewrite <- !app_assoc.
  rewrite EN. rewrite firstn_app, Nat.sub_diag, firstn_all. cbn [firstn]. rewrite app_nil_r. f_equal. f_equal.
  rewrite skipn_app. rewrite skipn_all2 by lia. cbn [app].
  replace (length (encs es) + length (enc e) - length (encs es))%nat with (length (enc e)) by lia.
  rewrite skipn_app. f_equal.
  - rewrite zlen_app. unfold zlen in *. replace (Z.to_nat (isize - 1 - Z.of_nat (length (encs es)))) with
      (length (enc e) + Z.to_nat (isize - 1 - (Z.of_nat (length (encs es)) + Z.of_nat (length (enc e)))))%nat by lia.
    rewrite repeat_app. rewrite skipn_app, repeat_length, Nat.sub_diag. cbn [skipn].
    rewrite skipn_all2 by (rewrite repeat_length; lia). reflexivity.
  - rewrite repeat_length. replace (length (enc e) - _)%nat with 0%nat by (unfold zlen in *; lia). reflexivity.
Qed.

Lemma lset_app {A} (l1 : list A) x y l2 : lset (l1 ++ x :: l2) (length l1) y = l1 ++ y :: l2.
Proof. induction l1 as [|z t IH]; cbn [app length lset]; [reflexivity|]. rewrite IH. reflexivity. Qed.

(** ** Putting entry [e] at place [k] of bin [i] (or at its end). *)
Definition place (es : list entry) (k : nat) (e : entry) : list entry :=
  if (k <? length es)%nat then lset es k e else es ++ [e].
Lemma place_at es k e : (k <= length es)%nat -> nth_error (place es k e) k = Some e.
Proof.
  intros H. unfold place. destruct (k <? length es)%nat eqn:E; [apply Nat.ltb_lt in E|apply Nat.ltb_ge in E].
  - rewrite lset_nth by assumption. rewrite Nat.eqb_refl. reflexivity.
  - replace k with (length es) by lia. rewrite nth_error_app2, Nat.sub_diag by lia. reflexivity.
Qed.
Lemma place_other es k e j : (k <= length es)%nat -> j <> k -> nth_error (place es k e) j = nth_error es j.
Proof.
  intros H HN. unfold place. destruct (k <? length es)%nat eqn:E; [apply Nat.ltb_lt in E|apply Nat.ltb_ge in E].
  - rewrite lset_nth by assumption. rewrite (proj2 (Nat.eqb_neq k j)) by auto. reflexivity.
  - assert (k = length es) by lia. subst k. destruct (le_lt_dec (length es) j) as [L|L].
    + rewrite (proj2 (nth_error_None (es ++ [e]) j)) by (rewrite app_length; cbn; lia). symmetry. apply nth_error_None. lia.
    + apply nth_error_app1. lia.
Qed.
Lemma place_nonempty es k e : place es k e <> [].
Proof. unfold place. destruct (k <? length es)%nat eqn:E; [|destruct es; discriminate]. destruct es; [discriminate|]. destruct k; discriminate. Qed.
Lemma place_words isize es k e next :
  (forall e0, nth_error es k = Some e0 -> zlen (enc e0) = zlen (enc e)) -> (k <= length es)%nat ->
  (k = length es -> zlen (encs es) + zlen (enc e) <= isize - 2) -> zlen (encs es) <= isize - 2 ->
  let n := Z.to_nat (zlen (encs (firstn k es))) in
  let b := bin_words isize es next in
  firstn n b ++ enc e ++ skipn (n + length (enc e)) b = bin_words isize (place es k e) next /\
  zlen (encs (place es k e)) <= isize - 2.
Proof.
  intros H0 HK HA HB n b. unfold place. destruct (k <? length es)%nat eqn:E; [apply Nat.ltb_lt in E|apply Nat.ltb_ge in E].
  - destruct (nth_error es k) as [e0|] eqn:E0; [|apply nth_error_None in E0; lia].
    specialize (H0 e0 eq_refl). destruct (nth_error_split es k E0) as (l1 & l2 & -> & L). subst k n.
    rewrite firstn_app, Nat.sub_diag, firstn_all. cbn [firstn]. rewrite app_nil_r. rewrite lset_app.
    split; [apply splice_replace; lia|]. rewrite encs_app, encs_cons, !zlen_app in *. lia.
  - assert (k = length es) by lia. subst k n. rewrite firstn_all. specialize (HA eq_refl).
    split; [apply splice_append; lia|]. rewrite encs_app. cbn [encs flat_map]. rewrite app_nil_r, zlen_app. lia.
Qed.

Lemma Ctx_place c fs0 L0 K d d' own ch h i k a es e :
  Ctx c fs0 L0 K d own ch (fun _ => 0) None -> 0 <= h < c_maxHash c -> nth_error (ch h) i = Some (a, es) ->
  (k <= length es)%nat ->
  (forall e0, nth_error es k = Some e0 -> e_status e0 = 11 \/ e_status e0 = 12) ->
  eok c h e -> K (key (e_path e)) -> (live e \/ e_status e = 11) ->
  (forall x, own x <> TBin h i -> d' x = d x) ->
  words d' a (c_binSize c) = bin_words (c_binSize c) (place es k e) (next_addr 0 (ch h) i) ->
  zlen (encs (place es k e)) <= c_binSize c - 2 ->
  Ctx c fs0 L0 K d' own (setb ch h i (a, place es k e)) (fun _ => 0) (Some (h, i, k)).
Proof.
  intros [DK LM KP] Hh Hi Hk H0 HE HK HV HD HW HZ.
  assert (EA : forall h' i' k', (h', i', k') <> (h, i, k) -> entry_at (setb ch h i (a, place es k e)) (h', i', k') = entry_at ch (h', i', k')).
  { intros h' i' k' HN. rewrite (entry_setb ch h i a es _ h' i' k' Hi). destruct ((h' =? h) && (i =? i')%nat) eqn:E; [|reflexivity].
    apply andb_prop in E. destruct E as [E1 E2]. bz. apply Nat.eqb_eq in E2. subst h' i'.
    rewrite place_other by (auto; congruence). unfold entry_at. rewrite Hi. reflexivity. }
  assert (EN : entry_at (setb ch h i (a, place es k e)) (h, i, k) = Some e).
  { rewrite (entry_setb ch h i a es _ h i k Hi). rewrite Z.eqb_refl, Nat.eqb_refl. cbn [andb]. apply place_at; assumption. }
  split.
  - apply Dsk_setbin with (d := d) (es := es); auto.
    + apply Dsk_exempt. exact DK.
    + apply Forall_forall. intros x Hx. apply In_nth_error in Hx. destruct Hx as [j Hj].
      destruct (Nat.eq_dec j k) as [->|NJ]; [rewrite place_at in Hj by assumption; inversion Hj; subst; exact HE|].
      rewrite place_other in Hj by assumption. destruct (dk_bin _ _ _ _ _ _ DK h i a es Hh Hi) as (_ & _ & _ & _ & F).
      rewrite Forall_forall in F. apply F. eapply nth_error_In; eauto.
    + intros j e' Hj HS HX. assert (j <> k) by congruence. rewrite place_other in Hj by assumption. exists e'. repeat split; auto.
  - destruct LM as [M1 M2 M3 M4]. split; auto.
    + intros h' i' k' x Hx. destruct (M2 h' i' k' x Hx) as [Q|Q]; [left; exact Q|discriminate].
    + intros h' i' a' es' Hh' Hi'. rewrite setb_at in Hi' by (eapply nth_error_lt; eauto).
      assert (LEN : length (setb ch h i (a, place es k e) h') = length (ch h')) by (unfold setb; destruct (h' =? h) eqn:Eh; [bz; subst; apply lset_length|reflexivity]).
      destruct ((h' =? h) && (i =? i')%nat) eqn:E.
      * inversion Hi'; subst a' es'. apply andb_prop in E. destruct E as [E1 E2]. bz. apply Nat.eqb_eq in E2. subst h' i'.
        destruct (M3 h i a es Hh Hi) as [Q|[Q1 Q2]]; [left; exact Q|right]. rewrite LEN. split; [exact Q1|].
        assert (es = []) by (destruct es as [|e1 t1]; [reflexivity|]; specialize (Q2 0%nat e1 eq_refl); discriminate). subst es.
        cbn [length] in Hk. assert (k = 0)%nat by lia. subst k. cbn. intros [|k'] e' He'; cbn in He'; [reflexivity|destruct k'; discriminate].
      * destruct (M3 h' i' a' es' Hh' Hi') as [Q|[Q1 Q2]]; [left; exact Q|right]. rewrite LEN. split; [exact Q1|].
        intros k' e' He'. specialize (Q2 k' e' He'). discriminate.
    + intros h' Hh'. unfold setb. destruct (h' =? h) eqn:Eh; [bz; subst; rewrite lset_length|]; auto.
  - destruct KP as [K1 K2 K3]. split.
    + intros h' i' k' e' Hh' He' HL HN HX. inversion HX; subst h' i' k'. rewrite EN in He'. inversion He'; subst. contradiction.
    + intros h' i1 k1 e1 i2 k2 e2 Hh' E1 E2 V1 V2 EK NK.
      assert (N1 : (h', i1, k1) <> (h, i, k)) by (intros Q; inversion Q; subst h' i1 k1; rewrite EN in E1; inversion E1; subst; contradiction).
      assert (N2 : (h', i2, k2) <> (h, i, k)) by (intros Q; inversion Q; subst h' i2 k2; rewrite EN in E2; inversion E2; subst; rewrite EK in NK; contradiction).
      rewrite EA in E1, E2 by assumption. eapply K2; eauto.
    + intros p ct HNK HL. destruct (K3 p ct HNK HL) as (h' & i' & k' & e' & Hh' & He' & HV' & EK & EC).
      exists h', i', k', e'. split; [exact Hh'|]. split; [|auto]. rewrite EA; [exact He'|].
      intros Q. inversion Q; subst h' i' k'. unfold entry_at in He'. rewrite Hi in He'. specialize (H0 e' He'). unfold live in HV'. lia.
Qed.
