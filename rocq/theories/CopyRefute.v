(** * Property C57: concrete cases of the theorems of CopyProps.v, and what copying does not do. *)
From Coq Require Import String ZArith List Lia Bool.
From Verif Require Import Base PackModel HashModel PathModel FileModel FileLemmas FileInv FileSpec FileHist FileHistSpec FileProps FileRefute SqueezeModel SqueezeSpec SqueezeProofs SqueezeProps SqueezeRefute CopyModel CopySpec CopyProps.
Import ListNotations.
Open Scope string_scope.
Open Scope list_scope.
Open Scope Z_scope.

(** ** The hypotheses are met *)
Lemma runs_reached c W s ops t : runs c W s ops t -> CopySpec.reached c W s -> CopySpec.reached c W t.
Proof. induction 1; [auto|]. intros R. apply IHruns. eapply by_call; eauto. Qed.
Lemma reads_one c s p v v' : reads c s p v -> reads c s p v' -> v = v'.
Proof. intros [s1 E1] [s2 E2]. congruence. Qed.
Definition takesb (c : cfg) (W : Z) (t : st) (to : list Z) (ct : content) : bool :=
  properb to && name_okb to && (W <=? name_words to) && plain_unitsb ct &&
  match read_in c t to with Some (Some old) => odd_record ct <=? odd_record old | Some None => true | None => false end.
Lemma takesb_ok c W t to ct : takesb c W t to ct = true -> takes c W t to ct.
Proof.
  unfold takesb, takes. rewrite !andb_true_iff. intros ((((H1 & H2) & H3) & H4) & H5).
  split; [apply properb_ok, H1|]. split; [apply name_okb_ok, H2|]. split; [apply Z.leb_le, H3|]. split; [apply plain_unitsb_ok, H4|].
  intros old RD. destruct (read_in c t to) as [v|] eqn:E; [|discriminate]. apply read_in_ok in E. pose proof (reads_one _ _ _ _ _ E RD). subst v. apply Z.leb_le, H5.
Qed.
Definition agreesb (c : cfg) (t : st) (to : list Z) (ct : content) : bool :=
  match read_in c t to with Some (Some old) => ct_type old =? ct_type ct | Some None => true | None => false end.
Lemma agreesb_ok c t to ct : agreesb c t to ct = true -> agrees c t to ct.
Proof.
  unfold agreesb, agrees. intros H old RD. destruct (read_in c t to) as [v|] eqn:E; [|discriminate]. apply read_in_ok in E.
  pose proof (reads_one _ _ _ _ _ E RD). subst v. left. apply Z.eqb_eq, H.
Qed.

(** A record of whatever type; a small file of the other table size. *)
Definition typed (ty : Z) (p : list Z) (v : list Z) : op := Write 3 (0, 0) (mkxfer p ty [] [] [] v [] [] (zlen v) 0 0 0).
Definition small2 : list op := [Wn 66; Wn 65; Write 1 (0, 0) (req (nm 84) [1] [4] [2]); typed 300 (nm 70) [5]; Wn 90].
Definition at_small2 : st := FileRefute.reached cd2 0 small2.
Example small2_runs : runs cd2 0 (new_file cd2) small2 at_small2.
Proof. apply covered_runs. vm_compute. reflexivity. Qed.
Example small_reached : CopySpec.reached cs 3 at_small.
Proof. eapply runs_reached; [exact small_runs|]. apply at_new, cs_usable. Qed.
Example small2_reached : CopySpec.reached cd2 0 at_small2.
Proof. eapply runs_reached; [exact small2_runs|]. apply at_new, cd2_usable. Qed.
Definition ct84 : content := ct_ [1; 2; 3] [4] [5; 6; 7; 8; 9; 10; 11; 12].
Example small_reads : reads cs at_small (nm 84) (Some ct84).
Proof. apply read_in_ok. vm_compute. reflexivity. Qed.

(** Duplicate to a new name, over an existing record, from a name that is not there. *)
Example C57_duplicate_example : exists t, zduplicateRecord cs ev0 (nm 84) (nm 77) at_small = Answer Done t /\ CopySpec.reached cs 3 t /\ only_change cs at_small t (nm 77) ct84.
Proof.
  apply (C57_duplicate_partial cs 3 at_small ev0 (nm 84) (nm 77) ct84 small_reached); [apply name_okb_ok; vm_compute; reflexivity|exact small_reads| | |vm_compute; reflexivity].
  - apply takesb_ok. vm_compute. reflexivity.
  - apply agreesb_ok. vm_compute. reflexivity.
Qed.
Definition ct65 : content := ct_ [] [] [65; 65].
Example C57_duplicate_over_example : exists t, zduplicateRecord cs ev0 (nm 65) (nm 87) at_small = Answer Done t /\ CopySpec.reached cs 3 t /\ only_change cs at_small t (nm 87) ct65.
Proof.
  apply (C57_duplicate_partial cs 3 at_small ev0 (nm 65) (nm 87) ct65 small_reached); [apply name_okb_ok; vm_compute; reflexivity|apply read_in_ok; vm_compute; reflexivity| | |vm_compute; reflexivity].
  - apply takesb_ok. vm_compute. reflexivity.
  - apply agreesb_ok. vm_compute. reflexivity.
Qed.
Example C57_duplicate_missing_example : exists t, zduplicateRecord cs ev0 (nm 72) (nm 77) at_small = Answer (Found false) t /\ no_change cs at_small t.
Proof.
  apply (C57_duplicate_missing_partial cs 3 at_small ev0 (nm 72) (nm 77) small_reached); [apply name_okb_ok; vm_compute; reflexivity|apply read_in_ok; vm_compute; reflexivity|vm_compute; reflexivity].
Qed.
(** A record of another kind in the way. *)
Definition mixed : list op := small ++ [typed 90 (nm 77) [7]].
Definition at_mixed : st := FileRefute.reached cs 3 mixed.
Example mixed_reached : CopySpec.reached cs 3 at_mixed.
Proof. eapply runs_reached; [apply covered_runs; vm_compute; reflexivity|]. apply at_new, cs_usable. Qed.
Example C57_duplicate_refused_example : exists t, zduplicateRecord cs ev0 (nm 65) (nm 77) at_mixed = Answer Refused t /\ no_change cs at_mixed t.
Proof.
  apply (C57_duplicate_refused_partial cs 3 at_mixed ev0 (nm 65) (nm 77) ct65 mixed_reached); [apply name_okb_ok; vm_compute; reflexivity|apply read_in_ok; vm_compute; reflexivity| | |vm_compute; reflexivity].
  - apply takesb_ok. vm_compute. reflexivity.
  - intros H. specialize (H (mkcontent 90 [] [] [] [7] [] [] 1 1)). assert (R : reads cs at_mixed (nm 77) (Some (mkcontent 90 [] [] [] [7] [] [] 1 1))) by (apply read_in_ok; vm_compute; reflexivity).
    apply H in R. unfold same_family in R. cbn in R. lia.
Qed.
(** To another file. *)
Example C57_copy_example : exists t', zcopyRecord cs at_small cd2 ev0 (nm 65) (nm 84) at_small2 = Answer Done t' /\ CopySpec.reached cd2 0 t' /\ only_change cd2 at_small2 t' (nm 84) ct65.
Proof.
  apply (C57_copy_done_partial cs 3 at_small cd2 0 at_small2 ev0 (nm 65) (nm 84) ct65 small_reached small2_reached); [apply name_okb_ok; vm_compute; reflexivity|apply read_in_ok; vm_compute; reflexivity| | |].
  - apply takesb_ok. vm_compute. reflexivity.
  - apply agreesb_ok. vm_compute. reflexivity.
  - destruct (zcheck cs (nm 65) at_small) as [[|] s1|s1|] eqn:E; [|exfalso; apply (f_equal (fun o => match o with OK true _ => true | _ => false end)) in E; vm_compute in E; discriminate..].
    exists s1, 300. split; [exact E|]. split; [lia|]. split; [lia|]. split; [lia|].
    apply (f_equal (fun o => match o with OK _ s => fst (i8toi4 false (i_typeCat (s_ifl s))) | _ => 0 end)) in E. rewrite <- E. vm_compute. reflexivity.
Qed.

(** ** Copying a whole file: the records a history leaves are under the names it gave *)
Definition within (l : list (list Z)) (f : file) : Prop :=
  (forall q ct, records f q = Some ct -> In q l) /\ (forall q ct, trash f q ct -> In q l).
Lemma step_within l f o r f' : step f o r f' -> (forall q, In q (names_of o) -> In q l) -> within l f -> within l f'.
Proof.
  intros ST OP [N1 N2].
  assert (S : forall g q v, (forall q ct, g q = Some ct -> In q l) -> In q l -> forall q' ct, set g q v q' = Some ct -> In q' l).
  { intros g q v H1 H2 q' ct. unfold set. destruct (list_eq_dec Z.eq_dec q' q); [subst; auto|eauto]. }
  inversion ST; subst; cbn [names_of In] in OP; split; cbn [records trash]; auto; try (apply S; [exact N1|]; solve [eauto 4]).
  - intros q ct' [Q|[-> ->]]; eauto.
  - apply S; [apply S; eauto|eauto].
  - intros q ct' [Q|[-> Q]]; eauto.
  - intros q ct' [Q|[-> Q]]; eauto.
Qed.
Lemma mapped_within l f ops f' : mapped f ops f' -> (forall o q, In o ops -> In q (names_of o) -> In q l) -> within l f -> within l f'.
Proof. induction 1; [auto|]. intros HO H1. apply IHmapped; [intros; eapply HO; [right|]; eauto|]. eapply step_within; eauto. intros p Hp. eapply HO; [left; reflexivity|exact Hp]. Qed.
(** A check over the finitely many names of a history. *)
Definition all_taken (c0 : cfg) (s : st) (names : list (list Z)) (c : cfg) (W : Z) (t : st) : bool :=
  forallb (fun q => match read_in c0 s q with Some (Some ct) => takesb c W t q ct && agreesb c t q ct | Some None => true | None => false end) names.
Lemma canon_canon p : canon (canon p) = canon p.
Proof. unfold canon. rewrite map_map. apply map_ext. intros a. unfold canon_char. destruct ((97 <=? a) && (a <=? 122)) eqn:E; [|rewrite E; reflexivity]. destruct ((97 <=? a - 32) && (a - 32 <=? 122)) eqn:E'; lia. Qed.
Lemma takes_name c W t p q ct f : usable c -> Inv c W t f -> name_ok p -> canon p = canon q -> takes c W t q ct -> takes c W t p ct.
Proof.
  intros U IV NO E (T1 & T2 & T3 & T4 & T5). split; [|split; [exact NO|split; [|split; [exact T4|]]]].
  - change (canon p) with (key p) in E. change (canon q) with (key q) in E. apply (proj1 (proper_key p)). rewrite E. apply proper_key, T1.
  - assert (L : List.length p = List.length q) by (apply (f_equal (@List.length Z)) in E; unfold canon in E; rewrite !map_length in E; exact E). unfold name_words in *. rewrite L. exact T3.
  - intros old RD. apply T5. apply (inv_reads_iff c W U t f) in RD; [|assumption..]. apply (inv_reads_iff c W U t f); [assumption..|]. rewrite <- E. exact RD.
Qed.
Lemma all_taken_ok c0 W0 ops s c W t f : usable c0 -> usable c -> runs c0 W0 (new_file c0) ops s -> Inv c W t f ->
  forallb name_okb (flat_map names_of ops) = true -> all_taken c0 s (flat_map names_of ops) c W t = true ->
  forall p ct, name_ok p -> reads c0 s p (Some ct) -> takes c W t p ct /\ agrees c t p ct.
Proof.
  intros U U' R IV HN HA p ct NO RD. destruct (runs_new c0 W0 U _ _ R) as (g & M & IVg).
  assert (AP : within (flat_map names_of ops) g).
  { eapply mapped_within; [exact M| |split; cbn; [discriminate|tauto]]. intros o q Ho Hq. apply in_flat_map. eauto. }
  apply (inv_reads_iff c0 W0 U s g p _ IVg NO) in RD. symmetry in RD. pose proof (proj1 AP _ _ RD) as Q.
  unfold all_taken in HA. rewrite forallb_forall in HN, HA. specialize (HN _ Q). specialize (HA _ Q). cbv beta in HA. apply name_okb_ok in HN.
  destruct (read_in c0 s (canon p)) as [v|] eqn:E; [|discriminate]. apply read_in_ok in E.
  apply (inv_reads_iff c0 W0 U s g _ _ IVg HN) in E. rewrite canon_canon, RD in E. subst v. apply andb_true_iff in HA. destruct HA as [A1 A2].
  apply takesb_ok in A1. apply agreesb_ok in A2. split.
  - apply (takes_name c W t p (canon p) ct f U' IV NO); [symmetry; apply canon_canon|exact A1].
  - intros old RD'. apply A2. apply (inv_reads_iff c W U' t f _ _ IV NO) in RD'. apply (inv_reads_iff c W U' t f _ _ IV HN). rewrite canon_canon. exact RD'.
Qed.
Example C57_file_example : exists t', zcopyFile cd2 ev0 at_small at_small2 = Answer Done t' /\ CopySpec.reached cd2 0 t' /\
    forall p, name_ok p -> (forall ct, reads cs at_small p (Some ct) -> reads cd2 t' p (Some ct)) /\
                           (reads cs at_small p None -> forall v, reads cd2 t' p v <-> reads cd2 at_small2 p v).
Proof.
  destruct (runs_new cd2 0 cd2_usable _ _ small2_runs) as (f & _ & IV).
  apply (C57_file_partial cs 3 at_small cd2 0 at_small2 ev0 small_reached small2_reached small_no_lookalike).
  apply (all_taken_ok cs 3 small at_small cd2 0 at_small2 f cs_usable cd2_usable small_runs IV); vm_compute; reflexivity.
Qed.

(** ** What copying does not do *)
(** The check whether a series may be copied as it is (zcopyRecord.c:121-131) uses the place of the D part in the new
    name to look into the old one, and the other way round.  The place is outside the name when the names differ in
    length. *)
Definition long_name : list Z := str "/A-RATHER-LONG-BASIN-NAME/AND-A-LONG-LOCATION-NAME/FLOW/01JAN2000/1DAY/F/".
Definition short_to : list Z := str "/B/L/FLOW/01JAN2000/1DAY/F/".
Definition series_file : list op := [typed 105 short_to [1; 2; 3]].
Theorem C57_refuted_out_of_range :
  covered cs 2 series_file = true /\ option_map ct_v1 (match read_in cs (FileRefute.reached cs 2 series_file) short_to with Some o => o | None => None end) = Some [1; 2; 3] /\
  zcopyRecord cs (FileRefute.reached cs 2 series_file) cd2 ev0 short_to long_name (new_file cd2) = Undefined.
Proof. split; [vm_compute; reflexivity|]. split; vm_compute; reflexivity. Qed.
(** The same mistake lets a block of one year be copied as it is under the name of the block of another year: its values
    are there, under the wrong dates.  The texts compared are the F part of the old name and the C part of the new one. *)
Definition y2000 : list Z := str "/A/B/C/01JAN2000/1DAY/XXXXXXXXXXXXXX/".
Definition y2010 : list Z := str "/A/B/YYXXXXXXXXXXXXXX/01JAN2010/1DAY/F/".
Definition block_file : list op := [typed 105 y2000 [1; 2; 3]].
Definition target_of (a : ans) : st := match a with Answer _ s => s | _ => new_file cd2 end.
Theorem C57_refuted_other_block :
  covered cs 2 block_file = true /\
  match zcopyRecord cs (FileRefute.reached cs 2 block_file) cd2 ev0 y2000 y2010 (new_file cd2) with
  | Answer Done t => option_map ct_v1 (match read_in cd2 t y2010 with Some o => o | None => None end) = Some [1; 2; 3]
  | _ => False
  end.
Proof. split; vm_compute; reflexivity. Qed.
(** A record of another kind in the way ends the copy of a file: of the records of the source the first is copied, the
    one behind it is not. *)
Definition three : list op := [Wn 65; Wn 66; Wn 67].
Definition in_the_way : list op := [typed 90 (nm 66) [1]].
Theorem C57_refuted_file_stops :
  covered cs 2 three = true /\ covered cd2 2 in_the_way = true /\
  match zcopyFile cd2 ev0 (FileRefute.reached cs 2 three) (FileRefute.reached cd2 2 in_the_way) with
  | Answer Refused t => map (fun p => option_map (option_map ct_v1) (read_in cd2 t p)) [nm 65; nm 66; nm 67] =
      [Some (Some [65; 65]); Some (Some [1]); Some None]
  | _ => False
  end.
Proof. split; [vm_compute; reflexivity|]. split; vm_compute; reflexivity. Qed.
(** A copy to another file keeps the time the record was last written; a duplicate in the same file gets a new one. *)
Definition written_at (c : cfg) (t : st) (p : list Z) : option Z :=
  match zreadInfo c p 0 t with OK true s => Some (i_info (s_ifl s) 6) | _ => None end.
Theorem C57_refuted_duplicate_time :
  written_at cs (FileRefute.reached cs 2 three) (nm 65) = Some 1 /\
  match zcopyRecord cs (FileRefute.reached cs 2 three) cd2 ev0 (nm 65) (nm 70) (new_file cd2), zduplicateRecord cs ev0 (nm 65) (nm 70) (FileRefute.reached cs 2 three) with
  | Answer Done t, Answer Done u => written_at cd2 t (nm 70) = Some 1 /\ written_at cs u (nm 70) = Some 9
  | _, _ => False
  end.
Proof. split; [vm_compute; reflexivity|]. vm_compute. split; reflexivity. Qed.

Print Assumptions C57_refuted_out_of_range.
Print Assumptions C57_refuted_other_block.
Print Assumptions C57_refuted_file_stops.
Print Assumptions C57_refuted_duplicate_time.
