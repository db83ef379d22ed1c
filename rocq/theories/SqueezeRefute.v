(** * Property C35: what squeezing does not keep, and concrete cases of the theorems of SqueezeProps.v. *)
From Coq Require Import ZArith List Lia Bool String.
From Verif Require Import Base PackModel HashModel FileModel FileSpec FileHistSpec FileProps FileRefute SqueezeModel SqueezeSpec SqueezeProps.
Import ListNotations.
Open Scope Z_scope.

Definition ev0 : env := mkenv 9 (7, 7) (fun _ => false) (fun ih => ih).
(** Small tables, so that the examples are computed quickly; a copy with another table size, other bins. *)
Definition cs : cfg := new_cfg 22 4 58 4 false (fun n => n + n / 10).
Definition cd2 : cfg := new_cfg 30 8 64 3 true (fun n => n).
Lemma cs_usable : usable cs.
Proof. exists 22, 4, 58, 4, false, (fun n => n + n / 10). repeat split; lia || discriminate. Qed.
Lemma cd2_usable : usable cd2.
Proof. exists 30, 8, 64, 3, true, (fun n => n). repeat split; lia || discriminate. Qed.
Definition squeezed (c' : cfg) (s : st) : st := match squeeze c' ev0 s with Some t => t | None => s end.

(** ** The hypotheses are met *)
Definition plain_unitsb (ct : content) : bool :=
  negb ((100 <=? ct_type ct) && (ct_type ct <=? 119)) || (zlen (ct_ih ct) <=? 18) || (nth 17 (ct_ih ct) 0 =? 0) || (nth 17 (ct_ih ct) 0 =? 538976288).
Lemma plain_unitsb_ok ct : plain_unitsb ct = true -> plain_units ct.
Proof. unfold plain_unitsb, plain_units, zlen. rewrite !orb_true_iff, negb_true_iff, andb_false_iff, !Z.eqb_eq, Z.leb_le, !Z.leb_gt. lia. Qed.
Definition op_plainb (o : op) : bool :=
  match o with Write _ _ x => properb (x_path x) && plain_unitsb (stored x) | Rename _ new => properb new | _ => true end.
Lemma op_plainb_ok ops : forallb op_plainb ops = true -> forall o, In o ops -> op_plain o.
Proof.
  intros H o Ho. rewrite forallb_forall in H. specialize (H o Ho). destruct o; cbn in *; auto.
  - apply andb_true_iff in H. split; [apply properb_ok|apply plain_unitsb_ok]; apply H.
  - apply properb_ok, H.
Qed.
Definition no_lookalikeb (c : cfg) (s : st) (names : list (list Z)) : bool :=
  forallb (fun a => existsb (fun p => name_okb p &&
    match zcheckInternal c p ST_PRIMARY s with OK true s' => i_addInfo (s_ifl s') =? a | _ => false end) names) (found_headers s).
Lemma no_lookalikeb_ok c s names : no_lookalikeb c s names = true -> no_lookalike c s.
Proof.
  unfold no_lookalikeb. rewrite forallb_forall. intros H a Ha. specialize (H a Ha). apply existsb_exists in H. destruct H as (p & _ & H).
  apply andb_true_iff in H. destruct H as [H1 H2]. exists p. split; [apply name_okb_ok, H1|]. unfold header_of.
  destruct (zcheckInternal c p ST_PRIMARY s) as [[|] s'| |]; try discriminate. exists s'. split; [reflexivity|]. apply Z.eqb_eq, H2.
Qed.
(** Writes, a record that moves, deletion, slot reuse, undelete, renames, reopening. *)
Definition small : list op :=
  [Wn 65; Write 1 (0, 0) (req (nm 66) [1; 2; 3] [4] [5; 6]); Wn 68; Wn 69; Wn 70; Wn 71; Wn 72;
   Write 2 (0, 0) (req (nm 66) [1; 2; 3] [4] [5; 6; 7; 8; 9; 10; 11; 12]);
   Delete (nm 69); Delete (nm 70); Undelete (nm 69); Wn 87; Rename (nm 66) (nm 84); Rename (nm 71) (str "/ANOTHER/CHAIN/FLOW/D/E/F/");
   Reopen; Delete (nm 72)].
Definition small_names : list (list Z) := flat_map names_of small.
Definition at_small : st := reached cs 3 small.
Example small_runs : runs cs 3 (new_file cs) small at_small.
Proof. apply covered_runs. vm_compute. reflexivity. Qed.
Example small_plain : forall o, In o small -> op_plain o.
Proof. apply op_plainb_ok. vm_compute. reflexivity. Qed.
Example small_no_lookalike : no_lookalike cs at_small.
Proof. apply (no_lookalikeb_ok _ _ small_names). vm_compute. reflexivity. Qed.
(** The theorem applied: the squeezed file reads the same. *)
Example C35_example : exists t, squeeze cd2 ev0 at_small = Some t /\ forall p v, name_ok p -> (reads cs at_small p v <-> reads cd2 t p v).
Proof. exact (C35_squeeze_reads_same_partial cs 3 cd2 ev0 small at_small cs_usable cd2_usable small_runs small_plain small_no_lookalike). Qed.
(** Computed: the live records are copied, the deleted ones are gone, and the file is smaller. *)
Definition kept (s t : st) (p : list Z) : bool :=
  match read_in cs s p, read_in cd2 t p with
  | Some (Some a), Some (Some b) => if list_eq_dec Z.eq_dec (ct_v1 a ++ ct_uh a) (ct_v1 b ++ ct_uh b) then true else false
  | Some None, Some None => true
  | _, _ => false
  end.
Example C35_computed_reads : forallb (kept at_small (squeezed cd2 at_small)) [nm 65; nm 84; nm 69; nm 87; str "/ANOTHER/CHAIN/FLOW/D/E/F/"; nm 66; nm 72] = true.
Proof. vm_compute. reflexivity. Qed.
Example C35_computed_undelete :
  (option_map fst (exec cs (Undelete (nm 72)) at_small), option_map fst (exec cd2 (Undelete (nm 72)) (squeezed cd2 at_small)))
  = (Some (Found true), Some (Found false)).
Proof. vm_compute. reflexivity. Qed.

(** ** What is not kept *)

(** Data that looks like a record header.  The values written are those of a (legal) record of integers; zsqueeze
    copies, besides the record, a record that never existed. *)
Definition ints_of (l : list Z) : list Z := flat_map (fun w => let (a, b) := i8toi4 false w in [a; b]) l.
Definition ghost_name : list Z := str "/NO/SUCH/RECORD/D/E/F/".
Definition ghost (addr n : Z) : list Z :=
  ints_of ([INFO_FLAG; i4toi8 false 1 0; i4toi8 false (zlen ghost_name) 0; 0; i4toi8 false 300 1] ++ repeat 0 14 ++ [addr; n] ++ repeat 0 9
           ++ words_of_bytes 3 ghost_name).
Definition haunted : list op := [W_ "/A/B/C/D/E/F/" [] [] (ghost 0 0)].
Theorem C35_refuted_phantom_record :
  covered cs 2 haunted = true /\ forallb op_plainb haunted = true /\
  read_in cs (reached cs 2 haunted) ghost_name = Some None /\
  option_map (fun t => read_in cd2 t ghost_name) (squeeze cd2 ev0 (reached cs 2 haunted)) = Some (Some (Some (ct_ [] [] []))).
Proof. split; [vm_compute; reflexivity|]. split; [vm_compute; reflexivity|]. split; vm_compute; reflexivity. Qed.
(** The same with an address outside the file: the file cannot be squeezed at all. *)
Definition unsqueezable : list op := [W_ "/A/B/C/D/E/F/" [] [] (ghost 1000000 10)].
Theorem C35_refuted_cannot_squeeze :
  covered cs 2 unsqueezable = true /\ squeeze cd2 ev0 (reached cs 2 unsqueezable) = None.
Proof. split; vm_compute; reflexivity. Qed.

(** A name without seven slashes (zwrite takes it) becomes another name. *)
Definition short_name : list op := [W_ "/OLD/NAME/C" [] [] [1; 2]].
Theorem C35_refuted_short_name :
  covered cs 2 short_name = true /\ read_in cs (reached cs 2 short_name) (str "/OLD/NAME/C") = Some (Some (ct_ [] [] [1; 2])) /\
  option_map (fun t => (read_in cd2 t (str "/OLD/NAME/C"), read_in cd2 t (str "/OLD/NAME/C////"))) (squeeze cd2 ev0 (reached cs 2 short_name))
  = Some (Some None, Some (Some (ct_ [] [] [1; 2]))).
Proof. split; [vm_compute; reflexivity|]. split; vm_compute; reflexivity. Qed.

(** A crash while the file is being replaced: in place, the file is empty or a part of the copy; otherwise there is no
    file of that name.  (The copy is complete under the temporary name in both.) *)
Theorem C35_refuted_crash_in_place n : 0 < n -> In (Part 0, Whole) (in_place n) /\ forall k, 0 <= k < n -> In (Part k, Whole) (in_place n).
Proof.
  assert (H : forall k, 0 <= k < n -> In (Part k, Whole) (in_place n)).
  { intros k Hk. unfold in_place. right. apply in_or_app. left. apply in_map_iff. exists k. split; [reflexivity|]. unfold zseq. apply in_map_iff.
    exists (Z.to_nat k). split; [lia|]. apply in_seq. lia. }
  intros Hn. split; [apply H; lia|exact H].
Qed.
Theorem C35_refuted_crash_by_rename : In (Nothing, Whole) by_rename.
Proof. cbn. tauto. Qed.
(** In every state of either replacement the original or the whole copy is on disk under one of the two names. *)
Theorem C35_one_of_the_names_partial n st : In st (in_place n) \/ In st by_rename ->
  fst st = Original \/ fst st = Whole \/ snd st = Whole.
Proof.
  unfold in_place, by_rename. cbn [In]. rewrite in_app_iff, in_map_iff. cbn [In].
  intros [[H|[H|[H|[H|H]]]]|[H|[H|[H|H]]]]; try contradiction; try (subst st; cbn; auto; fail). destruct H as (k & <- & _). auto.
Qed.

Print Assumptions C35_squeeze_reads_same_partial.
Print Assumptions C35_squeezed_history_partial.
Print Assumptions C35_nothing_to_undelete_partial.
Print Assumptions C35_refuted_phantom_record.
Print Assumptions C35_refuted_cannot_squeeze.
Print Assumptions C35_refuted_short_name.
Print Assumptions C35_refuted_crash_in_place.
Print Assumptions C35_refuted_crash_by_rename.
Print Assumptions C35_one_of_the_names_partial.
