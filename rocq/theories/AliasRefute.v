(** * C28: histories that meet the hypotheses, and histories outside them where aliases fail. *)
From Coq Require Import ZArith List Lia Bool String Ascii.
From Verif Require Import Base PackModel HashModel FileModel FileSpec AliasModel AliasSpec AliasProps.
Import ListNotations.
Open Scope Z_scope.

Definition ca : dcfg := mkdcfg false 8192 200 (fun n => n).
Fixpoint nam (t : string) : list Z := match t with EmptyString => [] | String x r => Z.of_nat (nat_of_ascii x) :: nam r end.
Arguments nam _%string.
(** Answers of a history, and whether its calls are permitted. *)
Definition bname_ok (p : list Z) : bool := Z.of_nat (List.length p) <=? 392.
Definition bpermitted (W : Z) (b : book) (o : aop) : bool :=
  match o with
  | AWrite p _ _ => bname_ok p && (W <=? name_words p)
  | ADelete p => bname_ok p && match record_of b (canon p) with Some _ => name_words (resolve b (canon p)) <=? W | None => true end
  | AAdd p a => bname_ok p && bname_ok a && (W <=? name_words a)
  | ARead p | ARemove p | ARemoveAll p | ANumber p | AList p | APrimary p | ACheck p => bname_ok p
  | AReopen => true
  end.
Lemma bpermitted_ok W b o : bpermitted W b o = true -> apermitted W b o.
Proof.
  unfold bpermitted, apermitted, aname_ok, bname_ok. destruct o; rewrite ?andb_true_iff, ?Z.leb_le; try tauto.
  intros [H1 H2]. split; [exact H1|]. intros v Hv. rewrite Hv in H2. apply Z.leb_le, H2.
Qed.
Fixpoint aplay (c : dcfg) (W : Z) (ops : list aop) (s : ast) (b : book) : option (list aresp * bool) :=
  match ops with
  | [] => Some ([], true)
  | o :: t => match aexec c o s with
              | Some (r, s') => option_map (fun x => (r :: fst x, bpermitted W b o && snd x)) (aplay c W t s' (after b o r))
              | None => None
              end
  end.
Fixpoint arunto (c : dcfg) (ops : list aop) (s : ast) (b : book) : option (ast * book) :=
  match ops with
  | [] => Some (s, b)
  | o :: t => match aexec c o s with Some (r, s') => arunto c t s' (after b o r) | None => None end
  end.
Lemma aplay_visits c W : forall ops s b l, visits c W s b -> aplay c W ops s b = Some (l, true) ->
  exists s' b', arunto c ops s b = Some (s', b') /\ visits c W s' b'.
Proof.
  induction ops as [|o t IH]; intros s b l HV H; cbn [aplay arunto] in *; [eauto|].
  destruct (aexec c o s) as [[r s']|] eqn:X; [|discriminate]. destruct (aplay c W t s' (after b o r)) as [[l' k]|] eqn:Y; [|discriminate]. cbn in H. inversion H; subst.
  apply andb_true_iff in H2. destruct H2 as [H2 ->]. apply (IH _ _ l'); [|exact Y]. eapply v_call; eauto. apply bpermitted_ok, H2.
Qed.

Definition A1 := nam "/A/B/FLOW/01JAN2000/1HOUR/OBS/".
Definition A2 := nam "/a/b/Stage/01jan2000/1Hour/obs/".
Definition X1 := nam "/X/1/FLOW/01JAN2000/1HOUR/OBS/".
Definition X2 := nam "/X/2/FLOW/01JAN2000/1HOUR/OBS/".
Definition X3 := nam "/x/3/flow/01JAN2000/1HOUR/OBS/".
(** Two records, three aliases (one made through an alias), a growing rewrite through an alias, removals and a delete. *)
Definition story : list aop :=
  [ AWrite A1 100 [1; 2]; AWrite A2 100 [9]; AAdd A1 X1; AAdd X1 X2; AAdd A2 X3; ARead X2; AWrite X1 105 [1; 2; 3; 4; 5]; ARead A1;
    AAdd A1 X3; AReopen; AList X2; ANumber X1; APrimary X1; AReopen; ARemove X1; ARead X1; ARead X2; AAdd A1 X1; AList A1; ARemove X2; ANumber A1; AAdd A1 X2; ADelete X1; ARead X2; ARead A1; ARead X3;
    AWrite X2 100 [7]; ARead X2; AAdd X2 A1; ARead A1; ARemoveAll A1; ARead A1 ].
Definition story_answers : list aresp :=
  [ ADone; ADone; ADone; ADone; ADone; AData (100, [1; 2]); ADone; AData (105, [1; 2; 3; 4; 5]);
    AFail; ADone; ANames [A1; X2; X1]; ACount 2; AName A1; ADone; ADone; AMissing; AData (105, [1; 2; 3; 4; 5]); ADone; ANames [A1; X1; X2]; ADone; ACount 1; ADone; ADone; AMissing; AMissing; AData (100, [9]);
    ADone; AData (100, [7]); ADone; AData (100, [7]); ACount 1; AMissing ].
Example C28_story_example : aplay ca 4 story new_dir empty_book = Some (story_answers, true).
Proof. vm_compute. reflexivity. Qed.
(** Hence a reached state with records that have several names, as the theorems of AliasProps.v ask for. *)
Definition told : list aop := firstn 14 story.
Example C28_told_example : exists s b, visits ca 4 s b /\ record_of b (canon A1) = Some (105, [1; 2; 3; 4; 5]) /\ record_of b (canon X1) = record_of b (canon A1) /\
  primary_of b (canon X2) = Some (canon A1) /\ primary_of b (canon X3) = Some (canon A2) /\ record_of b (canon (nam "/X/4/FLOW/01JAN2000/1HOUR/OBS/")) = None /\
  apermitted 4 b (ADelete X1) /\ apermitted 4 b (AAdd X2 (nam "/X/4/FLOW/01JAN2000/1HOUR/OBS/")) /\ apermitted 4 b (AWrite X2 100 [1]) /\ same_family 105 100.
Proof.
  destruct (aplay_visits ca 4 told new_dir empty_book (firstn 14 story_answers) (v_new ca 4)) as (s & b & H1 & H2); [vm_compute; reflexivity|].
  exists s, b. split; [exact H2|].
  assert (HB : option_map snd (arunto ca told new_dir empty_book) = Some b) by (rewrite H1; reflexivity). clear H1 H2. vm_compute in HB. inversion HB; subst b. clear HB.
  split; [vm_compute; reflexivity|]. split; [vm_compute; reflexivity|]. split; [vm_compute; reflexivity|]. split; [vm_compute; reflexivity|]. split; [vm_compute; reflexivity|].
  split; [apply bpermitted_ok; vm_compute; reflexivity|]. split; [apply bpermitted_ok; vm_compute; reflexivity|]. split; [apply bpermitted_ok; vm_compute; reflexivity|]. apply FileHist.family_spec. reflexivity.
Qed.

(** ** Where the property fails *)

(** Histories with renames. *)
Inductive rop := Call (o : aop) | Ren (old new : list Z).
Definition rexec (c : dcfg) (o : rop) : ast -> option (aresp * ast) :=
  match o with Call o => aexec c o | Ren p q => arun (rename c p q) (fun b => if b then ADone else AMissing) end.
Fixpoint rplay (c : dcfg) (ops : list rop) (s : ast) : option (list aresp) :=
  match ops with
  | [] => Some []
  | o :: t => match rexec c o s with Some (r, s') => option_map (cons r) (rplay c t s') | None => None end
  end.

(** zreadInfo.c:137 looks at the status word that the last look-up left behind: after zcheck of an alias, reading or writing a
    name that is not in the file is an error; a new record cannot be written until another record has been read or the
    file is opened again. *)
Theorem C28_refuted_stale_status : 
  rplay ca [Call (AWrite A1 100 [1]); Call (AAdd A1 X1); Call (ACheck X1); Call (ARead A2); Call (AWrite A2 100 [2]); Call (ARead A1); Call (AWrite A2 100 [2]); Call (ARead A2)] new_dir
  = Some [ADone; ADone; AFound; AFail; AFail; AData (100, [1]); ADone; AData (100, [2])].
Proof. vm_compute. reflexivity. Qed.
Print Assumptions C28_refuted_stale_status.

Definition LONG := nam "/A/B/FLOW/01JAN2000/1HOUR/A MUCH LONGER VERSION/".
Definition EQUAL := nam "/A/C/FLOW/01JAN2000/1HOUR/OBS/".
(** A record renamed to a name that needs more words gets a new info block; its aliases still lead to the old one. *)
Theorem C28_refuted_rename_longer :
  rplay ca [Call (AWrite A1 100 [1]); Call (AAdd A1 X1); Ren A1 LONG; Call (ARead LONG); Call (ARead X1)] new_dir
  = Some [ADone; ADone; ADone; AData (100, [1]); AMissing].
Proof. vm_compute. reflexivity. Qed.
Print Assumptions C28_refuted_rename_longer.
(** With a name of the same length the aliases follow, unless the record has been moved since the alias was made. *)
Example C28_rename_same_length_example :
  rplay ca [Call (AWrite A1 100 [1]); Call (AAdd A1 X1); Ren A1 EQUAL; Call (ARead EQUAL); Call (ARead X1)] new_dir
  = Some [ADone; ADone; ADone; AData (100, [1]); AData (100, [1])].
Proof. vm_compute. reflexivity. Qed.
Theorem C28_refuted_rename_moved :
  rplay ca [Call (AWrite A1 100 [1]); Call (AAdd A1 X1); Call (AWrite A1 100 [1; 2]); Ren A1 EQUAL; Call (ARead EQUAL); Call (ARead X1)] new_dir
  = Some [ADone; ADone; ADone; ADone; AData (100, [1; 2]); AMissing].
Proof. vm_compute. reflexivity. Qed.
Print Assumptions C28_refuted_rename_moved.
(** Renaming an alias renames the record's info block: the record can no longer be read by its own name. *)
Theorem C28_refuted_rename_alias :
  rplay ca [Call (AWrite A1 100 [1]); Call (AAdd A1 X1); Ren X1 X2; Call (ARead A1); Call (ARead X1)] new_dir
  = Some [ADone; ADone; ADone; AMissing; AMissing].
Proof. vm_compute. reflexivity. Qed.
Print Assumptions C28_refuted_rename_alias.
(** Renaming a record to the name of an alias deletes the record the alias stands for. *)
Theorem C28_refuted_rename_onto_alias :
  rplay ca [Call (AWrite A1 100 [1]); Call (AAdd A1 X1); Call (AWrite A2 100 [2]); Ren A2 X1; Call (ARead X1); Call (ARead A1)] new_dir
  = Some [ADone; ADone; ADone; ADone; AData (100, [2]); AMissing].
Proof. vm_compute. reflexivity. Qed.
Print Assumptions C28_refuted_rename_onto_alias.
