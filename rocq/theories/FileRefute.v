(** * Concrete histories of the record engine: defects (the [_refuted] theorems) and examples that the hypotheses of
    the theorems of FileProps.v are met by real histories. *)
From Coq Require Import ZArith List Lia Bool String Ascii.
From Verif Require Import Base PackModel HashModel FileModel FileSpec FileHistSpec FileProps.
Import ListNotations.
Open Scope Z_scope.

Definition str (s : string) : list Z := map (fun a => Z.of_nat (nat_of_ascii a)) (list_ascii_of_string s).
(** A file with the default sizes of znewFileSize.c: hash table of 8192 words, bins of 200 words, 32 bins per block. *)
Definition cd : cfg := new_cfg 100 8192 200 32 false (fun n => n + n / 10).
Lemma cd_usable : usable cd.
Proof. exists 100, 8192, 200, 32, false, (fun n => n + n / 10). repeat split; lia || discriminate. Qed.

(** All answers of a history from an empty file; None: undefined behaviour. *)
Fixpoint play (c : cfg) (ops : list op) (s : st) : option (list resp * st) :=
  match ops with
  | [] => Some ([], s)
  | o :: t => match exec c o s with
              | None => None
              | Some (r, s1) => match play c t s1 with None => None | Some (rs, s2) => Some (r :: rs, s2) end
              end
  end.
Definition answers (c : cfg) (ops : list op) : option (list resp) := option_map fst (play c ops (new_file c)).

(** A request with internal header [ih], user header [uh] and values [v]; data type 300 (text). *)
Definition req (p : list Z) (ih uh v : list Z) : xfer := mkxfer p 300 ih [] uh v [] [] 0 0 0 0.
Definition W_ (p : string) (ih uh v : list Z) : op := Write 1 (0, 0) (req (str p) ih uh v).
Definition R_ (p : string) : op := Read (str p).
Definition D_ (p : string) : op := Delete (str p).
Definition U_ (p : string) : op := Undelete (str p).
Definition ct_ (ih uh v : list Z) : content := mkcontent 300 ih [] uh v [] [] 0 0.
Definition last_answers (k : nat) (o : option (list resp)) : option (list resp) := option_map (fun l => skipn (List.length l - k) l) o.

(** 31 records in 31 different chains. *)
Definition fillers : list op :=
  map (fun n => Write 1 (0, 0) (req (str "/F/" ++ [65 + Z.of_nat n] ++ str "/C/D/E/F/") [1; 2] [] [3; 4])) (seq 0 31).

(** C22, C23: rewriting record A in place with two odd-length headers instead of one even-length header (fewer or
    equal ints in total) writes one word past A's space; here that word is the head of the bin that holds B, and B is
    lost.  Default file sizes. *)
Theorem C23_refuted_inplace_overflow :
  last_answers 4 (answers cd (fillers ++ [W_ "/A/B/C/D/E/F/" [1; 2] [] [5; 6]; W_ "/B/B/C/D/E/F/" [1; 2] [] [7; 8];
    R_ "/B/B/C/D/E/F/"; W_ "/A/B/C/D/E/F/" [1] [9] [5; 6]; R_ "/B/B/C/D/E/F/"; R_ "/A/B/C/D/E/F/"]))
  = Some [Data (Some (ct_ [1; 2] [] [7; 8])); Done; Data None; Data (Some (ct_ [1] [9] [5; 6]))].
Proof. vm_compute. reflexivity. Qed.
Theorem C22_refuted_odd_header_rewrite :
  last_answers 3 (answers cd (fillers ++ [W_ "/A/B/C/D/E/F/" [1; 2] [] [5; 6]; W_ "/B/B/C/D/E/F/" [1; 2] [] [7; 8];
    W_ "/A/B/C/D/E/F/" [1] [9] [5; 6]; R_ "/B/B/C/D/E/F/"])) = Some [Done; Done; Data None].
Proof. vm_compute. reflexivity. Qed.

(** C22: writing a new record whose E part is 12MIN (or any xMIN) reads past the end of the caller's pathname. *)
Theorem C22_refuted_new_record_xMIN : answers cd [W_ "/A/B/C/D/12MIN/F/" [] [] [1; 2]] = None.
Proof. vm_compute. reflexivity. Qed.

(** Names of one hash chain: "/x/RIVERGAUGE/y/D/E/F/" with x xor y = 3. *)
Definition nm (x : Z) : list Z := str "/" ++ [x] ++ str "/RIVERGAUGE/" ++ [Z.lxor x 3] ++ str "/D/E/F/".
Definition Wn (x : Z) : op := Write 1 (0, 0) (req (nm x) [] [] [x; x]).

(** C27: a longer deleted name in a full bin that is not the last of its chain.  The new record gets a new bin linked
    in place of the rest of the chain: the record in the old second bin can no longer be found, or listed by name. *)
Definition c27_history : list op :=
  [W_ "/A/RIVERGAUGE/B/D/E/LADUY/" [] [] [1; 2]] ++ map Wn [65; 66; 68; 69; 70; 71; 72; 73; 74; 75; 76; 77; 78; 79; 80; 81; 82; 83; 84]
  ++ [Read (nm 84); D_ "/A/RIVERGAUGE/B/D/E/LADUY/"; Wn 85; Read (nm 85); Read (nm 84)].
Theorem C27_refuted_orphaned_bin :
  last_answers 5 (answers cd c27_history) =
  Some [Data (Some (ct_ [] [] [84; 84])); Found true; Done; Data (Some (ct_ [] [] [85; 85])); Data None].
Proof. vm_compute. reflexivity. Qed.

(** C24, C36: undelete while the name is in use brings a stale second copy to life: the catalogue lists the name
    twice, and a later delete uncovers the old content. *)
Definition stale_history : list op :=
  [Wn 66; W_ "/A/RIVERGAUGE/B/D/E/F/" [] [] [1; 1]; Delete (nm 66); D_ "/A/RIVERGAUGE/B/D/E/F/"; W_ "/A/RIVERGAUGE/B/D/E/F/" [] [] [2; 2];
   U_ "/A/RIVERGAUGE/B/D/E/F/"; Catalogue; R_ "/A/RIVERGAUGE/B/D/E/F/"; D_ "/A/RIVERGAUGE/B/D/E/F/"; R_ "/A/RIVERGAUGE/B/D/E/F/"].
Theorem C24_refuted_undelete_of_live_name :
  last_answers 5 (answers cd stale_history) =
  Some [Found true; Names [str "/A/RIVERGAUGE/B/D/E/F/"; str "/A/RIVERGAUGE/B/D/E/F/"]; Data (Some (ct_ [] [] [2; 2])); Found true; Data (Some (ct_ [] [] [1; 1]))].
Proof. vm_compute. reflexivity. Qed.
Theorem C36_refuted_duplicate_after_undelete :
  last_answers 1 (answers cd (firstn 7 stale_history)) = Some [Names [str "/A/RIVERGAUGE/B/D/E/F/"; str "/A/RIVERGAUGE/B/D/E/F/"]].
Proof. vm_compute. reflexivity. Qed.

(** C25: renaming onto an existing record replaces it.  Renaming a missing record
    onto an existing one removes the existing one and answers "not found". *)
Theorem C25_onto_existing_replaces_example :
  answers cd [W_ "/A/B/C/D/E/F/" [] [] [1; 2]; W_ "/A/B/C/D/E/G/" [] [] [1; 3];
    Rename (str "/A/B/C/D/E/G/") (str "/A/B/C/D/E/F/"); R_ "/A/B/C/D/E/F/"; R_ "/A/B/C/D/E/G/"] =
  Some [Done; Done; Found true; Data (Some (ct_ [] [] [1; 3])); Data None].
Proof. vm_compute. reflexivity. Qed.
Theorem C25_refuted_missing_source_deletes_target :
  answers cd [W_ "/A/B/C/D/E/F/" [] [] [1; 2]; Rename (str "/NO/B/C/D/E/F/") (str "/A/B/C/D/E/F/"); R_ "/A/B/C/D/E/F/"] =
  Some [Done; Found false; Data None].
Proof. vm_compute. reflexivity. Qed.

(** A new name without seven slashes is taken, but completed: the record cannot be read under the name given. *)
Theorem C25_refuted_new_name_completed :
  answers cd [W_ "/A/B/C/D/E/F/" [] [] [1; 2]; Rename (str "/A/B/C/D/E/F/") (str "/OLD/NAME"); R_ "/OLD/NAME"; R_ "/OLD/NAME/////"] =
  Some [Done; Found true; Data None; Data (Some (ct_ [] [] [1; 2]))].
Proof. vm_compute. reflexivity. Qed.

(** ** The hypotheses of FileProps.v are met *)

Definition name_okb (p : list Z) : bool :=
  (zlen p <=? 392) && forallb (fun b => (0 <=? b) && (b <? 256)) p && match ztsPathCompatible p with None => true | Some _ => false end.
Lemma name_okb_ok p : name_okb p = true -> name_ok p.
Proof.
  unfold name_okb. rewrite !andb_true_iff. intros [[H1 H2] H3]. apply Z.leb_le in H1. split; [exact H1|]. split.
  - intros b Hb. rewrite forallb_forall in H2. specialize (H2 b Hb). rewrite andb_true_iff, Z.leb_le, Z.ltb_lt in H2. exact H2.
  - destruct (ztsPathCompatible p); [discriminate|reflexivity].
Qed.
Definition fitsb (x : xfer) : bool :=
  name_okb (x_path x) && ((- 2 ^ 31 <=? x_type x) && (x_type x <? 2 ^ 31)) &&
  forallb (fun l => forallb (fun v => (- 2 ^ 31 <=? v) && (v <? 2 ^ 31)) l && (zlen l <=? 10000000)) [x_ih x; x_h2 x; x_uh x; x_v1 x; x_v2 x; x_v3 x].
Lemma fitsb_ok x : fitsb x = true -> request_fits x.
Proof.
  unfold fitsb. rewrite !andb_true_iff. intros [[H1 [H2 H2']] H3]. apply Z.leb_le in H2. apply Z.ltb_lt in H2'. split; [apply name_okb_ok, H1|]. split; [lia|].
  intros l Hl. rewrite forallb_forall in H3. specialize (H3 l Hl). rewrite andb_true_iff, Z.leb_le in H3. destruct H3 as [H3 H4]. split; [|exact H4].
  intros v Hv. rewrite forallb_forall in H3. specialize (H3 v Hv). rewrite andb_true_iff, Z.leb_le, Z.ltb_lt in H3. exact H3.
Qed.
Definition read_in (c : cfg) (s : st) (p : list Z) : option (option content) := match exec c (Read p) s with Some (Data v, _) => Some v | _ => None end.
Lemma read_in_ok c s p v : read_in c s p = Some v -> reads c s p v.
Proof. unfold read_in, reads. destruct (exec c (Read p) s) as [[[| |ct| |] s']|]; try discriminate. intros H. inversion H; subst. eauto. Qed.
Definition properb (p : list Z) : bool :=
  Nat.eqb (count_occ Z.eq_dec p 47) 7 && (last p 0 =? 47) && forallb (fun b => negb (b =? 0)) p.
Lemma properb_ok p : properb p = true -> proper p.
Proof.
  unfold properb, proper. rewrite !andb_true_iff, forallb_forall. intros [[H1 H2] H3]. apply Nat.eqb_eq in H1. apply Z.eqb_eq in H2.
  split; [exact H1|]. split; [exact H2|]. intros H. apply H3 in H. discriminate.
Qed.
Definition allowedb (c : cfg) (W : Z) (s : st) (o : op) : bool :=
  match o with
  | Write _ _ x => fitsb x && (W <=? name_words (x_path x)) &&
      match read_in c s (x_path x) with Some (Some ct) => odd_request x <=? odd_record ct | Some None => true | None => false end
  | Read p => name_okb p
  | Delete p => name_okb p && (name_words p <=? W)
  | Undelete p => name_okb p && match read_in c s p with Some None => true | _ => false end
  | Rename old new => name_okb old && name_okb new && properb new && negb (if list_eq_dec Z.eq_dec (canon old) (canon new) then true else false) &&
      (W <=? name_words new) && match read_in c s new with Some None => true | Some (Some _) => name_words new <=? W | None => false end
  | Catalogue | Reopen => true
  end.
Lemma allowedb_ok c W s o : allowedb c W s o = true -> allowed c W s o.
Proof.
  destruct o as [now prog x|p|p|p|old new| |]; cbn [allowedb allowed]; rewrite ?andb_true_iff.
  - intros [[H1 H2] H3]. apply Z.leb_le in H2. split; [apply fitsb_ok, H1|]. split; [exact H2|]. intros ct HR.
    destruct (read_in c s (x_path x)) as [[ct'|]|] eqn:E; [|apply read_in_ok in E|discriminate].
    + apply read_in_ok in E. assert (Some ct = Some ct') by (eapply reads_fun; eauto). apply Z.leb_le in H3. congruence.
    + assert (Some ct = None) by (eapply reads_fun; eauto). discriminate.
  - apply name_okb_ok.
  - intros [H1 H2]. apply Z.leb_le in H2. split; [apply name_okb_ok, H1|exact H2].
  - intros [H1 H2]. split; [apply name_okb_ok, H1|]. destruct (read_in c s p) as [[ct|]|] eqn:E; try discriminate. apply read_in_ok, E.
  - intros [[[[[H1 H2] HP] H3] H4] H5]. apply Z.leb_le in H4. split; [apply name_okb_ok, H1|]. split; [apply name_okb_ok, H2|].
    split; [apply properb_ok, HP|]. split.
    + destruct (list_eq_dec Z.eq_dec (canon old) (canon new)); [discriminate|assumption].
    + split; [exact H4|]. intros HN. destruct (read_in c s new) as [[ct|]|] eqn:E; [apply Z.leb_le, H5| |discriminate]. exfalso. apply HN, read_in_ok, E.
  - auto.
  - auto.
Qed.
Fixpoint playb (c : cfg) (W : Z) (ops : list op) (s : st) : option st :=
  match ops with
  | [] => Some s
  | o :: t => if allowedb c W s o then match exec c o s with Some (_, s1) => playb c W t s1 | None => None end else None
  end.
Lemma playb_runs c W ops : forall s s', playb c W ops s = Some s' -> runs c W s ops s'.
Proof.
  induction ops as [|o t IH]; intros s s'; cbn [playb]; [intros H; inversion H; constructor|].
  destruct (allowedb c W s o) eqn:A; [|discriminate]. destruct (exec c o s) as [[r s1]|] eqn:EX; [|discriminate]. intros H.
  econstructor; [apply allowedb_ok, A|exact EX|apply IH, H].
Qed.
Definition reached (c : cfg) (W : Z) (ops : list op) : st := match playb c W ops (new_file c) with Some s => s | None => new_file c end.
Definition covered (c : cfg) (W : Z) (ops : list op) : bool := match playb c W ops (new_file c) with Some _ => true | None => false end.
Lemma covered_runs c W ops : covered c W ops = true -> runs c W (new_file c) ops (reached c W ops).
Proof. unfold covered, reached. destruct (playb c W ops (new_file c)) as [s|] eqn:E; [|discriminate]. intros _. apply playb_runs, E. Qed.

(** A history with 19 records of one chain in two bins, odd-length headers, growth, rewriting in place, deletes, slot
    reuse, undelete, renames (also onto an existing record), reopening and catalogue. *)
Definition rich : list op :=
  [Wn 65; Write 1 (0, 0) (req (nm 66) [1; 2; 3] [4] [5; 6])] ++
  map Wn [68; 69; 70; 71; 72; 73; 74; 75; 76; 77; 78; 79; 80; 81; 82; 83; 84; 85; 86] ++
  [Write 2 (0, 0) (req (nm 66) [1; 2; 3] [4] [5; 6; 7; 8; 9; 10; 11; 12]);
   Write 3 (0, 0) (req (nm 66) [1] [4; 5; 6] [5; 6]);
   Write 3 (0, 0) (mkxfer (nm 66) 310 [] [] [] [] [] [] 0 0 0 0);
   Delete (nm 69); Delete (nm 70); Undelete (nm 69); Wn 87; Rename (nm 66) (nm 84); Rename (nm 71) (str "/ANOTHER/CHAIN/FLOW/D/E/F/");
   Reopen; Delete (nm 72); Catalogue; Read (nm 84)].
Example rich_covered : covered cd 3 rich = true.
Proof. vm_compute. reflexivity. Qed.
Example rich_runs : runs cd 3 (new_file cd) rich (reached cd 3 rich).
Proof. apply covered_runs, rich_covered. Qed.
Example rich_answers :
  option_map (fun l => map (fun r => match r with Names n => Names [[Z.of_nat (List.length n)]] | _ => r end) (skipn 21 l)) (answers cd rich) = Some
  [Done; Done; Refused; Found true; Found true; Found true; Done; Found true; Found true; Done; Found true; Names [[19]];
   Data (Some (ct_ [1] [4; 5; 6] [5; 6]))].
Proof. vm_compute. reflexivity. Qed.
Definition at_rich : st := reached cd 3 rich.
Example rich_next_write : allowed cd 3 at_rich (Write 4 (0, 0) (req (nm 88) [1] [] [2])).
Proof. apply allowedb_ok. vm_compute. reflexivity. Qed.
Example rich_next_delete : allowed cd 3 at_rich (Delete (nm 65)) /\ reads cd at_rich (nm 65) (Some (ct_ [] [] [65; 65])).
Proof. split; [apply allowedb_ok|apply read_in_ok]; vm_compute; reflexivity. Qed.
Example rich_next_undelete : allowed cd 3 at_rich (Undelete (nm 72)) /\ reads cd at_rich (nm 72) None.
Proof. split; [apply allowedb_ok|apply read_in_ok]; vm_compute; reflexivity. Qed.
Example rich_next_rename : allowed cd 3 at_rich (Rename (nm 65) (nm 72)).
Proof. apply allowedb_ok. vm_compute. reflexivity. Qed.
Example rich_no_blank : forall o q, In o rich -> In q (names_of o) -> last q 0 <> 32.
Proof.
  assert (H : forallb (fun o => forallb (fun q => negb (last q 0 =? 32)) (names_of o)) rich = true) by (vm_compute; reflexivity).
  intros o q Ho Hq. rewrite forallb_forall in H. specialize (H o Ho). rewrite forallb_forall in H. specialize (H q Hq). intros E. rewrite E in H. discriminate.
Qed.
(** A crash inside the write of another record: after each of its disk writes (here the first, a middle one, and all). *)
Definition rich_then : option (resp * st) := exec cd (Write 4 (0, 0) (req (nm 88) [1] [] [2])) at_rich.
Definition then_st : st := match rich_then with Some (_, s) => s | None => at_rich end.
Example rich_crash :
  option_map fst rich_then = Some Done /\ (5 <= List.length (issued at_rich then_st))%nat /\
  read_in cd (crash at_rich then_st 1) (nm 65) = Some (Some (ct_ [] [] [65; 65])) /\
  read_in cd (crash at_rich then_st 3) (nm 65) = Some (Some (ct_ [] [] [65; 65])) /\
  read_in cd (crash at_rich then_st 0) (nm 88) = Some None /\ read_in cd (crash at_rich then_st 20) (nm 88) = Some (Some (ct_ [1] [] [2])).
Proof. split; [vm_compute; reflexivity|]. split; [vm_compute; lia|]. repeat (split; [vm_compute; reflexivity|]). vm_compute. reflexivity. Qed.

Print Assumptions C22_history_partial.
Print Assumptions C22_always_answers.
Print Assumptions C22_read_last_write_partial.
Print Assumptions C22_never_written_partial.
Print Assumptions C22_others_unchanged_partial.
Print Assumptions C24_delete_partial.
Print Assumptions C24_undelete_partial.
Print Assumptions C24_undelete_restores.
Print Assumptions C25_rename_partial.
Print Assumptions C29_crash_partial.
Print Assumptions C36_catalogue_partial.
Print Assumptions C27_refuted_orphaned_bin.
Print Assumptions C22_refused_write_changes_nothing.
Print Assumptions C22_refuted_new_record_xMIN.
Print Assumptions C22_refuted_odd_header_rewrite.
Print Assumptions C23_refuted_inplace_overflow.
Print Assumptions C24_refuted_undelete_of_live_name.
Print Assumptions C25_refuted_missing_source_deletes_target.
Print Assumptions C27_new_record_keeps_others_partial.
Print Assumptions C36_refuted_duplicate_after_undelete.
Print Assumptions C25_refuted_new_name_completed.
