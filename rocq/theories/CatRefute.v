(** * C47: concrete catalogues with a pattern, and where the code departs from the documentation. *)
From Coq Require Import ZArith List Lia Bool String Ascii ZifyBool.
From Verif Require Import Base ArrayLib PackModel HashModel FileModel FileSpec FileHist FileHistSpec FileRefute CStr PathModel PathSpec CatModel CatSpec CatProofs CatProps.
Import ListNotations.
Open Scope Z_scope.

Definition lo0 : locals := mkloc (repeat 9 7) (repeat 9 129) (repeat 8 129) (repeat 7 129) (repeat (mkwild 77 (-5) (repeat 1 129)) 6).
Example lo0_ok : locals_ok lo0. Proof. repeat split; repeat constructor. Qed.

Definition files : list op :=
  [ W_ "/BASIN/Gauge 1/FLOW/01JAN2020/1Hour/OBS/" [] [] [1]; W_ "/BASIN/Gauge 2/FLOW-RES IN//1Day/OBS/" [] [] [2];
    W_ "/BASIN/Gauge 2/STAGE/01JAN2020/1Day/Sim/" [] [] [3]; W_ "/BASIN/Dam/Inflow/01JAN2020/1Hour/Simulated/" [] [] [4];
    W_ "/BASIN/Gauge 3/FLOW/01JAN2021/1Hour/OBS/" [] [] [5]; D_ "/BASIN/Gauge 3/FLOW/01JAN2021/1Hour/OBS/" ].
Definition at_files : st := reached cd 5 files.
Example files_runs : runs cd 5 (new_file cd) files at_files.
Proof. apply covered_runs. vm_compute. reflexivity. Qed.

Definition pat1 : list (list Z) := map str ["*"; "gauge*"; "*flow*"; "*"; "*"; "obs"]%string.
Definition no_slashb (s : list Z) : bool := forallb (fun c => negb (c =? 47)) s.
Definition c_textb (s : list Z) : bool := forallb (fun c => (0 <? c) && (c <? 256)) s.
Definition sixb (ps : list (list Z)) : bool := (List.length ps =? 6)%nat && forallb no_slashb ps && forallb c_textb ps.
Lemma sixb_ok ps : sixb ps = true -> six_parts ps.
Proof.
  unfold sixb. rewrite !andb_true_iff. intros [[H1 H2] H3]. split; [apply Nat.eqb_eq, H1|].
  split; [rewrite forallb_forall in H2; apply Forall_forall; intros p Hp Q; specialize (H2 p Hp); unfold no_slashb in H2; rewrite forallb_forall in H2; specialize (H2 _ Q); discriminate|].
  rewrite forallb_forall in H3. apply Forall_forall. intros p Hp. specialize (H3 p Hp). unfold c_textb in H3. rewrite forallb_forall in H3. apply Forall_forall. intros x Hx. specialize (H3 x Hx). lia.
Qed.
Definition shortb (ps : list (list Z)) : bool := forallb (fun p => Z.of_nat (List.length p) <=? 128) ps.
Lemma shortb_ok ps : shortb ps = true -> short_parts ps.
Proof. unfold shortb. rewrite forallb_forall. intros H. apply Forall_forall. intros p Hp. specialize (H p Hp). lia. Qed.
Definition part_safeb (w p : list Z) : bool :=
  match w with
  | 42 :: t => match t with [] => true | _ => if last t 0 =? 42 then true else (List.length t <=? List.length p)%nat end
  | _ => true
  end && negb ((List.length w =? 2)%nat && (hd 0 w =? 42) && (last w 0 =? 42) && (List.length p =? 0)%nat).
Lemma part_safeb_ok w p : part_safeb w p = true -> part_safe w p.
Proof.
  unfold part_safeb. rewrite andb_true_iff. intros [H1 H2]. split.
  - intros t -> NT HL. unfold star in *. destruct t as [|x t]; [congruence|]. destruct (last (x :: t) 0 =? 42) eqn:E; [lia|]. apply Nat.leb_le. exact H1.
  - intros -> ->. discriminate.
Qed.
Fixpoint safeb (ws ps : list (list Z)) : bool :=
  match ws, ps with [], [] => true | w :: ws', p :: ps' => part_safeb w p && safeb ws' ps' | _, _ => false end.
Lemma safeb_ok ws : forall ps, safeb ws ps = true -> safe ws ps.
Proof.
  induction ws as [|w ws IH]; intros [|p ps] H; try discriminate; [constructor|]. cbn [safeb] in H. apply andb_true_iff in H. destruct H as [H1 H2].
  constructor; [apply part_safeb_ok, H1|apply IH, H2].
Qed.
(** the parts of a pathname *)
Fixpoint cut (acc s : list Z) : list (list Z) :=
  match s with [] => [] | c :: t => if c =? 47 then rev acc :: cut [] t else cut (c :: acc) t end.
Definition suitsb (ws : list (list Z)) (q : list Z) : bool :=
  let ps := cut [] (tl q) in
  (if list_eq_dec Z.eq_dec q (path_text ps) then true else false) && sixb ps && shortb ps && safeb ws ps.
Lemma suitsb_ok ws q : suitsb ws q = true -> suits ws q.
Proof.
  unfold suitsb. cbv zeta. rewrite !andb_true_iff. intros [[[H1 H2] H3] H4]. exists (cut [] (tl q)).
  destruct (list_eq_dec Z.eq_dec q _) as [E|]; [|discriminate]. auto using sixb_ok, shortb_ok, safeb_ok.
Qed.

(** the hypotheses of C47_select_partial are met, and this is what is listed *)
Example C47_select_example : usable cd /\ runs cd 5 (new_file cd) files at_files /\ locals_ok lo0 /\ six_parts pat1 /\ short_parts pat1 /\
  (forall o q, In o files -> In q (names_of o) -> reads cd at_files q None \/ suits pat1 q).
Proof.
  split; [apply cd_usable|]. split; [apply files_runs|]. split; [apply lo0_ok|]. split; [apply sixb_ok; vm_compute; reflexivity|]. split; [apply shortb_ok; vm_compute; reflexivity|].
  assert (H : forallb (fun o => forallb (suitsb pat1) (names_of o)) files = true) by (vm_compute; reflexivity).
  intros o q Ho Hq. right. rewrite forallb_forall in H. specialize (H o Ho). rewrite forallb_forall in H. apply suitsb_ok, H, Hq.
Qed.
Definition listed (o : out (list (list Z))) : option (list (list Z)) := match o with OK l _ => Some l | _ => None end.
Example C47_lists_example : listed (zcatalogSelect cd lo0 (Some (path_text pat1)) false select_all at_files) =
  Some [str "/BASIN/Gauge 1/FLOW/01JAN2020/1Hour/OBS/"; str "/BASIN/Gauge 2/FLOW-RES IN//1Day/OBS/"].
Proof. vm_compute. reflexivity. Qed.

Definition one (p : list Z) : st := reached cd 1 [Write 1 (0, 0) (req p [] [] [1])].
Definition one_runs (p : list Z) : bool := covered cd 1 [Write 1 (0, 0) (req p [] [] [1])].
Definition pattern (l : list string) : list (list Z) := map str l.

(** "*text" against a part shorter than the text: the comparison starts before the first character of the local array. *)
Theorem C47_refuted_short : exists ws ps, six_parts ws /\ short_parts ws /\ six_parts ps /\ short_parts ps /\
  runs cd 1 (new_file cd) [Write 1 (0, 0) (req (path_text ps) [] [] [1])] (one (path_text ps)) /\
  zcatalogSelect cd lo0 (Some (path_text ws)) false select_all (one (path_text ps)) = UB.
Proof.
  exists (pattern ["*"; "*Reservoir"; "*"; "*"; "*"; "*"]%string), (pattern ["A"; "Dam"; "FLOW"; ""; "1Day"; "OBS"]%string).
  split; [apply sixb_ok; reflexivity|]. split; [apply shortb_ok; reflexivity|]. split; [apply sixb_ok; reflexivity|]. split; [apply shortb_ok; reflexivity|].
  split; [apply covered_runs; vm_compute; reflexivity|]. vm_compute. reflexivity.
Qed.
Print Assumptions C47_refuted_short.

(** "**" matches every part but the empty one. *)
Theorem C47_refuted_two_stars : exists ws ps, six_parts ws /\ short_parts ws /\ six_parts ps /\ short_parts ps /\ name_matches ws ps /\
  runs cd 1 (new_file cd) [Write 1 (0, 0) (req (path_text ps) [] [] [1])] (one (path_text ps)) /\
  listed (zcatalogSelect cd lo0 (Some (path_text ws)) false select_all (one (path_text ps))) = Some [].
Proof.
  exists (pattern ["*"; "*"; "*"; "**"; "*"; "*"]%string), (pattern ["A"; "Dam"; "FLOW"; ""; "1Day"; "OBS"]%string).
  split; [apply sixb_ok; reflexivity|]. split; [apply shortb_ok; reflexivity|]. split; [apply sixb_ok; reflexivity|]. split; [apply shortb_ok; reflexivity|].
  split.
  { unfold name_matches, pattern. cbn [map]. repeat (apply Forall2_cons; [first [apply pm_any|apply (pm_contains []); exists [], []; reflexivity]|]). apply Forall2_nil. }
  split; [apply covered_runs; vm_compute; reflexivity|]. vm_compute. reflexivity.
Qed.
Print Assumptions C47_refuted_two_stars.

(** Parts are compared on their first 128 characters only. *)
Theorem C47_refuted_long : exists ws ps, six_parts ws /\ six_parts ps /\ ~ name_matches ws ps /\
  runs cd 1 (new_file cd) [Write 1 (0, 0) (req (path_text ps) [] [] [1])] (one (path_text ps)) /\
  listed (zcatalogSelect cd lo0 (Some (path_text ws)) false select_all (one (path_text ps))) = Some [path_text ps].
Proof.
  exists (map (fun p => p) [str "*"; repeat 65 129; str "*"; str "*"; str "*"; str "*"]),
         (map (fun p => p) [str "A"; repeat 65 128 ++ [66]; str "FLOW"; []; str "1Day"; str "OBS"]).
  split; [apply sixb_ok; reflexivity|]. split; [apply sixb_ok; reflexivity|].
  split.
  { intros M. inversion M as [|? ? ? ? _ M1]; subst. inversion M1 as [|? ? ? ? M2 _]; subst. apply match_equal in M2; [|cbn; unfold star; lia|cbn; unfold star; lia]. discriminate. }
  split; [apply covered_runs; vm_compute; reflexivity|]. vm_compute. reflexivity.
Qed.
Print Assumptions C47_refuted_long.

(** A pattern that is not a pathname (here the last slash is missing) selects everything. *)
Theorem C47_refuted_not_a_pathname : exists pat ps, six_parts ps /\ short_parts ps /\
  runs cd 1 (new_file cd) [Write 1 (0, 0) (req (path_text ps) [] [] [1])] (one (path_text ps)) /\
  pat = str "/Nothing/of/the/kind/is/here" /\
  listed (zcatalogSelect cd lo0 (Some pat) false select_all (one (path_text ps))) = Some [path_text ps].
Proof.
  exists (str "/Nothing/of/the/kind/is/here"), (pattern ["A"; "Dam"; "FLOW"; ""; "1Day"; "OBS"]%string).
  split; [apply sixb_ok; reflexivity|]. split; [apply shortb_ok; reflexivity|].
  split; [apply covered_runs; vm_compute; reflexivity|]. split; [reflexivity|]. vm_compute. reflexivity.
Qed.
Print Assumptions C47_refuted_not_a_pathname.

(** Asked for records of type 100 to 199 only (regular time series), it lists a record of type 300; and the time
    selection is then not made either. *)
Theorem C47_refuted_type : exists f ps ct, six_parts ps /\ short_parts ps /\
  runs cd 1 (new_file cd) [Write 1 (0, 0) (req (path_text ps) [] [] [1])] (one (path_text ps)) /\
  reads cd (one (path_text ps)) (path_text ps) (Some ct) /\ ~ (s_typeStart f <= ct_type ct <= s_typeEnd f) /\ 0 < s_typeStart f /\
  listed (zcatalogSelect cd lo0 None false f (one (path_text ps))) = Some [path_text ps].
Proof.
  exists (mksel 100 199 1000 2), (pattern ["A"; "Dam"; "FLOW"; ""; "1Day"; "OBS"]%string). eexists.
  split; [apply sixb_ok; reflexivity|]. split; [apply shortb_ok; reflexivity|].
  split; [apply covered_runs; vm_compute; reflexivity|]. split; [apply read_in_ok; vm_compute; reflexivity|]. split; [cbn; lia|]. split; [cbn; lia|]. vm_compute. reflexivity.
Qed.
Print Assumptions C47_refuted_type.
