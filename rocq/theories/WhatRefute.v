(** * C58: concrete files, and where the answer is not what was changed. *)
From Coq Require Import String Ascii ZArith List Lia Bool ZifyBool.
From Verif Require Import Base ArrayLib PackModel HashModel FileModel FileSpec FileHist FileHistSpec FileProps FileRefute CStr CatModel CatSpec CatProofs CatProps CatRefute WhatModel WhatSpec WhatProps.
Import ListNotations.
Open Scope Z_scope.

(** write [v] at the time [now] *)
Definition Wt (now : Z) (p : string) (v : list Z) : op := Write now (0, 0) (req (str p) [] [] v).
Definition since (T : Z) (ops : list op) : option (list (list Z)) :=
  match play cd ops (new_file cd) with Some (_, s) => listed (zwhatChanged cd lo0 None T s) | None => None end.

(** ** The hypotheses are met *)
Definition wc1 : list op := [Wt 1000 "/A/B/FLOW/D/E/F/" [1]; Wt 2000 "/A/B/STAGE/D/E/F/" [2]; Wt 3000 "/A/C/FLOW/D/E/F/" [3]; Wt 3000 "/A/C/GONE/D/E/F/" [3]].
Definition wc2 : list op := [R_ "/A/B/FLOW/D/E/F/"; Wt 4000 "/A/B/FLOW/D/E/F/" [5; 6; 7; 8]; D_ "/A/C/GONE/D/E/F/"; Wt 2400 "/A/C/FLOW/D/E/F/" [4]; Wt 4100 "/A/D/FLOW/D/E/F/" [4]; Reopen; Catalogue].
Definition at1 : st := reached cd 2 wc1.
Definition at2 : st := match playb cd 2 wc2 at1 with Some s => s | None => at1 end.
Lemma on_runs c W ops s : match playb c W ops s with Some _ => true | None => false end = true ->
  runs c W s ops (match playb c W ops s with Some s' => s' | None => s end).
Proof. destruct (playb c W ops s) as [s'|] eqn:E; [|discriminate]. intros _. apply playb_runs, E. Qed.
Definition at12 : st := reached cd 2 (wc1 ++ wc2).
Example wc1_runs : runs cd 2 (new_file cd) wc1 at1. Proof. apply covered_runs. vm_compute. reflexivity. Qed.
Example wc2_runs : runs cd 2 at1 wc2 at2. Proof. apply on_runs. vm_compute. reflexivity. Qed.
Example wc_ends : names_end_well (wc1 ++ wc2).
Proof.
  assert (H : forallb (fun o => forallb (fun q => negb (last q 0 =? 32)) (names_of o)) (wc1 ++ wc2) = true) by (vm_compute; reflexivity).
  intros o q Ho Hq. rewrite forallb_forall in H. specialize (H o Ho). rewrite forallb_forall in H. specialize (H q Hq). intros E. rewrite E in H. discriminate.
Qed.
Example wc2_ordinary : Forall ordinary wc2. Proof. repeat constructor. Qed.
Example wc12_runs : runs cd 2 (new_file cd) (wc1 ++ wc2) at12. Proof. apply covered_runs. vm_compute. reflexivity. Qed.
Example C58_before_example : since 2500 wc1 = Some [str "/A/C/FLOW/D/E/F/"; str "/A/C/GONE/D/E/F/"]. Proof. vm_compute. reflexivity. Qed.
Example C58_answer_example : since 2500 (wc1 ++ wc2) = Some [str "/A/B/FLOW/D/E/F/"; str "/A/D/FLOW/D/E/F/"]. Proof. vm_compute. reflexivity. Qed.
Example C58_since_example :=
  C58_since_partial cd 2 wc1 at1 wc2 at2 lo0 2500 cd_usable wc1_runs wc2_runs wc_ends wc2_ordinary ltac:(reflexivity).
Example C58_changed_example :=
  C58_changed_partial cd 2 (wc1 ++ wc2) at12 lo0 2500 cd_usable wc12_runs wc_ends ltac:(repeat constructor) ltac:(reflexivity).
Example C58_crc_example : NoDup (map fst [(7, 1); (8, 2); (9, 3)]) /\ crc_changed [(9, 4); (7, 1); (8, 5); (6, 6)] [(7, 1); (8, 2); (9, 3)] = Ok [0; 2]%nat.
Proof. split; [repeat (constructor; [intros H; repeat (destruct H as [H|H]; [discriminate|]); destruct H|]); constructor|vm_compute; reflexivity]. Qed.

(** with a pattern *)
Example C58_pattern_example : match play cd (wc1 ++ wc2) (new_file cd) with
  | Some (_, s) => listed (zwhatChanged cd lo0 (Some (str "/A/D/*/*/*/*/")) 2500 s) | None => None end = Some [str "/A/D/FLOW/D/E/F/"].
Proof. vm_compute. reflexivity. Qed.

(** ** What is false *)
(** A record written in the same millisecond as the start is not reported, though the write came after it. *)
Theorem C58_refuted_same_millisecond : since 1000 [Wt 1000 "/A/B/FLOW/D/E/F/" [1]; Wt 1000 "/A/C/FLOW/D/E/F/" [2]] = Some [].
Proof. vm_compute. reflexivity. Qed.
(** A write that is refused (the record has another data type) changes nothing that can be read, but the record is reported. *)
Definition wr : op := Write 3000 (0, 0) (mkxfer (str "/A/B/FLOW/D/E/F/") 90 [] [] [] [2; 2] [] [] 2 0 0 0).
Theorem C58_refuted_refused_write :
  answers cd [Wt 1000 "/A/B/FLOW/D/E/F/" [1]; wr; R_ "/A/B/FLOW/D/E/F/"] = Some [Done; Refused; Data (Some (ct_ [] [] [1]))] /\
  since 2000 [Wt 1000 "/A/B/FLOW/D/E/F/" [1]; wr] = Some [str "/A/B/FLOW/D/E/F/"].
Proof. vm_compute. split; reflexivity. Qed.
(** A record that got its name after the start, by a rename, is not reported; nor is one that was undeleted after it.  (The
    start is 1000, the requests after it are all made later.) *)
Theorem C58_refuted_renamed :
  answers cd [Wt 1000 "/A/B/FLOW/D/E/F/" [1]; Rename (str "/A/B/FLOW/D/E/F/") (str "/A/C/FLOW/D/E/F/"); R_ "/A/C/FLOW/D/E/F/"] =
    Some [Done; Found true; Data (Some (ct_ [] [] [1]))] /\
  since 1000 [Wt 1000 "/A/B/FLOW/D/E/F/" [1]; Rename (str "/A/B/FLOW/D/E/F/") (str "/A/C/FLOW/D/E/F/")] = Some [].
Proof. vm_compute. split; reflexivity. Qed.
Theorem C58_refuted_undeleted :
  answers cd [Wt 1000 "/A/B/FLOW/D/E/F/" [1]; D_ "/A/B/FLOW/D/E/F/"; R_ "/A/B/FLOW/D/E/F/"; U_ "/A/B/FLOW/D/E/F/"; R_ "/A/B/FLOW/D/E/F/"] =
    Some [Done; Found true; Data None; Found true; Data (Some (ct_ [] [] [1]))] /\
  since 1000 [Wt 1000 "/A/B/FLOW/D/E/F/" [1]; D_ "/A/B/FLOW/D/E/F/"; U_ "/A/B/FLOW/D/E/F/"] = Some [].
Proof. vm_compute. split; reflexivity. Qed.
(** With CRC values: a record that is new since the start is not reported, whatever was there before, and two records of
    the same hash in the first catalogue make the code write past the end of its array. *)
Theorem C58_refuted_new : forall before h crc, ~ In h (map fst before) -> crc_changed [(h, crc)] before = Ok [].
Proof.
  intros before h crc N. unfold crc_changed. cbn [crc_outer length].
  assert (G : crc_inner 1 0 h crc before [] = Ok []).
  { induction before as [|[a b] t IH]; [reflexivity|]. cbn [crc_inner map fst In] in *. destruct (h =? a) eqn:E; [exfalso; apply N; left; lia|]. apply IH. tauto. }
  rewrite G. reflexivity.
Qed.
Theorem C58_refuted_overflow : crc_changed [(7, 1)] [(7, 2); (7, 3)] = Undef.
Proof. vm_compute. reflexivity. Qed.
