(** * C55: cases met, and catalogues that come out wrong. *)
From Coq Require Import ZArith List Lia Bool ZifyBool Sorted Permutation String Ascii.
From Verif Require Import Base ArrayLib CStr CStrProofs PathSpec PathModel PathProofs DateModel DateTextModel IntervalModel SortSpec SortModel CatSortSpec CatSortModel CatSortProps CatSortRead.
Import ListNotations.
Open Scope Z_scope.
Local Open Scope list_scope.

Definition rec_ (k : Z) (ps : list string) : listed := {| parts := map bytes_of ps; kind := k |}.
Definition junk7 : list Z := repeat 99 7.
(** the result, by the positions of the records in [rs] *)
Definition same (a b : list Z) : bool := (slen a =? slen b) && forallb (fun p => fst p =? snd p) (combine a b).
Fixpoint place (n : list Z) (rs : list listed) : Z := match rs with [] => -1 | r :: t => if same n (name r) then 0 else let k := place n t in if k <? 0 then -1 else k + 1 end.
Definition places (w : longest) (rs : list listed) : option (list (option Z)) :=
  match sortedCatalogue junk7 (sizes w) (map (fun r => (name r, kind r)) rs) with
  | Ok (Some l) => Some (map (fun o => match o with Some n => Some (place n rs) | None => None end) l)
  | _ => None
  end.

Definition sound_b (r : listed) : bool :=
  (List.length (parts r) =? 6)%nat && forallb (fun p => forallb (fun c => (0 <? c) && (c <? 256) && negb (c =? 47) && negb (c =? 10)) p && (List.length p <=? 128)%nat) (parts r).
Lemma sound_b_ok r : sound_b r = true -> sound_name r.
Proof.
  unfold sound_b. intros H. apply andb_true_iff in H. destruct H as (H1 & H2). apply Nat.eqb_eq in H1. split; [exact H1|]. rewrite forallb_forall in H2. apply Forall_forall. intros p I. specialize (H2 p I). apply andb_true_iff in H2. destruct H2 as (H2 & H3). apply Nat.leb_le in H3. rewrite forallb_forall in H2.
  split; [apply Forall_forall; intros c Ic; specialize (H2 c Ic); lia|]. split; [intros Ic; specialize (H2 _ Ic); lia|]. split; [intros Ic; specialize (H2 _ Ic); lia|exact H3].
Qed.
Ltac ok_name := apply sound_b_ok; vm_compute; reflexivity.

(** Paired data: listed by name. *)
Definition pairs : list listed :=
  [rec_ 200 ["RIVER"; "DAM B"; "STAGE-FLOW"; ""; ""; "RATING"]; rec_ 200 ["RIVER"; "DAM A"; "STAGE-FLOW"; "2"; ""; "RATING"];
   rec_ 200 ["CREEK"; "X"; "STAGE-FLOW"; ""; ""; ""]; rec_ 200 ["RIVER"; "DAM A"; "STAGE-FLOW"; "1"; ""; "R"]]%string.
Definition w_pairs : longest := {| lA := 5; lB := 5; lC := 10; lD := 6; lE := 0; lF := 6 |}.
Example C55_order_example : alen junk7 = 7 /\ fit_a_line w_pairs /\ Forall sound_name pairs /\
  Forall (fun r => is_series (kind r) = false /\ is_grid (kind r) = false /\ in_columns w_pairs r) pairs /\
  places w_pairs pairs = Some [Some 2; Some 3; Some 1; Some 0].
Proof.
  split; [reflexivity|]. split; [split; [repeat (apply Forall_cons; [cbn; lia|]); apply Forall_nil|cbn; lia]|]. split; [|split; [|vm_compute; reflexivity]].
  - repeat (apply Forall_cons; [ok_name|]). apply Forall_nil.
  - repeat (apply Forall_cons; [split; [reflexivity|split; [reflexivity|vm_compute; intuition discriminate]]|]). apply Forall_nil.
Qed.

(** Two years of a time series, with E and F parts that are long enough. *)
Definition years : list listed :=
  [rec_ 105 ["A"; "B"; "FLOW"; "01Jan2000"; "IR-Century-X"; "COMPUTED-1"]; rec_ 105 ["A"; "B"; "FLOW"; "01Feb1990"; "IR-Century-X"; "COMPUTED-1"]]%string.
Definition w_years : longest := {| lA := 1; lB := 1; lC := 4; lD := 9; lE := 12; lF := 10 |}.
Example C55_dates_example : fit_a_line w_years /\ Forall sound_name years /\ Forall date_ok years /\ 10 <= lF w_years /\ 12 <= lE w_years /\
  places w_years years = Some [Some 1; Some 0].
Proof.
  split; [split; [repeat (apply Forall_cons; [cbn; lia|]); apply Forall_nil|cbn; lia]|]. split; [repeat (apply Forall_cons; [ok_name|]); apply Forall_nil|].
  split; [|split; [cbn; lia|split; [cbn; lia|vm_compute; reflexivity]]].
  apply Forall_cons; [|apply Forall_cons; [|apply Forall_nil]].
  - split; [|discriminate]. intros _. exists 36525. split; [vm_compute; reflexivity|lia].
  - split; [|discriminate]. intros _. exists 32904. split; [vm_compute; reflexivity|lia].
Qed.

(** REFUTED: the blocks of a time series are listed by date.  The column of the D part has the width of the longest F part
    (zcatalogInternal.c:253): with the F part "OBS" the date is cut to four characters and the order is that of the file. *)
Definition obs : list listed :=
  [rec_ 105 ["A"; "B"; "FLOW"; "01Jan2000"; "1Day"; "OBS"]; rec_ 105 ["A"; "B"; "FLOW"; "01Jan1990"; "1Day"; "OBS"]]%string.
Theorem C55_refuted_dates :
  places {| lA := 1; lB := 1; lC := 4; lD := 9; lE := 4; lF := 3 |} obs = Some [Some 0; Some 1] /\
  dateToJulian (bytes_of "01Jan2000") = Ok 36525 /\ dateToJulian (bytes_of "01Jan1990") = Ok 32873.
Proof. vm_compute. auto. Qed.
Print Assumptions C55_refuted_dates.

(** REFUTED also with a long F part: the width of the E column grows while the lines are written (zcatSortPath.c), and a line
    written after it grew comes before the lines of the same series written earlier. *)
Definition mixed : list listed :=
  [rec_ 105 ["A"; "B"; "FLOW"; "01Jan1990"; "1Day"; "COMPUTED-1"]; rec_ 110 ["A"; "B"; "STAGE"; "01Jan1990"; "IR-Year"; "COMPUTED-1"];
   rec_ 105 ["A"; "B"; "FLOW"; "01Jan2000"; "1Day"; "COMPUTED-1"]]%string.
Theorem C55_refuted_mixed_intervals :
  places {| lA := 1; lB := 1; lC := 5; lD := 9; lE := 7; lF := 10 |} mixed = Some [Some 2; Some 0; Some 1].
Proof. vm_compute. reflexivity. Qed.
Print Assumptions C55_refuted_mixed_intervals.

(** REFUTED: a sorted catalogue names every record.  When the longest parts add up to more than 380 characters a line does not fit
    the buffer of 400 bytes it is read back with (zcatInternalSort.c:94, 383): here
    one record is named three times, the two others never. *)
Definition long_ (n : nat) : string := string_of_list_ascii (repeat "Q"%char n).
Definition wide : list listed :=
  [rec_ 200 [long_ 128; "b"; "c"; ""; ""; "f"]; rec_ 200 ["a"; long_ 128; "c"; ""; ""; "f"]; rec_ 200 ["a"; "b"; long_ 128; ""; ""; "f"]]%string.
Theorem C55_refuted_complete :
  Forall (fun r => List.length (parts r) = 6%nat /\ Forall (fun p => (List.length p <= 128)%nat) (parts r)) wide /\
  places {| lA := 128; lB := 128; lC := 128; lD := 0; lE := 0; lF := 1 |} wide = Some [Some 0; Some 0; Some 0].
Proof.
  split; [|vm_compute; reflexivity].
  repeat (apply Forall_cons; [split; [reflexivity|repeat (apply Forall_cons; [vm_compute; lia|]); apply Forall_nil]|]). apply Forall_nil.
Qed.
Print Assumptions C55_refuted_complete.

(** REFUTED: the grids of a day are listed by time.  zcatSortPath gives spatialDateTime the D part without an end: the digits of the
    E part are read with those of the time, and nine digits are taken as h mm; the minutes are then written without leading zeros.
    20:00 comes before 19:00, 10:00 before 09:00. *)
Definition grids (t1 t2 e1 e2 : string) : list listed :=
  [rec_ 420 ["SHG"; "BASIN"; "PRECIP"; t1; e1; "OBSERVED-RAINFALL"]; rec_ 420 ["SHG"; "BASIN"; "PRECIP"; t2; e2; "OBSERVED-RAINFALL"]]%string.
Definition w_grids : longest := {| lA := 3; lB := 5; lC := 6; lD := 14; lE := 14; lF := 17 |}.
Theorem C55_refuted_grids :
  Forall sound_name (grids "01JAN2000:2000" "01JAN2000:1900" "01JAN2000:2100" "01JAN2000:2000") /\ fit_a_line w_grids /\
  spatialDateTime (bytes_of "01JAN2000:2000") = Ok (Some (36525, 72000)) /\ spatialDateTime (bytes_of "01JAN2000:1900") = Ok (Some (36525, 68400)) /\
  places w_grids (grids "01JAN2000:2000" "01JAN2000:1900" "01JAN2000:2100" "01JAN2000:2000") = Some [Some 0; Some 1] /\
  places w_grids (grids "01JAN2000:1000" "01JAN2000:0900" "01JAN2000:1100" "01JAN2000:1000") = Some [Some 0; Some 1].
Proof.
  split; [repeat (apply Forall_cons; [ok_name|]); apply Forall_nil|].
  split; [split; [repeat (apply Forall_cons; [cbn; lia|]); apply Forall_nil|cbn; lia]|].
  vm_compute. auto.
Qed.
Print Assumptions C55_refuted_grids.
