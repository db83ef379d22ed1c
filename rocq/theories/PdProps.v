(** * C49: a paired data record is a table: rows, curves, labels.

    Whatever sequence of stores of whole tables, of reservations, and of stores of parts of the table (some rows of some
    curves, with or without the label of the curve) has been made, a read of any part shows the numbers and labels put
    there last. *)
From Coq Require Import ZArith List Lia Bool.
From Verif Require Import Base ArrayLib PdModel PdSpec PdProofs PdLoop PdLabel PdRep PdRead.
Import ListNotations.
Open Scope Z_scope.
Open Scope res_scope.

(** The stores asked for, one after the other on a record that starts as [r]; false as soon as one is refused. *)
Fixpoint store_all widen narrow junk (ops : list op) (t : option table) (r : option pdrec) : res (bool * option pdrec) :=
  match ops with
  | [] => Ok (true, r)
  | o :: rest =>
      let '(flag, p) := request o t in
      let* '(ok, r') := zpdStore widen narrow junk flag p r in
      if ok then store_all widen narrow junk rest (effect widen narrow o t) r' else Ok (false, r')
  end.

(** The labels are shown when curves are asked for, or all of the table (see the refutation [C49_rows_lose_labels_refuted]).
    [n] and [c]: counts left in the struct the caller reads into, 0 in a new one. *)
Theorem C49_history_partial : forall widen narrow junk ops, all_covered widen narrow ops None ->
  exists r, store_all widen narrow junk ops None None = Ok (true, r) /\
    match result widen narrow ops with
    | None => forall flag n c so eo sc ec, zpdRetrieve widen narrow flag n c sc ec so eo r = Ok None
    | Some t =>
        forall flag n c so eo sc ec, 0 <= flag <= 2 -> range_ok so eo (t_n t) -> range_ok sc ec (t_c t) ->
          (n = 0 \/ n = t_n t) -> (c = 0 \/ c = t_c t) ->
          exists o, zpdRetrieve widen narrow flag n c sc ec so eo r = Ok (Some o) /\ shows widen narrow t flag so eo sc ec o
    end.
Proof.
  intros widen narrow junk ops H.
  assert (G : forall ops t r, match t, r with Some t, Some r => rep t r | None, None => True | _, _ => False end -> all_covered widen narrow ops t ->
    exists r', store_all widen narrow junk ops t r = Ok (true, r') /\
      match fold_left (fun t o => effect widen narrow o t) ops t, r' with Some t, Some r => rep t r | None, None => True | _, _ => False end).
  { clear. induction ops as [|o ops IH]; intros t r R H; [exists r; split; [reflexivity|exact R]|]. destruct H as [Hc H]. cbn [store_all fold_left].
    assert (S : exists r1, zpdStore widen narrow junk (fst (request o t)) (snd (request o t)) r = Ok (true, Some r1) /\ exists t1, effect widen narrow o t = Some t1 /\ rep t1 r1).
    { destruct o as [flag ords vals n c labs|flag ords n c labs|vals so eo sc ec lab].
      - apply (put_all_ok widen narrow junk flag ords vals n c labs t r Hc).
      - apply (reserve_ok widen narrow junk flag ords n c labs t r Hc).
      - destruct t as [t|]; [|destruct Hc]. destruct r as [r|]; [|destruct R]. apply (put_part_ok widen narrow junk vals so eo sc ec lab t r R Hc). }
    destruct S as (r1 & E & t1 & Et & R1). destruct (request o t) as [flag p]. cbn [fst snd] in E. rewrite E. cbn [bind]. rewrite Et in *. apply IH; assumption. }
  destruct (G ops None None I H) as (r & E & R). exists r. split; [exact E|]. unfold result. destruct (fold_left _ ops None) as [t|].
  - destruct r as [r|]; [|destruct R]. intros flag n c so eo sc ec Hf Hr Hq Hn Hc. apply read_ok; assumption.
  - destruct r as [r|]; [destruct R|]. intros. unfold zpdRetrieve. reflexivity.
Qed.
Print Assumptions C49_history_partial.

(** In particular: an element not in the part stored is left alone, an element in it is what was given (converted to the
    type of the table). *)
Theorem C49_part_partial : forall widen narrow junk ops vals so eo sc ec lab t,
  all_covered widen narrow (ops ++ [PutPart vals so eo sc ec lab]) None -> result widen narrow ops = Some t ->
  exists r, store_all widen narrow junk (ops ++ [PutPart vals so eo sc ec lab]) None None = Ok (true, r) /\
  exists o, zpdRetrieve widen narrow 0 0 0 0 0 0 0 r = Ok (Some o) /\
    (forall row, 0 <= row < t_n t -> el (o_ords o) row = Some (cast widen narrow (t_dbl t) (t_ord t row))) /\
    forall row curve, 0 <= row < t_n t -> 0 <= curve < t_c t -> el (o_vals o) (curve * t_n t + row) =
      Some (cast widen narrow (t_dbl t)
        (if inside so eo (t_n t) row && inside sc ec (t_c t) curve
         then cast widen narrow (t_dbl t) (num_at vals ((curve - from sc) * (upto eo (t_n t) - from so) + (row - from so)))
         else t_val t row curve)).
Proof.
  intros widen narrow junk ops vals so eo sc ec lab t H R. destruct (C49_history_partial widen narrow junk _ H) as (r & E & G). exists r. split; [exact E|].
  unfold result in G. rewrite fold_left_app in G. cbn [fold_left] in G. fold (result widen narrow ops) in G. rewrite R in G. cbn [effect] in G.
  destruct (G 0 0 0 0 0 0 0 ltac:(lia) (or_introl (conj eq_refl eq_refl)) (or_introl (conj eq_refl eq_refl)) (or_introl eq_refl) (or_introl eq_refl)) as (o & Eo & S).
  exists o. split; [exact Eo|]. unfold shows in S. cbn [t_n t_c t_dbl t_ord t_val wanted Z.eqb] in S. change (upto 0 (t_n t)) with (t_n t) in S. change (upto 0 (t_c t)) with (t_c t) in S. change (from 0) with 0 in S. rewrite !Z.sub_0_r in S.
  destruct S as (_ & _ & _ & _ & _ & _ & _ & S1 & S2 & _). split; [intros row Hr; exact (S1 row Hr)|]. intros row curve Hr Hc. exact (S2 row curve Hr Hc).
Qed.
Print Assumptions C49_part_partial.

(** ** A case *)
Section Example.
Let w (x : Z) : Z * Z := (x, 0).
Let nr (d : Z * Z) : Z := fst d.
(** three rows and three curves of floats with labels A, B and C and four bytes to spare; then rows 2 and 3 of curve 2, with the
    label "Mid"; then row 1 of all curves *)
Definition ex_ops : list op :=
  [PutAll 0 (AF [10; 20; 30]) (AF [1; 2; 3; 11; 12; 13; 21; 22; 23]) 3 3 (Some ([[65]; [66]; [67]], 4));
   PutPart (AF [112; 113]) 2 3 2 2 (Some [77; 105; 100]);
   PutPart (AF [901; 911; 921]) 1 1 0 0 None].
Example C49_history_example :
  all_covered w nr ex_ops None /\
  (exists r, store_all w nr 7 ex_ops None None = Ok (true, r) /\
    zpdRetrieve w nr 0 0 0 0 0 0 0 r =
      Ok (Some (mk_pdout false 3 3 3 3 (AF [10; 20; 30]) (AF [901; 2; 3; 911; 112; 113; 921; 22; 23]) [65; 0; 77; 105; 100; 0; 67; 0])) /\
    zpdRetrieve w nr 2 0 0 2 3 2 3 r =
      Ok (Some (mk_pdout true 3 3 2 2 (AD [(20, 0); (30, 0)]) (AD [(112, 0); (113, 0); (22, 0); (23, 0)]) [77; 105; 100; 0; 67; 0]))).
Proof.
  split.
  - cbn. unfold small, clean, range_ok, proper_part, from, upto. cbn. repeat split; try lia; try (intros l [<-|[<-|[<-|[]]]]; cbn; intros [Q|[]]; lia).
    + vm_compute. discriminate.
    + exists [[65]; [66]; [67]]. split; [reflexivity|]. vm_compute. discriminate.
  - eexists. split; [vm_compute; reflexivity|]. split; vm_compute; reflexivity.
Qed.
(** space set aside for doubles, then a curve of floats *)
Definition ex_reserve : list op := [Reserve 12 (AF [10; 20; 30]) 3 2 None; PutPart (AF [5; 6; 7]) 0 0 2 2 None].
Example C49_reserve_example :
  all_covered w nr ex_reserve None /\
  (exists r, store_all w nr 7 ex_reserve None None = Ok (true, r) /\
    zpdRetrieve w nr 0 0 0 0 0 0 0 r = Ok (Some (mk_pdout true 3 2 3 2 (AD [(10, 0); (20, 0); (30, 0)]) (AD [(0, 0); (0, 0); (0, 0); (5, 0); (6, 0); (7, 0)]) []))).
Proof.
  split.
  - cbn. unfold small, range_ok, proper_part, from, upto. cbn. repeat split; lia.
  - eexists. split; [vm_compute; reflexivity|]. vm_compute. reflexivity.
Qed.
End Example.

(** ** What is missing, and why: requests outside [covered] that the library takes and answers wrongly. *)
Section Refuted.
Variables (widen : Z -> Z * Z) (narrow : Z * Z -> Z) (junk : Z).
Definition abc (extra : list Z) : pds :=
  mk_pds (Some (AF [10; 20; 30])) (Some (AF [1; 2; 3; 11; 12; 13; 21; 22; 23])) 3 3 0 0 0 0
    ([65; 0; 66; 0; 67; 0] ++ extra) (6 + Z.of_nat (length extra)).
Definition then_read (p q : pds) (sc ec so eo : Z) : res (bool * option pdout) :=
  let* '(_, r) := zpdStore widen narrow junk 0 p None in
  let* '(ok, r) := zpdStore widen narrow junk 0 q r in
  let* o := zpdRetrieve widen narrow 0 0 0 sc ec so eo r in Ok (ok, o).
Definition labels_after (p q : pds) : res (bool * option (list Z)) :=
  let* '(ok, o) := then_read p q 0 0 0 0 in Ok (ok, option_map o_labels o).

(** Labels X and Y given for curves 1 and 2: curve 1 has X, curve 2 has none. *)
Theorem C49_two_labels_refuted :
  labels_after (abc [0; 0; 0; 0]) (mk_pds None (Some (AF [4; 5; 6; 14; 15; 16])) 3 3 1 2 0 0 [88; 0; 89; 0] 4) = Ok (true, Some [88; 0; 0; 67; 0]).
Proof. reflexivity. Qed.
(** A label longer than the one it replaces, with no room set aside: cut to fit the old length. *)
Theorem C49_longer_label_refuted :
  labels_after (abc []) (mk_pds None (Some (AF [24; 25; 26])) 3 3 3 3 0 0 [88; 89; 90; 0] 4) = Ok (true, Some [65; 0; 66; 0; 88; 89; 0]) /\
  labels_after (abc []) (mk_pds None (Some (AF [24; 25; 26])) 3 3 3 3 0 0 [88; 89; 90; 91; 92; 93; 94; 0] 8) = Ok (true, Some [65; 0; 66; 0; 88; 89; 0]).
Proof. split; reflexivity. Qed.
(** A label for a curve of a record without labels: the length of a null pointer is taken. *)
Theorem C49_first_label_refuted :
  then_read (mk_pds (Some (AF [10; 20])) (Some (AF [1; 2; 11; 12])) 2 2 0 0 0 0 [] 0) (mk_pds None (Some (AF [4; 5])) 2 2 1 1 0 0 [88; 0] 2) 0 0 0 0 = Undef.
Proof. reflexivity. Qed.
(** Some rows of all curves: the numbers, but no labels. *)
Theorem C49_rows_lose_labels_refuted :
  (let* '(_, r) := zpdStore widen narrow junk 0 (abc []) None in zpdRetrieve widen narrow 0 0 0 0 0 2 3 r) =
  Ok (Some (mk_pdout false 3 3 2 3 (AF [20; 30]) (AF [2; 3; 12; 13; 22; 23]) [])).
Proof. reflexivity. Qed.
(** From row 4 of a table of three rows: no data.  From row 5, or rows 5 to 6: all of the rows. *)
Theorem C49_rows_past_the_end_refuted :
  (let* '(_, r) := zpdStore widen narrow junk 0 (abc []) None in zpdRetrieve widen narrow 0 0 0 0 0 4 0 r) = Ok None /\
  (let* '(_, r) := zpdStore widen narrow junk 0 (abc []) None in zpdRetrieve widen narrow 0 0 0 0 0 5 6 r) =
  Ok (Some (mk_pdout false 3 3 3 3 (AF [10; 20; 30]) (AF [1; 2; 3; 11; 12; 13; 21; 22; 23]) [])).
Proof. split; reflexivity. Qed.
(** The same when storing: values for rows 5 and 6, which do not exist, go to the first rows. *)
Theorem C49_store_past_the_end_refuted :
  (let* '(_, r) := zpdStore widen narrow junk 0 (abc []) None in
   let* '(ok, r) := zpdStore widen narrow junk 0 (mk_pds None (Some (AF [7; 8; 9])) 3 3 1 1 5 6 [] 0) r in
   let* o := zpdRetrieve widen narrow 0 0 0 0 0 0 0 r in Ok (ok, option_map o_vals o)) =
  Ok (true, Some (AF [7; 8; 9; 11; 12; 13; 21; 22; 23])).
Proof. reflexivity. Qed.
(** Row 1 of curve 1, with the counts of the struct those of the array given: the table is replaced by a table of one number. *)
Theorem C49_part_taken_for_whole_refuted :
  (let* '(_, r) := zpdStore widen narrow junk 0 (abc []) None in
   let* '(ok, r) := zpdStore widen narrow junk 0 (mk_pds (Some (AF [10])) (Some (AF [777])) 1 1 1 1 1 1 [] 0) r in
   let* o := zpdRetrieve widen narrow 0 0 0 0 0 0 0 r in Ok (ok, option_map o_n o, option_map o_vals o)) =
  Ok (true, Some 1, Some (AF [777])).
Proof. reflexivity. Qed.
End Refuted.
Print Assumptions C49_two_labels_refuted.
Print Assumptions C49_longer_label_refuted.
Print Assumptions C49_first_label_refuted.
Print Assumptions C49_rows_lose_labels_refuted.
Print Assumptions C49_rows_past_the_end_refuted.
Print Assumptions C49_store_past_the_end_refuted.
Print Assumptions C49_part_taken_for_whole_refuted.
