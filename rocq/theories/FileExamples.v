(** * The theorems about the record engine, each at a concrete history: [rich] (FileRefute.v), 20 and more records of one
    hash chain in two bins after rewrites, growth, deletes, undeletes, renames and reopening. *)
From Coq Require Import String ZArith List Lia Bool.
From Verif Require Import Base PackModel HashModel FileModel FileSpec FileHistSpec FileProps FileRefute.
Import ListNotations.
Open Scope Z_scope.

Definition after (c : cfg) (o : op) (s : st) : st := match exec c o s with Some (_, s') => s' | None => s end.
Definition says (c : cfg) (o : op) (s : st) : option resp := option_map fst (exec c o s).
Lemma exec_after c o s r : says c o s = Some r -> exec c o s = Some (r, after c o s).
Proof. unfold says, after. destruct (exec c o s) as [[r' s']|]; [|discriminate]. intros E. inversion E. reflexivity. Qed.
Definition canon_neqb (p q : list Z) : bool := if list_eq_dec Z.eq_dec (canon p) (canon q) then false else true.
Lemma canon_neqb_ok p q : canon_neqb p q = true -> canon p <> canon q.
Proof. unfold canon_neqb. destruct (list_eq_dec Z.eq_dec (canon p) (canon q)); [discriminate|auto]. Qed.
Definition not_inb (q : list Z) (l : list (list Z)) : bool := if in_dec (list_eq_dec Z.eq_dec) q l then false else true.
Lemma not_inb_ok q l : not_inb q l = true -> ~ In q l.
Proof. unfold not_inb. destruct (in_dec _ q l); [discriminate|auto]. Qed.

(** a write, and what it leaves *)
Definition wr88 : op := Write 4 (0, 0) (req (nm 88) [1] [] [2]).
Definition s88 : st := after cd wr88 at_rich.
Example C22_write_answers_example : exec cd wr88 at_rich = Some (Done, s88).
Proof. apply exec_after. vm_compute. reflexivity. Qed.
Example C22_others_unchanged_example v : reads cd at_rich (nm 65) v <-> reads cd s88 (nm 65) v.
Proof.
  apply (C22_others_unchanged_partial cd 3 cd_usable rich at_rich wr88 Done s88 (nm 65) v rich_runs rich_next_write C22_write_answers_example);
    [apply not_inb_ok; vm_compute; reflexivity|apply name_okb_ok; vm_compute; reflexivity].
Qed.
Definition later : list op := [Wn 66; Delete (nm 65); Rename (nm 73) (nm 65); Reopen; Undelete (nm 72); Catalogue].
Definition s_later : st := match playb cd 3 later s88 with Some s => s | None => s88 end.
Example later_runs : runs cd 3 s88 later s_later.
Proof.
  assert (H : match playb cd 3 later s88 with Some _ => true | None => false end = true) by (vm_compute; reflexivity).
  unfold s_later. destruct (playb cd 3 later s88) as [s|] eqn:E; [|discriminate]. apply playb_runs, E.
Qed.
Example C22_read_last_write_example : reads cd s_later (nm 88) (Some (ct_ [1] [] [2])).
Proof.
  apply (C22_read_last_write_partial cd 3 cd_usable rich at_rich 4 (0, 0) (req (nm 88) [1] [] [2]) s88 later s_later (nm 88)
    rich_runs rich_next_write C22_write_answers_example later_runs); [|reflexivity|apply name_okb_ok; vm_compute; reflexivity].
  assert (H : forallb (fun o => not_inb (canon (nm 88)) (names_of o)) later = true) by (vm_compute; reflexivity).
  intros o Ho. apply not_inb_ok. rewrite forallb_forall in H. exact (H o Ho).
Qed.
Example C27_new_record_example : reads cd s88 (nm 65) (Some (ct_ [] [] [65; 65])) /\ reads cd s88 (nm 88) (Some (ct_ [1] [] [2])).
Proof.
  apply (C27_new_record_keeps_others_partial cd 3 cd_usable rich at_rich 4 (0, 0) (req (nm 88) [1] [] [2]) s88 (nm 65) (ct_ [] [] [65; 65]) rich_runs rich_next_write);
    [apply read_in_ok; vm_compute; reflexivity|exact C22_write_answers_example|apply name_okb_ok; vm_compute; reflexivity|apply (proj2 rich_next_delete)].
Qed.
(** a write that is refused *)
Definition wr_refused : op := Write 4 (0, 0) (mkxfer (nm 65) 310 [] [] [] [9] [] [] 0 0 0 0).
Example C22_refused_example v : exec cd wr_refused at_rich = Some (Refused, after cd wr_refused at_rich) /\
  (reads cd at_rich (nm 65) v <-> reads cd (after cd wr_refused at_rich) (nm 65) v).
Proof.
  assert (E : exec cd wr_refused at_rich = Some (Refused, after cd wr_refused at_rich)) by (apply exec_after; vm_compute; reflexivity).
  split; [exact E|]. apply (C22_refused_write_changes_nothing cd 3 cd_usable rich at_rich 4 (0, 0) (mkxfer (nm 65) 310 [] [] [] [9] [] [] 0 0 0 0) _ (nm 65) v rich_runs);
    [apply allowedb_ok; vm_compute; reflexivity|exact E|apply name_okb_ok; vm_compute; reflexivity].
Qed.
(** delete, undelete *)
Definition s_del : st := after cd (Delete (nm 65)) at_rich.
Example C24_delete_example : exec cd (Delete (nm 65)) at_rich = Some (Found true, s_del) /\ reads cd s_del (nm 65) None.
Proof.
  assert (E : exec cd (Delete (nm 65)) at_rich = Some (Found true, s_del)) by (apply exec_after; vm_compute; reflexivity).
  split; [exact E|]. destruct (C24_delete_partial cd 3 cd_usable rich at_rich (nm 65) true s_del rich_runs (proj1 rich_next_delete) E) as (_ & H & _).
  apply H; [apply name_okb_ok; vm_compute; reflexivity|reflexivity].
Qed.
Example C24_undelete_restores_example : exists s4, exec cd (Undelete (nm 65)) s_del = Some (Found true, s4) /\ reads cd s4 (nm 65) (Some (ct_ [] [] [65; 65])).
Proof.
  destruct (C24_undelete_restores cd 3 cd_usable rich at_rich (nm 65) (ct_ [] [] [65; 65]) s_del [] s_del rich_runs (proj2 rich_next_delete) (proj1 rich_next_delete)
    (proj1 C24_delete_example) (runs_nil _ _ _) (Forall_nil _)) as (s4 & E & H & _).
  exists s4. split; [exact E|]. apply H; [apply name_okb_ok; vm_compute; reflexivity|reflexivity].
Qed.
Definition s_und : st := after cd (Undelete (nm 72)) at_rich.
Example C24_undelete_example : exec cd (Undelete (nm 72)) at_rich = Some (Found true, s_und) /\
  exists ct, was_deleted cd (canon (nm 72)) ct (new_file cd) rich /\ reads cd s_und (nm 72) (Some ct).
Proof.
  assert (E : exec cd (Undelete (nm 72)) at_rich = Some (Found true, s_und)) by (apply exec_after; vm_compute; reflexivity).
  split; [exact E|]. destruct (proj1 (C24_undelete_partial cd 3 cd_usable rich at_rich (nm 72) true s_und rich_runs (proj1 rich_next_undelete) E)) as (ct & W & H).
  exists ct. split; [exact W|]. apply H; [apply name_okb_ok; vm_compute; reflexivity|reflexivity].
Qed.
(** rename *)
Definition s_ren : st := after cd (Rename (nm 65) (nm 72)) at_rich.
Example C25_rename_example : exec cd (Rename (nm 65) (nm 72)) at_rich = Some (Found true, s_ren) /\
  reads cd s_ren (nm 65) None /\ reads cd s_ren (nm 72) (Some (ct_ [] [] [65; 65])).
Proof.
  assert (E : exec cd (Rename (nm 65) (nm 72)) at_rich = Some (Found true, s_ren)) by (apply exec_after; vm_compute; reflexivity).
  destruct (C25_rename_partial cd 3 cd_usable rich at_rich (nm 65) (nm 72) true s_ren rich_runs rich_next_rename E) as (_ & H1 & H2 & _).
  split; [exact E|]. split; [apply H1; [apply name_okb_ok; vm_compute; reflexivity|reflexivity]|].
  assert (NO : name_ok (nm 72)) by (apply name_okb_ok; vm_compute; reflexivity).
  exact (proj1 (H2 (nm 72) (Some (ct_ [] [] [65; 65])) NO eq_refl) (proj2 rich_next_delete)).
Qed.
(** a crash after any number of the writes to the disk *)
Example C29_crash_example k : reads cd (crash at_rich s88 k) (nm 65) (Some (ct_ [] [] [65; 65])).
Proof.
  apply (C29_crash_partial cd 3 cd_usable rich at_rich wr88 Done s88 k (nm 65) (ct_ [] [] [65; 65]) rich_runs rich_next_write C22_write_answers_example);
    [apply name_okb_ok; vm_compute; reflexivity|apply not_inb_ok; vm_compute; reflexivity|exact (proj2 rich_next_delete)].
Qed.
(** the catalogue *)
Example C36_catalogue_example : exists l, exec cd Catalogue at_rich = Some (Names l, at_rich) /\ NoDup (map canon l) /\ In (canon (nm 65)) (map canon l).
Proof.
  destruct (C36_catalogue_partial cd 3 cd_usable rich at_rich rich_runs rich_no_blank) as (l & E & ND & _ & H & _).
  exists l. split; [exact E|]. split; [exact ND|]. apply (H (nm 65) (ct_ [] [] [65; 65])); [apply name_okb_ok; vm_compute; reflexivity|exact (proj2 rich_next_delete)].
Qed.
