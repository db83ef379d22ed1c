(** * C26: cases and counterexamples (AllocModel.v). *)
From Coq Require Import ZArith List Bool Lia.
From Verif Require Import Base AllocModel AllocProps.
Import ListNotations.
Open Scope Z_scope.

Fixpoint play (st : fs * list (Z * Z)) (ops : list aop) : option (fs * list (Z * Z)) :=
  match ops with [] => Some st | o :: t => match astep st o with Some st' => play st' t | None => None end end.
Fixpoint all_legal (st : fs * list (Z * Z)) (ops : list aop) : Prop :=
  match ops with [] => True | o :: t => legal (snd st) o /\ match astep st o with Some st' => all_legal st' t | None => False end end.
Definition live_of (r : option (fs * list (Z * Z))) := match r with Some (_, l) => l | None => [] end.
Definition word (r : option (fs * list (Z * Z))) x := match r with Some (s, _) => f_mem s x | None => -1 end.
(** a file whose first 2000 words are in use: all 1 in the first 1500 *)
Definition old : Z -> Z := fun x => if x <? 1500 then 1 else 0.
Definition file := (new_space old 2000, @nil (Z * Z)).

Lemma play_history s live ops s' live' : history old 2000 s live ->
  all_legal (s, live) ops ->
  play (s, live) ops = Some (s', live') -> history old 2000 s' live'.
Proof.
  revert s live. induction ops as [|o ops IH]; intros s live H L P; cbn [play] in P; [injection P as <- <-; exact H|].
  cbn [all_legal] in L. destruct L as [L1 L2]. destruct (astep (s, live) o) as [[s1 l1]|] eqn:E; [|discriminate].
  eapply IH; [|exact L2|exact P]. eapply h_step; eauto.
Qed.

(** Space of 500 words is released, handed out in two parts, the second next to the first. *)
Definition ops1 := [Alloc 3 500 true; Store 3002 7; Alloc 3 300 true; Release 3 3002 500; Alloc 3 150 true; Alloc 3 350 true].
Example C26_example : live_of (play file ops1) = [(3152, 350); (3002, 150); (3502, 300)].
Proof. vm_compute. reflexivity. Qed.
Example C26_legal_example :
  all_legal file ops1.
Proof.
  vm_compute. repeat split; try discriminate; auto. exists (3002, 500). repeat split; auto; discriminate.
Qed.

(** ** What fails *)
(** The allocator writes in the part of the file that is not its own: after a search that found nothing,
    kreclaimSegAvailableAdd is 0 (zreclaimRead.c:108-113), and the next release reads and writes its table at the
    beginning of the file (here words 998 and 999; in general the first empty pair of words).  What was released is lost. *)
Definition ops2 := [Alloc 3 200 true; Release 3 3002 200; Alloc 3 200 true; Alloc 3 200 true; Release 3 3002 200].
Lemma ops2_legal : all_legal file ops2.
Proof. vm_compute. repeat split; try discriminate; auto. Qed.
Theorem C26_own_area_refuted :
  ~ (forall s live o s' live' x, history old 2000 s live -> legal live o -> (forall y v, o <> Store y v) ->
       astep (s, live) o = Some (s', live') -> 0 <= x < 2000 -> f_mem s' x = f_mem s x).
Proof.
  intros A.
  assert (H : forall s live s' live', history old 2000 s live -> all_legal (s, live) ops2 -> play (s, live) ops2 = Some (s', live') ->
    f_mem s' 998 = f_mem s 998).
  { intros s live s' live'. unfold ops2. generalize dependent live. generalize dependent s.
    assert (G : forall ops s live, (forall o, In o ops -> forall y v, o <> Store y v) -> history old 2000 s live -> all_legal (s, live) ops ->
      play (s, live) ops = Some (s', live') -> f_mem s' 998 = f_mem s 998).
    { induction ops as [|o ops IH]; intros s live NS Hh L P; cbn [play] in P; [injection P as <- <-; reflexivity|].
      cbn [all_legal snd] in L. destruct L as [L1 L2]. destruct (astep (s, live) o) as [[s1 l1]|] eqn:E; [|discriminate].
      rewrite (IH s1 l1); auto; [apply (A s live o s1 l1); auto; [apply NS; left; auto|lia]|intros; apply NS; right; auto|eapply h_step; eauto]. }
    intros s live Hh L P. eapply (G _ s live); eauto. cbn. intros o Io y v E. subst o. intuition discriminate. }
  assert (W : word (play file ops2) 998 = 200) by (vm_compute; reflexivity).
  assert (O : word (Some file) 998 = 1) by (vm_compute; reflexivity).
  pose proof ops2_legal as L. unfold file in W, O, L. destruct (play _ ops2) as [[s' live']|] eqn:E; [|discriminate W].
  pose proof (H _ _ s' live' (h_new old 2000) L E) as X. unfold word in W, O. rewrite W, O in X. discriminate X.
Qed.

(** zwriteNew.c:229-233: the words a record takes; [numberInfo] words of information block, the rest in ints *)
Definition numberLongsInInts (n : Z) : Z := if n >? 0 then (n - 1) / 2 + 1 else 0.
Definition record_space (numberInfo ihead head2 uhead alloc : Z) : Z :=
  numberInfo + numberLongsInInts ihead + numberLongsInInts head2 + numberLongsInInts uhead + numberLongsInInts alloc.
(** zwriteExisting.c:255-259, 289-291: the words released when the record moves, if any (values1 follows the headers) *)
Definition existing_release (numberInfo ihead head2 uhead alloc : Z) : option Z :=
  let originalSize := ihead + head2 + uhead + alloc in
  if originalSize + numberInfo =? numberInfo + numberLongsInInts ihead + numberLongsInInts head2 + numberLongsInInts uhead + alloc
  then Some (originalSize + numberInfo) else None.
(** A record without headers that grows is released with twice its data: the space given out next covers the record
    behind it. *)
Theorem C26_moved_record_refuted :
  let n := record_space 40 0 0 0 400 in
  match existing_release 40 0 0 0 400 with
  | Some m =>
    live_of (play file [Alloc 2 n true; Alloc 2 n true; Release 2 3002 m; Alloc 2 m true]) = [(3002, 440); (3242, 240); (3002, 240)] /\
    inside 3242 (3002, 440) /\ inside 3242 (3242, 240)
  | None => False
  end.
Proof. vm_compute. repeat split; auto; discriminate. Qed.
(** In general: without headers, what is released is what the record has and as many words more as it has values. *)
Theorem C26_released_too_much numberInfo alloc : 0 < alloc ->
  existing_release numberInfo 0 0 0 alloc = Some (record_space numberInfo 0 0 0 alloc + alloc / 2).
Proof.
  intros A. unfold existing_release, record_space, numberLongsInInts. cbn [Z.gtb Z.compare]. rewrite (proj2 (Z.eqb_eq _ _)) by lia.
  replace (alloc >? 0) with true by (symmetry; apply Z.gtb_lt; lia). f_equal.
  pose proof (Z.div_mod (alloc - 1) 2 ltac:(lia)). pose proof (Z.mod_pos_bound (alloc - 1) 2 ltac:(lia)).
  pose proof (Z.div_mod alloc 2 ltac:(lia)). pose proof (Z.mod_pos_bound alloc 2 ltac:(lia)). lia.
Qed.

Print Assumptions C26_no_overlap_partial.
Print Assumptions C26_in_file_partial.
Print Assumptions C26_contents_kept_partial.
Print Assumptions C26_always_answers_partial.
Print Assumptions C26_own_area_refuted.
Print Assumptions C26_moved_record_refuted.
Print Assumptions C26_released_too_much.
