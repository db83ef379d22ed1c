(** * Proofs about the file sort: merging sorted files, and the whole sort. *)
From Coq Require Import ZArith List Lia Bool ZifyBool Sorted Permutation.
From Verif Require Import Base CStr CStrProofs SortSpec SortModel SortProofs.
Import ListNotations.
Open Scope Z_scope.

Definition top (s : source) : list Z := hd [] (todo s).
Definition all_lines (s : source) : list (list Z) := todo s ++ lines_of (held (buf s) ++ rest (file s)).
Definition wf (s : source) : Prop := todo s <> [] /\ good (buf s) (file s) /\ short (held (buf s) ++ rest (file s)) /\ StronglySorted line_le (all_lines s).
Definition top_le (a b : source) : Prop := line_le (top a) (top b).

Lemma head_ok s : todo s <> [] -> head s = Ok (top s).
Proof. unfold head, top. destruct (todo s); [congruence|reflexivity]. Qed.

Lemma compare_zero a b : compare a b = 0 -> a = b.
Proof.
  intros H. assert (L : line_le a b) by (apply compare_le; lia). apply line_antisym; [exact L|].
  assert (M : forall n (x y : list Z), memcmp n x y = - memcmp n y x).
  { induction n; intros [|u x] [|v y]; cbn [memcmp]; auto. destruct (u =? v) eqn:E; [replace (v =? u) with true by lia; apply IHn|replace (v =? u) with false by lia; lia]. }
  assert (C : compare b a = - compare a b).
  { destruct a as [|x a], b as [|y b]; cbn -[slen memcmp as_char]; try lia. rewrite (M _ (x :: a) (y :: b)), (Z.min_comm (slen (y :: b))). set (mm := memcmp (Z.to_nat (Z.min (slen (x :: a)) (slen (y :: b)))) (y :: b) (x :: a)).
    destruct (as_char x - as_char y =? 0) eqn:E; [replace (as_char y - as_char x =? 0) with true by lia|replace (as_char y - as_char x =? 0) with false by lia; lia].
    destruct (mm =? 0) eqn:E2; [replace (- mm =? 0) with true by lia|replace (- mm =? 0) with false by lia]; lia. }
  apply compare_le. lia.
Qed.

(** ** The first order of the inputs *)
Fixpoint inv (l : list source) : nat :=
  match l with [] => 0 | a :: t => length (filter (fun b => compare (top a) (top b) >? 0) t) + inv t end.
Lemma filter_len (g : source -> bool) l : (length (filter g l) <= length l)%nat.
Proof. induction l as [|a t IH]; cbn [filter length]; [lia|]. destruct (g a); cbn [length]; lia. Qed.
Lemma inv_bound l : (inv l <= length l * length l)%nat.
Proof.
  induction l as [|a t IH]; [cbn; lia|]. cbn [inv length]. pose proof (filter_len (fun b => compare (top a) (top b) >? 0) t) as Q. nia.
Qed.
Lemma filter_perm (g : source -> bool) l l' : Permutation l l' -> length (filter g l) = length (filter g l').
Proof.
  induction 1; cbn [filter]; auto; [destruct (g x); cbn [length]; lia| |lia]. destruct (g x), (g y); cbn [length]; lia.
Qed.

Lemma exchange_step a b t : exchange (a :: b :: t) = (let* x := head a in let* y := head b in
  if compare x y >? 0 then Ok (Some (b :: a :: t)) else let* r := exchange (b :: t) in Ok (match r with Some tl' => Some (a :: tl') | None => None end)).
Proof. reflexivity. Qed.
Lemma exchange_ok l : Forall (fun s => todo s <> []) l ->
  exists r, exchange l = Ok r /\ match r with None => Sorted top_le l | Some l' => Permutation l l' /\ (inv l' < inv l)%nat end.
Proof.
  induction l as [|a t IH]; intros F; [exists None; split; [reflexivity|constructor]|]. destruct t as [|b t]; [exists None; split; [reflexivity|repeat constructor]|].
  inversion F as [|? ? Fa Ft]; subst. inversion Ft as [|? ? Fb Ft']; subst. rewrite exchange_step. rewrite (head_ok a Fa), (head_ok b Fb). cbn [bind]. destruct (compare (top a) (top b) >? 0) eqn:E.
  - eexists. split; [reflexivity|]. split; [apply perm_swap|]. cbn [inv filter]. rewrite E. replace (compare (top b) (top a) >? 0) with false; [cbn [length]; lia|].
    assert (CG : compare (top a) (top b) > 0) by lia. destruct (compare_gt _ _ CG) as (L & _). apply compare_le in L. lia.
  - destruct (IH Ft) as (r & R & S). rewrite R. cbn [bind]. destruct r as [l'|].
    + eexists. split; [reflexivity|]. destruct S as (P & I). split; [constructor; exact P|]. cbn [inv] in *. rewrite <- (filter_perm _ _ _ P). cbn [filter]. rewrite E. cbn [filter length] in *. lia.
    + exists None. split; [reflexivity|]. constructor; [exact S|]. constructor. unfold top_le. apply compare_le. lia.
Qed.

Lemma settle_ok : forall fuel l, (inv l <= fuel)%nat -> Forall (fun s => todo s <> []) l -> exists l', settle fuel l = Ok l' /\ Permutation l l' /\ StronglySorted top_le l'.
Proof.
  induction fuel as [|k IH]; intros l I F; destruct (exchange_ok l F) as (r & R & S); cbn [settle]; rewrite R; cbn [bind]; (destruct r as [l1|]; [|exists l; split; [reflexivity|]; split; [reflexivity|]; apply Sorted_StronglySorted; [intros x y z; apply line_trans|exact S]]).
  - lia.
  - destruct S as (P & I1). destruct (IH l1 ltac:(lia)) as (l' & S1 & P1 & S2); [eapply Permutation_Forall; eassumption|]. exists l'. split; [exact S1|]. split; [rewrite P; exact P1|exact S2].
Qed.

Lemma reinsert_ok s l : todo s <> [] -> Forall (fun s => todo s <> []) l -> StronglySorted top_le l ->
  exists l', reinsert s l = Ok l' /\ Permutation (s :: l) l' /\ StronglySorted top_le l'.
Proof.
  intros N F S. induction l as [|a t IH]; cbn [reinsert].
  - eexists. split; [reflexivity|]. split; [reflexivity|]. repeat constructor.
  - inversion F as [|? ? Fa Ft]; subst. inversion S as [|? ? St Sa]; subst. rewrite (head_ok s N), (head_ok a Fa). cbn [bind]. cbv zeta.
    destruct ((if compare (top s) (top a) =? 0 then num s - num a else compare (top s) (top a)) <? 0) eqn:E.
    + eexists. split; [reflexivity|]. split; [reflexivity|]. constructor; [exact S|]. assert (L : top_le s a) by (unfold top_le; apply compare_le; destruct (compare (top s) (top a) =? 0) eqn:Q; lia).
      constructor; [exact L|]. eapply Forall_impl; [|exact Sa]. intros c. apply line_trans. exact L.
    + destruct (IH Ft St) as (r & R & P & S'). rewrite R. cbn [bind]. eexists. split; [reflexivity|]. split; [rewrite <- P; apply perm_swap|]. constructor; [exact S'|].
      apply (Permutation_Forall P). constructor; [|exact Sa]. unfold top_le. destruct (compare (top s) (top a) =? 0) eqn:Q.
      * apply Z.eqb_eq in Q. apply compare_zero in Q. rewrite Q. destruct (line_total (top a) (top a)); assumption.
      * apply compare_gt. lia.
Qed.

(** ** Merging *)
Lemma renumber_same n s : all_lines (renumber n s) = all_lines s /\ top (renumber n s) = top s /\ (wf s -> wf (renumber n s)).
Proof. unfold all_lines, top, wf. cbn. tauto. Qed.
Lemma lines_nil : lines_of [] = [].
Proof. reflexivity. Qed.
Lemma sorted_app_r (a b : list (list Z)) : StronglySorted line_le (a ++ b) -> StronglySorted line_le b.
Proof. induction a as [|x a IH]; [auto|]. cbn [app]. intros H. inversion H; auto. Qed.
Lemma short_part b ls t : lines_of b = ls ++ lines_of t -> short b -> short t.
Proof. unfold short. intros -> H. apply Forall_app in H. tauto. Qed.

(** the next line of the first input comes before everything that is left *)
Lemma first_least s l : wf s -> Forall wf l -> StronglySorted top_le (s :: l) -> forall ln more, todo s = ln :: more ->
  Forall (line_le ln) (more ++ lines_of (held (buf s) ++ rest (file s)) ++ concat (map all_lines l)).
Proof.
  intros W F S ln more T. destruct W as (_ & _ & _ & SS). unfold all_lines in SS. rewrite T in SS. cbn [app] in SS. inversion SS as [|? ? _ FF]; subst. rewrite app_assoc. apply Forall_app. split; [exact FF|].
  inversion S as [|? ? _ SF]; subst. clear S SS FF. revert SF. induction F as [|a l Wa _ IH]; intros SF; [constructor|]. inversion SF as [|? ? Sa Sl]; subst. cbn [map concat]. apply Forall_app. split; [|apply IH; assumption].
  destruct Wa as (Na & _ & _ & Sa'). unfold top_le in Sa. assert (TS : top s = ln) by (unfold top; rewrite T; reflexivity). rewrite TS in Sa. unfold all_lines in *. unfold top in Sa. destruct (todo a) as [|x m]; [congruence|]. cbn [hd app] in *. inversion Sa' as [|? ? _ FF]; subst.
  constructor; [exact Sa|]. eapply Forall_impl; [|exact FF]. intros c. apply line_trans. exact Sa.
Qed.

Lemma concat_perm (l l' : list source) : Permutation l l' -> Permutation (concat (map all_lines l)) (concat (map all_lines l')).
Proof.
  induction 1; cbn [map concat]; auto; [apply Permutation_app_head; assumption| |etransitivity; eassumption]. rewrite !app_assoc. apply Permutation_app_tail. apply Permutation_app_comm.
Qed.

Lemma merge_loop_ok : forall fuel l, (length (concat (map all_lines l)) < fuel)%nat -> Forall wf l -> StronglySorted top_le l ->
  exists ls, merge_loop fuel l = Ok (text_of ls) /\ Permutation (concat (map all_lines l)) ls /\ StronglySorted line_le ls.
Proof.
  induction fuel as [|k IH]; intros l L F S; [lia|]. destruct l as [|s t]; [exists []; split; [reflexivity|]; split; [reflexivity|constructor]|].
  inversion F as [|? ? Ws Wt]; subst. destruct (todo s) as [|ln more] eqn:T; [destruct Ws; congruence|]. cbn [merge_loop]. rewrite T.
  pose proof (first_least s t Ws Wt S ln more T) as LEAST. assert (Ft : Forall (fun s => todo s <> []) t) by (eapply Forall_impl; [|exact Wt]; intros a Wa; apply Wa).
  inversion S as [|? ? St Ss]; subst. assert (AL : all_lines s = ln :: more ++ lines_of (held (buf s) ++ rest (file s))) by (unfold all_lines; rewrite T; reflexivity).
  cbn [map concat] in *. rewrite AL in *. cbn [app length] in *. destruct Ws as (_ & G & SH & SS). rewrite AL in SS. inversion SS as [|? ? SS' _]; subst.
  assert (FIN : forall ls0, Permutation (more ++ lines_of (held (buf s) ++ rest (file s)) ++ concat (map all_lines t)) ls0 -> StronglySorted line_le ls0 ->
     exists ls, Ok (ln ++ 10 :: text_of ls0) = Ok (text_of ls) /\ Permutation (ln :: (more ++ lines_of (held (buf s) ++ rest (file s))) ++ concat (map all_lines t)) ls /\ StronglySorted line_le ls).
  { intros ls0 P0 S0. exists (ln :: ls0). split; [cbn [text_of flat_map]; rewrite <- app_assoc; reflexivity|]. split; [constructor; rewrite <- app_assoc; exact P0|]. constructor; [exact S0|]. eapply Permutation_Forall; eassumption. }
  destruct more as [|m more].
  - destruct (fillbuf_ok (buf s) (file s) G SH) as (al & cont & total & f' & ls & r & E1 & E2 & E3 & E4 & E5 & E6 & _). rewrite E1. cbn [bind]. destruct (total =? 0) eqn:TZ.
    + assert (P0 : held (buf s) ++ rest (file s) = []) by (apply E5; lia). rewrite P0, lines_nil in *. cbn [app length] in *.
      assert (MM : map all_lines (map (renumber (num s)) t) = map all_lines t) by (rewrite map_map; apply map_ext; intros a; apply renumber_same).
      destruct (IH (map (renumber (num s)) t)) as (ls0 & R0 & P1 & S1).
      * rewrite MM. lia. * apply Forall_map. eapply Forall_impl; [|exact Wt]. intros a. apply renumber_same.
      * clear -St. induction St as [|a t Sa IHt Fa]; cbn [map]; constructor; [assumption|]. apply Forall_map. eapply Forall_impl; [|exact Fa]. intros c. unfold top_le. destruct (renumber_same (num s) a) as (_ & -> & _), (renumber_same (num s) c) as (_ & -> & _). auto.
      * rewrite R0. cbn [bind]. apply FIN; [rewrite <- MM; exact P1|exact S1].
    + assert (PN : held (buf s) ++ rest (file s) <> []) by (intros Q; apply E5 in Q; lia). rewrite E2. set (s' := {| num := num s; file := f'; buf := {| alloc := al; held := r |}; todo := ls |}).
      assert (AS : all_lines s' = lines_of (held (buf s) ++ rest (file s))) by (rewrite E3; reflexivity).
      assert (W' : wf s') by (split; [exact (E6 PN)|]; split; [exact E4|]; split; [eapply short_part; eassumption|rewrite AS; exact SS']).
      destruct (reinsert_ok s' t (E6 PN) Ft St) as (l' & R & P & S'). rewrite R. cbn [bind]. pose proof (concat_perm _ _ P) as CP. cbn [map concat] in CP. rewrite AS in CP.
      destruct (IH l') as (ls0 & R0 & P1 & S1); [rewrite <- (Permutation_length CP); cbn [app] in *; lia|eapply Permutation_Forall; [exact P|]; constructor; assumption|exact S'|].
      rewrite R0. cbn [bind]. apply FIN; [cbn [app]; rewrite CP; exact P1|exact S1].
  - set (s' := {| num := num s; file := file s; buf := buf s; todo := m :: more |}). assert (AS : all_lines s' = (m :: more) ++ lines_of (held (buf s) ++ rest (file s))) by reflexivity.
    assert (W' : wf s') by (split; [discriminate|]; split; [exact G|]; split; [exact SH|rewrite AS; exact SS']).
    destruct (reinsert_ok s' t ltac:(discriminate) Ft St) as (l' & R & P & S'). rewrite R. cbn [bind]. pose proof (concat_perm _ _ P) as CP. cbn [map concat] in CP. rewrite AS in CP.
    destruct (IH l') as (ls0 & R0 & P1 & S1); [rewrite <- (Permutation_length CP); lia|eapply Permutation_Forall; [exact P|]; constructor; assumption|exact S'|].
    rewrite R0. cbn [bind]. apply FIN; [rewrite app_assoc, CP; exact P1|exact S1].
Qed.

Definition sorted_file (b : list Z) : Prop := short b /\ StronglySorted line_le (lines_of b).

Lemma open_ok : forall files i, Forall sorted_file files -> exists l, open_sources i files = Ok l /\ Forall wf l /\ concat (map all_lines l) = concat (map lines_of files).
Proof.
  induction files as [|b more IH]; intros i F; [exists []; repeat split; constructor|]. inversion F as [|? ? (SH & SS) F']; subst. cbn [open_sources].
  destruct (fillbuf_ok {| alloc := mergealloc; held := [] |} {| rest := b; eof := false |}) as (al & cont & total & f' & ls & r & E1 & E2 & E3 & E4 & E5 & E6 & _).
  - split; [reflexivity|]. cbn [eof alloc held]. split; [discriminate|]. intros _. unfold mergealloc. split; [lia|]. change (slen []) with 0. lia.
  - exact SH.
  - cbn [held rest app] in *. rewrite E1. cbn [bind]. destruct (total =? 0) eqn:TZ.
    + assert (b = []) by (apply E5; lia). subst b. destruct (IH i F') as (l & L & W & C). exists l. split; [exact L|]. split; [exact W|]. cbn [map concat]. rewrite lines_nil. exact C.
    + assert (BN : b <> []) by (intros Q; apply E5 in Q; lia). rewrite E2. destruct (IH (i + 1) F') as (l & L & W & C). rewrite L. cbn [bind]. eexists. split; [reflexivity|].
      assert (AS : all_lines {| num := i; file := f'; buf := {| alloc := al; held := r |}; todo := ls |} = lines_of b) by (rewrite E3; reflexivity).
      split; [constructor; [|exact W]|cbn [map concat]; rewrite AS, C; reflexivity]. split; [exact (E6 BN)|]. split; [exact E4|]. split; [cbn [buf file held]; eapply short_part; eassumption|]. rewrite AS. exact SS.
Qed.

Lemma total_lines files : (length (concat (map lines_of files)) <= length (concat files))%nat.
Proof. induction files as [|b t IH]; [cbn; lia|]. cbn [map concat]. rewrite !app_length. pose proof (lines_count b). lia. Qed.
Lemma all_nonl files : Forall (fun l => has_newline l = false) (concat (map lines_of files)).
Proof. induction files as [|b t IH]; [constructor|]. cbn [map concat]. apply Forall_app. split; [apply lines_nonl|exact IH]. Qed.
Lemma all_short files : Forall sorted_file files -> Forall (fun l => slen l < 268435456) (concat (map lines_of files)).
Proof. induction 1 as [|b t (S & _) _ IH]; [constructor|]. cbn [map concat]. apply Forall_app. split; [exact S|exact IH]. Qed.

Lemma mergefps_ok files : Forall sorted_file files ->
  exists ls, mergefps files = Ok (text_of ls) /\ lines_of (text_of ls) = ls /\ Permutation (concat (map lines_of files)) ls /\ StronglySorted line_le ls /\ sorted_file (text_of ls).
Proof.
  intros F. unfold mergefps. destruct (open_ok files 0 F) as (l & L & W & C). rewrite L. cbn [bind].
  destruct (settle_ok (length l * length l) l (inv_bound l)) as (l' & ST & P & SS); [eapply Forall_impl; [|exact W]; intros a Wa; apply Wa|]. rewrite ST. cbn [bind].
  pose proof (concat_perm _ _ P) as CP. destruct (merge_loop_ok (S (length (concat files))) l') as (ls & M & P2 & S2).
  - rewrite <- (Permutation_length CP), C. pose proof (total_lines files). lia.
  - eapply Permutation_Forall; eassumption.
  - exact SS.
  - rewrite C in CP. rewrite <- CP in P2. exists ls. split; [exact M|]. assert (LT : lines_of (text_of ls) = ls) by (apply lines_text; eapply Permutation_Forall; [exact P2|apply all_nonl]).
    split; [exact LT|]. split; [exact P2|]. split; [exact S2|]. split; [unfold short|]; rewrite LT; [eapply Permutation_Forall; [exact P2|apply all_short; exact F]|exact S2].
Qed.

Lemma merge_groups_ok : forall n files, (n * NMERGE <= length files)%nat -> Forall sorted_file files ->
  exists ts r, merge_groups n files = Ok (ts, r) /\ length ts = n /\ Forall sorted_file ts /\ Forall sorted_file r /\ Permutation (concat (map lines_of files)) (concat (map lines_of ts) ++ concat (map lines_of r)).
Proof.
  induction n as [|n IH]; intros files L F; cbn [merge_groups].
  - exists [], files. repeat split; auto.
  - rewrite <- (firstn_skipn NMERGE files) in F. apply Forall_app in F. destruct F as (F1 & F2). destruct (mergefps_ok _ F1) as (ls & M & LT & P & _ & SF). rewrite M. cbn [bind].
    destruct (IH (skipn NMERGE files)) as (ts & r & R & LN & FT & FR & PP); [rewrite skipn_length; cbn [Nat.mul] in L; lia|exact F2|]. rewrite R. cbn [bind]. exists (text_of ls :: ts), r.
    split; [reflexivity|]. split; [cbn [length]; lia|]. split; [constructor; assumption|]. split; [exact FR|]. cbn [map concat]. rewrite LT, <- app_assoc, <- PP, <- P, <- concat_app, <- map_app, firstn_skipn. reflexivity.
Qed.

Lemma merge_ok : forall fuel files, (length files <= fuel)%nat -> Forall sorted_file files ->
  exists ls, merge fuel files = Ok (text_of ls) /\ Permutation (concat (map lines_of files)) ls /\ StronglySorted line_le ls.
Proof.
  induction fuel as [|k IH]; intros files L F; cbn [merge]; (destruct (Nat.leb (length files) NMERGE) eqn:E; [destruct (mergefps_ok files F) as (ls & M & _ & P & S & _); exists ls; auto|]).
  - apply Nat.leb_gt in E. lia.
  - apply Nat.leb_gt in E. unfold NMERGE in E.
    assert (D : (length files / NMERGE * NMERGE <= length files /\ length files / NMERGE + 1 < length files)%nat).
    { unfold NMERGE. pose proof (Nat.div_mod (length files) 16 ltac:(lia)). pose proof (Nat.mod_upper_bound (length files) 16 ltac:(lia)). lia. }
    destruct (merge_groups_ok (length files / NMERGE) files) as (ts & r & R & LN & FT & FR & PP); [lia|exact F|]. rewrite R. cbn [bind]. destruct (mergefps_ok r FR) as (l2 & M & LT & P & _ & SF). rewrite M. cbn [bind].
    destruct (IH (ts ++ [text_of l2])) as (ls & R2 & P2 & S2); [rewrite app_length; cbn [length]; lia|apply Forall_app; split; [exact FT|constructor; [exact SF|constructor]]|].
    exists ls. split; [exact R2|]. split; [|exact S2]. rewrite PP, P. rewrite <- P2, map_app, concat_app. cbn [map concat]. rewrite LT, app_nil_r. reflexivity.
Qed.

(** ** The whole sort *)
Lemma sort_loop_done fuel b f direct temps : good b f -> held b ++ rest f = [] -> sort_loop fuel b f direct temps = Ok (direct, temps).
Proof.
  intros G P. destruct (fillbuf_ok b f G) as (al & cont & total & f' & ls & r & E1 & E2 & E3 & E4 & E5 & E6 & E7); [rewrite P; constructor|]. assert (total = 0) by (apply E5; exact P). subst. destruct fuel; cbn [sort_loop]; rewrite E1; reflexivity.
Qed.

Lemma sort_loop_ok : forall fuel b f temps, good b f -> short (held b ++ rest f) -> (length (lines_of (held b ++ rest f)) <= fuel)%nat -> Forall sorted_file temps ->
  (exists ls, sort_loop fuel b f [] temps = Ok (text_of ls, []) /\ temps = [] /\ Permutation (lines_of (held b ++ rest f)) ls /\ StronglySorted line_le ls) \/
  (exists temps', sort_loop fuel b f [] temps = Ok ([], temps') /\ Forall sorted_file temps' /\ Permutation (concat (map lines_of temps) ++ lines_of (held b ++ rest f)) (concat (map lines_of temps'))).
Proof.
  induction fuel as [|k IH]; intros b f temps G SH LF FT.
  - right. exists temps. assert (P0 : held b ++ rest f = []).
    { destruct (fillbuf_ok b f G SH) as (al & cont & total & f' & ls & r & E1 & E2 & E3 & E4 & E5 & E6 & E7). destruct (held b ++ rest f) eqn:Q; [reflexivity|]. exfalso. apply E6; [discriminate|]. rewrite E3, app_length in LF. destruct ls; [reflexivity|cbn [length] in LF; lia]. }
    rewrite (sort_loop_done 0 b f [] temps G P0), P0, lines_nil, app_nil_r. repeat split; auto.
  - destruct (fillbuf_ok b f G SH) as (al & cont & total & f' & ls & r & E1 & E2 & E3 & E4 & E5 & E6 & E7). destruct (total =? 0) eqn:TZ.
    + right. exists temps. assert (P0 : held b ++ rest f = []) by (apply E5; lia). rewrite (sort_loop_done (S k) b f [] temps G P0), P0, lines_nil, app_nil_r. repeat split; auto.
    + assert (PN : held b ++ rest f <> []) by (intros Q; apply E5 in Q; lia). specialize (E6 PN). cbn [sort_loop]. rewrite E1. cbn [bind]. rewrite TZ, E2. destruct (sortlines_ok (S (length ls)) ls ltac:(lia)) as (out & O1 & O2 & O3). rewrite O1. cbn [bind]. rewrite put_lines_text.
      assert (SHL : Forall (fun l => slen l < 268435456) out /\ Forall (fun l => has_newline l = false) out).
      { unfold short in SH. pose proof (lines_nonl (held b ++ rest f)) as NN. rewrite E3 in SH, NN. apply Forall_app in SH, NN. split; eapply Permutation_Forall; try exact O2; tauto. }
      destruct SHL as (SHL & NNL). assert (LT : lines_of (text_of out) = out) by (apply lines_text; exact NNL).
      destruct (eof f' && match temps with [] => true | _ => false end) eqn:EE.
      * apply andb_true_iff in EE. destruct EE as (EF & TN). destruct temps; [|discriminate]. left. exists out. specialize (E7 EF). cbn [app]. rewrite sort_loop_done by assumption. split; [reflexivity|]. split; [reflexivity|]. rewrite E3, E7, lines_nil, app_nil_r. split; assumption.
      * destruct (IH {| alloc := al; held := r |} f' (temps ++ [text_of out]) E4) as [(l2 & _ & Q & _)|(temps' & R & F' & PP)].
        -- cbn [held]. eapply short_part; [exact E3|exact SH].
        -- cbn [held]. rewrite E3, app_length in LF. destruct ls; [congruence|cbn [length] in LF; lia].
        -- apply Forall_app. split; [exact FT|]. constructor; [|constructor]. split; [unfold short|]; rewrite LT; assumption.
        -- exfalso. destruct temps; discriminate.
        -- right. exists temps'. split; [exact R|]. split; [exact F'|]. cbn [held] in PP. rewrite <- PP, map_app, concat_app, E3. cbn [map concat]. rewrite LT, app_nil_r, <- app_assoc. apply Permutation_app_head, Permutation_app_tail. exact O2.
Qed.

Lemma sortfiles_ok content : short content -> exists out, sortfiles content = Ok out /\ sorted_text content out.
Proof.
  intros SH. unfold sortfiles. destruct (sort_loop_ok (S (length content)) {| alloc := sortalloc; held := [] |} {| rest := content; eof := false |} []) as [(ls & R & _ & P & S)|(temps & R & F & P)].
  - split; [reflexivity|]. cbn [eof alloc held]. split; [discriminate|]. intros _. unfold sortalloc. split; [lia|]. change (slen []) with 0. lia.
  - exact SH.
  - cbn [held rest app]. pose proof (lines_count content). lia.
  - constructor.
  - rewrite R. cbn [bind]. eexists. split; [reflexivity|]. exists ls. auto.
  - rewrite R. cbn [bind]. cbn [map concat app held rest] in P. destruct temps as [|t0 ts] eqn:ET.
    + eexists. split; [reflexivity|]. exists []. split; [reflexivity|]. split; [exact P|constructor].
    + rewrite <- ET in *. destruct (merge_ok (length temps) temps (le_n _) F) as (ls & M & P2 & S2). rewrite M. cbn [bind app]. eexists. split; [reflexivity|]. exists ls. split; [reflexivity|]. split; [rewrite P; exact P2|exact S2].
Qed.
