(** * C13: interval names and seconds. *)
From Coq Require Import ZArith Lia Bool ZifyBool.
From Coq Require Import String.
From Coq Require Import List.
Local Notation length := List.length.
From Verif Require Import Base ArrayLib HashModel CStr CStrProofs DateTextModel IntervalModel IntervalSpec.
Import ListNotations.
Open Scope Z_scope.
Open Scope res_scope.

(** the table of the program is the standard list, in this order *)
Definition spec_table (version : Z) : list (list Z * Z) := map (fun i => (name_of version i, seconds_of i)) (standard version).
Lemma table_ok version : itable version = spec_table version.
Proof.
  unfold itable, spec_table, standard, name_of. destruct (version =? 6); reflexivity.
Qed.

Lemma string_compare_spec a : forall b, string_compare (length a) a b = true <-> ci_prefix a b.
Proof.
  induction a as [|x a IH]; intros b; cbn [string_compare length].
  - split; [intros _; exists [], b; split; reflexivity|reflexivity].
  - destruct b as [|y b].
    + split; [discriminate|]. intros (p & r & E & C). destruct p; [discriminate|discriminate].
    + rewrite andb_true_iff, IH. split.
      * intros [E (p & r & -> & C)]. exists (y :: p), r. split; [reflexivity|]. unfold ci_eq in *. cbn [map]. f_equal; [lia|exact C].
      * intros (p & r & E & C). destruct p as [|y' p]; [discriminate|]. injection E as -> ->. unfold ci_eq in C. cbn [map] in C.
        injection C as C1 C2. split; [lia|]. exists p, r. split; [reflexivity|exact C2].
Qed.

Lemma string_compare_sym n : forall a b, string_compare n a b = string_compare n b a.
Proof.
  induction n as [|n IH]; intros [|x a] [|y b]; cbn [string_compare]; try reflexivity.
  rewrite IH, Z.eqb_sym. reflexivity.
Qed.

Lemma ci_prefix_len p s : ci_prefix p s -> (length p <= length s)%nat.
Proof.
  intros (p' & r & -> & C). apply (f_equal (@length Z)) in C. rewrite !map_length in C. rewrite app_length. lia.
Qed.

(** a text is accepted against a name exactly when one begins the other *)
Definition compatible (s name : list Z) : Prop := ci_prefix s name \/ ci_prefix name s.
Lemma name_matches_spec s name : name_matches s name = true <-> compatible s name.
Proof.
  unfold name_matches, compatible. split.
  - intros H. destruct (Nat.le_ge_cases (length s) (length name)) as [L|L].
    + rewrite Nat.min_r in H by exact L. left. apply string_compare_spec, H.
    + rewrite Nat.min_l in H by exact L. right. apply string_compare_spec. rewrite string_compare_sym. exact H.
  - intros [H|H]; pose proof (ci_prefix_len _ _ H) as L.
    + rewrite Nat.min_r by exact L. apply string_compare_spec, H.
    + rewrite Nat.min_l by exact L. rewrite string_compare_sym. apply string_compare_spec, H.
Qed.

(** ** No standard name begins another *)
Fixpoint tails {A} (l : list A) : list (list A) := match l with [] => [] | _ :: t => l :: tails t end.
Definition clash_free (t : list (list Z * Z)) : bool :=
  forallb (fun l => match l with [] => true | e :: r => forallb (fun f => negb (name_matches (fst e) (fst f))) r end) (tails t).
Lemma clash6 : clash_free table6 = true. Proof. vm_compute. reflexivity. Qed.
Lemma clash7 : clash_free table7 = true. Proof. vm_compute. reflexivity. Qed.

Lemma name_matches_sym a b : name_matches a b = name_matches b a.
Proof. unfold name_matches. rewrite Nat.min_comm, string_compare_sym. reflexivity. Qed.

Lemma clash_in t : clash_free t = true -> forall e f, In e t -> In f t -> name_matches (fst e) (fst f) = true -> e = f.
Proof.
  induction t as [|x t IH]; intros H e f He Hf M; [destruct He|].
  unfold clash_free in H. cbn [tails forallb] in H. apply andb_true_iff in H. destruct H as [H1 H2].
  rewrite forallb_forall in H1.
  destruct He as [<- | He]; destruct Hf as [<- | Hf].
  - reflexivity.
  - specialize (H1 f Hf). rewrite M in H1. discriminate.
  - specialize (H1 e He). rewrite name_matches_sym in H1. rewrite M in H1. discriminate.
  - apply IH; assumption.
Qed.

Lemma clash_table v : clash_free (itable v) = true.
Proof. unfold itable. destruct (v =? 6); [exact clash6|exact clash7]. Qed.

Lemma in_table v i : In i (standard v) -> In (name_of v i, seconds_of i) (itable v).
Proof. intros H. rewrite table_ok. apply (in_map (fun i => (name_of v i, seconds_of i))), H. Qed.

Theorem C13_no_shadow : forall version i j, In i (standard version) -> In j (standard version) ->
  ci_prefix (name_of version i) (name_of version j) -> name_of version i = name_of version j /\ seconds_of i = seconds_of j.
Proof.
  intros v i j Hi Hj P.
  pose proof (clash_in _ (clash_table v) _ _ (in_table _ _ Hi) (in_table _ _ Hj)) as H. cbn [fst] in H.
  specialize (H (proj2 (name_matches_spec _ _) (or_introl P))). injection H as -> ->. split; reflexivity.
Qed.

Lemma ci_eq_prefix a b : ci_eq a b -> ci_prefix a b.
Proof. intros H. exists b, []. rewrite app_nil_r. split; [reflexivity|exact H]. Qed.
Lemma ci_eq_sym a b : ci_eq a b -> ci_eq b a. Proof. unfold ci_eq. congruence. Qed.
Lemma ci_eq_trans a b c : ci_eq a b -> ci_eq b c -> ci_eq a c. Proof. unfold ci_eq. congruence. Qed.
Lemma ci_eq_len a b : ci_eq a b -> length a = length b.
Proof. intros H. apply (f_equal (@length Z)) in H. rewrite !map_length in H. exact H. Qed.

Lemma matches_ci a b c : ci_eq a b -> name_matches a c = name_matches b c.
Proof.
  intros H. unfold name_matches. rewrite (ci_eq_len _ _ H).
  enough (G : forall n, string_compare n a c = string_compare n b c) by apply G.
  intros n. revert a b c H. induction n as [|n IH]; intros a b c H; [reflexivity|].
  destruct a as [|x a], b as [|y b]; try discriminate H; [reflexivity|].
  injection H as H1 H2. destruct c as [|z c]; [reflexivity|]. cbn [string_compare]. rewrite H1, (IH a b c H2). reflexivity.
Qed.

Lemma find_name_std v i s : In i (standard v) -> ci_eq s (name_of v i) -> find_name (itable v) s = Some (name_of v i, seconds_of i).
Proof.
  intros Hi C. pose proof (in_table v i Hi) as Ht. unfold find_name.
  destruct (find (fun e => name_matches s (fst e)) (itable v)) as [e|] eqn:E.
  - apply find_some in E. destruct E as [E1 E2]. rewrite (matches_ci _ _ _ C) in E2.
    f_equal. symmetry. apply (clash_in _ (clash_table v)); assumption.
  - exfalso. pose proof (find_none _ _ E _ Ht) as N. cbn [fst] in N.
    rewrite (proj2 (name_matches_spec _ _) (or_introl (ci_eq_prefix _ _ C))) in N. discriminate.
Qed.

Definition plain (e : list Z * Z) : bool :=
  absent 0 (fst e) && (1 <=? slen (fst e)) && (slen (fst e) <=? 10) && negb (toupper (hd 126 (fst e)) =? 126).
Lemma plain_table v : forallb plain (itable v) = true.
Proof. unfold itable. destruct (v =? 6); vm_compute; reflexivity. Qed.
Lemma plain_in v n x : In (n, x) (itable v) -> absent 0 n = true /\ 1 <= slen n <= 10 /\ toupper (hd 126 n) <> 126.
Proof.
  intros H. pose proof (proj1 (forallb_forall _ _) (plain_table v) _ H) as P. unfold plain in P. cbn [fst] in P.
  rewrite !andb_true_iff in P. destruct P as [[[P1 P2] P3] P4]. split; [exact P1|]. split; [lia|].
  intros E. rewrite E in P4. discriminate.
Qed.

Lemma copy_ok buf size n : absent 0 n = true -> 1 <= slen n -> slen n < size -> size <= alen buf ->
  exists b, stringCopy buf size n (Some (slen n)) = Ok (b, slen n) /\ cstr b = Ok n /\ alen b = alen buf.
Proof.
  intros Hn L1 L2 L3. unfold stringCopy.
  assert (E0 : (match Some (slen n) with Some 0 => true | _ => false end) = false).
  { destruct (slen n) eqn:E; try reflexivity. lia. }
  rewrite E0. clear E0.
  destruct (size =? 0) eqn:E; [lia|].
  unfold stringCopy_val. destruct (slen n <=? 0) eqn:E1; [lia|].
  rewrite stake_all by lia.
  destruct (cstr_put buf n Hn) as (b & P & C & A); [lia|]. rewrite P. cbn [bind].
  exists b. split; [reflexivity|]. split; assumption.
Qed.

(** ** Name to seconds (and canonical spelling) *)
Theorem C13_name_to_seconds : forall version i s buf secs size op,
  In i (standard version) -> cstr buf = Ok s -> ci_eq s (name_of version i) ->
  slen s < size -> size <= alen buf -> op = 0 \/ op = 1 ->
  exists b, ztsGetStandardInterval version secs buf size op =
    Ok {| iv_status := if 0 <? seconds_of i then 0 else 1; iv_secs := seconds_of i; iv_buf := b; iv_op := op |} /\
    (op = 0 -> cstr b = Ok (name_of version i)) /\ (op = 1 -> b = buf).
Proof.
  intros v i s buf secs size op Hi Hs C L1 L2 Hop.
  destruct (plain_in v _ _ (in_table v i Hi)) as (Pn & Pl & Ph).
  assert (Ep : match s with c :: _ => c =? 126 | [] => false end = false).
  { destruct s as [|c s]; [reflexivity|]. destruct (name_of v i) as [|d n]; [discriminate C|].
    injection C as C1 C2. cbn [hd] in Ph. destruct (c =? 126) eqn:E; [|reflexivity].
    apply Z.eqb_eq in E. subst c. exfalso. apply Ph. rewrite <- C1. reflexivity. }
  unfold ztsGetStandardInterval.
  assert (Eo : (op =? 1) || (op =? 0) = true) by lia. rewrite Eo.
  rewrite Hs. cbn [bind]. rewrite Ep. cbn zeta.
  change (sdrop 0 s) with s. rewrite (find_name_std v i s Hi C).
  assert (El : slen s = slen (name_of v i)) by (unfold slen; rewrite (ci_eq_len _ _ C); reflexivity).
  assert (Eg : (seconds_of i >? 0) = (0 <? seconds_of i)) by lia. rewrite Eg.
  destruct Hop as [-> | ->].
  - cbn [Z.eqb]. rewrite Z.sub_0_r. change (sdrop 0 buf) with buf. change (stake 0 buf) with (@nil Z).
    destruct (copy_ok buf size (name_of v i) Pn) as (b & E & Cb & A); [lia|lia|lia|].
    rewrite E. cbn [bind fst app].
    exists b. split; [reflexivity|]. split; [intros _; exact Cb|discriminate].
  - change (1 =? 0) with false. cbn iota. cbn [bind].
    exists buf. split; [reflexivity|]. split; [discriminate|reflexivity].
Qed.
Print Assumptions C13_name_to_seconds.
Print Assumptions C13_no_shadow.

(** ** Which texts are accepted, and which are rejected *)
Theorem C13_accepts : forall version s buf secs size,
  cstr buf = Ok s -> hd 0 s <> 126 ->
  (exists l i r, standard version = l ++ i :: r /\ compatible s (name_of version i) /\
     (forall j, In j l -> ~ compatible s (name_of version j)) /\
     ztsGetStandardInterval version secs buf size 1 =
       Ok {| iv_status := if 0 <? seconds_of i then 0 else 1; iv_secs := seconds_of i; iv_buf := buf; iv_op := 1 |}) \/
  ((forall i, In i (standard version) -> ~ compatible s (name_of version i)) /\
   ztsGetStandardInterval version secs buf size 1 =
       Ok {| iv_status := -1; iv_secs := secs; iv_buf := buf; iv_op := 1 |}).
Proof.
  intros v s buf secs size Hs Hh.
  assert (Ep : match s with c :: _ => c =? 126 | [] => false end = false).
  { destruct s as [|c s]; [reflexivity|]. cbn [hd] in Hh. lia. }
  unfold ztsGetStandardInterval. change ((1 =? 1) || (1 =? 0)) with true. cbn iota.
  rewrite Hs. cbn [bind]. rewrite Ep. cbn zeta. cbn iota. change (sdrop 0 s) with s. change (1 =? 0) with false. cbn iota.
  unfold find_name. rewrite table_ok. unfold spec_table.
  assert (G : forall l,
    (exists a i r, l = a ++ i :: r /\ compatible s (name_of v i) /\ (forall j, In j a -> ~ compatible s (name_of v j)) /\
       find (fun e => name_matches s (fst e)) (map (fun i => (name_of v i, seconds_of i)) l) = Some (name_of v i, seconds_of i)) \/
    ((forall i, In i l -> ~ compatible s (name_of v i)) /\
       find (fun e => name_matches s (fst e)) (map (fun i => (name_of v i, seconds_of i)) l) = None)).
  { induction l as [|x l IH].
    - right. split; [intros i []|reflexivity].
    - cbn [map find fst]. destruct (name_matches s (name_of v x)) eqn:M.
      + left. exists [], x, l. split; [reflexivity|]. split; [apply name_matches_spec, M|]. split; [intros j []|reflexivity].
      + assert (NC : ~ compatible s (name_of v x)) by (intros C; apply name_matches_spec in C; congruence).
        destruct IH as [(a & i & r & -> & C & N & F)|[N F]].
        * left. exists (x :: a), i, r. split; [reflexivity|]. split; [exact C|]. split; [|exact F].
          intros j [<- | Hj]; [exact NC|apply N, Hj].
        * right. split; [|exact F]. intros i [<- | Hi]; [exact NC|apply N, Hi]. }
  destruct (G (standard v)) as [(a & i & r & E & C & N & F)|[N F]].
  - left. exists a, i, r. rewrite F. cbn [bind].
    assert (Eg : (seconds_of i >? 0) = (0 <? seconds_of i)) by lia. rewrite Eg.
    split; [exact E|]. split; [exact C|]. split; [exact N|reflexivity].
  - right. split; [exact N|]. rewrite F. reflexivity.
Qed.
Print Assumptions C13_accepts.

(** ** Pseudo-regular names: a tilde before a regular name gives the block class *)
Theorem C13_pseudo : forall version i s buf secs size op,
  In i (standard version) -> 0 < seconds_of i -> cstr buf = Ok (126 :: s) -> ci_eq s (name_of version i) ->
  slen s + 1 < size -> size <= alen buf -> op = 0 \/ op = 1 ->
  exists b k, ztsGetStandardInterval version secs buf size op =
    Ok {| iv_status := 1; iv_secs := - k; iv_buf := b; iv_op := op |} /\
    pseudo_class version (seconds_of i) k /\
    (op = 0 -> cstr b = Ok (126 :: name_of version i)) /\ (op = 1 -> b = buf).
Proof.
  intros v i s buf secs size op Hi Hp Hs C L1 L2 Hop.
  destruct (plain_in v _ _ (in_table v i Hi)) as (Pn & Pl & Ph).
  unfold ztsGetStandardInterval.
  assert (Eo : (op =? 1) || (op =? 0) = true) by lia. rewrite Eo.
  rewrite Hs. cbn [bind]. change (126 =? 126) with true. cbn zeta. cbn iota.
  change (sdrop 1 (126 :: s)) with s. rewrite (find_name_std v i s Hi C).
  assert (El : slen s = slen (name_of v i)) by (unfold slen; rewrite (ci_eq_len _ _ C); reflexivity).
  assert (K : exists k, pseudo_block v (seconds_of i) = - k /\ 1 <= k /\ pseudo_class v (seconds_of i) k).
  { unfold pseudo_block.
    destruct (seconds_of i <? 1800) eqn:E1; [exists 1; repeat split; try lia; unfold pseudo_class, minute, sec; lia|].
    destruct (v =? 6) eqn:Ev.
    - destruct (seconds_of i <? 86400) eqn:E2;
        [exists 2; repeat split; try lia; unfold pseudo_class; try rewrite Ev; unfold day, hour, minute, sec; lia|].
      destruct (seconds_of i <? 604800) eqn:E3;
        [exists 3; repeat split; try lia; unfold pseudo_class; try rewrite Ev; unfold day, hour, minute, sec; lia|].
      destruct (seconds_of i <? 2592000) eqn:E4;
        [exists 4; repeat split; try lia; unfold pseudo_class; unfold day, hour, minute, sec; lia|].
      exists 5; repeat split; try lia; unfold pseudo_class; unfold day, hour, minute, sec; lia.
    - destruct (seconds_of i <? 21600) eqn:E2;
        [exists 2; repeat split; try lia; unfold pseudo_class; try rewrite Ev; unfold day, hour, minute, sec; lia|].
      destruct (seconds_of i <? 604800) eqn:E3;
        [exists 3; repeat split; try lia; unfold pseudo_class; try rewrite Ev; unfold day, hour, minute, sec; lia|].
      destruct (seconds_of i <? 2592000) eqn:E4;
        [exists 4; repeat split; try lia; unfold pseudo_class; unfold day, hour, minute, sec; lia|].
      exists 5; repeat split; try lia; unfold pseudo_class; unfold day, hour, minute, sec; lia. }
  destruct K as (k & Ek & K1 & K2). rewrite Ek.
  assert (Eg : (- k >? 0) = false) by lia. rewrite Eg.
  destruct buf as [|c0 buf]; [discriminate Hs|]. cbn [cstr] in Hs.
  destruct (c0 =? 0); [discriminate|]. destruct (cstr buf) as [s1|] eqn:Eb; [|discriminate]. cbn [bind] in Hs.
  injection Hs as -> ->.
  destruct Hop as [-> | ->].
  - change (0 =? 0) with true. cbn iota. change (sdrop 1 (126 :: buf)) with buf. change (stake 1 (126 :: buf)) with [126].
    destruct (copy_ok buf (size - 1) (name_of v i) Pn) as (b & E & Cb & A); [lia|lia|unfold alen in *; cbn [length] in L2; lia|].
    rewrite E. cbn [bind fst app].
    exists (126 :: b), k. split; [reflexivity|]. split; [exact K2|]. split; [|discriminate].
    intros _. cbn [cstr]. rewrite Cb. reflexivity.
  - change (1 =? 0) with false. cbn iota. cbn [bind].
    exists (126 :: buf), k. split; [reflexivity|]. split; [exact K2|]. split; [discriminate|reflexivity].
Qed.
Print Assumptions C13_pseudo.

(** ** Seconds to name *)
Fixpoint distinct (l : list Z) : bool := match l with [] => true | x :: t => negb (existsb (Z.eqb x) t) && distinct t end.
Lemma distinct_table v : distinct (map snd (itable v)) = true.
Proof. unfold itable. destruct (v =? 6); vm_compute; reflexivity. Qed.
Lemma distinct_find t n x : distinct (map snd t) = true -> In (n, x) t -> find_secs t x = Some (n, x).
Proof.
  induction t as [|[m y] t IH]; intros D H; [destruct H|].
  cbn [map snd distinct] in D. apply andb_true_iff in D. destruct D as [D1 D2].
  unfold find_secs. cbn [find snd]. destruct H as [H|H].
  - injection H as -> ->. rewrite Z.eqb_refl. reflexivity.
  - destruct (x =? y) eqn:E.
    + exfalso. apply Z.eqb_eq in E. subst y. apply negb_true_iff in D1.
      assert (existsb (Z.eqb x) (map snd t) = true); [|congruence].
      apply existsb_exists. exists x. split; [apply (in_map snd) in H; exact H|apply Z.eqb_refl].
    + apply IH; assumption.
Qed.

Theorem C13_seconds_to_name : forall version i buf size,
  In i (standard version) -> 11 <= size <= alen buf ->
  exists b, ztsGetStandardInterval version (seconds_of i) buf size 2 =
    Ok {| iv_status := 0; iv_secs := seconds_of i; iv_buf := b; iv_op := 2 |} /\ cstr b = Ok (name_of version i).
Proof.
  intros v i buf size Hi L. pose proof (in_table v i Hi) as Ht.
  destruct (plain_in v _ _ Ht) as (Pn & Pl & Ph).
  unfold ztsGetStandardInterval. change ((2 =? 1) || (2 =? 0)) with false. change (2 =? 2) with true. cbn iota zeta.
  rewrite (distinct_find _ _ _ (distinct_table v) Ht).
  destruct (copy_ok buf size (name_of v i) Pn) as (b & E & Cb & A); [lia|lia|lia|].
  rewrite E. cbn [bind fst]. exists b. split; [reflexivity|exact Cb].
Qed.

Theorem C13_unknown_seconds : forall version secs buf size,
  (forall i, In i (standard version) -> seconds_of i <> secs) ->
  ztsGetStandardInterval version secs buf size 2 = Ok {| iv_status := -1; iv_secs := secs; iv_buf := buf; iv_op := 2 |}.
Proof.
  intros v secs buf size H. unfold ztsGetStandardInterval.
  change ((2 =? 1) || (2 =? 0)) with false. change (2 =? 2) with true. cbn iota zeta.
  destruct (find_secs (itable v) secs) as [[n x]|] eqn:E; [|reflexivity].
  exfalso. apply find_some in E. destruct E as [E1 E2]. cbn [snd] in E2. rewrite table_ok in E1.
  apply in_map_iff in E1. destruct E1 as (i & E1 & Hi). injection E1 as <- E1. apply (H i Hi). lia.
Qed.

(** names and seconds determine each other *)
Theorem C13_round_trip : forall version i buf size op,
  In i (standard version) -> 11 <= size <= alen buf -> op = 0 \/ op = 1 ->
  exists b b', ztsGetStandardInterval version (seconds_of i) buf size 2 =
    Ok {| iv_status := 0; iv_secs := seconds_of i; iv_buf := b; iv_op := 2 |} /\
  forall secs, ztsGetStandardInterval version secs b size op =
    Ok {| iv_status := if 0 <? seconds_of i then 0 else 1; iv_secs := seconds_of i; iv_buf := b'; iv_op := op |}.
Proof.
  intros v i buf size op Hi L Hop. pose proof (in_table v i Hi) as Ht.
  destruct (plain_in v _ _ Ht) as (Pn & Pl & Ph).
  destruct (copy_ok buf size (name_of v i) Pn) as (b & E & Cb & A); [lia|lia|lia|].
  assert (G : exists b0, ztsGetStandardInterval v 0 b size op =
    Ok {| iv_status := if 0 <? seconds_of i then 0 else 1; iv_secs := seconds_of i; iv_buf := b0; iv_op := op |}).
  { destruct (C13_name_to_seconds v i _ b 0 size op Hi Cb eq_refl) as (b' & F & _); [lia|lia|exact Hop|].
    exists b'. exact F. }
  destruct G as (b' & F). exists b, b'. split.
  - unfold ztsGetStandardInterval. change ((2 =? 1) || (2 =? 0)) with false. change (2 =? 2) with true. cbn iota zeta.
    rewrite (distinct_find _ _ _ (distinct_table v) Ht). rewrite E. reflexivity.
  - intros secs. rewrite <- F. unfold ztsGetStandardInterval.
    assert (Eo : (op =? 1) || (op =? 0) = true) by lia. rewrite Eo.
    rewrite Cb. cbn [bind].
    assert (Ep : match name_of v i with c :: _ => c =? 126 | [] => false end = false).
    { destruct (name_of v i) as [|c s]; [reflexivity|]. cbn [hd] in Ph. destruct (c =? 126) eqn:X; [|reflexivity].
      apply Z.eqb_eq in X. subst c. exfalso. apply Ph. reflexivity. }
    rewrite Ep. cbn zeta iota. change (sdrop 0 (name_of v i)) with (name_of v i).
    rewrite (find_name_std v i _ Hi eq_refl). reflexivity.
Qed.
Print Assumptions C13_round_trip.

(** ** Enumeration *)
Lemma next_split t : distinct (map snd t) = true -> forall p e r, t = p ++ e :: r -> next_entry t (snd e) = Some (hd_error r).
Proof.
  induction t as [|x t IH]; intros D p e r E; [destruct p; discriminate|].
  destruct p as [|y p].
  - injection E as -> ->. cbn [next_entry]. rewrite Z.eqb_refl. reflexivity.
  - injection E as -> ->. cbn [map snd distinct] in D. apply andb_true_iff in D. destruct D as [D1 D2].
    cbn [next_entry]. destruct (snd e =? snd y) eqn:X.
    + exfalso. apply Z.eqb_eq in X. apply negb_true_iff in D1.
      assert (existsb (Z.eqb (snd y)) (map snd (p ++ e :: r)) = true); [|congruence].
      apply existsb_exists. exists (snd e). split; [|lia]. apply in_map, in_or_app. right. left. reflexivity.
    + apply (IH D2 p e r eq_refl).
Qed.

Lemma enum_tail v size : 11 <= size -> forall r p e buf fuel, itable v = p ++ e :: r -> size <= alen buf ->
  (length r < fuel)%nat -> enumerate fuel v (snd e) buf size 4 = Ok r.
Proof.
  intros L. induction r as [|[n x] r IH]; intros p e buf fuel E Lb Hf; (destruct fuel as [|f]; [cbn in Hf; lia|]).
  - cbn [enumerate]. unfold ztsGetStandardInterval.
    change ((4 =? 1) || (4 =? 0)) with false. change (4 =? 2) with false. change (4 =? 3) with false. change (4 =? 4) with true.
    cbn iota zeta. rewrite (next_split _ (distinct_table v) _ _ _ E). cbn [hd_error bind iv_status]. reflexivity.
  - cbn [enumerate]. unfold ztsGetStandardInterval.
    change ((4 =? 1) || (4 =? 0)) with false. change (4 =? 2) with false. change (4 =? 3) with false. change (4 =? 4) with true.
    cbn iota zeta. rewrite (next_split _ (distinct_table v) _ _ _ E). cbn [hd_error].
    assert (Hin : In (n, x) (itable v)) by (rewrite E; apply in_or_app; right; right; left; reflexivity).
    destruct (plain_in v _ _ Hin) as (Pn & Pl & Ph).
    destruct (copy_ok buf size n Pn) as (b & Ec & Cb & A); [lia|lia|lia|].
    rewrite Ec. cbn [bind fst iv_status iv_buf iv_secs iv_op]. change (0 =? 0) with true. cbn iota.
    rewrite Cb. cbn [bind].
    pose proof (IH (p ++ [e]) (n, x) b f) as IH'. cbn [snd] in IH'. rewrite IH'.
    + reflexivity.
    + rewrite <- app_assoc. exact E.
    + rewrite A. exact Lb.
    + cbn [length] in Hf. lia.
Qed.

(** The documented loop visits every standard interval exactly once (names and seconds) and then stops. *)
Theorem C13_enumeration : forall version secs buf size fuel,
  11 <= size <= alen buf -> (40 <= fuel)%nat ->
  enumerate fuel version secs buf size 3 = Ok (map (fun i => (name_of version i, seconds_of i)) (standard version)) /\
  NoDup (map (name_of version) (standard version)) /\ NoDup (map seconds_of (standard version)).
Proof.
  intros v secs buf size fuel L Hf. split.
  - assert (T : exists n x r, itable v = (n, x) :: r /\ (length r < 39)%nat).
    { unfold itable. destruct (v =? 6); do 3 eexists; (split; [reflexivity|cbn; lia]). }
    destruct T as (n & x & r & T & Lr).
    destruct fuel as [|f]; [lia|]. cbn [enumerate]. unfold ztsGetStandardInterval.
    change ((3 =? 1) || (3 =? 0)) with false. change (3 =? 2) with false. change (3 =? 3) with true. cbn iota zeta. rewrite T.
    assert (Hin : In (n, x) (itable v)) by (rewrite T; left; reflexivity).
    destruct (plain_in v _ _ Hin) as (Pn & Pl & Ph).
    destruct (copy_ok buf size n Pn) as (b & Ec & Cb & A); [lia|lia|lia|].
    rewrite Ec. cbn [bind fst iv_status iv_buf iv_secs iv_op]. change (0 =? 0) with true. cbn iota.
    rewrite Cb. cbn [bind].
    pose proof (enum_tail v size (proj1 L) r [] (n, x) b f T) as H. cbn [snd] in H. rewrite H by lia. cbn [bind].
    f_equal. fold (spec_table v). rewrite <- table_ok, T. reflexivity.
  - assert (D : NoDup (map snd (itable v))).
    { pose proof (distinct_table v) as D. induction (map snd (itable v)) as [|y l IH]; [constructor|].
      cbn [distinct] in D. apply andb_true_iff in D. destruct D as [D1 D2]. constructor; [|apply IH, D2].
      intros Hy. apply negb_true_iff in D1. assert (existsb (Z.eqb y) l = true); [|congruence].
      apply existsb_exists. exists y. split; [exact Hy|apply Z.eqb_refl]. }
    split.
    + assert (N : NoDup (map fst (itable v))).
      { pose proof (clash_table v) as K. induction (itable v) as [|e l IH]; [constructor|].
        cbn [map] in D |- *. inversion D as [|? ? D1 D2]; subst.
        unfold clash_free in K. cbn [tails forallb] in K. apply andb_true_iff in K. destruct K as [K1 K2].
        constructor; [|apply IH; [exact D2|exact K2]].
        intros Hy. apply in_map_iff in Hy. destruct Hy as (f & Ef & Hf').
        rewrite forallb_forall in K1. specialize (K1 f Hf'). rewrite Ef in K1.
        rewrite (proj2 (name_matches_spec _ _) (or_introl (ci_eq_prefix _ _ eq_refl))) in K1. discriminate. }
      rewrite table_ok in N. unfold spec_table in N. rewrite map_map in N. exact N.
    + rewrite table_ok in D. unfold spec_table in D. rewrite map_map in D. exact D.
Qed.
Print Assumptions C13_enumeration.

(** ** What the code does not do: reject texts that only share a beginning with a standard name *)
Theorem C13_refuted_unknown_rejected : exists s, 
  (forall v i, In i (standard v) -> ~ ci_eq s (name_of v i)) /\
  forall v, ztsGetStandardInterval v 0 (s ++ [0]) 64 1 = Ok {| iv_status := 0; iv_secs := 31536000; iv_buf := s ++ [0]; iv_op := 1 |}.
Proof.
  exists (txt "1Yearling"%string). split.
  - intros v i Hi C. unfold standard in Hi. unfold name_of in C. destruct (v =? 6);
      cbn in Hi; repeat (destruct Hi as [<- | Hi]; [vm_compute in C; discriminate C|]); destruct Hi.
  - intros v. unfold ztsGetStandardInterval, itable, pseudo_block. destruct (v =? 6); vm_compute; reflexivity.
Qed.
(** the empty E part is a one-year interval, "1M" a month although a minute also starts so *)
Theorem C13_refuted_ambiguous : 
  ztsGetStandardInterval 7 0 [0] 64 1 = Ok {| iv_status := 0; iv_secs := 31536000; iv_buf := [0]; iv_op := 1 |} /\
  ztsGetStandardInterval 7 0 (txt "1m"%string ++ [0]) 64 1 = Ok {| iv_status := 0; iv_secs := 2592000; iv_buf := txt "1m"%string ++ [0]; iv_op := 1 |}.
Proof. split; vm_compute; reflexivity. Qed.

Example C13_hypotheses_example :
  In (Every 15 "Minute"%string "MIN"%string minute) (standard 7) /\ ci_eq (txt "15MINUTE"%string) (name_of 7 (Every 15 "Minute"%string "MIN"%string minute)) /\
  cstr (txt "15MINUTE"%string ++ repeat 0 8) = Ok (txt "15MINUTE"%string).
Proof. split; [vm_compute; intuition|]. split; vm_compute; reflexivity. Qed.
Print Assumptions C13_refuted_ambiguous.
Print Assumptions C13_refuted_unknown_rejected.
Print Assumptions C13_seconds_to_name.
Print Assumptions C13_unknown_seconds.
