(** * C48: an irregular time series over any history of stores, whatever the blocks. *)
From Coq Require Import ZArith List Lia Bool ZifyBool.
From Verif Require Import Base DateModel DateSpec BlockModel BlockSpec ArrayLib IrregModel IrregProps IrrSerModel IrrSerSpec
  IrrSerProofs IrrSerBlock IrrSerLoop IrrSerStore IrrSerRead.
Import ListNotations.
Open Scope Z_scope.
Open Scope res_scope.

Section S.
Context {P : Type}.
Variable dflt : P.

(** Carry out stores one after the other; every one must report success. *)
Fixpoint stores (size g : Z) (ops : list (iop P)) (s : iseries P) : res (iseries P) :=
  match ops with
  | [] => Ok s
  | op :: r =>
      let* '(ok, s') := istore dflt size g (q_base op) (q_flag op) (q_vals op) s in
      if ok then stores size g r s' else Undef
  end.

Lemma stores_ok k g (Gok : gran_ok k g) : forall ops m s, rep k g m s -> all_covered k g m ops ->
  exists s', stores (block_code k) g ops s = Ok s' /\ rep k g (fold_left (spec_put g) ops m) s'.
Proof.
  induction ops as [|op r IH]; intros m s Hr Hc; [exists s; split; [reflexivity|exact Hr]|].
  destruct Hc as [C1 C2]. destruct (istore_ok k g Gok dflt m op s Hr C1) as (s' & E & R). cbn [stores]. rewrite E. cbn [bind].
  destruct (IH _ _ R C2) as (s2 & E2 & R2). exists s2. split; assumption.
Qed.

(** Start from nothing and carry out any sequence of stores that the specification covers.  Each succeeds, and then every
    window - across as many blocks as it likes, whatever the caller proposes as granularity and base - gives back, in order
    of time, exactly the instants of the window that hold a value according to the stores, each with its value, and
    with times in units of the granularity of the stores. *)
Theorem C48_history_partial : forall k g ops, gran_ok k g -> all_covered k g (fun _ => None) ops ->
  exists s, stores (block_code k) g ops (fun _ => None) = Ok s /\
  forall g0 rb sj ss ej es, window_ok k g rb sj ss ej es ->
    exists r, iread (block_code k) g0 rb sj ss ej es s = Ok (Some r) /\
      (forall x, fst r = Some x -> fst x = g) /\
      increasing (shows r) /\
      forall i v, In (i, v) (shows r) <-> instant sj ss <= i <= instant ej es /\ spec_all g ops i = Some v.
Proof.
  intros k g ops Gok Hc.
  destruct (stores_ok k g Gok ops (fun _ => None) (fun _ => None)) as (s & E & R); [intros j _; cbn; auto|exact Hc|].
  exists s. split; [exact E|]. intros g0 rb sj ss ej es W.
  destruct (iread_ok k g Gok _ s g0 rb sj ss ej es R W) as (r & E1 & G & I & Q). exists r. split; [exact E1|]. split; [|split; [exact I|exact Q]].
  intros x Hx. rewrite Hx in G. exact G.
Qed.

(** In particular two stores that do not share an instant can be done in either order (flag 0): afterwards every window reads the same
    instants and values. *)
Corollary C48_order_partial : forall k g a b, gran_ok k g -> q_flag a = 0 -> q_flag b = 0 ->
  covered k g (fun _ => None) a -> covered k g (fun _ => None) b ->
  (forall i, at_time i (op_instants g a) <> None -> at_time i (op_instants g b) = None) ->
  exists s1 s2, stores (block_code k) g [a; b] (fun _ => None) = Ok s1 /\ stores (block_code k) g [b; a] (fun _ => None) = Ok s2 /\
  forall g0 rb sj ss ej es, window_ok k g rb sj ss ej es ->
    exists r1 r2, iread (block_code k) g0 rb sj ss ej es s1 = Ok (Some r1) /\ iread (block_code k) g0 rb sj ss ej es s2 = Ok (Some r2) /\
      forall i v, In (i, v) (shows r1) <-> In (i, v) (shows r2).
Proof.
  intros k g a b Gok Fa Fb Ca Cb Dis.
  assert (Any : forall (m : Z -> option P) op, q_flag op = 0 -> covered k g (fun _ => None) op -> covered k g m op).
  { intros m op F (H1 & H2 & H3 & H4 & H5 & _). unfold covered. repeat (split; [assumption|]). left. exact F. }
  destruct (C48_history_partial k g [a; b] Gok) as (s1 & E1 & R1); [cbn; auto|].
  destruct (C48_history_partial k g [b; a] Gok) as (s2 & E2 & R2); [cbn; auto|].
  exists s1, s2. split; [exact E1|]. split; [exact E2|]. intros g0 rb sj ss ej es W.
  destruct (R1 g0 rb _ _ _ _ W) as (r1 & X1 & _ & _ & Q1). destruct (R2 g0 rb _ _ _ _ W) as (r2 & X2 & _ & _ & Q2).
  exists r1, r2. split; [exact X1|]. split; [exact X2|]. intros i v. rewrite Q1, Q2. unfold spec_all. cbn [fold_left]. unfold spec_put. rewrite Fa, Fb. cbn [Z.eqb andb].
  specialize (Dis i). destruct (at_time i (op_instants g a)) as [x|] eqn:Ea; destruct (at_time i (op_instants g b)) as [y|] eqn:Eb; try tauto.
  specialize (Dis ltac:(discriminate)). discriminate.
Qed.
End S.
Print Assumptions C48_history_partial.
Print Assumptions C48_order_partial.

(** ** The hypotheses are met *)
Definition h1 : list (iop Z) :=
  [ mk_iop 40000 0 [(30, 1); (1500, 2); (2900, 3); (4400, 4)];   (* four day blocks *)
    mk_iop 40000 1 [(1450, 5); (3000, 6)] ].                      (* replaces 2 and 3 in passing *)
Example C48_covered_example : gran_ok DayBlock 60 /\ window_ok DayBlock 60 0 40000 1 40003 86400 /\ all_covered DayBlock 60 (fun _ => None) h1.
Proof.
  split; [unfold gran_ok; split; [auto|intros [?|?]; discriminate]|].
  split; [unfold window_ok, in_years, instant; repeat split; try lia; intros; discriminate|].
  cbn [all_covered h1]. split; [|split; [|exact Logic.I]].
  - unfold covered; cbn. split; [discriminate|]. split; [lia|]. split; [intros e [<-|[<-|[<-|[<-|[]]]]]; cbn; lia|].
    split; [intros e e' He He'; repeat (destruct He as [<-|He]; [repeat (destruct He' as [<-|He']; [cbn; lia|]); destruct He'|]); destruct He|].
    split; [intros e [<-|[<-|[<-|[<-|[]]]]]; unfold in_years; cbn; lia|]. left. reflexivity.
  - unfold covered; cbn [q_vals q_flag q_base op_instants instants map fst snd]. split; [discriminate|]. split; [cbn; lia|]. split; [intros e [<-|[<-|[]]]; cbn; lia|].
    split; [intros e e' [<-|[<-|[]]] [<-|[<-|[]]]; cbn; lia|].
    split; [intros e [<-|[<-|[]]]; unfold in_years; cbn; lia|]. right. split; [reflexivity|].
    split; [intros e [<-|[<-|[]]] _; cbn; lia|].
    intros f l r [= <- <-] Hl. cbn in Hl. subst l. cbn [fst snd]. left. intros i (y & m & d & y' & m' & d' & (V1 & Y1 & J1) & (V2 & Y2 & J2) & (-> & -> & ->)) Hi.
    rewrite J1 in J2. injection J2 as J2. assert (J3 : (i - 1) / 86400 = 40001) by (rewrite J2; vm_compute; reflexivity).
    assert (40001 * 86400 < i <= 40001 * 86400 + 600) by (pose proof (Z.div_mod (i - 1) 86400); pose proof (Z.mod_pos_bound (i - 1) 86400); lia).
    unfold spec_put. cbn [q_flag q_base q_vals op_instants instants map fst snd].
    cbn [at_time fst snd]. repeat match goal with |- context [?a =? ?b] => replace (a =? b) with false by lia end. reflexivity.
Qed.
Example C48_run_example : (let* s := stores 0 1 60 h1 (fun _ => None) in iread 1 0 0 40000 1 40003 86400 s)
  = Ok (Some (Some (60, 0), [(57600030, 1); (57601450, 5); (57603000, 6); (57604400, 4)])).
Proof. vm_compute. reflexivity. Qed.

(** ** What the conditions exclude *)
Definition hist (size g : Z) (ops : list (iop Z)) (sj ss ej es : Z) : res (option (list (Z * Z))) :=
  let* s := stores 0 size g ops (fun _ => None) in
  let* r := iread size 0 0 sj ss ej es s in
  Ok (match r with Some x => Some (shows x) | None => None end).

(** Seconds are lost when the first block that is read has a coarser granularity than the next one: the value stored at 0:00:30
    is given back at 0:00:00. *)
Theorem C48_mixed_granularity_refuted :
  (let* '(_, s) := istore 0 1 60 0 0 [(1441, 7)] (fun _ => None) in
   let* '(_, s) := istore 0 1 1 0 0 [(2 * 86400 + 30, 8)] s in
   let* r1 := iread 1 0 0 1 1 2 80000 s in
   let* r2 := iread 1 0 0 2 1 2 80000 s in
   Ok (option_map shows r1, option_map shows r2))
  = Ok (Some [(86460, 7); (2 * 86400, 8)], Some [(2 * 86400 + 30, 8)]).
Proof. vm_compute. reflexivity. Qed.

(** Times in seconds in blocks of a century: the length of the block in seconds does not fit in 32 bits. *)
Theorem C48_century_seconds_refuted : istore 0 5 1 36525 0 [(60, 1)] (fun _ => None) = Undef.
Proof. vm_compute. reflexivity. Qed.

(** Blocks of a decade: 8000 values one second apart are stored and can be read; one more value stored elsewhere in the block,
    with flag 0, removes all of them but the first. *)
Definition dense : list (Z * Z) := map (fun i => (Z.of_nat i + 1, Z.of_nat i)) (seq 0 (Z.to_nat 8000)).
Theorem C48_decade_seconds_refuted :
  (let* r1 := hist 4 1 [mk_iop 40000 0 dense] 40000 1 40003 86400 in
   let* r2 := hist 4 1 [mk_iop 40000 0 dense; mk_iop 40000 0 [(100000, 5)]] 40000 1 40003 86400 in
   Ok (option_map (@alen _) r1, r2))
  = Ok (Some 8000, Some [(40000 * 86400 + 1, 0); (40000 * 86400 + 100000, 5)]).
Proof. vm_compute. reflexivity. Qed.

(** Flag 1, one value appended to a day block that holds 24: the arrays of the old values are read one past their end. *)
Definition hourly : list (Z * Z) := map (fun i => (Z.of_nat i * 60 + 30, Z.of_nat i)) (seq 0 24).
Theorem C48_replace_append_refuted :
  (exists s, stores 0 1 60 [mk_iop 40000 0 hourly] (fun _ => None) = Ok s /\
             istore 0 1 60 40000 1 [(1440, 5)] s = Undef).
Proof. eexists. split; [vm_compute; reflexivity|]. vm_compute. reflexivity. Qed.

(** Flag 1, one value in the middle: the last value of the block is gone. *)
Theorem C48_replace_tail_refuted :
  hist 1 60 [mk_iop 40000 0 [(10, 1); (20, 2); (30, 3); (40, 4)]; mk_iop 40000 1 [(15, 5)]] 40000 1 40003 86400
  = Ok (Some (instants 60 40000 [(10, 1); (15, 5); (20, 2); (30, 3)])).
Proof. vm_compute. reflexivity. Qed.

(** Two values for the same time are both kept. *)
Theorem C48_same_time_refuted :
  hist 1 60 [mk_iop 40000 0 [(10, 1); (10, 2)]] 40000 1 40003 86400 = Ok (Some (instants 60 40000 [(10, 1); (10, 2)])).
Proof. vm_compute. reflexivity. Qed.

(** A window inside day 0 (31 December 1899) is taken for no window. *)
Theorem C48_day_zero_refuted : hist 1 60 [mk_iop 0 0 [(10, 1)]] 0 1 0 86400 = Ok None.
Proof. vm_compute. reflexivity. Qed.

(** A granularity other than a second, a minute, an hour or a day: stored under the wrong block, not found again. *)
Theorem C48_granularity_refuted :
  hist 1 900 [mk_iop 40000 0 [(10, 1); (20, 2); (30, 3)]] 40000 1 40003 86400 = Ok (Some []).
Proof. vm_compute. reflexivity. Qed.
