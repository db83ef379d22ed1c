(** * Lemmas for C48: a store that spans blocks. *)
From Coq Require Import ZArith List Lia Bool ZifyBool.
From Verif Require Import Base DateModel DateSpec DateProofs DateProofs2 DateProofs3 BlockModel BlockSpec BlockProofs BlockProps
  ArrayLib IrregModel IrregProofs IrregProps SeriesSpec SeriesGrid IrrSerModel IrrSerSpec IrrSerProofs IrrSerBlock IrrSerLoop.
Import ListNotations.
Open Scope Z_scope.
Open Scope res_scope.

Section K.
Variable k : block_kind.
Variable g : Z.
Hypothesis Gok : gran_ok k g.
Context {P : Type}.
Variable dflt : P.
Notation u := (u k).
Notation B := (B k).
Notation inb := (inb k).
Notation rng := (rng k).
Notation size := (block_code k).
Notation brep := (brep k g).
Notation abs := (abs k).
Notation ent_ok := (ent_ok k g).
Notation rep := (rep k g).
Implicit Types l : list (Z * P).

Lemma bstart_inj a b : rng a -> rng b -> bstart k a = bstart k b -> a = b.
Proof.
  intros Ra Rb E. destruct (Z_lt_le_dec a b) as [L|L].
  - pose proof (bstart_lt k a b (proj1 (rng_br k a Ra)) (proj1 (rng_br k b Rb)) L). lia.
  - destruct (Z_lt_le_dec b a) as [L'|L']; [|lia]. pose proof (bstart_lt k b a (proj1 (rng_br k b Rb)) (proj1 (rng_br k a Ra)) L'). lia.
Qed.

Lemma last_irr (d d' y : Z * P) l : last (y :: l) d = last (y :: l) d'.
Proof. revert y. induction l as [|a r IH]; intros y; [reflexivity|]. apply (IH a). Qed.

Section Op.
Variable m : Z -> option P.
Variable op : iop P.
Hypothesis Cov : covered k g m op.
Variables (x0 : Z * P) (l0 : list (Z * P)).
Hypothesis Hv : q_vals op = x0 :: l0.
Let base := q_base op.
Let flag := q_flag op.
Definition inst (e : Z * P) : Z := q_base op * 86400 + fst e * g.
Let z0 := last (x0 :: l0) x0.
Variables (w : iwin) (j0 je : Z).
Hypothesis R0 : rng j0.
Hypothesis Re : rng je.
Hypothesis F0 : inb j0 (inst x0).
Hypothesis Fe : inb je (inst z0).
Hypothesis Wsb : v_sb w = bstart k j0.
Hypothesis Web : v_eb w = bstart k je.
Hypothesis Ws : instant (v_sj w) (v_ss w) = inst x0 /\ 0 < v_ss w <= 86400.
Hypothesis We : instant (v_ej w) (v_es w) = inst z0 /\ 0 < v_es w <= 86400.

Lemma g_pos : 0 < g. Proof. destruct (g_u k g Gok) as (c & _ & _ & _ & G0 & _). exact G0. Qed.
Lemma vals_inc : increasing (x0 :: l0).
Proof. destruct Cov as (_ & I & _). rewrite Hv in I. exact I. Qed.
Lemma inst_in e : In e (x0 :: l0) -> inst x0 <= inst e <= inst z0 /\ in_years (inst e).
Proof.
  intros He. pose proof vals_inc as I. pose proof (first_le x0 l0 I e He) as F. pose proof (last_ge x0 l0 I e He) as G. pose proof g_pos. fold z0 in G. split; [unfold inst; nia|].
  destruct Cov as (_ & _ & _ & _ & Y & _). specialize (Y (inst e, snd e)). cbn [fst] in Y. apply Y. unfold op_instants. rewrite Hv. apply in_map_iff. exists e. split; [reflexivity|exact He].
Qed.
Lemma j0_je : j0 <= je.
Proof.
  destruct (Z_lt_le_dec je j0) as [L|L]; [|exact L]. pose proof (B_next k je j0 Re R0 L). destruct F0 as [A _]. destruct Fe as [_ C].
  destruct (inst_in x0 ltac:(left; reflexivity)) as [[_ Q] _]. lia.
Qed.
Definition spec : Z -> option P := spec_put g m op.
Lemma spec_eq i : spec i = match at_time i (instants g base (x0 :: l0)) with Some v => Some v | None => if (flag =? 1) && ((inst x0 <=? i) && (i <=? inst z0)) then None else m i end.
Proof.
  unfold spec, spec_put, op_instants. rewrite Hv. fold base. destruct (at_time i _); [reflexivity|].
  pose proof (instants_inc k g Gok base (x0 :: l0) vals_inc) as I. change (instants g base (x0 :: l0)) with ((inst x0, snd x0) :: instants g base l0) in *.
  rewrite spans_spec by exact I. cbn [fst]. fold flag. 
  replace (fst (last ((inst x0, snd x0) :: instants g base l0) (inst x0, snd x0))) with (inst z0); [reflexivity|].
  change ((inst x0, snd x0) :: instants g base l0) with (map (fun e => (inst e, snd e)) (x0 :: l0)). rewrite (last_map (fun e => (inst e, snd e)) (x0 :: l0) x0). reflexivity.
Qed.
Definition cut (j i : Z) : option P := if i <=? B j then spec i else m i.

Lemma flag01 : flag = 0 \/ flag = 1.
Proof. destruct Cov as (_ & _ & _ & _ & _ & [F|[F _]]); [left|right]; exact F. Qed.

(** one block *)
Lemma step_ok j dn l s : j0 <= j <= je -> x0 :: l0 = dn ++ l -> (forall e, In e dn -> inst e <= B j) -> (forall e, In e l -> B j < inst e) -> rep (cut j) s ->
  exists n l1 l2 s', l = l1 ++ l2 /\ n = alen l1 /\
    (forall e, In e l1 -> inst e <= B (j + 1)) /\ (forall e, In e l2 -> B (j + 1) < inst e) /\ rep (cut (j + 1)) s' /\
    (let* next := ztsIncrementBlock (bstart k j) size in
      let read := negb ((flag =? 1) && (v_sj w <? bstart k j) && (v_ej w >=? next)) in
      let* d1 := chk32 (bstart k j - base) in
      let* toStart := chk32 (d1 * per_day g) in
      let* toEnd := chk32 ((next - bstart k j) * per_day g) in
      let* n := fits toStart toEnd l in
      let* s' :=
        (if (n =? 0) && negb read && (flag =? 1) then Ok (iput s (bstart k j) None)
         else if n >? 0 then
           let* new := rebase size g toStart (firstn (Z.to_nat n) l) in
           let* o := store_iblock dflt flag size g (bstart k j) next (v_sj w) (v_ss w) (negb (j =? j0)) (v_ej w >=? next) read new (s (bstart k j)) in
           Ok (iput s (bstart k j) o)
         else Ok s) in Ok (next, n, s')) = Ok (bstart k (j + 1), n, s').
Proof.
  intros Hj Hsp Hd Hl Hrep. pose proof (j0_je) as Jle.
  assert (R : rng j) by (unfold IrrSerProofs.rng in *; lia). destruct (rng_br k j R) as [R1 R2]. destruct (B_step k j R) as (Ln & D & D').
  pose proof g_pos as G0. destruct (g_u k g Gok) as (c & Gc & C0 & _ & _ & Pd). pose proof (g_cases k g Gok) as Gcs.
  pose proof vals_inc as Iv. assert (Il : increasing l). { clear -Iv Hsp. rewrite Hsp in Iv. clear Hsp. induction dn as [|a r IH]; [exact Iv|]. apply IH. cbn [app] in Iv. apply inc_cons in Iv. apply Iv. }
  destruct (inst_in x0 ltac:(left; reflexivity)) as [[_ Xz] Yx]. assert (Iz : In z0 (x0 :: l0)) by apply last_in. destruct (inst_in z0 Iz) as [_ Yz]. unfold in_years in Yx, Yz.
  destruct Cov as (_ & _ & T32 & Tsp & _ & Fl). rewrite Hv in T32, Tsp.
  assert (X0 : inst x0 <= B (j + 1)). { destruct F0 as [_ A]. destruct (Z.eq_dec j j0) as [->|N]; [exact A|]. pose proof (B_next k j0 j R0 R ltac:(lia)). unfold IrrSerProofs.B in *. lia. }
  assert (Z0 : B j < inst z0). { destruct Fe as [A _]. pose proof (B_mono k j je R Re ltac:(lia)). lia. }
  assert (Bj : -1000000 <= bstart k j <= 1000000) by (unfold IrrSerProofs.B in Z0; lia).
  rewrite incr_fwd by assumption. cbn [bind].
  (* the numbers *)
  assert (Pdc : (g = 1 /\ per_day g = 86400) \/ (g = 60 /\ per_day g = 1440) \/ (g = 3600 /\ per_day g = 24) \/ (g = 86400 /\ per_day g = 1)) by (destruct Gcs as [->|[->|[->| ->]]]; auto).
  assert (Bb : -1800000000 <= base <= 1800000000).
  { destruct (T32 x0 ltac:(left; reflexivity)) as [Tx _]. unfold inst in Yx. fold base in Yx. clear -Yx Tx Gcs. destruct Gcs as [->|[->|[->| ->]]]; lia. }
  set (ts := (bstart k j - base) * per_day g).
  assert (Ets : forall e, (fst e - ts) * g = inst e - B j).
  { intros e. unfold ts, inst, IrrSerProofs.B. fold base. rewrite Z.mul_sub_distr_r. replace ((bstart k j - base) * per_day g * g) with ((bstart k j - base) * (per_day g * g)) by ring. rewrite Pd. ring. }
  set (te := (bstart k (j + 1) - bstart k j) * per_day g). assert (Ete : te * g = B (j + 1) - B j) by (unfold te, IrrSerProofs.B; rewrite <- Z.mul_assoc, Pd; ring).
  assert (Teb : 0 < te <= 110000000).
  { assert (k = DecadeBlock \/ k = CenturyBlock \/ (k <> DecadeBlock /\ k <> CenturyBlock)) as K by (clear; destruct k; auto; right; right; split; discriminate).
    destruct K as [K|[K|[K1 K2]]].
    - pose proof (days_decade k ltac:(rewrite K; discriminate)). assert (g <> 1) by (apply Gok; auto). pose proof (days_pos k). clear -Ln Ete Gcs H H0 H1. destruct Gcs as [->|[->|[->| ->]]]; lia.
    - pose proof (days_pos k). assert (g <> 1) by (apply Gok; auto). clear -Ln Ete Gcs H H0. destruct Gcs as [->|[->|[->| ->]]]; lia.
    - pose proof (days_year k K1 K2). pose proof (days_pos k). clear -Ln Ete Gcs H H0. destruct Gcs as [->|[->|[->| ->]]]; lia. }
  assert (Tsb : -1900000000 <= ts <= 1900000000).
  { destruct (T32 x0 ltac:(left; reflexivity)) as [Tx _]. destruct (T32 z0 Iz) as [Tz _]. pose proof (Ets x0) as E1. pose proof (Ets z0) as E2.
    assert (fst x0 - ts <= te) by (clear -E1 Ete X0 G0; nia). assert (0 < fst z0 - ts) by (clear -E2 Z0 G0; nia). lia. }
  rewrite chk32_ok by (unfold in32, INT_MIN, INT_MAX; lia). cbn [bind]. fold ts. rewrite chk32_ok by (unfold in32, INT_MIN, INT_MAX; lia). cbn [bind].
  fold te. rewrite chk32_ok by (unfold in32, INT_MIN, INT_MAX; lia). cbn [bind].
  assert (Sub : forall e, In e l -> In e (x0 :: l0)) by (intros e He; rewrite Hsp; apply in_or_app; right; exact He).
  destruct (fits_spec ts te l Il) as (l1 & l2 & El & Ef & A1 & A2).
  { intros e He. specialize (Hl e He). pose proof (Ets e) as E1. assert (0 < fst e - ts) by (clear -E1 Hl G0; nia).
    pose proof (Ets x0) as E2. assert (fst x0 - ts <= te) by (clear -E2 Ete X0 G0; nia). pose proof (Tsp x0 e ltac:(left; reflexivity) (Sub e He)). unfold in32, INT_MIN, INT_MAX. lia. }
  rewrite Ef. cbn [bind]. pose proof (alen_nonneg l1) as Ln1.
  assert (A1' : forall e, In e l1 -> inst e <= B (j + 1)). { intros e He. specialize (A1 e He). pose proof (Ets e). clear -A1 H Ete G0. nia. }
  assert (A2' : forall e, In e l2 -> B (j + 1) < inst e). { intros e He. specialize (A2 e He). pose proof (Ets e). clear -A2 H Ete G0. nia. }
  assert (El1 : forall e, In e l1 -> inb j (inst e)). { intros e He. split; [apply Hl; rewrite El; apply in_or_app; left; exact He|apply A1'; exact He]. }
  (* what the store does to this block *)
  assert (At : forall i, inb j i -> at_time i (instants g base (x0 :: l0)) = at_time i (instants g base l1)).
  { intros i [I1 I2]. rewrite Hsp, El. unfold instants. rewrite !map_app, !at_time_app. change (map (fun e => (base * 86400 + fst e * g, snd e)) ?x) with (instants g base x).
    rewrite (at_none g base dn i) by (intros e He; specialize (Hd e He); unfold inst in Hd; fold base in Hd; lia). rewrite (at_none g base l2 i); [destruct (at_time _ _); reflexivity|].
    intros e He. specialize (A2' e He). unfold inst in A2'. fold base in A2'. lia. }
  assert (First : (v_sj w <? bstart k j) = negb (j =? j0)).
  { destruct Ws as [W1 W2]. unfold instant in W1. destruct (Z.eq_dec j j0) as [->|N].
    - rewrite Z.eqb_refl. destruct F0 as [A _]. unfold IrrSerProofs.B in A. lia.
    - replace (j =? j0) with false by lia. pose proof (B_next k j0 j R0 R ltac:(lia)). destruct F0 as [_ A]. unfold IrrSerProofs.B in *. lia. }
  assert (Last : (v_ej w >=? bstart k (j + 1)) = (B (j + 1) <? inst z0)).
  { destruct We as [W1 W2]. unfold instant in W1. unfold IrrSerProofs.B. lia. }
  assert (Sh : j <> j0 -> forall i, inb j i -> inst x0 < i).
  { intros N i [I1 I2]. pose proof (B_next k j0 j R0 R ltac:(lia)). destruct F0 as [_ A]. unfold IrrSerProofs.B in *. lia. }
  assert (Fs : j = j0 -> exists l1', l1 = x0 :: l1' /\ dn = []).
  { intros ->. destruct dn as [|a r]; [|exfalso; cbn [app] in Hsp; injection Hsp as <- _; specialize (Hd x0 ltac:(left; reflexivity)); destruct F0 as [A _]; lia].
    cbn [app] in Hsp. destruct l1 as [|a r]; [exfalso; cbn [app] in El; specialize (A2' x0); rewrite <- El, <- Hsp in A2'; specialize (A2' ltac:(left; reflexivity)); lia|].
    rewrite El in Hsp. cbn [app] in Hsp. injection Hsp as <- _. exists r. split; reflexivity. }
  assert (Ls : inst z0 <= B (j + 1) -> l2 = [] /\ l1 <> [] /\ last l1 x0 = z0).
  { intros Q. assert (l2 = []) as ->. { destruct l2 as [|a r]; [reflexivity|]. exfalso. pose proof (A2' a ltac:(left; reflexivity)). destruct (inst_in a) as [[_ Y] _]; [apply Sub; rewrite El; apply in_or_app; right; left; reflexivity|lia]. }
    split; [reflexivity|]. rewrite app_nil_r in El. subst l1. assert (Nl : l <> []). { intros ->. rewrite app_nil_r in Hsp. specialize (Hd z0). rewrite <- Hsp in Hd. specialize (Hd Iz). lia. }
    split; [exact Nl|]. unfold z0. rewrite Hsp. clear -Nl. revert Nl. induction dn as [|a r IH]; intros Nl; [reflexivity|]. rewrite IH by exact Nl. cbn [app]. destruct (r ++ l) eqn:E; [|reflexivity].
    apply app_eq_nil in E. destruct E. congruence. }
  assert (Cj : forall i, inb j i -> cut j i = m i) by (intros i [I1 I2]; unfold cut; replace (i <=? B j) with false by lia; reflexivity).
  assert (Cj1 : forall i, inb j i -> cut (j + 1) i = spec i) by (intros i [I1 I2]; unfold cut; replace (i <=? B (j + 1)) with true by lia; reflexivity).
  assert (Oth : forall s', (forall j', rng j' -> j' <> j -> s' (bstart k j') = s (bstart k j')) -> brep j spec (s' (bstart k j)) -> rep (cut (j + 1)) s').
  { intros s' So Sj j' R'. destruct (Z.eq_dec j' j) as [->|N].
    - eapply brep_ext; [|exact Sj]. intros i Hi. symmetry. apply Cj1. exact Hi.
    - rewrite (So j' R' N). eapply brep_ext; [|apply Hrep; exact R']. intros i [I1 I2]. unfold cut. destruct (Z_lt_le_dec j' j) as [L|L].
      + pose proof (B_next k j' j R' R L). replace (i <=? B j) with true by lia. replace (i <=? B (j + 1)) with true by lia. reflexivity.
      + pose proof (B_next k j j' R R' ltac:(lia)). replace (i <=? B j) with false by lia. replace (i <=? B (j + 1)) with false by lia. reflexivity. }
  assert (Put : forall o j', rng j' -> j' <> j -> iput s (bstart k j) o (bstart k j') = s (bstart k j')).
  { intros o j' R' N. unfold iput. destruct (bstart k j' =? bstart k j) eqn:Q; [|reflexivity]. exfalso. apply N. apply bstart_inj; auto. lia. }
  assert (Same : forall o, iput s (bstart k j) o (bstart k j) = o) by (intros o; unfold iput; rewrite Z.eqb_refl; reflexivity).
  rewrite First, Last.
  exists (alen l1), l1, l2.
  destruct l1 as [|x l1'] eqn:El1'.
  - (* no value in this block *)
    assert (Nj : j <> j0) by (intros Q; destruct (Fs Q) as (? & N & _); discriminate).
    assert (Nz : B (j + 1) < inst z0) by (destruct (Z_le_gt_dec (inst z0) (B (j + 1))) as [Q|Q]; [destruct (Ls Q) as (_ & N & _); congruence|lia]).
    replace (j =? j0) with false by lia. replace (B (j + 1) <? inst z0) with true by lia. change (alen (@nil (Z * P))) with 0. change (0 >? 0) with false. change (0 =? 0) with true. cbn [negb andb].
    rewrite !andb_true_r, negb_involutive. 
    assert (Sp : forall i, inb j i -> spec i = if flag =? 1 then None else m i).
    { intros i Hi. rewrite spec_eq, (At i Hi). cbn [instants map at_time]. specialize (Sh Nj i Hi). destruct Hi as [I1 I2]. replace (inst x0 <=? i) with true by lia. replace (i <=? inst z0) with true by lia. cbn [andb]. rewrite andb_true_r. reflexivity. }
    destruct flag01 as [F|F]; rewrite F in *; cbn [Z.eqb Pos.eqb andb bind].
    + exists s. split; [exact El|]. split; [reflexivity|]. split; [exact A1'|]. split; [exact A2'|]. split; [|reflexivity]. apply Oth; [reflexivity|]. eapply brep_ext; [|apply Hrep; exact R].
      intros i Hi. rewrite (Sp i Hi), (Cj i Hi). reflexivity.
    + exists (iput s (bstart k j) None). split; [exact El|]. split; [reflexivity|]. split; [exact A1'|]. split; [exact A2'|]. split; [|reflexivity]. apply Oth; [apply Put|]. rewrite Same. cbn [IrrSerBlock.brep].
      intros i Hi. rewrite (Sp i Hi). reflexivity.
  - (* some *)
    rewrite <- El1' in *. assert (Np : 0 < alen l1) by (rewrite El1', alen_cons; pose proof (alen_nonneg l1'); lia).
    replace (alen l1 =? 0) with false by lia. replace (alen l1 >? 0) with true by lia. cbn [andb]. replace (Z.to_nat (alen l1)) with (length l1) by (unfold alen; lia).
    assert (Fn : firstn (length l1) l = l1) by (rewrite El, firstn_app, Nat.sub_diag, firstn_all; cbn [firstn]; apply app_nil_r). rewrite Fn.
    destruct (rebase_spec k g Gok base j R l1) as (new & En & An & On); [intros e He; apply (El1 e He)|]. fold ts in En. rewrite En. cbn [bind].
    assert (Inw : increasing new). { apply (abs_inc_inv k j). rewrite An. apply (instants_inc k g Gok). clear -Il El. rewrite El in Il. clear El. induction l1 as [|a r IH]; [exact Logic.I|]. cbn [app] in Il. apply inc_cons in Il. destruct Il as [G Il]. apply inc_cons. split; [|apply IH; exact Il]. intros e He. apply G. apply in_or_app. left. exact He. }
    assert (Nw : list_ok k g j new). { split; [|split; assumption]. intros ->. rewrite El1' in An. discriminate. }
    assert (Hb : brep j m (s (bstart k j))) by (eapply brep_ext; [|apply Hrep; exact R]; exact Cj).
    destruct flag01 as [F|F]; rewrite F; cbn [Z.eqb Pos.eqb andb negb].
    + destruct (store0 k g Gok dflt j m (s (bstart k j)) new (v_sj w) (v_ss w) (negb (j =? j0)) (B (j + 1) <? inst z0) R Hb Nw) as (r & Er & Br). rewrite Er. cbn [bind].
      exists (iput s (bstart k j) (Some r)). split; [exact El|]. split; [reflexivity|]. split; [exact A1'|]. split; [exact A2'|]. split; [|reflexivity]. apply Oth; [apply Put|]. rewrite Same.
      eapply brep_ext; [|exact Br]. intros i Hi. cbv beta. rewrite spec_eq, (At i Hi), An, F. reflexivity.
    + destruct new as [|nx nl] eqn:Enw; [destruct Nw as [Nw _]; congruence|]. rewrite <- Enw in *.
      assert (Nx : B j + fst nx * u = inst x). { rewrite El1', Enw in An. cbn [IrrSerBlock.abs instants map] in An. injection An as Q _ _. exact Q. }
      assert (Nz : B j + fst (last new nx) * u = inst (last l1 x)).
      { assert (Q : last (abs j new) (B j + fst nx * u, snd nx) = last (instants g base l1) (inst x, snd x)). { rewrite An. f_equal. rewrite El1', Enw in An. cbn [IrrSerBlock.abs instants map] in An. injection An as Q1 Q2 _. rewrite Nx, Q2. reflexivity. }
        unfold IrrSerBlock.abs, instants in Q. rewrite (last_map (fun e => (B j + fst e * u, snd e)) new nx) in Q. 
        change (inst x, snd x) with (base * 86400 + fst x * g, snd x) in Q. rewrite (last_map (fun e => (base * 86400 + fst e * g, snd e)) l1 x) in Q. injection Q as Q _. exact Q. }
      assert (Xj : j = j0 -> x = x0) by (intros Q; destruct (Fs Q) as (l1'' & Q1 & _); rewrite El1' in Q1; congruence).
      assert (Zj : inst z0 <= B (j + 1) -> last l1 x = z0). { intros Q. destruct (Ls Q) as (_ & _ & Q3). rewrite <- Q3. rewrite El1'. apply last_irr. }
      destruct Fl as [F2|(_ & Fday & Fsafe)]; [fold flag in F2; congruence|]. rewrite Enw in Nw.
      destruct (store1 k g Gok dflt j m (s (bstart k j)) nx nl (v_sj w) (v_ss w) (negb (j =? j0)) (B (j + 1) <? inst z0) (negb (negb (j =? j0) && (B (j + 1) <? inst z0))) R Bj) as (r & Er & Br); auto.
      * intros Q. assert (K : k = DayBlock) by (eapply first_day; eauto). apply (Fday (inst x, snd x)); [|exact K|].
        { unfold op_instants. rewrite Hv. apply in_map_iff. exists x. split; [reflexivity|]. apply Sub. rewrite El, El1'. left. reflexivity. }
        { cbn [fst]. apply day_uniq. destruct (El1 x ltac:(rewrite El1'; left; reflexivity)) as [I1 I2]. rewrite K in *. unfold IrrSerProofs.B in I1, I2. cbn [bstart] in *. subst j. lia. }
      * destruct Ws as [W1 W2]. unfold instant in W1. clear -W1 W2 Yx. lia.
      * exact (proj2 Ws).
      * rewrite negb_false_iff, andb_true_iff. tauto.
      * intros Q. assert (j = j0) as Q' by (clear -Q; lia). rewrite Nx, (Xj Q'). exact (proj1 Ws).
      * intros Q. assert (j = j0) as Q' by (clear -Q; lia). rewrite Nx, (Xj Q'). specialize (Fsafe (inst x0, snd x0) (inst z0, snd z0) (instants g base l0)). cbn [fst] in Fsafe.
        assert (S : replace_safe k m (inst x0) (inst z0)). { apply Fsafe; unfold op_instants; rewrite Hv; [reflexivity|]. unfold instants. fold base.
          change (inst x0, snd x0) with (base * 86400 + fst x0 * g, snd x0). rewrite (last_map (fun e => (base * 86400 + fst e * g, snd e)) (x0 :: l0) x0). reflexivity. }
        assert (F0' : inb j (inst x0)) by (rewrite Q'; exact F0).
        destruct S as [S|[(i & S1 & S2 & S3) S4]].
        { left. intros i Hi L. apply S; [|exact L]. apply (share_inb k j i (inst x0) R F0'). exact Hi. }
        { right. split; [exists i; split; [apply (share_inb k j i (inst x0) R F0'); exact S1|split; assumption]|]. intros Te i' Hi' L'. rewrite <- Enw, Nz, Zj in L' by (clear -Te; lia).
          apply S4; [apply (share_inb k j _ (inst x0) R F0'); split; [exact Z0|clear -Te; lia]|apply (share_inb k j i' (inst x0) R F0'); exact Hi'|exact L']. }
      * rewrite <- Enw in Er, Br. rewrite Er. cbn [bind]. exists (iput s (bstart k j) (Some r)). split; [exact El|]. split; [reflexivity|]. split; [exact A1'|]. split; [exact A2'|]. split; [|reflexivity]. apply Oth; [apply Put|]. rewrite Same.
        eapply brep_ext; [|exact Br]. intros i Hi. cbv beta. rewrite spec_eq, (At i Hi), An, F. cbn [Z.eqb Pos.eqb andb]. destruct (at_time i (instants g base l1)); [reflexivity|].
        rewrite Nx. replace (negb (j =? j0) || (inst x <=? i)) with (inst x0 <=? i).
        2:{ destruct (Z.eq_dec j j0) as [Q|Q]; [rewrite (Xj Q); replace (j =? j0) with true by lia; reflexivity|]. specialize (Sh Q i Hi). replace (j =? j0) with false by lia. cbn [negb orb]. lia. }
        replace ((B (j + 1) <? inst z0) || (i <=? B j + fst (last new nx) * u)) with (i <=? inst z0); [reflexivity|].
        destruct (B (j + 1) <? inst z0) eqn:Q; cbn [orb]; [destruct Hi; lia|]. rewrite Nz, Zj by lia. reflexivity.
Qed.

Lemma loop_ok n : forall fuel j dn l s, Z.of_nat n = je + 1 - j -> (n < fuel)%nat -> j0 <= j ->
  x0 :: l0 = dn ++ l -> (forall e, In e dn -> inst e <= B j) -> (forall e, In e l -> B j < inst e) -> rep (cut j) s ->
  exists s', istore_loop dflt fuel flag size g base w l (negb (j =? j0)) (bstart k j) s = Ok s' /\ rep spec s'.
Proof.
  induction n as [|n IH]; intros fuel j dn l s Hn Hf Hj Hsp Hd Hl Hrep; (destruct fuel as [|fuel]; [lia|]); cbn [istore_loop]; rewrite Web.
  - assert (j = je + 1) by lia. subst j. destruct (B_step k je Re) as (Ln & _). pose proof (days_pos k). unfold IrrSerProofs.B in Ln.
    replace (bstart k (je + 1) >? bstart k je) with true by lia. exists s. split; [reflexivity|].
    intros j' R'. eapply brep_ext; [|apply Hrep; exact R']. intros i Hi. unfold cut. destruct (i <=? B (je + 1)) eqn:Q; [reflexivity|]. rewrite spec_eq.
    destruct Fe as [_ Z1]. rewrite (at_none g base (x0 :: l0) i).
    + replace (i <=? inst z0) with false by lia. rewrite !andb_false_r. reflexivity.
    + intros e He Q'. destruct (inst_in e He) as [[_ Y] _]. change (base * 86400 + fst e * g) with (inst e) in Q'. lia.
  - assert (R : rng j) by (unfold IrrSerProofs.rng in *; lia).
    pose proof (bstart_mono' k j je (proj1 (rng_br k j R)) (proj1 (rng_br k je Re)) ltac:(lia)). replace (bstart k j >? bstart k je) with false by lia.
    destruct (step_ok j dn l s ltac:(lia) Hsp Hd Hl Hrep) as (n1 & l1 & l2 & s' & El & En & A1 & A2 & Hr & E).
    destruct (ztsIncrementBlock (bstart k j) size) as [next|]; [|discriminate E]. cbn [bind] in *.
    destruct (chk32 (bstart k j - base)) as [d1|]; [|discriminate E]. cbn [bind] in *.
    destruct (chk32 (d1 * per_day g)) as [t1|]; [|discriminate E]. cbn [bind] in *.
    destruct (chk32 ((next - bstart k j) * per_day g)) as [t2|]; [|discriminate E]. cbn [bind] in *.
    destruct (fits t1 t2 l) as [n2|]; [|discriminate E]. cbn [bind] in *.
    match type of E with bind ?x _ = _ => destruct x as [s2|]; [|discriminate E] end. cbn [bind] in *. injection E as -> -> ->.
    assert (Sk : skipn (Z.to_nat n1) l = l2). { rewrite En, El. unfold alen. rewrite Nat2Z.id, skipn_app, skipn_all, Nat.sub_diag. reflexivity. }
    rewrite Sk. destruct (IH fuel (j + 1) (dn ++ l1) l2 s') as (s3 & E3 & R3); try lia.
    + rewrite Hsp, El, app_assoc. reflexivity.
    + destruct (B_step k j R) as (Ln & _). pose proof (days_pos k). intros e He. apply in_app_or in He. destruct He as [He|He]; [specialize (Hd e He); lia|apply A1; exact He].
    + exact Hr.
    + replace (negb (j + 1 =? j0)) with true in E3 by lia. exists s3. split; assumption.
Qed.
End Op.

Lemma bstart_days a b : rng a -> rng b -> a <= b -> b - a <= bstart k b - bstart k a.
Proof.
  intros Ra Rb L. assert (Q : forall n, rng (a + Z.of_nat n) -> Z.of_nat n <= bstart k (a + Z.of_nat n) - bstart k a).
  { induction n as [|n IH]; intros Rn; [rewrite Z.add_0_r; lia|]. assert (Rn' : rng (a + Z.of_nat n)) by (unfold IrrSerProofs.rng in *; lia). specialize (IH Rn').
    destruct (B_step k (a + Z.of_nat n) Rn') as (Ln & _). pose proof (days_pos k). unfold IrrSerProofs.B in Ln. replace (a + Z.of_nat n + 1) with (a + Z.of_nat (S n)) in Ln by lia. lia. }
  specialize (Q (Z.to_nat (b - a))). rewrite Z2Nat.id in Q by lia. replace (a + (b - a)) with b in Q by lia. apply Q. exact Rb.
Qed.

Lemma ascending_inc l : increasing l -> ascending (map fst l) = true.
Proof.
  induction l as [|a r IH]; intros H; [reflexivity|]. rewrite inc_cons in H. destruct H as [G H]. specialize (IH H). destruct r as [|b r]; [reflexivity|].
  change (negb (fst a >? fst b) && ascending (map fst (b :: r)) = true). rewrite IH, andb_true_r. specialize (G b ltac:(left; reflexivity)). lia.
Qed.
Lemma aget_map {A C} (f : A -> C) (l : list A) i x : aget l i = Ok x -> aget (map f l) i = Ok (f x).
Proof. unfold aget. destruct (i <? 0); [discriminate|]. rewrite nth_error_map. destruct (nth_error l (Z.to_nat i)); [intros [= ->]; reflexivity|discriminate]. Qed.

Lemma istore_ok m op s : rep m s -> covered k g m op ->
  exists s', istore dflt size g (q_base op) (q_flag op) (q_vals op) s = Ok (true, s') /\ rep (spec_put g m op) s'.
Proof.
  intros Hr Cov. pose proof (g_cases k g Gok) as Gcs. pose proof (g_pos) as G0. pose proof Cov as (Ne & Inc & T32 & _ & Y & _).
  destruct (q_vals op) as [|x0 l0] eqn:Hv; [congruence|]. set (z0 := last (x0 :: l0) x0). pose proof (last_in x0 l0) as Iz. fold z0 in Iz.
  assert (Yi : forall e, In e (x0 :: l0) -> in_years (q_base op * 86400 + fst e * g)).
  { intros e He. apply (Y (q_base op * 86400 + fst e * g, snd e)). unfold op_instants. rewrite Hv. apply in_map_iff. exists e. split; [reflexivity|exact He]. }
  assert (Ix : In x0 (x0 :: l0)) by (left; reflexivity).
  destruct (T32 x0 Ix) as [Tx Nx]. destruct (T32 z0 Iz) as [Tz Nz].
  destruct (clean_time (q_base op) (fst x0) g Gcs Tx (Yi x0 Ix) Nx) as (j1 & t1 & C1 & I1 & B1).
  destruct (clean_time (q_base op) (fst z0) g Gcs Tz (Yi z0 Iz) Nz) as (j2 & t2 & C2 & I2 & B2).
  pose proof (Yi x0 Ix) as Yx. pose proof (Yi z0 Iz) as Yz.
  destruct (block_of k _ Yx) as (j0 & R0 & F0 & S0). destruct (block_of k _ Yz) as (je & Re & Fe & Se).
  rewrite (day_uniq _ j1) in S0 by lia. rewrite (day_uniq _ j2) in Se by lia.
  unfold istore, process_store. cbn [map]. change (aget (fst x0 :: map fst l0) 0) with (Ok (fst x0)). cbn [bind].
  change (fst x0 :: map fst l0) with (map fst (x0 :: l0)). replace (alen (map fst (x0 :: l0))) with (alen (x0 :: l0)) by (unfold alen; rewrite map_length; reflexivity).
  rewrite (aget_map fst (x0 :: l0) _ z0) by apply aget_last. cbn [bind]. rewrite C1. cbn [bind]. replace (g >? 0) with true by lia.
  rewrite chk32_ok by (unfold in32, INT_MIN, INT_MAX; lia). cbn [bind]. rewrite C2. cbn [bind]. rewrite chk32_ok by (unfold in32, INT_MIN, INT_MAX; lia). cbn [bind].
  unfold in_years in Yx, Yz. replace (isTimeDefined j1 (t1 * g)) with true by (unfold isTimeDefined, UNDEFINED_TIME; lia). cbn [negb].
  rewrite S0, Se. cbn [bind v_eb v_sb]. rewrite ascending_inc by exact Inc. cbn [negb]. replace (g =? 0) with false by lia.
  assert (Fz : inb j0 (inst op x0)) by exact F0. assert (Fz' : inb je (inst op z0)) by exact Fe.
  set (w := mk_iwin j1 (t1 * g) j2 (t2 * g) (bstart k j0) (bstart k je)).
  assert (Jle : j0 <= je) by (refine (j0_je m op Cov x0 l0 Hv w j0 je R0 Re Fz Fz' _ _); [split; [exact I1|exact B1]|split; [exact I2|exact B2]]).
  destruct (loop_ok m op Cov x0 l0 Hv w j0 je R0 Re Fz Fz' eq_refl) with (n := Z.to_nat (je + 1 - j0)) (fuel := S (S (Z.to_nat (bstart k je - bstart k j0)))) (j := j0) (dn := @nil (Z * P)) (l := x0 :: l0) (s := s) as (s' & E & Rs).
  - reflexivity.
  - split; [exact I1|exact B1].
  - split; [exact I2|exact B2].
  - lia.
  - pose proof (bstart_days j0 je R0 Re Jle). lia.
  - lia.
  - reflexivity.
  - intros e [].
  - intros e He. destruct F0 as [A _]. pose proof (first_le x0 l0 Inc e He). unfold inst. clear -A H G0. nia.
  - intros j R. eapply brep_ext; [|apply Hr; exact R]. intros i Hi. unfold cut. destruct (i <=? B j0) eqn:Q; [|reflexivity]. destruct F0 as [A _].
    unfold spec. rewrite (spec_eq m op Cov x0 l0 Hv). fold z0. replace (inst op x0 <=? i) with false by (unfold inst; lia). cbn [andb]. rewrite andb_false_r.
    rewrite at_none; [reflexivity|]. intros e He. pose proof (first_le x0 l0 Inc e He). clear -A H G0 Q. assert (B j0 < q_base op * 86400 + fst e * g) by nia. lia.
  - replace (negb (j0 =? j0)) with false in E by lia. rewrite E. cbn [bind]. exists s'. split; [reflexivity|exact Rs].
Qed.
End K.
