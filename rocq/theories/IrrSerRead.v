(** * Lemmas for C48: reading a window that spans blocks. *)
From Coq Require Import ZArith List Lia Bool ZifyBool.
From Verif Require Import Base DateModel DateSpec DateProofs DateProofs2 DateProofs3 BlockModel BlockSpec BlockProofs BlockProps
  ArrayLib IrregModel IrregProofs IrregProps SeriesSpec SeriesGrid IrrSerModel IrrSerSpec IrrSerProofs IrrSerBlock IrrSerLoop IrrSerStore.
Import ListNotations.
Open Scope Z_scope.
Open Scope res_scope.

Section K.
Variable k : block_kind.
Variable g : Z.
Hypothesis Gok : gran_ok k g.
Context {P : Type}.
Notation u := (u k).
Notation B := (B k).
Notation inb := (inb k).
Notation rng := (rng k).
Notation size := (block_code k).
Notation brep := (brep k g).
Notation abs := (abs k).
Notation ent_ok := (ent_ok k g).
Notation rep := (rep k g).
Implicit Types l : list (Z * P).

Lemma len_g j : rng j -> B (j + 1) - B j <= 110000000 * g.
Proof.
  intros R. destruct (B_step k j R) as (Ln & _). pose proof (g_cases k g Gok) as Gcs.
  assert (k = DecadeBlock \/ k = CenturyBlock \/ (k <> DecadeBlock /\ k <> CenturyBlock)) as K by (clear; destruct k; auto; right; right; split; discriminate).
  destruct K as [K|[K|[K1 K2]]].
  - pose proof (days_decade k ltac:(rewrite K; discriminate)). assert (g <> 1) by (apply Gok; auto). lia.
  - pose proof (days_pos k). assert (g <> 1) by (apply Gok; auto). lia.
  - pose proof (days_year k K1 K2). lia.
Qed.

(** times of one block, as the caller gets them *)
Lemma out_times_spec j bs : rng j -> -1900000000 * g <= B j - bs * 86400 -> B (j + 1) - bs * 86400 <= 1900000000 * g ->
  exists ts, (let* d := chk32 (bstart k j - bs) in chk32 (d * per_day g)) = Ok ts /\
  forall l, (forall e, In e l -> ent_ok j e) -> exists l', out_times size g ts l = Ok l' /\ instants g bs l' = abs j l.
Proof.
  intros R N1 N2. destruct (g_u k g Gok) as (c & Gc & C0 & _ & G0 & Pd). destruct (B_step k j R) as (Ln & D & _). pose proof (len_g j R) as Lg. destruct (u_cases k) as [Uc U].
  pose proof (g_cases k g Gok) as Gcs. pose proof (days_pos k) as Dp.
  set (ts := (bstart k j - bs) * per_day g). assert (Ets : ts * g = B j - bs * 86400) by (unfold ts, IrrSerProofs.B; rewrite <- Z.mul_assoc, Pd; ring).
  assert (Tb : -1900000000 <= ts <= 1900000000) by (clear -Ets N1 N2 Ln G0 Dp; nia).
  assert (Bb : in32 (bstart k j - bs)). { unfold in32, INT_MIN, INT_MAX. unfold IrrSerProofs.B in Ets. clear -Ets Tb Gcs. destruct Gcs as [->|[->|[->| ->]]]; lia. }
  exists ts. split. { rewrite chk32_ok by exact Bb. cbn [bind]. apply chk32_ok. unfold in32, INT_MIN, INT_MAX. fold ts. lia. }
  induction l as [|a r IH]; intros H; [exists []; split; reflexivity|]. destruct IH as (l' & E & A); [intros; apply H; right; assumption|].
  cbn [out_times]. destruct (H a ltac:(left; reflexivity)) as [[H1 H2] Hm]. apply Z.mod_divide in Hm; [|lia]. destruct Hm as [q Q].
  assert (Q0 : 0 < q <= 110000000) by (clear -Q H1 H2 Lg G0; nia).
  assert (T : (if size =? 5 then Z.quot (fst a * 60) g else Z.quot (fst a) g) = q).
  { destruct Uc as [[U1 K]|[U1 K]]; rewrite U1 in Q.
    - replace (size =? 5) with false by (destruct k; congruence || reflexivity). rewrite Z.mul_1_r in Q. rewrite Q. apply Z.quot_mul. lia.
    - replace (size =? 5) with true by (rewrite K; reflexivity). rewrite Q. apply Z.quot_mul. lia. }
  rewrite T. assert (Qt : in32 (q + ts)). { assert ((q + ts) * g <= 1900000000 * g) by lia. unfold in32, INT_MIN, INT_MAX. clear -H0 Q0 Tb G0. nia. }
  rewrite chk32_ok by (unfold in32, INT_MIN, INT_MAX; lia). cbn [bind]. rewrite chk32_ok by exact Qt. cbn [bind]. rewrite E. cbn [bind].
  eexists. split; [reflexivity|]. cbn [instants map fst snd IrrSerBlock.abs]. unfold instants, IrrSerBlock.abs in A. rewrite A. f_equal. f_equal. lia.
Qed.

Section Win.
Variable m : Z -> option P.
Variable s : iseries P.
Hypothesis Hrep : rep m s.
Variables (w : iwin) (js je : Z).
Let S := instant (v_sj w) (v_ss w).
Let E := instant (v_ej w) (v_es w).
Hypothesis Rs : rng js.
Hypothesis Re : rng je.
Hypothesis Fs : inb js S.
Hypothesis Fe : inb je E.
Hypothesis Wsb : v_sb w = bstart k js.
Hypothesis Web : v_eb w = bstart k je.
Hypothesis Ss : 0 < v_ss w <= 86400 /\ v_ss w mod u = 0.
Hypothesis Es : 0 < v_es w <= 86400.
Hypothesis Yr : in_years S /\ in_years E.
Hypothesis Hd : v_sj w <= v_ej w.

Definition cnt (j : Z) : Z := match s (bstart k j) with Some r => alen (ib_ents r) | None => 0 end.
Fixpoint total (n : nat) (j : Z) : Z := match n with O => 0 | Datatypes.S n' => cnt j + total n' (j + 1) end.
Lemma cnt_pos j : 0 <= cnt j. Proof. unfold cnt. destruct (s (bstart k j)); [apply alen_nonneg|lia]. Qed.
Lemma total_pos n j : 0 <= total n j. Proof. revert j. induction n as [|n IH]; intros j; cbn [total]; [lia|]. pose proof (cnt_pos j). specialize (IH (j + 1)). lia. Qed.

Lemma js_je : js <= je.
Proof.
  destruct (Z_lt_le_dec je js) as [L|L]; [|exact L]. pose proof (B_next k je js Re Rs L) as Q. destruct Fs as [A _]. destruct Fe as [_ C]. unfold S, E, instant, IrrSerProofs.B in *.
  clear -A C Q Hd Ss Es. lia.
Qed.

Lemma next_ok j : js <= j <= je -> ztsIncrementBlock (bstart k j) size = Ok (bstart k (j + 1)) /\ (bstart k j >? bstart k je) = false.
Proof.
  intros H. assert (R : rng j) by (unfold IrrSerProofs.rng in *; lia). destruct (rng_br k j R) as [R1 R2]. split; [apply incr_fwd; assumption|].
  pose proof (bstart_mono' k j je R1 (proj1 (rng_br k je Re)) ltac:(lia)). lia.
Qed.
Lemma last_ok : (bstart k (je + 1) >? bstart k je) = true.
Proof. pose proof (bstart_next k je (proj1 (rng_br k je Re))). lia. Qed.

Lemma size_ok n : forall fuel j, js <= j -> Z.of_nat n = je + 1 - j -> (n < fuel)%nat -> size_loop fuel size (bstart k j) (bstart k je) s = Ok (total n j).
Proof.
  induction n as [|n IH]; intros fuel j Hj Hn Hf; (destruct fuel as [|fuel]; [lia|]); cbn [size_loop total].
  - replace j with (je + 1) by lia. rewrite last_ok. reflexivity.
  - destruct (next_ok j ltac:(lia)) as [E1 E2]. rewrite E2, E1. cbn [bind]. rewrite IH by lia. cbn [bind]. unfold cnt. destruct (s (bstart k j)); reflexivity.
Qed.

(** bases that 32 bit times can use in this window *)
Definition near (bs : Z) : Prop := -1900000000 * g <= B js - bs * 86400 /\ B (je + 1) - bs * 86400 <= 1900000000 * g.
Variable base : Z.
Hypothesis Base : base < 0 \/ base = 0 /\ g = 1 \/ near base.
Hypothesis Span : E - S <= 1000000000 * g.

Lemma near_own j : js <= j <= je -> near (bstart k j).
Proof.
  intros H. assert (R : rng j) by (unfold IrrSerProofs.rng in *; lia). pose proof (B_mono k js j Rs R ltac:(lia)). pose proof (B_mono1 k j je R Re ltac:(lia)). pose proof (len_g js Rs). pose proof (len_g je Re).
  pose proof (len_g j R). destruct (B_step k j R) as (Ln & _). pose proof (days_pos k). destruct Fs. destruct Fe. unfold near. change (bstart k j * 86400) with (B j). pose proof (g_cases k g Gok).
  pose proof (B_mono k j je R Re ltac:(lia)). lia.
Qed.

Definition sel (i : Z) : bool := (S <=? i) && (i <=? E).

Lemma read_ok n : forall fuel j cur got max, js <= j -> Z.of_nat n = je + 1 - j -> (n < fuel)%nat -> total n j <= max - cur ->
  (forall x, got = Some x -> fst x = g /\ near (snd x)) ->
  exists got' out, iread_loop fuel size base w max got cur (bstart k j) s = Ok (got', out) /\
    match got' with
    | None => got = None /\ out = [] /\ (forall i, B j < i -> sel i = true -> m i = None)
    | Some x => fst x = g /\ near (snd x) /\ (forall y, got = Some y -> x = y) /\ increasing (instants g (snd x) out) /\
        forall i v, In (i, v) (instants g (snd x) out) <-> B j < i /\ sel i = true /\ m i = Some v
    end.
Proof.
  induction n as [|n IH]; intros fuel j cur got max Hj Hn Hf Hm Hg; (destruct fuel as [|fuel]; [lia|]); cbn [iread_loop]; rewrite Web.
  - replace j with (je + 1) by lia. rewrite last_ok. exists got, []. split; [reflexivity|].
    assert (N : forall i, B (je + 1) < i -> sel i = false) by (intros i Hi; unfold sel; destruct Fe as [_ F]; replace (i <=? E) with false by lia; apply andb_false_r).
    destruct got as [x|].
    + destruct (Hg x eq_refl) as [G1 G2]. split; [exact G1|]. split; [exact G2|]. split; [intros y [= <-]; reflexivity|]. split; [exact Logic.I|].
      intros i v. cbn. split; [intros []|]. intros (Q1 & Q2 & _). rewrite N in Q2 by exact Q1. discriminate.
    + split; [reflexivity|]. split; [reflexivity|]. intros i Hi Q. rewrite N in Q by exact Hi. discriminate.
  - destruct (next_ok j ltac:(lia)) as [E1 E2]. rewrite E2, E1. cbn [bind]. cbn [total] in Hm. pose proof (cnt_pos j) as Cp. pose proof (total_pos n (j + 1)) as Tp.
    assert (R : rng j) by (unfold IrrSerProofs.rng in *; lia). destruct (B_step k j R) as (Ln & D & _). pose proof (days_pos k) as Dp. pose proof (Hrep j R) as Hb. unfold cnt in *.
    destruct (s (bstart k j)) as [r|] eqn:Es'.
    + destruct Hb as [Gd M].
      set (x := match got with Some x => x | None => (g, if base <? 0 then bstart k j else if (g =? 1) && (base =? 0) then bstart k j else base) end).
      assert (Gr : ib_gran r = g) by (destruct Gd as (_ & _ & _ & _ & Q); exact Q).
      rewrite Gr. replace (g >? 0) with true by (pose proof (g_cases k g Gok); lia). cbv zeta. fold x.
      assert (Gx : forall y, got = Some y -> x = y) by (intros y ->; reflexivity).
      assert (Nx : fst x = g /\ near (snd x)).
      { unfold x. destruct got as [y|]; [apply Hg; reflexivity|]. split; [reflexivity|]. cbn [snd]. destruct (base <? 0) eqn:Q1; [apply near_own; lia|]. destruct ((g =? 1) && (base =? 0)) eqn:Q2; [apply near_own; lia|].
        destruct Base as [Q|[Q|Q]]; [lia|lia|exact Q]. }
      destruct x as [gx bs]. destruct Nx as [Ng Nb]. cbn [fst snd] in Ng, Nb. subst gx.
      rewrite (read_block_spec k g j) by (auto; try lia; try (apply Ss); destruct Yr as [Y1 Y2]; unfold in_years, S, E, instant in Y1, Y2; lia). cbn [bind].
      fold S E. set (lw := filter _ (ib_ents r)).
      destruct (out_times_spec j bs R) as (ts & Ets & Ot). { pose proof (B_mono k js j Rs R ltac:(lia)). unfold near in Nb. lia. } { pose proof (B_mono1 k j je R Re ltac:(lia)). unfold near in Nb. lia. }
      destruct (chk32 (bstart k j - bs)) as [d|]; [|discriminate Ets]. cbn [bind] in *. rewrite Ets. cbn [bind].
      pose proof Gd as (_ & Ir & Eo & _ & _).
      destruct (Ot lw) as (l' & El' & Il'). { intros e He. apply filter_In in He. apply Eo. apply He. } rewrite El'. cbn [bind].
      assert (Al : alen lw <= alen (ib_ents r)). { unfold alen, lw. clear. induction (ib_ents r) as [|a t IHt]; [cbn; lia|]. cbn [filter]. destruct (_ && _); cbn [length]; lia. }
      destruct (IH fuel (j + 1) (cur + alen lw) (Some (g, bs)) max) as (got' & rest & Eg & Pg); try lia.
      { intros x0 [= <-]. split; [reflexivity|exact Nb]. }
      rewrite Eg. cbn [bind]. exists got', (l' ++ rest). split; [reflexivity|].
      destruct got' as [y|]; [|destruct Pg as [Q _]; discriminate Q]. destruct Pg as (P1 & P2 & P3 & P4 & P5). specialize (P3 _ eq_refl). subst y. cbn [fst snd] in *.
      split; [reflexivity|]. split; [exact Nb|]. split. { exact Gx. }
      unfold instants at 1 2. rewrite !map_app. fold (instants g bs l') (instants g bs rest). rewrite Il'.
      assert (Ilw : increasing lw) by (apply inc_filter; exact Ir).
      assert (Inl : forall i v, In (i, v) (abs j lw) <-> inb j i /\ sel i = true /\ m i = Some v).
      { intros i v. rewrite abs_in. unfold lw. split.
        - intros (t & It & ->). apply filter_In in It. destruct It as [It Q]. cbn [fst] in Q. destruct (Eo _ It) as [Hi _]. cbn [fst] in Hi. split; [exact Hi|]. split; [exact Q|].
          rewrite (M _ Hi), abs_at. apply at_time_in; assumption.
        - intros (Hi & Q & Mi). rewrite (M _ Hi) in Mi. destruct (abs_some k j _ _ _ Ir Mi) as (t & -> & It). exists t. split; [|reflexivity]. apply filter_In. split; [exact It|exact Q]. }
      split.
      * apply inc_app; [apply abs_inc; exact Ilw|exact P4|]. intros [i1 v1] [i2 v2] H1 H2. apply Inl in H1. apply P5 in H2. destruct H1 as [[_ H1] _]. cbn [fst]. lia.
      * intros i v. rewrite in_app_iff, Inl, P5. unfold IrrSerProofs.inb. split; [intros [(Q1 & Q2 & Q3)|(Q1 & Q2 & Q3)]; repeat split; auto; lia|].
        intros (Q1 & Q2 & Q3). destruct (Z_le_gt_dec i (B (j + 1))) as [Q|Q]; [left|right]; repeat split; auto; lia.
    + destruct (IH fuel (j + 1) cur got max) as (got' & out & Eg & Pg); try lia; auto.
      rewrite Eg. exists got', out. split; [reflexivity|]. cbn [IrrSerBlock.brep] in Hb.
      assert (N : forall i, B j < i -> B (j + 1) < i \/ m i = None) by (intros i Hi; destruct (Z_le_gt_dec i (B (j + 1))) as [Q|Q]; [right; apply Hb; split; assumption|left; lia]).
      destruct got' as [x|].
      * destruct Pg as (P1 & P2 & P3 & P4 & P5). repeat (split; [assumption|]). intros i v. rewrite P5. split; [intros (Q1 & Q2 & Q3); repeat split; auto; lia|].
        intros (Q1 & Q2 & Q3). destruct (N i Q1) as [Q|Q]; [auto|congruence].
      * destruct Pg as (P1 & P2 & P3). repeat (split; [assumption|]). intros i Hi Q. destruct (N i Hi) as [Q1|Q1]; [apply P3; assumption|exact Q1].
Qed.
End Win.

Lemma iread_ok (m : Z -> option P) (s : iseries P) g0 rb sj ss ej es : rep m s -> window_ok k g rb sj ss ej es ->
  exists r, iread size g0 rb sj ss ej es s = Ok (Some r) /\
    match fst r with Some x => fst x = g | None => snd r = [] end /\
    increasing (shows r) /\
    forall i (v : P), In (i, v) (shows r) <-> instant sj ss <= i <= instant ej es /\ m i = Some v.
Proof.
  intros Hrep (Ss & Es & Hd & Y1 & Y2 & Cen & Span & Nz & Near).
  destruct (block_of k _ Y1) as (js & Rs & Fs & Gs). destruct (block_of k _ Y2) as (je & Re & Fe & Ge).
  rewrite (day_uniq _ sj) in Gs by (unfold instant; lia). rewrite (day_uniq _ ej) in Ge by (unfold instant; lia).
  assert (Ssu : ss mod u = 0). { destruct (u_cases k) as [[[-> K]|[-> K]] _]; [apply Z.mod_1_r|apply Cen; exact K]. }
  pose proof (g_cases k g Gok) as Gcs. set (w := mk_iwin sj ss ej es (bstart k js) (bstart k je)).
  assert (Own : forall j, js <= j <= je -> near js je (bstart k j)) by (intros; eapply near_own with (w := w); eauto).
  unfold in_years, instant in Y1, Y2.
  assert (Pr : exists base, process_read size g0 rb sj ss ej es = Ok (Some (w, base)) /\ (base < 0 \/ base = 0 /\ g = 1 \/ near js je base)).
  { unfold process_read. destruct (rb =? 0) eqn:Q.
    - assert (rb = 0) by lia. subst rb. specialize (Nz eq_refl). replace ((sj =? 0) && (ej =? 0) || (sj =? -1) && (ej =? -1)) with false by lia.
      rewrite !cleanTime_fix by (rewrite ?unitsPerDay_1; unfold UNDEFINED_TIME, SECOND_GRANULARITY; change (unitsPerDay 1) with 86400; lia). cbn [bind Z.eqb negb andb].
      replace (ej <? sj) with false by lia. replace (isTimeDefined sj ss) with true by (unfold isTimeDefined, UNDEFINED_TIME; lia). cbn [orb negb]. rewrite Gs, Ge. cbn [bind].
      eexists. split; [reflexivity|].
      assert (Z0 : forall b, b = 0 -> b < 0 \/ b = 0 /\ g = 1 \/ near js je b).
      { intros b ->. destruct (Z.eq_dec g 1) as [G1|G1]; [right; left; split; [reflexivity|exact G1]|]. right. right. unfold near. pose proof (len_g je Re). pose proof (len_g js Rs). destruct Fs, Fe. unfold instant in *. lia. }
      assert (Z1 : near js je (bstart k js)). { apply Own. pose proof (js_je w js je) as Q1. cbn [v_sj v_ej v_ss v_es w] in Q1. unfold w in Q1. cbn [v_sj v_ej v_ss v_es] in Q1. split; [lia|]. apply Q1; auto. }
      cbn [andb]. destruct (negb (bstart k js =? 0)) eqn:Qs; [|apply Z0; reflexivity].
      set (gg := if g0 =? 0 then _ else g0). destruct (gg =? 1); [right; right; exact Z1|]. destruct (gg =? 60); [|right; right; exact Z1]. destruct (_ || _); [right; right; exact Z1|apply Z0; reflexivity].
    - cbn [bind]. replace (ej =? UNDEFINED_TIME) with false by (unfold UNDEFINED_TIME; lia). replace (sj =? UNDEFINED_TIME) with false by (unfold UNDEFINED_TIME; lia).
      replace ((ej =? 0) && (es =? 0)) with false by lia. cbn [negb andb orb]. replace (ej <? sj) with false by lia. replace (isTimeDefined sj ss) with true by (unfold isTimeDefined, UNDEFINED_TIME; lia). cbn [orb negb].
      rewrite Gs, Ge. cbn [bind andb]. eexists. split; [reflexivity|]. destruct (Z_lt_le_dec rb 0) as [L|L]; [left; exact L|]. right. right. specialize (Near ltac:(lia)).
      unfold near. pose proof (len_g je Re). pose proof (len_g js Rs). destruct Fs, Fe. lia. }
  destruct Pr as (base & Ep & Hb). unfold iread. rewrite Ep. cbn [bind]. change (v_eb w) with (bstart k je). change (v_sb w) with (bstart k js).
  assert (Jle : js <= je). { pose proof (js_je w js je) as Q1. unfold w in Q1. cbn [v_sj v_ej v_ss v_es] in Q1. apply Q1; auto. }
  set (n := Z.to_nat (je + 1 - js)). pose proof (bstart_days k js je Rs Re Jle) as Bd.
  assert (Sz : size_loop (S (S (Z.to_nat (bstart k je - bstart k js)))) size (bstart k js) (bstart k je) s = Ok (total s n js)).
  { apply (size_ok s w js je Rs Re (conj Ss Ssu)); unfold n; lia. }
  rewrite Sz. cbn [bind].
  destruct (read_ok m s Hrep w js je Rs Re Fs Fe) with (base := base) (n := n) (fuel := S (S (Z.to_nat (bstart k je - bstart k js)))) (j := js) (cur := 0) (got := @None (Z * Z)) (max := total s n js) as (got' & out & El & Pg); auto; try (unfold n; lia).
  { discriminate. }
  rewrite El. cbn [bind]. exists (got', out). split; [reflexivity|]. cbn [fst snd].
  assert (Lo : forall i, instant sj ss <= i -> B js < i) by (intros i Hi; destruct Fs; lia).
  destruct got' as [[gx bs]|].
  - destruct Pg as (P1 & P2 & _ & P4 & P5). cbn [fst snd] in *. subst gx. split; [reflexivity|]. unfold shows. cbn [fst snd]. split; [exact P4|].
    intros i v. rewrite P5. unfold sel. cbn [v_sj v_ss v_ej v_es w]. rewrite andb_true_iff, !Z.leb_le. split; [intros (Q1 & Q2 & Q3); auto|]. intros [Q2 Q3]. split; [apply Lo; apply Q2|]. auto.
  - destruct Pg as (_ & -> & N). split; [reflexivity|]. unfold shows. cbn [fst snd]. split; [exact Logic.I|].
    intros i v. split; [intros []|]. intros [Q2 Q3]. rewrite N in Q3; [discriminate|apply Lo; apply Q2|]. unfold sel. rewrite andb_true_iff, !Z.leb_le. exact Q2.
Qed.
End K.
