(** * C47 for collections: the pattern C:sequence|text as F part stands for every sequence. *)
From Coq Require Import ZArith List Lia Bool ZifyBool.
From Verif Require Import Base ArrayLib HashModel FileModel FileSpec CStr CStrProofs PathModel PathSpec PathProofs PathProps TextProps CatModel CatSpec CatProofs.
Import ListNotations.
Open Scope Z_scope.

Definition no_bar (s : list Z) : Prop := ~ In 124 s.
(** the F part of a member of a collection *)
Definition member (c : Z) (seq rest : list Z) : list Z := c :: 58 :: seq ++ 124 :: rest.
Definition is_C (c : Z) : Prop := c = 67 \/ c = 99.

Lemma has_bar_spec : forall l pre q, exists b, has_bar (length l) (pre ++ l ++ q) (slen pre) = Ok b /\ (b = true <-> In 124 l).
Proof.
  induction l as [|x l IH]; intros pre q; [exists false; split; [reflexivity|]; split; [discriminate|intros []]|].
  cbn [length has_bar app]. unfold slen. rewrite aget_mid. cbn [bind]. destruct (IH (pre ++ [x]) q) as (b & E & HB).
  rewrite <- app_assoc in E. cbn [app] in E. unfold slen in E. rewrite app_length in E. cbn [length] in E.
  replace (Z.of_nat (length pre) + 1) with (Z.of_nat (length pre + 1)) by lia. rewrite E. cbn [bind]. eexists. split; [reflexivity|].
  rewrite orb_true_iff, HB. cbn [In]. split; (intros [Q|Q]; [left; lia|right; exact Q]).
Qed.

Lemma aset_mid (p : list Z) x q v : aset (p ++ x :: q) (slen p) v = Ok (p ++ v :: q).
Proof. apply aset_slen. Qed.

Lemma mask_spec : forall seq pre r n, no_bar seq -> (length seq < n)%nat ->
  mask_loop n (pre ++ seq ++ 124 :: r) (slen pre) = Ok (pre ++ repeat 88 (length seq) ++ 124 :: r).
Proof.
  induction seq as [|x seq IH]; intros pre r n NB Hn; (destruct n as [|n]; [cbn [length] in Hn; lia|]); cbn [mask_loop app length repeat].
  - unfold slen. rewrite aget_mid. reflexivity.
  - unfold slen at 1. rewrite aget_mid. cbn [bind]. replace (x =? 124) with false by (symmetry; apply Z.eqb_neq; intros ->; apply NB; left; reflexivity).
    rewrite aset_mid. cbn [bind]. specialize (IH (pre ++ [88]) r n ltac:(intros Q; apply NB; right; exact Q) ltac:(cbn [length] in Hn; lia)).
    rewrite <- !app_assoc in IH. cbn [app] in IH. rewrite slen_app in IH. exact IH.
Qed.

Lemma mask_collection_spec c seq rest c' seq' rest' q q' : is_C c -> is_C c' -> no_bar seq -> no_bar seq' ->
  c_text (member c' seq' rest') -> 9 <= slen (member c seq rest) -> 9 <= slen (member c' seq' rest') ->
  mask_collection (slen (member c seq rest)) (member c seq rest ++ 0 :: q) (member c' seq' rest' ++ 0 :: q') =
  Ok (member c (repeat 88 (length seq)) rest ++ 0 :: q, member c' (repeat 88 (length seq')) rest' ++ 0 :: q').
Proof.
  intros HC HC' NB NB' CT L L'. unfold mask_collection. rewrite cstr_c by exact CT. cbn [bind].
  rewrite (proj2 (Z.leb_le 9 _) L), (proj2 (Z.leb_le 9 _) L'). cbn [andb].
  set (find := member c seq rest ++ 0 :: q). set (part := member c' seq' rest' ++ 0 :: q').
  change (aget find 0) with (Ok c). change (aget part 0) with (Ok c'). change (aget find 1) with (Ok 58). change (aget part 1) with (Ok 58). cbn [bind].
  assert (T : toupper c = 67 /\ toupper c' = 67) by (destruct HC as [->| ->], HC' as [->| ->]; split; reflexivity). destruct T as [-> ->].
  change ((67 =? 67) && (67 =? 67)) with true. change ((58 =? 58) && (58 =? 58)) with true. cbv iota.
  assert (Lf : forall a s r, Z.to_nat (slen (member a s r) - 2) = length (s ++ 124 :: r)) by (intros; unfold member, slen; cbn [length]; lia).
  assert (Sp : forall a s r y, member a s r ++ y = [a; 58] ++ (s ++ 124 :: r) ++ y) by reflexivity.
  rewrite !Lf. destruct (has_bar_spec (seq ++ 124 :: rest) [c; 58] (0 :: q)) as (b1 & E1 & H1). change (slen [c; 58]) with 2 in E1.
  unfold find at 1. rewrite Sp, E1. cbn [bind]. replace b1 with true by (symmetry; apply H1; apply in_or_app; right; left; reflexivity).
  destruct (has_bar_spec (seq' ++ 124 :: rest') [c'; 58] (0 :: q')) as (b2 & E2 & H2). change (slen [c'; 58]) with 2 in E2.
  unfold part at 1. rewrite Sp, E2. cbn [bind]. replace b2 with true by (symmetry; apply H2; apply in_or_app; right; left; reflexivity).
  assert (MK : forall a s r y, no_bar s -> mask_loop (length (s ++ 124 :: r)) (member a s r ++ 0 :: y) 2 = Ok (member a (repeat 88 (length s)) r ++ 0 :: y)).
  { intros a s r y N. rewrite Sp, <- app_assoc. cbn [app]. change 2 with (slen [a; 58]).
    change (a :: 58 :: s ++ 124 :: r ++ 0 :: y) with ([a; 58] ++ s ++ 124 :: r ++ 0 :: y). rewrite mask_spec; [|exact N|rewrite app_length; cbn [length]; lia].
    unfold member. cbn [app]. rewrite <- app_assoc. reflexivity. }
  unfold find, part. rewrite MK by exact NB. cbn [bind]. rewrite MK by exact NB'. reflexivity.
Qed.

Lemma canon_repeat n : canon (repeat 88 n) = repeat 88 n.
Proof. induction n; cbn; [reflexivity|f_equal; assumption]. Qed.
Lemma repeat_bar n n' r r' : repeat 88 n ++ 124 :: r = repeat 88 n' ++ 124 :: r' <-> n = n' /\ r = r'.
Proof.
  split; [|intros [-> ->]; reflexivity]. revert n'. induction n as [|n IH]; intros [|n'] E; cbn in E; inversion E; [auto|]. destruct (IH n' ltac:(assumption)) as [-> ->]. auto.
Qed.
Lemma c_text_member c seq rest n : c_text (member c seq rest) -> c_text (member c (repeat 88 n) rest).
Proof.
  unfold c_text, member. intros H. inversion_clear H as [|? ? H1 H2]. inversion_clear H2 as [|? ? H3 H4]. constructor; [exact H1|]. constructor; [exact H3|].
  apply Forall_app in H4. destruct H4 as [_ H4]. apply Forall_app. split; [|exact H4]. apply Forall_forall. intros x Hx. apply repeat_spec in Hx. lia.
Qed.

(** ** The parts before the last one *)
Lemma compare_prefix junk ps coll r : alen junk = 7 -> six_parts ps -> short_parts ps -> forall tl out, Forall2 wild_ok tl out -> forall pre ptl post pbuf sbuf, ps = pre ++ ptl ++ post ->
  length ptl = length tl -> slen' (pre ++ ptl) < 6 -> alen pbuf = 129 -> alen sbuf = 129 -> Forall2 part_safe tl ptl ->
  (Forall2 part_matches tl ptl /\ exists pb sb, alen pb = 129 /\ alen sb = 129 /\
     compare_parts junk (path_text ps) pbuf sbuf (slen' pre + 1) coll (out ++ r) = compare_parts junk (path_text ps) pb sb (slen' (pre ++ ptl) + 1) coll r) \/
  (~ Forall2 part_matches tl ptl /\ compare_parts junk (path_text ps) pbuf sbuf (slen' pre + 1) coll (out ++ r) = Ok false).
Proof.
  intros Hj H6 HS. induction 1 as [|w o tl out HW HF IH]; intros pre ptl post pbuf sbuf E HL H5 HP HB SF; (destruct ptl as [|p ptl]; [|]); try discriminate.
  - left. split; [constructor|]. exists pbuf, sbuf. rewrite app_nil_r. auto.
  - inversion_clear SF as [|? ? ? ? SF1 SF2]. cbn [compare_parts app]. cbn [app] in E.
    assert (Hp : slen p <= 128) by (unfold short_parts in HS; rewrite Forall_forall in HS; apply HS; rewrite E; apply in_or_app; right; left; reflexivity).
    assert (Cp : c_text p) by (destruct H6 as (_ & _ & H6); rewrite Forall_forall in H6; apply H6; rewrite E; apply in_or_app; right; left; reflexivity).
    destruct HW as (t & K & Ct & Lt & HO).
    assert (EQ : pre ++ p :: ptl = (pre ++ [p]) ++ ptl) by (rewrite <- app_assoc; reflexivity). rewrite EQ in H5 |- *.
    assert (REC : forall pb sb, alen pb = 129 -> alen sb = 129 ->
      (Forall2 part_matches tl ptl /\ exists pb' sb', alen pb' = 129 /\ alen sb' = 129 /\
         compare_parts junk (path_text ps) pb sb (slen' pre + 1 + 1) coll (out ++ r) = compare_parts junk (path_text ps) pb' sb' (slen' ((pre ++ [p]) ++ ptl) + 1) coll r) \/
      (~ Forall2 part_matches tl ptl /\ compare_parts junk (path_text ps) pb sb (slen' pre + 1 + 1) coll (out ++ r) = Ok false)).
    { intros pb sb A1 A2. specialize (IH (pre ++ [p]) ptl post pb sb ltac:(rewrite <- app_assoc; exact E) ltac:(cbn [length] in HL; lia) H5 A1 A2 SF2).
      replace (slen' (pre ++ [p])) with (slen' pre + 1) in IH by (unfold slen'; rewrite app_length; cbn [length]; lia). exact IH. }
    assert (K5 : slen' pre + 1 <> 6) by (unfold slen' in *; rewrite !app_length in H5; cbn [length] in H5; lia).
    assert (MM : part_matches w p -> (Forall2 part_matches (w :: tl) (p :: ptl) <-> Forall2 part_matches tl ptl)) by (intros M; split; intros Q; [inversion Q; assumption|constructor; assumption]).
    destruct (w_act o =? 0) eqn:EA.
    + assert (MW : part_matches w p). { destruct K as [[_ ->]|[K|[K|[K|K]]]]; [apply match_any|lia..]. }
      rewrite (MM MW). apply REC; assumption.
    + destruct HO as (HL1 & qt & HB1); [lia|].
      destruct (get_part junk ps (slen' pre + 1) p pbuf Hj H6) as (q & G & A); [| |exact Hp|exact HP|].
      { rewrite E. replace (Z.to_nat (slen' pre + 1 - 1)) with (length pre) by (unfold slen'; lia). apply nth_mid. }
      { destruct H6 as (H6 & _). rewrite E, app_length in H6. cbn [length] in H6. unfold slen'. lia. }
      rewrite G. cbn [bind]. rewrite HL1.
      destruct ((w_act o =? 1) && negb (slen p =? slen t)) eqn:E1.
      * right. split; [|reflexivity]. intros M. inversion M as [|? ? ? ? M1 M2]; subst.
        destruct K as [[K _]|[(K & -> & K1 & K2)|[(K & _)|[(K & _)|(K & _)]]]]; try lia.
        apply match_equal in M1; [|assumption..]. apply (f_equal (@length _)) in M1. rewrite !canon_len in M1. unfold slen in E1. lia.
      * rewrite HB1, cstr_c by exact Ct. cbn [bind].
        destruct (copy_text sbuf t t HB Ct Lt) as (q2 & r2 & SC & A2); [exists []; rewrite app_nil_r; reflexivity|].
        rewrite SC. cbn [bind fst]. replace (slen' pre + 1 =? 6) with false by lia. cbn [andb bind fst snd].
        destruct (compare_part_spec w (w_act o) t p q (0 :: q2) K ltac:(lia) Ct Cp SF1) as (b & CP & HBM).
        { intros Q. unfold slen in E1. lia. }
        rewrite CP. cbn [bind]. destruct b.
        -- rewrite (MM (proj1 HBM eq_refl)). apply REC; assumption.
        -- right. split; [|reflexivity]. intros M. inversion M as [|? ? ? ? M1 M2]; subst. apply HBM in M1. discriminate.
Qed.

(** A catalogue for a collection (sort flag 2): with C:sequence|text as F part of the pattern, the F part of a name is
    matched exactly when it is C:sequence'|text with a sequence as long, whatever its characters. *)
Theorem C47_collection : forall lo ws ps c seq rest c' seq' rest', locals_ok lo -> length ws = 5%nat ->
  six_parts (ws ++ [member c seq rest]) -> short_parts (ws ++ [member c seq rest]) ->
  six_parts (ps ++ [member c' seq' rest']) -> short_parts (ps ++ [member c' seq' rest']) -> safe ws ps ->
  is_C c -> is_C c' -> no_bar seq -> no_bar seq' -> last rest 0 <> star ->
  9 <= slen (member c seq rest) -> 9 <= slen (member c' seq' rest') ->
  exists out b, zcatParsePath (l_junk lo) (path_text (ws ++ [member c seq rest])) (l_part lo) (l_olds lo) = Ok (Some out) /\
    zcatComparePath (l_junk lo) (path_text (ps ++ [member c' seq' rest'])) (l_pbuf lo) (l_sbuf lo) true out = Ok b /\
    (b = true <-> name_matches ws ps /\ length seq = length seq' /\ canon rest = canon rest').
Proof.
  intros lo ws ps c seq rest c' seq' rest' LO L5 W1 W2 P1 P2 SF HC HC' NB NB' HR S1 S2.
  destruct (parse_ok lo _ LO W1 W2) as (out & PW & WO). exists out.
  apply Forall2_app_inv_l in WO. destruct WO as (out1 & out2 & WO1 & WO2 & ->). inversion WO2 as [|? o ? ? HO HN]; subst. inversion HN; subst. clear WO2 HN.
  destruct LO as (L1 & L2 & L3 & L4 & _ & L6). pose proof P1 as (Q1 & Q2 & Q3). rewrite app_length in Q1. cbn [length] in Q1.
  assert (L5' : length ps = 5%nat) by lia.
  set (F := member c seq rest) in *. set (F' := member c' seq' rest') in *.
  assert (CT : c_text F') by (rewrite Forall_forall in Q3; apply Q3, in_or_app; right; left; reflexivity).
  assert (LT : slen F' <= 128) by (unfold short_parts in P2; rewrite Forall_forall in P2; apply P2, in_or_app; right; left; reflexivity).
  unfold zcatComparePath. rewrite path_text_nil. pose proof P1 as (P11 & P12 & P13). rewrite positions_spec by assumption. cbn [bind fst]. change (negb (7 =? 7)) with false. cbv iota.
  destruct (compare_prefix (l_junk lo) (ps ++ [F']) true [o] L1 P1 P2 ws out1 WO1 [] ps [F'] (l_pbuf lo) (l_sbuf lo) eq_refl) as [[M (pb & sb & A1 & A2 & EQ)]|[M EQ]];
    [lia|unfold slen'; cbn [app]; lia|exact L3|exact L4|exact SF| |]; change (slen' [] + 1) with 1 in EQ; cbn [app] in EQ; rewrite EQ.
  2:{ exists false. split; [exact PW|]. split; [reflexivity|]. split; [discriminate|]. intros [Q _]. contradiction. }
  replace (slen' ps + 1) with 6 by (unfold slen'; lia). cbn [compare_parts].
  destruct HO as (t & K & Ct & Lt & HO).
  assert (HD : hd 0 F <> star) by (unfold F, member, star; cbn [hd]; destruct HC as [->| ->]; lia).
  assert (LS : last F 0 <> star).
  { unfold F, member. change (c :: 58 :: seq ++ 124 :: rest) with ((c :: 58 :: seq) ++ 124 :: rest).
    destruct rest as [|x rest]; [rewrite last_last; unfold star; lia|]. clear - HR. intros Q. apply HR. rewrite <- Q. generalize (c :: 58 :: seq). intros l.
    induction l as [|a l IH]; [reflexivity|]. cbn [app]. rewrite IH. destruct (l ++ 124 :: x :: rest) eqn:E; [destruct l; discriminate|reflexivity]. }
  assert (KK : w_act o = 1 /\ t = F).
  { destruct K as [[_ K]|[(K & K2 & _)|[(_ & K & _)|[(_ & K & _)|(_ & K)]]]].
    - exfalso. unfold F, member in K. discriminate.
    - auto.
    - exfalso. apply LS. rewrite K. apply last_last.
    - exfalso. apply HD. rewrite K. reflexivity.
    - exfalso. apply HD. rewrite K. reflexivity. }
  destruct KK as [KA ->]. destruct HO as (HL1 & qt & HB1); [lia|]. rewrite KA, HL1. change (1 =? 0) with false. change (1 =? 1) with true. cbv iota. cbn [andb].
  destruct (get_part (l_junk lo) (ps ++ [F']) 6 F' pb L1 P1) as (q & G & A); [|lia|exact LT|exact A1|].
  { change (Z.to_nat (6 - 1)) with 5%nat. rewrite <- L5'. apply nth_mid. }
  rewrite G. cbn [bind]. destruct (slen F' =? slen F) eqn:EL; cbn [negb].
  2:{ exists false. split; [exact PW|]. split; [reflexivity|]. split; [discriminate|]. intros (_ & E1 & E2). exfalso.
      apply (f_equal (@length _)) in E2. rewrite !canon_len in E2. unfold F, F', member, slen in EL. cbn [length] in EL. rewrite !app_length in EL. cbn [length] in EL. lia. }
  rewrite HB1, cstr_c by exact Ct. cbn [bind].
  destruct (copy_text sb F F A2 Ct Lt) as (q2 & r2 & SC & A3); [exists []; rewrite app_nil_r; reflexivity|].
  rewrite SC. cbn [bind fst]. change (6 =? 6) with true. cbn [andb].
  unfold F at 1 2, F' at 1. rewrite mask_collection_spec by assumption. fold F. cbn [bind fst snd].
  assert (LM : slen F = slen (member c (repeat 88 (length seq)) rest)) by (unfold F, member, slen; cbn [length]; rewrite !app_length, repeat_length; reflexivity).
  rewrite LM. unfold compare_part. change (1 =? 1) with true. cbv iota.
  rewrite compare_front by (eapply c_text_member; eassumption). cbn [bind].
  assert (EP : is_prefix (canon (member c (repeat 88 (length seq)) rest)) (canon (member c' (repeat 88 (length seq')) rest')) = true <->
     length seq = length seq' /\ canon rest = canon rest').
  { rewrite equal_prefix.
    - unfold member. cbn [canon map]. fold (canon (repeat 88 (length seq) ++ 124 :: rest)). fold (canon (repeat 88 (length seq') ++ 124 :: rest')). rewrite !canon_app, !canon_repeat.
      cbn [canon map]. fold (canon rest) (canon rest'). change (canon_char 124) with 124. change (canon_char 58) with 58.
      assert (T : canon_char c = 67 /\ canon_char c' = 67) by (destruct HC as [->| ->], HC' as [->| ->]; split; reflexivity). destruct T as [-> ->].
      split.
      + intros E. inversion E as [E']. apply repeat_bar in E'. destruct E' as [-> ->]. auto.
      + intros [-> ->]. reflexivity.
    - unfold F, F', member, slen in EL. unfold member. cbn [length] in *. rewrite !app_length in EL. rewrite !app_length, !repeat_length. cbn [length] in *. lia. }
  destruct (is_prefix _ _).
  - exists true. split; [exact PW|]. split; [reflexivity|]. split; [intros _; split; [exact M|apply EP; reflexivity]|reflexivity].
  - exists false. split; [exact PW|]. split; [reflexivity|]. split; [discriminate|]. intros [_ Q]. apply EP in Q. discriminate.
Qed.
Print Assumptions C47_collection.

(** the hypotheses are met: /A/Dam/FLOW//1Day/C:000007|OBS/ against the pattern with c:000001|obs *)
Definition coll_ws : list (list Z) := [[42]; [68; 97; 42]; [42]; []; [42]].
Definition coll_ps : list (list Z) := [[65]; [68; 97; 109]; [70; 76; 79; 87]; []; [49; 68; 97; 121]].
Definition coll_seq (d : Z) : list Z := [48; 48; 48; 48; 48; d].
Example C47_collection_example :
  six_parts (coll_ws ++ [member 99 (coll_seq 49) [111; 98; 115]]) /\ short_parts (coll_ws ++ [member 99 (coll_seq 49) [111; 98; 115]]) /\
  six_parts (coll_ps ++ [member 67 (coll_seq 55) [79; 66; 83]]) /\ short_parts (coll_ps ++ [member 67 (coll_seq 55) [79; 66; 83]]) /\
  safe coll_ws coll_ps /\ is_C 99 /\ is_C 67 /\ no_bar (coll_seq 49) /\ no_bar (coll_seq 55) /\ last [111; 98; 115] 0 <> star /\
  9 <= slen (member 99 (coll_seq 49) [111; 98; 115]) /\ 9 <= slen (member 67 (coll_seq 55) [79; 66; 83]) /\ name_matches coll_ws coll_ps.
Proof.
  assert (NS : forall l, forallb (fun p => forallb (fun c => negb (c =? 47)) p && forallb (fun c => (0 <? c) && (c <? 256)) p && (Z.of_nat (length p) <=? 128)) l = true ->
     Forall no_slash l /\ Forall c_text l /\ short_parts l).
  { intros l H. rewrite forallb_forall in H. split; [|split]; apply Forall_forall; intros p Hp; specialize (H p Hp); rewrite !andb_true_iff in H; destruct H as [[H1 H2] H3].
    - intros Q. rewrite forallb_forall in H1. specialize (H1 _ Q). discriminate.
    - rewrite forallb_forall in H2. apply Forall_forall. intros x Hx. specialize (H2 x Hx). lia.
    - lia. }
  destruct (NS (coll_ws ++ [member 99 (coll_seq 49) [111; 98; 115]]) eq_refl) as (A1 & A2 & A3).
  destruct (NS (coll_ps ++ [member 67 (coll_seq 55) [79; 66; 83]]) eq_refl) as (B1 & B2 & B3).
  split; [repeat split; assumption|]. split; [assumption|]. split; [repeat split; assumption|]. split; [assumption|].
  split. { unfold coll_ws, coll_ps, safe. repeat (apply Forall2_cons; [split; [intros t E NT HL; inversion E; subst; try congruence|intros E; discriminate]|]). apply Forall2_nil. }
  split; [right; reflexivity|]. split; [left; reflexivity|]. split; [unfold no_bar, coll_seq; cbn; lia|]. split; [unfold no_bar, coll_seq; cbn; lia|].
  split; [cbn; unfold star; lia|]. split; [cbn; lia|]. split; [cbn; lia|].
  unfold coll_ws, coll_ps, name_matches. apply Forall2_cons; [apply pm_any|]. apply Forall2_cons; [apply (pm_starts [68; 97]); [discriminate|cbn; unfold star; lia|exists [77]; reflexivity]|].
  apply Forall2_cons; [apply pm_any|]. apply Forall2_cons; [apply pm_equal; [cbn; unfold star; lia|cbn; unfold star; lia|reflexivity]|]. apply Forall2_cons; [apply pm_any|apply Forall2_nil].
Qed.
