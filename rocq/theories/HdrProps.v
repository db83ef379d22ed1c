(** * C20: strings in the internal header of a time-series record. *)
From Coq Require Import ZArith List Bool Lia ZifyBool.
From Verif Require Import Base ArrayLib PackModel PackProps HashModel CStr CStrProofs TimeTextProps PathModel PathSpec PathProofs PathProps
  TextModel TextProps HdrModel.
Import ListNotations.
Open Scope Z_scope.
Open Scope res_scope.

(** ** Specification *)
(** bytes a string takes in the header *)
Definition room (s : option (list Z)) : Z := 8 * (match s with Some t => slen t | None => 0 end / 8 + 1).
Definition given_string (s : option (list Z)) : Prop := match s with Some t => c_text t | None => True end.
(** what is read back: the string without leading and trailing blanks; nothing if it has no other characters *)
Definition read_back (s r : option (list Z)) : Prop :=
  match s with
  | None => r = None
  | Some t => exists u, trimmed t u /\ r = (match u with [] => None | _ => Some u end)
  end.

(** ** lemmas *)
Lemma copy_mid l : forall pre A B C, length B = length l ->
  copy_loop (length l) (pre ++ l) (slen pre) (A ++ B ++ C) (slen A) = Ok (A ++ l ++ C).
Proof.
  induction l as [|x l IH]; intros pre A B C L.
  - destruct B; [reflexivity|discriminate L].
  - destruct B as [|b B]; [discriminate L|]. cbn [length copy_loop].
    assert (G : aget (pre ++ x :: l) (slen pre) = Ok x) by apply CStrProofs.aget_mid. rewrite G. cbn [bind].
    assert (S : aset (A ++ (b :: B) ++ C) (slen A) x = Ok (A ++ (x :: B) ++ C)) by (cbn [app]; apply aset_slen).
    rewrite S. cbn [bind]. specialize (IH (pre ++ [x]) (A ++ [x]) B C ltac:(cbn in L; lia)).
    rewrite <- !app_assoc in IH. cbn [app] in IH. unfold slen in *. rewrite !app_length in IH. cbn [length] in IH.
    replace (Z.of_nat (length pre) + 1) with (Z.of_nat (length pre + 1)) by lia. replace (Z.of_nat (length A) + 1) with (Z.of_nat (length A + 1)) by lia.
    exact IH.
Qed.

Lemma blank_repeat k : blank_text (repeat 32 k).
Proof. induction k; constructor; auto. Qed.
Lemma trim_of_blank_end a b : blank_text b -> trim_of (a ++ b) = trim_of a.
Proof.
  intros H. apply (trimmed_unique (a ++ b)); [apply trim_of_trimmed|]. destruct (trim_of_trimmed a) as (l & r & E & Hl & Hr & F1 & F2).
  exists l, (r ++ b). split; [rewrite E at 1; rewrite <- !app_assoc; reflexivity|]. split; [exact Hl|]. split; [apply Forall_app; split; assumption|]. split; assumption.
Qed.
Lemma trimLength_spec s : exists b, s = stake (trimLength s) s ++ b /\ blank_text b /\ 0 <= trimLength s <= slen s /\ (trimLength s = 0 <-> blank_text s).
Proof.
  unfold trimLength. pose proof (last_nonblank_spec s) as L. destruct (last_nonblank s) as [i|].
  - destruct L as (l & c & t & E & Ht & Hc & ->). exists t. pose proof (slen_nonneg l). pose proof (slen_nonneg t).
    assert (S : slen s = slen l + 1 + slen t) by (rewrite E, slen_app, slen_cons; lia).
    split; [|split; [exact Ht|split; [lia|]]].
    + replace (slen l + 1) with (slen (l ++ [c])) by (rewrite slen_app; reflexivity). rewrite E at 2.
      replace (l ++ c :: t) with ((l ++ [c]) ++ t) by (rewrite <- app_assoc; reflexivity). rewrite stake_app, <- app_assoc. exact E.
    + split; [lia|]. intros B. exfalso. apply Hc. exact (blank_in _ _ _ _ B E).
  - exists s. pose proof (slen_nonneg s). split; [reflexivity|]. split; [exact L|]. split; [lia|]. split; auto.
Qed.
Lemma trim_of_nil s : trim_of s = [] <-> blank_text s.
Proof.
  destruct (trim_of_trimmed s) as (l & r & E & Hl & Hr & F1 & F2). split; intros H.
  - rewrite H in E. rewrite E. apply Forall_app. split; [exact Hl|]. cbn [app]. exact Hr.
  - destruct (trim_of s) as [|c u] eqn:T; [reflexivity|]. exfalso. apply (F1 c u eq_refl). apply (blank_in s c l (u ++ r) H). exact E.
Qed.
Lemma copyTrim s : mallocAndCopyTrim s = trim_of s.
Proof.
  unfold mallocAndCopyTrim, trim_of. pose proof (first_nonblank_spec s) as F. pose proof (last_nonblank_spec s) as L. unfold trimPositions.
  destruct (first_nonblank s) as [a|]; [|reflexivity]. destruct (last_nonblank s) as [b|]; [|reflexivity].
  destruct F as (l & c & t & E & Hl & Hc & ->). destruct L as (l' & d & r & E' & Hr & Hd & ->).
  assert (Hlen : (length l <= length l')%nat).
  { destruct (Nat.le_gt_cases (length l) (length l')) as [H|H]; [exact H|exfalso]. apply Hd.
    assert (X : nth_error s (length l') = Some d) by (rewrite E', nth_error_app2 by lia; rewrite Nat.sub_diag; reflexivity).
    rewrite E, nth_error_app1 in X by lia. apply nth_error_In in X. unfold blank_text in Hl. rewrite Forall_forall in Hl. apply Hl, X. }
  unfold slen. destruct (Z.of_nat (length l') - Z.of_nat (length l) + 1 =? 0) eqn:E1; [lia|].
  destruct (Z.of_nat (length l') - Z.of_nat (length l) + 1 >? 0) eqn:E2; [reflexivity|lia].
Qed.

Lemma append_spec src X rest size : given_string src -> size = slen (X ++ rest) - 2 -> slen X + room src <= size ->
  exists P, appendStringToHeader src (X ++ rest) (slen X) size = Ok (X ++ P ++ 0 :: sdrop (slen P + 1) rest, slen X + slen P + 1) /\
    8 <= slen P + 1 <= room src /\ (slen P + 1) mod 8 = 0 /\ c_text P /\
    trim_of P = match src with Some s => trim_of s | None => [] end.
Proof.
  intros HG HS HR. pose proof (slen_nonneg X). pose proof (slen_nonneg rest).
  set (item := match src with Some s => s | None => repeat 32 7 end).
  assert (CI : c_text item) by (unfold item; destruct src; [exact HG|apply Forall_forall; intros c Hc; apply repeat_spec in Hc; lia]).
  destruct (trimLength_spec item) as (bl & EI & Hbl & TL & TZ). set (len := trimLength item) in *.
  assert (RM : 8 * (len / 8 + 1) <= room src).
  { unfold room. destruct src as [s|].
    - assert (len / 8 <= slen s / 8) by (apply Z.div_le_mono; unfold item in TL; lia). lia.
    - assert (len = 0) by (apply TZ; apply blank_repeat). replace len with 0 by congruence. cbn. lia. }
  set (j := 8 * (len / 8 + 1)) in *.
  assert (EJ : numberLongsInBytes (len + 1) * 8 = j).
  { unfold numberLongsInBytes. replace (0 <? len + 1) with true by lia. replace (len + 1 - 1) with len by lia. rewrite Z.quot_div_nonneg by lia. unfold j. lia. }
  assert (LJ : len + 1 <= j <= len + 8).
  { unfold j. pose proof (Z.div_mod len 8 ltac:(lia)). pose proof (Z.mod_pos_bound len 8 ltac:(lia)). lia. }
  set (P := stake len item ++ repeat 32 (Z.to_nat (j - 1 - len))).
  assert (LP : slen P + 1 = j).
  { unfold P. rewrite slen_app, slen_stake by lia. unfold slen at 2. rewrite repeat_length. lia. }
  assert (CP : c_text P).
  { unfold P. apply Forall_app. split; [apply forall_stake; exact CI|]. apply Forall_forall; intros c Hc; apply repeat_spec in Hc; lia. }
  assert (TP : trim_of P = match src with Some s => trim_of s | None => [] end).
  { unfold P. rewrite trim_of_blank_end by apply blank_repeat. rewrite <- (trim_of_blank_end _ bl Hbl), <- EI. unfold item. destruct src; reflexivity. }
  assert (LX : slen (X ++ rest) = slen X + slen rest) by apply slen_app.
  assert (CORE : zcharTo8Byte (X ++ rest) item (slen X) size = Ok (X ++ P ++ 0 :: sdrop (slen P + 1) rest, slen X + slen P)).
  { unfold zcharTo8Byte. cbv zeta. fold len. rewrite EJ. replace (size - slen X <? 0) with false by lia.
    replace (slen X >? alen (X ++ rest)) with false by (unfold alen; fold (slen (X ++ rest)); lia). rewrite sdrop_app, stake_app.
    assert (PUT : put_str rest P = Ok (P ++ 0 :: sdrop (slen P + 1) rest)) by (apply put_str_val; unfold alen; fold (slen rest); lia).
    destruct (j =? len + 1) eqn:E.
    - assert (P1 : P = stake len item) by (unfold P; replace (Z.to_nat (j - 1 - len)) with 0%nat by lia; cbn [repeat]; apply app_nil_r).
      unfold stringCopy. assert (NZ : (match len with 0 => true | _ => false end) = false) by (destruct len eqn:EL; [unfold j in *; cbn in *; lia|reflexivity|reflexivity]).
      rewrite NZ. replace (size - slen X =? 0) with false by lia. unfold stringCopy_val. replace (len <=? 0) with false by (destruct len; [discriminate|lia|lia]).
      replace (Z.min len (size - slen X - 1)) with len by lia. rewrite <- P1, PUT. cbn [bind fst]. do 3 f_equal. lia.
    - fold P. unfold stringCopy. assert (NZ : (match j - 1 with 0 => true | _ => false end) = false) by (destruct (j - 1) eqn:EL; [lia|reflexivity|reflexivity]).
      rewrite NZ. replace (size - slen X =? 0) with false by lia. unfold stringCopy_val. replace (j - 1 <=? 0) with false by lia.
      replace (Z.min (j - 1) (size - slen X - 1)) with (j - 1) by lia. rewrite (stake_all (j - 1) P) by lia. rewrite PUT. cbn [bind fst]. do 3 f_equal. lia. }
  exists P. split.
  - unfold appendStringToHeader. fold item. rewrite CORE. cbn [bind fst snd]. destruct (slen X + slen P <? size - 1) eqn:E; [|reflexivity].
    replace (X ++ P ++ 0 :: sdrop (slen P + 1) rest) with ((X ++ P) ++ [0] ++ sdrop (slen P + 1) rest) by (rewrite <- !app_assoc; reflexivity).
    rewrite <- slen_app. cbn [app]. rewrite aset_slen. reflexivity.
  - split; [lia|]. split; [rewrite LP; unfold j; rewrite Z.mul_comm; apply Z.mod_mul; lia|]. split; assumption.
Qed.

Lemma assign_spec X P r : c_text P -> 0 < slen P < 199 ->
  assignString (X ++ P ++ 0 :: r) (slen X) = Ok (match trim_of P with [] => None | u => Some u end, slen X + slen P + 1).
Proof.
  intros HC HL. unfold assignString. rewrite sdrop_app. rewrite strnlen_spec by (assumption || lia). cbn [bind]. replace (slen P >? 0) with true by lia.
  rewrite cstr_c by assumption. cbn [bind]. rewrite copyTrim. do 2 f_equal. destruct (trimLength_spec P) as (b & E & Hb & TL & TZ).
  destruct (trim_of P) as [|c u] eqn:T.
  - apply trim_of_nil in T. apply TZ in T. rewrite T. reflexivity.
  - destruct (trimLength P >? 0) eqn:G; [reflexivity|]. exfalso. assert (B : blank_text P) by (apply TZ; lia). apply trim_of_nil in B. congruence.
Qed.
Lemma read_back_of src P : trim_of P = match src with Some s => trim_of s | None => [] end ->
  read_back src (match trim_of P with [] => None | u => Some u end).
Proof.
  intros ->. destruct src as [s|]; [|reflexivity]. exists (trim_of s). split; [apply trim_of_trimmed|]. destruct (trim_of s); reflexivity.
Qed.

(** packing a list of strings, one after the other *)
Fixpoint append_all (srcs : list (option (list Z))) (carray : list Z) (ipos size : Z) : res (list Z * Z) :=
  match srcs with
  | [] => Ok (carray, ipos)
  | s :: t => let* a := appendStringToHeader s carray ipos size in append_all t (fst a) (snd a) size
  end.
Definition rooms (srcs : list (option (list Z))) : Z := fold_right (fun s a => room s + a) 0 srcs.
Lemma room_pos s : 8 <= room s.
Proof. unfold room. assert (0 <= match s with Some t => slen t | None => 0 end / 8) by (apply Z.div_pos; [destruct s; [apply slen_nonneg|lia]|lia]). lia. Qed.
Lemma rooms_nonneg srcs : 0 <= rooms srcs.
Proof. induction srcs as [|s t IH]; [cbn; lia|]. change (rooms (s :: t)) with (room s + rooms t). pose proof (room_pos s). lia. Qed.
Definition packs (s : option (list Z)) (P : list Z) : Prop :=
  c_text P /\ 8 <= slen P + 1 <= room s /\ (slen P + 1) mod 8 = 0 /\ trim_of P = match s with Some t => trim_of t | None => [] end.
Lemma append_all_spec srcs : forall X rest size, Forall given_string srcs -> size = slen (X ++ rest) - 2 -> slen X + rooms srcs <= size ->
  exists Ps rest', append_all srcs (X ++ rest) (slen X) size = Ok (X ++ packed Ps ++ rest', slen X + slen (packed Ps)) /\
    Forall2 packs srcs Ps /\ slen (X ++ packed Ps ++ rest') = slen (X ++ rest) /\ slen (packed Ps) <= rooms srcs /\ slen (packed Ps) mod 8 = 0 /\ (exists k, rest' = sdrop k rest).
Proof.
  induction srcs as [|s t IH]; intros X rest size HG HS HR; cbn [append_all].
  - exists [], rest. change (packed []) with (@nil Z). cbn [app]. change (slen []) with 0. rewrite Z.add_0_r. split; [reflexivity|]. split; [constructor|]. split; [reflexivity|].
    split; [cbn; lia|]. split; [reflexivity|]. exists 0. reflexivity.
  - inversion HG as [|? ? G1 G2]; subst. cbn [rooms fold_right] in HR. fold (rooms t) in HR. pose proof (rooms_nonneg t).
    destruct (append_spec s X rest (slen (X ++ rest) - 2) G1 eq_refl ltac:(lia)) as (P & E & B & M & C & T). rewrite E. cbn [bind fst snd].
    pose proof (slen_nonneg rest). pose proof (slen_nonneg X). rewrite slen_app in *.
    specialize (IH (X ++ P ++ [0]) (sdrop (slen P + 1) rest) (slen X + slen rest - 2) G2).
    assert (L1 : slen (X ++ P ++ [0]) = slen X + slen P + 1) by (rewrite !slen_app; change (slen [0]) with 1; lia).
    assert (L2 : slen (sdrop (slen P + 1) rest) = slen rest - (slen P + 1)) by (rewrite slen_sdrop by (pose proof (slen_nonneg P); lia); lia).
    destruct IH as (Ps & rest' & E2 & F2 & L3 & B3 & M3 & k & K3); [rewrite slen_app, L1, L2; lia|rewrite L1; lia|].
    rewrite L1 in E2. rewrite <- !app_assoc in E2. cbn [app] in E2. exists (P :: Ps), rest'.
    rewrite packed_cons, <- !app_assoc. cbn [app]. split; [rewrite E2; do 2 f_equal; rewrite slen_app, slen_cons; lia|].
    split; [constructor; [repeat split; try assumption; lia|exact F2]|].
    split; [|split; [|split]].
    + rewrite <- !app_assoc in L3. cbn [app] in L3. rewrite L3, !slen_app, slen_cons, L2. lia.
    + rewrite slen_app, slen_cons. cbn [rooms fold_right]. fold (rooms t). lia.
    + rewrite slen_app, slen_cons. replace (slen P + (slen (packed Ps) + 1)) with (slen P + 1 + slen (packed Ps)) by lia. rewrite Z.add_mod, M, M3 by lia. reflexivity.
    + exists (Z.max 0 k + (slen P + 1)). rewrite K3. destruct (Z_le_gt_dec 0 k).
      * rewrite Z.max_r by lia. rewrite sdrop_sdrop by lia. reflexivity.
      * rewrite Z.max_l by lia. unfold sdrop at 1. replace (Z.to_nat k) with 0%nat by lia. reflexivity.
Qed.

Definition srcs_of (t : ts_strings) (profile : Z) : list (option (list Z)) :=
  if profile =? 0 then [st_units t; st_type t; st_zone t] else [st_depths t; st_values t; st_type t; st_zone t].
Fixpoint assign_all (n : nat) (c : list Z) (ipos : Z) : res (list (option (list Z))) :=
  match n with
  | O => Ok []
  | S m => let* a := assignString c ipos in let* r := assign_all m c (snd a) in Ok (fst a :: r)
  end.
Lemma assign_all_spec srcs Ps : Forall2 packs srcs Ps -> forall X r, Forall (fun P => slen P < 199) Ps ->
  exists l, assign_all (length srcs) (X ++ packed Ps ++ r) (slen X) = Ok l /\ Forall2 read_back srcs l.
Proof.
  induction 1 as [|s P srcs Ps HP _ IH]; intros X r HL; cbn [length assign_all]; [exists []; split; [reflexivity|constructor]|].
  inversion HL as [|? ? L1 L2]; subst. destruct HP as (C & B & M & T).
  rewrite packed_cons, <- app_assoc. cbn [app]. rewrite assign_spec by (assumption || lia). cbn [bind fst snd].
  destruct (IH (X ++ P ++ [0]) r L2) as (l & E & F). rewrite <- !app_assoc in E. cbn [app] in E.
  replace (slen (X ++ P ++ [0])) with (slen X + slen P + 1) in E by (rewrite !slen_app; change (slen [0]) with 1; lia).
  rewrite E. cbn [bind]. eexists. split; [reflexivity|]. constructor; [apply read_back_of; exact T|exact F].
Qed.

Lemma append_all_pack t profile carray (k : list Z * Z -> res (list Z * Z)) : let size := alen carray - 2 in forall c n,
  append_all (srcs_of t profile) carray 0 size = Ok (c, n) ->
  (let* a := if profile =? 0 then appendStringToHeader (st_units t) carray 0 size
            else let* a := appendStringToHeader (st_depths t) carray 0 size in
                 appendStringToHeader (st_values t) (fst a) (snd a) size in
   let* b := appendStringToHeader (st_type t) (fst a) (snd a) size in
   let* c := appendStringToHeader (st_zone t) (fst b) (snd b) size in k c) = k (c, n).
Proof.
  intros size c n. unfold srcs_of. destruct (profile =? 0); cbn [append_all].
  - destruct (appendStringToHeader (st_units t) carray 0 size) as [a|]; cbn [bind]; [|discriminate].
    destruct (appendStringToHeader (st_type t) (fst a) (snd a) size) as [b|]; cbn [bind]; [|discriminate].
    destruct (appendStringToHeader (st_zone t) (fst b) (snd b) size) as [d|]; cbn [bind]; [|discriminate].
    destruct d as (d1 & d2). cbn [fst snd]. intros E. congruence.
  - destruct (appendStringToHeader (st_depths t) carray 0 size) as [a0|]; cbn [bind]; [|discriminate].
    destruct (appendStringToHeader (st_values t) (fst a0) (snd a0) size) as [a|]; cbn [bind]; [|discriminate].
    destruct (appendStringToHeader (st_type t) (fst a) (snd a) size) as [b|]; cbn [bind]; [|discriminate].
    destruct (appendStringToHeader (st_zone t) (fst b) (snd b) size) as [d|]; cbn [bind]; [|discriminate].
    destruct d as (d1 & d2). cbn [fst snd]. intros E. congruence.
Qed.
Lemma append_pos src c p n size a : appendStringToHeader src c p size = Ok a -> 0 <= p -> n = snd a -> p < n.
Proof.
  unfold appendStringToHeader, zcharTo8Byte. intros E HP ->. set (it := match src with Some s => s | None => repeat 32 7 end) in *.
  destruct (trimLength_spec it) as (_ & _ & _ & TL & _). cbv zeta in E. destruct (p >? alen c); [discriminate|]. cbn [bind] in E.
  set (l := trimLength it) in *. assert (J : l + 1 <= numberLongsInBytes (l + 1) * 8).
  { unfold numberLongsInBytes. replace (0 <? l + 1) with true by lia. rewrite Z.quot_div_nonneg by lia. pose proof (Z.div_mod (l + 1 - 1) 8 ltac:(lia)). pose proof (Z.mod_pos_bound (l + 1 - 1) 8 ltac:(lia)). lia. }
  destruct (numberLongsInBytes (l + 1) * 8 =? l + 1).
  - destruct (stringCopy _ _ it (Some l)) as [r|]; [|discriminate]. cbn [bind fst snd] in E.
    destruct (if p + l <? size - 1 then aset _ _ 0 else Ok _) as [r2|]; [|discriminate]. cbn [bind] in E. injection E as <-. cbn [snd]. lia.
  - destruct (stringCopy _ _ _ _) as [r|]; [|discriminate]. cbn [bind fst snd] in E.
    destruct (if _ <? size - 1 then aset _ _ 0 else Ok _) as [r2|]; [|discriminate]. cbn [bind] in E. injection E as <-. cbn [snd]. lia.
Qed.
Lemma append_all_mono srcs : forall c p size c' n, append_all srcs c p size = Ok (c', n) -> 0 <= p -> p <= n.
Proof.
  induction srcs as [|s t IH]; intros c p size c' n E HP; cbn [append_all] in E; [injection E as _ <-; lia|].
  destruct (appendStringToHeader s c p size) as [a|] eqn:A; [|discriminate]. cbn [bind] in E. pose proof (append_pos _ _ _ _ _ _ A HP eq_refl).
  apply IH in E; lia.
Qed.
Lemma pack_of t profile h carray c n : let size := alen carray - 2 in
  append_all (srcs_of t profile) carray 0 size = Ok (c, n) -> n < size ->
  ztsInternalHeaderPack t profile h carray =
    (let* h1 := put_ints h INT_HEAD_units [538976288] in
     let* l := to_ints c n in
     let* h2 := put_ints h1 (INT_HEAD_units + 1) l in
     Ok (h2, numberIntsInBytes n + INT_HEAD_units + 1)).
Proof.
  intros size E HN. pose proof (append_all_pack t profile carray (fun c => let* h1 := put_ints h INT_HEAD_units [538976288] in
     let* l := to_ints (fst c) (snd c) in let* h2 := put_ints h1 (INT_HEAD_units + 1) l in Ok (h2, numberIntsInBytes (snd c) + INT_HEAD_units + 1)) c n E) as K.
  cbv zeta in K. fold size in K. cbn [fst snd] in K. rewrite <- K. unfold ztsInternalHeaderPack. cbv zeta. fold size.
  assert (A0 : exists a, (if profile =? 0 then appendStringToHeader (st_units t) carray 0 size
            else let* a := appendStringToHeader (st_depths t) carray 0 size in
                 appendStringToHeader (st_values t) (fst a) (snd a) size) = Ok a /\ append_all [st_type t; st_zone t] (fst a) (snd a) size = Ok (c, n) /\ 0 <= snd a).
  { unfold srcs_of in E. destruct (profile =? 0); cbn [append_all] in E.
    - destruct (appendStringToHeader (st_units t) carray 0 size) as [a|] eqn:A; cbn [bind] in E; [|discriminate]. pose proof (append_pos _ _ _ _ _ _ A ltac:(lia) eq_refl). exists a. split; [reflexivity|]. split; [exact E|lia].
    - destruct (appendStringToHeader (st_depths t) carray 0 size) as [a|] eqn:A; cbn [bind] in *; [|discriminate]. pose proof (append_pos _ _ _ _ _ _ A ltac:(lia) eq_refl).
      destruct (appendStringToHeader (st_values t) (fst a) (snd a) size) as [b|] eqn:B; cbn [bind] in *; [|discriminate]. pose proof (append_pos _ _ _ _ _ _ B ltac:(lia) eq_refl).
      exists b. split; [reflexivity|]. split; [exact E|lia]. }
  destruct A0 as (a & -> & E1 & P0). cbn [bind]. pose proof (append_all_mono _ _ _ _ _ _ E1 P0). replace (snd a >=? size) with false by lia.
  cbn [append_all] in E1. destruct (appendStringToHeader (st_type t) (fst a) (snd a) size) as [b|] eqn:B; cbn [bind] in *; [|discriminate].
  pose proof (append_pos _ _ _ _ _ _ B P0 eq_refl).
  destruct (appendStringToHeader (st_zone t) (fst b) (snd b) size) as [d|] eqn:D; cbn [bind] in *; [|discriminate].
  pose proof (append_pos _ _ _ _ _ _ D ltac:(lia) eq_refl). destruct d as (d1 & d2). cbn [fst snd] in *. injection E1 as E1 E1'. subst d1 d2.
  replace (snd b >=? size) with false by lia. replace (n >=? size) with false by lia. reflexivity.
Qed.
Lemma unpack_of h number carray c l p : let n := Z.min ((number - 18) * 4) (alen carray) in
  19 <= number -> unitsHavePadding h 17 = Ok true -> (exists b, from_ints (sdrop 18 h) n = Ok b /\ copy_loop (length b) b 0 carray 0 = Ok c) ->
  aget h 3 = Ok p -> assign_all (if p =? 0 then 3 else 4) c 0 = Ok l ->
  exists t, ztsInternalHeaderUnpack h number carray = Ok (Some t) /\ srcs_of t p = l.
Proof.
  intros n HN HP (b & E1 & E2) HD EA. unfold ztsInternalHeaderUnpack. replace (number <? 2) with false by lia. unfold INT_HEAD_units, INT_HEAD_profileDepthsNumber.
  replace (number - 17 <=? 1) with false by lia. rewrite HP. cbn [bind]. change (17 + 1) with 18. replace (number - 17 - 1) with (number - 18) by lia.
  fold n. rewrite E1. cbn [bind]. rewrite E2. cbn [bind]. rewrite HD. cbn [bind]. unfold srcs_of. destruct (p =? 0) eqn:EP; cbn [assign_all] in EA.
  - destruct (assignString c 0) as [u|]; cbn [bind] in *; [|discriminate]. destruct (assignString c (snd u)) as [v|]; cbn [bind] in *; [|discriminate].
    destruct (assignString c (snd v)) as [w|]; cbn [bind] in *; [|discriminate]. injection EA as <-. eexists. split; reflexivity.
  - destruct (assignString c 0) as [u|]; cbn [bind] in *; [|discriminate]. destruct (assignString c (snd u)) as [v|]; cbn [bind] in *; [|discriminate].
    destruct (assignString c (snd v)) as [w|]; cbn [bind] in *; [|discriminate]. destruct (assignString c (snd w)) as [x|]; cbn [bind] in *; [|discriminate].
    injection EA as <-. eexists. split; reflexivity.
Qed.

Lemma packed_small Ps : (2 <= length Ps)%nat -> Forall (fun P => 8 <= slen P + 1) Ps -> slen (packed Ps) <= 200 -> Forall (fun P => slen P < 199) Ps.
Proof.
  intros L F S. apply Forall_forall. intros P HP. destruct (in_split P Ps HP) as (A & B & E). rewrite E in *. rewrite packed_app, packed_cons, slen_app, slen_app, slen_cons in S.
  pose proof (slen_nonneg (packed A)). pose proof (slen_nonneg (packed B)). destruct A as [|x A].
  - destruct B as [|y B]; [cbn in L; lia|]. rewrite packed_cons, slen_app, slen_cons in S. apply Forall_app in F. destruct F as (_ & F). inversion F as [|? ? F1 F2]; subst.
    inversion F2; subst. pose proof (slen_nonneg (packed B)). lia.
  - rewrite packed_cons, slen_app, slen_cons in S. inversion F; subst. pose proof (slen_nonneg (packed A)). lia.
Qed.


(** ** Theorems *)
(** Strings whose rooms add up to at most 200 bytes: the header that is packed has an even number of words, its numbers are those
    given, and unpacking it gives every string back, without its leading and trailing blanks. *)
Theorem C20_header_strings t profile h carray carray2 :
  Forall given_string (srcs_of t profile) -> rooms (srcs_of t profile) <= 200 ->
  68 <= slen h -> nth_error h 3 = Some profile -> slen carray = 300 -> bytes carray -> slen carray2 = 200 ->
  exists h' n, ztsInternalHeaderPack t profile h carray = Ok (h', n) /\
    n mod 2 = 0 /\ 18 < n <= slen h' /\ slen h' = slen h /\ stake 17 h' = stake 17 h /\
    forall more, exists r, ztsInternalHeaderUnpack (stake n h' ++ more) n carray2 = Ok (Some r) /\
      Forall2 read_back (srcs_of t profile) (srcs_of r profile).
Proof.
  intros HG HR HH HP HC HB H2.
  destruct (append_all_spec (srcs_of t profile) [] carray (alen carray - 2) HG) as (Ps & rest & E & F2 & L & B & M & k & K);
    [unfold alen; fold (slen carray); reflexivity|change (slen []) with 0; unfold alen; fold (slen carray); lia|].
  cbn [app] in E, L. change (slen []) with 0 in E. rewrite Z.add_0_l in E. set (n := slen (packed Ps)) in *.
  assert (NS : (2 <= length (srcs_of t profile))%nat) by (unfold srcs_of; destruct (profile =? 0); cbn; lia).
  assert (LF : length (srcs_of t profile) = length Ps) by (clear - F2; induction F2; cbn; congruence).
  assert (FP : Forall (fun P => 8 <= slen P + 1) Ps) by (clear - F2; induction F2 as [|? ? ? ? HP ? IH]; constructor; [destruct HP as (_ & HP & _); lia|exact IH]).
  assert (CP : bytes (packed Ps)).
  { clear - F2. induction F2 as [|? ? ? ? HP ? IH]; [constructor|]. rewrite packed_cons. apply Forall_app. split; [|constructor; [lia|exact IH]].
    destruct HP as (HP & _). eapply Forall_impl; [|exact HP]. cbn. intros; lia. }
  assert (N0 : 0 < n).
  { unfold n. destruct Ps as [|P Ps']; [cbn in LF; lia|]. rewrite packed_cons, slen_app, slen_cons. pose proof (slen_nonneg P). pose proof (slen_nonneg (packed Ps')). lia. }
  pose proof (packed_small Ps ltac:(lia) FP ltac:(lia)) as SM.
  rewrite (pack_of t profile h carray (packed Ps ++ rest) n E) by (unfold alen; fold (slen carray); lia).
  unfold INT_HEAD_units. change (17 + 1) with 18.
  set (k4 := Z.to_nat (n / 4)). assert (N4 : n = 4 * Z.of_nat k4).
  { unfold k4. pose proof (Z.div_mod n 8 ltac:(lia)). rewrite M in H. assert (n / 4 = 2 * (n / 8)) by (symmetry; apply Z.div_unique with (r := 0); lia). lia. }
  assert (K2 : Z.of_nat k4 mod 2 = 0).
  { pose proof (Z.div_mod n 8 ltac:(lia)) as DM. rewrite M in DM. replace (Z.of_nat k4) with ((n / 8) * 2) by lia. apply Z.mod_mul. lia. }
  assert (NI : numberIntsInBytes n = Z.of_nat k4).
  { unfold numberIntsInBytes. replace (0 <? n) with true by lia. rewrite Z.quot_div_nonneg by lia. rewrite N4. replace (4 * Z.of_nat k4 - 1) with (3 + (Z.of_nat k4 - 1) * 4) by lia.
    rewrite Z.div_add by lia. change (3 / 4) with 0. lia. }
  set (l := ints_of_bytes k4 (packed Ps ++ [0; 0; 0; 0])).
  assert (LN : Z.of_nat (length (packed Ps)) = n) by reflexivity.
  assert (TI : to_ints (packed Ps ++ rest) n = Ok l).
  { unfold to_ints, get_prefix. rewrite app_length. replace (n <=? Z.of_nat (length (packed Ps) + length rest)) with true by lia. cbn [bind]. rewrite NI, Nat2Z.id.
    replace (Z.to_nat n) with (length (packed Ps)) by lia. rewrite firstn_app, firstn_all, Nat.sub_diag. cbn [firstn]. rewrite app_nil_r. reflexivity. }
  assert (LL : length l = k4) by apply ints_len.
  assert (BL : bytes_of_ints l = packed Ps).
  { unfold l. rewrite bytes_ints; [|apply Forall_app; split; [exact CP|repeat constructor; lia]|rewrite app_length; cbn [length]; lia].
    replace (4 * k4)%nat with (length (packed Ps)) by lia. rewrite firstn_app, firstn_all, Nat.sub_diag. cbn [firstn]. apply app_nil_r. }
  rewrite TI, NI. clear TI.
  assert (HD : exists A w B C, h = A ++ w :: B ++ C /\ slen A = 17 /\ length B = k4).
  { exists (firstn 17 h). destruct (skipn 17 h) as [|w h1] eqn:SK; [assert (length (skipn 17 h) = 0%nat) by (rewrite SK; reflexivity); rewrite skipn_length in *; unfold slen in HH; lia|].
    assert (length h1 = length h - 18)%nat by (assert (X : length (skipn 17 h) = S (length h1)) by (rewrite SK; reflexivity); rewrite skipn_length in X; lia).
    exists w, (firstn k4 h1), (skipn k4 h1). rewrite !firstn_skipn, <- SK, firstn_skipn. split; [reflexivity|]. unfold slen in *. rewrite !firstn_length. lia. }
  destruct HD as (A & w & Bq & Cq & -> & LA & LB).
  set (W := 538976288). set (h' := A ++ W :: l ++ Cq).
  assert (P1 : put_ints (A ++ w :: Bq ++ Cq) 17 [W] = Ok (A ++ W :: Bq ++ Cq)).
  { unfold put_ints. cbn [length copy_loop]. change (aget [W] 0) with (Ok W). cbn [bind]. rewrite <- LA, aset_slen. reflexivity. }
  assert (P2 : put_ints (A ++ W :: Bq ++ Cq) 18 l = Ok h').
  { unfold put_ints, h'. pose proof (copy_mid l [] (A ++ [W]) Bq Cq ltac:(lia)) as Q. cbn [app] in Q. change (slen []) with 0 in Q. rewrite slen_app, LA in Q.
    change (17 + slen [W]) with 18 in Q. rewrite <- !app_assoc in Q. cbn [app] in Q. exact Q. }
  fold W. rewrite P1. cbn [bind]. rewrite P2. cbn [bind].
  assert (LH' : slen h' = slen (A ++ w :: Bq ++ Cq)) by (unfold h'; rewrite !slen_app, !slen_cons, !slen_app; unfold slen; lia).
  exists h', (Z.of_nat k4 + 17 + 1). split; [reflexivity|].
  assert (LL' : slen l = Z.of_nat k4) by (unfold slen; lia). assert (LBq : slen Bq = Z.of_nat k4) by (unfold slen; lia).
  split; [replace (Z.of_nat k4 + 17 + 1) with (Z.of_nat k4 + 9 * 2) by lia; rewrite Z.mod_add by lia; exact K2|].
  split; [|split; [exact LH'|split]].
  - unfold h'. rewrite slen_app, slen_cons, slen_app. pose proof (slen_nonneg Cq). lia.
  - unfold h'. rewrite <- LA, !stake_app. reflexivity.
  - intros more.
    assert (SH : stake (Z.of_nat k4 + 17 + 1) h' = A ++ W :: l).
    { unfold h'. replace (A ++ W :: l ++ Cq) with ((A ++ W :: l) ++ Cq) by (rewrite <- app_assoc; reflexivity).
      replace (Z.of_nat k4 + 17 + 1) with (slen (A ++ W :: l)) by (rewrite slen_app, slen_cons; lia). apply stake_app. }
    rewrite SH, <- app_assoc. cbn [app].
    destruct (assign_all_spec _ _ F2 [] (sdrop n carray2) SM) as (r & EA & FA). cbn [app] in EA. change (slen []) with 0 in EA.
    destruct (unpack_of (A ++ W :: l ++ more) (Z.of_nat k4 + 17 + 1) carray2 (packed Ps ++ sdrop n carray2) r profile) as (t' & ET & ES).
    + lia.
    + unfold unitsHavePadding. rewrite <- LA. replace (aget (A ++ W :: l ++ more) (slen A)) with (@Ok Z W) by (symmetry; apply CStrProofs.aget_mid). reflexivity.
    + replace (Z.min ((Z.of_nat k4 + 17 + 1 - 18) * 4) (alen carray2)) with n by (unfold alen; fold (slen carray2); lia).
      exists (packed Ps). split.
      * replace (sdrop 18 (A ++ W :: l ++ more)) with (l ++ more).
        -- unfold from_ints, get_prefix. unfold bytes_of_ints. rewrite flat_map_app. fold (bytes_of_ints l). rewrite BL. rewrite app_length.
           replace (n <=? _) with true by lia. f_equal. replace (Z.to_nat n) with (length (packed Ps)) by lia. rewrite firstn_app, firstn_all, Nat.sub_diag. cbn [firstn]. apply app_nil_r.
        -- replace (A ++ W :: l ++ more) with ((A ++ [W]) ++ l ++ more) by (rewrite <- app_assoc; reflexivity). replace 18 with (slen (A ++ [W])) by (rewrite slen_app, LA; reflexivity).
           rewrite sdrop_app. reflexivity.
      * rewrite copy_prefix by (unfold slen in *; lia). rewrite firstn_all. unfold sdrop. replace (Z.to_nat n) with (length (packed Ps)) by lia. reflexivity.
    + unfold h' in *. assert (L3 : (3 < length A)%nat) by (unfold slen in LA; lia). unfold aget. cbn [Z.ltb Z.compare]. change (Z.to_nat 3) with 3%nat.
      rewrite nth_error_app1 in * by exact L3. rewrite HP. reflexivity.
    + replace (if profile =? 0 then 3%nat else 4%nat) with (length (srcs_of t profile)) by (unfold srcs_of; destruct (profile =? 0); reflexivity). exact EA.
    + exists t'. split; [exact ET|]. rewrite ES. exact FA.
Qed.
Print Assumptions C20_header_strings.

Definition strings3 u t z := mkstrings u None None t z.
Definition strings4 d v t z := mkstrings None d v t z.
Example C20_header_strings_example :
  let t := strings3 (Some [67; 70; 83; 32]) (Some [73; 78; 83; 84; 45; 86; 65; 76]) None in
  let h := [1; 0; 0; 0] ++ repeat 7 96 in
  Forall given_string (srcs_of t 0) /\ rooms (srcs_of t 0) <= 200 /\ 68 <= slen h /\ nth_error h 3 = Some 0 /\
  (exists h' n, ztsInternalHeaderPack t 0 h (repeat 255 300) = Ok (h', n) /\ n = 26 /\
   ztsInternalHeaderUnpack (stake n h') n (repeat 255 200) = Ok (Some (strings3 (Some [67; 70; 83]) (Some [73; 78; 83; 84; 45; 86; 65; 76]) None))).
Proof.
  cbv zeta. split; [repeat constructor|]. split; [vm_compute; discriminate|]. split; [vm_compute; discriminate|]. split; [reflexivity|].
  eexists. eexists. split; [vm_compute; reflexivity|]. split; [reflexivity|vm_compute; reflexivity].
Qed.

(** ** What fails without the bound of 200 bytes *)
(** 201 to 297 bytes: the header is packed, but a program that reads it reads past its own array *)
Theorem C20_refuted_read_overrun : exists t h' n, Forall given_string (srcs_of t 0) /\
  ztsInternalHeaderPack t 0 (repeat 0 100) (repeat 255 300) = Ok (h', n) /\ ztsInternalHeaderUnpack (stake n h') n (repeat 255 200) = Undef.
Proof.
  exists (strings3 (Some (repeat 65 250)) None None). eexists. eexists. split; [|split; [vm_compute; reflexivity|vm_compute; reflexivity]].
  cbn. repeat constructor.
Qed.
Print Assumptions C20_refuted_read_overrun.
(** 298 bytes or more: the strings are not stored, and nothing is reported: the header is left as it was, and read back without them *)
Theorem C20_refuted_dropped : exists t h, Forall given_string (srcs_of t 0) /\
  ztsInternalHeaderPack t 0 h (repeat 255 300) = Ok (h, 75) /\
  ztsInternalHeaderUnpack (stake 75 h) 75 (repeat 255 200) = Ok (Some (strings3 None None None)).
Proof.
  exists (strings3 (Some (repeat 65 290)) (Some [73; 78; 83; 84]) None), (repeat 0 100). split; [|split; [vm_compute; reflexivity|vm_compute; reflexivity]].
  cbn. repeat constructor.
Qed.
Print Assumptions C20_refuted_dropped.
(** a profile whose depth units are longer than the 298 bytes available: the second string is written with a wrapped size, past the array *)
Theorem C20_refuted_write_overrun : exists t, Forall given_string (srcs_of t 1) /\
  ztsInternalHeaderPack t 1 ([0; 0; 0; 1] ++ repeat 0 96) (repeat 255 300) = Undef.
Proof.
  exists (strings4 (Some (repeat 65 310)) (Some [70; 84]) None None). split; [cbn; repeat constructor|vm_compute; reflexivity].
Qed.
Print Assumptions C20_refuted_write_overrun.
