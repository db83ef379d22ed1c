(** * C54: keyed values in a text are found again. *)
From Coq Require Import ZArith List Lia Bool ZifyBool.
From Verif Require Import Base ArrayLib CStr CStrProofs PackModel PackProps PathSpec FileModel TextModel TextProps HecSpec HecProofs B64Proofs LocProps DelimModel DelimSpec DelimProofs.
Import ListNotations.
Open Scope Z_scope.
Open Scope res_scope.

Lemma keyed_chunks sep d es : keyed sep d es = chunks d (map (entry sep) es).
Proof. unfold keyed, chunks. rewrite map_map. reflexivity. Qed.
Lemma keyed_app sep d a b : keyed sep d (a ++ b) = keyed sep d a ++ keyed sep d b.
Proof. unfold keyed. rewrite map_app, concat_app. reflexivity. Qed.
Lemma keyed_one sep d k v : keyed sep d [(k, v)] = k ++ sep ++ v ++ [d].
Proof. unfold keyed, entry. cbn. rewrite app_nil_r, <- !app_assoc. reflexivity. Qed.
Lemma keyed_nz sep d es : d <> 0 -> Forall (proper_entry sep d) es -> Forall (fun c => c <> 0) (keyed sep d es).
Proof.
  intros D. induction 1 as [|e es (H & _) _ IH]; [constructor|]. unfold keyed. cbn [map concat]. apply Forall_app. split; [|exact IH]. apply Forall_app. split; [|repeat constructor; exact D].
  eapply Forall_impl; [|exact H]. cbn. intros c (A & _). exact A.
Qed.
Lemma keyed_last sep d es : es = [] \/ last (keyed sep d es) 0 = d.
Proof.
  destruct es as [|e0 es0]; [left; reflexivity|right]. destruct (exists_last (l := e0 :: es0) ltac:(discriminate)) as (l & e & ->). rewrite keyed_app. unfold keyed at 2. cbn [map concat]. rewrite app_nil_r, app_assoc. apply last_last.
Qed.
Lemma free_chunks sep k es : key_free sep k es -> Forall (fun e => ~ occurs (k ++ sep) e) (map (entry sep) es).
Proof. intros H. apply Forall_map. exact H. Qed.
Lemma proper_parts sep d k v : proper_entry sep d (k, v) -> v <> [] /\ Forall (fun c => c <> 0 /\ c <> d) v /\ Forall (fun c => c <> 0 /\ c <> d) (k ++ sep) /\ ~ In d (k ++ sep).
Proof.
  intros (H & V). unfold entry in H. cbn [fst snd] in *. rewrite app_assoc in H. apply Forall_app in H. destruct H as (H1 & H2). split; [exact V|]. split; [exact H2|]. split; [exact H1|].
  intros I. rewrite Forall_forall in H1. apply H1 in I. tauto.
Qed.

(** ** Finding a value *)

(** The value of a key is found, whatever follows; nothing is changed. *)
Theorem C54_get : forall sep d k v pre post buf, d <> 0 -> Forall (proper_entry sep d) (pre ++ (k, v) :: post) -> k ++ sep <> [] -> key_free sep k pre ->
  holds buf (keyed sep d (pre ++ (k, v) :: post)) -> extractFromDelimitedString buf k (Some sep) true false d = Ok (Some (v ++ [0]), buf).
Proof.
  intros sep d k v pre post buf D PE NE KF (NZ & J & ->). rewrite Forall_app in PE. destruct PE as (P1 & P2). inversion P2 as [|? ? P3 P4]; subst. destruct (proper_parts _ _ _ _ P3) as (V1 & V2 & V3 & V4).
  assert (E : keyed sep d (pre ++ (k, v) :: post) = keyed sep d pre ++ (k ++ sep) ++ v ++ d :: keyed sep d post).
  { rewrite keyed_app. f_equal. change ((k, v) :: post) with ([(k, v)] ++ post). rewrite keyed_app, keyed_one, <- !app_assoc. reflexivity. }
  pose proof (cstr_in_buf _ J NZ) as C. rewrite E in *. rewrite <- !app_assoc in *. cbn [app] in *. rewrite (app_assoc k) in *.
  rewrite (extract_at (keyed sep d pre) (k ++ sep) (k ++ sep) v d d (keyed sep d post ++ 0 :: J) k sep true false eq_refl eq_refl V1 V2 (or_intror eq_refl) _ C).
  - reflexivity.
  - rewrite keyed_chunks. rewrite strstr_chunks by (try assumption; apply free_chunks, KF). rewrite ?(app_assoc k), strstr_here. f_equal. lia.
Qed.
Print Assumptions C54_get.

(** A key that is not there is not found. *)
Theorem C54_absent : forall sep d k es buf rm, ~ In d (k ++ sep) -> k ++ sep <> [] -> key_free sep k es -> holds buf (keyed sep d es) ->
  extractFromDelimitedString buf k (Some sep) true rm d = Ok (None, buf).
Proof.
  intros sep d k es buf rm ND NE KF (NZ & J & ->). unfold extractFromDelimitedString. rewrite cstr_in_buf by exact NZ. cbn [bind]. rewrite keyed_chunks.
  rewrite <- (app_nil_r (chunks d (map (entry sep) es))) at 1. rewrite strstr_chunks by (try assumption; apply free_chunks, KF). rewrite strstr_none_nil by exact NE. reflexivity.
Qed.
Print Assumptions C54_absent.

Lemma lower_delim d c : ~ (65 <= d <= 90) -> ~ (97 <= d <= 122) -> tolower c = d -> c = d.
Proof. unfold tolower. intros. destruct ((65 <=? c) && (c <=? 90)) eqn:E; lia. Qed.
(** Without regard to case, the first entry that matches is found. *)
Theorem C54_get_any_case : forall sep d k k' v pre post buf, d <> 0 -> ~ (65 <= d <= 90) -> ~ (97 <= d <= 122) -> Forall (proper_entry sep d) (pre ++ (k, v) :: post) -> k ++ sep <> [] ->
  map tolower k' = map tolower k -> Forall (fun e => ~ occurs (map tolower (k ++ sep)) (map tolower (entry sep e))) pre ->
  holds buf (keyed sep d (pre ++ (k, v) :: post)) -> extractFromDelimitedString buf k' (Some sep) false false d = Ok (Some (v ++ [0]), buf).
Proof.
  intros sep d k k' v pre post buf D D1 D2 PE NE KK KF (NZ & J & ->). rewrite Forall_app in PE. destruct PE as (P1 & P2). inversion P2 as [|? ? P3 P4]; subst. destruct (proper_parts _ _ _ _ P3) as (V1 & V2 & V3 & V4).
  assert (E : keyed sep d (pre ++ (k, v) :: post) = keyed sep d pre ++ (k ++ sep) ++ v ++ d :: keyed sep d post).
  { rewrite keyed_app. f_equal. change ((k, v) :: post) with ([(k, v)] ++ post). rewrite keyed_app, keyed_one, <- !app_assoc. reflexivity. }
  assert (LK : slen k' = slen k) by (apply (f_equal (@length Z)) in KK; rewrite !map_length in KK; unfold slen; lia).
  assert (ML : map tolower (k' ++ sep) = map tolower (k ++ sep)) by (rewrite !map_app, KK; reflexivity).
  assert (F : dss_strcasestr (keyed sep d (pre ++ (k, v) :: post)) (k' ++ sep) = Some (slen (keyed sep d pre))).
  { unfold dss_strcasestr. apply casestr_lower.
    - rewrite ML, E, map_app. rewrite keyed_chunks.
      assert (MC : forall l, map tolower (chunks d l) = chunks d (map (map tolower) l)).
      { induction l as [|e l IH]; [reflexivity|]. unfold chunks in *. cbn [map concat]. rewrite !map_app, IH. cbn [map]. replace (tolower d) with d by (unfold tolower; replace ((65 <=? d) && (d <=? 90)) with false by lia; reflexivity). reflexivity. }
      rewrite MC. rewrite strstr_chunks.
      + rewrite map_app, strstr_here. f_equal. rewrite <- MC. unfold slen. rewrite map_length. lia.
      + intros Q. apply map_eq_nil in Q. exact (NE Q).
      + intros I. apply in_map_iff in I. destruct I as (x & Q & I). apply (lower_delim d x D1 D2) in Q. subst. exact (V4 I).
      + rewrite map_map. apply Forall_map. exact KF.
    - rewrite E. rewrite !slen_app, slen_cons, LK. pose proof (slen_nonneg (keyed sep d pre)). pose proof (slen_nonneg (keyed sep d post)). assert (0 < slen v) by (destruct v; [congruence|unfold slen; cbn [length]; lia]). lia. }
  pose proof (cstr_in_buf _ J NZ) as C. assert (E' : keyed sep d (pre ++ (k, v) :: post) ++ 0 :: J = keyed sep d pre ++ (k ++ sep) ++ v ++ d :: keyed sep d post ++ 0 :: J) by (rewrite E, <- !app_assoc; reflexivity).
  rewrite E' in *. apply (extract_at (keyed sep d pre) (k' ++ sep) (k ++ sep) v d d (keyed sep d post ++ 0 :: J) k' sep false false eq_refl ltac:(rewrite !slen_app; lia) V1 V2 (or_intror eq_refl) _ C F).
Qed.
Print Assumptions C54_get_any_case.

(** The last entry may also lack its delimiter: the value runs to the end of the text. *)
Theorem C54_get_last : forall sep d k v pre buf, d <> 0 -> Forall (proper_entry sep d) (pre ++ [(k, v)]) -> k ++ sep <> [] -> key_free sep k pre ->
  holds buf (keyed sep d pre ++ entry sep (k, v)) -> extractFromDelimitedString buf k (Some sep) true false d = Ok (Some (v ++ [0]), buf).
Proof.
  intros sep d k v pre buf D PE NE KF (NZ & J & ->). rewrite Forall_app in PE. destruct PE as (P1 & P2). inversion P2 as [|? ? P3 P4]; subst. destruct (proper_parts _ _ _ _ P3) as (V1 & V2 & V3 & V4).
  assert (E : keyed sep d pre ++ entry sep (k, v) = keyed sep d pre ++ (k ++ sep) ++ v) by (unfold entry; cbn [fst snd]; rewrite <- !app_assoc; reflexivity).
  pose proof (cstr_in_buf _ J NZ) as C. rewrite E in *. rewrite <- !app_assoc in *. cbn [app] in *. rewrite (app_assoc k) in *.
  rewrite (extract_at (keyed sep d pre) (k ++ sep) (k ++ sep) v d 0 J k sep true false eq_refl eq_refl V1 V2 (or_introl eq_refl) _ C).
  - reflexivity.
  - rewrite keyed_chunks. rewrite strstr_chunks by (try assumption; apply free_chunks, KF). rewrite ?(app_assoc k), strstr_here. f_equal. lia.
Qed.
Print Assumptions C54_get_last.
Theorem C54_get_last_any_case : forall sep d k k' v pre buf, d <> 0 -> ~ (65 <= d <= 90) -> ~ (97 <= d <= 122) -> Forall (proper_entry sep d) (pre ++ [(k, v)]) -> k ++ sep <> [] ->
  map tolower k' = map tolower k -> Forall (fun e => ~ occurs (map tolower (k ++ sep)) (map tolower (entry sep e))) pre ->
  holds buf (keyed sep d pre ++ entry sep (k, v)) -> extractFromDelimitedString buf k' (Some sep) false false d = Ok (Some (v ++ [0]), buf).
Proof.
  intros sep d k k' v pre buf D D1 D2 PE NE KK KF (NZ & J & ->). rewrite Forall_app in PE. destruct PE as (P1 & P2). inversion P2 as [|? ? P3 P4]; subst. destruct (proper_parts _ _ _ _ P3) as (V1 & V2 & V3 & V4).
  assert (E : keyed sep d pre ++ entry sep (k, v) = keyed sep d pre ++ (k ++ sep) ++ v) by (unfold entry; cbn [fst snd]; rewrite <- !app_assoc; reflexivity).
  assert (LK : slen k' = slen k) by (apply (f_equal (@length Z)) in KK; rewrite !map_length in KK; unfold slen; lia).
  assert (ML : map tolower (k' ++ sep) = map tolower (k ++ sep)) by (rewrite !map_app, KK; reflexivity).
  pose proof (cstr_in_buf _ J NZ) as C. rewrite E in *.
  assert (F : dss_strcasestr (keyed sep d pre ++ (k ++ sep) ++ v) (k' ++ sep) = Some (slen (keyed sep d pre))).
  { unfold dss_strcasestr. apply casestr_lower.
    - rewrite ML, map_app. rewrite keyed_chunks.
      assert (MC : forall l, map tolower (chunks d l) = chunks d (map (map tolower) l)).
      { induction l as [|e l IH]; [reflexivity|]. unfold chunks in *. cbn [map concat]. rewrite !map_app, IH. cbn [map]. replace (tolower d) with d by (unfold tolower; replace ((65 <=? d) && (d <=? 90)) with false by lia; reflexivity). reflexivity. }
      rewrite MC. rewrite strstr_chunks.
      + rewrite map_app, strstr_here. f_equal. rewrite <- MC. unfold slen. rewrite map_length. lia.
      + intros Q. apply map_eq_nil in Q. exact (NE Q).
      + intros I. apply in_map_iff in I. destruct I as (x & Q & I). apply (lower_delim d x D1 D2) in Q. subst. exact (V4 I).
      + rewrite map_map. apply Forall_map. exact KF.
    - rewrite !slen_app, LK. pose proof (slen_nonneg (keyed sep d pre)). assert (0 < slen v) by (destruct v; [congruence|unfold slen; cbn [length]; lia]). lia. }
  assert (E' : (keyed sep d pre ++ (k ++ sep) ++ v) ++ 0 :: J = keyed sep d pre ++ (k ++ sep) ++ v ++ 0 :: J) by (rewrite <- !app_assoc; reflexivity).
  rewrite E' in *. apply (extract_at (keyed sep d pre) (k' ++ sep) (k ++ sep) v d 0 J k' sep false false eq_refl ltac:(rewrite !slen_app; lia) V1 V2 (or_introl eq_refl) _ C F).
Qed.
Print Assumptions C54_get_last_any_case.

(** ** Removing *)
Lemma remove_ok sep d k v pre u buf stop : (stop = d /\ d <> 0 \/ stop = 0 /\ u = []) -> v <> [] -> Forall (fun c => c <> 0 /\ c <> d) v -> Forall (fun c => c <> 0 /\ c <> d) (k ++ sep) -> k ++ sep <> [] -> key_free sep k pre ->
  Forall (fun c => c <> 0) (keyed sep d pre) -> Forall (fun c => c <> 0) u ->
  forall J, buf = keyed sep d pre ++ (k ++ sep) ++ v ++ (if stop =? 0 then 0 :: J else d :: u ++ 0 :: J) ->
  extractFromDelimitedString buf k (Some sep) true true d = Ok (Some (v ++ [0]), keyed sep d pre ++ u ++ 0 :: sdrop (slen u + 1) (sdrop (slen (keyed sep d pre)) buf)).
Proof.
  intros S V1 V2 V3 NE KF NZ NU J ->. assert (ND : ~ In d (k ++ sep)) by (intros I; rewrite Forall_forall in V3; apply V3 in I; tauto).
  assert (NV : Forall (fun c => c <> 0) v /\ Forall (fun c => c <> 0) (k ++ sep)) by (split; (eapply Forall_impl; [|eassumption]; cbn; tauto)).
  destruct S as [(-> & D)|(-> & ->)].
  - replace (d =? 0) with false by lia.
    assert (C : cstr (keyed sep d pre ++ (k ++ sep) ++ v ++ d :: u ++ 0 :: J) = Ok (keyed sep d pre ++ (k ++ sep) ++ v ++ d :: u)).
    { replace (keyed sep d pre ++ (k ++ sep) ++ v ++ d :: u ++ 0 :: J) with ((keyed sep d pre ++ (k ++ sep) ++ v ++ d :: u) ++ 0 :: J) by (rewrite <- !app_assoc; reflexivity). apply cstr_in_buf.
      apply Forall_app; split; [assumption|]. apply Forall_app; split; [tauto|]. apply Forall_app; split; [tauto|]. constructor; assumption. }
    rewrite (extract_at (keyed sep d pre) (k ++ sep) (k ++ sep) v d d (u ++ 0 :: J) k sep true true eq_refl eq_refl V1 V2 (or_intror eq_refl) _ C).
    + replace (d =? 0) with false by lia. cbn [negb]. rewrite cstr_in_buf by exact NU. cbn [bind]. f_equal. f_equal. rewrite sdrop_app. rewrite <- !app_assoc. cbn [app]. rewrite slen_app. reflexivity.
    + rewrite keyed_chunks. rewrite strstr_chunks by (try assumption; apply free_chunks, KF). rewrite ?(app_assoc k), strstr_here. f_equal. lia.
  - change (0 =? 0) with true. cbv iota.
    assert (C : cstr (keyed sep d pre ++ (k ++ sep) ++ v ++ 0 :: J) = Ok (keyed sep d pre ++ (k ++ sep) ++ v)).
    { replace (keyed sep d pre ++ (k ++ sep) ++ v ++ 0 :: J) with ((keyed sep d pre ++ (k ++ sep) ++ v) ++ 0 :: J) by (rewrite <- !app_assoc; reflexivity). apply cstr_in_buf. apply Forall_app; split; [assumption|]. apply Forall_app; split; tauto. }
    rewrite (extract_at (keyed sep d pre) (k ++ sep) (k ++ sep) v d 0 J k sep true true eq_refl eq_refl V1 V2 (or_introl eq_refl) _ C).
    + change (negb (0 =? 0)) with false. cbv iota. cbn [bind]. rewrite sdrop_app. reflexivity.
    + rewrite keyed_chunks. rewrite strstr_chunks by (try assumption; apply free_chunks, KF). rewrite ?(app_assoc k), strstr_here. f_equal. lia.
Qed.
Theorem C54_remove : forall sep d k v pre post buf, d <> 0 -> Forall (proper_entry sep d) (pre ++ (k, v) :: post) -> k ++ sep <> [] -> key_free sep k pre ->
  holds buf (keyed sep d (pre ++ (k, v) :: post)) -> exists buf', extractFromDelimitedString buf k (Some sep) true true d = Ok (Some (v ++ [0]), buf') /\
  holds buf' (keyed sep d (pre ++ post)) /\ slen buf' = slen buf.
Proof.
  intros sep d k v pre post buf D PE NE KF (NZ & J & ->). pose proof PE as PE'. rewrite Forall_app in PE. destruct PE as (P1 & P2). inversion P2 as [|? ? P3 P4]; subst. destruct (proper_parts _ _ _ _ P3) as (V1 & V2 & V3 & V4).
  assert (E : keyed sep d (pre ++ (k, v) :: post) ++ 0 :: J = keyed sep d pre ++ (k ++ sep) ++ v ++ (if d =? 0 then 0 :: J else d :: keyed sep d post ++ 0 :: J)).
  { replace (d =? 0) with false by lia. rewrite keyed_app, <- app_assoc. f_equal. change ((k, v) :: post) with ([(k, v)] ++ post). rewrite keyed_app, keyed_one, <- !app_assoc. reflexivity. }
  rewrite (remove_ok sep d k v pre (keyed sep d post) _ d (or_introl (conj eq_refl D)) V1 V2 V3 NE KF (keyed_nz _ _ _ D P1) (keyed_nz _ _ _ D P4) J E).
  eexists. split; [reflexivity|]. rewrite (keyed_app sep d pre post). split.
  - split; [apply Forall_app; split; apply keyed_nz; assumption|]. eexists. rewrite <- app_assoc. reflexivity.
  - rewrite E. rewrite sdrop_app. replace (d =? 0) with false by lia. rewrite !slen_app, !slen_cons, !slen_app, slen_cons.
    match goal with |- context [sdrop ?n ?l] => replace (slen (sdrop n l)) with (slen l - n) end.
    + rewrite !slen_app, !slen_cons, !slen_app, slen_cons. lia.
    + unfold sdrop, slen. rewrite skipn_length. rewrite !app_length. cbn [length]. rewrite !app_length. cbn [length]. lia.
Qed.
Print Assumptions C54_remove.

(** ** Setting a value *)
Lemma put_stop text buf len size : size <= len -> put_text text buf len size = Ok (buf, len).
Proof. intros H. destruct text; cbn [put_text]; [reflexivity|]. replace (len <? size) with false by lia. reflexivity. Qed.
Lemma put_text_app a b buf len size : put_text (a ++ b) buf len size = (let* '(x, y) := put_text a buf len size in put_text b x y size).
Proof.
  revert buf len. induction a as [|c a IH]; intros buf len; cbn [app put_text bind]; [reflexivity|]. destruct (len <? size) eqn:E.
  - destruct (aset buf len c); [|reflexivity]. cbn [bind]. apply IH.
  - cbn [bind]. rewrite put_stop by lia. reflexivity.
Qed.
Lemma stake_slen n t : slen (stake n t) = Z.max 0 (Z.min n (slen t)).
Proof. unfold stake, slen. rewrite firstn_length. lia. Qed.
Lemma drop_drop (l : list Z) a b : 0 <= a -> 0 <= b -> sdrop a (sdrop b l) = sdrop (b + a) l.
Proof.
  intros A B. unfold sdrop. rewrite Z2Nat.inj_add by assumption. generalize (Z.to_nat a) as m, (Z.to_nat b) as n. clear. intros m n. revert l. induction n as [|n IH]; intros l; [reflexivity|]. destruct l; cbn [skipn Nat.add]; [apply skipn_nil|apply IH].
Qed.
(** what the end of insertIntoDelimitedString does *)
Definition finish (buf : list Z) (size : Z) (k sep v : list Z) (d : Z) : res (Z * list Z) :=
  let* s := cstr buf in
  let len := slen s in
  let* c := (if len >? 0 then aget buf (len - 1) else Ok d) in
  let* '(buf, len) := (if negb (c =? d) then let* b := aset buf len d in Ok (b, len + 1) else Ok (buf, len)) in
  let* '(buf, len) := put_text k buf len size in
  let* '(buf, len) := put_text sep buf len size in
  let* '(buf, len) := put_text v buf len size in
  if len >? size - 2 then Ok (-1, buf) else
  let* buf := aset buf len d in
  let* buf := aset buf (len + 1) 0 in
  Ok (0, buf).
Lemma finish_ok T J size k sep v d : Forall (fun c => c <> 0) T -> (T = [] \/ last T 0 = d) -> size <= slen (T ++ 0 :: J) ->
  let W := k ++ sep ++ v in
  finish (T ++ 0 :: J) size k sep v d =
  if slen T + slen W <=? size - 2 then Ok (0, T ++ W ++ d :: 0 :: sdrop (slen W + 2) (0 :: J))
  else Ok (-1, T ++ stake (size - slen T) W ++ sdrop (slen (stake (size - slen T) W)) (0 :: J)).
Proof.
  intros NZ L SZ W. unfold finish. rewrite cstr_in_buf by exact NZ. cbn [bind].
  assert (C : (if slen T >? 0 then aget (T ++ 0 :: J) (slen T - 1) else Ok d) = Ok d).
  { destruct (slen T >? 0) eqn:E; [|reflexivity]. destruct L as [->|L]; [discriminate E|]. destruct (exists_last (l := T) ltac:(intros ->; discriminate E)) as (T' & x & ->). rewrite last_last in L. subst x.
    rewrite <- app_assoc. cbn [app]. apply aget_app_at. rewrite slen_app. change (slen [d]) with 1. lia. }
  rewrite C. cbn [bind]. rewrite Z.eqb_refl. cbn [negb bind].
  assert (P : forall (K : list Z * Z -> res (Z * list Z)), (let* '(buf, len) := put_text k (T ++ 0 :: J) (slen T) size in let* '(buf, len) := put_text sep buf len size in let* x := put_text v buf len size in K x) = (let* x := put_text W (T ++ 0 :: J) (slen T) size in K x)).
  { intros K. unfold W. rewrite !put_text_app. destruct (put_text k _ _ _) as [(b1 & l1)|]; [|reflexivity]. cbn [bind]. rewrite put_text_app. destruct (put_text sep _ _ _) as [(b2 & l2)|]; reflexivity. }
  rewrite P. rewrite slen_app, slen_cons in SZ. rewrite put_text_ok by (rewrite stake_slen, slen_cons; pose proof (slen_nonneg J); lia). cbn [bind]. rewrite stake_slen. pose proof (slen_nonneg T). pose proof (slen_nonneg W). pose proof (slen_nonneg J).
  destruct (slen T + slen W <=? size - 2) eqn:E.
  - replace (slen T + Z.max 0 (Z.min (size - slen T) (slen W)) >? size - 2) with false by lia. replace (Z.max 0 (Z.min (size - slen T) (slen W))) with (slen W) by lia. rewrite stake_all by lia.
    set (X := sdrop (slen W) (0 :: J)). assert (LX : slen X = slen J + 1 - slen W) by (unfold X, sdrop, slen in *; rewrite skipn_length; cbn [length]; lia).
    assert (EX : sdrop (slen W + 2) (0 :: J) = sdrop 2 X).
    { unfold X. rewrite drop_drop by lia. reflexivity. }
    rewrite EX. destruct X as [|x [|y X]]; [cbn in LX; lia|change (slen [x]) with 1 in LX; lia|]. change (sdrop 2 (x :: y :: X)) with X. clear EX LX.
    rewrite app_assoc. rewrite aset_at by (rewrite slen_app; reflexivity). cbn [bind]. replace ((T ++ W) ++ d :: y :: X) with (((T ++ W) ++ [d]) ++ y :: X) by (rewrite <- !app_assoc; reflexivity).
    rewrite aset_at by (rewrite !slen_app; reflexivity). cbn [bind]. f_equal. f_equal. rewrite <- !app_assoc. reflexivity.
  - replace (slen T + Z.max 0 (Z.min (size - slen T) (slen W)) >? size - 2) with true by lia. reflexivity.
Qed.
Lemma insert_new sep d k v buf size ow : extractFromDelimitedString buf k (Some sep) true false d = Ok (None, buf) ->
  insertIntoDelimitedString buf size k (Some v) (Some sep) ow d = finish buf size k sep v d.
Proof. intros E. unfold insertIntoDelimitedString. rewrite E. reflexivity. Qed.
Lemma insert_old sep d k v buf size x y b : extractFromDelimitedString buf k (Some sep) true false d = Ok (Some x, buf) -> extractFromDelimitedString buf k (Some sep) true true d = Ok (y, b) ->
  insertIntoDelimitedString buf size k (Some v) (Some sep) true d = finish b size k sep v d.
Proof. intros E F. unfold insertIntoDelimitedString. rewrite E. cbn [bind]. rewrite F. reflexivity. Qed.
Lemma keyed_last' sep d es : keyed sep d es = [] \/ last (keyed sep d es) 0 = d.
Proof. destruct (keyed_last sep d es) as [->|H]; [left; reflexivity|right; exact H]. Qed.
Lemma keyed_snoc sep d es k v : keyed sep d (es ++ [(k, v)]) = keyed sep d es ++ (k ++ sep ++ v) ++ [d].
Proof. rewrite keyed_app, keyed_one, <- !app_assoc. reflexivity. Qed.

(** A new key is added at the end when there is room for its entry and the NUL. *)
Theorem C54_set_new : forall sep d k v es buf size ow, d <> 0 -> Forall (proper_entry sep d) (es ++ [(k, v)]) -> k ++ sep <> [] -> key_free sep k es ->
  holds buf (keyed sep d es) -> size <= slen buf -> slen (keyed sep d (es ++ [(k, v)])) + 1 <= size ->
  exists buf', insertIntoDelimitedString buf size k (Some v) (Some sep) ow d = Ok (0, buf') /\ holds buf' (keyed sep d (es ++ [(k, v)])).
Proof.
  intros sep d k v es buf size ow D PE NE KF H SZ FIT. pose proof PE as PE'. rewrite Forall_app in PE. destruct PE as (P1 & P2). inversion P2 as [|? ? P3 _]; subst. destruct (proper_parts _ _ _ _ P3) as (_ & _ & _ & ND).
  rewrite (insert_new sep d k v buf size ow) by (eapply C54_absent; eassumption). destruct H as (NZ & J & ->). rewrite finish_ok by (try assumption; apply keyed_last').
  rewrite keyed_snoc, !slen_app in FIT. change (slen [d]) with 1 in FIT. rewrite !slen_app. replace (slen (keyed sep d es) + _ <=? size - 2) with true by lia. eexists. split; [reflexivity|]. split; [apply keyed_nz; assumption|].
  eexists. rewrite keyed_snoc, <- !app_assoc. reflexivity.
Qed.
Print Assumptions C54_set_new.
(** An existing key gets the new value, at the end; the other entries keep theirs. *)
Theorem C54_set_old : forall sep d k v0 v pre post buf size, d <> 0 -> Forall (proper_entry sep d) (pre ++ (k, v0) :: post) -> proper_entry sep d (k, v) -> k ++ sep <> [] -> key_free sep k pre ->
  holds buf (keyed sep d (pre ++ (k, v0) :: post)) -> size <= slen buf -> slen (keyed sep d (pre ++ post ++ [(k, v)])) + 1 <= size ->
  exists buf', insertIntoDelimitedString buf size k (Some v) (Some sep) true d = Ok (0, buf') /\ holds buf' (keyed sep d (pre ++ post ++ [(k, v)])).
Proof.
  intros sep d k v0 v pre post buf size D PE PV NE KF H SZ FIT. destruct (C54_remove sep d k v0 pre post buf D PE NE KF H) as (b & ER & (NZ & J & ->) & LB).
  rewrite (insert_old sep d k v buf size _ _ _ (C54_get sep d k v0 pre post buf D PE NE KF H) ER). rewrite finish_ok by first [assumption|apply keyed_last'|lia].
  rewrite app_assoc in *. rewrite keyed_snoc, !slen_app in FIT. change (slen [d]) with 1 in FIT. rewrite !slen_app. replace (slen (keyed sep d (pre ++ post)) + _ <=? size - 2) with true by lia. eexists. split; [reflexivity|]. split.
  - apply keyed_nz; [assumption|]. rewrite Forall_app in PE. destruct PE as (P1 & P2). inversion P2; subst. apply Forall_app; split; [assumption|]. apply Forall_app; split; [assumption|]. constructor; [exact PV|constructor].
  - eexists. rewrite (app_assoc pre), keyed_snoc, <- !app_assoc. reflexivity.
Qed.
Print Assumptions C54_set_old.
(** An existing value is kept when it is not to be replaced. *)
Theorem C54_kept : forall sep d k v0 v pre post buf size, d <> 0 -> Forall (proper_entry sep d) (pre ++ (k, v0) :: post) -> k ++ sep <> [] -> key_free sep k pre ->
  holds buf (keyed sep d (pre ++ (k, v0) :: post)) -> insertIntoDelimitedString buf size k v (Some sep) false d = Ok (0, buf).
Proof. intros. unfold insertIntoDelimitedString. erewrite C54_get by eassumption. reflexivity. Qed.
Print Assumptions C54_kept.

(** ** The vertical datum of a location *)
Lemma realloc_ok (fresh : Z -> list Z) t J n : (forall k, slen (fresh k) = Z.max 0 k) -> slen t + 1 <= n ->
  exists J2, stake n ((t ++ 0 :: J) ++ fresh (n - slen (t ++ 0 :: J))) = t ++ 0 :: J2 /\ slen (t ++ 0 :: J2) = n.
Proof.
  intros F L. pose proof (slen_nonneg t). pose proof (slen_nonneg J). set (r := fresh (n - slen (t ++ 0 :: J))). assert (LR : slen r = Z.max 0 (n - slen (t ++ 0 :: J))) by apply F. rewrite slen_app, slen_cons in LR.
  replace ((t ++ 0 :: J) ++ r) with (t ++ 0 :: (J ++ r)) by (rewrite <- app_assoc; reflexivity). exists (stake (n - slen t - 1) (J ++ r)). split.
  - unfold stake. rewrite firstn_app. rewrite firstn_all2 by (unfold slen in *; lia). f_equal. replace (Z.to_nat n - length t)%nat with (S (Z.to_nat (n - slen t - 1))) by (unfold slen in *; lia). reflexivity.
  - rewrite slen_app, slen_cons, stake_slen, slen_app. lia.
Qed.
Definition info_text (c : list Z) : Prop := c <> [] /\ Forall (fun x => x <> 0 /\ x <> 59) c.
Lemma vdi_proper c : info_text c -> proper_entry [58] 59 (VDI, c).
Proof. intros (N & H). split; [|exact N]. unfold entry. cbn [fst snd]. rewrite app_assoc. apply Forall_app. split; [repeat constructor; cbv; intuition congruence|exact H]. Qed.
Lemma D59 : 59 <> 0.
Proof. discriminate. Qed.
Lemma vdi_parts : Forall (fun c => c <> 0 /\ c <> 59) (VDI ++ [58]).
Proof. repeat constructor; cbv; intuition congruence. Qed.

(** A location whose supplemental text has no vertical datum information yet gets it, whatever else is there. *)
Theorem C54_assign_new : forall fresh es supplemental c, (forall k, slen (fresh k) = Z.max 0 k) -> Forall (proper_entry [58] 59) es -> key_free [58] VDI es -> info_text c ->
  holds supplemental (keyed [58] 59 es) -> exists b, assign_vdi fresh supplemental c = Ok (0, b) /\ holds b (keyed [58] 59 (es ++ [(VDI, c)])).
Proof.
  intros fresh es supplemental c F PE KF IT H. unfold assign_vdi. assert (ND : ~ In 59 (VDI ++ [58])) by (cbn; intuition discriminate).
  pose proof H as (NZ & J & EB). assert (CS : cstr supplemental = Ok (keyed [58] 59 es)) by (rewrite EB; apply cstr_in_buf, NZ). rewrite CS. cbn [bind]. rewrite (insert_new [58] 59 VDI c supplemental) by (eapply C54_absent; [exact ND|discriminate|exact KF|exact H]). rewrite EB. clear EB H CS supplemental.
  pose proof (slen_nonneg J). pose proof (slen_nonneg (keyed [58] 59 es)). rewrite finish_ok by first [assumption|apply keyed_last'|rewrite slen_app, slen_cons; lia].
  replace (_ <=? slen (keyed [58] 59 es) - 2) with false by (pose proof (slen_nonneg (VDI ++ [58] ++ c)); lia). replace (stake (slen (keyed [58] 59 es) - slen (keyed [58] 59 es)) (VDI ++ [58] ++ c)) with (@nil Z) by (rewrite Z.sub_diag; reflexivity).
  cbn [app]. change (slen []) with 0. change (sdrop 0 (0 :: J)) with (0 :: J). cbn [bind]. change (-1 =? 0) with false. cbv iota. rewrite cstr_in_buf by exact NZ. cbn [bind].
  destruct (realloc_ok fresh (keyed [58] 59 es) J (slen (keyed [58] 59 es) + 17 + slen c + 3) F) as (J2 & -> & L2); [pose proof (slen_nonneg c); lia|].
  apply C54_set_new; try assumption; try discriminate.
  - apply Forall_app. split; [exact PE|]. constructor; [apply vdi_proper, IT|constructor].
  - split; [exact NZ|]. exists J2. reflexivity.
  - rewrite L2. lia.
  - rewrite keyed_snoc, !slen_app. change (slen VDI) with 17. change (slen [58]) with 1. change (slen [59]) with 1. lia.
Qed.
Print Assumptions C54_assign_new.
Ltac sl := repeat first [rewrite slen_app|rewrite slen_cons]; change (slen VDI) with 17; change (slen []) with 0.
(** One that has it already gets the new one instead, and keeps all its other entries. *)
Theorem C54_assign_old : forall fresh pre v0 post supplemental c, (forall k, slen (fresh k) = Z.max 0 k) -> Forall (proper_entry [58] 59) (pre ++ (VDI, v0) :: post) ->
  key_free [58] VDI pre -> key_free [58] VDI post -> info_text c ->
  holds supplemental (keyed [58] 59 (pre ++ (VDI, v0) :: post)) -> exists b, assign_vdi fresh supplemental c = Ok (0, b) /\ holds b (keyed [58] 59 (pre ++ post ++ [(VDI, c)])).
Proof.
  intros fresh pre v0 post supplemental c F PE K1 K2 IT H. unfold assign_vdi. set (K := keyed [58] 59) in *. set (n := slen (K (pre ++ (VDI, v0) :: post))).
  assert (KA : key_free [58] VDI (pre ++ post)) by (apply Forall_app; split; assumption).
  assert (PA : Forall (proper_entry [58] 59) (pre ++ post)) by (rewrite Forall_app in PE; destruct PE as (P1 & P2); inversion P2; subst; apply Forall_app; split; assumption).
  assert (P0 : proper_entry [58] 59 (VDI, v0)) by (rewrite Forall_app in PE; destruct PE as (P1 & P2); inversion P2; assumption). destruct (proper_parts _ _ _ _ P0) as (V1 & V2 & _ & _).
  assert (CS : cstr supplemental = Ok (K (pre ++ (VDI, v0) :: post))) by (destruct H as (NZ & J & ->); apply cstr_in_buf, NZ). rewrite CS. cbn [bind]. fold n.
  assert (NS : n <= slen supplemental) by (destruct H as (NZ & J & ->); rewrite slen_app, slen_cons; pose proof (slen_nonneg J); unfold n; lia).
  assert (NK : n = slen (K (pre ++ post)) + 19 + slen v0).
  { unfold n, K. rewrite !keyed_app. change ((VDI, v0) :: post) with ([(VDI, v0)] ++ post). rewrite keyed_app, keyed_one, !slen_app. change (slen VDI) with 17. change (slen [58]) with 1. change (slen [59]) with 1. lia. }
  assert (L0 : 0 < slen v0) by (destruct v0; [congruence|unfold slen; cbn [length]; lia]). pose proof (slen_nonneg c) as C0. pose proof (slen_nonneg (K (pre ++ post))) as T0.
  assert (KS : K (pre ++ post ++ [(VDI, c)]) = K (pre ++ post) ++ (VDI ++ [58] ++ c) ++ [59]) by (unfold K; rewrite (app_assoc pre), keyed_snoc; reflexivity).
  assert (LW : slen (VDI ++ [58] ++ c) = 18 + slen c) by (rewrite !slen_app; change (slen VDI) with 17; change (slen [58]) with 1; lia).
  destruct (Z_le_gt_dec (slen (K (pre ++ post ++ [(VDI, c)])) + 1) n) as [FIT|NF].
  - destruct (C54_set_old [58] 59 VDI v0 c pre post supplemental n ltac:(lia) PE (vdi_proper c IT) ltac:(discriminate) K1 H NS FIT) as (b & -> & HB). cbn [bind]. change (0 =? 0) with true. cbv iota. exists b. split; [reflexivity|exact HB].
  - rewrite KS in NF. rewrite (slen_app (K (pre ++ post))), (slen_app (VDI ++ [58] ++ c)), LW in NF. change (slen [59]) with 1 in NF.
    pose proof H as (NZ & J & EB).
    assert (E : supplemental = K pre ++ (VDI ++ [58]) ++ v0 ++ (if 59 =? 0 then 0 :: J else 59 :: K post ++ 0 :: J)).
    { rewrite EB. unfold K. rewrite keyed_app, <- app_assoc. f_equal. change ((VDI, v0) :: post) with ([(VDI, v0)] ++ post). rewrite keyed_app, keyed_one, <- !app_assoc. reflexivity. }
    assert (NP : Forall (fun c => c <> 0) (K pre) /\ Forall (fun c => c <> 0) (K post)).
    { rewrite Forall_app in PA. destruct PA. split; (apply keyed_nz; [discriminate|assumption]). }
    pose proof (remove_ok [58] 59 VDI v0 pre (K post) supplemental 59 (or_introl (conj eq_refl D59)) V1 V2 vdi_parts ltac:(discriminate) K1 (proj1 NP) (proj2 NP) J E) as RM.
    rewrite (insert_old [58] 59 VDI c supplemental n _ _ _ (C54_get [58] 59 VDI v0 pre post supplemental ltac:(lia) PE ltac:(discriminate) K1 H) RM).
    fold K. set (Y := sdrop (slen (K pre)) supplemental). assert (EY : Y = (VDI ++ [58]) ++ v0 ++ 59 :: K post ++ 0 :: J) by (unfold Y; rewrite E at 1; apply sdrop_app).
    assert (LY : slen Y = 20 + slen v0 + slen (K post) + slen J) by (rewrite EY; sl; lia).
    replace (K pre ++ K post ++ 0 :: sdrop (slen (K post) + 1) Y) with (K (pre ++ post) ++ 0 :: sdrop (slen (K post) + 1) Y) by (unfold K; rewrite keyed_app, <- app_assoc; reflexivity).
    pose proof (slen_nonneg (K post)) as P0'. pose proof (slen_nonneg J) as J0.
    assert (LS : forall m l, 0 <= m <= slen l -> slen (sdrop m l) = slen l - m) by (intros m l M; unfold sdrop, slen in *; rewrite skipn_length; lia).
    rewrite finish_ok.
    2: { apply keyed_nz; [lia|exact PA]. } 2: { apply keyed_last'. } 2: { rewrite slen_app, slen_cons, LS by lia. lia. }
    rewrite LW. replace (slen (K (pre ++ post)) + (18 + slen c) <=? n - 2) with false by lia. cbn [bind]. change (-1 =? 0) with false. cbv iota.
    replace (n - slen (K (pre ++ post))) with (19 + slen v0) by lia. rewrite stake_slen, LW.
    assert (DC : forall m, 1 <= m -> sdrop m (0 :: sdrop (slen (K post) + 1) Y) = sdrop (slen (K post) + m) Y).
    { intros m M. assert (Q : forall l, sdrop m (0 :: l) = sdrop (m - 1) l) by (intros l; unfold sdrop; replace (Z.to_nat m) with (S (Z.to_nat (m - 1))) by lia; reflexivity). rewrite Q, drop_drop by lia. f_equal. lia. }
    assert (NT : Forall (fun c => c <> 0) (K (pre ++ post))) by (apply keyed_nz; [lia|exact PA]). destruct IT as (IT1 & IT2).
    destruct (Z_le_gt_dec (19 + slen v0) (18 + slen c)) as [BIG|SM].
    + (* cut in the value *)
      replace (Z.max 0 (Z.min (19 + slen v0) (18 + slen c))) with (19 + slen v0) by lia. rewrite DC by lia.
      assert (EJ : sdrop (slen (K post) + (19 + slen v0)) Y = 0 :: J).
      { rewrite EY. replace ((VDI ++ [58]) ++ v0 ++ 59 :: K post ++ 0 :: J) with (((VDI ++ [58]) ++ v0 ++ 59 :: K post) ++ 0 :: J) by (rewrite <- !app_assoc; reflexivity). apply sdrop_app2. sl. lia. }
      rewrite EJ. set (v1 := stake (slen v0 + 1) c).
      assert (EW : stake (19 + slen v0) (VDI ++ [58] ++ c) = (VDI ++ [58]) ++ v1).
      { rewrite app_assoc. unfold stake. rewrite firstn_app. rewrite firstn_all2 by (unfold slen in *; cbn [length app VDI]; lia). f_equal. unfold v1, stake. f_equal. change (length (VDI ++ [58])) with 18%nat. lia. }
      rewrite EW. assert (LV1 : slen v1 = slen v0 + 1) by (unfold v1; rewrite stake_slen; lia). assert (V1' : v1 <> []) by (intros Q; rewrite Q in LV1; change (slen []) with 0 in LV1; lia).
      assert (V2' : Forall (fun x => x <> 0 /\ x <> 59) v1).
      { unfold v1, stake. rewrite Forall_forall in *. intros x I. apply IT2. rewrite <- (firstn_skipn (Z.to_nat (slen v0 + 1)) c). apply in_or_app. left. exact I. }
      assert (NV1 : Forall (fun x => x <> 0) v1) by (eapply Forall_impl; [|exact V2']; cbn; tauto). assert (NVP : Forall (fun x => x <> 0) (VDI ++ [58])) by (eapply Forall_impl; [|exact vdi_parts]; cbn; tauto).
      set (t := K (pre ++ post) ++ (VDI ++ [58]) ++ v1). assert (NZt : Forall (fun x => x <> 0) t) by (unfold t; apply Forall_app; split; [exact NT|apply Forall_app; split; assumption]).
      replace (K (pre ++ post) ++ ((VDI ++ [58]) ++ v1) ++ 0 :: J) with (t ++ 0 :: J) by (unfold t; rewrite <- !app_assoc; reflexivity). rewrite cstr_in_buf by exact NZt. cbn [bind].
      assert (LT : slen t = slen (K (pre ++ post)) + 19 + slen v0) by (unfold t; rewrite !slen_app, LV1; change (slen VDI) with 17; change (slen [58]) with 1; lia).
      destruct (realloc_ok fresh t J (slen t + 17 + slen c + 3) F) as (J2 & -> & L2); [lia|].
      assert (E2 : t ++ 0 :: J2 = K (pre ++ post) ++ (VDI ++ [58]) ++ v1 ++ (if 0 =? 0 then 0 :: J2 else 59 :: [] ++ 0 :: J2)) by (unfold t; rewrite <- !app_assoc; reflexivity).
      pose proof (remove_ok [58] 59 VDI v1 (pre ++ post) [] (t ++ 0 :: J2) 0 (or_intror (conj eq_refl eq_refl)) V1' V2' vdi_parts ltac:(discriminate) KA NT (Forall_nil _) J2 E2) as RM2.
      assert (GT : extractFromDelimitedString (t ++ 0 :: J2) VDI (Some [58]) true false 59 = Ok (Some (v1 ++ [0]), t ++ 0 :: J2)).
      { rewrite E2. change (0 =? 0) with true. cbv iota. assert (C2 : cstr (K (pre ++ post) ++ (VDI ++ [58]) ++ v1 ++ 0 :: J2) = Ok t) by (change (K (pre ++ post) ++ (VDI ++ [58]) ++ v1 ++ 0 :: J2) with (K (pre ++ post) ++ (VDI ++ [58]) ++ v1 ++ (if 0 =? 0 then 0 :: J2 else 59 :: [] ++ 0 :: J2)); rewrite <- E2; apply cstr_in_buf, NZt).
        apply (extract_at (K (pre ++ post)) (VDI ++ [58]) (VDI ++ [58]) v1 59 0 J2 VDI [58] true false eq_refl eq_refl V1' V2' (or_introl eq_refl) t C2).
        unfold t, K. rewrite keyed_chunks. rewrite strstr_chunks; [|discriminate|cbn; intuition discriminate|apply free_chunks, KA]. rewrite strstr_here. f_equal. lia. }
      rewrite (insert_old [58] 59 VDI c _ _ _ _ _ GT RM2). fold K. cbn [app]. rewrite finish_ok.
      2: { exact NT. } 2: { apply keyed_last'. } 2: { sl. replace (sdrop (slen (K (pre ++ post))) (t ++ 0 :: J2)) with ((VDI ++ [58]) ++ v1 ++ 0 :: J2) by (unfold t; rewrite <- !app_assoc, sdrop_app; reflexivity).
        rewrite LS by (sl; pose proof (slen_nonneg J2); lia). rewrite <- L2. unfold t. sl. lia. }
      rewrite LW. replace (slen (K (pre ++ post)) + (18 + slen c) <=? slen t + 17 + slen c + 3 - 2) with true by lia. eexists. split; [reflexivity|]. rewrite KS. split.
      * apply Forall_app; split; [exact NT|]. apply Forall_app; split; [|repeat constructor; lia]. rewrite app_assoc. apply Forall_app; split; [exact NVP|]. eapply Forall_impl; [|exact IT2]. cbn. tauto.
      * eexists. rewrite <- !app_assoc. reflexivity.
    + (* just as long as before: the old delimiter ends the new entry *)
      assert (SV : slen c = slen v0) by lia. replace (Z.max 0 (Z.min (19 + slen v0) (18 + slen c))) with (18 + slen v0) by lia. rewrite DC by lia. rewrite stake_all by lia.
      assert (EJ : sdrop (slen (K post) + (18 + slen v0)) Y = 59 :: 0 :: J).
      { rewrite EY. destruct (keyed_last' [58] 59 post) as [Q|Q]; fold K in Q.
        - rewrite Q. cbn [app]. rewrite !(app_comm_cons) || idtac. rewrite app_assoc. apply sdrop_app2. rewrite !slen_app. change (slen VDI) with 17. change (slen [58]) with 1. change (slen []) with 0. lia.
        - destruct (K post) as [|q0 qs] eqn:EQ; [cbn in Q; lia|]. destruct (exists_last (l := q0 :: qs) ltac:(discriminate)) as (qs' & q & EL). rewrite EL in *. rewrite last_last in Q. subst q.
          replace ((VDI ++ [58]) ++ v0 ++ 59 :: (qs' ++ [59]) ++ 0 :: J) with (((VDI ++ [58]) ++ v0 ++ 59 :: qs') ++ 59 :: 0 :: J) by (rewrite <- !app_assoc; cbn [app]; rewrite <- ?app_assoc; reflexivity).
          apply sdrop_app2. sl. lia. }
      rewrite EJ. set (t := K (pre ++ post ++ [(VDI, c)])). assert (PT : Forall (proper_entry [58] 59) ((pre ++ post) ++ [(VDI, c)])) by (apply Forall_app; split; [exact PA|constructor; [apply vdi_proper; split; assumption|constructor]]).
      assert (NZt : Forall (fun x => x <> 0) t) by (unfold t; rewrite (app_assoc pre); apply keyed_nz; [lia|exact PT]).
      replace (K (pre ++ post) ++ (VDI ++ [58] ++ c) ++ 59 :: 0 :: J) with (t ++ 0 :: J) by (unfold t; rewrite KS, <- !app_assoc; reflexivity). rewrite cstr_in_buf by exact NZt. cbn [bind].
      destruct (realloc_ok fresh t J (slen t + 17 + slen c + 3) F) as (J2 & -> & L2); [pose proof (slen_nonneg t); lia|].
      destruct (C54_set_old [58] 59 VDI c c (pre ++ post) [] (t ++ 0 :: J2) (slen t + 17 + slen c + 3) ltac:(lia) PT (vdi_proper c (conj IT1 IT2)) ltac:(discriminate) KA) as (b & EI & HB).
      * split; [rewrite <- (app_assoc pre); exact NZt|]. exists J2. unfold t. rewrite (app_assoc pre). reflexivity.
      * lia.
      * cbn [app]. fold K. rewrite <- (app_assoc pre). fold t. lia.
      * exists b. split; [exact EI|]. cbn [app] in HB. fold K in HB. rewrite <- (app_assoc pre) in HB. exact HB.
Qed.
Print Assumptions C54_assign_old.

(** A location without a supplemental text gets one. *)
Theorem C54_assign_first : forall c, info_text c -> exists b, assign_vdi_new c = Ok (0, b) /\ holds b (keyed [58] 59 [(VDI, c)]).
Proof.
  intros c IT. unfold assign_vdi_new. pose proof (slen_nonneg c). replace (Z.to_nat (17 + slen c + 3)) with (S (Z.to_nat (17 + slen c + 2))) by lia. apply (C54_set_new [58] 59 VDI c []); try discriminate; try constructor.
  - apply vdi_proper, IT.
  - constructor.
  - constructor.
  - exists (repeat 0 (Z.to_nat (17 + slen c + 2))). reflexivity.
  - unfold slen. rewrite repeat_length || cbn [repeat length]. cbn [length]. rewrite ?repeat_length. lia.
  - cbn [app]. rewrite keyed_one. sl. lia.
Qed.
Print Assumptions C54_assign_first.

(** ** A text in a user header *)
Lemma before_nul_app s k : Forall (fun c => c <> 0) s -> before_nul (s ++ repeat 0 k) = s.
Proof. induction 1 as [|c s H _ IH]; cbn; [destruct k; reflexivity|]. replace (c =? 0) with false by lia. f_equal. exact IH. Qed.
Theorem C54_header : forall s rest, c_text s -> exists h, stringToUserHeader (s ++ 0 :: rest) = Ok h /\ cstr (userHeaderToString h) = Ok s.
Proof.
  intros s rest CT. unfold stringToUserHeader. rewrite cstr_in_buf by (apply c_nz, CT). cbn [bind]. pose proof (slen_nonneg s). destruct (slen s =? 0) eqn:E.
  - destruct s as [|x s]; [|rewrite slen_cons in *; pose proof (slen_nonneg s); lia]. exists []. split; reflexivity.
  - destruct (to_ints_back (s ++ [0]) (slen s)) as (h & EH & LH & BH).
    { apply Forall_app. split; [apply c_bytes, CT|repeat constructor; lia]. } { rewrite slen_app. change (slen [0]) with 1. lia. }
    exists h. split; [exact EH|]. unfold userHeaderToString. rewrite BH, stake_app. rewrite before_nul_app by (apply c_nz, CT). destruct (ints_bytes (slen s) ltac:(lia)) as (Q1 & Q2).
    unfold zlen in LH. unfold slen at 1. replace ((Z.of_nat (length h) >? 0) && (slen s >? 0)) with true by lia. unfold slen at 1. replace (Z.to_nat (Z.of_nat (length h) * 4 + 1 - slen s)) with (S (Z.to_nat (Z.of_nat (length h) * 4 - slen s))) by lia.
    cbn [repeat]. apply cstr_in_buf, c_nz, CT.
Qed.
Print Assumptions C54_header.

(** ** The hypotheses are met *)
Definition notes : list (list Z * list Z) := [([111], [109; 101]); (VDI, [65; 66; 67]); ([117], [102; 116])].
Definition fresh0 (n : Z) : list Z := repeat 170 (Z.to_nat n).
Example C54_example : Forall (proper_entry [58] 59) notes /\ key_free [58] VDI [([111], [109; 101])] /\ key_free [58] VDI [([117], [102; 116])] /\ (forall k, slen (fresh0 k) = Z.max 0 k) /\
  assign_vdi fresh0 (keyed [58] 59 notes ++ [0]) [65; 65; 65; 65; 65] = Ok (0, keyed [58] 59 [([111], [109; 101]); ([117], [102; 116]); (VDI, [65; 65; 65; 65; 65])] ++ 0 :: repeat 170 22) /\
  assign_vdi fresh0 (keyed [58] 59 notes ++ [0]) [88; 89; 90] = Ok (0, keyed [58] 59 [([111], [109; 101]); ([117], [102; 116]); (VDI, [88; 89; 90])] ++ 0 :: repeat 170 22) /\
  extractFromDelimitedString (keyed [58] 59 notes ++ [0]) [86; 69; 82; 84; 73; 67; 65; 76; 68; 65; 84; 85; 77; 73; 78; 70; 79] (Some [58]) false false 59 = Ok (Some [65; 66; 67; 0], keyed [58] 59 notes ++ [0]).
Proof.
  split; [|split; [|split; [|split; [|split; [|split; vm_compute; reflexivity]]]]].
  - repeat constructor; cbn; intuition congruence.
  - constructor; [|constructor]. intros (a & b & Q). apply (f_equal (@length Z)) in Q. rewrite !app_length in Q. cbn in Q. lia.
  - constructor; [|constructor]. intros (a & b & Q). apply (f_equal (@length Z)) in Q. rewrite !app_length in Q. cbn in Q. lia.
  - intros k. unfold fresh0, slen. rewrite repeat_length. lia.
  - vm_compute. reflexivity.
Qed.
Example C54_header_example : stringToUserHeader [97; 98; 99; 32; 101; 0] = Ok [543384161; 101] /\ userHeaderToString [543384161; 101] = [97; 98; 99; 32; 101; 0; 0; 0; 0].
Proof. split; vm_compute; reflexivity. Qed.

(** ** What goes wrong *)

(** "myunit:ft;unit:m;" : the value of "unit" is that of "myunit". *)
Theorem C54_refuted_key : let es := [([109; 121; 117; 110; 105; 116], [102; 116]); ([117; 110; 105; 116], [109])] in Forall (proper_entry [58] 59) es /\
  extractFromDelimitedString (keyed [58] 59 es ++ [0]) [117; 110; 105; 116] (Some [58]) true false 59 = Ok (Some [102; 116; 0], keyed [58] 59 es ++ [0]).
Proof. split; [repeat constructor; cbn; intuition congruence|vm_compute; reflexivity]. Qed.
Print Assumptions C54_refuted_key.
(** "a:;b:2;" : the empty value of "a" takes the entry that follows with it; "a:" at the end of its memory is read past the end. *)
Theorem C54_refuted_empty : extractFromDelimitedString [97; 58; 59; 98; 58; 50; 59; 0] [97] (Some [58]) true true 59 = Ok (Some [59; 98; 58; 50; 0], [0; 58; 59; 98; 58; 50; 59; 0]) /\
  extractFromDelimitedString [97; 58; 0] [97] (Some [58]) true false 59 = Undef.
Proof. split; vm_compute; reflexivity. Qed.
Print Assumptions C54_refuted_empty.
(** A call that fails for want of room leaves a text without its NUL, or part of the new value in place of the old. *)
Theorem C54_refuted_no_room : (exists b, insertIntoDelimitedString [97; 58; 49; 59; 0; 0; 0; 0] 8 [98; 98] (Some [51; 51; 51; 51]) (Some [58]) true 59 = Ok (-1, b) /\ cstr b = Undef) /\
  (exists b, insertIntoDelimitedString [97; 58; 49; 49; 59; 0] 5 [97] (Some [51; 52; 53; 54; 55]) (Some [58]) true 59 = Ok (-1, b) /\ extractFromDelimitedString b [97] (Some [58]) true false 59 = Ok (Some [51; 52; 53; 0], b)).
Proof. split; [exists [97; 58; 49; 59; 98; 98; 58; 51]|exists [97; 58; 51; 52; 53; 0]]; split; vm_compute; reflexivity. Qed.
Print Assumptions C54_refuted_no_room.
(** A supplemental text that does not end with the delimiter ("note"): storing a series with a vertical datum reads past its end. *)
Theorem C54_refuted_note : assign_vdi fresh0 [110; 111; 116; 101; 0] [65; 66] = Undef.
Proof. vm_compute. reflexivity. Qed.
Print Assumptions C54_refuted_note.
