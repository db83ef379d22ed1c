(** * What a user may expect of aliases: a map from names to records and a list of further names. *)
From Coq Require Import ZArith List Bool.
From Verif Require Import Base PackModel FileModel FileSpec AliasModel.
Import ListNotations.
Open Scope Z_scope.

(** Names are in upper case ([canon]).  A record is a data type and its data.  [aka]: (alias, primary name), the
    latest first.  [stale]: an alias name has been looked up last, by a call that does not read the record. *)
Record book := mkbook { recs : list Z -> option (Z * list Z); aka : list (list Z * list Z); stale : bool }.
Definition same (p q : list Z) : bool := if list_eq_dec Z.eq_dec p q then true else false.
Definition primary_of (b : book) (p : list Z) : option (list Z) :=
  option_map snd (find (fun x => same (fst x) p) (aka b)).
(** The name of the record that [p] stands for. *)
Definition resolve (b : book) (p : list Z) : list Z := match primary_of b p with Some q => q | None => p end.
Definition record_of (b : book) (p : list Z) : option (Z * list Z) := recs b (resolve b p).
Definition aliases (b : book) (q : list Z) : list (list Z) := map fst (filter (fun x => same (snd x) q) (aka b)).
Definition put_rec (q : list Z) (v : option (Z * list Z)) (b : book) : book :=
  mkbook (fun p => if same p q then v else recs b p) (aka b) (stale b).
Definition drop_aliases (q : list Z) (b : book) : book := mkbook (recs b) (filter (fun x => negb (same (snd x) q)) (aka b)) (stale b).
Definition drop_alias (p : list Z) (b : book) : book := mkbook (recs b) (filter (fun x => negb (same (fst x) p)) (aka b)) (stale b).
Definition add_alias (p q : list Z) (b : book) : book := mkbook (recs b) ((p, q) :: aka b) (stale b).
Definition clean (b : book) : book := mkbook (recs b) (aka b) false.
Definition looked (p : list Z) (b : book) : book :=
  mkbook (recs b) (aka b) (match primary_of b p with Some _ => true | None => match recs b p with Some _ => false | None => stale b end end).

Inductive aop :=
| AWrite (p : list Z) (type : Z) (data : list Z) | ARead (p : list Z) | ADelete (p : list Z)
| AAdd (primary alias : list Z) | ARemove (p : list Z) | ARemoveAll (p : list Z)
| ANumber (p : list Z) | AList (p : list Z) | APrimary (p : list Z) | ACheck (p : list Z) | AReopen.
Inductive aresp :=
| ADone | AFail | AMissing | AFound | AData (v : Z * list Z) | ACount (n : Z) | ANames (l : list (list Z)) | AName (p : list Z).

(** Running the model; [None]: outside the model. *)
Definition arun {A} (m : P A) (f : A -> aresp) (s : ast) : option (aresp * ast) :=
  match m s with Val x s' => Some (f x, s') | Err s' => Some (AFail, s') | Bad => None end.
Definition aexec (c : dcfg) (o : aop) : ast -> option (aresp * ast) :=
  match o with
  | AWrite p t d => arun (write c p t d) (fun _ => ADone)
  | ARead p => arun (read c p) (fun r => match r with Some v => AData v | None => AMissing end)
  | ADelete p => arun (delete c p) (fun b => if b then ADone else AMissing)
  | AAdd p a => arun (alias_add c p a) (fun _ => ADone)
  | ARemove p => arun (alias_remove c p) (fun b => if b then ADone else AMissing)
  | ARemoveAll p => arun (alias_remove_all c p) (fun r => match r with Some k => ACount k | None => AMissing end)
  | ANumber p => arun (alias_number c p) (fun r => match r with Some k => ACount k | None => AMissing end)
  | AList p => arun (alias_list c p) (fun r => match r with Some l => ANames l | None => AMissing end)
  | APrimary p => arun (get_primary c p) AName
  | ACheck p => arun (check c p 0) (fun b => if b then AFound else AMissing)
  | AReopen => fun s => Some (ADone, reopened s)
  end.

(** What each call may answer and do. *)
Inductive astep (b : book) : aop -> aresp -> book -> Prop :=
(* a write reaches the record, by any of its names *)
| as_write p t d t0 d0 : record_of b (canon p) = Some (t0, d0) -> same_family t0 t ->
    astep b (AWrite p t d) ADone (clean (put_rec (resolve b (canon p)) (Some (t, d)) b))
| as_write_type p t d t0 d0 : record_of b (canon p) = Some (t0, d0) -> ~ same_family t0 t -> astep b (AWrite p t d) AFail (clean b)
| as_write_new p t d : record_of b (canon p) = None -> astep b (AWrite p t d) ADone (put_rec (canon p) (Some (t, d)) b)
(* so does a read *)
| as_read p v : record_of b (canon p) = Some v -> astep b (ARead p) (AData v) (clean b)
| as_read_none p : record_of b (canon p) = None -> astep b (ARead p) AMissing b
(* a delete by any name removes the record and all its aliases *)
| as_delete p v : record_of b (canon p) = Some v ->
    astep b (ADelete p) ADone (clean (put_rec (resolve b (canon p)) None (drop_aliases (resolve b (canon p)) b)))
| as_delete_none p : record_of b (canon p) = None -> astep b (ADelete p) AMissing b
(* a new alias is another name of the record the first name stands for *)
| as_add p a v : record_of b (canon p) = Some v -> record_of b (canon a) = None ->
    astep b (AAdd p a) ADone (clean (add_alias (canon a) (resolve b (canon p)) b))
| as_add_none p a : record_of b (canon p) = None -> astep b (AAdd p a) AFail b
| as_add_used p a v w : record_of b (canon p) = Some v -> record_of b (canon a) = Some w ->
    astep b (AAdd p a) AFail (looked (canon a) (clean b))
(* removing one alias leaves the record and the others *)
| as_remove p q : primary_of b (canon p) = Some q -> astep b (ARemove p) ADone (clean (drop_alias (canon p) b))
| as_remove_none p : primary_of b (canon p) = None -> astep b (ARemove p) AMissing b
| as_remove_all p v : record_of b (canon p) = Some v ->
    astep b (ARemoveAll p) (ACount (Z.of_nat (length (aliases b (resolve b (canon p)))))) (clean (drop_aliases (resolve b (canon p)) b))
| as_remove_all_none p : aliases b (resolve b (canon p)) = [] -> astep b (ARemoveAll p) AMissing b
| as_number p v : record_of b (canon p) = Some v ->
    astep b (ANumber p) (ACount (Z.of_nat (length (aliases b (resolve b (canon p)))))) (clean b)
| as_number_none p : record_of b (canon p) = None -> astep b (ANumber p) AMissing b
| as_list p v l : record_of b (canon p) = Some v -> map canon l = resolve b (canon p) :: aliases b (resolve b (canon p)) ->
    astep b (AList p) (ANames l) (clean b)
| as_list_none p : record_of b (canon p) = None -> astep b (AList p) AMissing b
| as_primary p v q : record_of b (canon p) = Some v -> canon q = resolve b (canon p) -> astep b (APrimary p) (AName q) (looked (canon p) b)
| as_primary_none p : record_of b (canon p) = None -> astep b (APrimary p) AFail b
| as_check p v : record_of b (canon p) = Some v -> astep b (ACheck p) AFound (looked (canon p) b)
| as_check_none p : record_of b (canon p) = None -> astep b (ACheck p) AMissing b
| as_reopen : astep b AReopen ADone (clean b)
(* the defect: after a look-up of an alias, calls that do not find their record may fail *)
| as_stale o p : stale b = true -> record_of b (canon p) = None ->
    In o [ARead p; ADelete p; ARemoveAll p; ANumber p; AList p] -> astep b o AFail b
| as_stale_write p t d : stale b = true -> record_of b (canon p) = None -> astep b (AWrite p t d) AFail b.

(** Names covered: at most 392 bytes; no deleted name longer, and no new name shorter, than [W] words (see C27). *)
Definition aname_ok (p : list Z) : Prop := Z.of_nat (length p) <= 392.
Definition apermitted (W : Z) (b : book) (o : aop) : Prop :=
  match o with
  | AWrite p _ _ => aname_ok p /\ W <= name_words p
  | ADelete p => aname_ok p /\ (forall v, record_of b (canon p) = Some v -> name_words (resolve b (canon p)) <= W)
  | AAdd p a => aname_ok p /\ aname_ok a /\ W <= name_words a
  | ARead p | ARemove p | ARemoveAll p | ANumber p | AList p | APrimary p | ACheck p => aname_ok p
  | AReopen => True
  end.
(** Along a history of permitted calls every answer is one the specification allows. *)
Fixpoint aconforms (c : dcfg) (W : Z) (ops : list aop) (s : ast) (b : book) : Prop :=
  match ops with
  | [] => True
  | o :: t => apermitted W b o -> exists r s' b', aexec c o s = Some (r, s') /\ astep b o r b' /\ aconforms c W t s' b'
  end.
Definition empty_book : book := mkbook (fun _ => None) [] false.
