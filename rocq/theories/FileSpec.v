(** * Specification of a DSS file as a map from names to records.
    Nothing here refers to bins, chains, addresses or any other part of the file layout; only the API of
    [FileModel] (requests, contents, the operations) is used. *)
From Coq Require Import ZArith List Bool.
From Verif Require Import Base PackModel FileModel.
Import ListNotations.
Open Scope Z_scope.

(** Names are compared without regard to the case of the letters a-z. *)
Definition canon_char (ch : Z) : Z := if (97 <=? ch) && (ch <=? 122) then ch - 32 else ch.
Definition canon (p : list Z) : list Z := map canon_char p.

(** The content a write stores: what the next read must return. *)
Definition stored (x : xfer) : content :=
  mkcontent (x_type x) (x_ih x) (x_h2 x) (x_uh x) (x_v1 x) (x_v2 x) (x_v3 x)
    (Z.max 0 (x_num x)) (if 0 <? x_logical x then x_logical x else Z.max 0 (x_num x)).

(** A file: the records by canonical name, and the contents that were deleted under each name. *)
Record file := mkfile { records : list Z -> option content; trash : list Z -> content -> Prop }.
Definition empty_file : file := mkfile (fun _ => None) (fun _ _ => False).
Definition set (f : list Z -> option content) (q : list Z) (v : option content) : list Z -> option content :=
  fun q' => if list_eq_dec Z.eq_dec q' q then v else f q'.

Inductive op :=
| Write (now : Z) (prog : Z * Z) (x : xfer)
| Read (p : list Z)
| Delete (p : list Z)
| Undelete (p : list Z)
| Rename (old new : list Z)
| Catalogue
| Reopen.
Inductive resp := Done | Refused | Data (ct : option content) | Found (b : bool) | Names (l : list (list Z)).

(** Run an operation; [None] is undefined behaviour. *)
Definition exec (c : cfg) (o : op) (s : st) : option (resp * st) :=
  match o with
  | Write now prog x => match zwriteInternal c now prog x s with OK _ s' => Some (Done, s') | ERR s' => Some (Refused, s') | UB => None end
  | Read p => match zreadInternal c p s with OK r s' => Some (Data r, s') | ERR s' => Some (Refused, s') | UB => None end
  | Delete p => match zdeleteInternal c p false s with OK b s' => Some (Found b, s') | ERR s' => Some (Refused, s') | UB => None end
  | Undelete p => match zdeleteInternal c p true s with OK b s' => Some (Found b, s') | ERR s' => Some (Refused, s') | UB => None end
  | Rename old new => match zrename c old new s with OK b s' => Some (Found b, s') | ERR s' => Some (Refused, s') | UB => None end
  | Catalogue => match zcatalog c s with OK l s' => Some (Names l, s') | ERR s' => Some (Refused, s') | UB => None end
  | Reopen => Some (Done, reopen s)
  end.

(** A catalogue entry has its trailing blanks removed; names that end with a blank are excluded from the claim. *)
Definition no_trailing_blank (p : list Z) : Prop := last p 0 <> 32.
Definition same_family (old new : Z) : Prop :=
  old = new \/ (old = 100 /\ new = 105) \/ (old = 105 /\ new = 100) \/ (old = 110 /\ new = 115) \/ (old = 115 /\ new = 110).

(** What each operation may answer and do. *)
Inductive step (f : file) : op -> resp -> file -> Prop :=
| step_write now prog x :
    (forall ct, records f (canon (x_path x)) = Some ct -> same_family (ct_type ct) (x_type x)) ->
    step f (Write now prog x) Done (mkfile (set (records f) (canon (x_path x)) (Some (stored x))) (trash f))
| step_write_refused now prog x ct : (* a record of another data type is not overwritten *)
    records f (canon (x_path x)) = Some ct -> ~ same_family (ct_type ct) (x_type x) ->
    step f (Write now prog x) Refused f
| step_read p : step f (Read p) (Data (records f (canon p))) f
| step_delete p ct : records f (canon p) = Some ct ->
    step f (Delete p) (Found true)
      (mkfile (set (records f) (canon p) None) (fun q ct' => trash f q ct' \/ (q = canon p /\ ct' = ct)))
| step_delete_none p : records f (canon p) = None -> step f (Delete p) (Found false) f
| step_undelete p ct : records f (canon p) = None -> trash f (canon p) ct ->
    step f (Undelete p) (Found true) (mkfile (set (records f) (canon p) (Some ct)) (trash f))
| step_undelete_none p : step f (Undelete p) (Found false) f
| step_rename old new ct : canon old <> canon new -> records f (canon old) = Some ct ->
    step f (Rename old new) (Found true)
      (mkfile (set (set (records f) (canon old) None) (canon new) (Some ct))
              (fun q ct' => trash f q ct' \/ (q = canon new /\ records f q = Some ct')))
| step_rename_none old new : canon old <> canon new -> records f (canon old) = None ->
    (* the record under the new name, if any, is gone: see C25 *)
    step f (Rename old new) (Found false)
      (mkfile (set (records f) (canon new) None)
              (fun q ct' => trash f q ct' \/ (q = canon new /\ records f q = Some ct')))
| step_catalogue l :
    ((forall p, records f (canon p) <> None -> no_trailing_blank p) ->
     NoDup (map canon l) /\ forall p, In (canon p) (map canon l) <-> records f (canon p) <> None) ->
    step f Catalogue (Names l) f
| step_reopen : step f Reopen Done f.

(** ** Requests covered by the theorems *)

(** A name of a record: at most 392 bytes, and not one whose E part is of the form xMIN or xxMIN. *)
Definition name_ok (p : list Z) : Prop := Z.of_nat (length p) <= 392 /\ (forall b, In b p -> 0 <= b < 256) /\ ztsPathCompatible p = None.
(** A pathname as the library writes it: seven slashes, the last one at the end, no NUL. *)
Definition proper (p : list Z) : Prop := count_occ Z.eq_dec p 47 = 7%nat /\ last p 0 = 47 /\ ~ In 0 p.
(** Words of eight bytes the name takes in the directory. *)
Definition name_words (p : list Z) : Z := (Z.of_nat (length p) + 7) / 8.
(** Number of headers whose length is odd. *)
Definition odd_length (l : list Z) : Z := Z.of_nat (length l) mod 2.
Definition odd_request (x : xfer) : Z := odd_length (x_ih x) + odd_length (x_h2 x) + odd_length (x_uh x).
Definition odd_record (ct : content) : Z := odd_length (ct_ih ct) + odd_length (ct_h2 ct) + odd_length (ct_uh ct).
Definition request_fits (x : xfer) : Prop :=
  name_ok (x_path x) /\ - 2 ^ 31 <= x_type x < 2 ^ 31 /\
  (forall l, In l [x_ih x; x_h2 x; x_uh x; x_v1 x; x_v2 x; x_v3 x] -> (forall v, In v l -> - 2 ^ 31 <= v < 2 ^ 31) /\ Z.of_nat (length l) <= 10000000).

(** A record is not rewritten with more odd-length headers than it has (see C23 for why).
    [W]: no deleted name is longer, and no created name is shorter, than [W] words (see C27 for why). *)
Definition permitted (W : Z) (f : file) (o : op) : Prop :=
  match o with
  | Write _ _ x => request_fits x /\ W <= name_words (x_path x) /\
                   (forall ct, records f (canon (x_path x)) = Some ct -> odd_request x <= odd_record ct)
  | Read p => name_ok p
  | Delete p => name_ok p /\ name_words p <= W
  | Undelete p => name_ok p /\ records f (canon p) = None
  | Rename old new => name_ok old /\ name_ok new /\ proper new /\ canon old <> canon new /\ W <= name_words new /\
                      (records f (canon new) <> None -> name_words new <= W)
  | Catalogue | Reopen => True
  end.

(** Along a history, every permitted operation has a defined outcome that the map specification allows. *)
Fixpoint conforms (c : cfg) (W : Z) (ops : list op) (s : st) (f : file) : Prop :=
  match ops with
  | [] => True
  | o :: t => permitted W f o -> exists r s' f', exec c o s = Some (r, s') /\ step f o r f' /\ conforms c W t s' f'
  end.

(** ** Crashes *)

(** The file after the first [k] disk writes issued on the way from [s] to [s'], opened by a new process. *)
Definition issued (s s' : st) : list wr := skipn (length (s_log s)) (s_log s').
Definition crash (s s' : st) (k : nat) : st :=
  let im := fold_left apply_wr (firstn k (issued s s')) (s_disk s, s_dhdr s) in
  mkst (fst im) (snd im) [] (snd im) empty_ifl.
(** Names an operation works on. *)
Definition names_of (o : op) : list (list Z) :=
  match o with
  | Write _ _ x => [canon (x_path x)]
  | Delete p | Undelete p => [canon p]
  | Rename old new => [canon old; canon new]
  | Read _ | Catalogue | Reopen => []
  end.
