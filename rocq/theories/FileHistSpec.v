(** * Runs of the API on a file, described by requests and answers only. *)
From Coq Require Import ZArith List Bool.
From Verif Require Import Base PackModel FileModel FileSpec.
Import ListNotations.
Open Scope Z_scope.

(** A file as zopen creates it: header words, hash table size, bin size, bins per block, detuned hash or not. *)
Definition usable (c : cfg) : Prop :=
  exists hs maxHash binSize bpb detune grow, c = new_cfg hs maxHash binSize bpb detune grow /\
    22 <= hs /\ 2 <= maxHash /\ (detune = true -> 4 <= maxHash) /\ 58 <= binSize <= 1000 /\ 1 <= bpb.

(** Reading [p] in state [s] answers [v] (None: no such record). *)
Definition reads (c : cfg) (s : st) (p : list Z) (v : option content) : Prop :=
  exists s', exec c (Read p) s = Some (Data v, s').

(** The requests covered (see [permitted]), in terms of answers. *)
Definition allowed (c : cfg) (W : Z) (s : st) (o : op) : Prop :=
  match o with
  | Write _ _ x => request_fits x /\ W <= name_words (x_path x) /\
                   (forall ct, reads c s (x_path x) (Some ct) -> odd_request x <= odd_record ct)
  | Read p => name_ok p
  | Delete p => name_ok p /\ name_words p <= W
  | Undelete p => name_ok p /\ reads c s p None
  | Rename old new => name_ok old /\ name_ok new /\ proper new /\ canon old <> canon new /\ W <= name_words new /\
                      (~ reads c s new None -> name_words new <= W)
  | Catalogue | Reopen => True
  end.

(** [run c W s ops s']: the operations [ops], in order, lead from [s] to [s']. *)
Inductive runs (c : cfg) (W : Z) : st -> list op -> st -> Prop :=
| runs_nil s : runs c W s [] s
| runs_cons s o r s1 t s2 : allowed c W s o -> exec c o s = Some (r, s1) -> runs c W s1 t s2 -> runs c W s (o :: t) s2.

(** No operation of the list works on the name [q]. *)
Definition untouched (q : list Z) (ops : list op) : Prop := forall o, In o ops -> ~ In (canon q) (names_of o).
Definition read_only (o : op) : Prop := match o with Read _ | Catalogue | Reopen => True | _ => False end.
