(** Specification vocabulary for data containers. *)
From Verif Require Import PyBase PyNum AttrRep AttrRepSpec Value Container.

(** JSON-like data: scalars, lists and objects with distinct string keys. *)
Inductive json : value -> Prop :=
| json_none : json VNone
| json_bool b : json (VBool b)
| json_int z : json (VInt z)
| json_float f : json (VFloat f)
| json_str s : json (VStr s)
| json_list l : Forall json l -> json (VList l)
| json_dict d : NoDup (map fst d) -> Forall (fun e => exists s, fst e = KStr s) d ->
                Forall (fun e => json (snd e)) d -> json (VDict d).

(** Values that arise by loading JSON documents into containers, assigning
    such values to attribute names, and deleting attribute names. *)
Inductive reach : value -> Prop :=
| reach_json v : json v -> reach v
| reach_list l : Forall reach l -> reach (VList l)
| reach_missing : reach VMissing
| reach_empty : reach (mk_cont VNone)
| reach_load d : json (VDict d) -> reach (mk_cont (VDict d))
| reach_set c r x c' : reach c -> reach x -> set_item c r x = Ok c' -> reach c'
| reach_del c r c' : reach c -> del_item c r = Ok c' -> reach c'.

(** The container knows a name equal to [s] up to letter case. *)
Definition has_key (c : value) (s : str) : Prop :=
  match c with VCont _ l2o => exists k, sget (lower s) l2o = Some k | _ => False end.

(** Where the container knows the name, it is spelled [s]. *)
Definition spelled (c : value) (s : str) : Prop :=
  match c with VCont _ l2o => forall k, sget (lower s) l2o = Some k -> k = s | _ => True end.

(** No container inside the value has a key that is the empty string. *)
Inductive named : value -> Prop :=
| named_atom v : match v with VList _ | VDict _ | VCont _ _ => False | _ => True end -> named v
| named_list l : Forall named l -> named (VList l)
| named_dict d : named (VDict d)
| named_cont data l2o : ~ has_key (VCont data l2o) [] -> Forall (fun e => named (snd e)) data ->
                        named (VCont data l2o).

(** Attribute representations that AttrRep.parse or the constructor with a
    valid sub-attribute produce. *)
Definition attr_ok (a : str) : Prop := word a \/ a = $"$ref".
Definition rep_ok (r : attr_rep) : Prop := attr_ok (r_attr r) /\ (r_sub r = [] \/ attr_ok (r_sub r)).

(** Same name up to letter case. *)
Definition same_name (r r' : attr_rep) : Prop :=
  same_text (r_schema r) (r_schema r') /\ same_text (r_attr r) (r_attr r') /\ same_text (r_sub r) (r_sub r').

(** Item-wise overlay of a written list over the previously read list. *)
Fixpoint overlay (xs old : list value) : list value :=
  match xs, old with
  | x :: xs', o :: old' => (match x with VMissing => o | _ => x end) :: overlay xs' old'
  | [], _ => old
  | _, [] => xs
  end.

(** A read that finds nothing: Missing, or a list of Missing. *)
Definition nothing (v : value) : Prop := v = VMissing \/ exists n, v = VList (repeat VMissing n).

(** The Missing marker is stored nowhere inside the value. *)
Inductive no_missing : value -> Prop :=
| nm_atom v : match v with VList _ | VDict _ | VCont _ _ => False | _ => True end -> no_missing v
| nm_list l : Forall (fun x => x <> VMissing /\ no_missing x) l -> no_missing (VList l)
| nm_dict d : no_missing (VDict d)
| nm_cont data l2o : Forall (fun e => snd e <> VMissing /\ no_missing (snd e)) data ->
                     no_missing (VCont data l2o).

(** ** Equality of documents *)

(** Two numbers have the same value. *)
Definition same_number (a b : pyfloat) : Prop :=
  match a, b with
  | FFin m e, FFin m' e' =>
      exists k, (0 <= e + k /\ 0 <= e' + k /\ m * 2 ^ (e + k) = m' * 2 ^ (e' + k))%Z
  | FInf x, FInf y => x = y
  | _, _ => False
  end.

(** The number a scalar stands for. *)
Definition number (v : value) : option pyfloat :=
  match v with
  | VBool false => Some (FFin 0 0)
  | VBool true => Some (FFin 1 0)
  | VInt z => Some (FFin z 0)
  | VFloat f => Some f
  | _ => None
  end.

Definition scalar (v : value) : Prop :=
  match v with VNone | VBool _ | VInt _ | VStr _ => True | VFloat f => f <> FNan | _ => False end.
Definition same_scalar (a b : value) : Prop :=
  match a, b with
  | VNone, VNone => True
  | VStr s, VStr t => s = t
  | _, _ => match number a, number b with Some x, Some y => same_number x y | _, _ => False end
  end.

(** Documents whose keys are plain attribute names, distinct up to letter case
    and indexed, and that hold no NaN. *)
Inductive clean : value -> Prop :=
| clean_scalar v : scalar v -> clean v
| clean_list l : Forall clean l -> clean (VList l)
| clean_cont data l2o :
    Forall (fun e => attr_ok (fst e)) data ->
    NoDup (map (fun e => lower (fst e)) data) ->
    (forall lk k, sget lk l2o = Some k <-> In k (map fst data) /\ lower k = lk) ->
    Forall (fun e => clean (snd e)) data ->
    clean (VCont data l2o).

(** Same document: the same names up to letter case, with the same values. *)
Inductive doc_eq : value -> value -> Prop :=
| de_scalar a b : scalar a -> scalar b -> same_scalar a b -> doc_eq a b
| de_list l m : Forall2 doc_eq l m -> doc_eq (VList l) (VList m)
| de_cont d m d' m' :
    (forall k x, In (k, x) d -> exists k' y, In (k', y) d' /\ same_text k k' /\ doc_eq x y) ->
    (forall k' y, In (k', y) d' -> exists k x, In (k, x) d /\ same_text k k' /\ doc_eq x y) ->
    doc_eq (VCont d m) (VCont d' m').

(** What [==] decides: every name of the left document occurs in the right one,
    with a value that is in turn covered the other way round. *)
Inductive covered : value -> value -> Prop :=
| cv_scalar a b : scalar a -> scalar b -> same_scalar a b -> covered a b
| cv_list l m : Forall2 covered l m -> covered (VList l) (VList m)
| cv_cont d m d' m' :
    (forall k x, In (k, x) d -> exists k' y, In (k', y) d' /\ same_text k k' /\ covered y x) ->
    covered (VCont d m) (VCont d' m').
