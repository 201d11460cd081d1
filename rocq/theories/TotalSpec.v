(** Vocabulary for crash freedom (C27). *)
From Verif Require Import PyBase PyNum NumSpec Issues IssuesSpec AttrRep AttrRepSpec Value Container ContainerSpec ContainerFacts Base64 Types Attr
  Schema AttrSpec AttrItems SchemaSpec.

(** JSON values without the features some type cannot take: floats are finite,
    integers are in the range of floats, texts are ASCII, no key is empty. *)
Inductive tame : value -> Prop :=
| tame_none : tame VNone
| tame_bool b : tame (VBool b)
| tame_int z : ~ overflows z 1 -> tame (VInt z)
| tame_float m e : tame (VFloat (FFin m e))
| tame_str s : is_ascii_text s = true -> tame (VStr s)
| tame_list l : Forall tame l -> tame (VList l)
| tame_dict d : Forall (fun e => fst e <> KStr []) d -> Forall (fun e => tame (snd e)) d -> tame (VDict d)
| tame_cont data l2o : index_ok data l2o -> sget [] l2o = None -> Forall (fun e => tame (snd e)) data -> tame (VCont data l2o).

(** Python values of a SCIM type. *)
Definition of_type (t : atype) (v : value) : Prop :=
  match t with
  | TUnknown => True
  | TBoolean => exists b, v = VBool b
  | TDecimal => exists f, v = VFloat f
  | TInteger => is_int v = true
  | TString | TUriRef | TScimRef | TBinary | TExternalRef => exists s, v = VStr s
  | TDateTime => (exists d, v = VDate d) \/ exists s, v = VStr s
  | TComplex => is_cont v = true
  end.
Definition typed (i : ainfo) (v : value) : Prop :=
  if a_multi i then exists l, v = VList l /\ Forall (of_type (a_type i)) l else of_type (a_type i) v.

(** At most one extra processor, which handles every value of the type. *)
Definition quiet (ok : value -> Prop) (ps : list proc) : Prop :=
  ps = [] \/ exists p, ps = [p] /\ forall v, ok v -> exists o, p v = Ok o.

(** Containers as the complex processors get them. *)
Definition assembled_value (multi : bool) (v : value) : Prop :=
  if multi then exists l, v = VList l /\ Forall tidy l else tidy v.

Inductive calm_attr : attribute -> Prop :=
| calm_simple i : quiet (typed i) (a_parsers i) -> quiet (typed i) (a_dumpers i) -> calm_attr (MkAttr i None)
| calm_complex i subs cps cds :
    a_parsers i = [] -> a_dumpers i = [] -> distinct_names subs ->
    quiet (assembled_value (a_multi i)) cps -> quiet (assembled_value (a_multi i)) cds ->
    Forall calm_attr subs -> calm_attr (MkAttr i (Some (subs, cps, cds))).

(** Documents that use no schema URI for anything but an extension's object and
    list only texts under "schemas". *)
Definition well_placed (s : schema) (c : value) : Prop :=
  ~ has_key c (sc_uri s)
  /\ (forall u x, In u (map fst (sc_exts s)) -> holds c u x -> is_cont x = true)
  /\ (forall l, holds c ($"schemas") (VList l) -> Forall (fun v => exists t, v = VStr t) l).
