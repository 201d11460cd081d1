(** Vocabulary for the properties of requests and responses (C52-C57). *)
From Verif Require Import PyBase PyNum Issues IssuesSpec AttrRep AttrRepSpec Value Container ContainerSpec Types Attr Schema AttrSpec SchemaSpec.

(** Something is wrong. *)
Definition reported (iss : issues) : Prop := exists p, errs_at iss p <> [].
(** Nothing is wrong at the location or above it. *)
Definition clear_above (iss : issues) (p : loc) : Prop := forall a, ancestor a p -> errs_at iss a = [].

(** The value a dictionary has under a key. *)
Definition entry (d : value) (k : str) (v : value) : Prop :=
  exists l1 l2, d = VDict (l1 ++ (KStr k, v) :: l2) /\ ~ In (KStr k) (map fst l1).
Definition no_entry (d : value) (k : str) : Prop := forall l, d = VDict l -> ~ In (KStr k) (map fst l).

Definition at_status : loc := [LStr ($"status")].
Definition at_body (p : loc) : loc := LStr ($"body") :: p.
Definition at_header : loc := [LStr ($"headers"); LStr ($"Location")].
Definition at_meta_location : loc := [LStr ($"meta"); LStr ($"location")].

(** ** Responses that carry a resource *)

(** The attribute "meta.location" of a schema. *)
Definition is_location (a : attribute) : Prop := lower (r_attr (arep a)) = $"meta" /\ lower (r_sub (arep a)) = $"location".
Definition the_location (s : schema) (r : attr_rep) : Prop :=
  exists pre a post, at_all (sc_attrs s) = pre ++ a :: post /\ Forall (fun b => ~ is_location b) pre /\ is_location a
  /\ arep a = r /\ r_attr r = $"meta" /\ r_sub r = $"location".

(** The decimal numeral of a number, as str() writes it. *)
Inductive numeral : nat -> str -> Prop :=
| num_digit d : d < 10 -> numeral d [ascii_of_nat (48 + d)]
| num_more n d s : 0 < n -> d < 10 -> numeral n s -> numeral (10 * n + d) (s ++ [ascii_of_nat (48 + d)]).
Definition numeral_z (z : Z) (s : str) : Prop :=
  (0 <= z)%Z /\ numeral (Z.to_nat z) s \/ (z < 0)%Z /\ exists t, s = "-"%char :: t /\ numeral (Z.to_nat (- z)) t.

(** An attribute whose parsers keep or reject the value they are given (for a
    complex attribute: without parsers, other than the one for single primary
    items). *)
Definition keeps (p : proc) : Prop := forall v w j, p v = Ok (w, j) -> w = v \/ w = VInvalid.
Definition plain_parsing (a : attribute) : Prop :=
  match a with
  | MkAttr i None => Forall keeps (a_parsers i) /\ a_type i <> TComplex /\ a_type i <> TUnknown
  | MkAttr _ (Some (_, cps, _)) => cps = [] \/ cps = [single_primary]
  end.

(** The names of a schema's attributes are none of its URIs. *)
Definition own_names (s : schema) : Prop := forall a, In a (at_top (sc_attrs s)) -> ~ listed (r_attr (arep a)) (sc_schemas s).

(** [x] is stored in the document under the attribute: as its value, or as the
    value of the sub-attribute in the attribute's object or in one of its items. *)
Definition stores (c : value) (r : attr_rep) (x : value) : Prop :=
  exists v, doc_holds c r v /\
  (r_sub r = [] /\ x = v
   \/ r_sub r <> [] /\ (holds v (r_sub r) x \/ exists l y, v = VList l /\ In y l /\ holds y (r_sub r) x)).

(** Attributes of which one is, or is part of, the other, by their names alone. *)
Definition overlap (r r' : attr_rep) : Prop :=
  lower (r_attr r) = lower (r_attr r') /\ (r_sub r = [] \/ r_sub r' = [] \/ lower (r_sub r) = lower (r_sub r')).
