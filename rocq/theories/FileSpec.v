(** Vocabulary for documents on their way to and from JSON text. *)
From Verif Require Import PyBase PyNum AttrRep Value Container Types Attr AttrSpec.

(** Values that are neither lists nor objects. *)
Definition scalar (v : value) : Prop :=
  match v with VNone | VBool _ | VInt _ | VFloat _ | VStr _ | VDate _ => True | _ => False end.
(** The scalars JSON has. *)
Definition json_scalar (v : value) : Prop := scalar v /\ match v with VDate _ => False | _ => True end.

(** JSON in which no object has two keys that differ only in case. *)
Inductive tidy : value -> Prop :=
| tidy_scalar v : json_scalar v -> tidy v
| tidy_list l : Forall tidy l -> tidy (VList l)
| tidy_dict (d : list (dkey * value)) : NoDup (map (fun e => match fst e with KStr k => lower k | KOther _ => [] end) d) ->
    Forall (fun e => tidy (snd e)) d -> tidy (VDict d).

(** Attributes with a type, and sub-attributes with types. *)
Inductive typed : attribute -> Prop :=
| typed_simple i : a_type i <> TUnknown -> typed (MkAttr i None)
| typed_complex i subs cps cds : Forall typed subs -> typed (MkAttr i (Some (subs, cps, cds))).
