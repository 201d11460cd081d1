(** Vocabulary for the properties of sorting (C46-C48), independent of the sorter. *)
From Verif Require Import PyBase PyNum Issues AttrRep Value Container ContainerSpec Types Attr Match MatchSpec.

(** ** What a resource is sorted by *)

(** The sub-attribute "value", in any letter case. *)
Inductive value_sub : list attribute -> option attribute -> Prop :=
| vs_none : value_sub [] None
| vs_here a l : lower (r_attr (arep a)) = $"value" -> value_sub (a :: l) (Some a)
| vs_next a l o : lower (r_attr (arep a)) <> $"value" -> value_sub l o -> value_sub (a :: l) o.
(** The attribute that decides how values compare: "value" within
    a multi-valued complex attribute, otherwise the attribute itself. *)
Definition key_attr (a : attribute) (o : option attribute) : Prop :=
  if a_multi (info a) && is_complex a then value_sub (sub_attrs a) o else o = Some a.

Definition not_primary (x : value) : Prop := exists p, get_item_str x ($"primary") = Ok p /\ p <> VBool true.
(** From the value of the attribute, the value to sort by: itself, the first of
    many, or the "value" of the first primary item. *)
Inductive picks (a : attribute) : value -> value -> Prop :=
| pk_absent : picks a VMissing VNone
| pk_single v : a_multi (info a) = false -> picks a v v
| pk_first x l : a_multi (info a) = true -> is_complex a = false -> picks a (VList (x :: l)) x
| pk_primary pre x post w : a_multi (info a) = true -> is_complex a = true -> Forall not_primary pre ->
    get_item_str x ($"primary") = Ok (VBool true) -> get_item_str x ($"value") = Ok w -> picks a (VList (pre ++ x :: post)) w
| pk_no_primary l : a_multi (info a) = true -> is_complex a = true -> Forall not_primary l -> picks a (VList l) VNone.

(** Values that count as no value. *)
Inductive blank : value -> Prop :=
| bl_none : blank VNone
| bl_missing : blank VMissing
| bl_invalid : blank VInvalid
| bl_false : blank (VBool false)
| bl_zero : blank (VInt 0)
| bl_zero_float e : blank (VFloat (FFin 0 e))
| bl_text : blank (VStr [])
| bl_list : blank (VList [])
| bl_dict : blank (VDict []).

Inductive basis := Nothing | Text (s : str) | Number (f : pyfloat) | Moment (d : datetime).
Inductive basis_of (a : option attribute) : value -> basis -> Prop :=
| bo_blank w : blank w -> basis_of a w Nothing
| bo_no_attr w : a = None -> basis_of a w Nothing
| bo_text b s : a = Some b -> s <> [] -> a_type (info b) = TString -> basis_of a (VStr s) (Text s)
| bo_other_text b s : a = Some b -> a_type (info b) <> TString -> basis_of a (VStr s) Nothing
| bo_number b w x : a = Some b -> ~ blank w -> number w = Some x -> x <> FNan -> basis_of a w (Number x)
| bo_moment b d : a = Some b -> basis_of a (VDate d) (Moment d).
Definition sorts_by (a : attribute) (v : value) (k : basis) : Prop :=
  exists o w, key_attr a o /\ picks a v w /\ basis_of o w k.

(** Letter case matters when the deciding attribute is case-exact. *)
Definition exact_for (a : attribute) (e : bool) : Prop := exists o, key_attr a o /\ e = match o with Some b => a_case_exact (info b) | None => false end.

(** ** The order *)

Definition folded (exact : bool) (s : str) : str := if exact then s else lower s.
Definition less (exact : bool) (k k' : basis) : Prop :=
  match k, k' with
  | Nothing, _ => False
  | _, Nothing => True
  | Text s, Text t => text_lt (folded exact s) (folded exact t)
  | Number x, Number y => num_less x y
  | Moment x, Moment y => (moment x < moment y)%Z
  | _, _ => False
  end.
Definition alike (exact : bool) (k k' : basis) : Prop :=
  match k, k' with
  | Nothing, Nothing => True
  | Text s, Text t => folded exact s = folded exact t
  | Number x, Number y => same_number x y
  | Moment x, Moment y => moment x = moment y
  | _, _ => False
  end.
(** One kind of values (or none). *)
Definition uniform (ks : list basis) : Prop :=
  Forall (fun k => k = Nothing \/ exists s, k = Text s) ks
  \/ Forall (fun k => k = Nothing \/ exists x, k = Number x /\ x <> FNan) ks
  \/ exists d0, Forall (fun k => k = Nothing \/ exists d, k = Moment d /\ same_kind d0 d) ks.

(** Resources carry their original position.  One comes before another when it
    is less (greater, when descending), or alike and earlier. *)
Definition comes_before (exact asc : bool) (ks : list basis) (p q : nat * value) : Prop :=
  let k := nth (fst p) ks Nothing in
  let k' := nth (fst q) ks Nothing in
  (if asc then less exact k k' else less exact k' k) \/ (alike exact k k' /\ fst p < fst q).
