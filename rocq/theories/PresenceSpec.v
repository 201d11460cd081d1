(** Vocabulary for the properties of presence checks (C29-C31). *)
From Verif Require Import PyBase PyNum Issues IssuesSpec AttrRep AttrRepSpec Value Container ContainerSpec Types Attr Schema Presence AttrSpec SchemaSpec.

(** Absent, null, an empty text or an empty list. *)
Definition empty_value (v : value) : Prop := v = VMissing \/ v = VNone \/ v = VStr [] \/ v = VList [].

(** Two schemas do not contradict each other: one is not given, or both are the
    same up to letter case. *)
Definition same_schema (a b : attr_rep) : Prop := r_schema a = [] \/ r_schema b = [] \/ same_text (r_schema a) (r_schema b).
(** Two names mean the same attribute or sub-attribute. *)
Definition same_rep (a b : attr_rep) : Prop := same_schema a b /\ same_text (r_attr a) (r_attr b) /\ same_text (r_sub a) (r_sub b).
(** [b] names the attribute [a] belongs to, or a sub-attribute of [a]. *)
Definition kin (a b : attr_rep) : Prop :=
  same_schema a b /\ same_text (r_attr a) (r_attr b) /\ (r_sub a = [] \/ r_sub b = []).

Definition listed_rep (l : list attr_rep) (r : attr_rep) : Prop := exists x, In x l /\ same_rep x r.

(** What a response must not contain: attributes that are never returned;
    unless always returned, excluded ones, and those outside a selection. *)
Definition withheld (c : checker) (a : attribute) : Prop :=
  match a_ret (info a) with
  | RetNever => True
  | RetAlways => False
  | _ => match ck_include c with
         | Some false => listed_rep (ck_reps c) (arep a)
         | Some true => ~ listed_rep (ck_reps c) (arep a) /\ ~ exists x, In x (ck_reps c) /\ kin (arep a) x
         | None => False
         end
  end.

(** What must be there: required attributes that are not exempted and, when
    attributes are selected, are selected or always returned in a response. *)
Definition needed (c : checker) (d : direction) (a : attribute) : Prop :=
  a_required (info a) = true /\ ~ listed_rep (ck_ignore c) (arep a)
  /\ (ck_include c = Some true -> listed_rep (ck_reps c) (arep a) \/ (d = Response /\ a_ret (info a) = RetAlways)).

(** [t] is the attribute the sub-attribute [a] belongs to. *)
Definition parent_of (t a : attribute) : Prop :=
  r_sub (arep t) = [] /\ same_text (r_schema (arep t)) (r_schema (arep a)) /\ same_text (r_attr (arep t)) (r_attr (arep a)).

(** Name of the attribute a (sub-)attribute belongs to. *)
Definition top_name (r : attr_rep) : attr_rep := mkRep (r_schema r) (r_attr r) [] false.

(** Attribute [a] has value [v], found at location [p] of the data: sub-attributes
    of multi-valued attributes are looked up in every item. *)
Inductive found (all : list attribute) (data : value) (a : attribute) : value -> loc -> Prop :=
| found_top v : r_sub (arep a) = [] -> get_item data (arep a) = Ok v -> v <> VInvalid ->
    found all data a v [LStr (r_attr (arep a))]
| found_sub t v : r_sub (arep a) <> [] -> In t all -> parent_of t a -> a_multi (info t) = false ->
    get_item data (arep a) = Ok v -> v <> VInvalid ->
    found all data a v [LStr (r_attr (arep a)); LStr (r_sub (arep a))]
| found_null t : r_sub (arep a) <> [] -> In t all -> parent_of t a -> a_multi (info t) = true ->
    get_item data (top_name (arep a)) = Ok VNone ->
    found all data a VNone [LStr (r_attr (arep a)); LStr (r_sub (arep a))]
| found_item t items k x v : r_sub (arep a) <> [] -> In t all -> parent_of t a -> a_multi (info t) = true ->
    get_item data (top_name (arep a)) = Ok (VList items) -> nth_error items k = Some x ->
    get_item x (mkRep [] (r_sub (arep a)) [] false) = Ok v -> v <> VInvalid ->
    found all data a v [LStr (r_attr (arep a)); LIdx k; LStr (r_sub (arep a))].

(** Names the AttrRep constructor accepts. *)
Definition proper (r : attr_rep) : Prop := attr_ok (r_attr r).
