(** What equal paths are (C81). *)
From Verif Require Import PyBase AttrRep AttrRepSpec Value FilterSpec PathSpec.

(** The same name up to letter case, where no schema is any schema. *)
Definition same_name (a b : attr_rep) : Prop :=
  (r_schema a = [] \/ r_schema b = [] \/ same_text (r_schema a) (r_schema b))
  /\ same_text (r_attr a) (r_attr b) /\ same_text (r_sub a) (r_sub b).

(** Both are there and related, or both are not. *)
Definition both {A} (R : A -> A -> Prop) (a b : option A) : Prop :=
  (a = None /\ b = None) \/ exists x y, a = Some x /\ b = Some y /\ R x y.

Definition same_path (p q : patch_path) : Prop :=
  same_name (p_rep p) (p_rep q) /\ both same_filter (p_filter p) (p_filter q) /\ both same_name (p_sub p) (p_sub q).

(** Both names have a schema, or both have none. *)
Definition as_specific (a b : attr_rep) : Prop := r_schema a = [] <-> r_schema b = [].
Definition paths_as_specific (p q : patch_path) : Prop :=
  as_specific (p_rep p) (p_rep q) /\ forall s t, p_sub p = Some s -> p_sub q = Some t -> as_specific s t.
