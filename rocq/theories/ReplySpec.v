(** Vocabulary for responses that are always served (C85). *)
From Verif Require Import PyBase Issues IssuesSpec AttrRep AttrRepSpec Value Container Types Attr AttrSpec AttrItems Schema SchemaSpec.

(** The checks of a complex attribute on the way in or out as the constructor leaves
    them: none for single values, at most the check for primary items for several. *)
Definition standard_in (m : method) (a : attribute) : Prop :=
  match a with
  | MkAttr _ None => True
  | MkAttr i (Some (_, cps, cds)) =>
      let l := match m with MParse => cps | MDump => cds end in l = [] \/ a_multi i = true /\ l = [single_primary]
  end.

(** The schema has a sub-attribute of that name. *)
Definition has_sub (s : schema) (n m : str) : Prop :=
  exists a, In a (at_all (sc_attrs s)) /\ same_text (r_attr (arep a)) n /\ same_text (r_sub (arep a)) m.

(** Headers: none, or some of which "Location" is a text. *)
Definition plain_headers (h : value) : Prop :=
  h = VNone \/ exists d, h = VDict d /\ forall x, In (KStr ($"Location"), x) d -> x = VNone \/ exists t, x = VStr t.
