(** Vocabulary for requests that are always answered (C82). *)
From Verif Require Import PyBase Issues IssuesSpec AttrRep AttrRepSpec Value Container Types Attr AttrSpec AttrItems Schema SchemaSpec.

(** The checks of a complex attribute as the constructor leaves them: none for
    single values, at most the check for primary items for several. *)
Definition standard (a : attribute) : Prop :=
  match a with
  | MkAttr _ None => True
  | MkAttr i (Some (_, cps, _)) => cps = [] \/ a_multi i = true /\ cps = [single_primary]
  end.

(** Query strings in which lists hold texts only. *)
Definition textual_query (q : value) : Prop :=
  forall d k l, q = VDict d -> In (k, VList l) d -> Forall (fun x => exists s, x = VStr s) l.
