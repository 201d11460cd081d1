(** Vocabulary for search requests (C63). *)
From Verif Require Import PyBase PyNum Issues IssuesSpec AttrRep AttrRepSpec Value Container ContainerSpec AttrSpec.

(** The names a field lists; none if there is no such field. *)
Definition lists (c : value) (key : str) (names : list str) : Prop :=
  holds c key (VList (map VStr names)) \/ ~ has_key c key /\ names = [].
