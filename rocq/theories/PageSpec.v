(** Vocabulary for responses with several resources that are always served (C87). *)
From Verif Require Import PyBase AttrRep AttrRepSpec Value Container ContainerSpec Types Attr AttrSpec Schema SchemaSpec TotalSpec.

(** The resources of a page use the URIs of their schema as intended (C27). *)
Definition placed_resources (s : schema) (doc : value) : Prop :=
  forall l x, holds (mk_cont doc) ($"Resources") (VList l) -> In x l -> is_object x -> well_placed s (mk_cont x).
