(** Vocabulary for serving the descriptions of schemas (C77). *)
From Verif Require Import PyBase PyNum Issues AttrRep Value Container ContainerSpec Types Attr Schema AttrSpec SelfSpec.

(** The list response that carries these documents. *)
Definition catalog (ds : list value) : value := dict_of
  [($"schemas", VList [VStr ($"urn:ietf:params:scim:api:messages:2.0:ListResponse")]);
   ($"totalResults", VInt (Z.of_nat (length ds))); ($"Resources", VList ds)].

(** The object describes the schema: its names, and every characteristic of every
    attribute at any depth. *)
Definition tells_schema (s : schema) (c : value) : Prop :=
  holds c ($"id") (VStr (sc_uri s)) /\ holds c ($"name") (VStr (sc_name s)) /\ holds c ($"description") (VStr (sc_descr s))
  /\ holds c ($"schemas") (VList [VStr ($"urn:ietf:params:scim:schemas:core:2.0:Schema")])
  /\ (exists m, holds c ($"meta") m /\ holds m ($"resourceType") (VStr ($"Schema")))
  /\ exists cards, holds c ($"attributes") (VList cards) /\ Forall2 (describes false) (at_top (sc_attrs s)) cards.
