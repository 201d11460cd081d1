(** Vocabulary for the resources of list responses (C67, C68). *)
From Verif Require Import PyBase PyNum Issues IssuesSpec AttrRep AttrRepSpec Value Container ContainerSpec Types Attr Schema Assets Presence Match FilterParse Path Sort Patch ListResp Search Bulk Requests
  AttrSpec SchemaSpec RequestSpec ListSpec MsgFacts.

(** The schema a resource belongs to: the only one there is, or else the first one
    that knows all the URIs the resource lists as its schemas. *)
Definition claims (x : value) (uris : list str) : Prop := uris <> [] /\ holds x ($"schemas") (VList (map VStr uris)).
Definition knows (s : schema) (uris : list str) : Prop := Forall (fun u => listed u (sc_schemas s)) uris.
Inductive belongs (schemas : list schema) (x : value) (s : schema) : Prop :=
| belongs_only : schemas = [s] -> belongs schemas x s
| belongs_first uris l1 l2 : (forall s', schemas <> [s']) -> claims x uris -> schemas = l1 ++ s :: l2 -> knows s uris -> Forall (fun s' => ~ knows s' uris) l1 ->
    belongs schemas x s.
Definition homeless (schemas : list schema) (x : value) : Prop := forall s, ~ belongs schemas x s.

(** Schemas and resources that do not use the URI of list responses, and resources
    that do not use URIs in a confusing way. *)
Definition ordinary (schemas : list schema) (x : value) : Prop :=
  (exists s, schemas = [s]) \/ ~ has_key x list_uri /\ (forall s, belongs schemas x s -> regular s x).
Definition unlisted (s : schema) : Prop := ~ listed list_uri (sc_schemas s).

Section Env.
  Context {env : PyEnv}.

  (** A list response with these resources, and the report about it. *)
  Record listing (schemas : list schema) (doc : value) (count : option Z) (t : Z) (si ipp : option Z) (l : list value) (f : option oper) (c : option checker)
      (resp : response) (iss : issues) : Prop := mkListing {
    listing_schemas : Forall made schemas /\ Forall unlisted schemas;
    listing_message : message list_schema doc;
    listing_total : holds (mk_cont doc) ($"totalResults") (VInt t);
    listing_start : given_int doc ($"startIndex") si;
    listing_size : given_int doc ($"itemsPerPage") ipp;
    listing_resources : holds (mk_cont doc) ($"Resources") (VList l);
    listing_ordinary : Forall (ordinary schemas) l;
    listing_response : exists st h req so, list_dump_response schemas st doc h req count f so c = Ok (resp, iss) }.

  Definition at_resource (i : nat) (p : loc) : loc := at_field ($"Resources") ++ LIdx i :: p.

  (** What is wrong with a resource by itself: it belongs to no schema, or dumping
      it by its schema says so. *)
  Inductive own (schemas : list schema) (x : value) (e : error) : loc -> Prop :=
  | own_unknown : homeless schemas x -> e = e_unknown_schema -> own schemas x e []
  | own_dump s x' j p : belongs schemas x s -> schema_dump s x = Ok (x', j) -> In e (errs_at j p) -> own schemas x e p.

  (** The numbers are as they should be. *)
  Definition right_numbers (count : option Z) (t : Z) (ipp : option Z) (l : list value) : Prop :=
    let n := Z.of_nat (length l) in rule_page_size n ipp /\ rule_total t n /\ rule_all count t n /\ rule_count count n.
End Env.
