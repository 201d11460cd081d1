(** Vocabulary for the properties of schemas (C25-C28). *)
From Verif Require Import PyBase PyNum Issues IssuesSpec AttrRep AttrRepSpec Value Container ContainerSpec Types Attr Schema AttrSpec.

(** JSON objects, raw or wrapped. *)
Definition is_object (v : value) : Prop := match v with VDict _ | VCont _ _ => True | _ => False end.

(** Where a document holds the value of a top-level attribute: directly, or in
    the object stored under the extension's URI. *)
Definition doc_holds (c : value) (r : attr_rep) (x : value) : Prop :=
  if r_ext r then exists sub, holds c (r_schema r) sub /\ holds sub (r_attr r) x
  else holds c (r_attr r) x.

(** The location of a top-level attribute in reports. *)
Definition place (r : attr_rep) : loc :=
  if r_ext r then [LStr (r_schema r); LStr (r_attr r)] else [LStr (r_attr r)].

(** Schemas put together soundly: top-level attributes belong to the schema or to
    an attached extension, no two have the same name in the same schema, URIs are
    distinct and are not names of core attributes. *)
Record wf_schema (s : schema) : Prop := {
  ws_uris : NoDup (map lower (sc_schemas s)) /\ ~ In [] (sc_schemas s);
  ws_attrs : Forall (fun a => sound_attr a /\ r_sub (arep a) = [] /\ attr_ok (r_attr (arep a))
                              /\ if r_ext (arep a) then In (r_schema (arep a)) (map fst (sc_exts s))
                                 else r_schema (arep a) = sc_uri s) (at_top (sc_attrs s));
  ws_distinct : NoDup (map (fun a => (lower (r_schema (arep a)), lower (r_attr (arep a)))) (at_top (sc_attrs s)));
  ws_names : forall a, In a (at_top (sc_attrs s)) -> r_ext (arep a) = false ->
             ~ In (lower (r_attr (arep a))) (map lower (sc_schemas s))
}.

(** Documents that use no key in a way the reader confuses: the schema's own URI
    is not a key, and an extension's attributes are either all inside the object
    under its URI or absent. *)
Definition regular (s : schema) (c : value) : Prop :=
  is_cont c = true /\ ~ has_key c (sc_uri s)
  /\ forall a, In a (at_top (sc_attrs s)) -> r_ext (arep a) = true ->
       (exists sub, holds c (r_schema (arep a)) sub /\ ~ has_key sub [])
       \/ (~ has_key c (r_schema (arep a)) /\ ~ has_key c (r_attr (arep a))).

(** [v] is what attribute [a] makes of its value in the document. *)
Definition comes_from {env : PyEnv} (m : method) (c : value) (a : attribute) (v : value) : Prop :=
  exists x js, doc_holds c (arep a) x /\ x <> VMissing /\ process a m x = Ok (v, js).

(** Everything in the output is the processed value of a declared attribute. *)
Definition only_declared {env : PyEnv} (m : method) (l : list attribute) (c y : value) : Prop :=
  exists data l2o, y = VCont data l2o /\ forall n v, sget n data = Some v ->
    (exists a, In a l /\ r_ext (arep a) = false /\ n = r_attr (arep a) /\ comes_from m c a v)
    \/ (exists d2 l2, v = VCont d2 l2 /\ d2 <> [] /\ forall n2 v2, sget n2 d2 = Some v2 ->
          exists a, In a l /\ r_ext (arep a) = true /\ n = r_schema (arep a) /\ n2 = r_attr (arep a) /\ comes_from m c a v2).

(** Attribute lists a schema or an extension is built from: plain distinct names. *)
Definition neat (l : list attribute) : Prop :=
  Forall (fun a => sound_attr a /\ plain_rep (arep a) /\ distinct_names (sub_attrs a)) l /\ distinct_names l.

(** Texts equal up to letter case, as members of a list. *)
Definition listed (s : str) (l : list str) : Prop := In (lower s) (map lower l).

(** Schemas the constructors build from neat attribute lists whose names are not
    the schema's URI, with extensions attached under new URIs. *)
Definition fresh_names (uri : str) (l : list attribute) : Prop :=
  Forall (fun a => lower (r_attr (arep a)) <> lower uri) l.
Inductive made : schema -> Prop :=
| made_base uri l : uri <> [] -> neat (schemas_attr :: l) -> fresh_names uri (schemas_attr :: l) -> made (base_schema uri l)
| made_resource uri l name descr plural oi oe om :
    let get o d := match o with Some a => a | None => d end in
    let l' := schemas_attr :: get oi id_attr :: get oe external_id_attr :: get om meta_attr :: l in
    uri <> [] -> neat l' -> fresh_names uri l' -> made (resource_schema uri l name descr plural oi oe om)
| made_ext s e req s' :
    made s -> ex_uri e <> [] -> neat (at_all (ex_attrs e)) -> ~ listed (ex_uri e) (sc_schemas s) ->
    fresh_names (ex_uri e) (filter (fun a => negb (r_ext (arep a))) (at_top (sc_attrs s))) ->
    with_extension s e req = Ok s' -> made s'.

(** [b] is attribute [a] under another name: everything that governs processing,
    presence and mutability is the same, except that canonical values are no
    longer enforced (see C21). *)
Definition same_attr (a b : attribute) : Prop :=
  a_type (info b) = a_type (info a) /\ a_multi (info b) = a_multi (info a) /\ a_required (info b) = a_required (info a)
  /\ a_mut (info b) = a_mut (info a) /\ a_ret (info b) = a_ret (info a) /\ a_uniq (info b) = a_uniq (info a)
  /\ a_issuer (info b) = a_issuer (info a) /\ a_parsers (info b) = a_parsers (info a) /\ a_dumpers (info b) = a_dumpers (info a)
  /\ is_complex b = is_complex a /\ sub_attrs b = sub_attrs a
  /\ (is_complex a = false -> a_case_exact (info b) = a_case_exact (info a)).
