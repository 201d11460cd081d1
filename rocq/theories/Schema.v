(** Model of /repo/src/data/schemas.py: schemas, their parsing and dumping. *)
From Verif Require Import PyBase PyNum Issues AttrRep Value Container Types Attr.

(** ValidationError.reserved_keyword (src/error.py 92-94). *)
Definition e_reserved_keyword : error := mkErr 7 [$"bulkId"].
(** ValidationError.missing (src/error.py 124-126). *)
Definition e_missing : error := err 15.
(** ValidationError.resource_type_mismatch (src/error.py 132-134). *)
Definition e_resource_type_mismatch : error := err 17.
(** ValidationError.unknown_schema (src/error.py 178-180). *)
Definition e_unknown_schema : error := err 27.
(** ValidationError.missing_main_schema (src/error.py 182-184). *)
Definition e_missing_main_schema : error := err 28.
(** ValidationError.missing_schema_extension (src/error.py 186-188). *)
Definition e_missing_extension (k : str) : error := mkErr 29 [k].

(** bulk_id_validator (src/data/schemas.py 19-27).  Simplification: only applied
    to strings (the value of a String attribute without issues); the [in] test
    on any other object is taken to raise TypeError. *)
Definition bulk_id_validator : proc := fun v =>
  match v with
  | VStr s => if contains s ($"bulkId") then Ok (fail e_reserved_keyword) else Ok (pass v)
  | _ => Raise TypeErr
  end.

(** Attributes shared by all schemas (src/data/schemas.py 30-146). *)
Definition schemas_attr : attribute :=
  mk_simple (with_ret RetAlways (with_mut ReadOnly (with_multi (with_required (plain ($"schemas") TUriRef))))).
(** id_ (src/data/schemas.py 42-54). *)
Definition id_attr : attribute :=
  mk_simple (with_procs [bulk_id_validator] [bulk_id_validator]
    (with_uniq UniqServer (with_ret RetAlways (with_mut ReadOnly (with_case_exact
      (with_issuer IssServer (with_required (plain ($"id") TString)))))))).
(** external_id (src/data/schemas.py 56-66). *)
Definition external_id_attr : attribute :=
  mk_simple (with_issuer IssClient (with_case_exact (plain ($"externalId") TString))).
(** issuer=SERVER, mutability=READ_ONLY (src/data/schemas.py 68-129). *)
Definition server_ro (i : ainfo) : attribute := mk_simple (with_issuer IssServer (with_mut ReadOnly i)).
(** meta (src/data/schemas.py 68-146). *)
Definition meta_attr : attribute :=
  mk_complex (with_issuer IssServer (with_mut ReadOnly (plain ($"meta") TComplex)))
    [server_ro (with_case_exact (plain ($"resourceType") TString));
     server_ro (plain ($"created") TDateTime);
     server_ro (plain ($"lastModified") TDateTime);
     server_ro (plain ($"location") TUriRef);
     server_ro (with_case_exact (plain ($"version") TString))] [] [].

(** Schema objects: BaseSchema and ResourceSchema fields
    (src/data/schemas.py 149-162, 333-356). *)
Record schema := mkSchema {
  sc_uri : str;
  sc_attrs : attrs;
  sc_exts : list (str * bool);
  sc_name : str;
  sc_descr : str;
  sc_plural : str
}.

(** _bound_attr_to_schema (src/data/schemas.py 164-195): copies every field
    except description and validate_canonical_values.  For a ComplexAttribute
    also case_exact, canonical values and reference types take their defaults.
    The complex processors already contain validate_single_primary_value. *)
Definition bound_attr (r : attr_rep) (a : attribute) : attribute :=
  match a with
  | MkAttr i None =>
      MkAttr (mkInfo r (a_type i) [] (a_reftypes i) (a_issuer i) (a_required i) (a_case_exact i)
                     (a_multi i) (norm_canon (a_case_exact i) (a_canon i)) false (a_mut i) (a_ret i)
                     (a_uniq i) (a_parsers i) (a_dumpers i)) None
  | MkAttr i (Some (subs, cps, cds)) =>
      MkAttr (mkInfo r TComplex [] [] (a_issuer i) (a_required i) false (a_multi i) None false
                     (a_mut i) (a_ret i) (a_uniq i) (a_parsers i) (a_dumpers i))
             (Some (dedup_attrs subs, cps, cds))
  end.

(** The loops of BaseSchema.__init__ and with_extension over one attribute
    (src/data/schemas.py 152-160, 385-401).  AttrRep construction cannot fail on
    the names of existing attributes; the case of an extension with an empty
    schema URI is handled in [with_extension]. *)
Definition bound_all (uri : str) (ext : bool) (a : attribute) : list attribute :=
  bound_attr (mkRep uri (r_attr (arep a)) [] ext) a
  :: map (fun s => bound_attr (mkRep uri (r_attr (arep a)) (r_attr (arep s)) ext) s) (sub_attrs a).

(** BaseSchema.__init__ (src/data/schemas.py 150-162). *)
Definition base_schema (uri : str) (l : list attribute) : schema :=
  mkSchema uri (mk_attrs (flat_map (bound_all uri false) (schemas_attr :: l))) [] [] [] [].

(** ResourceSchema.__init__ (src/data/schemas.py 334-356). *)
Definition resource_schema (uri : str) (l : list attribute) (name descr : str) (plural : option str)
    (o_id o_ext o_meta : option attribute) : schema :=
  let get o d := match o with Some a => a | None => d end in
  let s := base_schema uri (get o_id id_attr :: get o_ext external_id_attr :: get o_meta meta_attr :: l) in
  mkSchema uri (sc_attrs s) [] name descr
           (match plural with Some (c :: t) => c :: t | _ => name end).

(** BaseSchema.schemas and ResourceSchema.schemas (src/data/schemas.py 201-203,
    370-372). *)
Definition sc_schemas (s : schema) : list str := sc_uri s :: map fst (sc_exts s).

(** SchemaExtension objects (src/data/schemas.py 434-445). *)
Record extension := mkExt {
  ex_uri : str; ex_attrs : attrs; ex_name : str; ex_descr : str
}.
(** SchemaExtension.__init__ (src/data/schemas.py 435-445). *)
Definition mk_extension (uri : str) (l : list attribute) (name descr : str) : extension :=
  mkExt uri (mk_attrs l) name descr.

(** with_extension (src/data/schemas.py 378-402): the schema after the call. *)
Definition with_extension (s : schema) (e : extension) (required : bool) : res schema :=
  if smem (ex_uri e) (map lower (sc_schemas s)) then Raise ValueErr
  else match ex_uri e, at_all (ex_attrs e) with
       | [], _ :: _ => Raise ValueErr
       | _, l =>
           Ok (mkSchema (sc_uri s)
                 (mk_attrs (at_all (sc_attrs s) ++ flat_map (bound_all (ex_uri e) true) l))
                 (sset (ex_uri e) required (sc_exts s))
                 (sc_name s) (sc_descr s) (sc_plural s))
       end.

(** item.lower() for every item (src/data/schemas.py 284). *)
Definition lower_items (v : value) : res (list str) :=
  let! l := iter_value v in
  mapM (fun x => match x with VStr s => Ok (lower s) | _ => Raise AttributeErr end) l.

(** The location of the schemas field (src/data/schemas.py 276-313). *)
Definition schemas_loc : loc := [LStr ($"schemas")].

(** First loop of validate_schemas_field (src/data/schemas.py 288-298): issues
    and whether the main schema is included. *)
Fixpoint scan_schemas (main : str) (known : list str) (l : list str) (mismatch : bool) (iss : issues)
  : bool * issues :=
  match l with
  | [] => (false, iss)
  | s :: t =>
      if str_eqb s main then let (_, iss') := scan_schemas main known t mismatch iss in (true, iss')
      else if negb (smem s known) && negb mismatch
      then scan_schemas main known t true (add_issue iss e_unknown_schema true schemas_loc)
      else scan_schemas main known t mismatch iss
  end.

(** data.to_dict().keys() (src/data/schemas.py 305-313). *)
Definition cont_keys (v : value) : list str :=
  match v with VCont d _ => map fst d | _ => [] end.

(** validate_schemas_field (src/data/schemas.py 276-313). *)
Definition validate_schemas_field (data schemas_ : value) (main : str) (known : list str) : res issues :=
  let main := lower main in
  let! given := lower_items schemas_ in
  let known := map lower known in
  let (included, iss) := scan_schemas main known given false no_issues in
  let iss := if included then iss else add_issue iss e_missing_main_schema true schemas_loc in
  Ok (fold_left (fun iss k =>
                   if smem (lower k) known && negb (smem (lower k) given)
                   then add_issue iss (e_missing_extension k) true schemas_loc else iss)
                (cont_keys data) iss).

Section Env.
  Context {env : PyEnv}.

  (** Location of a top-level attribute (src/data/schemas.py 265-267). *)
  Definition attr_loc (a : attribute) : loc :=
    let r := arep a in
    (if r_ext r then [LStr (r_schema r)] else []) ++ [LStr (r_attr r)].

  (** Loop of _process_data (src/data/schemas.py 260-272). *)
  Fixpoint process_attrs (m : method) (l : list attribute) (data processed : value) (iss : issues)
    : res outcome :=
    match l with
    | [] => Ok (processed, iss)
    | a :: t =>
        let! x := get_item data (arep a) in
        match x with
        | VMissing => process_attrs m t data processed iss
        | _ =>
            let! (y, iss') := process a m x in
            let! processed' := set_item processed (arep a) y in
            process_attrs m t data processed' (merge iss iss' (attr_loc a))
        end
    end.

  (** BaseSchema._process_data (src/data/schemas.py 252-273). *)
  Definition process_data (m : method) (s : schema) (data : value) : res outcome :=
    process_attrs m (at_top (sc_attrs s)) (mk_cont data) empty_cont no_issues.

  (** BaseSchema._process, parse and dump (src/data/schemas.py 209-250). *)
  Definition base_parse (m : method) (s : schema) (data : value) : res outcome :=
    match data with
    | VNone => Ok (fail e_missing)
    | VDict _ | VCont _ _ =>
        let! (data', iss') := process_data m s data in
        let iss := merge no_issues iss' [] in
        match attr_named (sc_attrs s) ($"schemas") with
        | None => Raise AttributeErr
        | Some a =>
            let! schemas_ := get_item data' (arep a) in
            if can_proceed iss [schemas_loc] && truthy schemas_ then
              let! iss2 := validate_schemas_field data' schemas_ (sc_uri s) (sc_schemas s) in
              Ok (data', merge iss iss2 [])
            else Ok (data', iss)
        end
    | _ => Ok (fail (e_bad_type ($"complex") (scim_type_of data)))
    end.

  (** BaseSchema.parse (src/data/schemas.py 209-210). *)
  Definition schema_parse (s : schema) (data : value) : res outcome := base_parse MParse s data.

  (** The location of meta.resourceType (src/data/schemas.py 316-330). *)
  Definition meta_type_loc : loc := [LStr ($"meta"); LStr ($"resourceType")].

  (** validate_resource_type_consistency (src/data/schemas.py 316-330). *)
  Definition resource_type_issues (v : value) (expected : str) : issues :=
    match v with
    | VStr s => if str_eqb s expected then no_issues
                else add_issue no_issues e_resource_type_mismatch true meta_type_loc
    | _ => add_issue no_issues e_resource_type_mismatch true meta_type_loc
    end.

  (** ResourceSchema.dump (src/data/schemas.py 404-418). *)
  Definition schema_dump (s : schema) (data : value) : res outcome :=
    let! (data', iss) := base_parse MDump s data in
    if negb (can_proceed iss []) then Ok (data', iss)
    else if can_proceed iss [meta_type_loc] then
      match attr_named2 (sc_attrs s) ($"meta") ($"resourcetype") with
      | None => Raise AttributeErr
      | Some a =>
          let! rt := get_item data' (arep a) in
          if is_missing rt then Ok (data', iss)
          else Ok (data', merge iss (resource_type_issues rt (sc_name s)) [])
      end
    else Ok (data', iss).
End Env.

(** get_schema_rep (src/data/schemas.py 421-431). *)
Definition get_schema_rep (s : schema) : res value :=
  let! ds := mapM attr_to_dict (at_top (sc_attrs s)) in
  Ok (dict_of [($"id", VStr (sc_uri s));
               ($"schemas", VList [VStr ($"urn:ietf:params:scim:schemas:core:2.0:Schema")]);
               ($"name", VStr (sc_name s)); ($"description", VStr (sc_descr s));
               ($"attributes", VList ds);
               ($"meta", dict_of [($"resourceType", VStr ($"Schema"))])]).

(** SchemaExtension.to_dict (src/data/schemas.py 463-469). *)
Definition ext_to_dict (e : extension) : res value :=
  let! ds := mapM attr_to_dict (at_all (ex_attrs e)) in
  Ok (dict_of [($"id", VStr (ex_uri e)); ($"name", VStr (ex_name e));
               ($"description", VStr (ex_descr e)); ($"attributes", VList ds)]).
