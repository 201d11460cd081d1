(** Model of /repo/src/assets/schemas/list_response.py. *)
From Verif Require Import PyBase PyNum Issues AttrRep Value Container Types Attr Schema Match FilterParse Sort.

(** ValidationError.must_be_equal_to (src/error.py 108-110). *)
Definition e_must_equal (what : str) : error := mkErr 11 [what].

(** list_response.py 35 *)
Definition list_uri : str := $"urn:ietf:params:scim:api:messages:2.0:ListResponse".

(** ListResponse.__init__ (list_response.py 10-43), without the resource
    schemas. *)
Definition list_schema : schema :=
  base_schema list_uri
    [mk_simple (with_required (plain ($"totalResults") TInteger));
     mk_simple (plain ($"startIndex") TInteger);
     mk_simple (plain ($"itemsPerPage") TInteger);
     mk_simple (plain ($"Resources") TUnknown)].

(** self.attrs.<name>.rep (list_response.py 45-90) *)
Definition list_rep (name : str) : attr_rep := mkRep list_uri name [] false.

(** validate_items_per_page_consistency (list_response.py 117-136); bool is a
    subclass of int. *)
Definition items_per_page_issues (n : nat) (v : value) : issues :=
  let check z := if Z.eqb z (Z.of_nat n) then no_issues
                 else add_issue (add_issue no_issues (e_must_equal ($"number of resources")) true
                                           [LStr ($"itemsPerPage")])
                                (e_must_equal ($"itemsPerPage")) true [LStr ($"Resources")] in
  match v with
  | VInt z => check z
  | VBool b => check (if b then 1%Z else 0%Z)
  | _ => no_issues
  end.

(** Whether a value can be an element of a set (list_response.py 102-114). *)
Definition hashable (v : value) : bool :=
  match v with
  | VList _ | VDict _ | VCont _ _ | VRep _ | VFilter _ | VPath _ => false
  | _ => true
  end.

(** First schema whose URIs include every listed one (list_response.py
    111-113); [i] is the position of the schema, its identity. *)
Fixpoint first_covering (vals : list value) (i : nat) (schemas : list schema) : schema_ref :=
  match schemas with
  | [] => None
  | s :: t =>
      let known := map lower (sc_schemas s) in
      if forallb (fun v => match v with VStr x => smem (lower x) known | _ => false end) vals
      then Some (i, s) else first_covering vals (S i) t
  end.

(** _infer_schema_from_data (list_response.py 102-114). *)
Definition infer_schema (schemas : list schema) (data : value) : res schema_ref :=
  match data with
  | VCont _ _ =>
      let! v := get_item data (list_rep ($"schemas")) in
      match v with
      | VList (x :: t) =>
          if forallb hashable (x :: t) then Ok (first_covering (x :: t) 0 schemas) else Raise TypeErr
      | _ => Ok None
      end
  | _ => Ok None
  end.

(** get_schemas_for_resources (list_response.py 92-100). *)
Definition schemas_for (schemas : list schema) (resources : list value) : res (list schema_ref) :=
  match schemas with
  | [s] => Ok (map (fun _ => Some (0, s)) resources)
  | _ => mapM (infer_schema schemas) resources
  end.

Section Env.
  Context {env : PyEnv}.

  (** The location of one resource (list_response.py 45-90). *)
  Definition resource_loc (i : nat) : loc := [LStr ($"Resources"); LIdx i].

  (** Loop over the resources (list_response.py 75-87). *)
  Fixpoint dump_resources (i : nat) (l : list value) (schemas : list schema_ref) (acc : list value)
      (iss : issues) : res (list value * issues) :=
    match l, schemas with
    | x :: l', s :: schemas' =>
        match s with
        | None => dump_resources (S i) l' schemas' (acc ++ [VInvalid])
                    (add_issue iss e_unknown_schema false (resource_loc i))
        | Some (_, s) =>
            let! (x', iss') := schema_dump s x in
            dump_resources (S i) l' schemas' (acc ++ [x']) (merge iss iss' (resource_loc i))
        end
    | _, _ => Ok (acc, iss)
    end.

  (** ListResponse.dump (list_response.py 45-90). *)
  Definition list_dump (schemas : list schema) (data : value) : res outcome :=
    let! (data, iss) := base_parse MDump list_schema data in
    if negb (can_proceed iss []) then Ok (data, iss)
    else
      let! rs := get_item data (list_rep ($"Resources")) in
      match rs with
      | VMissing => Ok (data, iss)
      | VList l =>
          let! iss := if can_proceed iss [[LStr ($"itemsPerPage")]] then
                        let! ipp := get_item data (list_rep ($"itemsPerPage")) in
                        Ok (merge iss (items_per_page_issues (length l) ipp) [])
                      else Ok iss in
          let! ss := schemas_for schemas l in
          let! (l', iss) := dump_resources 0 l ss [] iss in
          let! data := set_item data (list_rep ($"Resources")) (VList l') in
          Ok (data, iss)
      | _ => Ok (data, add_issue iss (e_bad_type ($"list") (scim_type_of rs)) false
                                 [LStr ($"Resources")])
      end.
End Env.
