(** Model of /repo/src/assets/schemas/patch_op.py. *)
From Verif Require Import PyBase PyNum Issues AttrRep Value Container Types Attr Schema Match FilterParse Path.

(** ValidationError.unknown_operation_target (src/error.py 275-277). *)
Definition e_unknown_target : error := err 303.
(** ValidationError.attribute_can_not_be_modified (src/error.py 279-281). *)
Definition e_not_modifiable : error := err 304.
(** ValidationError.complex_filter_without_sub_attr_for_add_op (src/error.py 283-285). *)
Definition e_filter_without_sub : error := err 305.
(** ValidationError.attribute_can_not_be_deleted (src/error.py 287-289). *)
Definition e_not_deletable : error := err 306.

(** Operations: key "Operations" and the three sub-attributes
    (patch_op.py 10-30, 64-74). *)
Definition ops_name : str := $"Operations".
(** patch_op.py 10-17 *)
Definition op_attr : attribute :=
  mk_simple (with_canon true [LitStr ($"add"); LitStr ($"remove"); LitStr ($"replace")]
    (with_required (plain ($"op") TString))).
(** parsers=[PatchPath.parse] (patch_op.py 23); other values than str never
    reach it. *)
Definition path_parser : proc := fun v =>
  match v with VStr s => parse_path s | _ => Raise TypeErr end.
(** patch_op.py 19-25 *)
Definition path_attr : attribute := mk_simple (with_procs [path_parser] [] (plain ($"path") TString)).
(** patch_op.py 27-30 *)
Definition value_attr : attribute := mk_simple (plain ($"value") TUnknown).

(** v == "text" for a fixed text, e.g. patch_op.py 33-61. *)
Definition str_is (v : value) (s : str) : bool := match v with VStr t => str_eqb t s | _ => false end.

(** One operation in validate_operations (patch_op.py 37-60): the operation and
    the report so far.  A path is None, Missing or a PatchPath here; on anything
    else the attribute access of line 55 fails. *)
Definition validate_operation (i : nat) (c : value) (iss : issues) : res (value * issues) :=
  let! type_ := get_item c (arep op_attr) in
  let! path := get_item c (arep path_attr) in
  let! v := get_item c (arep value_attr) in
  if str_is type_ ($"remove") && is_none_or_missing path then
    let! c' := del_item c (arep value_attr) in
    Ok (c', add_issue iss e_missing false [LIdx i; LStr ($"path")])
  else if str_is type_ ($"add") then
    let iss := if is_none_or_missing v then add_issue iss e_missing false [LIdx i; LStr ($"value")]
               else iss in
    if truthy path then
      match path with
      | VPath p =>
          Ok (c, match p_filter p, p_sub p with
                 | Some _, None => add_issue iss e_filter_without_sub false [LIdx i; LStr ($"path")]
                 | _, _ => iss
                 end)
      | _ => Raise AttributeErr
      end
    else Ok (c, iss)
  else Ok (c, iss).

(** validate_operations (patch_op.py 33-61). *)
Definition validate_operations : proc := fun v =>
  let! l := iter_value v in
  let! (l', iss) := foldM (fun st e => let! (c, iss) := validate_operation (fst e) (snd e) (snd st) in
                                       Ok (fst st ++ [c], iss)) (enumerate l) ([], no_issues) in
  Ok (VList l', iss).

(** operations (patch_op.py 64-74). *)
Definition operations_attr : attribute :=
  mk_complex (with_multi (with_required (plain ops_name TComplex)))
    [op_attr; path_attr; value_attr] [validate_operations] [].

(** patch_op.py 80 *)
Definition patch_uri : str := $"urn:ietf:params:scim:api:messages:2.0:PatchOp".
(** PatchOp.__init__ (patch_op.py 77-83). *)
Definition patch_schema : schema := base_schema patch_uri [operations_attr].

(** self.attrs.operations__<sub>.rep of a schema with an Operations attribute
    (patch_op.py 85-117). *)
Definition ops_rep (uri sub : str) : attr_rep := mkRep uri ops_name sub false.

(** validate_operation_path (patch_op.py 250-260); attribute access on anything
    but a path fails. *)
Definition validate_operation_path (s : schema) (path : value) : res issues :=
  let all := at_all (sc_attrs s) in
  let none r := match find_attr all r with None => true | Some _ => false end in
  match path with
  | VPath p =>
      if none (p_rep p) || match p_sub p with Some r => none r | None => false end
      then Ok (add_issue no_issues e_unknown_target false [])
      else Ok no_issues
  | _ => Raise AttributeErr
  end.

(** issues.add under a condition, e.g. patch_op.py 33-61. *)
Definition add_if (b : bool) (e : error) (proceed : bool) (l : loc) (iss : issues) : issues :=
  if b then add_issue iss e proceed l else iss.

(** PatchOp._parse_remove_operation (patch_op.py 119-162). *)
Definition parse_remove (s : schema) (path : value) : res outcome :=
  let! iss := validate_operation_path s path in
  if has_issues iss [] then Ok (VInvalid, iss)
  else
    let l := [LStr ($"path")] in
    let all := at_all (sc_attrs s) in
    let done iss := Ok (mk_cont (dict_of [($"op", VStr ($"remove")); ($"path", path)]), iss) in
    match path with
    | VPath p =>
        match find_attr all (p_rep p), p_sub p with
        | None, _ => Raise AttributeErr
        | Some a, None =>
            done (add_if (a_required (info a) && negb (is_complex a)) e_not_deletable true l
                    (add_if (is_read_only (a_mut (info a))) e_not_modifiable true l iss))
        | Some a, Some r =>
            match find_attr all r with
            | None => Raise AttributeErr
            | Some b =>
                done (add_if (is_read_only (a_mut (info a)) || is_read_only (a_mut (info b)))
                        e_not_modifiable true l
                        (add_if (a_required (info b)) e_not_deletable true l iss))
            end
        end
    | _ => Raise AttributeErr
    end.

Section Env.
  Context {env : PyEnv}.

  (** Loop of lines 236-246: read-only sub-attributes of a single-valued complex
      value.  The reported location uses the sub-attribute's own [sub_attr],
      which is empty. *)
  Fixpoint read_only_subs (l : list attribute) (v : value) (iss : issues) : res issues :=
    match l with
    | [] => Ok iss
    | a :: t =>
        if is_read_only (a_mut (info a)) then
          let! x := get_item v (arep a) in
          read_only_subs t v (add_if (negb (is_missing x)) e_not_modifiable false
                                     [LStr (r_sub (arep a))] iss)
        else read_only_subs t v iss
    end.

  (** PatchOp._parse_update_attr_value (patch_op.py 215-247). *)
  Definition parse_update_value (s : schema) (r : attr_rep) (v : value) : res outcome :=
    match find_attr (at_all (sc_attrs s)) r with
    | None => Ok (VInvalid, no_issues)
    | Some a =>
        if is_read_only (a_mut (info a)) then Ok (fail e_not_modifiable)
        else
          let! (v', iss) := process a MParse v in
          if has_issues iss [] then Ok (v', merge no_issues iss [])
          else if is_complex a && negb (a_multi (info a)) then
            let! iss := read_only_subs (sub_attrs a) v' no_issues in Ok (v', iss)
          else Ok (v', no_issues)
    end.

  (** Location of a read-only attribute (patch_op.py 194-198). *)
  Definition read_only_loc (r : attr_rep) : loc :=
    (if r_ext r then [LStr (r_schema r)] else [])
    ++ LStr (r_attr r) :: (if nonempty (r_sub r) then [LStr (r_sub r)] else []).

  (** Loop of lines 189-203. *)
  Fixpoint read_only_attrs (l : list attribute) (v : value) (iss : issues) : res issues :=
    match l with
    | [] => Ok iss
    | a :: t =>
        let! x := get_item v (arep a) in
        read_only_attrs t v (add_if (negb (is_missing x) && is_read_only (a_mut (info a)))
                                    e_not_modifiable false (read_only_loc (arep a)) iss)
    end.

  (** PatchOp._parse_operation_value (patch_op.py 181-213). *)
  Definition parse_operation_value (s : schema) (path v : value) : res outcome :=
    match path with
    | VNone | VMissing =>
        let! (v', iss) := schema_parse s v in
        let iss := snd (pop_issues iss schemas_loc 27) in
        let iss := snd (pop_issues iss schemas_loc 28) in
        let iss := snd (pop_issues iss schemas_loc 29) in
        let! iss := read_only_attrs (at_all (sc_attrs s)) v' iss in
        Ok (v', iss)
    | VPath p =>
        let complex := match find_attr (at_all (sc_attrs s)) (p_rep p) with
                       | Some a => is_complex a | None => false end in
        match complex, p_filter p, p_sub p with
        | true, Some _, Some r => parse_update_value s r v
        | _, _, _ => parse_update_value s (p_rep p) v
        end
    | _ => Raise AttributeErr
    end.

  (** PatchOp._parse_add_or_replace_operation (patch_op.py 164-179). *)
  Definition parse_add_or_replace (s : schema) (op path v : value) : res outcome :=
    let! iss := if is_none_or_missing path then Ok no_issues else validate_operation_path s path in
    if has_issues iss [] then Ok (VInvalid, merge no_issues iss [LStr ($"path")])
    else
      let! (v', iss') := parse_operation_value s path v in
      Ok (mk_cont (dict_of [($"op", op); ($"path", path); ($"value", v')]),
          merge no_issues iss' [LStr ($"value")]).

  (** The location of one operation (patch_op.py 85-117). *)
  Definition op_loc (i : nat) : loc := [LStr ops_name; LIdx i].

  (** Body of the loop of PatchOp.parse (patch_op.py 95-114). *)
  Definition parse_operation (s : schema) (i : nat) (op path v : value) (iss : issues) : res outcome :=
    if has_issues iss [op_loc i] then
      Ok (mk_cont (dict_of [($"op", op); ($"path", path); ($"value", v)]), iss)
    else
      let! (o, iss') := if str_is op ($"add") || str_is op ($"replace")
                        then parse_add_or_replace s op path v
                        else parse_remove s path in
      Ok (o, merge iss iss' (op_loc i)).

  (** The loop of PatchOp.parse (patch_op.py 85-117). *)
  Fixpoint parse_operations (s : schema) (i : nat) (ops paths vals : list value) (acc : list value)
      (iss : issues) : res (list value * issues) :=
    match ops, paths, vals with
    | op :: ops', p :: paths', v :: vals' =>
        let! (o, iss') := parse_operation s i op p v iss in
        parse_operations s (S i) ops' paths' vals' (acc ++ [o]) iss'
    | _, _, _ => Ok (acc, iss)
    end.

  (** PatchOp.parse (patch_op.py 85-117) for the resource schema [s]. *)
  Definition patch_parse (s : schema) (data : value) : res outcome :=
    let! (data, iss) := schema_parse patch_schema data in
    if negb (can_proceed iss [[LStr ops_name]]) then Ok (data, iss)
    else
      let! ops := get_item data (ops_rep patch_uri ($"op")) in
      let! paths := get_item data (ops_rep patch_uri ($"path")) in
      let! vals := get_item data (ops_rep patch_uri ($"value")) in
      let! ops := iter_value ops in
      let! paths := iter_value paths in
      let! vals := iter_value vals in
      let! (parsed, iss) := parse_operations s 0 ops paths vals [] iss in
      let! data := set_item data (arep operations_attr) (VList parsed) in
      Ok (data, iss).
End Env.
