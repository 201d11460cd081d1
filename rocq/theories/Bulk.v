(** Model of /repo/src/assets/schemas/bulk_ops.py. *)
From Verif Require Import PyBase PyNum Issues AttrRep Value Container Types Attr Schema Match FilterParse Path Patch.

(** ValidationError.resource_type_endpoint_required (src/error.py 198-200). *)
Definition e_type_endpoint : error := err 34.
(** ValidationError.resource_object_endpoint_required (src/error.py 202-204). *)
Definition e_object_endpoint : error := err 35.

(** Sub-attributes of the operations (bulk_ops.py 79-106, 179-208). *)
Definition b_method : attribute :=
  mk_simple (with_canon true [LitStr ($"GET"); LitStr ($"POST"); LitStr ($"PATCH"); LitStr ($"PUT");
                              LitStr ($"DELETE")] (with_required (plain ($"method") TString))).
(** bulk_ops.py 87-90 *)
Definition b_id : attribute := mk_simple (plain ($"bulkId") TString).
(** bulk_ops.py 92-95 *)
Definition b_version : attribute := mk_simple (plain ($"version") TString).
(** bulk_ops.py 97-101 *)
Definition b_path : attribute := mk_simple (with_required (plain ($"path") TString)).
(** bulk_ops.py 103-106 *)
Definition b_data : attribute := mk_simple (plain ($"data") TUnknown).
(** bulk_ops.py 179-182 *)
Definition b_location : attribute := mk_simple (plain ($"location") TExternalRef).
(** bulk_ops.py 184-187 *)
Definition b_response : attribute := mk_simple (plain ($"response") TUnknown).

(** _RESOURCE_TYPE_REGEX.fullmatch: /\w+ (bulk_ops.py 10). *)
Definition slash : ascii := "/"%char.
(** _RESOURCE_TYPE_REGEX.fullmatch (bulk_ops.py 10). *)
Definition resource_type_path (s : str) : bool :=
  match s with c :: t => chr_eqb c slash && nonempty_word t | [] => false end.
(** _RESOURCE_OBJECT_REGEX.fullmatch: /\w+/.* (bulk_ops.py 11); the dot does not
    match a newline. *)
Definition newline : ascii := ascii_of_N 10.
(** _RESOURCE_OBJECT_REGEX.fullmatch (bulk_ops.py 11). *)
Definition resource_object_path (s : str) : bool :=
  match s with
  | c :: t =>
      chr_eqb c slash &&
      let (name, rest) := span is_word t in
      nonempty name &&
      match rest with
      | d :: u => chr_eqb d slash && forallb (fun x => negb (chr_eqb x newline)) u
      | [] => false
      end
  | [] => false
  end.

(** v in [...] for fixed texts (bulk_ops.py 25-76, 137-176). *)
Definition str_in (v : value) (l : list str) : bool := existsb (str_is v) l.

(** fullmatch of something that is not a str raises TypeError (bulk_ops.py 25-76). *)
Definition path_text (v : value) : res str := match v with VStr s => Ok s | _ => Raise TypeErr end.

(** The location of a field of one operation (bulk_ops.py 25-76). *)
Definition sub_loc (i : nat) (a : attribute) : loc := [LIdx i; LStr (r_attr (arep a))].

(** One operation in validate_request_operations (bulk_ops.py 30-75). *)
Definition validate_request_operation (i : nat) (c : value) (iss : issues) : res (value * issues) :=
  let! m := get_item c (arep b_method) in
  let iss := add_if (is_none_or_missing m) e_missing false (sub_loc i b_method) iss in
  let! bid := get_item c (arep b_id) in
  let iss := add_if (str_is m ($"POST") && is_none_or_missing bid) e_missing false (sub_loc i b_id) iss in
  let! c := if str_in m [$"GET"; $"DELETE"] then del_item c (arep b_data) else Ok c in
  let! path := get_item c (arep b_path) in
  let! iss :=
    if is_none_or_missing path then Ok (add_issue iss e_missing false (sub_loc i b_path))
    else if str_is m ($"POST") then
      let! p := path_text path in
      Ok (add_if (negb (resource_type_path p)) e_type_endpoint false (sub_loc i b_path) iss)
    else if str_in m [$"GET"; $"PATCH"; $"PUT"; $"DELETE"] then
      let! p := path_text path in
      Ok (add_if (negb (resource_object_path p)) e_object_endpoint false (sub_loc i b_path) iss)
    else Ok iss in
  let! data := get_item c (arep b_data) in
  let iss := add_if (str_in m [$"POST"; $"PUT"; $"PATCH"] && is_none_or_missing data)
                    e_missing false (sub_loc i b_data) iss in
  Ok (c, iss).

(** for i, item in enumerate(value) (bulk_ops.py 25-76, 137-176). *)
Definition each_operation (f : nat -> value -> issues -> res (value * issues)) : proc := fun v =>
  let! l := iter_value v in
  let! (l', iss) := foldM (fun st e => let! (c, iss) := f (fst e) (snd e) (snd st) in
                                       Ok (fst st ++ [c], iss)) (enumerate l) ([], no_issues) in
  Ok (VList l', iss).

(** validate_request_operations (bulk_ops.py 25-76). *)
Definition validate_request_operations : proc := each_operation validate_request_operation.

(** _validate_status (bulk_ops.py 190-200). *)
Definition validate_status : proc := fun v =>
  match py_int v with
  | Ok _ => Ok (pass v)
  | Raise ValueErr => Ok (fail e_bad_syntax)
  | Raise e => Raise e
  end.
(** bulk_ops.py 203-208 *)
Definition b_status : attribute :=
  mk_simple (with_procs [] [validate_status] (with_required (plain ($"status") TString))).

(** One operation in validate_response_operations (bulk_ops.py 142-175). *)
Definition validate_response_operation (i : nat) (c : value) (iss : issues) : res (value * issues) :=
  let! m := get_item c (arep b_method) in
  let iss := add_if (is_none_or_missing m) e_missing false (sub_loc i b_method) iss in
  let! bid := get_item c (arep b_id) in
  let iss := add_if (str_is m ($"POST") && is_none_or_missing bid) e_missing false (sub_loc i b_id) iss in
  let! st := get_item c (arep b_status) in
  let! iss :=
    if truthy st then
      let! lo := get_item c (arep b_location) in
      let! need_location :=
        if is_none_or_missing lo && truthy m then
          if str_is m ($"POST") then let! z := py_int st in Ok (z <? 300)%Z else Ok true
        else Ok false in
      let iss := add_if need_location e_missing false (sub_loc i b_location) iss in
      let! re := get_item c (arep b_response) in
      let! need_response :=
        if is_none_or_missing re then let! z := py_int st in Ok (300 <=? z)%Z else Ok false in
      Ok (add_if need_response e_missing false (sub_loc i b_response) iss)
    else Ok (add_if (is_none_or_missing st) e_missing false (sub_loc i b_status) iss) in
  Ok (c, iss).

(** validate_response_operations (bulk_ops.py 137-176). *)
Definition validate_response_operations : proc := each_operation validate_response_operation.

(** bulk_ops.py 132 *)
Definition bulk_request_uri : str := $"urn:ietf:params:scim:api:messages:2.0:BulkRequest".
(** bulk_ops.py 230 *)
Definition bulk_response_uri : str := $"urn:ietf:params:scim:api:messages:2.0:BulkResponse".

(** BulkRequest and BulkResponse (bulk_ops.py 109-134, 211-231). *)
Definition bulk_request_schema : schema :=
  base_schema bulk_request_uri
    [mk_simple (plain ($"failOnErrors") TInteger);
     mk_complex (with_multi (with_required (plain ops_name TComplex)))
       [b_method; b_id; b_version; b_path; b_data] [validate_request_operations] []].
(** bulk_ops.py 211-231 *)
Definition bulk_response_schema : schema :=
  base_schema bulk_response_uri
    [mk_complex (with_multi (with_required (plain ops_name TComplex)))
       [b_method; b_id; b_version; b_location; b_status; b_response] [] [validate_response_operations]].
