(** Model of /repo/src/request_validators.py and of the parts of
    /repo/src/assets/config.py it uses. *)
From Verif Require Import PyBase PyNum Issues AttrRep Value Container Types Attr Schema Assets Presence
  Match FilterParse Path Sort Patch ListResp Search Bulk.
Local Open Scope Z_scope.

(** RequestData and ResponseData (request_validators.py 25-35). *)
Record request := mkReq { rq_headers : value; rq_query : value; rq_body : value }.
(** ResponseData (request_validators.py 32-35). *)
Record response := mkResp { rs_headers : value; rs_body : value }.

(** ValidationError constructors used here (src/error.py 104-219). *)
Definition e_missing_header : error := mkErr 10 [$"Location"].
(** ValidationError.error_status_mismatch (src/error.py 116-118). *)
Definition e_status_mismatch : error := err 13.
(** ValidationError.bad_status_code (src/error.py 128-130). *)
Definition e_bad_status : error := err 16.
(** ValidationError.too_many_results (src/error.py 140-142). *)
Definition e_too_many_results : error := err 21.
(** ValidationError.total_results_mismatch (src/error.py 144-146). *)
Definition e_total_mismatch : error := err 22.
(** ValidationError.too_little_results (src/error.py 148-150). *)
Definition e_too_little_results : error := err 23.
(** ValidationError.response_value_does_not_correspond_to_parameter (src/error.py 152-167). *)
Definition e_start_index : error := err 24.
(** ValidationError.included_resource_does_not_match_filter (src/error.py 170-172). *)
Definition e_filter_mismatch : error := err 25.
(** ValidationError.resources_not_sorted (src/error.py 174-176). *)
Definition e_not_sorted : error := err 26.
(** ValidationError.unknown_resource (src/error.py 206-208). *)
Definition e_unknown_resource : error := err 36.
(** ValidationError.too_many_operations (src/error.py 210-212). *)
Definition e_too_many_ops : error := err 37.
(** ValidationError.too_many_errors (src/error.py 214-216). *)
Definition e_too_many_errors : error := err 38.
(** ValidationError.not_supported (src/error.py 218-220). *)
Definition e_not_supported : error := err 39.

(** skip_if_bad_data (request_validators.py 38-46). *)
Definition skip_if_bad_data (m : res issues) : res issues :=
  match m with
  | Raise TypeErr | Raise AttributeErr | Raise IndexErr | Raise ValueErr => Ok no_issues
  | _ => m
  end.

(** The location of the body (request_validators.py 158-224). *)
Definition body_loc : loc := [LStr ($"body")].
(** The location of the status code (request_validators.py 148-156). *)
Definition status_loc : loc := [LStr ($"status")].
(** The location of the query string (request_validators.py 552-618). *)
Definition query_loc : loc := [LStr ($"query_string")].
(** The location of the Location header (request_validators.py 113-146). *)
Definition header_location_loc : loc := [LStr ($"headers"); LStr ($"Location")].
(** The location of meta.location (request_validators.py 129-146). *)
Definition meta_location_loc : loc := [LStr ($"meta"); LStr ($"location")].

(** _location (request_validators.py 1199-1202) is [presence_loc]. *)

(** str(n) for an int (request_validators.py 82-100). *)
Definition dec_of_Z (z : Z) : str :=
  match z with
  | Z0 => $"0"
  | Zpos p => dec_of_nat (Pos.to_nat p)
  | Zneg p => "-"%char :: dec_of_nat (Pos.to_nat p)
  end.

(** body.to_dict() when there are no issues, None otherwise; anything but a
    container has no to_dict (request_validators.py 177-224). *)
Definition dump_body (body : value) (iss : issues) : res value :=
  if has_issues iss [] then Ok VNone
  else match body with
       | VCont _ _ => Ok (to_dict body)
       | _ => Raise AttributeErr
       end.

(** A body that is dropped when there are issues (request_validators.py 158-175). *)
Definition keep_body (body : value) (iss : issues) : value := if has_issues iss [] then VNone else body.

(** AttributePresenceChecker() (src/attributes_presence.py 9-17). *)
Definition default_checker : checker := mkChecker [] None [].
(** presence_checker or AttributePresenceChecker() (request_validators.py 177-224). *)
Definition checker_or_default (c : option checker) : checker :=
  match c with Some c => c | None => default_checker end.

(** self._schema.attrs.<name>.rep and .<name>__<sub>.rep
    (src/data/attributes.py 425-442) *)
Definition named_rep (s : schema) (name : str) : res attr_rep :=
  match attr_named (sc_attrs s) name with Some a => Ok (arep a) | None => Raise AttributeErr end.
(** attrs.<name>__<sub>.rep (src/data/attributes.py 425-442). *)
Definition named_rep2 (s : schema) (name sub : str) : res attr_rep :=
  match attr_named2 (sc_attrs s) name sub with Some a => Ok (arep a) | None => Raise AttributeErr end.

(** validate_error_status_code_consistency (request_validators.py 82-99). *)
Definition error_status_consistency (name : str) (body_status : value) (status : Z) : issues :=
  if str_is body_status (dec_of_Z status) then no_issues
  else add_issue (add_issue no_issues e_status_mismatch true (body_loc ++ [LStr name]))
                 e_status_mismatch true status_loc.

(** validate_error_status_code (request_validators.py 102-110). *)
Definition error_status_code (status : Z) : issues :=
  if (200 <=? status) && (status <? 600) then no_issues
  else add_issue no_issues e_bad_error_status true status_loc.

(** validate_resource_location_in_header (request_validators.py 113-126). *)
Definition location_in_header (headers : value) (required : bool) : issues :=
  let present := match headers with VDict d => amem dkey_eqb (KStr ($"Location")) d | _ => false end in
  if negb present && required then add_issue no_issues e_missing_header false [LStr ($"Location")]
  else no_issues.

(** validate_resource_location_consistency (request_validators.py 129-145). *)
Definition location_consistency (meta_location header : value) : res issues :=
  let! e := veq meta_location header in
  Ok (if e : bool then no_issues
      else add_issue (add_issue no_issues (e_must_equal ($"'Location' header")) true
                                (body_loc ++ meta_location_loc))
                     (e_must_equal ($"'meta.location'")) true header_location_loc).

(** validate_status_code (request_validators.py 148-155). *)
Definition status_code_issues (expected actual : Z) : issues :=
  if expected =? actual then no_issues else add_issue no_issues e_bad_status true [].

(** query_string.get(key) and query_string.get(key, default)
    (request_validators.py 365-432) *)
Definition qget (d : list (dkey * value)) (k : str) (default : value) : value :=
  match aget dkey_eqb (KStr k) d with Some v => v | None => default end.
(** query_string[key] = v (request_validators.py 598, 609). *)
Definition qset (d : list (dkey * value)) (k : str) (v : value) : list (dkey * value) :=
  aset dkey_eqb (KStr k) v d.

(** str.split(",") (request_validators.py 402-406) *)
Fixpoint split_on (sep : ascii) (s : str) : list str :=
  match s with
  | [] => [[]]
  | c :: t =>
      if chr_eqb c sep then [] :: split_on sep t
      else match split_on sep t with
           | [] => [[c]]
           | w :: ws => (c :: w) :: ws
           end
  end.
(** The separator of attribute lists (request_validators.py 402-406). *)
Definition comma : ascii := ","%char.

(** Lines 401-406: a non-empty str becomes a list of names. *)
Definition names_of (v : value) : value :=
  match v with VStr (c :: s) => VList (map VStr (split_on comma (c :: s))) | _ => v end.

(** parse_requested_attributes (request_validators.py 397-431). *)
Definition requested_attributes (q : list (dkey * value)) : res outcome :=
  let inc := names_of (qget q ($"attributes") (VList [])) in
  let exc := names_of (qget q ($"excludeAttributes") (VList [])) in
  match inc, exc with
  | VList li, VList le =>
      if negb (truthy inc || truthy exc) then Ok (VNone, no_issues)
      else if truthy inc && truthy exc then
        Ok (VInvalid,
            add_issue (add_issue no_issues (e_not_together ($"excludeAttributes")) false [LStr ($"attributes")])
                      (e_not_together ($"attributes")) false [LStr ($"excludeAttributes")])
      else
        let! (c, iss) := parse_checker (if truthy inc then li else le) (Some (truthy inc)) in
        Ok (c, merge no_issues iss
                 [LStr (if truthy inc then $"attributes" else $"excludeAttributes")])
  | _, _ => Ok (VInvalid, no_issues)
  end.

(** The query-string step shared by GET, PUT, POST and PATCH
    (request_validators.py 244-248 and the like): the updated query string and
    the report. *)
Definition query_step (query : value) : res outcome :=
  match query with
  | VDict q =>
      let! (c, iss') := requested_attributes q in
      Ok (if has_issues iss' [] then query else VDict (qset q ($"presence_checker") c),
          merge no_issues iss' query_loc)
  | _ => Ok (query, no_issues)
  end.

(** parse_request_sorting (request_validators.py 365-381). *)
Definition request_sorting (q : list (dkey * value)) : outcome :=
  match qget q ($"sortBy") VNone with
  | VStr by_ => parse_sorter by_ (str_is (qget q ($"sortOrder") (VStr ($"ascending"))) ($"ascending"))
  | VNone => (VInvalid, no_issues)
  | v => fail (e_bad_type ($"string") (scim_type_of v))
  end.

(** parse_request_filtering (request_validators.py 384-394). *)
Definition request_filtering (q : list (dkey * value)) : res outcome :=
  match qget q ($"filter") VNone with
  | VStr s => parse_filter s
  | VNone => Ok (VInvalid, no_issues)
  | v => Ok (fail (e_bad_type ($"string") (scim_type_of v)))
  end.

(** count and startIndex (request_validators.py 595-617). *)
Definition int_param (q : list (dkey * value)) (key : str) (iss : issues)
  : res (list (dkey * value) * issues) :=
  match qget q key VNone with
  | VNone => Ok (q, iss)
  | v => match py_int v with
         | Ok z => Ok (qset q key (VInt z), iss)
         | Raise ValueErr =>
             Ok (q, add_issue iss (e_bad_type ($"integer") (scim_type_of v)) false
                              (query_loc ++ [LStr key]))
         | Raise e => Raise e
         end
  end.

(** _parse_resources_get_request (request_validators.py 552-618). *)
Definition list_parse_request (body headers query : value) : res (request * issues) :=
  match query with
  | VNone => Ok (mkReq headers query body, add_issue no_issues e_missing false query_loc)
  | VDict q =>
      let! (f, iss') := request_filtering q in
      let q := qset q ($"filter") f in
      let iss := merge no_issues iss' (query_loc ++ [LStr ($"filter")]) in
      let (so, iss') := request_sorting q in
      let q := qset q ($"sorter") so in
      let iss := merge iss iss' (query_loc ++ [LStr ($"sortby")]) in
      let! (c, iss') := requested_attributes q in
      let q := if has_issues iss' [] then q else qset q ($"presence_checker") c in
      let iss := merge iss iss' query_loc in
      let! (q, iss) := int_param q ($"count") iss in
      let! (q, iss) := int_param q ($"startIndex") iss in
      Ok (mkReq headers (VDict q) body, iss)
  | _ => Ok (mkReq headers query body,
             add_issue no_issues (e_bad_type ($"dict") ($"tuple")) false query_loc)
  end.

(** _ServiceProviderConfig.parse_request (request_validators.py 1176-1186). *)
Definition config_parse_request (headers query : value) : request * issues :=
  let has := match query with VDict q => amem dkey_eqb (KStr ($"filter")) q | _ => false end in
  (mkReq headers VNone VNone,
   if has then add_issue no_issues e_not_supported false (query_loc ++ [LStr ($"filter")]) else no_issues).

(** Attributes the server issues and whose absence is not an error in a request
    (request_validators.py 331-334, 881-884). *)
Definition server_required (l : list attribute) : list attr_rep :=
  map arep (filter (fun a => a_required (info a)
                             && match a_issuer (info a) with IssServer => true | _ => false end) l).

(** del body[attr.rep] for every read-only attribute (request_validators.py
    291-293). *)
Definition strip_read_only (l : list attribute) (body : value) : res value :=
  foldM (fun b a => if is_read_only (a_mut (info a)) then del_item b (arep a) else Ok b) l body.

(** validate_start_index_consistency (request_validators.py 518-534); > on
    something that is not a number raises. *)
Definition num_gt (a b : value) : res bool :=
  match order a b with Some c => Ok (cmp_holds OpGt c) | None => Raise TypeErr end.
(** a < b on numbers (request_validators.py 463-535). *)
Definition num_lt (a b : value) : res bool :=
  match order a b with Some c => Ok (cmp_holds OpLt c) | None => Raise TypeErr end.
(** validate_start_index_consistency (request_validators.py 518-535). *)
Definition start_index_consistency (requested : Z) (in_body : value) : res issues :=
  let! gt := num_gt in_body (VInt requested) in
  Ok (if gt : bool then add_issue no_issues e_start_index true [] else no_issues).

(** len(resources) (request_validators.py 463-515). *)
Definition zlen (l : list value) : Z := Z.of_nat (length l).

(** validate_number_of_resources (request_validators.py 463-487). *)
Definition number_of_resources (count : option Z) (total : value) (l : list value) : res issues :=
  let! less := num_lt total (VInt (zlen l)) in
  let iss := if less : bool then add_issue no_issues e_total_mismatch true [] else no_issues in
  match count with
  | None =>
      let! more := num_gt total (VInt (zlen l)) in
      Ok (if more : bool then add_issue iss e_too_little_results true [] else iss)
  | Some c => Ok (if c <? zlen l then add_issue iss e_too_many_results true [] else iss)
  end.

(** validate_pagination_info (request_validators.py 490-515). *)
Definition pagination_info (count : option Z) (total : value) (l : list value)
    (start_index items_per_page : value) : res issues :=
  skip_if_bad_data
    (let! paginated :=
       (if 0 <? match count with Some c => c | None => 0 end then num_gt total (VInt (zlen l))
        else Ok false) in
     if paginated : bool then
       Ok (add_if (is_none_or_missing items_per_page) e_missing false [LStr ($"itemsPerPage")]
             (add_if (is_none_or_missing start_index) e_missing false [LStr ($"startIndex")] no_issues))
     else Ok no_issues).

(** MatchResult.__bool__ (src/data/operator.py 36-40). *)
Definition match_bool (s : status) : res bool :=
  match s with
  | MissingData => Raise ValueErr
  | Passed => Ok true
  | _ => Ok false
  end.

Section Env.
  Context {env : PyEnv}.

  (** Error.dump_response (request_validators.py 53-79). *)
  Definition error_dump (status : Z) (body headers : value) : res (response * issues) :=
    let! (body, iss') := base_parse MDump error_schema body in
    let iss := merge no_issues iss' body_loc in
    let! iss := if can_proceed iss [body_loc] then
                  let! p := presence default_checker body (at_all (sc_attrs error_schema)) Response in
                  Ok (merge iss p body_loc)
                else Ok iss in
    let! r := named_rep error_schema ($"status") in
    let! iss := if can_proceed iss [body_loc ++ presence_loc r] then
                  let! v := get_item body r in
                  Ok (merge iss (error_status_consistency (r_attr r) v status) [])
                else Ok iss in
    let iss := merge iss (error_status_code status) [] in
    let! b := dump_body body iss in
    Ok (mkResp headers b, iss).

  (** _parse_body (request_validators.py 158-174); [parse] is schema.parse. *)
  Definition parse_body (parse : proc) (s : schema) (body : value) (ignore : list attr_rep) : res outcome :=
    let! (body, iss') := parse body in
    let iss := merge no_issues iss' body_loc in
    if can_proceed iss [body_loc] then
      let! p := presence (mkChecker [] None ignore) body (at_all (sc_attrs s)) Request in
      Ok (body, merge iss p body_loc)
    else Ok (body, iss).

  (** _dump_resource_output_body (request_validators.py 177-223). *)
  Definition dump_resource (s : schema) (header_required : bool) (expected status : Z) (body headers : value)
      (c : option checker) : res (response * issues) :=
    let headers := if truthy headers then headers else VDict [] in
    let! (body, iss') := schema_dump s body in
    let iss := merge no_issues iss' body_loc in
    let iss := merge iss (location_in_header headers header_required) [LStr ($"headers")] in
    let iss := merge iss (status_code_issues expected status) status_loc in
    let! iss := if can_proceed iss [body_loc] then
                  let! p := presence (checker_or_default c) body (at_all (sc_attrs s)) Response in
                  Ok (merge iss p body_loc)
                else Ok iss in
    let! r := named_rep2 s ($"meta") ($"location") in
    let! header :=
      match headers with
      | VDict d => Ok (qget d ($"Location") VNone)
      | _ => Raise AttributeErr
      end in
    let! iss :=
      if can_proceed iss [body_loc ++ presence_loc r; header_location_loc]
         && match header with VNone => false | _ => true end then
        let! v := get_item body r in
        let! i := location_consistency v header in
        Ok (merge iss i [])
      else Ok iss in
    let! b := dump_body body iss in
    Ok (mkResp headers b, iss).

  (** ResourceObjectGET (request_validators.py 235-267). *)
  Definition get_parse (body headers query : value) : res (request * issues) :=
    let! (query, iss) := query_step query in
    Ok (mkReq headers query body, iss).
  (** ResourceObjectGET.dump_response (request_validators.py 251-267). *)
  Definition get_dump (s : schema) (status : Z) (body headers : value) (c : option checker) :=
    dump_resource s false 200 status body headers c.

  (** ResourceObjectPUT (request_validators.py 270-313). *)
  Definition put_parse (s : schema) (body headers query : value) : res (request * issues) :=
    let! (query, iss) := query_step query in
    let! (body, iss') := parse_body (schema_parse s) s body [] in
    let iss := merge iss iss' [] in
    if has_issues iss [] then Ok (mkReq headers query VNone, iss)
    else
      let! body := strip_read_only (at_all (sc_attrs s)) body in
      Ok (mkReq headers query body, iss).
  (** ResourceObjectPUT.dump_response (request_validators.py 297-313). *)
  Definition put_dump (s : schema) (status : Z) (body headers : value) (c : option checker) :=
    dump_resource s false 200 status body headers c.

  (** ResourcesPOST (request_validators.py 316-362). *)
  Definition post_parse (s : schema) (body headers query : value) : res (request * issues) :=
    let! (query, iss) := query_step query in
    let! (body, iss') := parse_body (schema_parse s) s body (server_required (at_all (sc_attrs s))) in
    let iss := merge iss iss' [] in
    Ok (mkReq headers query (keep_body body iss), iss).
  (** ResourcesPOST.dump_response (request_validators.py 342-362). *)
  Definition post_dump (s : schema) (status : Z) (body headers : value) (c : option checker)
    : res (response * issues) :=
    if negb (truthy body) then Ok (mkResp headers VNone, no_issues)
    else dump_resource s true 201 status body headers c.

  (** validate_resources_sorted (request_validators.py 434-446): [!=] of two lists
      whose items may be identical objects. *)
  Fixpoint sorted_differs (data : list (nat * value)) (l : list (nat * value)) : res bool :=
    match data, l with
    | [], [] => Ok false
    | (i, x) :: data', (j, y) :: l' =>
        if Nat.eqb i j then sorted_differs data' l'
        else let! e := veq x y in if e : bool then sorted_differs data' l' else Ok true
    | _, _ => Ok true
    end.
  (** validate_resources_sorted (request_validators.py 435-446). *)
  Definition resources_sorted (so : sorter) (l : list value) (ss : list schema_ref) : res issues :=
    skip_if_bad_data
      (let! sorted := sort_tagged so l (ManySchemas ss) in
       let! d := sorted_differs (enumerate l) sorted in
       Ok (if d : bool then add_issue no_issues e_not_sorted true [] else no_issues)).

  (** validate_resources_attributes_presence (request_validators.py 449-460). *)
  Fixpoint resources_presence (c : checker) (i : nat) (l : list value) (ss : list schema_ref) (iss : issues)
    : res issues :=
    match l, ss with
    | x :: l', s :: ss' =>
        match s with
        | None => Raise AttributeErr
        | Some (_, s) =>
            let! p := presence c x (at_all (sc_attrs s)) Response in
            resources_presence c (S i) l' ss' (merge iss p [LIdx i])
        end
    | _, _ => Ok iss
    end.

  (** validate_resources_filtered (request_validators.py 537-549). *)
  Fixpoint filter_loop (o : oper) (strict : bool) (i : nat) (l : list value) (ss : list schema_ref) (iss : issues)
    : res issues :=
    match l, ss with
    | x :: l', s :: ss' =>
        match s with
        | None => Raise AttributeErr
        | Some (_, s) =>
            let! m := filter_apply o x (at_all (sc_attrs s)) strict in
            let! b := match_bool m in
            filter_loop o strict (S i) l' ss' (add_if (negb b) e_filter_mismatch true [LIdx i] iss)
        end
    | _, _ => Ok iss
    end.
  (** validate_resources_filtered (request_validators.py 538-549). *)
  Definition resources_filtered (o : oper) (l : list value) (ss : list schema_ref) (strict : bool) : res issues :=
    skip_if_bad_data (filter_loop o strict 0 l ss no_issues).

  (** The location of Resources in the body (request_validators.py 621-724). *)
  Definition resources_loc : loc := body_loc ++ [LStr ($"Resources")].
  (** The location of startIndex in the body (request_validators.py 621-724). *)
  Definition start_index_loc : loc := body_loc ++ [LStr ($"startIndex")].
  (** The location of itemsPerPage in the body (request_validators.py 621-724). *)
  Definition items_per_page_loc : loc := body_loc ++ [LStr ($"itemsPerPage")].
  (** The location of totalResults in the body (request_validators.py 621-724). *)
  Definition total_results_loc : loc := body_loc ++ [LStr ($"totalResults")].

  (** Checks on the resources of a list response that got this far
      (request_validators.py 698-724). *)
  Definition check_resources (schemas : list schema) (body headers : value) (l : list value)
      (f : option oper) (so : option sorter) (c : option checker) (iss : issues) : res (response * issues) :=
    if has_issues iss [resources_loc] then Ok (mkResp headers VNone, iss)
    else
      let! ss := schemas_for schemas l in
      let! iss := match f with
                  | None => Ok iss
                  | Some o => let! i := resources_filtered o l ss false in Ok (merge iss i resources_loc)
                  end in
      let! iss := match so with
                  | None => Ok iss
                  | Some so => let! i := resources_sorted so l ss in Ok (merge iss i resources_loc)
                  end in
      let! p := resources_presence (checker_or_default c) 0 l ss no_issues in
      let iss := merge iss p resources_loc in
      if has_issues iss [] then Ok (mkResp headers VNone, iss)
      else Ok (mkResp headers (to_dict body), iss).

  (** Checks on the numbers of a list response (request_validators.py 673-696). *)
  Definition check_numbers (body : value) (l : list value) (count : option Z) (iss : issues) : res issues :=
    if can_proceed iss [total_results_loc] then
      let! total := get_item body (list_rep ($"totalResults")) in
      let! i := number_of_resources count total l in
      let iss := merge iss i resources_loc in
      if can_proceed iss [start_index_loc; items_per_page_loc] then
        let! si := get_item body (list_rep ($"startIndex")) in
        let! ipp := get_item body (list_rep ($"itemsPerPage")) in
        let! i := pagination_info count total l si ipp in
        Ok (merge iss i body_loc)
      else Ok iss
    else Ok iss.

  (** _dump_resources_get_response (request_validators.py 621-724). *)
  Definition list_dump_response (schemas : list schema) (status : Z) (body headers : value) (start_index : Z)
      (count : option Z) (f : option oper) (so : option sorter) (c : option checker) : res (response * issues) :=
    let! (body, iss') := list_dump schemas body in
    let iss := merge no_issues iss' body_loc in
    if negb (can_proceed iss [body_loc]) then Ok (mkResp headers VNone, iss)
    else
      let! p := presence default_checker body (at_all (sc_attrs list_schema)) Response in
      let iss := merge iss p body_loc in
      let iss := merge iss (status_code_issues 200 status) status_loc in
      let! iss := if can_proceed iss [start_index_loc] then
                    let! si := get_item body (list_rep ($"startIndex")) in
                    if truthy si then
                      let! i := start_index_consistency start_index si in
                      Ok (merge iss i start_index_loc)
                    else Ok iss
                  else Ok iss in
      if negb (can_proceed iss [resources_loc]) then Ok (mkResp headers VNone, iss)
      else
        let! rs := get_item body (list_rep ($"Resources")) in
        match rs with
        | VMissing =>
            let! iss := check_numbers body [] count iss in
            check_resources schemas body headers [] f so c iss
        | VList l =>
            let! iss := check_numbers body l count iss in
            check_resources schemas body headers l f so c iss
        | _ => Raise TypeErr (* len() *)
        end.

  (** SearchRequestPOST.parse_request (request_validators.py 777-785). *)
  Definition search_parse_request (body headers query : value) : res (request * issues) :=
    let! (body, iss') := search_parse body in
    Ok (mkReq headers query (keep_body body iss'), merge no_issues iss' body_loc).

  (** Loop of _check_complex_sub_attrs_presence (request_validators.py 886-896). *)
  Fixpoint items_presence (c : checker) (subs : list attribute) (l : loc) (j : nat) (items : list value)
      (iss : issues) : res issues :=
    match items with
    | [] => Ok iss
    | x :: t =>
        let item_loc := l ++ [LIdx j] in
        if has_issues iss [item_loc] then items_presence c subs l (S j) t iss
        else
          let! p := presence c x subs Request in
          items_presence c subs l (S j) t (merge iss p item_loc)
    end.

  (** _check_complex_sub_attrs_presence (request_validators.py 870-896). *)
  Definition complex_presence (iss : issues) (a : option attribute) (v : value) (l : loc) : res issues :=
    match a with
    | None => Ok iss
    | Some a =>
        if negb (is_complex a && a_multi (info a)) || is_missing v then Ok iss
        else
          let! items := iter_value v in
          items_presence (mkChecker [] None (server_required (sub_attrs a))) (sub_attrs a) l 0 items iss
    end.

  (** One operation in ResourceObjectPATCH.parse_request (request_validators.py
      840-864). *)
  Definition patch_operation_presence (s : schema) (i : nat) (op v path : value) (iss : issues) : res issues :=
    if str_is op ($"remove") then Ok iss
    else
      let value_loc := body_loc ++ [LStr ops_name; LIdx i; LStr ($"value")] in
      match path with
      | VNone | VMissing =>
          foldM (fun iss a => let! x := get_item v (arep a) in
                              complex_presence iss (Some a) x (value_loc ++ presence_loc (arep a)))
                (at_all (sc_attrs s)) iss
      | VPath p =>
          let! a := get_by_path (at_all (sc_attrs s)) p in
          complex_presence iss a v value_loc
      | _ => Raise AttributeErr
      end.

  (** The loop of ResourceObjectPATCH.parse_request (request_validators.py 840-869). *)
  Fixpoint patch_presence (s : schema) (i : nat) (ops vals paths : list value) (iss : issues) : res issues :=
    match ops, vals, paths with
    | op :: ops', v :: vals', p :: paths' =>
        let! iss := patch_operation_presence s i op v p iss in
        patch_presence s (S i) ops' vals' paths' iss
    | _, _, _ => Ok iss
    end.

  (** ResourceObjectPATCH.parse_request (request_validators.py 818-868). *)
  Definition patch_parse_request (s : schema) (body headers query : value) : res (request * issues) :=
    let! (query, iss) := query_step query in
    let! (body, iss') := parse_body (patch_parse s) patch_schema body [] in
    let iss := merge iss iss' [] in
    if negb (can_proceed iss [body_loc ++ [LStr ops_name]]) then Ok (mkReq headers query VNone, iss)
    else
      let! vals := get_item body (ops_rep patch_uri ($"value")) in
      let! paths := get_item body (ops_rep patch_uri ($"path")) in
      let! ops := get_item body (ops_rep patch_uri ($"op")) in
      let! ops := iter_value ops in
      let! vals := iter_value vals in
      let! paths := iter_value paths in
      let! iss := patch_presence s 0 ops vals paths iss in
      Ok (mkReq headers query (keep_body body iss), iss).

  (** ResourceObjectPATCH.dump_response (request_validators.py 898-923). *)
  Definition patch_dump (s : schema) (status : Z) (body headers : value) (c : option checker)
    : res (response * issues) :=
    if status =? 204 then
      let requested := match c with Some c => match ck_reps c with [] => false | _ => true end | None => false end in
      Ok (mkResp headers VNone, add_if requested e_bad_status true status_loc no_issues)
    else dump_resource s false 200 status body headers c.

  (** ResourceObjectDELETE.dump_response (request_validators.py 926-940). *)
  Definition delete_dump (status : Z) (headers : value) : response * issues :=
    (mkResp headers VNone, add_if (negb (status =? 204)) e_bad_status true status_loc no_issues).

  (** BulkOperations._validators (request_validators.py 948-968): the same resource
      schemas by plural name under every method. *)
  Definition validators (schemas : list schema) : list (str * schema) :=
    fold_left (fun acc s => sset (sc_plural s) s acc) schemas [].

  (** The keys of BulkOperations._validators (request_validators.py 948-968). *)
  Inductive bmethod := BGet | BPost | BPut | BPatch | BDelete.
  (** self._validators[method]: KeyError for anything but the five names
      (request_validators.py 1003, 1071-1096). *)
  Definition bmethod_of (v : value) : res bmethod :=
    if str_is v ($"GET") then Ok BGet
    else if str_is v ($"POST") then Ok BPost
    else if str_is v ($"PUT") then Ok BPut
    else if str_is v ($"PATCH") then Ok BPatch
    else if str_is v ($"DELETE") then Ok BDelete
    else if hashable v then Raise KeyErr else Raise TypeErr.

  (** path.split("/", 1)[1] and path.split("/", 2)[1]
      (request_validators.py 993-1010) *)
  Definition after_slash (s : str) : res str :=
    match snd (span (fun c => negb (chr_eqb c slash)) s) with
    | [] => Raise IndexErr
    | _ :: t => Ok t
    end.
  (** path.split("/", 2)[1] (request_validators.py 993-1010). *)
  Definition second_segment (s : str) : res str :=
    let! t := after_slash s in Ok (fst (span (fun c => negb (chr_eqb c slash)) t)).

  (** The location of a field of one operation (request_validators.py 993-1030). *)
  Definition op_field_loc (i : nat) (sub : str) : loc := body_loc ++ [LStr ops_name; LIdx i; LStr sub].

  (** body[operations][i][sub] = x (request_validators.py 1016-1025) *)
  Definition set_op_field (body : value) (ops : attr_rep) (i : nat) (sub : str) (x : value) : res value :=
    let! l := get_item body ops in
    match l with
    | VList l =>
        match nth_error l i with
        | None => Raise IndexErr
        | Some c => let! c' := set_item_str c sub x in set_item body ops (VList (set_nth i c' l))
        end
    | _ => Raise TypeErr
    end.

  (** validator.parse_request(body=data_item) (request_validators.py 1016); DELETE
      operations were skipped before. *)
  Definition bulk_item_parse (m : bmethod) (s : schema) (data : value) : res (request * issues) :=
    match m with
    | BGet => get_parse data VNone VNone
    | BPost => post_parse s data VNone VNone
    | BPut => put_parse s data VNone VNone
    | BPatch => patch_parse_request s data VNone VNone
    | BDelete => Raise AttributeErr
    end.

  (** Body of the loop of BulkOperations.parse_request (request_validators.py
      993-1020). *)
  Definition bulk_parse_operation (vs : list (str * schema)) (i : nat) (path data method : value)
      (body : value) (iss : issues) : res outcome :=
    if can_proceed iss [op_field_loc i ($"path"); op_field_loc i ($"data");
                        [LStr ops_name; LIdx i; LStr ($"method")]] then
      if str_is method ($"DELETE") then Ok (body, iss)
      else
        let! p := match path with VStr s => Ok s | _ => Raise AttributeErr end in
        let! name := if str_is method ($"POST") then after_slash p else second_segment p in
        let! m := bmethod_of method in
        match sget name vs with
        | None => Ok (body, add_issue iss e_unknown_resource false (op_field_loc i ($"path")))
        | Some s =>
            let! (rq, iss') := bulk_item_parse m s data in
            let! iss := merge_at iss (get_issues iss' body_loc) (op_field_loc i ($"data")) in
            let! body := set_op_field body (mkRep bulk_request_uri ops_name [] false) i ($"data") (rq_body rq) in
            Ok (body, iss)
        end
    else Ok (body, iss).

  (** The loop of BulkOperations.parse_request (request_validators.py 993-1020). *)
  Fixpoint bulk_parse_operations (vs : list (str * schema)) (i : nat) (paths data methods : list value)
      (body : value) (iss : issues) : res outcome :=
    match paths, data, methods with
    | p :: paths', d :: data', m :: methods' =>
        let! (body, iss) := bulk_parse_operation vs i p d m body iss in
        bulk_parse_operations vs (S i) paths' data' methods' body iss
    | _, _, _ => Ok (body, iss)
    end.

  (** BulkOperations.parse_request (request_validators.py 973-1031);
      [max_operations] is config.bulk.max_operations (config.py 12), comparing with
      None raises TypeError. *)
  Definition bulk_parse_request (schemas : list schema) (max_operations : option Z) (body headers query : value)
    : res (request * issues) :=
    let! (body, iss') := schema_parse bulk_request_schema body in
    let iss := merge no_issues iss' body_loc in
    let! p := presence default_checker body (at_all (sc_attrs bulk_request_schema)) Response in
    let iss := merge iss p body_loc in
    if negb (can_proceed (merge_src iss') [body_loc ++ [LStr ops_name]])
    then Ok (mkReq headers query VNone, iss)
    else
      let! paths := get_item body (ops_rep bulk_request_uri ($"path")) in
      let! data := get_item body (ops_rep bulk_request_uri ($"data")) in
      let! methods := get_item body (ops_rep bulk_request_uri ($"method")) in
      let! paths := iter_value paths in
      let! data := iter_value data in
      let! methods := iter_value methods in
      let! (body, iss) := bulk_parse_operations (validators schemas) 0 paths data methods body iss in
      let! ops := get_item body (mkRep bulk_request_uri ops_name [] false) in
      let! n := match ops with VList l => Ok (zlen l) | _ => Raise TypeErr end in
      match max_operations with
      | None => Raise TypeErr
      | Some mx =>
          let iss := add_if (mx <? n) e_too_many_ops true (body_loc ++ [LStr ops_name]) iss in
          Ok (mkReq headers query (keep_body body iss), iss)
      end.

  (** The loop of lines 1084-1093: the first validator whose name occurs in the
      location, otherwise the last one together with an issue. *)
  Fixpoint locate (vs : list (str * schema)) (location : str) (last : option schema) : option schema * bool :=
    match vs with
    | [] => (last, false)
    | (n, s) :: t =>
        if contains location (slash :: n ++ [slash]) then (Some s, true) else locate t location (Some s)
    end.

  (** resource_validator.dump_response(body=..., status_code=..., headers=...)
      (request_validators.py 1117-1121); the DELETE validator takes no body. *)
  Definition bulk_item_dump (m : bmethod) (s : schema) (status : Z) (body headers : value)
    : res (response * issues) :=
    match m with
    | BGet => get_dump s status body headers None
    | BPost => post_dump s status body headers None
    | BPut => put_dump s status body headers None
    | BPatch => patch_dump s status body headers None
    | BDelete => Raise TypeErr
    end.

  (** Version comparison (request_validators.py 1137-1152): the stored body and the
      report. *)
  Definition bulk_version (i : nat) (version resp_body : value) (iss : issues) : res outcome :=
    match resp_body with
    | VNone => Ok (VNone, iss)
    | _ =>
        let c := mk_cont resp_body in
        let! rv := get_item_str c ($"meta.version") in
        let! differ := (if truthy version && truthy rv then let! e := veq version rv in Ok (negb e)
                        else Ok false) in
        Ok (c, if differ : bool then
                 add_issue (add_issue iss (e_must_equal ($"operation's version")) true
                              (op_field_loc i ($"response") ++ [LStr ($"meta"); LStr ($"version")]))
                           (e_must_equal ($"'response.meta.version'")) true (op_field_loc i ($"version"))
               else iss)
    end.

  (** Body of the loop of BulkOperations.dump_response (request_validators.py
      1071-1156): updated body, report and error count. *)
  Definition bulk_dump_operation (vs : list (str * schema)) (i : nat)
      (method st response_ location version : value) (body : value) (iss : issues) (n : Z)
    : res (value * issues * Z) :=
    let ops := mkRep bulk_request_uri ops_name [] false in
    if negb (truthy method) then Ok (body, iss, n)
    else
      let! (validator, iss) :=
        (if truthy location then
           let! _m := bmethod_of method in
           let! text := match location with VStr s => Ok s | _ => Raise TypeErr end in
           let (v, found) := locate vs text None in
           Ok (v, add_if (negb found) e_unknown_resource false (op_field_loc i ($"location")) iss)
         else Ok (None, iss)) in
      if negb (truthy st && truthy response_) then Ok (body, iss, n)
      else
        let! z := py_int st in
        if 300 <=? z then
          let! (er, iss') := error_dump z response_ VNone in
          let! iss := merge_at iss (get_issues iss' body_loc) (op_field_loc i ($"response")) in
          let! iss := merge_at iss (get_issues iss' status_loc) (op_field_loc i ($"status")) in
          let! body := set_op_field body ops i ($"response") (rs_body er) in
          Ok (body, iss, n + 1)
        else
          match validator with
          | Some s =>
              if truthy location then
                let! m := bmethod_of method in
                let! (rd, iss') := bulk_item_dump m s z response_
                                     (dict_of [($"Location", location)]) in
                let (meta_mm, iss') := pop_issues iss' (body_loc ++ meta_location_loc) 11 in
                let (header_mm, iss') := pop_issues iss' header_location_loc 11 in
                let! iss := merge_at iss (get_issues iss' body_loc) (op_field_loc i ($"response")) in
                let iss :=
                  if has_issues meta_mm [] && has_issues header_mm [] then
                    add_issue (add_issue iss (e_must_equal ($"operation's location")) true
                                 (op_field_loc i ($"response") ++ meta_location_loc))
                              (e_must_equal ($"'response.meta.location'")) true (op_field_loc i ($"location"))
                  else iss in
                let! (rb, iss) := bulk_version i version (rs_body rd) iss in
                let! body := set_op_field body ops i ($"response") rb in
                Ok (body, iss, n)
              else Ok (body, iss, n)
          | None => Ok (body, iss, n)
          end.

  (** The loop of BulkOperations.dump_response (request_validators.py 1071-1145). *)
  Fixpoint bulk_dump_operations (vs : list (str * schema)) (i : nat)
      (methods sts responses locations versions : list value) (body : value) (iss : issues) (n : Z)
    : res (value * issues * Z) :=
    match methods, sts, responses, locations, versions with
    | m :: methods', s :: sts', r :: responses', l :: locations', v :: versions' =>
        let! (body, iss, n) := bulk_dump_operation vs i m s r l v body iss n in
        bulk_dump_operations vs (S i) methods' sts' responses' locations' versions' body iss n
    | _, _, _, _, _ => Ok (body, iss, n)
    end.

  (** BulkOperations.dump_response (request_validators.py 1033-1167).  The method
      is read through the representation of the request schema (line 1062), whose
      URI differs from the response's; it is no key of the body. *)
  Definition bulk_dump_response (schemas : list schema) (status : Z) (body headers : value)
      (fail_on_errors : option Z) : res (response * issues) :=
    let! (body, iss') := base_parse MDump bulk_response_schema body in
    let iss := merge no_issues iss' body_loc in
    let! p := presence default_checker body (at_all (sc_attrs bulk_response_schema)) Response in
    let iss := merge iss p body_loc in
    let iss := merge iss (status_code_issues 200 status) status_loc in
    if negb (can_proceed iss [body_loc ++ [LStr ops_name]]) then Ok (mkResp headers VNone, iss)
    else
      let! sts := get_item body (ops_rep bulk_response_uri ($"status")) in
      let! responses := get_item body (ops_rep bulk_response_uri ($"response")) in
      let! locations := get_item body (ops_rep bulk_response_uri ($"location")) in
      let! methods := get_item body (ops_rep bulk_request_uri ($"method")) in
      let! versions := get_item body (ops_rep bulk_response_uri ($"version")) in
      let! methods := iter_value methods in
      let! sts := iter_value sts in
      let! responses := iter_value responses in
      let! locations := iter_value locations in
      let! versions := iter_value versions in
      let! (body, iss, n) :=
        bulk_dump_operations (validators schemas) 0 methods sts responses locations versions body iss 0 in
      let iss := add_if (match fail_on_errors with Some f => f <? n | None => false end)
                        e_too_many_errors true (body_loc ++ [LStr ops_name]) iss in
      Ok (mkResp headers (keep_body body iss), iss).
End Env.
