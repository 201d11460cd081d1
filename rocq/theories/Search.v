(** Model of /repo/src/assets/schemas/search_request.py. *)
From Verif Require Import PyBase PyNum Issues AttrRep Value Container Types Attr Schema Presence Match FilterParse.

(** ValidationError.can_not_be_used_together (src/error.py 190-192). *)
Definition e_not_together (other : str) : error := mkErr 30 [other].

(** parse_attr_rep (search_request.py 13-21). *)
Definition parse_attr_rep : proc := fun v =>
  match v with
  | VStr s => match parse_rep s with
              | Some r => Ok (pass (VRep r))
              | None => Ok (fail (e_bad_attr_name s))
              end
  | _ => Raise TypeErr
  end.

(** parse_attr_rep_multi (search_request.py 24-33). *)
Definition parse_attr_rep_multi : proc := fun v =>
  let! l := iter_value v in
  let! (l', iss) := foldM (fun st e => let! (x, iss) := parse_attr_rep (snd e) in
                                       Ok (fst st ++ [x], merge (snd st) iss [LIdx (fst e)]))
                          (enumerate l) ([], no_issues) in
  Ok (VList l', iss).

(** parsers=[Filter.parse] (search_request.py 60). *)
Definition filter_parser : proc := fun v =>
  match v with VStr s => parse_filter s | _ => Raise TypeErr end.

(** search_request.py 98 *)
Definition search_uri : str := $"urn:ietf:params:scim:api:messages:2.0:SearchRequest".

(** SearchRequest.__init__ (search_request.py 36-108). *)
Definition search_schema : schema :=
  base_schema search_uri
    [mk_simple (with_procs [parse_attr_rep_multi] [] (with_multi (plain ($"attributes") TString)));
     mk_simple (with_procs [parse_attr_rep_multi] [] (with_multi (plain ($"excludeAttributes") TString)));
     mk_simple (with_procs [filter_parser] [] (plain ($"filter") TString));
     mk_simple (with_procs [parse_attr_rep] [] (plain ($"sortBy") TString));
     mk_simple (with_canon false [LitStr ($"ascending"); LitStr ($"descending")]
                  (plain ($"sortOrder") TString));
     mk_simple (plain ($"startIndex") TInteger);
     mk_simple (plain ($"count") TInteger)].

(** self.attrs.<name>.rep (search_request.py 110-145). *)
Definition search_rep (name : str) : attr_rep := mkRep search_uri name [] false.

(** The AttrReps of a parsed list.  Simplification: other objects, which remain
    in the list only when an issue was reported for it, are left out
    (search_request.py 110-145). *)
Definition reps_of (v : value) : list attr_rep :=
  match v with
  | VList l => flat_map (fun x => match x with VRep r => [r] | _ => [] end) l
  | _ => []
  end.

Section Env.
  Context {env : PyEnv}.

  (** Lines 118-136: include and exclude lists. *)
  Definition search_attrs (data : value) (iss : issues) : res outcome :=
    let! inc := get_item data (search_rep ($"attributes")) in
    let! exc := get_item data (search_rep ($"excludeAttributes")) in
    let iss := if truthy inc && truthy exc then
                 add_issue (add_issue iss (e_not_together ($"excludeAttributes")) false [LStr ($"attributes")])
                           (e_not_together ($"attributes")) false [LStr ($"excludeAttributes")]
               else iss in
    if truthy inc then
      let! data := set_item data (simple_name ($"presence_checker"))
                     (VChecker (mkChecker (reps_of inc) (Some true) [])) in
      Ok (data, iss)
    else Ok (data, iss).

  (** Lines 138-143: the sorter; an AttrRep never equals a str, so [asc] is
      False. *)
  Definition search_sorter (data : value) (iss : issues) : res outcome :=
    let! by_ := get_item data (search_rep ($"sortBy")) in
    match by_ with
    | VRep r =>
        let! data := set_item data (simple_name ($"sorter")) (VSorter (mkSorter r false)) in
        Ok (data, iss)
    | _ => Ok (data, iss)
    end.

  (** SearchRequest.parse (search_request.py 110-145). *)
  Definition search_parse (data : value) : res outcome :=
    let! (data, iss) := schema_parse search_schema data in
    if negb (can_proceed iss []) then Ok (data, iss)
    else
      let! (data, iss) :=
        if can_proceed iss [[LStr ($"attributes")]; [LStr ($"excludeAttributes")]]
        then search_attrs data iss else Ok (data, iss) in
      if can_proceed iss [[LStr ($"sortBy")]] then search_sorter data iss else Ok (data, iss).
End Env.
