(** Model of /repo/src/assets/config.py: the configuration of a server. *)
From Verif Require Import PyBase PyNum Issues AttrRep Value Container.

(** f( **d ) for a function whose keyword parameters are [fields]: an entry under
    another name raises TypeError, and so does anything that is not a dictionary
    (config.py 66-77). *)
Definition keywords (fields : list str) (v : value) : res (list (dkey * value)) :=
  match v with
  | VDict d =>
      if forallb (fun e => match fst e with KStr k => smem k fields | KOther _ => false end) d
      then Ok d else Raise TypeErr
  | _ => Raise TypeErr
  end.

(** (v or {}) (config.py 66-77). *)
Definition or_empty (v : value) : value := if truthy v then v else VDict [].

(** The value of a parameter with a default (config.py 5-40). *)
Definition given (d : list (dkey * value)) (field : str) (default : value) : value :=
  match aget dkey_eqb (KStr field) d with Some v => v | None => default end.
(** The value of a parameter without a default (config.py 34-40). *)
Definition demanded (d : list (dkey * value)) (field : str) : res value :=
  match aget dkey_eqb (KStr field) d with Some v => Ok v | None => Raise TypeErr end.

(** _BulkOption (config.py 10-21). *)
Record bulk_option := mkBulk { bo_supported : value; bo_max_operations : value; bo_max_payload : value }.
(** _FilterOption (config.py 24-31). *)
Record filter_option := mkFilterOption { fo_supported : value; fo_max_results : value }.
(** _AuthenticationScheme (config.py 34-40). *)
Record auth_scheme := mkScheme {
  as_name : value; as_description : value; as_spec : value; as_documentation : value; as_type : value
}.
(** ServiceProviderConfig (config.py 43-52). *)
Record config := mkConfig {
  cf_documentation : value;
  cf_patch : value;            (* the field "supported" of a _GenericOption (config.py 5-7) *)
  cf_bulk : bulk_option;
  cf_filter : filter_option;
  cf_change_password : value;
  cf_sort : value;
  cf_etag : value;
  cf_schemes : list auth_scheme
}.

(** _GenericOption( **v ) (config.py 5-7). *)
Definition generic_option (v : value) : res value :=
  let! d := keywords [$"supported"] v in Ok (given d ($"supported") (VBool false)).

(** _BulkOption( **v ) and its __post_init__ (config.py 10-21). *)
Definition make_bulk (v : value) : res bulk_option :=
  let! d := keywords [$"supported"; $"max_operations"; $"max_payload_size"] v in
  let b := mkBulk (given d ($"supported") (VBool false)) (given d ($"max_operations") VNone)
                  (given d ($"max_payload_size") VNone) in
  if truthy (bo_supported b) && negb (forallb truthy [bo_max_payload b; bo_max_operations b])
  then Raise ValueErr else Ok b.

(** _FilterOption( **v ) and its __post_init__ (config.py 24-31). *)
Definition make_filter_option (v : value) : res filter_option :=
  let! d := keywords [$"supported"; $"max_results"] v in
  let f := mkFilterOption (given d ($"supported") (VBool false)) (given d ($"max_results") VNone) in
  if truthy (fo_supported f) && negb (truthy (fo_max_results f)) then Raise ValueErr else Ok f.

(** _AuthenticationScheme( **item ) (config.py 34-40, 74-76). *)
Definition make_scheme (v : value) : res auth_scheme :=
  let! d := keywords [$"name"; $"description"; $"spec_uri"; $"documentation_uri"; $"type"] v in
  let! n := demanded d ($"name") in
  let! de := demanded d ($"description") in
  let! sp := demanded d ($"spec_uri") in
  let! dc := demanded d ($"documentation_uri") in
  let! ty := demanded d ($"type") in
  Ok (mkScheme n de sp dc ty).

(** create_service_provider_config (config.py 55-78). *)
Definition create_config (documentation patch bulk filter_ change_password sort etag schemes : value)
  : res config :=
  let! p := generic_option (or_empty patch) in
  let! b := make_bulk (or_empty bulk) in
  let! f := make_filter_option (or_empty filter_) in
  let! c := generic_option (or_empty change_password) in
  let! s := generic_option (or_empty sort) in
  let! e := generic_option (or_empty etag) in
  let! l := iter_value (if truthy schemes then schemes else VList []) in
  let! l := mapM make_scheme l in
  Ok (mkConfig documentation p b f c s e l).

(** config.bulk.max_operations (request_validators.py 1022), None for what cannot
    be compared with a number.  Simplification: floats, which can, are left out. *)
Definition limit_of (c : config) : option Z :=
  match bo_max_operations (cf_bulk c) with
  | VInt z => Some z
  | VBool b => Some (if b then 1%Z else 0%Z)
  | _ => None
  end.
