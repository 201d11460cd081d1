(** Vocabulary for the documents in which a server describes itself (C78). *)
From Verif Require Import PyBase PyNum Issues AttrRep Value Container ContainerSpec Types Attr Schema AttrSpec Config.

(** A field that is left out when there is nothing to say. *)
Definition unless_empty (k : str) (v : value) : list (str * value) :=
  match v with VNone | VStr [] => [] | _ => [(k, v)] end.

(** The document that states a configuration (RFC 7643, 5). *)
Definition scheme_doc (s : auth_scheme) : value := dict_of
  ([($"type", as_type s); ($"name", as_name s); ($"description", as_description s)]
   ++ unless_empty ($"specUri") (as_spec s) ++ unless_empty ($"documentationUri") (as_documentation s)).
Definition config_doc (c : config) : value := dict_of
  ([($"schemas", VList [VStr ($"urn:ietf:params:scim:schemas:core:2.0:ServiceProviderConfig")])]
   ++ unless_empty ($"documentationUri") (cf_documentation c)
   ++ [($"patch", dict_of [($"supported", cf_patch c)]);
       ($"bulk", dict_of [($"supported", bo_supported (cf_bulk c)); ($"maxOperations", bo_max_operations (cf_bulk c)); ($"maxPayloadSize", bo_max_payload (cf_bulk c))]);
       ($"filter", dict_of [($"supported", fo_supported (cf_filter c)); ($"maxResults", fo_max_results (cf_filter c))]);
       ($"changePassword", dict_of [($"supported", cf_change_password c)]);
       ($"sort", dict_of [($"supported", cf_sort c)]);
       ($"etag", dict_of [($"supported", cf_etag c)]);
       ($"authenticationSchemes", VList (map scheme_doc (cf_schemes c)))]).

(** What the document tells. *)
Definition told_in (c : value) (k sub : str) (v : value) : Prop := exists m, holds c k m /\ holds m sub v.
Definition stated_text (c : value) (k : str) (v : value) : Prop := forall w, holds c k w <-> w = v /\ v <> VStr [].
Definition tells_scheme (s : auth_scheme) (c : value) : Prop :=
  holds c ($"type") (as_type s) /\ holds c ($"name") (as_name s) /\ holds c ($"description") (as_description s) /\ stated_text c ($"specUri") (as_spec s).
Definition tells_config (f : config) (c : value) : Prop :=
  holds c ($"schemas") (VList [VStr ($"urn:ietf:params:scim:schemas:core:2.0:ServiceProviderConfig")])
  /\ stated_text c ($"documentationUri") (cf_documentation f)
  /\ told_in c ($"patch") ($"supported") (cf_patch f)
  /\ told_in c ($"bulk") ($"supported") (bo_supported (cf_bulk f))
  /\ told_in c ($"bulk") ($"maxOperations") (bo_max_operations (cf_bulk f))
  /\ told_in c ($"bulk") ($"maxPayloadSize") (bo_max_payload (cf_bulk f))
  /\ told_in c ($"filter") ($"supported") (fo_supported (cf_filter f))
  /\ told_in c ($"filter") ($"maxResults") (fo_max_results (cf_filter f))
  /\ told_in c ($"changePassword") ($"supported") (cf_change_password f)
  /\ told_in c ($"sort") ($"supported") (cf_sort f)
  /\ told_in c ($"etag") ($"supported") (cf_etag f)
  /\ exists l, holds c ($"authenticationSchemes") (VList l) /\ Forall2 tells_scheme (cf_schemes f) l.

Section Env.
  Context {env : PyEnv}.

  (** Fields of the declared types, with everything said that must be said. *)
  Definition some_text (v : value) : Prop := exists s, v = VStr s /\ s <> [].
  Definition some_bool (v : value) : Prop := exists b, v = VBool b.
  Definition some_int (v : value) : Prop := exists z, v = VInt z.
  Definition maybe_url (v : value) : Prop := exists s, v = VStr s /\ (s = [] \/ env_abs_url s = true).
  Definition full_scheme (s : auth_scheme) : Prop := some_text (as_type s) /\ some_text (as_name s) /\ some_text (as_description s) /\ maybe_url (as_spec s) /\ exists t, as_documentation s = VStr t.
  Definition full_config (c : config) : Prop :=
    maybe_url (cf_documentation c) /\ some_bool (cf_patch c) /\ some_bool (bo_supported (cf_bulk c)) /\ some_int (bo_max_operations (cf_bulk c)) /\ some_int (bo_max_payload (cf_bulk c))
    /\ some_bool (fo_supported (cf_filter c)) /\ some_int (fo_max_results (cf_filter c)) /\ some_bool (cf_change_password c) /\ some_bool (cf_sort c) /\ some_bool (cf_etag c)
    /\ cf_schemes c <> [] /\ Forall full_scheme (cf_schemes c).
End Env.

(** A resource type (RFC 7643, 6) and its document. *)
Record resource_type := { rt_name : str; rt_descr : str; rt_endpoint : str; rt_schema : str; rt_exts : list (str * bool) }.
Definition ext_doc (e : str * bool) : value := dict_of [($"schema", VStr (fst e)); ($"required", VBool (snd e))].
Definition type_doc (t : resource_type) : value := dict_of
  [($"schemas", VList [VStr ($"urn:ietf:params:scim:schemas:core:2.0:ResourceType")]); ($"id", VStr (rt_name t)); ($"name", VStr (rt_name t)); ($"description", VStr (rt_descr t));
   ($"endpoint", VStr (rt_endpoint t)); ($"schema", VStr (rt_schema t)); ($"schemaExtensions", VList (map ext_doc (rt_exts t)))].
Definition tells_ext (e : str * bool) (c : value) : Prop := holds c ($"schema") (VStr (fst e)) /\ holds c ($"required") (VBool (snd e)).
Definition tells_type (t : resource_type) (c : value) : Prop :=
  holds c ($"schemas") (VList [VStr ($"urn:ietf:params:scim:schemas:core:2.0:ResourceType")]) /\ holds c ($"id") (VStr (rt_name t)) /\ holds c ($"name") (VStr (rt_name t))
  /\ holds c ($"description") (VStr (rt_descr t)) /\ holds c ($"endpoint") (VStr (rt_endpoint t)) /\ holds c ($"schema") (VStr (rt_schema t))
  /\ exists l, holds c ($"schemaExtensions") (VList l) /\ Forall2 tells_ext (rt_exts t) l.
Definition full_type (t : resource_type) : Prop :=
  rt_name t <> [] /\ rt_endpoint t <> [] /\ rt_schema t <> [] /\ Forall (fun e => fst e <> []) (rt_exts t).
