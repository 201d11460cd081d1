(** Schemas shipped with the library: /repo/src/assets/schemas/user.py,
    group.py, service_provider_config.py, resource_type.py and error.py. *)
From Verif Require Import PyBase PyNum Issues AttrRep Value Container Types Attr Schema.

(** An Attribute with defaults, e.g. src/assets/schemas/user.py 22-31. *)
Definition sattr (n : str) (t : atype) : attribute := mk_simple (plain n t).
(** A list of canonical values, e.g. src/assets/schemas/user.py 243-253. *)
Definition canon (l : list string) : list lit := map (fun s => LitStr (list_ascii_of_string s)) l.

(** ** User (src/assets/schemas/user.py) *)

(** user.py 11-20 *)
Definition user_name_attr : attribute :=
  mk_simple (with_uniq UniqServer (with_required (plain ($"userName") TString))).
(** user.py 22-103 *)
Definition name_attr : attribute :=
  mk_complex (plain ($"name") TComplex)
    [sattr ($"formatted") TString; sattr ($"familyName") TString; sattr ($"givenName") TString;
     sattr ($"middleName") TString; sattr ($"honorificPrefix") TString;
     sattr ($"honorificSuffix") TString] [] [].
(** user.py 210-219 *)
Definition password_attr : attribute :=
  mk_simple (with_ret RetNever (with_mut WriteOnly (plain ($"password") TString))).

(** A multi-valued attribute with value, type, display and primary
    (user.py 221-462, 622-797); [type_first] is the order of the middle two. *)
Definition plural_attr (n : str) (vt : atype) (types : option (list lit)) (type_first : bool) : attribute :=
  let ty := mk_simple (match types with
                       | None => plain ($"type") TString
                       | Some l => with_canon false l (plain ($"type") TString)
                       end) in
  let di := sattr ($"display") TString in
  mk_complex (with_multi (plain n TComplex))
    (sattr ($"value") vt :: (if type_first then [ty; di] else [di; ty]) ++ [sattr ($"primary") TBoolean])
    [] [].

(** user.py 221-279 *)
Definition emails_attr : attribute :=
  plural_attr ($"emails") TString (Some (canon ["work"; "home"; "other"]%string)) true.
(** user.py 282-340 *)
Definition phone_numbers_attr : attribute :=
  plural_attr ($"phoneNumbers") TString
    (Some (canon ["work"; "home"; "mobile"; "fax"; "pager"; "other"]%string)) true.
(** user.py 343-401 *)
Definition ims_attr : attribute := plural_attr ($"ims") TString None true.
(** user.py 404-461 *)
Definition photos_attr : attribute :=
  plural_attr ($"photos") TExternalRef (Some (canon ["photo"; "thumbnail"]%string)) true.
(** user.py 464-559 *)
Definition addresses_attr : attribute :=
  mk_complex (with_multi (plain ($"addresses") TComplex))
    [sattr ($"formatted") TString; sattr ($"locality") TString; sattr ($"streetAddress") TString;
     sattr ($"region") TString; sattr ($"postalCode") TString; sattr ($"country") TString;
     mk_simple (with_canon false (canon ["work"; "home"; "other"]%string) (plain ($"type") TString))] [] [].
(** mutability=READ_ONLY, e.g. user.py 562-571. *)
Definition ro (i : ainfo) : ainfo := with_mut ReadOnly i.
(** user.py 561-620 *)
Definition groups_attr : attribute :=
  mk_complex (ro (with_multi (plain ($"groups") TComplex)))
    [mk_simple (ro (plain ($"value") TString)); mk_simple (ro (plain ($"$ref") TUriRef));
     mk_simple (ro (plain ($"display") TString));
     mk_simple (ro (with_canon false (canon ["direct"; "indirect"]%string) (plain ($"type") TString)))] [] [].
(** user.py 622-678 *)
Definition entitlements_attr : attribute := plural_attr ($"entitlements") TString None false.
(** user.py 681-737 *)
Definition roles_attr : attribute := plural_attr ($"roles") TString None false.
(** user.py 740-797 *)
Definition x509_attr : attribute := plural_attr ($"x509Certificates") TBinary None false.

(** user.py 907-912 *)
Definition user_uri : str := $"urn:ietf:params:scim:schemas:core:2.0:User".
(** user.py 934-937 *)
Definition enterprise_uri : str := $"urn:ietf:params:scim:schemas:extension:enterprise:2.0:User".

(** User.__init__ up to the call of with_extension (user.py 907-936). *)
Definition core_user : schema :=
  resource_schema user_uri
    [user_name_attr; name_attr; sattr ($"displayName") TString; sattr ($"nickName") TString;
     sattr ($"profileUrl") TExternalRef; sattr ($"title") TString; sattr ($"userType") TString;
     sattr ($"preferredLanguage") TString; sattr ($"locale") TString; sattr ($"timezone") TString;
     sattr ($"active") TBoolean; password_attr; emails_attr; phone_numbers_attr; ims_attr; photos_attr;
     addresses_attr; groups_attr; entitlements_attr; roles_attr; x509_attr]
    ($"User") [] (Some ($"Users")) None None None.

(** user.py 859-904 *)
Definition manager_attr : attribute :=
  mk_complex (plain ($"manager") TComplex)
    [sattr ($"value") TString; mk_simple (with_reftypes [$"User"] (plain ($"$ref") TScimRef));
     mk_simple (ro (plain ($"displayName") TString))] [] [].

(** user.py 938-949 *)
Definition enterprise_ext : extension :=
  mk_extension enterprise_uri
    [sattr ($"employeeNumber") TString; sattr ($"costCenter") TString; sattr ($"division") TString;
     sattr ($"department") TString; sattr ($"organization") TString; manager_attr]
    ($"Enterprise User") [].

(** User() (user.py 907-950). *)
Definition user_schema : schema :=
  match with_extension core_user enterprise_ext false with Ok s => s | Raise _ => core_user end.

(** ** Group (src/assets/schemas/group.py) *)

(** group.py 37-44 *)
Definition group_uri : str := $"urn:ietf:params:scim:schemas:core:2.0:Group".
(** mutability=IMMUTABLE, e.g. group.py 11-15. *)
Definition immutable (i : ainfo) : attribute := mk_simple (with_mut Immutable i).
(** group.py 5-44 *)
Definition group_schema : schema :=
  resource_schema group_uri
    [mk_simple (with_required (plain ($"displayName") TString));
     mk_complex (with_multi (plain ($"members") TComplex))
       [immutable (plain ($"value") TString); immutable (plain ($"$ref") TUriRef);
        immutable (plain ($"display") TString)] [] []]
    ($"Group") [] (Some ($"Groups")) None None None.

(** ** ServiceProviderConfig (src/assets/schemas/service_provider_config.py) *)

(** service_provider_config.py 16-21 *)
Definition supported_attr : attribute := mk_simple (ro (with_required (plain ($"supported") TBoolean))).
(** service_provider_config.py 31-36, 38-43, 53-58 *)
Definition ro_int (n : str) : attribute := mk_simple (ro (with_required (plain n TInteger))).
(** service_provider_config.py 23-29, 45-51, 60-90 *)
Definition option_attr (n : str) (subs : list attribute) : attribute :=
  mk_complex (ro (with_required (plain n TComplex))) subs [] [].
(** service_provider_config.py 100-112 *)
Definition ro_req_str (n : str) : attribute := mk_simple (ro (with_required (plain n TString))).

(** id without the required flag (service_provider_config.py 7-8). *)
Definition spc_id_attr : attribute :=
  mk_simple (with_procs [bulk_id_validator] [bulk_id_validator]
    (with_uniq UniqServer (with_ret RetAlways (with_mut ReadOnly (with_case_exact
      (with_issuer IssServer (plain ($"id") TString))))))).

(** service_provider_config.py 92-138; the fifth sub-attribute is named
    "specUri" in the source (line 121) and therefore replaces the fourth. *)
Definition auth_schemes_attr : attribute :=
  mk_complex (ro (with_required (with_multi (plain ($"authenticationSchemes") TComplex))))
    [mk_simple (ro (with_required (with_canon false
       (canon ["oauth"; "oauth2"; "oauthbearertoken"; "httpbasic"; "httpdigest"]%string)
       (plain ($"type") TString))));
     ro_req_str ($"name"); ro_req_str ($"description");
     mk_simple (ro (plain ($"specUri") TExternalRef));
     mk_simple (ro (plain ($"specUri") TExternalRef))] [] [].

(** service_provider_config.py 141-157 *)
Definition spc_schema : schema :=
  resource_schema ($"urn:ietf:params:scim:schemas:core:2.0:ServiceProviderConfig")
    [mk_simple (ro (plain ($"documentationUri") TExternalRef));
     option_attr ($"patch") [supported_attr];
     option_attr ($"bulk") [supported_attr; ro_int ($"maxOperations"); ro_int ($"maxPayloadSize")];
     option_attr ($"filter") [supported_attr; ro_int ($"maxResults")];
     option_attr ($"changePassword") [supported_attr];
     option_attr ($"sort") [supported_attr];
     option_attr ($"etag") [supported_attr];
     auth_schemes_attr]
    ($"ServiceProviderConfig") [] None (Some spc_id_attr) None None.

(** ** ResourceType (src/assets/schemas/resource_type.py) *)

(** resource_type.py 10-61, attributes issued by the server *)
Definition server_ro_attr (n : str) (t : atype) : attribute := server_ro (plain n t).
(** resource_type.py 18-25, 35-51 *)
Definition server_ro_req (n : str) (t : atype) : attribute := server_ro (with_required (plain n t)).
(** resource_type.py 10-77 *)
Definition resource_type_schema : schema :=
  resource_schema ($"urn:ietf:params:scim:schemas:core:2.0:ResourceType")
    [server_ro_req ($"name") TString; server_ro_attr ($"description") TString;
     server_ro_req ($"endpoint") TUriRef; server_ro_req ($"schema") TString;
     mk_complex (with_multi (plain ($"schemaExtensions") TComplex))
       [server_ro_req ($"schema") TString; server_ro_req ($"required") TBoolean] [] []]
    ($"ResourceType") [] None (Some (server_ro_attr ($"id") TString)) None None.

(** ** Error (src/assets/schemas/error.py) *)

(** ValidationError.bad_error_status (src/error.py 112-114). *)
Definition e_bad_error_status : error := err 12.

(** parse_error_status (error.py 15-30). *)
Definition parse_error_status : proc := fun v =>
  match py_int v with
  | Raise ValueErr => Ok (fail e_bad_error_status)
  | Raise e => Raise e
  | Ok z => Ok (VInt z, if (300 <=? z)%Z && (z <? 600)%Z then no_issues
                        else add_issue no_issues e_bad_error_status true [])
  end.

(** error.py 33-91 *)
Definition error_schema : schema :=
  base_schema ($"urn:ietf:params:scim:api:messages:2.0:Error")
    [mk_simple (with_procs [parse_error_status] []
       (with_ret RetAlways (with_required (plain ($"status") TString))));
     mk_simple (with_ret RetAlways (with_canon true
       (canon ["invalidFilter"; "tooMany"; "uniqueness"; "mutability"; "invalidSyntax"; "invalidPath";
               "noTarget"; "invalidValue"; "invalidVers"; "sensitive"]%string)
       (plain ($"scimType") TString)));
     mk_simple (with_ret RetAlways (plain ($"detail") TString))].
