(** Vocabulary for the operations of bulk responses (C65, C66). *)
From Verif Require Import PyBase PyNum Issues IssuesSpec AttrRep AttrRepSpec Value Container ContainerSpec Types Attr Schema Patch ListResp Bulk Requests
  AttrSpec PatchSpec RequestSpec BulkOpSpec.

(** One operation of a bulk response: its method and the parts that are given. *)
Record bulk_answer := mkAnswer { t_method : str; t_id : option str; t_version : option str; t_location : option str;
                                 t_status : option str; t_response : option value }.

Definition answer_json (o : bulk_answer) : value :=
  dict_of (($"method", VStr (t_method o)) :: field ($"bulkId") (option_map VStr (t_id o)) ++ field ($"version") (option_map VStr (t_version o))
           ++ field ($"location") (option_map VStr (t_location o)) ++ field ($"status") (option_map VStr (t_status o)) ++ field ($"response") (t_response o)).
(** The body of a bulk response with these operations. *)
Definition answers_document (l : list bulk_answer) : value :=
  dict_of [($"schemas", VList [VStr ($"urn:ietf:params:scim:api:messages:2.0:BulkResponse")]); ($"Operations", VList (map answer_json l))].

(** The operation ended with the status [z]. *)
Definition ends (o : bulk_answer) (z : Z) : Prop := exists t, t_status o = Some t /\ py_int (VStr t) = Ok z.

(** What can be wrong with an operation apart from its response, and where that
    is reported: a created resource has no identifier to find the request by; it
    has no status; it does not say where the resource is, though only a failed
    creation leaves none; it failed and does not say why. *)
Inductive answer_fault (o : bulk_answer) : error -> loc -> Prop :=
| answer_without_id : t_method o = $"POST" -> t_id o = None -> answer_fault o e_missing [LStr ($"bulkId")]
| answer_without_status : t_status o = None -> answer_fault o e_missing [LStr ($"status")]
| answer_without_location z : ends o z -> t_location o = None -> ~ (t_method o = $"POST" /\ (300 <= z)%Z) -> answer_fault o e_missing [LStr ($"location")]
| answer_without_reason z : ends o z -> ~ given (t_response o) -> (300 <= z)%Z -> answer_fault o e_missing [LStr ($"response")].

(** What an operation says as its response: not nothing, as Python sees it; an
    empty object counts. *)
Definition content (v : value) : value := match v with VDict [] => VCont [] [] | v => v end.
Definition says (o : bulk_answer) (r : value) : Prop := exists v, t_response o = Some v /\ r = content v /\ truthy r = true.

(** A location names a schema's resources; which schema a response is judged by:
    the first one whose resources the location names, or else the last one. *)
Definition names (t : str) (s : schema) : Prop := exists a b, t = a ++ ("/"%char :: sc_plural s ++ ["/"%char]) ++ b.
Definition names_none (schemas : list schema) (t : str) : Prop := Forall (fun s => ~ names t s) schemas.
Inductive judges (schemas : list schema) (t : str) : schema -> Prop :=
| judge_named l1 s l2 : schemas = l1 ++ s :: l2 -> names t s -> names_none l1 t -> judges schemas t s
| judge_last l s : schemas = l ++ [s] -> names_none schemas t -> judges schemas t s.
(** Each with a plural name of its own. *)
Definition told_apart (schemas : list schema) : Prop := NoDup (map sc_plural schemas).

(** A location that belongs to nothing. *)
Inductive astray (schemas : list schema) (o : bulk_answer) : error -> loc -> Prop :=
| astray_at t : t_location o = Some t -> names_none schemas t -> astray schemas o e_unknown_resource [LStr ($"location")].

Section Env.
  Context {env : PyEnv}.

  (** Operations with one of the five methods in upper-case letters, a status that
      is a number and a location that is a URL, if they have these. *)
  Record well_put (o : bulk_answer) : Prop := mkWellPut {
    order_method : In (t_method o) [$"GET"; $"POST"; $"PUT"; $"PATCH"; $"DELETE"];
    order_location : forall t, t_location o = Some t -> t <> [] /\ env_abs_url t = true;
    order_status : forall t, t_status o = Some t -> exists z, py_int (VStr t) = Ok z;
    order_response : t_response o <> Some VMissing }.

  (** The response the operation stands for, sent on its own with the operation's
      location as its header.  There is none for deletions. *)
  Definition located_at (t : str) : value := dict_of [($"Location", VStr t)].
  Inductive sent_alone (s : schema) (o : bulk_answer) (z : Z) (t : str) (r : value) : response -> issues -> Prop :=
  | sent_get rs iss : t_method o = $"GET" -> get_dump s z r (located_at t) None = Ok (rs, iss) -> sent_alone s o z t r rs iss
  | sent_post rs iss : t_method o = $"POST" -> post_dump s z r (located_at t) None = Ok (rs, iss) -> sent_alone s o z t r rs iss
  | sent_put rs iss : t_method o = $"PUT" -> put_dump s z r (located_at t) None = Ok (rs, iss) -> sent_alone s o z t r rs iss
  | sent_patch rs iss : t_method o = $"PATCH" -> patch_dump s z r (located_at t) None = Ok (rs, iss) -> sent_alone s o z t r rs iss.

  Definition in_response (p : loc) : loc := LStr ($"response") :: p.
  (** The location in the body is not the operation's, as the single response
      says in its header; both places are then reported in the words of the
      operation. *)
  Inductive displaced (iss : issues) : error -> loc -> Prop :=
  | displaced_body e : In e (errs_at iss at_header) -> displaced iss (e_must_equal ($"operation's location")) (in_response at_meta_location)
  | displaced_operation e : In e (errs_at iss at_header) -> displaced iss (e_must_equal ($"'response.meta.location'")) [LStr ($"location")].
  (** The version in an accepted body is not the operation's. *)
  Inductive outdated (o : bulk_answer) (rs : response) (iss : issues) : error -> loc -> Prop :=
  | outdated_body w v : (forall p, errs_at iss p = []) -> t_version o = Some w -> w <> [] -> get_item_str (mk_cont (rs_body rs)) ($"meta.version") = Ok v -> truthy v = true ->
      v <> VStr w -> outdated o rs iss (e_must_equal ($"operation's version")) (in_response [LStr ($"meta"); LStr ($"version")])
  | outdated_operation w v : (forall p, errs_at iss p = []) -> t_version o = Some w -> w <> [] -> get_item_str (mk_cont (rs_body rs)) ($"meta.version") = Ok v -> truthy v = true ->
      v <> VStr w -> outdated o rs iss (e_must_equal ($"'response.meta.version'")) [LStr ($"version")].
  (** What the single response says about its body, except for code 11 (must be
      equal) at the location in it. *)
  Inductive passed_on (iss : issues) (e : error) : loc -> Prop :=
  | passed p : In e (errs_at iss (at_body p)) -> ~ (p = at_meta_location /\ e_code e = 11%N) -> passed_on iss e (in_response p).

  (** What an error message says about its body and its status. *)
  Inductive said_wrongly (iss : issues) (e : error) : loc -> Prop :=
  | wrong_body p : In e (errs_at iss (at_body p)) -> said_wrongly iss e (in_response p)
  | wrong_status p : In e (errs_at iss (LStr ($"status") :: p)) -> said_wrongly iss e (LStr ($"status") :: p).

  (** What the dumped response keeps of an accepted operation. *)
  Inductive response_kept (schemas : list schema) (o : bulk_answer) (v : value) : Prop :=
  | kept_none : t_response o = None -> ~ has_key v ($"response") -> response_kept schemas o v
  | kept_as_given r : t_response o = Some r -> (forall z x, ends o z -> says o x -> (z < 300)%Z /\ (t_location o = None \/ schemas = [])) ->
      holds v ($"response") (wrap r) -> response_kept schemas o v
  | kept_error z r rs iss : ends o z -> says o r -> (300 <= z)%Z -> error_dump z r VNone = Ok (rs, iss) ->
      (forall p, errs_at iss (at_body p) = []) -> holds v ($"response") (rs_body rs) -> response_kept schemas o v
  | kept_resource z r t s rs iss : ends o z -> says o r -> (z < 300)%Z -> t_location o = Some t -> judges schemas t s -> sent_alone s o z t r rs iss ->
      (forall p, p <> at_meta_location -> errs_at iss (at_body p) = []) -> holds v ($"response") (match rs_body rs with VNone => VNone | b => mk_cont b end) -> response_kept schemas o v.
  Record answer_kept (schemas : list schema) (o : bulk_answer) (v : value) : Prop := mkAnswerKept {
    kept_method : holds v ($"method") (VStr (t_method o));
    kept_id : part v ($"bulkId") (t_id o);
    kept_version : part v ($"version") (t_version o);
    kept_location : part v ($"location") (t_location o);
    kept_status : part v ($"status") (t_status o);
    kept_response : response_kept schemas o v }.
End Env.
