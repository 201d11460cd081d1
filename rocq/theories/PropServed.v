(** C78: the documents in which a server describes itself are served as they are. *)
From Coq Require Import Lia.
From Verif Require PropRequest.
From Verif Require Import PyBase BaseFacts PyNum Issues IssuesSpec IssuesFacts AttrRep AttrRepSpec Value ValueFacts Container ContainerSpec ContainerFacts ContainerRW
  Types Attr AttrSpec AttrFacts AttrItems Schema Assets Presence Match FilterParse Path Sort Patch ListResp Search Bulk Requests SchemaS SchemaSpec SchemaFacts SchemaBuild PropAttr PropSchema PatchFacts
  FileSpec FileFacts RequestSpec SelfSpec SelfFacts SelfDump Config CatalogSpec CatalogFacts ServedSpec ServedFacts.

Section Env.
  Context {env : PyEnv}.

  (** The document that states a configuration is accepted, and whoever reads the
      body finds the configuration in it.

      Full claim: this for every configuration and with every field. It fails for
      the documentation of an authentication scheme, C78_documentation_refuted, and
      for configurations without limits, C78_unlimited_refuted. *)
  Theorem C78_config_partial c : full_config c ->
    exists body, get_dump spc_schema 200 (config_doc c) VNone None = Ok (mkResp (VDict []) body, no_issues) /\ tells_config c (mk_cont body).
  Proof.
    intros F. exists (to_dict (spc_page c (map (scheme_card false) (cf_schemes c)))). split.
    - unfold get_dump, dump_resource. change (truthy VNone) with false. cbv iota zeta. assert (D : exists d, config_doc c = VDict d) by (eexists; reflexivity). destruct D as [d D]. rewrite D, (config_dumped c d F D). cbn [bind].
      change (location_in_header (VDict []) false) with no_issues. change (status_code_issues 200 200) with no_issues. rewrite !merge_nil. change (can_proceed no_issues [body_loc]) with true. cbv iota. cbn [checker_or_default].
      rewrite (config_present c F). cbn [bind]. rewrite merge_nil. assert (N : exists r, named_rep2 spc_schema ($"meta") ($"location") = Ok r) by (eexists; reflexivity). destruct N as [r ->]. cbn [bind].
      change (qget [] ($"Location") VNone) with VNone. rewrite andb_false_r. cbn [bind]. reflexivity.
    - rewrite filed_back; [|apply config_filed; exact F | reflexivity]. destruct F as (U & [b1 B1] & [b2 B2] & [z1 Z1] & [z2 Z2] & [b3 B3] & [z3 Z3] & [b4 B4] & [b5 B5] & [b6 B6] & _ & S).
      assert (K : Forall2 tells_scheme (cf_schemes c) (map (scheme_card false) (cf_schemes c))).
      { clear - S. induction S as [|s l Hs _ IH]; cbn [map]; constructor; [|exact IH]. destruct Hs as ([ty [T1 T2]] & [n [N1 N2]] & [d [D1 D2]] & Us & _). unfold tells_scheme, stated_text, scheme_card. rewrite T1, N1, D1.
        destruct (url_cases _ Us) as [->|[a [r [-> _]]]]; cbn [unless_empty app]; (split; [apply holds_look; reflexivity|]); (split; [apply holds_look; reflexivity|]); (split; [apply holds_look; reflexivity|]); intros w; rewrite holds_look.
        - split; [discriminate | intros [_ X]; contradiction].
        - split; [intros X; injection X as <-; split; [reflexivity | discriminate] | intros [-> _]; reflexivity]. }
      unfold tells_config, told_in, stated_text, spc_page. destruct (url_cases _ U) as [->|[a [r [-> _]]]]; cbn [unless_empty app].
      all: split; [apply holds_look; reflexivity|].
      all: split; [intros w; rewrite holds_look; split; [first [discriminate | intros X; injection X as <-; split; [reflexivity | discriminate]] | intros [-> X]; first [contradiction | reflexivity]]|].
      all: repeat (split; [eexists; split; apply holds_look; reflexivity|]).
      all: eexists; split; [apply holds_look; reflexivity | exact K].
  Qed.

  (** So are the documents of resource types, one by one or in a list. *)
  Theorem C78_types ts h si : Forall full_type ts ->
    exists body docs, list_dump_response [resource_type_schema] 200 (catalog (map type_doc ts)) h si None None None None = Ok (mkResp h body, no_issues)
    /\ holds (mk_cont body) ($"totalResults") (VInt (Z.of_nat (length ts))) /\ holds (mk_cont body) ($"Resources") (VList docs) /\ Forall2 tells_type ts docs.
  Proof.
    intros F. eexists. exists (map type_page ts). split.
    - apply (catalog_dumped _ resource_type_schema type_page type_page ts (map type_doc ts) h si).
      + apply Forall_forall. intros t _. apply type_dumped.
      + revert F. apply Forall_impl. intros t Ht. apply type_present. exact Ht.
      + rewrite map_map. apply map_ext. apply type_loaded.
    - rewrite filed_back; [|apply page_filed; apply Forall_forall; intros x Hx; apply in_map_iff in Hx as [s [<- _]]; [apply type_filed | reflexivity] | reflexivity].
      unfold page_of. split; [unfold zlen; rewrite map_length; apply holds_look; reflexivity|]. split; [apply holds_look; reflexivity|].
      clear. induction ts as [|t ts IH]; cbn [map]; constructor; [|exact IH]. unfold tells_type, type_page.
      repeat (split; [apply holds_look; reflexivity|]). eexists. split; [apply holds_look; reflexivity|].
      induction (rt_exts t) as [|e l IHl]; cbn [map]; constructor; [|exact IHl]. unfold tells_ext, ext_card. split; apply holds_look; reflexivity.
  Qed.
End Env.

#[local] Existing Instance no_env.

(** A server that supports bulk operations and filters, with two schemes. *)
Definition ex_scheme (documentation : str) : auth_scheme :=
  mkScheme (VStr ($"OAuth")) (VStr ($"Bearer tokens")) (VStr []) (VStr documentation) (VStr ($"oauthbearertoken")).
Definition ex_config (documentation : str) : config :=
  mkConfig (VStr []) (VBool true) (mkBulk (VBool true) (VInt 1000) (VInt 1048576)) (mkFilterOption (VBool true) (VInt 200)) (VBool false) (VBool true) (VBool false)
    [ex_scheme documentation; mkScheme (VStr ($"Basic")) (VStr ($"Passwords")) (VStr []) (VStr []) (VStr ($"httpbasic"))].
Example ex_C78_config : full_config (ex_config [])
  /\ create_config (VStr []) (dict_of [($"supported", VBool true)]) (dict_of [($"supported", VBool true); ($"max_operations", VInt 1000); ($"max_payload_size", VInt 1048576)])
       (dict_of [($"supported", VBool true); ($"max_results", VInt 200)]) VNone (dict_of [($"supported", VBool true)]) VNone
       (VList [dict_of [($"name", VStr ($"OAuth")); ($"description", VStr ($"Bearer tokens")); ($"spec_uri", VStr []); ($"documentation_uri", VStr []); ($"type", VStr ($"oauthbearertoken"))];
               dict_of [($"name", VStr ($"Basic")); ($"description", VStr ($"Passwords")); ($"spec_uri", VStr []); ($"documentation_uri", VStr []); ($"type", VStr ($"httpbasic"))]]) = Ok (ex_config []).
Proof.
  split; [|reflexivity]. unfold full_config, ex_config, maybe_url, some_bool, some_int.
  cbn [cf_documentation cf_patch cf_bulk cf_filter cf_change_password cf_sort cf_etag cf_schemes bo_supported bo_max_operations bo_max_payload fo_supported fo_max_results].
  split; [exists []; auto|]. do 9 (split; [eexists; reflexivity|]). split; [discriminate|].
  repeat apply Forall_cons; try apply Forall_nil; unfold full_scheme, some_text, maybe_url; cbn [ex_scheme as_type as_name as_description as_spec as_documentation];
    (repeat (split; [eexists; split; [reflexivity | discriminate]|])); (split; [exists []; auto | eexists; reflexivity]).
Qed.
Definition ex_type : resource_type := {| rt_name := $"User"; rt_descr := []; rt_endpoint := $"/Users"; rt_schema := $"urn:ietf:params:scim:schemas:core:2.0:User"; rt_exts := [(enterprise_uri, false)] |}.
Example ex_C78_types : Forall full_type [ex_type].
Proof. constructor; [|constructor]. repeat split; try discriminate. constructor; [discriminate | constructor]. Qed.

(** What the server says about the documentation of an authentication scheme is
    dropped without a word (RFC 7643, 5: documentationUri). *)
Theorem C78_documentation_refuted : exists c s t, In s (cf_schemes c) /\ as_documentation s = VStr t /\ t <> [] /\ full_config c
  /\ match get_dump spc_schema 200 (config_doc c) VNone None with
     | Ok (r, iss) => iss = no_issues /\ exists l, holds (mk_cont (rs_body r)) ($"authenticationSchemes") (VList l) /\ forall x v, In x l -> ~ holds x ($"documentationUri") v
     | Raise _ => False
     end.
Proof.
  exists (ex_config ($"http://x")), (ex_scheme ($"http://x")), ($"http://x"). split; [left; reflexivity|]. split; [reflexivity|]. split; [discriminate|].
  assert (F : full_config (ex_config ($"http://x"))).
  { unfold full_config, ex_config, maybe_url, some_bool, some_int.
    cbn [cf_documentation cf_patch cf_bulk cf_filter cf_change_password cf_sort cf_etag cf_schemes bo_supported bo_max_operations bo_max_payload fo_supported fo_max_results].
    split; [exists []; auto|]. do 9 (split; [eexists; reflexivity|]). split; [discriminate|].
    repeat apply Forall_cons; try apply Forall_nil; unfold full_scheme, some_text, maybe_url; cbn [ex_scheme as_type as_name as_description as_spec as_documentation];
      (repeat (split; [eexists; split; [reflexivity | discriminate]|])); (split; [exists []; auto | eexists; reflexivity]). }
  split; [exact F|]. vm_compute. split; [reflexivity|]. eexists. split; [do 3 eexists; repeat split; reflexivity|].
  intros x v Hx [d [m [k [E [H _]]]]]. destruct Hx as [<-|[<-|[]]]; injection E as <- <-; discriminate H.
Qed.
(** A server without bulk operations and filters has no limits to state (config.py
    10-31), and its configuration is not served. *)
Theorem C78_unlimited_refuted : exists c, create_config (VStr []) VNone VNone VNone VNone VNone VNone
    (VList [dict_of [($"name", VStr ($"Basic")); ($"description", VStr ($"Passwords")); ($"spec_uri", VStr []); ($"documentation_uri", VStr []); ($"type", VStr ($"httpbasic"))]]) = Ok c
  /\ match get_dump spc_schema 200 (config_doc c) VNone None with
     | Ok (r, iss) => rs_body r = VNone /\ errs_at iss [LStr ($"body"); LStr ($"bulk"); LStr ($"maxOperations")] = [e_missing] /\ errs_at iss [LStr ($"body"); LStr ($"filter"); LStr ($"maxResults")] = [e_missing]
     | Raise _ => False
     end.
Proof. eexists. split; [reflexivity|]. vm_compute. repeat split; reflexivity. Qed.

Print Assumptions C78_config_partial.
Print Assumptions C78_types.
Print Assumptions ex_C78_config.
Print Assumptions C78_documentation_refuted.
Print Assumptions C78_unlimited_refuted.
