(** C77: the schemas endpoint serves the descriptions of schemas. *)
From Coq Require Import Lia.
From Verif Require PropRequest.
From Verif Require Import PyBase BaseFacts PyNum Issues IssuesSpec IssuesFacts AttrRep AttrRepSpec Value ValueFacts Container ContainerSpec ContainerFacts ContainerRW
  Types Attr AttrSpec AttrFacts AttrItems Schema Assets Presence Match FilterParse Path Sort Patch ListResp Search Bulk Requests SchemaS SchemaSpec SchemaFacts SchemaBuild PropAttr PropSchema PatchFacts
  FileSpec FileFacts RequestSpec SelfSpec SelfFacts SelfDump PropSelf CatalogSpec CatalogFacts.

Section Env.
  Context {env : PyEnv}.

  Lemma made_named s : made s -> Forall name_set (at_top (sc_attrs s)).
  Proof. intros M. pose proof (ws_attrs s (made_wf s M)) as H. revert H. apply Forall_impl. intros a [_ [_ [H _]]]. exact (attr_ok_nonempty _ H). Qed.
  Lemma shown_tells n s : Forall (describable false n) (at_top (sc_attrs s)) -> tells_schema s (shown_doc s).
  Proof.
    intros H. unfold tells_schema, shown_doc. split; [apply holds_look; reflexivity|]. split; [apply holds_look; reflexivity|]. split; [apply holds_look; reflexivity|]. split; [apply holds_look; reflexivity|].
    split; [eexists; split; apply holds_look; reflexivity|].
    eexists. split; [apply holds_look; reflexivity|]. induction H as [|a l Ha _ IH]; constructor; [apply shown_describes; eauto | exact IH].
  Qed.

  (** The answer to a request for all schemas: the representations of any schemas,
      put into a list response, are served without complaint, and whoever reads the
      body finds every schema, in order, with every characteristic of every
      attribute.

      Full claim: this for all schemas. It fails for schemas with decimal numbers,
      C77_served_refuted. *)
  Theorem C77_served_partial n ss ds h si :
    Forall made ss -> Forall (fun s => Forall (describable false n) (at_top (sc_attrs s))) ss -> Forall2 (fun s d => get_schema_rep s = Ok d) ss ds ->
    exists body docs, list_dump_response [schema_schema n] 200 (catalog ds) h si None None None None = Ok (mkResp h body, no_issues)
    /\ holds (mk_cont body) ($"schemas") (VList [VStr ($"urn:ietf:params:scim:api:messages:2.0:ListResponse")])
    /\ holds (mk_cont body) ($"totalResults") (VInt (Z.of_nat (length ss)))
    /\ holds (mk_cont body) ($"Resources") (VList docs) /\ Forall2 tells_schema ss docs.
  Proof.
    intros M D R.
    assert (E : map conv_item ds = map raw_doc ss /\ Forall (fun s => schema_dump (schema_schema n) (raw_doc s) = Ok (shown_doc s, no_issues)) ss).
    { clear M. induction R as [|s d ss ds Hd _ IH]; [split; [reflexivity | constructor]|]. apply Forall_cons_iff in D as [D1 D2]. destruct (IH D2) as [I1 I2]. destruct (rep_loaded _ _ _ D1) as [x [X1 X2]]. rewrite Hd in X1. injection X1 as ->.
      cbn [map conv_item]. rewrite X2, I1. split; [reflexivity|]. constructor; [exact (doc_dumped_cont n s x D1 X2) | exact I2]. }
    destruct E as [E1 E2].
    assert (P : Forall (fun s => presence default_checker (shown_doc s) (at_all (sc_attrs (schema_schema n))) Response = Ok no_issues) ss).
    { rewrite Forall_forall in *. intros s Hs. apply doc_present; [exact (D s Hs) | exact (made_named s (M s Hs))]. }
    eexists. exists (map shown_doc ss). split; [exact (catalog_dumped schema (schema_schema n) raw_doc shown_doc ss ds h si E2 P E1)|].
    rewrite filed_back; [|apply page_filed; apply Forall_forall; intros x Hx; apply in_map_iff in Hx as [s [<- _]]; [apply doc_filed | reflexivity] | reflexivity].
    unfold page_of. split; [apply holds_look; reflexivity|]. split; [|split; [apply holds_look; reflexivity|]].
    - unfold zlen. rewrite map_length. apply holds_look. reflexivity.
    - clear - D. induction D as [|s ss H _ IH]; constructor; [exact (shown_tells n s H) | exact IH].
  Qed.

  (** The answer to a request for one schema. *)
  Theorem C77_one_partial n s d : made s -> Forall (describable false n) (at_top (sc_attrs s)) -> get_schema_rep s = Ok d ->
    exists body, get_dump (schema_schema n) 200 d VNone None = Ok (mkResp (VDict []) body, no_issues) /\ tells_schema s (mk_cont body).
  Proof.
    intros M D R. destruct (rep_loaded _ _ _ D) as [x [X1 X2]]. rewrite R in X1. injection X1 as ->.
    exists (to_dict (shown_doc s)). split; [|rewrite filed_back; [exact (shown_tells n s D) | apply doc_filed | reflexivity]].
    unfold get_dump, dump_resource. change (truthy VNone) with false. cbv iota zeta. rewrite (doc_dumped n s x D X2). cbn [bind]. change (location_in_header (VDict []) false) with no_issues. change (status_code_issues 200 200) with no_issues.
    rewrite !merge_nil. change (can_proceed no_issues [body_loc]) with true. cbv iota. cbn [checker_or_default]. rewrite (doc_present n s D (made_named s M)). cbn [bind]. rewrite merge_nil.
    assert (N : exists r, named_rep2 (schema_schema n) ($"meta") ($"location") = Ok r) by (unfold schema_schema; rewrite attributes_form; eexists; reflexivity). destruct N as [r ->]. cbn [bind qget].
    change (qget [] ($"Location") VNone) with VNone. rewrite andb_false_r. cbn [bind]. reflexivity.
  Qed.

  (** Requests for schemas and resource types: nothing of the query or body is
      handed on, and nothing but a filter is complained about. *)
  Theorem C77_request h q r iss : config_parse_request h q = (r, iss) ->
    rq_headers r = h /\ rq_query r = VNone /\ rq_body r = VNone
    /\ (forall p e, In e (errs_at iss p) <-> e = e_not_supported /\ p = [LStr ($"query_string"); LStr ($"filter")] /\ exists l v, q = VDict l /\ In (KStr ($"filter"), v) l).
  Proof.
    unfold config_parse_request. intros E. injection E as <- <-. split; [reflexivity|]. split; [reflexivity|]. split; [reflexivity|].
    assert (K : match q with VDict l => amem dkey_eqb (KStr ($"filter")) l | _ => false end = true <-> exists l v, q = VDict l /\ In (KStr ($"filter"), v) l).
    { destruct q; try (split; [discriminate | intros [l' [v [X _]]]; discriminate]). match goal with L : list (dkey * value) |- _ => rename L into l end. split.
      - intros H. eexists. unfold amem in H. destruct (aget _ _ _) as [v|] eqn:G; [|discriminate]. exists v. split; [reflexivity|]. revert G. clear. induction l as [|[k x] t IH]; cbn [aget]; [discriminate|].
        destruct (dkey_eqb k _) eqn:Q; [intros X; injection X as ->; left; f_equal; destruct k; try discriminate; f_equal; apply str_eqb_eq; exact Q | right; apply IH; assumption].
      - intros [l' [v [X H]]]. injection X as <-. unfold amem. destruct (aget _ _ _) eqn:G; [reflexivity|]. exfalso. revert G H. clear. induction l as [|[k x] t IH]; cbn [aget]; [intros _ []|].
        intros G [X|H]; [injection X as -> ->; cbn [dkey_eqb] in G; rewrite (proj2 (str_eqb_eq _ _) eq_refl) in G; discriminate|]. destruct (dkey_eqb k _); [discriminate | exact (IH G H)]. }
    intros p e. rewrite <- K. destruct (match q with VDict l => _ | _ => false end).
    - rewrite errs_at_add by exact wf_no_issues. change (query_loc ++ [LStr ($"filter")]) with [LStr ($"query_string"); LStr ($"filter")]. destruct (loc_dec _ p) as [<-|N].
      + split; [intros [<-|[]]; auto | intros [-> _]; left; reflexivity].
      + split; [intros [] | intros [_ [-> _]]; contradiction].
    - split; [intros [] | intros [_ [_ X]]; discriminate].
  Qed.
End Env.

#[local] Existing Instance no_env.

(** Users with the enterprise extension, and groups. *)
Example ex_C77 : exists ds, Forall made [user_schema; group_schema] /\ Forall (fun s => Forall (describable false 1) (at_top (sc_attrs s))) [user_schema; group_schema]
  /\ Forall2 (fun s d => get_schema_rep s = Ok d) [user_schema; group_schema] ds.
Proof.
  destruct ex_C64 as [U [G _]]. destruct (rep_loaded _ _ _ U) as [d1 [D1 _]]. destruct (rep_loaded _ _ _ G) as [d2 [D2 _]].
  exists [VDict d1; VDict d2]. split; [constructor; [exact user_made | constructor; [exact group_made | constructor]]|]. split; [constructor; [exact U | constructor; [exact G | constructor]]|].
  constructor; [exact D1 | constructor; [exact D2 | constructor]].
Qed.
Example ex_C77_request : snd (config_parse_request VNone (VDict [(KStr ($"filter"), VNone)])) <> no_issues /\ snd (config_parse_request VNone (VDict [(KStr ($"count"), VInt 3)])) = no_issues.
Proof. split; [discriminate | reflexivity]. Qed.

(** One schema with a decimal number (RFC 7643, 2.3.3) and nothing is served. *)
Lemma weighed_made : made ex_weighed.
Proof.
  unfold ex_weighed. apply made_resource; [discriminate| |apply fresh_check; vm_compute; reflexivity].
  unfold schemas_attr, external_id_attr, meta_attr, server_ro. cbv zeta. neat_attrs.
Qed.
Theorem C77_served_refuted : exists s d, made s /\ Forall (describable true 1) (at_top (sc_attrs s)) /\ get_schema_rep s = Ok d
  /\ match list_dump_response [schema_schema 1] 200 (catalog [d]) VNone 1 None None None None with Ok (r, iss) => rs_body r = VNone
       /\ errs_at iss [LStr ($"body"); LStr ($"Resources"); LIdx 0; LStr ($"attributes"); LIdx 4; LStr ($"type")] = [e_must_be_one_of] | Raise _ => False end.
Proof.
  exists ex_weighed. eexists. split; [exact weighed_made|]. split; [apply all_describable; vm_compute; reflexivity|]. split; [vm_compute; reflexivity|]. vm_compute. split; reflexivity.
Qed.

Print Assumptions C77_served_partial.
Print Assumptions C77_one_partial.
Print Assumptions C77_request.
Print Assumptions ex_C77.
Print Assumptions C77_served_refuted.
