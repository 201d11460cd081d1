(** Property C82: requests are answered with a report, not with an exception
    (src/request_validators.py 235-340). *)
From Verif Require Import PyBase BaseFacts PyNum Issues IssuesSpec IssuesFacts AttrRep AttrRepSpec AttrRepFacts Value ValueFacts
  Container ContainerSpec ContainerFacts ContainerRW Types TypesSpec Attr Schema Assets AttrSpec AttrFacts AttrHonest AttrItems PropAttr
  SchemaSpec SchemaFacts SchemaBuild PropSchema TotalSpec TotalFacts Presence PresenceSpec PresenceFacts Path Patch Bulk Requests PatchFacts RequestSpec RequestFacts BodyFacts PutFacts PropPut AnswerSpec AnswerFacts.

Section Env.
  Context {env : PyEnv}.

  Lemma body_answered s body ig : made s -> own_names s -> distinct_names (at_top (sc_attrs s)) -> Forall calm_attr (at_top (sc_attrs s)) -> Forall standard (at_top (sc_attrs s)) ->
    tame body -> (is_object body -> well_placed s (mk_cont body)) ->
    exists y iss, parse_body (schema_parse s) s body ig = Ok (y, iss) /\ (is_object body -> whole (sc_uri s) (map fst (sc_exts s)) (at_top (sc_attrs s)) y)
    /\ (~ is_object body -> exists e, iss = merge no_issues (snd (fail e)) body_loc).
  Proof.
    intros Hm Hown Hd Hq Hst Ht Hp. unfold parse_body, schema_parse. destruct (C27_never_raises_partial s MParse body Hm Hq Ht Hp) as [y [iss E]]. rewrite E. cbn [bind].
    assert (D : is_object body \/ ~ is_object body) by (destruct body; auto; left; exact I). destruct D as [Ho|Hn].
    - pose proof (parsed_whole s body y iss Hm Hown Hd Hq Hst Ho E) as W. destruct (can_proceed _ _).
      + destruct (whole_presence s (mkChecker [] None ig) Request y Hm Hown W) as [p ->]. cbn [bind]. eexists; eexists. split; [reflexivity|]. split; [intros _; exact W | contradiction].
      + eexists; eexists. split; [reflexivity|]. split; [intros _; exact W | contradiction].
    - assert (F : exists e, (y, iss) = fail e) by (destruct body; try (exfalso; apply Hn; exact I); cbn [base_parse] in E; injection E as <- <-; eexists; reflexivity).
      destruct F as [e F]. injection F as -> ->. change (can_proceed (merge no_issues (snd (fail e)) body_loc) [body_loc]) with false. cbv iota. eexists; eexists. split; [reflexivity|]. split; [contradiction|].
      intros _. exists e. reflexivity.
  Qed.

  (** Whatever a client sends to create a resource, as long as numbers fit floats,
      texts are ASCII, no key is empty and URIs are used as intended, is answered.

      Full claim: this for all JSON documents; it fails for each kind of document
      left out (C27_never_raises_refuted), and for schemas in which an extension
      has a complex attribute named like a core attribute (C82_clash_refuted). *)
  Theorem C82_post_partial : forall s body h q, made s -> own_names s -> distinct_names (at_top (sc_attrs s)) -> Forall calm_attr (at_top (sc_attrs s)) -> Forall standard (at_top (sc_attrs s)) ->
    tame body -> (is_object body -> well_placed s (mk_cont body)) -> textual_query q ->
    exists rq iss, post_parse s body h q = Ok (rq, iss).
  Proof.
    intros s body h q Hm Hown Hd Hq Hst Ht Hp Hqu. unfold post_parse. destruct (query_answered q Hqu) as [q' [iq ->]]. cbn [bind].
    destruct (body_answered s body (server_required (at_all (sc_attrs s))) Hm Hown Hd Hq Hst Ht Hp) as [y [iss [-> _]]]. cbn [bind]. eexists; eexists; reflexivity.
  Qed.

  (** The same for replacing a resource. *)
  Theorem C82_put_partial : forall s body h q, made s -> own_names s -> distinct_names (at_top (sc_attrs s)) -> Forall calm_attr (at_top (sc_attrs s)) -> Forall standard (at_top (sc_attrs s)) ->
    tame body -> (is_object body -> well_placed s (mk_cont body)) -> textual_query q ->
    exists rq iss, put_parse s body h q = Ok (rq, iss).
  Proof.
    intros s body h q Hm Hown Hd Hq Hst Ht Hp Hqu. unfold put_parse. destruct (query_answered q Hqu) as [q' [iq Eq]]. rewrite Eq. cbn [bind].
    destruct (body_answered s body [] Hm Hown Hd Hq Hst Ht Hp) as [y [iss [-> [W F]]]]. cbn [bind].
    destruct (has_issues (merge iq iss []) []) eqn:Eh; [eexists; eexists; reflexivity|].
    assert (Ho : is_object body).
    { assert (D : is_object body \/ ~ is_object body) by (destruct body; auto; left; exact I). destruct D as [Ho|Hn]; [exact Ho|]. exfalso. destruct (F Hn) as [e ->].
      assert (Ri : report iq).
      { unfold query_step in Eq. destruct q; try (injection Eq as _ <-; apply report_empty). apply bind_ok in Eq as [[c j] [E1 E2]]. injection E2 as _ <-. constructor; [apply report_empty|]. exact (requested_report _ _ _ E1). }
      assert (Rf : report (merge no_issues (snd (fail e)) body_loc)) by (constructor; [apply report_empty|]; unfold fail; cbn [snd]; constructor; apply report_empty).
      assert (X : errs_at (merge iq (merge no_issues (snd (fail e)) body_loc) []) body_loc <> []).
      { rewrite errs_merge by assumption. cbn [loc_strip]. change (errs_at (merge no_issues (snd (fail e)) body_loc) body_loc) with [e]. destruct (errs_at iq body_loc); discriminate. }
      apply no_has_issues with (l := body_loc) in Eh; [contradiction|]. constructor; assumption. }
    assert (Hno' : forall a, In a (at_top (sc_attrs s)) -> ~ listed (r_attr (arep a)) (map fst (sc_exts s))).
    { intros a Ha G. apply (Hown a Ha). right. exact G. }
    destruct (made_placed s Hm Hno') as [Hpl _]. pose proof (made_kin s Hm) as Hk. destruct (made_assembled s Hm) as [[_ [_ [Et _]]] _].
    destruct (strip_whole (sc_uri s) (map fst (sc_exts s)) (at_top (sc_attrs s)) Hd (at_all (sc_attrs s))) with (c := y) as [c' ->]; [|exact (W Ho)|eexists; eexists; reflexivity].
    apply Forall_forall. intros a Ha. rewrite Forall_forall in Hpl. split; [exact (Hpl a Ha)|]. unfold deletable. destruct (r_sub (arep a)) eqn:Es; [left; reflexivity|]. right.
    destruct (Hk a Ha) as [t [Ht' [T1 [T2 [T3 [T4 T5]]]]]]; [rewrite Es; discriminate|]. exists t. split; [|split; [congruence | exact T5]].
    rewrite Et. apply filter_In. split; [exact Ht'|]. unfold no_sub. rewrite T1. reflexivity.
  Qed.

  (** Reading a resource takes nothing from the body. *)
  Theorem C82_get : forall body h q, textual_query q -> exists rq iss, get_parse body h q = Ok (rq, iss).
  Proof. intros body h q Hq. unfold get_parse. destruct (query_answered q Hq) as [q' [iq ->]]. eexists; eexists; reflexivity. Qed.
End Env.

(** ** The shipped user schema qualifies *)

Lemma standard_bound r a : standard a -> standard (bound_attr r a).
Proof. destruct a as [i [[[subs cps] cds]|]]; exact (fun H => H). Qed.
Lemma standard_complex i subs cds : standard (mk_complex i subs [] cds).
Proof. cbn [mk_complex standard app]. destruct (a_multi i); auto. Qed.
Ltac standard_list := repeat (apply Forall_cons; [first [exact I | apply standard_complex]|]); apply Forall_nil.
Lemma standard_tops uri ext l : Forall standard l -> Forall standard (map (fun a => bound_attr (mkRep uri (r_attr (arep a)) [] ext) a) l).
Proof. intros H. apply Forall_map. revert H. apply Forall_impl. intros a. apply standard_bound. Qed.
Lemma core_user_standard : Forall standard (at_top (sc_attrs core_user)).
Proof.
  unfold core_user, resource_schema. cbn [sc_attrs base_schema mk_attrs at_top]. change (fun a => negb (nonempty (r_sub (arep a)))) with no_sub.
  set (L := (_ :: _ :: _ : list attribute)).
  assert (N : neat L). { subst L. unfold user_name_attr, name_attr, password_attr, emails_attr, phone_numbers_attr, ims_attr, photos_attr, addresses_attr, groups_attr,
    entitlements_attr, roles_attr, x509_attr, plural_attr, sattr, schemas_attr, external_id_attr, meta_attr, server_ro, canon. cbv zeta. cbn [map app]. neat_attrs. }
  rewrite bound_tops by (apply neat_sound; exact N). apply standard_tops. subst L. standard_list.
Qed.
Lemma user_standard : Forall standard (at_top (sc_attrs user_schema)).
Proof.
  destruct (with_extension core_user enterprise_ext false) as [s|x] eqn:E.
  - assert (Es : user_schema = s) by (unfold user_schema; rewrite E; reflexivity). rewrite Es.
    destruct (extension_assembled core_user enterprise_ext false s) as [_ [_ [E2 _]]]; [exact (proj1 (made_assembled _ core_user_made)) | exact enterprise_neat
      | discriminate | exact enterprise_new | | exact E |].
    + intros a Ha He. assert (F : fresh_names (ex_uri enterprise_ext) (filter (fun a => negb (r_ext (arep a))) (at_top (sc_attrs core_user)))).
      { apply fresh_check. vm_compute. reflexivity. }
      unfold fresh_names in F. rewrite Forall_forall in F. apply F. apply filter_In. rewrite He. auto.
    + rewrite E2. apply Forall_app. split; [exact core_user_standard|]. apply standard_tops.
      unfold enterprise_ext, mk_extension. cbn [ex_attrs mk_attrs at_all].
      assert (N : neat [sattr ($"employeeNumber") TString; sattr ($"costCenter") TString; sattr ($"division") TString;
         sattr ($"department") TString; sattr ($"organization") TString; manager_attr]).
      { unfold sattr, manager_attr, sattr. neat_attrs. }
      rewrite dedup_names; [|exact (proj2 N)|destruct N as [N _]; revert N; apply Forall_impl; intros a [_ [H _]]; exact H].
      standard_list.
  - unfold user_schema. rewrite E. exact core_user_standard.
Qed.
Lemma user_distinct : distinct_names (at_top (sc_attrs user_schema)).
Proof. unfold distinct_names. apply nodupb_ok. vm_compute. reflexivity. Qed.

#[local] Existing Instance no_env.

(** Every hypothesis holds of the user schema, of a document with wrong and unknown
    parts, and of a query asking for two attributes. *)
Definition ex_query : value := VDict [(KStr ($"attributes"), VList [VStr ($"userName"); VStr ($"bad name")])].
Example ex_C82 : exists rq iss, post_parse user_schema ex_doc VNone ex_query = Ok (rq, iss).
Proof.
  destruct ex_C27 as [Hm [Hq [Ht Hp]]]. apply C82_post_partial; [exact Hm | exact user_own | exact user_distinct | exact Hq | exact user_standard | exact Ht | intros _; exact Hp |].
  intros d k l E H. injection E as <-. destruct H as [H|[]]. injection H as <- <-. repeat constructor; eexists; reflexivity.
Qed.
Example ex_C82_put : exists rq iss, put_parse user_schema ex_doc VNone ex_query = Ok (rq, iss).
Proof.
  destruct ex_C27 as [Hm [Hq [Ht Hp]]]. apply C82_put_partial; [exact Hm | exact user_own | exact user_distinct | exact Hq | exact user_standard | exact Ht | intros _; exact Hp |].
  intros d k l E H. injection E as <-. destruct H as [H|[]]. injection H as <- <-. repeat constructor; eexists; reflexivity.
Qed.

Ltac flat_json := constructor;
  [ repeat (apply NoDup_cons; [intros G; repeat (destruct G as [G|G]; [discriminate|]); exact G|]); constructor
  | repeat (apply Forall_cons; [eexists; reflexivity|]); constructor
  | repeat constructor ].

(** A query whose list of attributes holds a number is not answered. *)
Theorem C82_query_refuted : exists q x, json q /\ get_parse VNone VNone q = Raise x.
Proof.
  exists (VDict [(KStr ($"attributes"), VList [VInt 1])]). eexists. split; [|vm_compute; reflexivity].
  flat_json.
Qed.

(** A request to modify a resource that has no operations, or null instead of them,
    is not answered. *)
Definition ex_patch (l : list (str * value)) : value := dict_of (($"schemas", VList [VStr patch_uri]) :: l).
Theorem C82_patch_refuted : exists env s, made s
  /\ @patch_parse_request env s (ex_patch []) VNone VNone = Raise TypeErr
  /\ @patch_parse_request env s (ex_patch [($"Operations", VNone)]) VNone VNone = Raise TypeErr.
Proof. exists no_env, group_schema. split; [exact group_made|]. split; vm_compute; reflexivity. Qed.

(** A bulk request without a body is not answered. *)
Theorem C82_bulk_refuted : exists env x, @bulk_parse_request env [group_schema] (Some 10%Z) VNone VNone VNone = Raise x.
Proof. exists no_env. eexists. vm_compute. reflexivity. Qed.

(** A schema whose extension has a complex attribute named like a core attribute:
    a document with an empty object for the extension is not answered. *)
Definition clash_core : schema := resource_schema ($"urn:d") [mk_simple (with_multi (plain ($"note") TString))] ($"D") [] None None None None.
Definition clash_ext : extension := mk_extension ($"urn:e") [mk_complex (plain ($"note") TComplex) [sattr ($"text") TString] [] []] ($"E") [].
Definition clash_schema : schema := match with_extension clash_core clash_ext false with Ok s => s | Raise _ => clash_core end.
Lemma clash_made : made clash_schema.
Proof.
  apply (made_ext clash_core clash_ext false).
  - unfold clash_core. apply made_resource; [discriminate | | apply fresh_check; vm_compute; reflexivity].
    unfold sattr, schemas_attr, external_id_attr, meta_attr, server_ro. cbv zeta. neat_attrs.
  - discriminate.
  - unfold clash_ext, mk_extension. cbn [ex_attrs mk_attrs at_all].
    assert (N : neat [mk_complex (plain ($"note") TComplex) [sattr ($"text") TString] [] []]) by (unfold sattr; neat_attrs).
    rewrite dedup_names; [exact N | exact (proj2 N) | destruct N as [N _]; revert N; apply Forall_impl; intros a [_ [H _]]; exact H].
  - intros [H|[]]. vm_compute in H. discriminate.
  - apply fresh_check. vm_compute. reflexivity.
  - unfold clash_schema. destruct (with_extension clash_core clash_ext false) as [s|x] eqn:E; [reflexivity|]. exfalso.
    unfold with_extension in E. assert (Hs : smem (ex_uri clash_ext) (map lower (sc_schemas clash_core)) = false) by (vm_compute; reflexivity).
    rewrite Hs in E. discriminate.
Qed.
Definition ex_clash : value := dict_of [($"schemas", VList [VStr ($"urn:d")]); ($"note", VList [VStr ($"a")]); ($"urn:e", VDict [])].
Theorem C82_clash_refuted : exists env s body x, made s /\ own_names s /\ json body /\ @post_parse env s body VNone VNone = Raise x.
Proof.
  exists no_env, clash_schema, ex_clash. eexists. split; [exact clash_made|]. split; [apply own_check; vm_compute; reflexivity|].
  split; [|vm_compute; reflexivity]. unfold ex_clash, dict_of. cbn [map fst snd]. flat_json; constructor.
Qed.

Print Assumptions C82_post_partial.
Print Assumptions C82_put_partial.
Print Assumptions C82_get.
Print Assumptions C82_query_refuted.
Print Assumptions C82_patch_refuted.
Print Assumptions C82_bulk_refuted.
Print Assumptions C82_clash_refuted.
