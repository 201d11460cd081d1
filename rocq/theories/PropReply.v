(** Property C85: responses about one resource and errors are served or refused with a
    report, not with an exception (src/request_validators.py 53-79, 177-267). *)
From Verif Require Import PyBase BaseFacts PyNum NumSpec Issues IssuesSpec IssuesFacts AttrRep AttrRepSpec AttrRepFacts Value ValueFacts
  Container ContainerSpec ContainerFacts ContainerRW Types TypesSpec Attr Schema Assets AttrSpec AttrFacts AttrHonest AttrItems PropAttr
  SchemaSpec SchemaFacts SchemaBuild PropSchema TotalSpec TotalFacts Presence PresenceSpec PresenceFacts Path Patch Bulk Requests PatchFacts RequestSpec RequestFacts BodyFacts PutFacts PropPut MsgFacts PropFault AnswerSpec AnswerFacts PropAnswer PatchAnswerFacts ReplySpec ReplyFacts.

Section Env.
  Context {env : PyEnv}.

  (** Whatever the application returns for a resource that was read, replaced, created
      or modified, with whatever status and chosen attributes, as long as numbers
      fit floats, texts are ASCII, no key is empty and URIs are used as intended.

      Full claim: this for all documents and headers; it fails for each kind of
      document left out (C85_body_refuted) and for headers that are no dictionary
      (C85_headers_refuted). *)
  Theorem C85_resource_partial : forall s st body h c, made s -> own_names s -> distinct_names (at_top (sc_attrs s)) -> Forall calm_attr (at_top (sc_attrs s)) -> Forall (standard_in MDump) (at_top (sc_attrs s)) ->
    has_sub s ($"meta") ($"resourceType") -> has_sub s ($"meta") ($"location") -> tame body -> (is_object body -> well_placed s (mk_cont body)) -> plain_headers h ->
    (exists rs iss, get_dump s st body h c = Ok (rs, iss)) /\ (exists rs iss, put_dump s st body h c = Ok (rs, iss))
    /\ (exists rs iss, post_dump s st body h c = Ok (rs, iss)) /\ (exists rs iss, patch_dump s st body h c = Ok (rs, iss)).
  Proof.
    intros s st body h c Hm Hown Hd Hq Hst H1 H2 Ht Hp Hh.
    assert (R : forall req ex, exists rs iss, dump_resource s req ex st body h c = Ok (rs, iss)) by (intros req ex; exact (reply_total s Hm Hown Hd Hq Hst req ex st body h c H1 H2 Ht Hp Hh)).
    split; [apply R|]. split; [apply R|]. split; [unfold post_dump; destruct (negb _); [eexists _, _; reflexivity | apply R]|]. unfold patch_dump. destruct (st =? 204)%Z; [eexists _, _; reflexivity | apply R].
  Qed.

  (** The same for errors, with any headers. *)
  Lemma error_calm : Forall calm_attr (at_top (sc_attrs error_schema)).
  Proof.
    rewrite fault_tops. apply top_calm.
    - apply neat_sound. unfold fault_list. apply neat_check; [repeat (apply Forall_cons; [msg_attr|]); apply Forall_nil | vm_compute; reflexivity].
    - unfold fault_list, schemas_attr. repeat (apply Forall_cons; [first [apply calm_plain; reflexivity | constructor]|]); try apply Forall_nil.
      + right. exists parse_error_status. split; [reflexivity|]. intros v [t ->]. unfold parse_error_status. cbn [py_int]. destruct (parse_int t); [destruct (_ && _)|]; eexists; reflexivity.
      + left. reflexivity.
  Qed.
  Theorem C85_error_partial : forall st body h, tame body -> (is_object body -> well_placed error_schema (mk_cont body)) -> exists rs iss, error_dump st body h = Ok (rs, iss).
  Proof.
    intros st body h Ht Hp.
    assert (Own : own_names error_schema) by (apply own_check; vm_compute; reflexivity).
    assert (Dn : distinct_names (at_top (sc_attrs error_schema))) by (unfold distinct_names; apply nodupb_ok; vm_compute; reflexivity).
    assert (St : Forall (standard_in MDump) (at_top (sc_attrs error_schema))) by (rewrite fault_tops; unfold fault_list; cbn [map]; repeat (apply Forall_cons; [exact I|]); apply Forall_nil).
    unfold error_dump. destruct (C27_never_raises_partial error_schema MDump body error_made error_calm Ht Hp) as [y [js E]]. rewrite E. cbn [bind]. rewrite error_rep.
    destruct (object_cases body) as [Ho|Hn].
    - pose proof (parsed_whole_in MDump error_schema body y js error_made Own Dn error_calm St Ho E) as W.
      assert (B : forall iss, exists b, dump_body y iss = Ok b) by (intros iss; unfold dump_body; destruct W as [dd [ll [-> _]]]; destruct (has_issues iss []); eexists; reflexivity).
      destruct (whole_presence error_schema default_checker Response y error_made Own W) as [ps Eps].
      assert (In1 : exists a, In a (at_all (sc_attrs error_schema)) /\ arep a = error_status_rep) by (exists (nth 1 (at_top (sc_attrs error_schema)) schemas_attr); split; [rewrite fault_all; right; left; reflexivity | reflexivity]).
      destruct In1 as [a [Ha Ea]]. destruct (whole_read error_schema y a error_made Own W Ha) as [v Ev]. rewrite Ea in Ev.
      assert (Fin : forall i0, exists rs iss, (let! r := Ok error_status_rep in
        let! iss := if can_proceed i0 [body_loc ++ presence_loc r] then let! v := get_item y r in Ok (merge i0 (error_status_consistency (r_attr r) v st) []) else Ok i0 in
        let iss := merge iss (error_status_code st) [] in let! b := dump_body y iss in Ok (mkResp h b, iss)) = Ok (rs, iss)).
      { intros i0. cbn [bind]. rewrite Ev. cbn [bind]. destruct (can_proceed i0 _); cbn [bind]; cbv zeta; match goal with |- context[dump_body y ?i] => destruct (B i) as [b ->] end; eexists _, _; reflexivity. }
      match goal with |- context[can_proceed ?i [body_loc]] => destruct (can_proceed i [body_loc]) end; [rewrite Eps|]; cbn [bind]; apply Fin.
    - assert (F : exists e, (y, js) = fail e) by (destruct body; try (exfalso; apply Hn; exact I); cbn [base_parse] in E; injection E as <- <-; eexists; reflexivity).
      destruct F as [e F]. injection F as -> ->. cbn [bind]. set (i0 := merge no_issues (add_issue no_issues e false []) body_loc). assert (C1 : can_proceed i0 [body_loc] = false) by reflexivity.
      assert (C2 : has_issues (merge i0 (error_status_code st) []) [] = true) by (unfold error_status_code; destruct (_ && _); reflexivity).
      rewrite C1. cbn [bind]. rewrite (stuck_below _ _ _ _ C1). cbn [bind]. unfold dump_body. rewrite C2. cbn [bind]. eexists _, _. reflexivity.
  Qed.
End Env.

(** ** The shipped group schema qualifies *)

Lemma group_fits m : Forall calm_attr (at_top (sc_attrs group_schema)) /\ Forall (standard_in m) (at_top (sc_attrs group_schema)).
Proof.
  unfold group_schema, resource_schema. cbn [sc_attrs base_schema mk_attrs at_top]. change (fun a => negb (nonempty (r_sub (arep a)))) with no_sub.
  set (L := (_ :: _ :: _ : list attribute)).
  assert (N : neat L). { subst L. unfold immutable, schemas_attr, external_id_attr, meta_attr, server_ro. cbv zeta. cbn [map app]. neat_attrs. }
  rewrite bound_tops by (apply neat_sound; exact N). split.
  - apply top_calm; [apply neat_sound; exact N|]. subst L. unfold immutable, schemas_attr, external_id_attr, meta_attr, server_ro. cbv zeta. cbn [map app]. calm_list.
  - apply Forall_map. subst L. repeat (apply Forall_cons; [destruct m; first [exact I | left; reflexivity | right; split; reflexivity]|]). apply Forall_nil.
Qed.
Lemma group_calm : Forall calm_attr (at_top (sc_attrs group_schema)).
Proof. exact (proj1 (group_fits MParse)). Qed.
Lemma group_standard m : Forall (standard_in m) (at_top (sc_attrs group_schema)).
Proof. exact (proj2 (group_fits m)). Qed.
Lemma group_own : own_names group_schema.
Proof. apply own_check. vm_compute. reflexivity. Qed.
Lemma group_distinct : distinct_names (at_top (sc_attrs group_schema)).
Proof. unfold distinct_names. apply nodupb_ok. vm_compute. reflexivity. Qed.
Lemma group_meta n : In n [$"resourceType"; $"location"] -> has_sub group_schema ($"meta") n.
Proof.
  intros H. assert (G : exists a, attr_named2 (sc_attrs group_schema) ($"meta") n = Some a).
  { destruct H as [<-|[<-|[]]].
    - destruct (attr_named2 (sc_attrs group_schema) ($"meta") ($"resourceType")) as [a|] eqn:E; [exists a; reflexivity|]. apply (f_equal (fun o => match o with Some _ => true | None => false end)) in E. vm_compute in E. discriminate E.
    - destruct (attr_named2 (sc_attrs group_schema) ($"meta") ($"location")) as [a|] eqn:E; [exists a; reflexivity|]. apply (f_equal (fun o => match o with Some _ => true | None => false end)) in E. vm_compute in E. discriminate E. }
  destruct G as [a G]. unfold attr_named2 in G. apply find_some in G as [G1 G2]. apply andb_true_iff in G2 as [G2 G3]. apply str_eqb_eq in G2, G3. exists a. split; [exact G1|]. split; assumption.
Qed.

#[local] Existing Instance no_env.

(** A document with wrong and unknown parts, and a "Location" header. *)
Definition ex_reply : value := dict_of [($"displayName", VInt 5); ($"members", VList [VStr ($"x"); dict_of [($"value", VBool true)]]); ($"nope", VNone)].
Definition ex_headers : value := VDict [(KStr ($"Location"), VStr ($"https://x"))].
Example ex_C85 : forall st c, (exists rs iss, get_dump group_schema st ex_reply ex_headers c = Ok (rs, iss)) /\ (exists rs iss, put_dump group_schema st ex_reply ex_headers c = Ok (rs, iss))
  /\ (exists rs iss, post_dump group_schema st ex_reply ex_headers c = Ok (rs, iss)) /\ (exists rs iss, patch_dump group_schema st ex_reply ex_headers c = Ok (rs, iss)).
Proof.
  intros st c. assert (Hn : forall z, (Z.abs z < 100)%Z -> ~ overflows z 1).
  { intros z Hz G. unfold overflows in G. assert (100 < (2 ^ 1024 - 2 ^ 970) * 1)%Z by (vm_compute; reflexivity). lia. }
  apply C85_resource_partial; [exact group_made | exact group_own | exact group_distinct | exact group_calm | exact (group_standard MDump) | apply group_meta; left; reflexivity | apply group_meta; right; left; reflexivity | | |].
  - unfold ex_reply, dict_of. cbn [map fst snd]. constructor; [repeat (apply Forall_cons; [cbn [fst]; discriminate|]); constructor|].
    apply Forall_cons; [constructor; apply Hn; reflexivity|]. apply Forall_cons; [|apply Forall_cons; [constructor | constructor]].
    cbn [snd]. constructor. apply Forall_cons; [constructor; reflexivity|]. apply Forall_cons; [|constructor]. constructor; [repeat constructor; discriminate | repeat constructor].
  - intros _. split; [intros [k H]; vm_compute in H; discriminate|]. split.
    + intros u x Hu. vm_compute in Hu. destruct Hu.
    + intros l [d [l2 [k [E [H1 _]]]]]. vm_compute in E. injection E as <- <-. vm_compute in H1. discriminate H1.
  - right. eexists. split; [reflexivity|]. intros x [H|[]]. injection H as <-. right. eexists. reflexivity.
Qed.
(** An error with a wrong status and a status that is no error. *)
Example ex_C85_error : exists rs iss, error_dump 200 (dict_of [($"status", VStr ($"abc")); ($"detail", VBool true)]) (VList []) = Ok (rs, iss).
Proof.
  apply C85_error_partial.
  - constructor; repeat (apply Forall_cons; [first [discriminate | constructor; reflexivity | constructor]|]); constructor.
  - intros _. split; [intros [k H]; vm_compute in H; discriminate|]. split.
    + intros u x Hu. destruct Hu.
    + intros l [d [l2 [k [E [H1 _]]]]]. vm_compute in E. injection E as <- <-. vm_compute in H1. discriminate H1.
Qed.

(** A document with a number among its schemas is not served. *)
Theorem C85_body_refuted : exists env s body, made s /\ json body /\ @get_dump env s 200 body VNone None = Raise AttributeErr.
Proof.
  exists no_env, group_schema, (dict_of [($"schemas", VList [VInt 1])]). split; [exact group_made|]. split; [|vm_compute; reflexivity]. unfold dict_of. cbn [map fst snd]. flat_json.
Qed.
(** Headers that are a list are not accepted. *)
Theorem C85_headers_refuted : exists env s h, made s /\ json h /\ @get_dump env s 200 (dict_of [($"displayName", VStr ($"x"))]) h None = Raise AttributeErr.
Proof.
  exists no_env, group_schema, (VList [VStr ($"x")]). split; [exact group_made|]. split; [repeat constructor | vm_compute; reflexivity].
Qed.

Print Assumptions C85_resource_partial.
Print Assumptions C85_error_partial.
Print Assumptions C85_body_refuted.
Print Assumptions C85_headers_refuted.
