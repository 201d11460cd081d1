(** Property C72: what is dumped is JSON, and is read back from it. *)
From Verif Require Import PyBase BaseFacts PyNum Issues IssuesSpec IssuesFacts AttrRep AttrRepSpec Value ValueFacts Container ContainerSpec ContainerFacts
  Types TypesSpec Attr AttrSpec AttrFacts AttrItems Schema SchemaSpec SchemaFacts SchemaBuild Assets PropAttr PropSchema PatchFacts RequestFacts PropRequest
  RoundSpec RoundFacts RoundAgain RoundSchema PropRound FileSpec FileFacts.

Section Env.
  Context {env : PyEnv}.

  Lemma dump_base s y u j : Forall steady (at_top (sc_attrs s)) -> schema_dump s y = Ok (u, j) -> silent j -> exists i, base_parse MDump s y = Ok (u, i) /\ silent i.
  Proof.
    intros St H Q. unfold schema_dump in H. apply bind_ok in H as [[v i] [Hb H]].
    destruct (negb (can_proceed i [])); [injection H as <- <-; exists i; auto|]. destruct (can_proceed i _); [|injection H as <- <-; exists i; auto].
    destruct (attr_named2 _ _ _) as [a|]; [|discriminate H]. apply bind_ok in H as [rt [_ H]]. destruct (is_missing rt); injection H as <- <-; [exists i; auto|].
    exists i. split; [exact Hb|].
    assert (X : resource_type_issues rt (sc_name s) = no_issues \/ resource_type_issues rt (sc_name s) = add_issue no_issues e_resource_type_mismatch true meta_type_loc).
    { unfold resource_type_issues. destruct rt; auto. destruct (str_eqb _ _); auto. }
    assert (W : report i) by (apply (base_wf _ _ _ _ _ (Forall_impl _ steady_sound St) Hb)).
    assert (W2 : report (resource_type_issues rt (sc_name s))) by (destruct X as [->| ->]; [apply report_empty | apply report_add, report_empty]).
    apply (silent_merge _ _ W W2) in Q. apply Q.
  Qed.

  (** What an attribute with a type dumped without a report is JSON once the
      containers are turned into dictionaries, no two keys of one object differ only in
      case, and the dictionaries are read as the
      containers they came from. *)
  Theorem C72_attr : forall a v w iss, steady a -> typed a -> process a MDump v = Ok (w, iss) -> silent iss -> json (unconv w) /\ tidy (unconv w) /\ conv (unconv w) = w.
  Proof.
    intros a v w iss St Ty H Q. pose proof (runs_filed MDump a St Ty v w (ex_intro _ iss (conj H Q))) as F. split; [|split].
    - apply (filed_json (leaf MDump) (leaf_scalar MDump) (fun _ X => X) w F).
    - apply (filed_tidy (leaf MDump) (leaf_scalar MDump) (fun _ X => X) w F).
    - apply (refile (leaf MDump) (leaf_scalar MDump) w F).
  Qed.

  (** The same for documents: the dictionary of a dumped resource is JSON with
      keys that differ, and makes the container it was made of. *)
  Theorem C72_dump : forall s y u iss, made s -> Forall steady (at_top (sc_attrs s)) -> Forall typed (at_top (sc_attrs s)) -> is_object y ->
    schema_dump s y = Ok (u, iss) -> silent iss ->
    (exists d, to_dict u = VDict d) /\ json (to_dict u) /\ tidy (to_dict u) /\ mk_cont (to_dict u) = u.
  Proof.
    intros s y u iss Mk St Ty Ho H Q. destruct (dump_base s y u iss St H Q) as [i [Hb Qi]].
    destruct (doc_filed MDump s y u (made_wf s Mk) St Ty Ho (ex_intro _ i (conj Hb Qi))) as [F C]. destruct u as [| | | | | | | | | |d q| | | | | | ]; try discriminate C.
    split; [rewrite to_dict_eq; eexists; reflexivity|]. split; [exact (proj1 (filed_json (leaf MDump) (leaf_scalar MDump) (fun _ X => X) _ F))|]. split; [exact (proj1 (filed_tidy (leaf MDump) (leaf_scalar MDump) (fun _ X => X) _ F))|].
    inversion F as [? X| |? ? Hs Hf]; subst; [destruct (leaf_scalar _ _ X)|]. apply refile_cont; [exact Hs|]. revert Hf. apply Forall_impl. intros e X. apply (refile (leaf MDump) (leaf_scalar MDump) _ X).
  Qed.

  (** A resource that was read without a report, dumped, and turned into a
      dictionary gives JSON from which the same resource is read. *)
  Theorem C72_wire_partial : faithful_dates env -> forall s doc y iss, made s -> Forall steady (at_top (sc_attrs s)) -> Forall typed (at_top (sc_attrs s)) -> unshared s -> is_object doc ->
    schema_parse s doc = Ok (y, iss) -> silent iss ->
    exists u iss1 iss2, base_parse MDump s y = Ok (u, iss1) /\ silent iss1 /\ json (to_dict u) /\ schema_parse s (to_dict u) = Ok (y, iss2) /\ silent iss2.
  Proof.
    intros Fd s doc y iss Mk St Ty Un Ho H Q. destruct (C71_schema_partial Fd s doc y iss Mk St Un Ho H Q) as [u [i1 [i2 [_ [H1 [Q1 [H2 Q2]]]]]]]. exists u, i1, i2.
    destruct (doc_filed MParse s doc y (made_wf s Mk) St Ty Ho (ex_intro _ iss (conj H Q))) as [_ Cy].
    assert (Oy : is_object y) by (destruct y; try discriminate Cy; exact I).
    destruct (doc_filed MDump s y u (made_wf s Mk) St Ty Oy (ex_intro _ i1 (conj H1 Q1))) as [F C]. destruct u as [| | | | | | | | | |d q| | | | | | ]; try discriminate C.
    split; [exact H1|]. split; [exact Q1|]. split; [exact (proj1 (filed_json (leaf MDump) (leaf_scalar MDump) (fun _ X => X) _ F))|]. split; [|exact Q2].
    inversion F as [? X| |? ? Hs Hf]; subst; [destruct (leaf_scalar _ _ X)|].
    assert (E : mk_cont (to_dict (VCont d q)) = VCont d q). { apply refile_cont; [exact Hs|]. revert Hf. apply Forall_impl. intros e X. apply (refile (leaf MDump) (leaf_scalar MDump) _ X). }
    rewrite to_dict_eq in *. unfold schema_parse in *. rewrite <- H2. exact (parse_refiled MParse s (VCont d q) _ eq_refl (to_dict_eq d q) E).
  Qed.
End Env.

(** ** The shipped schemas *)

Fixpoint typed_b (a : attribute) : bool :=
  match a with
  | MkAttr i None => negb (atype_eqb (a_type i) TUnknown)
  | MkAttr i (Some (subs, _, _)) => (fix go l := match l with [] => true | s :: t => typed_b s && go t end) subs
  end.
Lemma typed_check a : typed_b a = true -> typed a.
Proof.
  induction a as [i|i subs cps cds IH] using attr_ind2; cbn [typed_b]; intros H; constructor.
  - intros E. rewrite E in H. discriminate H.
  - induction IH as [|s t Hs Ht IHt]; constructor; apply andb_prop in H as [H1 H2]; [exact (Hs H1) | exact (IHt H2)].
Qed.
Lemma all_typed l : forallb typed_b l = true -> Forall typed l.
Proof. rewrite forallb_forall. intros H. apply Forall_forall. intros a I. apply typed_check, H, I. Qed.
Lemma user_typed : Forall typed (at_top (sc_attrs user_schema)).
Proof. apply all_typed. vm_compute. reflexivity. Qed.
Lemma group_typed : Forall typed (at_top (sc_attrs group_schema)).
Proof. apply all_typed. vm_compute. reflexivity. Qed.

(** ** Concrete cases *)

(** A group with members and dates. *)
Definition ex_members : value := dict_of
  [($"schemas", VList [VStr group_uri]); ($"META", dict_of [($"resourceType", VStr ($"Group")); ($"Created", VStr ($"|||"))]); ($"displayname", VStr ($"guides"));
   ($"members", VList [dict_of [($"value", VStr ($"1")); ($"display", VStr ($"Jo"))]; dict_of [($"value", VStr ($"2"))]])].
Example ex_C72 : faithful_dates ex_dates /\ made group_schema /\ Forall steady (at_top (sc_attrs group_schema)) /\ Forall typed (at_top (sc_attrs group_schema)) /\ unshared group_schema /\ is_object ex_members
  /\ outcome_is (@schema_parse ex_dates group_schema ex_members) (fun y iss => iss = no_issues /\ is_object y
       /\ outcome_is (@schema_dump ex_dates group_schema y) (fun u j => j = no_issues /\ to_dict u = dict_of
            [($"schemas", VList [VStr group_uri]); ($"meta", dict_of [($"resourceType", VStr ($"Group")); ($"created", VStr ($"|||"))]); ($"displayName", VStr ($"guides"));
             ($"members", VList [dict_of [($"value", VStr ($"1")); ($"display", VStr ($"Jo"))]; dict_of [($"value", VStr ($"2"))]])])).
Proof. split; [exact strokes_faithful|]. split; [exact group_made|]. split; [exact group_steady|]. split; [exact group_typed|]. split; [exact group_unshared|]. split; [exact I|]. vm_compute. repeat split; reflexivity. Qed.

(** Without types the claim is false: an attribute that was given none passes a
    date on, which JSON cannot hold. *)
Definition loose_schema : schema := resource_schema ($"urn:d") [sattr ($"note") TUnknown] ($"D") [] None None None None.
Definition ex_loose : value := dict_of [($"schemas", VList [VStr ($"urn:d")]); ($"note", VDate (mkDT 3 None))].
Lemma loose_made : made loose_schema.
Proof. apply made_resource; [discriminate | | apply fresh_check; vm_compute; reflexivity]. unfold sattr, schemas_attr, external_id_attr, meta_attr, server_ro. cbv zeta. neat_attrs. Qed.
Theorem C72_untyped_refuted : exists env s y u, made s /\ is_object y /\ @schema_dump env s y = Ok (u, no_issues) /\ ~ json (to_dict u).
Proof.
  assert (G : outcome_is (@schema_dump no_env loose_schema ex_loose) (fun u iss => iss = no_issues /\ to_dict u = dict_of [($"schemas", VList [VStr ($"urn:d")]); ($"note", VDate (mkDT 3 None))])) by (vm_compute; split; reflexivity).
  destruct (@schema_dump no_env loose_schema ex_loose) as [[u iss]|x] eqn:E; [|contradiction]. destruct G as [-> G]. exists no_env, loose_schema, ex_loose, u.
  split; [exact loose_made|]. split; [exact I|]. split; [exact E|]. rewrite G. intros J. inversion J as [| | | | | |? _ _ F]. inversion F as [|? ? _ F2]. inversion F2 as [|? ? X _]. inversion X.
Qed.

(** With shared names the resource that comes back is another one. *)
Theorem C72_shared_refuted : exists env s doc y u z iss, made s /\ is_object doc /\ @schema_parse env s doc = Ok (y, no_issues) /\ @schema_dump env s y = Ok (u, no_issues)
  /\ @schema_parse env s (to_dict u) = Ok (z, iss) /\ z <> y.
Proof.
  assert (G : outcome_is (@schema_parse no_env twin_schema ex_twin) (fun y iss => iss = no_issues /\ outcome_is (@schema_dump no_env twin_schema y) (fun u i => i = no_issues
      /\ outcome_is (@schema_parse no_env twin_schema (to_dict u)) (fun z j => cont_keys z <> cont_keys y)))).
  { vm_compute. split; [reflexivity|]. split; [reflexivity | discriminate]. }
  destruct (@schema_parse no_env twin_schema ex_twin) as [[y iss]|x] eqn:E; [|contradiction]. destruct G as [-> G].
  destruct (@schema_dump no_env twin_schema y) as [[u i]|x] eqn:E2; [|contradiction]. destruct G as [-> G].
  destruct (@schema_parse no_env twin_schema (to_dict u)) as [[z j]|x] eqn:E3; [|contradiction]. exists no_env, twin_schema, ex_twin, y, u, z, j.
  split; [exact twin_made|]. split; [exact I|]. split; [exact E|]. split; [exact E2|]. split; [exact E3|]. intros ->. apply G. reflexivity.
Qed.

Print Assumptions C72_attr.
Print Assumptions C72_dump.
Print Assumptions C72_wire_partial.
Print Assumptions ex_C72.
Print Assumptions C72_untyped_refuted.
Print Assumptions C72_shared_refuted.
