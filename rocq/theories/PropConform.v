(** Property C76: a document is accepted exactly when it conforms. *)
From Coq Require Import Lia.
From Verif Require Import PyBase BaseFacts PyNum Issues IssuesSpec IssuesFacts AttrRep AttrRepSpec Value ValueFacts Container ContainerSpec ContainerFacts
  Types TypesSpec Attr AttrSpec AttrFacts AttrItems Schema SchemaSpec SchemaFacts SchemaBuild Assets PropAttr PropSchema PatchFacts RequestFacts PropRequest PropPresence
  RoundSpec RoundFacts RoundAgain RoundSchema PropRound ConformSpec ConformFacts ConformDoc Dates Urls.

Section Env.
  Context {env : PyEnv}.

  (** Parsing lets a value through without any report exactly when the attribute
      reads it, and gives what is read. *)
  Theorem C76_value : forall a v w, steady a -> usual v ->
    ((exists iss, process a MParse v = Ok (w, iss) /\ silent iss) <-> reads a v w).
  Proof. intros a v w St U. exact (runs_reads a St v w U). Qed.

  (** A document is parsed without any report exactly when it conforms. *)
  Theorem C76_document_partial : forall s doc, made s -> Forall steady (at_top (sc_attrs s)) -> is_object doc -> usual doc -> regular s (mk_cont doc) ->
    ((exists y iss, schema_parse s doc = Ok (y, iss) /\ silent iss) <-> conforms s (mk_cont doc)).
  Proof. intros s doc Mk St Ho U Rg. exact (accepted_iff s doc Mk St Ho U Rg). Qed.

  (** The result then holds what the attributes read, and nothing else. *)
  Theorem C76_result_partial : forall s doc y iss, made s -> Forall steady (at_top (sc_attrs s)) -> is_object doc -> usual doc -> regular s (mk_cont doc) ->
    schema_parse s doc = Ok (y, iss) -> silent iss ->
    forall a w, In a (at_top (sc_attrs s)) -> (doc_holds y (arep a) w <-> exists x, doc_holds (mk_cont doc) (arep a) x /\ reads a x w).
  Proof. intros s doc y iss Mk St Ho U Rg H Q. apply (result_reads s doc y Mk St Ho U Rg). exists iss. split; assumption. Qed.
End Env.

(** ** Concrete cases *)

Ltac usual_tac := repeat (first [apply usual_none | apply usual_bool | apply usual_int | apply usual_float | apply usual_str | apply usual_list | apply usual_dict
  | apply Forall_cons; cbn [fst snd] | apply Forall_nil | discriminate]).

(** A group with two members and a date ... *)
Definition ex_guides (name : value) : value := dict_of
  [($"schemas", VList [VStr group_uri]); ($"DisplayName", VStr ($"guides")); ($"unknown", VInt 7);
   ($"meta", dict_of [($"created", VStr ($"2011-08-01T18:29:49Z"))]);
   ($"members", VList [dict_of [($"value", VStr ($"1")); ($"display", name)]; dict_of [($"value", VStr ($"2"))]])].
Lemma guides_usual name : usual name -> usual (ex_guides name).
Proof. intros U. unfold ex_guides, dict_of. cbn [map fst snd]. usual_tac; exact U. Qed.
Lemma guides_object name : is_object (ex_guides name).
Proof. exact I. Qed.
Example ex_C76 : made group_schema /\ Forall steady (at_top (sc_attrs group_schema)) /\ is_object (ex_guides (VStr ($"Ann"))) /\ usual (ex_guides (VStr ($"Ann")))
  /\ regular group_schema (mk_cont (ex_guides (VStr ($"Ann")))) /\ @conforms py311 group_schema (mk_cont (ex_guides (VStr ($"Ann")))).
Proof.
  assert (R : regular group_schema (mk_cont (ex_guides (VStr ($"Ann"))))) by (apply regular_check; vm_compute; reflexivity).
  assert (U : usual (ex_guides (VStr ($"Ann")))) by (apply guides_usual, usual_str).
  split; [exact group_made|]. split; [exact group_steady|]. split; [exact I|]. split; [exact U|]. split; [exact R|].
  apply (@C76_document_partial py311 group_schema _ group_made group_steady (guides_object _) U R).
  assert (G : outcome_is (@schema_parse py311 group_schema (ex_guides (VStr ($"Ann")))) (fun _ iss => iss = no_issues)) by (vm_compute; reflexivity).
  destruct (@schema_parse py311 group_schema (ex_guides (VStr ($"Ann")))) as [[y iss]|x]; [|contradiction]. exists y, iss. split; [reflexivity|]. unfold outcome_is in G. rewrite G. exact silent_none.
Qed.
(** ... that does not conform when a member's name is a number. *)
Example ex_C76_not : ~ @conforms py311 group_schema (mk_cont (ex_guides (VInt 5))).
Proof.
  assert (R : regular group_schema (mk_cont (ex_guides (VInt 5)))) by (apply regular_check; vm_compute; reflexivity).
  assert (U : usual (ex_guides (VInt 5))) by (apply guides_usual, usual_int).
  intros C. apply (@C76_document_partial py311 group_schema _ group_made group_steady (guides_object _) U R) in C as [y [iss [H Q]]].
  assert (G : outcome_is (@schema_parse py311 group_schema (ex_guides (VInt 5))) (fun _ iss => errs_at iss [LStr ($"members"); LIdx 0; LStr ($"display")] <> [])) by (vm_compute; discriminate).
  rewrite H in G. apply G. apply Q.
Qed.
Example ex_C76_value : exists v w, steady ex_emails /\ usual v /\ @reads no_env ex_emails v w /\ w <> v.
Proof.
  assert (G : outcome_is (@process no_env ex_emails MParse (VList [ex_item ($"work") (VBool true)])) (fun w iss => iss = no_issues /\ w <> VList [ex_item ($"work") (VBool true)])) by (vm_compute; split; [reflexivity | discriminate]).
  assert (St : steady ex_emails).
  { apply steady_mk_complex; try reflexivity; [unfold ex_value, ex_primary; neat_attrs|]. repeat (apply Forall_cons; [steady_sub|]). apply Forall_nil. }
  assert (U : usual (VList [ex_item ($"work") (VBool true)])).
  { apply usual_list. apply Forall_cons; [|apply Forall_nil]. apply usual_mk_cont. usual_tac. }
  destruct (@process no_env ex_emails MParse _) as [[w iss]|x] eqn:E; [|contradiction]. destruct G as [-> G].
  exists (VList [ex_item ($"work") (VBool true)]), w. split; [exact St|]. split; [exact U|]. split; [|exact G].
  apply (@C76_value no_env ex_emails _ _ St U). exists no_issues. split; [exact E | exact silent_none].
Qed.

(** Without the condition that no extension attribute is mistaken for a core one,
    the full claim is false: the extension's "note" is taken from the core
    attribute "note", and the extension is then missed in "schemas". *)
Definition ex_core_note : value := dict_of [($"schemas", VList [VStr ($"urn:d")]); ($"note", VStr ($"hi"))].
Lemma twin_core_made : made twin_core.
Proof.
  unfold twin_core. apply made_resource; [discriminate | | apply fresh_check; vm_compute; reflexivity].
  unfold sattr, schemas_attr, external_id_attr, meta_attr, server_ro. cbv zeta. neat_attrs.
Qed.
Lemma twin_core_steady : Forall steady (at_top (sc_attrs twin_core)).
Proof.
  unfold twin_core, resource_schema. cbn [sc_attrs base_schema mk_attrs at_top]. change (fun a => negb (nonempty (r_sub (arep a)))) with no_sub.
  set (L := (_ :: _ :: _ : list attribute)).
  assert (N : neat L). { subst L. unfold sattr, schemas_attr, external_id_attr, meta_attr, server_ro. cbv zeta. cbn [map app]. neat_attrs. }
  rewrite bound_tops by (apply neat_sound; exact N). apply top_steady. subst L. unfold sattr, schemas_attr, external_id_attr, meta_attr, server_ro. cbv zeta. cbn [map app]. steady_list.
Qed.
Lemma twin_ext_neat : neat (at_all (ex_attrs twin_ext)) /\ Forall steady (at_all (ex_attrs twin_ext)).
Proof.
  unfold twin_ext, mk_extension. cbn [ex_attrs mk_attrs at_all].
  assert (N : neat [sattr ($"note") TString]) by (unfold sattr; neat_attrs).
  rewrite dedup_names; [|exact (proj2 N)|destruct N as [N _]; revert N; apply Forall_impl; intros a [_ [H _]]; exact H].
  split; [exact N|]. unfold sattr. steady_list.
Qed.
Lemma twin_tops : exists es, at_top (sc_attrs twin_schema) = at_top (sc_attrs twin_core) ++ es /\ Forall steady es
  /\ Forall (fun a => r_ext (arep a) = true /\ r_schema (arep a) = $"urn:e") es /\ sc_uri twin_schema = sc_uri twin_core.
Proof.
  destruct (with_extension twin_core twin_ext false) as [s|x] eqn:E; [|vm_compute in E; discriminate E].
  assert (Es : twin_schema = s) by (unfold twin_schema; rewrite E; reflexivity). rewrite Es.
  destruct (extension_assembled twin_core twin_ext false s) as [_ [_ [E2 [E3 _]]]]; [exact (proj1 (made_assembled _ twin_core_made)) | exact (proj1 twin_ext_neat)
    | discriminate | vm_compute; intuition discriminate | | exact E |].
  - intros a Ha He. assert (F : fresh_names (ex_uri twin_ext) (filter (fun a => negb (r_ext (arep a))) (at_top (sc_attrs twin_core)))).
    { apply fresh_check. vm_compute. reflexivity. }
    unfold fresh_names in F. rewrite Forall_forall in F. apply F. apply filter_In. rewrite He. auto.
  - eexists. split; [exact E2|]. split; [apply top_steady; exact (proj2 twin_ext_neat)|]. split; [|exact E3].
    apply Forall_forall. intros a Ha. apply in_map_iff in Ha as [b [<- _]]. rewrite bound_rep. split; reflexivity.
Qed.
Theorem C76_shared_refuted : exists env s doc, made s /\ Forall steady (at_top (sc_attrs s)) /\ is_object doc /\ usual doc
  /\ @conforms env s (mk_cont doc) /\ exists y iss, @schema_parse env s doc = Ok (y, iss) /\ errs_at iss [LStr ($"schemas")] <> [].
Proof.
  exists no_env, twin_schema, ex_core_note.
  assert (U : usual ex_core_note) by (unfold ex_core_note, dict_of; cbn [map fst snd]; usual_tac).
  assert (Ho : is_object ex_core_note) by exact I.
  destruct twin_tops as [es [Et [Se [Ee Eu]]]]. rewrite Forall_forall in Ee.
  split; [exact twin_made|]. split; [rewrite Et; apply Forall_app; split; [exact twin_core_steady | exact Se]|]. split; [exact Ho|]. split; [exact U|]. split.
  - assert (R : regular twin_core (mk_cont ex_core_note)) by (apply regular_check; vm_compute; reflexivity).
    assert (C : @conforms no_env twin_core (mk_cont ex_core_note)).
    { apply (@C76_document_partial no_env twin_core _ twin_core_made twin_core_steady Ho U R).
      assert (G : outcome_is (@schema_parse no_env twin_core ex_core_note) (fun _ iss => iss = no_issues)) by (vm_compute; reflexivity).
      destruct (@schema_parse no_env twin_core ex_core_note) as [[y iss]|x]; [|contradiction]. exists y, iss. split; [reflexivity|]. unfold outcome_is in G. rewrite G. exact silent_none. }
    assert (NE : forall r x, r = $"urn:e" -> ~ holds (mk_cont ex_core_note) r x).
    { intros r x -> [d [o [k [E [H _]]]]]. vm_compute in E. injection E as <- <-. vm_compute in H. discriminate H. }
    assert (Tc : forall a, In a (at_top (sc_attrs twin_core)) -> r_ext (arep a) = false).
    { assert (F : forallb (fun a => negb (r_ext (arep a))) (at_top (sc_attrs twin_core)) = true) by (vm_compute; reflexivity).
      intros a Ha. rewrite forallb_forall in F. apply F in Ha. destruct (r_ext (arep a)); [discriminate Ha | reflexivity]. }
    destruct C as [C1 [_ C3]]. rewrite <- (app_nil_r (at_top (sc_attrs twin_core))) in C1. split; [|split].
    + intros a x Ha Hx. rewrite Et in Ha. apply in_app_iff in Ha as [Ha|Ha].
      * apply (C1 a x); [apply in_app_iff; left; exact Ha | exact Hx].
      * exfalso. destruct (Ee a Ha) as [Ex Eq]. unfold doc_holds in Hx. rewrite Ex in Hx. destruct Hx as [sub [Hx _]]. exact (NE _ _ Eq Hx).
    + intros a x Ha Ex Hx. exfalso. rewrite Et in Ha. apply in_app_iff in Ha as [Ha|Ha]; [rewrite (Tc a Ha) in Ex; discriminate Ex|]. exact (NE _ _ (proj2 (Ee a Ha)) Hx).
    + intros l Hl Nl. destruct (C3 l Hl Nl) as [K1 [K2 _]]. split; [|split].
      * intros t Ht. specialize (K1 t Ht). revert K1. unfold listed. vm_compute. intuition.
      * rewrite Eu. exact K2.
      * intros a x Ha Ex Hx. exfalso. rewrite Et in Ha. apply in_app_iff in Ha as [Ha|Ha]; [rewrite (Tc a Ha) in Ex; discriminate Ex|].
        unfold doc_holds in Hx. rewrite Ex in Hx. destruct Hx as [sub [Hx _]]. exact (NE _ _ (proj2 (Ee a Ha)) Hx).
  - assert (G : outcome_is (@schema_parse no_env twin_schema ex_core_note) (fun _ iss => errs_at iss [LStr ($"schemas")] <> [])) by (vm_compute; discriminate).
    destruct (@schema_parse no_env twin_schema ex_core_note) as [[y iss]|x]; [|contradiction]. exists y, iss. split; [reflexivity | exact G].
Qed.

Print Assumptions C76_value.
Print Assumptions C76_document_partial.
Print Assumptions C76_result_partial.
Print Assumptions ex_C76.
Print Assumptions ex_C76_not.
Print Assumptions ex_C76_value.
Print Assumptions C76_shared_refuted.
