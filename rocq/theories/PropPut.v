(** Properties of PUT requests (C54). *)
From Coq Require Import Lia.
From Verif Require Import PyBase BaseFacts PyNum Issues IssuesSpec IssuesFacts AttrRep AttrRepSpec AttrRepFacts Value ValueFacts
  Container ContainerSpec ContainerFacts ContainerRW Types TypesSpec Attr Schema Assets AttrSpec AttrFacts AttrHonest AttrItems PropAttr
  SchemaSpec SchemaFacts SchemaBuild PropSchema Presence Requests PatchFacts RequestSpec RequestFacts BodyFacts PutFacts PropRequest.

(** A read that finds nothing leaves nothing stored. *)
Lemma unread main uris c r x : stand main uris c -> placed main uris r -> reads_nothing (r_sub r) (get_item c r) -> stores c r x ->
  nothing x /\ (r_sub r = [] -> x = VMissing).
Proof.
  intros Hc Hr [y [Hy [Hn Hz]]] [v [Hv Hx]].
  assert (G : exists d l, get_item c r = pget d l (r_attr r) (r_sub r) /\ holds (VCont d l) (r_attr r) v).
  { destruct (routed _ _ c r Hc Hr) as [d [l [E [[K1 K2]|[K1 [K2 [d2 [l2 [K3 [_ K4]]]]]]]]]].
    - exists d, l. split; [exact K2|]. unfold doc_holds in Hv. subst c. destruct (r_ext r); [|exact Hv].
      destruct Hv as [sub [[d' [l' [k [E [F _]]]]] _]]. injection E as <- <-. congruence.
    - unfold doc_holds in Hv. subst c. destruct (r_ext r) eqn:Ee.
      + destruct Hv as [sub [[d' [l' [k [E [F1 F2]]]]] F3]]. injection E as <- <-. rewrite K2 in F1. injection F1 as <-. rewrite K3 in F2. injection F2 as <-.
        exists d2, l2. split; assumption.
      + exfalso. destruct Hr as [_ [Hm _]]. rewrite Ee in Hm. destruct Hc as [d' [l' [E [_ [_ [F _]]]]]]. injection E as <- <-. rewrite Hm in K2. congruence. }
  destruct G as [d [l [E [d' [l' [k [E' [F1 F2]]]]]]]]. injection E' as <- <-. rewrite E in Hy. unfold pget in Hy. rewrite F1, F2 in Hy.
  destruct Hx as [[Hs ->]|[Hs Hx]].
  - rewrite Hs in Hy. injection Hy as ->. auto.
  - split; [|contradiction]. pose proof Hr as [[_ [Hok|Hok]] _]; [contradiction|]. rewrite get_sub_eq in Hy by exact Hok.
    assert (Hleaf : forall z, holds z (r_sub r) x -> (exists w, get_item z (leaf (r_sub r)) = Ok w /\ nothing w) -> shaped z -> nothing x).
    { intros z [dz [lz [kz [-> [Z1 Z2]]]]] [w [W1 W2]] [dd [ll [Ed [_ [_ Z3]]]]]. injection Ed as <- <-.
      rewrite leaf_get, Z1, Z2 in W1 by exact Z3. injection W1 as ->. exact W2. }
    assert (Hsh : shaped v).
    { destruct (routed _ _ c r Hc Hr) as [d0 [l0 [E0 _]]]. subst c. destruct Hc as [d1 [l1 [E1 [I1 [_ [I2 [I3 I4]]]]]]]. injection E1 as <- <-.
      unfold doc_holds in Hv. destruct Hr as [_ [Hm Hno]]. destruct (r_ext r).
      - destruct Hv as [sub [[d' [l' [k' [E' [G1 G2]]]]] G3]]. injection E' as <- <-. destruct (I3 _ Hm) as [Q|[Q [sub' [Q1 Q2]]]]; [congruence|].
        rewrite Q in G1. injection G1 as <-. rewrite Q1 in G2. injection G2 as <-. destruct G3 as [d' [l' [k' [-> [G4 G5]]]]].
        destruct Q2 as [d2 [l2 [E2 [_ [_ [_ Q2]]]]]]. injection E2 as <- <-. exact (Q2 _ _ _ G4 G5).
      - destruct Hv as [d' [l' [k' [E' [G1 G2]]]]]. injection E' as <- <-. exact (I4 _ _ _ G1 Hno G2). }
    destruct Hx as [Hx|[li [z [-> [Hin Hx]]]]].
    + apply (Hleaf v Hx); [|exact Hsh]. destruct Hx as [dz [lz [kz [-> _]]]]. exists y. split; assumption.
    + apply bind_ok in Hy as [vs [Hvs Hy]]. injection Hy as <-. cbn [shaped] in Hsh. rewrite Forall_forall in Hsh.
      apply mapM_ok in Hvs. apply In_nth_error in Hin as [i Hi]. destruct (Forall2_nth_l _ _ _ Hvs _ _ Hi) as [w [Hw1 Hw2]].
      apply (Hleaf z Hx).
      * exists w. split; [exact Hw2|]. destruct Hn as [Hn|[m Hn]]; [discriminate|]. injection Hn as ->. left.
        apply nth_error_In in Hw1. apply repeat_spec in Hw1. exact Hw1.
      * pose proof Hx as [dz [lz [kz [-> _]]]]. apply Hsh; [|reflexivity]. apply nth_error_In in Hi. exact Hi.
Qed.

Section Env.
  Context {env : PyEnv}.

  (** Whatever a PUT request returns as body stores no value under an attribute or
      sub-attribute that the schema declares read-only, whole or in any of its
      items.  (A sub-attribute may be left with an empty list, which is no value.
      Not covered: schemas whose attribute names are URIs of the schema, and
      attributes with own parsers that replace the value.) *)
  Theorem C54_no_read_only_partial : forall s b h q rq iss a x, made s -> own_names s -> Forall plain_parsing (at_top (sc_attrs s)) ->
    put_parse s b h q = Ok (rq, iss) -> In a (at_all (sc_attrs s)) -> a_mut (info a) = ReadOnly ->
    stores (rq_body rq) (arep a) x -> nothing x /\ (r_sub (arep a) = [] -> x = VMissing).
  Proof.
    intros s b h q rq iss a x Hm Hown Hp H Ha Hro Hx.
    assert (N : rq_body rq <> VNone).
    { intros E. rewrite E in Hx. destruct Hx as [v [Hv _]]. unfold doc_holds in Hv. destruct (r_ext (arep a)); [destruct Hv as [sub [[d [l [k [G _]]]] _]] | destruct Hv as [d [l [k [G _]]]]]; discriminate. }
    destruct (put_stripped s b h q rq iss Hm Hown Hp H N) as [y [js [_ [Hst [Hs Hpl]]]]].
    destruct (strip_all _ _ _ Hpl _ _ Hst Hs) as [I1 [I2 _]]. rewrite Forall_forall in Hpl.
    apply (unread _ _ _ _ _ I1 (Hpl a Ha)); [|exact Hx]. apply I2; [exact Ha | rewrite Hro; reflexivity].
  Qed.

  (** Reading a read-only attribute from the returned body finds nothing. *)
  Theorem C54_reads_nothing_partial : forall s b h q rq iss a, made s -> own_names s -> Forall plain_parsing (at_top (sc_attrs s)) ->
    put_parse s b h q = Ok (rq, iss) -> rq_body rq <> VNone -> In a (at_all (sc_attrs s)) -> a_mut (info a) = ReadOnly ->
    exists y, get_item (rq_body rq) (arep a) = Ok y /\ nothing y.
  Proof.
    intros s b h q rq iss a Hm Hown Hp H N Ha Hro. destruct (put_stripped s b h q rq iss Hm Hown Hp H N) as [y [js [_ [Hst [Hs Hpl]]]]].
    destruct (strip_all _ _ _ Hpl _ _ Hst Hs) as [_ [I2 _]]. destruct (I2 a Ha) as [z [Z1 [Z2 _]]]; [rewrite Hro; reflexivity|]. exists z. auto.
  Qed.

  (** Every other attribute reads as it was parsed: those that share no name with
      a read-only attribute, its parent or its sub-attributes. *)
  Theorem C54_others_kept_partial : forall s b h q rq iss a, made s -> own_names s -> Forall plain_parsing (at_top (sc_attrs s)) ->
    put_parse s b h q = Ok (rq, iss) -> rq_body rq <> VNone -> In a (at_all (sc_attrs s)) ->
    (forall c, In c (at_all (sc_attrs s)) -> a_mut (info c) = ReadOnly -> ~ overlap (arep c) (arep a)) ->
    exists y js, schema_parse s b = Ok (y, js) /\ get_item (rq_body rq) (arep a) = get_item y (arep a).
  Proof.
    intros s b h q rq iss a Hm Hown Hp H N Ha Hno. destruct (put_stripped s b h q rq iss Hm Hown Hp H N) as [y [js [Hy [Hst [Hs Hpl]]]]].
    destruct (strip_all _ _ _ Hpl _ _ Hst Hs) as [_ [_ [_ I4]]]. exists y, js. split; [exact Hy|]. rewrite Forall_forall in Hpl. apply I4; [exact (Hpl a Ha)|].
    intros c Hc E. apply Hno; [exact Hc|]. destruct (a_mut (info c)); try discriminate. reflexivity.
  Qed.
End Env.

(** ** The shipped schemas qualify *)

Lemma bulk_id_keeps : keeps bulk_id_validator.
Proof. intros v w j H. destruct v; try discriminate. cbn [bulk_id_validator] in H. destruct (contains _ _); injection H as <- _; auto. Qed.
Lemma plain_bound r a : plain_parsing a -> plain_parsing (bound_attr r a).
Proof. destruct a as [i [[[subs cps] cds]|]]; exact (fun H => H). Qed.
Lemma plain_simple i : a_parsers i = [] -> a_type i <> TComplex -> a_type i <> TUnknown -> plain_parsing (mk_simple i).
Proof. intros H1 H2 H3. split; [rewrite H1; constructor | auto]. Qed.
Lemma plain_complex i subs cds : plain_parsing (mk_complex i subs [] cds).
Proof. cbn [mk_complex plain_parsing app]. destruct (a_multi i); auto. Qed.
Lemma plain_id : plain_parsing id_attr.
Proof. split; [apply Forall_cons; [exact bulk_id_keeps | apply Forall_nil]|]. split; discriminate. Qed.
Ltac plain_one := first [exact plain_id | apply plain_complex | apply plain_simple; [reflexivity | discriminate | discriminate]].
Ltac plain_list := repeat (apply Forall_cons; [plain_one|]); apply Forall_nil.
Lemma plain_tops uri ext l : Forall plain_parsing l -> Forall plain_parsing (map (fun a => bound_attr (mkRep uri (r_attr (arep a)) [] ext) a) l).
Proof. intros H. apply Forall_map. revert H. apply Forall_impl. intros a. apply plain_bound. Qed.

Lemma core_user_plain : Forall plain_parsing (at_top (sc_attrs core_user)).
Proof.
  unfold core_user, resource_schema. cbn [sc_attrs base_schema mk_attrs at_top]. change (fun a => negb (nonempty (r_sub (arep a)))) with no_sub.
  set (L := (_ :: _ :: _ : list attribute)).
  assert (N : neat L). { subst L. unfold user_name_attr, name_attr, password_attr, emails_attr, phone_numbers_attr, ims_attr, photos_attr, addresses_attr, groups_attr,
    entitlements_attr, roles_attr, x509_attr, plural_attr, sattr, schemas_attr, external_id_attr, meta_attr, server_ro, canon. cbv zeta. cbn [map app]. neat_attrs. }
  rewrite bound_tops by (apply neat_sound; exact N). apply plain_tops. subst L. plain_list.
Qed.
Lemma user_plain : Forall plain_parsing (at_top (sc_attrs user_schema)).
Proof.
  destruct (with_extension core_user enterprise_ext false) as [s|x] eqn:E.
  - assert (Es : user_schema = s) by (unfold user_schema; rewrite E; reflexivity). rewrite Es.
    destruct (extension_assembled core_user enterprise_ext false s) as [_ [_ [E2 _]]]; [exact (proj1 (made_assembled _ core_user_made)) | exact enterprise_neat
      | discriminate | exact enterprise_new | | exact E |].
    + intros a Ha He. assert (F : fresh_names (ex_uri enterprise_ext) (filter (fun a => negb (r_ext (arep a))) (at_top (sc_attrs core_user)))).
      { apply fresh_check. vm_compute. reflexivity. }
      unfold fresh_names in F. rewrite Forall_forall in F. apply F. apply filter_In. rewrite He. auto.
    + rewrite E2. apply Forall_app. split; [exact core_user_plain|]. apply plain_tops.
      unfold enterprise_ext, mk_extension. cbn [ex_attrs mk_attrs at_all].
      assert (N : neat [sattr ($"employeeNumber") TString; sattr ($"costCenter") TString; sattr ($"division") TString;
         sattr ($"department") TString; sattr ($"organization") TString; manager_attr]).
      { unfold sattr, manager_attr, sattr. neat_attrs. }
      rewrite dedup_names; [|exact (proj2 N)|destruct N as [N _]; revert N; apply Forall_impl; intros a [_ [H _]]; exact H].
      plain_list.
  - unfold user_schema. rewrite E. exact core_user_plain.
Qed.
Lemma own_check s : forallb (fun a => negb (smem (lower (r_attr (arep a))) (map lower (sc_schemas s)))) (at_top (sc_attrs s)) = true -> own_names s.
Proof.
  intros H a Ha G. rewrite forallb_forall in H. specialize (H a Ha). apply smem_In in G. rewrite G in H. discriminate.
Qed.
Lemma user_own : own_names user_schema.
Proof. apply own_check. vm_compute. reflexivity. Qed.

(** A user sent with an id, groups and a manager's name. *)
Definition ex_put : value := dict_of
  [($"schemas", VList [VStr user_uri; VStr enterprise_uri]); ($"id", VStr ($"2819")); ($"userName", VStr ($"bjensen"));
   ($"groups", VList [dict_of [($"value", VStr ($"g1"))]]);
   (enterprise_uri, dict_of [($"division", VStr ($"Tour")); ($"manager", dict_of [($"value", VStr ($"7")); ($"displayName", VStr ($"Jo"))])])].

Example ex_C54 : made user_schema /\ own_names user_schema /\ Forall plain_parsing (at_top (sc_attrs user_schema))
  /\ outcome_is (@put_parse no_env user_schema ex_put VNone VNone) (fun rq iss => iss = no_issues
     /\ to_dict (rq_body rq) = dict_of [($"userName", VStr ($"bjensen"));
          (enterprise_uri, dict_of [($"division", VStr ($"Tour")); ($"manager", dict_of [($"value", VStr ($"7"))])])]).
Proof. split; [exact user_made|]. split; [exact user_own|]. split; [exact user_plain|]. vm_compute. split; reflexivity. Qed.

(** With an empty object for the extension in the body, stripping a read-only attribute of
    an extension removes the core attribute of the same name, which clients may
    write. *)
Definition note_core : schema := resource_schema ($"urn:d") [sattr ($"note") TString] ($"D") [] None None None None.
Definition note_ext : extension := mk_extension ($"urn:e") [mk_simple (ro (plain ($"note") TString))] ($"E") [].
Definition note_schema : schema := match with_extension note_core note_ext false with Ok s => s | Raise _ => note_core end.
Lemma note_made : made note_schema.
Proof.
  apply (made_ext note_core note_ext false).
  - unfold note_core. apply made_resource; [discriminate | | apply fresh_check; vm_compute; reflexivity].
    unfold sattr, schemas_attr, external_id_attr, meta_attr, server_ro. cbv zeta. neat_attrs.
  - discriminate.
  - unfold note_ext, mk_extension. cbn [ex_attrs mk_attrs at_all].
    assert (N : neat [mk_simple (ro (plain ($"note") TString))]) by neat_attrs.
    rewrite dedup_names; [exact N | exact (proj2 N)|]. destruct N as [N _]. revert N. apply Forall_impl. intros a [_ [H _]]. exact H.
  - intros [H|[]]. vm_compute in H. discriminate.
  - apply fresh_check. vm_compute. reflexivity.
  - unfold note_schema. destruct (with_extension note_core note_ext false) as [s|x] eqn:E; [reflexivity|]. exfalso.
    unfold with_extension in E. assert (Hs : smem (ex_uri note_ext) (map lower (sc_schemas note_core)) = false) by (vm_compute; reflexivity).
    rewrite Hs in E. discriminate.
Qed.
Lemma core_all uri l name descr plural : neat (schemas_attr :: id_attr :: external_id_attr :: meta_attr :: l) ->
  at_all (sc_attrs (resource_schema uri l name descr plural None None None))
  = flat_map (bound_all uri false) (schemas_attr :: id_attr :: external_id_attr :: meta_attr :: l).
Proof. intros N. unfold resource_schema. cbn [sc_attrs base_schema mk_attrs at_all]. apply dedup_id. apply bound_keys. exact N. Qed.
Lemma note_all : at_all (sc_attrs note_schema) =
  flat_map (bound_all ($"urn:d") false) [schemas_attr; id_attr; external_id_attr; meta_attr; sattr ($"note") TString]
  ++ flat_map (bound_all ($"urn:e") true) [mk_simple (ro (plain ($"note") TString))].
Proof.
  assert (Hc : made note_core).
  { unfold note_core. apply made_resource; [discriminate | | apply fresh_check; vm_compute; reflexivity].
    unfold sattr, schemas_attr, external_id_attr, meta_attr, server_ro. cbv zeta. neat_attrs. }
  assert (N : neat [mk_simple (ro (plain ($"note") TString))]) by neat_attrs.
  assert (N' : at_all (ex_attrs note_ext) = [mk_simple (ro (plain ($"note") TString))]).
  { unfold note_ext, mk_extension. cbn [ex_attrs mk_attrs at_all]. apply dedup_names; [exact (proj2 N)|]. destruct N as [N _]. revert N. apply Forall_impl. intros a [_ [H _]]. exact H. }
  destruct (with_extension note_core note_ext false) as [s|x] eqn:E.
  - assert (Es : note_schema = s) by (unfold note_schema; rewrite E; reflexivity). rewrite Es.
    destruct (extension_all note_core note_ext false s) as [-> _].
    + exact (proj1 (made_assembled _ Hc)).
    + rewrite N'. exact N.
    + discriminate.
    + intros [H|[]]. vm_compute in H. discriminate.
    + exact E.
    + rewrite N'. unfold note_core. rewrite core_all; [reflexivity|].
      unfold sattr, schemas_attr, external_id_attr, meta_attr, server_ro. cbv zeta. neat_attrs.
  - exfalso. unfold with_extension in E. assert (Hs : smem (ex_uri note_ext) (map lower (sc_schemas note_core)) = false) by (vm_compute; reflexivity).
    rewrite Hs in E. discriminate.
Qed.
Definition ex_note : value := dict_of [($"schemas", VList [VStr ($"urn:d")]); ($"id", VStr ($"1")); ($"note", VStr ($"hi")); ($"urn:e", dict_of [])].

Theorem C54_writable_kept_refuted : exists env s b rq a y js, made s /\ @put_parse env s b VNone VNone = Ok (rq, no_issues)
  /\ In a (at_all (sc_attrs s)) /\ a_mut (info a) = ReadWrite
  /\ (forall c, In c (at_all (sc_attrs s)) -> r_schema (arep c) = r_schema (arep a) -> a_mut (info c) = ReadOnly -> ~ overlap (arep c) (arep a))
  /\ @schema_parse env s b = Ok (y, js) /\ doc_holds y (arep a) (VStr ($"hi")) /\ rq_body rq <> VNone /\ forall x, ~ doc_holds (rq_body rq) (arep a) x.
Proof.
  destruct (@put_parse no_env note_schema ex_note VNone VNone) as [[rq iss]|] eqn:E; [|vm_compute in E; discriminate].
  destruct (@schema_parse no_env note_schema ex_note) as [[y js]|] eqn:E2; [|vm_compute in E2; discriminate].
  set (a := bound_attr (mkRep ($"urn:d") ($"note") [] false) (sattr ($"note") TString)).
  assert (B : to_dict (rq_body rq) = dict_of [] /\ iss = no_issues).
  { change (match @Ok (request * issues) (rq, iss) with Ok (rq, iss) => to_dict (rq_body rq) = dict_of [] /\ iss = no_issues | Raise _ => False end). rewrite <- E. vm_compute. split; reflexivity. }
  destruct B as [B ->]. vm_compute in E. injection E as <-. vm_compute in E2. injection E2 as <- <-.
  exists no_env, note_schema, ex_note. eexists _, a, _, _. split; [exact note_made|]. split; [vm_compute; reflexivity|].
  pose proof note_all as Hall.
  split; [|split; [reflexivity|split; [|split; [vm_compute; reflexivity|split; [|split]]]]].
  - rewrite Hall. apply in_or_app. left. apply in_flat_map. exists (sattr ($"note") TString). split; [do 4 right; left; reflexivity | left; reflexivity].
  - rewrite Hall. intros c Hc Hs Hro [Ho _]. change (arep a) with (mkRep ($"urn:d") ($"note") [] false) in *. cbn [r_schema r_attr] in *.
    apply in_app_or in Hc as [Hc|Hc].
    + apply in_flat_map in Hc as [c0 [Hc0 Hc]]. destruct Hc as [<-|Hc].
      * rewrite bound_rep in Ho. cbn [r_attr] in Ho.
        destruct Hc0 as [<-|[<-|[<-|[<-|[<-|[]]]]]]; vm_compute in Ho; discriminate.
      * apply in_map_iff in Hc as [d [<- Hd]]. rewrite bound_rep in Ho. cbn [r_attr] in Ho.
        destruct Hc0 as [<-|[<-|[<-|[<-|[<-|[]]]]]]; try (vm_compute in Ho; discriminate). destruct Hd.
    + apply in_flat_map in Hc as [c0 [Hc0 Hc]]. destruct Hc as [<-|Hc].
      * rewrite bound_rep in Hs. vm_compute in Hs. discriminate.
      * apply in_map_iff in Hc as [d [<- Hd]]. rewrite bound_rep in Hs. vm_compute in Hs. discriminate.
  - change (arep a) with (mkRep ($"urn:d") ($"note") [] false). eexists _, _, _. split; [reflexivity|]. split; vm_compute; reflexivity.
  - discriminate.
  - intros x [d [l [k [G1 [G2 _]]]]]. injection G1 as <- <-. vm_compute in G2. discriminate.
Qed.

Print Assumptions C54_no_read_only_partial.
Print Assumptions C54_reads_nothing_partial.
Print Assumptions C54_others_kept_partial.
Print Assumptions C54_writable_kept_refuted.
