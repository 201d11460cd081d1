(** C64: schemas describe themselves truthfully. *)
From Coq Require Import Lia.
From Verif Require PropRequest.
From Verif Require Import PyBase BaseFacts PyNum Issues IssuesSpec IssuesFacts AttrRep AttrRepSpec Value ValueFacts Container ContainerSpec ContainerFacts ContainerRW
  Types Attr AttrSpec AttrFacts AttrItems Schema Assets Patch SchemaS SchemaSpec SchemaFacts SchemaBuild PropAttr PropSchema PatchFacts SelfSpec SelfFacts SelfDump.

Section Env.
  Context {env : PyEnv}.

  Lemma fields_untyped : forall a, untyped a \/ exists d, attr_fields a = Ok d /\ ~ untyped a.
  Proof.
    fix IH 1. intros [i sub].
    destruct (scim_name (a_type i)) as [w|x] eqn:E.
    2:{ left. constructor. destruct (a_type i); discriminate || reflexivity. }
    assert (N : a_type i <> TUnknown) by (intros G; rewrite G in E; discriminate).
    rewrite (card_fields i sub w E). destruct sub as [[[subs cps] cds]|].
    - assert (G : Exists untyped subs \/ exists ds, mapM attr_to_dict subs = Ok ds /\ ~ Exists untyped subs).
      { clear E N. induction subs as [|a l IHl]; [right; exists []; split; [reflexivity | intros H; inversion H]|].
        destruct (IH a) as [H|[d [D1 D2]]]; [left; left; exact H|]. destruct IHl as [H|[ds [E1 E2]]]; [left; right; exact H|]. right.
        exists (dict_of d :: ds). cbn [mapM]. unfold attr_to_dict at 1. rewrite D1. cbn [bind]. rewrite E1. split; [reflexivity|]. intros H. inversion H; contradiction. }
      destruct G as [G|[ds [G1 G2]]].
      + left. apply Exists_exists in G as [a [A1 A2]]. exact (untyped_below _ _ _ _ a A1 A2).
      + right. rewrite G1. eexists. split; [reflexivity|]. intros H. inversion H; subst; [contradiction|]. apply G2, Exists_exists. eauto.
    - right. eexists. split; [reflexivity|]. intros H. inversion H. contradiction.
  Qed.
  Lemma untyped_raises : forall a, untyped a -> attr_fields a = Raise AttributeErr.
  Proof.
    fix IH 1. intros [i sub] H. destruct (scim_name (a_type i)) as [w|x] eqn:E.
    2:{ cbn [attr_fields]. rewrite E. destruct (a_type i); try discriminate. injection E as <-. reflexivity. }
    rewrite (card_fields i sub w E). destruct sub as [[[subs cps] cds]|].
    - assert (G : Exists untyped subs). { inversion H; subst; [match goal with K : a_type i = TUnknown |- _ => rewrite K in E; discriminate end|]. apply Exists_exists. eauto. }
      assert (M : mapM attr_to_dict subs = Raise AttributeErr).
      { clear E H. induction subs as [|a l IHl]; [inversion G|]. cbn [mapM]. unfold attr_to_dict at 1. destruct (fields_untyped a) as [U|[d [D1 D2]]]; [rewrite (IH a U); reflexivity|].
        rewrite D1. cbn [bind]. rewrite IHl; [reflexivity|]. inversion G; [contradiction | assumption]. }
      rewrite M. reflexivity.
    - exfalso. inversion H. subst. match goal with K : a_type i = TUnknown |- _ => rewrite K in E; discriminate end.
  Qed.

  (** A schema has a representation unless some attribute has no type. *)
  Theorem C64_defined s : (exists d, get_schema_rep s = Ok d) <-> ~ Exists untyped (at_top (sc_attrs s)).
  Proof.
    unfold get_schema_rep.
    assert (M : forall l, Exists untyped l /\ mapM attr_to_dict l = Raise AttributeErr \/ ~ Exists untyped l /\ exists ds, mapM attr_to_dict l = Ok ds).
    { induction l as [|a l IH]; [right; split; [intros H; inversion H | eexists; reflexivity]|]. cbn [mapM]. unfold attr_to_dict at 1 3. destruct (fields_untyped a) as [U|[d [D1 D2]]].
      - left. split; [left; exact U|]. rewrite (untyped_raises a U). reflexivity.
      - rewrite D1. cbn [bind]. destruct IH as [[I1 I2]|[I1 [ds I2]]]; rewrite I2; [left; split; [right; exact I1 | reflexivity]|]. right. split; [intros H; inversion H; contradiction | eexists; reflexivity]. }
    destruct (M (at_top (sc_attrs s))) as [[M1 M2]|[M1 [ds M2]]]; rewrite M2; split; try (intros [d H]; discriminate H); try contradiction; intros; try assumption. eexists. reflexivity.
  Qed.

  (** The schema of schemas accepts the representation and shows every
      characteristic of every attribute. *)
  Theorem C64_accepted_partial n s : Forall (describable false n) (at_top (sc_attrs s)) ->
    exists d y, get_schema_rep s = Ok d /\ schema_dump (schema_schema n) d = Ok (y, no_issues)
    /\ holds y ($"id") (VStr (sc_uri s)) /\ holds y ($"name") (VStr (sc_name s)) /\ holds y ($"description") (VStr (sc_descr s))
    /\ holds y ($"schemas") (VList [VStr ($"urn:ietf:params:scim:schemas:core:2.0:Schema")])
    /\ (exists m, holds y ($"meta") m /\ holds m ($"resourceType") (VStr ($"Schema")))
    /\ exists cards, holds y ($"attributes") (VList cards) /\ Forall2 (describes false) (at_top (sc_attrs s)) cards.
  Proof.
    intros H. destruct (rep_loaded _ _ _ H) as [d [E1 E2]]. exists (VDict d), (shown_doc s). split; [exact E1|]. split; [exact (doc_dumped n s d H E2)|].
    unfold shown_doc. split; [apply holds_look; reflexivity|]. split; [apply holds_look; reflexivity|]. split; [apply holds_look; reflexivity|]. split; [apply holds_look; reflexivity|].
    split; [eexists; split; [apply holds_look; reflexivity | apply holds_look; reflexivity]|].
    eexists. split; [apply holds_look; reflexivity|]. clear E1 E2 d. induction H as [|a l Ha _ IH]; constructor; [apply shown_describes; eauto | exact IH].
  Qed.

  (** The representation itself says the same, letter case for every type, and so
      does that of an extension. *)
  Theorem C64_representation_partial dec n s d : Forall (describable dec n) (at_top (sc_attrs s)) -> get_schema_rep s = Ok d ->
    holds (mk_cont d) ($"id") (VStr (sc_uri s)) /\ holds (mk_cont d) ($"name") (VStr (sc_name s)) /\ holds (mk_cont d) ($"description") (VStr (sc_descr s))
    /\ exists cards, holds (mk_cont d) ($"attributes") (VList cards) /\ Forall2 (describes true) (at_top (sc_attrs s)) cards.
  Proof.
    intros H E. destruct (rep_loaded _ _ _ H) as [d' [E1 E2]]. rewrite E1 in E. injection E as <-. rewrite E2. unfold raw_doc.
    split; [apply holds_look; reflexivity|]. split; [apply holds_look; reflexivity|]. split; [apply holds_look; reflexivity|].
    eexists. split; [apply holds_look; reflexivity|]. clear E1 E2 d'. induction H as [|a l Ha _ IH]; constructor; [apply raw_describes; eauto | exact IH].
  Qed.
  Theorem C64_extension_partial dec n e : Forall (describable dec n) (at_all (ex_attrs e)) -> exists d, ext_to_dict e = Ok d
    /\ holds (mk_cont d) ($"id") (VStr (ex_uri e)) /\ holds (mk_cont d) ($"name") (VStr (Schema.ex_name e)) /\ holds (mk_cont d) ($"description") (VStr (ex_descr e))
    /\ exists cards, holds (mk_cont d) ($"attributes") (VList cards) /\ Forall2 (describes true) (at_all (ex_attrs e)) cards.
  Proof.
    intros H. destruct (dicts_raw _ _ _ H) as [ds [E1 E2]]. unfold ext_to_dict. rewrite E1. cbn [bind]. eexists. split; [reflexivity|].
    assert (L : mk_cont (dict_of [($"id", VStr (ex_uri e)); ($"name", VStr (Schema.ex_name e)); ($"description", VStr (ex_descr e)); ($"attributes", VList ds)])
      = tabled [($"id", VStr (ex_uri e)); ($"name", VStr (Schema.ex_name e)); ($"description", VStr (ex_descr e)); ($"attributes", VList (map raw (at_all (ex_attrs e))))]).
    { unfold dict_of. rewrite mk_cont_dict. cbn [map fst snd load]. rewrite <- E2. reflexivity. }
    rewrite L. split; [apply holds_look; reflexivity|]. split; [apply holds_look; reflexivity|]. split; [apply holds_look; reflexivity|].
    eexists. split; [apply holds_look; reflexivity|]. clear L E1 E2 ds. induction H as [|a l Ha _ IH]; constructor; [apply raw_describes; eauto | exact IH].
  Qed.
End Env.

(** ** Cases *)

Ltac keyed := eexists _, _, _; split; [reflexivity | split; reflexivity].

Fixpoint can_describe (dec : bool) (n : nat) (a : attribute) {struct a} : bool :=
  match a with
  | MkAttr i sub =>
      match a_type i with TUnknown => false | TDecimal => dec | _ => true end &&
      match sub with
      | None => true
      | Some (subs, _, _) =>
          match a_type i with TComplex => true | _ => false end &&
          match n with O => false | S n' => (fix each (l : list attribute) : bool := match l with [] => true | a :: l => can_describe dec n' a && each l end) subs end
      end
  end.
Lemma can_describe_ok : forall a dec n, can_describe dec n a = true -> describable dec n a.
Proof.
  fix IH 1. intros [i sub] dec n H. cbn [can_describe] in H. apply andb_prop in H as [H1 H2]. cbn [describable].
  split; [destruct (a_type i); try discriminate; eexists; constructor|]. split; [intros -> G; rewrite G in H1; discriminate|].
  destruct sub as [[[subs cps] cds]|]; [|exact I]. apply andb_prop in H2 as [H2 H3]. split; [destruct (a_type i); discriminate || reflexivity|].
  destruct n as [|n]; [discriminate|]. clear H1 H2. induction subs as [|a l IHl]; [exact I|]. apply andb_prop in H3 as [H3 H4]. split; [apply IH; exact H3 | apply IHl; exact H4].
Qed.
Lemma all_describable dec n l : forallb (can_describe dec n) l = true -> Forall (describable dec n) l.
Proof. intros H. apply Forall_forall. intros a Ha. apply can_describe_ok. rewrite forallb_forall in H. exact (H a Ha). Qed.

(** Users with the enterprise extension and groups are described in full. *)
Example ex_C64 : Forall (describable false 1) (at_top (sc_attrs user_schema)) /\ Forall (describable false 1) (at_top (sc_attrs group_schema))
  /\ length (at_top (sc_attrs user_schema)) = 31 /\ Forall (describable true 1) (at_all (ex_attrs enterprise_ext)).
Proof.
  split; [apply all_describable; vm_compute; reflexivity|]. split; [apply all_describable; vm_compute; reflexivity|]. split; [vm_compute; reflexivity|].
  apply all_describable; vm_compute; reflexivity.
Qed.

(** RFC 7643 (2.3.3, 7) knows decimal numbers; the schema of schemas does not
    accept their name. *)
Definition ex_weighed : schema := resource_schema ($"urn:w") [mk_simple (plain ($"weight") TDecimal)] ($"Thing") [] None None None None.
Theorem C64_accepted_refuted : exists s d, Forall (describable true 1) (at_top (sc_attrs s)) /\ get_schema_rep s = Ok d
  /\ PropRequest.outcome_is (@schema_dump no_env (@schema_schema no_env 1) d) (fun _ iss => errs_at iss [LStr ($"attributes"); LIdx 4; LStr ($"type")] = [e_must_be_one_of]).
Proof.
  exists ex_weighed. eexists. split; [apply all_describable; vm_compute; reflexivity|]. split; [vm_compute; reflexivity|]. vm_compute. reflexivity.
Qed.
(** A schema with an attribute of any type has no representation at all. *)
Definition ex_loose : schema := resource_schema ($"urn:l") [mk_simple (plain ($"any") TUnknown)] ($"Loose") [] None None None None.
Theorem C64_defined_refuted : exists s, get_schema_rep s = Raise AttributeErr /\ Exists untyped (at_top (sc_attrs s)).
Proof. exists ex_loose. split; [vm_compute; reflexivity|]. do 4 right. left. constructor. reflexivity. Qed.

(** In a schema made for it, the attribute is described with [v] for [k]. *)
Definition told (a : attribute) (k : str) (v : value) : Prop :=
  exists d cards c, get_schema_rep (resource_schema ($"urn:t") [a] ($"Told") [] None None None None) = Ok d
  /\ holds (mk_cont d) ($"attributes") (VList cards) /\ In c cards /\ holds c ($"name") (VStr (r_attr (arep a))) /\ holds c k v.
(** The description an attribute was declared with is lost ... *)
Theorem C64_description_refuted : exists a d, a = mk_simple (with_descr d (plain ($"note") TString)) /\ d <> [] /\ told a ($"description") (VStr []).
Proof.
  eexists. exists ($"A note."). split; [reflexivity|]. split; [discriminate|]. eexists. eexists. eexists. split; [vm_compute; reflexivity|]. split; [keyed|]. split; [do 4 right; left; reflexivity|]. split; keyed.
Qed.
(** ... and canonical values are told in lower case. *)
Theorem C64_canonical_refuted : exists a, a = mk_simple (with_canon true [LitStr ($"Work")] (plain ($"kind") TString)) /\ told a ($"canonicalValues") (VList [VStr ($"work")]).
Proof.
  eexists. split; [reflexivity|]. eexists. eexists. eexists. split; [vm_compute; reflexivity|]. split; [keyed|]. split; [do 4 right; left; reflexivity|]. split; keyed.
Qed.
(** The attributes of an extension are told as if they were the schema's own. *)
Theorem C64_own_refuted : exists d cards c, get_schema_rep user_schema = Ok d /\ holds (mk_cont d) ($"attributes") (VList cards) /\ In c cards /\ holds c ($"name") (VStr ($"employeeNumber"))
  /\ ~ Exists (fun a => r_attr (arep a) = $"employeeNumber") (at_top (sc_attrs core_user)).
Proof.
  eexists. eexists. eexists. split; [vm_compute; reflexivity|]. split; [keyed|]. split; [do 25 right; left; reflexivity|]. split; [keyed|].
  intros H. apply Exists_exists in H as [a [H1 H2]]. assert (G : In ($"employeeNumber") (map (fun a => r_attr (arep a)) (at_top (sc_attrs core_user)))) by (apply in_map_iff; eauto).
  assert (N : smem ($"employeeNumber") (map (fun a => r_attr (arep a)) (at_top (sc_attrs core_user))) = false) by (vm_compute; reflexivity).
  exact (proj1 (smem_not_In _ _) N G).
Qed.

Print Assumptions C64_defined.
Print Assumptions C64_accepted_partial.
Print Assumptions C64_representation_partial.
Print Assumptions C64_extension_partial.
Print Assumptions ex_C64.
Print Assumptions C64_accepted_refuted.
Print Assumptions C64_defined_refuted.
Print Assumptions C64_description_refuted.
Print Assumptions C64_canonical_refuted.
Print Assumptions C64_own_refuted.
