(** Property C87: responses with several resources are served or refused with a
    report, not with an exception (src/request_validators.py 621-724). *)
From Verif Require Import PyBase BaseFacts PyNum NumSpec Issues IssuesSpec IssuesFacts AttrRep AttrRepSpec AttrRepFacts Value ValueFacts
  Container ContainerSpec ContainerFacts ContainerRW Types TypesSpec Attr Schema Assets Match Sort AttrSpec AttrFacts AttrHonest AttrItems PropAttr
  SchemaSpec SchemaFacts SchemaBuild PropSchema TotalSpec TotalFacts Presence PresenceSpec PresenceFacts Path Patch Bulk ListResp Requests PatchFacts RequestSpec RequestFacts BodyFacts PutFacts PropPut MsgFacts AnswerSpec AnswerFacts PropAnswer PatchAnswerFacts ReplySpec ReplyFacts PropReply PageSpec PageFacts.

Section Env.
  Context {env : PyEnv}.

  (** Whatever page the application returns for resources of one schema, with whatever
      status, headers, numbers asked for and chosen attributes, as long as numbers fit
      floats, texts are ASCII, no key is empty and URIs are used as intended.

      Full claim: this for all pages, also with resources of several schemas, filters
      and sorting. It fails for several schemas (C67_raises_refuted) and for the pages
      left out (C87_page_refuted). With filters and sorting, no other exception than
      KeyError is raised (C87_asked_partial); that it is not raised either is missing. *)
  Theorem C87_page_partial : forall s st doc h req count c, made s -> own_names s -> distinct_names (at_top (sc_attrs s)) -> Forall calm_attr (at_top (sc_attrs s)) -> Forall (standard_in MDump) (at_top (sc_attrs s)) ->
    has_sub s ($"meta") ($"resourceType") -> tame doc -> (is_object doc -> well_placed list_schema (mk_cont doc)) -> placed_resources s doc ->
    exists rs iss, list_dump_response [s] st doc h req count None None c = Ok (rs, iss).
  Proof. intros s st doc h req count c Hm Hown Hd Hq Hst Hr. exact (page_total s Hm Hown Hd Hq Hst Hr st doc h req count c). Qed.
  (** The same with any filter and any sorting. *)
  Theorem C87_asked_partial : forall s st doc h req count f so c, made s -> own_names s -> distinct_names (at_top (sc_attrs s)) -> Forall calm_attr (at_top (sc_attrs s)) -> Forall (standard_in MDump) (at_top (sc_attrs s)) ->
    has_sub s ($"meta") ($"resourceType") -> tame doc -> (is_object doc -> well_placed list_schema (mk_cont doc)) -> placed_resources s doc ->
    (exists rs iss, list_dump_response [s] st doc h req count f so c = Ok (rs, iss)) \/ list_dump_response [s] st doc h req count f so c = Raise KeyErr.
  Proof.
    intros s st doc h req count f so c Hm Hown Hd Hq Hst Hr Ht Hp Hpr. destruct (page_asked s Hm Hown Hd Hq Hst Hr st doc h req count f so c Ht Hp Hpr) as [[[rs iss] E]|E]; [left; exists rs, iss; exact E | right; exact E].
  Qed.
End Env.

#[local] Existing Instance no_env.

(** A page with a wrong number, a resource that is no object and one with wrong parts. *)
Definition ex_page : value := dict_of [($"totalResults", VStr ($"many")); ($"itemsPerPage", VInt (-3)); ($"Resources", VList [VBool true; dict_of [($"displayName", VInt 5); ($"nope", VNone)]])].
Lemma ex_page_fits : tame ex_page /\ (is_object ex_page -> well_placed list_schema (mk_cont ex_page)) /\ placed_resources group_schema ex_page.
Proof.
  assert (Hn : forall z, (Z.abs z < 100)%Z -> ~ overflows z 1).
  { intros z Hz G. unfold overflows in G. assert (100 < (2 ^ 1024 - 2 ^ 970) * 1)%Z by (vm_compute; reflexivity). lia. }
  split; [|split].
  - unfold ex_page, dict_of. cbn [map fst snd]. constructor; [repeat (apply Forall_cons; [cbn [fst]; discriminate|]); constructor|].
    apply Forall_cons; [constructor; reflexivity|]. apply Forall_cons; [constructor; apply Hn; reflexivity|]. apply Forall_cons; [|constructor].
    cbn [snd]. constructor. apply Forall_cons; [constructor|]. apply Forall_cons; [|constructor]. constructor; [repeat (apply Forall_cons; [cbn [fst]; discriminate|]); constructor|].
    apply Forall_cons; [constructor; apply Hn; reflexivity|]. apply Forall_cons; [constructor | constructor].
  - intros _. split; [intros [k H]; vm_compute in H; discriminate|]. split.
    + intros u x Hu. vm_compute in Hu. destruct Hu.
    + intros l [d [l2 [k [E [H1 _]]]]]. vm_compute in E. injection E as <- <-. vm_compute in H1. discriminate H1.
  - intros l x Hl Hx Ho. assert (E : l = [VBool true; mk_cont (dict_of [($"displayName", VInt 5); ($"nope", VNone)])]).
    { destruct Hl as [d [l2 [k [E [H1 H2]]]]]. vm_compute in E. injection E as <- <-. vm_compute in H1. injection H1 as <-. vm_compute in H2. injection H2 as <-. vm_compute. reflexivity. }
    subst l. destruct Hx as [<-|[<-|[]]]; [destruct Ho|].
    split; [intros [k H]; vm_compute in H; discriminate|]. split.
    + intros u x Hu. vm_compute in Hu. destruct Hu.
    + intros l [d [l2 [k [E [H1 _]]]]]. vm_compute in E. injection E as <- <-. vm_compute in H1. discriminate H1.
Qed.

Example ex_C87 : forall st h req count c, exists rs iss, list_dump_response [group_schema] st ex_page h req count None None c = Ok (rs, iss).
Proof.
  intros st h req count c. destruct ex_page_fits as [H1 [H2 H3]].
  apply C87_page_partial; [exact group_made | exact group_own | exact group_distinct | exact group_calm | exact (group_standard MDump) | apply group_meta; left; reflexivity | exact H1 | exact H2 | exact H3].
Qed.
(** The same page for a client that asked for members called 1, by an attribute that holds lists. *)
Definition ex_asked_filter : oper := OAnd [OComplex (mkRep [] ($"members") [] false) (OBin OpGt (mkRep [] ($"display") [] false) (LitInt 1)); ONot (OPresent (mkRep [] ($"schemas") [] false))].
Definition ex_asked_sorter : sorter := mkSorter (mkRep [] ($"schemas") [] false) true.
Example ex_C87_asked : forall st h req count c, (exists rs iss, list_dump_response [group_schema] st ex_page h req count (Some ex_asked_filter) (Some ex_asked_sorter) c = Ok (rs, iss))
  \/ list_dump_response [group_schema] st ex_page h req count (Some ex_asked_filter) (Some ex_asked_sorter) c = Raise KeyErr.
Proof.
  intros st h req count c. destruct ex_page_fits as [H1 [H2 H3]].
  apply C87_asked_partial; [exact group_made | exact group_own | exact group_distinct | exact group_calm | exact (group_standard MDump) | apply group_meta; left; reflexivity | exact H1 | exact H2 | exact H3].
Qed.
(** A page of which a resource has a number among its schemas is not served. *)
Theorem C87_page_refuted : exists env s doc, made s /\ json doc /\ forall st h req count c, @list_dump_response env [s] st doc h req count None None c = Raise AttributeErr.
Proof.
  set (doc := dict_of [($"totalResults", VInt 1); ($"Resources", VList [dict_of [($"schemas", VList [VInt 1])]])]). exists no_env, group_schema, doc. split; [exact group_made|]. split.
  - subst doc. unfold dict_of. cbn [map fst snd]. flat_json; first [eexists; reflexivity | intros G; repeat (destruct G as [G|G]; [discriminate|]); exact G].
  - intros st h req count c. unfold list_dump_response. assert (E : match @list_dump no_env [group_schema] doc with Raise AttributeErr => True | _ => False end) by (vm_compute; exact I).
    destruct (@list_dump no_env [group_schema] doc) as [|[]]; try (destruct E; fail). reflexivity.
Qed.

Print Assumptions C87_page_partial.
Print Assumptions C87_asked_partial.
Print Assumptions ex_C87.
Print Assumptions ex_C87_asked.
Print Assumptions C87_page_refuted.
