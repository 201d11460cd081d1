(** Property C86: requests to find resources are answered with a report, not with an
    exception (src/request_validators.py 365-432, 552-618,
    src/assets/schemas/search_request.py). *)
From Verif Require Import PyBase BaseFacts PyNum NumSpec Issues IssuesSpec IssuesFacts AttrRep AttrRepSpec AttrRepFacts Value ValueFacts
  Container ContainerSpec ContainerFacts ContainerRW Types TypesSpec Attr Schema Assets AttrSpec AttrFacts PropAttr
  SchemaSpec SchemaFacts SchemaBuild PropSchema TotalSpec TotalFacts Presence PresenceSpec FilterParse FilterTotal PropFilter Sort Requests Search
  AnswerSpec AnswerFacts Patch PatchFacts MsgFacts RequestSpec RequestFacts ListSpec ListReqSpec PropListReq SearchSpec PropSearch PropRequest FindAnswerSpec FindAnswerFacts.

Section Env.
  Context {env : PyEnv}.

  (** Every query to list resources, however badly its parameters are written, is
      answered, unless its filter holds a number no float can take; then
      OverflowError is raised.

      Full claim: every query is answered. Filters with such numbers and numbers of
      results given as lists are not (C86_filter_refuted, C86_count_refuted). *)
  Theorem C86_list_partial : forall b h q, plain_query q ->
    (exists rq iss, list_parse_request b h q = Ok (rq, iss))
    \/ list_parse_request b h q = Raise OverflowErr /\ exists t, entry q ($"filter") (VStr t) /\ parse_filter t = Raise OverflowErr.
  Proof.
    intros b h q Hq. destruct q; try (left; eexists _, _; reflexivity). apply list_ends. exact Hq.
  Qed.
  (** Conversely, such a filter always ends in OverflowError. *)
  Theorem C86_list_overflow : forall b h q t, entry q ($"filter") (VStr t) -> parse_filter t = Raise OverflowErr -> list_parse_request b h q = Raise OverflowErr.
  Proof.
    intros b h q t He Ht. destruct q; try (destruct He as [l1 [l2 [E _]]]; discriminate E). apply entry_iff in He. unfold list_parse_request, request_filtering, qget. rewrite He, Ht. reflexivity.
  Qed.
  (** Queries without a filter are always answered. *)
  Theorem C86_unfiltered_partial : forall b h q, plain_query q -> no_entry q ($"filter") -> exists rq iss, list_parse_request b h q = Ok (rq, iss).
  Proof.
    intros b h q Hq Hn. destruct (C86_list_partial b h q Hq) as [G|[_ [t [G _]]]]; [exact G|]. exfalso.
    destruct q; try (destruct G as [l1 [l2 [E _]]]; discriminate E). apply entry_iff in G. apply no_entry_iff in Hn. rewrite Hn in G. discriminate G.
  Qed.

  (** Likewise for search requests, whatever the body holds.

      Full claim: every search is answered. Filters with such numbers are not
      (C86_search_refuted); bodies that are not [tame] or [well_placed] are treated
      in C27. *)
  Theorem C86_search_partial : forall b h q, tame b -> (is_object b -> well_placed search_schema (mk_cont b)) ->
    (exists rq iss, search_parse_request b h q = Ok (rq, iss))
    \/ search_parse_request b h q = Raise OverflowErr /\ exists t, holds (mk_cont b) ($"filter") (VStr t) /\ parse_filter t = Raise OverflowErr.
  Proof.
    intros b h q Ht Hp. unfold search_parse_request. destruct (search_ends b Ht Hp) as [[y [iss ->]]|[-> G]]; [left; eexists _, _; reflexivity | right; split; [reflexivity | exact G]].
  Qed.
  Theorem C86_search_overflow : forall b h q t, tame b -> is_object b -> well_placed search_schema (mk_cont b) ->
    holds (mk_cont b) ($"filter") (VStr t) -> parse_filter t = Raise OverflowErr -> search_parse_request b h q = Raise OverflowErr.
  Proof.
    intros b h q t Hb Ho Hp Hf Ht. unfold search_parse_request, search_parse. change (schema_parse search_schema b) with (base_parse MParse search_schema b).
    destruct (body_ends b Hb Ho Hp) as [[y [js Hy]]|[-> _]]; [exfalso | reflexivity].
    destruct (C25_known_only_partial search_schema MParse b y js search_made Ho (message_regular search_schema b search_made eq_refl (conj Ho (proj1 Hp))) Hy) as [C _].
    destruct (C s_filter (VStr t)) as [v [k [C1 _]]]; [apply search_in; right; right; left; reflexivity | exact Hf | discriminate|]. rewrite process_filter, Ht in C1. discriminate C1.
  Qed.
End Env.
#[local] Existing Instance no_env.

(** ** Examples *)

Example ex_C86_list : plain_query (VDict ex_query) /\ outcome_is (list_parse_request VNone VNone (VDict ex_query)) (fun _ iss => i_errs iss <> []).
Proof.
  split; [split|vm_compute; discriminate].
  - intros d k l E H. injection E as <-. cbn [ex_query In] in H. repeat (destruct H as [H|H]; [discriminate H|]). destruct H.
  - intros k x Hk H. apply entry_iff in H. right. left. destruct Hk as [<-|[<-|[]]]; vm_compute in H; injection H as <-; eexists; reflexivity.
Qed.
Example ex_C86_unfiltered : plain_query (VDict [(KStr ($"count"), VStr ($"many")); (KStr ($"attributes"), VList [VStr ($"na me")])]) /\ no_entry (VDict [(KStr ($"count"), VStr ($"many")); (KStr ($"attributes"), VList [VStr ($"na me")])]) ($"filter")
  /\ outcome_is (list_parse_request VNone VNone (VDict [(KStr ($"count"), VStr ($"many")); (KStr ($"attributes"), VList [VStr ($"na me")])])) (fun _ iss => map fst (i_errs iss) = [at_query ($"attributes") ++ [LStr ($"na me")]; at_query ($"count")]).
Proof.
  split; [split|split; [apply no_entry_iff; reflexivity | vm_compute; reflexivity]].
  - intros d k l E H. injection E as <-. destruct H as [H|[H|[]]]; [discriminate H|]. injection H as _ <-. constructor; [eexists; reflexivity | constructor].
  - intros k x Hk H. apply entry_iff in H. destruct Hk as [<-|[<-|[]]]; vm_compute in H; [injection H as <-|discriminate H]. right. left. eexists. reflexivity.
Qed.
Definition far_query : value := VDict [(KStr ($"filter"), VStr ($"a eq 1e400"))].
Example ex_C86_overflow : plain_query far_query /\ entry far_query ($"filter") (VStr ($"a eq 1e400")) /\ parse_filter ($"a eq 1e400") = Raise OverflowErr.
Proof.
  split; [split|split; [apply entry_iff; reflexivity | vm_compute; reflexivity]].
  - intros d k l E H. injection E as <-. destruct H as [H|[]]. discriminate H.
  - intros k x Hk H. apply entry_iff in H. destruct Hk as [<-|[<-|[]]]; vm_compute in H; discriminate H.
Qed.
Definition wild_search : value := VDict [(KStr ($"filter"), VList []); (KStr ($"attributes"), VList [VStr ($"na me"); VBool true]); (KStr ($"sortBy"), VInt 1); (KStr ($"count"), VStr ($"many")); (KStr ($"zzz"), VDict [])].
Example ex_C86_search : tame wild_search /\ (is_object wild_search -> well_placed search_schema (mk_cont wild_search))
  /\ outcome_is (search_parse_request wild_search VNone VNone) (fun rq iss => rq_body rq = VNone /\ i_errs iss <> []).
Proof.
  split; [|split; [|vm_compute; split; [reflexivity | discriminate]]].
  - unfold wild_search. constructor.
    + repeat (constructor; [discriminate|]). constructor.
    + repeat (constructor; cbn [snd]); try reflexivity. intros G. unfold overflows in G. vm_compute in G. apply G. reflexivity.
  - intros _. split; [|split].
    + intros [k G]. vm_compute in G. discriminate G.
    + intros u x [].
    + intros l [d [m [k [E [G _]]]]]. vm_compute in E. injection E as <- <-. vm_compute in G. discriminate G.
Qed.

(** ** What does not hold *)

(** A filter with a number out of range of floats raises OverflowError, in a query ... *)
Theorem C86_filter_refuted : exists q, plain_query q /\ list_parse_request VNone VNone q = Raise OverflowErr.
Proof. exists far_query. split; [exact (proj1 ex_C86_overflow) | vm_compute; reflexivity]. Qed.
(** ... and in a body, ... *)
Theorem C86_search_refuted : exists b, tame b /\ (is_object b -> well_placed search_schema (mk_cont b)) /\ search_parse_request b VNone VNone = Raise OverflowErr.
Proof.
  exists far_query. split; [|split; [|vm_compute; reflexivity]].
  - unfold far_query. constructor; [repeat (constructor; [discriminate|]); constructor|]. repeat (constructor; cbn [snd]); reflexivity.
  - intros _. split; [|split].
    + intros [k G]. vm_compute in G. discriminate G.
    + intros u x [].
    + intros l [d [m [k [E [G _]]]]]. vm_compute in E. injection E as <- <-. vm_compute in G. discriminate G.
Qed.
(** ... and a number of results given as a list raises TypeError. *)
Theorem C86_count_refuted : exists q, textual_query q /\ list_parse_request VNone VNone q = Raise TypeErr.
Proof.
  exists (VDict [(KStr ($"count"), VList [VStr ($"1")])]). split; [|vm_compute; reflexivity].
  intros d k l E H. injection E as <-. destruct H as [H|[]]. injection H as _ <-. constructor; [eexists; reflexivity | constructor].
Qed.

Print Assumptions C86_list_partial.
Print Assumptions C86_list_overflow.
Print Assumptions C86_search_overflow.
Print Assumptions C86_unfiltered_partial.
Print Assumptions C86_search_partial.
Print Assumptions ex_C86_list.
Print Assumptions ex_C86_unfiltered.
Print Assumptions ex_C86_overflow.
Print Assumptions ex_C86_search.
Print Assumptions C86_filter_refuted.
Print Assumptions C86_search_refuted.
Print Assumptions C86_count_refuted.
