(** Property C52: the limits of bulk requests and responses. *)
From Coq Require Import Lia.
From Verif Require Import PyBase BaseFacts PyNum Issues IssuesSpec IssuesFacts AttrRep AttrRepSpec Value Container ContainerSpec
  Types Attr Schema Assets Presence Match FilterParse Path Sort Patch ListResp Search Bulk Requests
  AttrSpec SchemaSpec PropAttr PropSchema PatchSpec RequestSpec ListSpec MsgFacts PropRequest ListFacts PropList BulkSpec BulkFacts.

Section Env.
  Context {env : PyEnv}.

  (** A request with more operations than the limit is reported, one within the
      limit is not.  Missing from the whole claim: requests that are not answered
      at all, see below. *)
  Theorem C52_request_limit_partial : forall schemas mx doc h q rq iss l,
    message bulk_request_schema doc -> holds (mk_cont doc) ($"Operations") (VList l) -> bulk_parse_request schemas (Some mx) doc h q = Ok (rq, iss) ->
    (In e_too_many_ops (errs_at iss (at_field ($"Operations"))) <-> (mx < Z.of_nat (length l))%Z).
  Proof.
    intros schemas mx doc h q rq iss l Hd Hl H. destruct (bulk_request_limit _ _ _ _ _ _ _ _ Hd Hl H) as [pre [E N]]. change (at_field ($"Operations")) with ops_loc. rewrite E, in_app_iff, in_if, Z.ltb_lt. tauto.
  Qed.

  (** Likewise a response with more failed operations than the limit. *)
  Theorem C52_response_limit_partial : forall schemas st doc h limit rs iss l n,
    message bulk_response_schema doc -> holds (mk_cont doc) ($"Operations") (VList l) -> Forall (fun x => ~ has_key x []) l -> tally failed l n ->
    (forall f, limit = Some f -> (0 <= f)%Z) -> bulk_dump_response schemas st doc h limit = Ok (rs, iss) ->
    (In e_too_many_errors (errs_at iss (at_field ($"Operations"))) <-> exists f, limit = Some f /\ (f < Z.of_nat n)%Z).
  Proof.
    intros schemas st doc h limit rs iss l n Hd Hl Hk Ht Hf H. destruct (bulk_response_limit _ _ _ _ _ _ _ _ _ Hd Hl Hk Ht Hf H) as [pre [E N]]. change (at_field ($"Operations")) with ops_loc.
    rewrite E, in_app_iff, in_if. unfold exceeded. destruct limit as [f|].
    - rewrite Z.ltb_lt. split; [intros [G|[G _]]; [contradiction | exists f; auto] | intros [f' [G1 G2]]; injection G1 as <-; auto].
    - split; [intros [G|[G _]]; [contradiction | discriminate] | intros [f' [G1 _]]; discriminate].
  Qed.
End Env.

(** Two operations, and their answers. *)
Definition ex_op (rest : list (str * value)) : value := dict_of (($"method", VStr ($"POST")) :: ($"bulkId", VStr ($"a1")) :: rest).
Definition ex_bulk (u : str) (ops : list value) : value := dict_of [($"schemas", VList [VStr u]); ($"Operations", VList ops)].
Definition ops_of (doc : value) : list value := match get_item (mk_cont doc) (mkRep [] ($"Operations") [] false) with Ok (VList l) => l | _ => [] end.
Definition ex_error (st : str) : value := dict_of [($"schemas", VList [VStr ($"urn:ietf:params:scim:api:messages:2.0:Error")]); ($"status", VStr st)].
Definition ex_sent : value :=
  ex_bulk bulk_request_uri [ex_op [($"path", VStr ($"/Groups")); ($"data", dict_of [($"displayName", VStr ($"ann"))])]; ex_op [($"path", VStr ($"/Groups")); ($"data", dict_of [($"displayName", VStr ($"bob"))])]].
Definition ex_done : value :=
  ex_bulk bulk_response_uri [ex_op [($"status", VStr ($"409")); ($"response", ex_error ($"409"))]; ex_op [($"status", VStr ($"400"))];
    ex_op [($"location", VStr ($"https://x/Groups/1")); ($"status", VStr ($"201"))]].

Lemma no_key doc d l u : mk_cont doc = VCont d l -> sget (lower u) l = None -> ~ has_key (mk_cont doc) u.
Proof. intros E H. rewrite E. intros [k K]. congruence. Qed.
Ltac held := eexists _, _, _; split; [reflexivity|]; split; vm_compute; reflexivity.
Lemma ex_done_tally : tally failed (ops_of ex_done) 1.
Proof.
  let l := eval vm_compute in (ops_of ex_done) in change (ops_of ex_done) with l.
  apply tally_one; [eapply (failed_with _ ($"POST") ($"409") 409); [held | vm_compute; auto | held | vm_compute; reflexivity | lia | held | vm_compute; reflexivity]|].
  apply tally_not; [|apply tally_not; [|constructor]].
  - intros [m st z r _ _ _ _ _ G _]. destruct G as [d [l [k [E [A B]]]]]. injection E as <- <-. vm_compute in A. discriminate A.
  - intros [m st z r _ _ G1 G2 G3 _ _]. destruct G1 as [d [l [k [E [A B]]]]]. injection E as <- <-. vm_compute in A. injection A as <-. vm_compute in B. injection B as <-. vm_compute in G2. injection G2 as <-. lia.
Qed.

Example ex_C52 :
  message bulk_request_schema ex_sent /\ holds (mk_cont ex_sent) ($"Operations") (VList (ops_of ex_sent)) /\ length (ops_of ex_sent) = 2
  /\ outcome_is (@bulk_parse_request no_env [group_schema] (Some 1%Z) ex_sent VNone VNone) (fun _ iss => In e_too_many_ops (errs_at iss (at_field ($"Operations"))))
  /\ outcome_is (@bulk_parse_request no_env [group_schema] (Some 2%Z) ex_sent VNone VNone) (fun _ iss => errs_at iss (at_field ($"Operations")) = [])
  /\ message bulk_response_schema ex_done /\ holds (mk_cont ex_done) ($"Operations") (VList (ops_of ex_done)) /\ Forall (fun x => ~ has_key x []) (ops_of ex_done) /\ tally failed (ops_of ex_done) 1
  /\ outcome_is (@bulk_dump_response no_env [group_schema] 200 ex_done VNone (Some 0%Z)) (fun _ iss => In e_too_many_errors (errs_at iss (at_field ($"Operations"))))
  /\ outcome_is (@bulk_dump_response no_env [group_schema] 200 ex_done VNone (Some 1%Z)) (fun _ iss => errs_at iss (at_field ($"Operations")) = []).
Proof.
  split; [split; [exact I | eapply no_key; [vm_compute; reflexivity | vm_compute; reflexivity]]|].
  split; [in_doc|]. split; [vm_compute; reflexivity|].
  split; [vm_compute; auto|]. split; [vm_compute; reflexivity|].
  split; [split; [exact I | eapply no_key; [vm_compute; reflexivity | vm_compute; reflexivity]]|]. split; [in_doc|].
  split; [apply Forall_forall; intros x Hx K; unfold has_key in K; vm_compute in Hx; destruct Hx as [<-|[<-|[<-|[]]]]; destruct K as [k K]; vm_compute in K; discriminate K|].
  split.
  { exact ex_done_tally. }
  split; [vm_compute; auto | vm_compute; reflexivity].
Qed.

(** The whole claim is false: operations that failed with nothing but a status are
    not counted ... *)
Inductive unsuccessful (x : value) : Prop :=
| unsuccessful_with st z : holds x ($"status") (VStr st) -> py_int (VStr st) = Ok z -> (300 <= z)%Z -> unsuccessful x.
Theorem C52_response_uncounted_refuted : exists (env : PyEnv) schemas doc l n limit, message bulk_response_schema doc /\ holds (mk_cont doc) ($"Operations") (VList l)
  /\ tally unsuccessful l n /\ (0 <= limit < Z.of_nat n)%Z
  /\ outcome_is (bulk_dump_response schemas 200 doc VNone (Some limit)) (fun _ iss => ~ In e_too_many_errors (errs_at iss (at_field ($"Operations")))).
Proof.
  destruct ex_C52 as [_ [_ [_ [_ [_ [H1 [H2 [_ [_ [_ H]]]]]]]]]]. exists no_env, [group_schema], ex_done, (ops_of ex_done), 2, 1%Z. split; [exact H1|]. split; [exact H2|]. split; [|split; [lia|]].
  - let l := eval vm_compute in (ops_of ex_done) in change (ops_of ex_done) with l. apply tally_one; [apply (unsuccessful_with _ ($"409") 409); [held | vm_compute; reflexivity | lia]|]. apply tally_one; [apply (unsuccessful_with _ ($"400") 400); [held | vm_compute; reflexivity | lia]|].
    apply tally_not; [|constructor]. intros [st z G1 G2 G3]. destruct G1 as [d [l [k [E [A B]]]]]. injection E as <- <-. vm_compute in A. injection A as <-. vm_compute in B. injection B as <-. vm_compute in G2. injection G2 as <-. lia.
  - apply outcome_inv in H as [rs [iss [E H]]]. rewrite E. cbn [outcome_is]. rewrite H. intros [].
Qed.
(** ... a request above the limit whose method is not in capital letters is not
    answered at all, and neither is any request when no limit is configured. *)
Theorem C52_request_case_refuted : exists (env : PyEnv) schemas doc l mx, message bulk_request_schema doc /\ holds (mk_cont doc) ($"Operations") (VList l)
  /\ (mx < Z.of_nat (length l))%Z /\ bulk_parse_request schemas (Some mx) doc VNone VNone = Raise KeyErr.
Proof.
  set (doc := ex_bulk bulk_request_uri [dict_of [($"method", VStr ($"post")); ($"bulkId", VStr ($"a1")); ($"path", VStr ($"/Groups")); ($"data", dict_of [($"displayName", VStr ($"ann"))])]]).
  exists no_env, [group_schema], doc, (ops_of doc), 0%Z. split; [split; [exact I | eapply no_key; [vm_compute; reflexivity | vm_compute; reflexivity]]|]. split; [in_doc|]. split; [vm_compute; reflexivity | vm_compute; reflexivity].
Qed.
Theorem C52_no_limit_refuted : exists (env : PyEnv) schemas doc l, message bulk_request_schema doc /\ holds (mk_cont doc) ($"Operations") (VList l)
  /\ bulk_parse_request schemas None doc VNone VNone = Raise TypeErr.
Proof.
  destruct ex_C52 as [H1 [H2 _]]. exists no_env, [group_schema], ex_sent, (ops_of ex_sent). split; [exact H1|]. split; [exact H2|]. vm_compute. reflexivity.
Qed.

Print Assumptions C52_request_limit_partial.
Print Assumptions C52_response_limit_partial.
Print Assumptions ex_C52.
Print Assumptions C52_response_uncounted_refuted.
Print Assumptions C52_request_case_refuted.
Print Assumptions C52_no_limit_refuted.
