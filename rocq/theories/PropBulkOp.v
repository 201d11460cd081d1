(** Properties C60 and C61: the operations of bulk requests. *)
From Coq Require Import Lia.
From Verif Require Import PyBase BaseFacts PyNum Issues IssuesSpec IssuesFacts AttrRep AttrRepSpec Value Container ContainerSpec
  Types Attr Schema Assets Presence Match FilterParse Path Sort Patch ListResp Search Bulk Requests
  AttrSpec SchemaSpec PropAttr PropSchema PatchSpec PatchFacts RequestSpec ListSpec RequestFacts MsgFacts PropRequest ListFacts PropList BulkSpec BulkFacts PropBulk BulkOpSpec BulkOpFacts.

Section Env.
  Context {env : PyEnv}.

  Lemma made_all l : Forall made l -> Forall sound l.
  Proof. intros H. eapply Forall_impl; [|exact H]. intros s. apply made_sound. Qed.
  Lemma two_same {A B} (R : A -> B -> Prop) l m i x : Forall2 R l m -> nth_error l i = Some x -> exists y, nth_error m i = Some y /\ R x y.
  Proof.
    intros H. revert i. induction H as [|a b l m Hab H IH]; intros [|i] E; try discriminate E; cbn [nth_error] in *; [|exact (IH i E)]. injection E as <-. eauto.
  Qed.
  Lemma not_nil_nth {A} (l : list A) i x : nth_error l i = Some x -> l <> [].
  Proof. intros H ->. destruct i; discriminate H. Qed.

  Lemma about_one o p n n' : about o n p -> about o n' p -> n = n'.
  Proof. intros H1 H2. apply about_name in H1. apply about_name in H2. congruence. Qed.
  Lemma serves_one schemas n s s' : serves schemas n s -> serves schemas n s' -> s = s'.
  Proof. intros H1 H2. apply validators_spec in H1. apply validators_spec in H2. congruence. Qed.

  Lemma bulk_one schemas mx f l h q rq iss i o : Forall made schemas -> Forall callable l -> nth_error l i = Some o -> bulk_parse_request schemas (Some mx) (bulk_document f l) h q = Ok (rq, iss) ->
    exists v er, did schemas o v er /\ forall e x, In e (errs_at iss (at_bulk i ++ x)) <-> bulk_fault o e x \/ In e (er x).
  Proof.
    intros Hs Hl Hi H. destruct (bulk_result schemas mx f l h q rq iss (made_all _ Hs) Hl (not_nil_nth _ _ _ Hi) H) as [outs [F [_ [_ [A _]]]]].
    destruct (two_same _ _ _ _ _ F Hi) as [[v er] [Ho D]]. exists v, er. split; [exact D|]. exact (A i o (v, er) Hi Ho).
  Qed.

  (** About an operation with a fault of its path or its data, exactly its faults
      are reported. *)
  Theorem C60_faults : forall schemas mx f l h q rq iss i o,
    Forall made schemas -> Forall callable l -> nth_error l i = Some o -> bulk_parse_request schemas (Some mx) (bulk_document f l) h q = Ok (rq, iss) -> unusable o ->
    forall e x, In e (errs_at iss (at_bulk i ++ x)) <-> bulk_fault o e x.
  Proof.
    intros schemas mx f l h q rq iss i o Hs Hl Hi H U e x. destruct (bulk_one _ _ _ _ _ _ _ _ _ _ Hs Hl Hi H) as [v [er [D A]]]. rewrite A.
    destruct D as [_|N _|p n N _ _ _ _|p n s r js N _ _ _ _ _]; try contradiction. cbn [In]. tauto.
  Qed.

  (** About one that asks for resources nobody serves, also that. *)
  Theorem C60_unknown : forall schemas mx f l h q rq iss i o p n,
    Forall made schemas -> Forall callable l -> nth_error l i = Some o -> bulk_parse_request schemas (Some mx) (bulk_document f l) h q = Ok (rq, iss) ->
    ~ unusable o -> k_method o <> $"DELETE" -> k_path o = Some p -> about o n p -> (forall s, ~ serves schemas n s) ->
    forall e x, In e (errs_at iss (at_bulk i ++ x)) <-> bulk_fault o e x \/ e = e_unknown_resource /\ x = [LStr ($"path")].
  Proof.
    intros schemas mx f l h q rq iss i o p n Hs Hl Hi H U M P B V e x. destruct (bulk_one _ _ _ _ _ _ _ _ _ _ Hs Hl Hi H) as [v [er [D A]]]. rewrite A.
    destruct D as [N|N M'|p' n' N _ P' B' V'|p' n' s r js N _ P' B' V' _]; try contradiction; rewrite P in P'; injection P' as <-; rewrite (about_one _ _ _ _ B' B) in V'.
    - rewrite in_one_err. tauto.
    - destruct (V s V').
  Qed.

  (** About any other one, what is reported about the request it stands for, below
      its data. *)
  Theorem C60_like_alone : forall schemas mx f l h q rq iss i o p n s,
    Forall made schemas -> Forall callable l -> nth_error l i = Some o -> bulk_parse_request schemas (Some mx) (bulk_document f l) h q = Ok (rq, iss) ->
    ~ unusable o -> k_method o <> $"DELETE" -> k_path o = Some p -> about o n p -> serves schemas n s ->
    exists rq' iss', alone s o rq' iss' /\ forall e x, In e (errs_at iss (at_bulk i ++ x)) <->
      bulk_fault o e x \/ exists x', x = LStr ($"data") :: x' /\ In e (errs_at iss' (LStr ($"body") :: x')).
  Proof.
    intros schemas mx f l h q rq iss i o p n s Hs Hl Hi H U M P B V. destruct (bulk_one _ _ _ _ _ _ _ _ _ _ Hs Hl Hi H) as [v [er [D A]]].
    destruct D as [N|N M'|p' n' N _ P' B' V'|p' n' s' r js N _ P' B' V' L]; try contradiction; rewrite P in P'; injection P' as <-; rewrite (about_one _ _ _ _ B' B) in V'.
    - destruct (V' s V).
    - rewrite (serves_one _ _ _ _ V' V) in L. exists r, js. split; [exact L|]. intros e x. rewrite A. unfold below_data. destruct (loc_strip [LStr ($"data")] x) as [x'|] eqn:E.
      + apply loc_strip_spec in E as ->. split; intros [G|G]; auto; right; [exists x'; split; [reflexivity | exact G]|]. destruct G as [x2 [G1 G2]]. cbn [app] in G1. injection G1 as ->. exact G2.
      + split; [intros [G|[]]; auto|]. intros [G|[x' [-> _]]]; auto. discriminate E.
  Qed.

  (** A deletion is not looked at further, not even at what it deletes. *)
  Theorem C60_delete : forall schemas mx f l h q rq iss i o,
    Forall made schemas -> Forall callable l -> nth_error l i = Some o -> bulk_parse_request schemas (Some mx) (bulk_document f l) h q = Ok (rq, iss) ->
    k_method o = $"DELETE" -> forall e x, In e (errs_at iss (at_bulk i ++ x)) <-> bulk_fault o e x.
  Proof.
    intros schemas mx f l h q rq iss i o Hs Hl Hi H M e x. destruct (bulk_one _ _ _ _ _ _ _ _ _ _ Hs Hl Hi H) as [v [er [D A]]]. rewrite A.
    destruct D as [N|N _|p n N M' _ _ _|p n s r js N M' _ _ _ _]; try contradiction; cbn [In]; tauto.
  Qed.

  (** Nothing else is reported but that there are too many operations. *)
  Theorem C60_nothing_else : forall schemas mx f l h q rq iss e x,
    Forall made schemas -> Forall callable l -> l <> [] -> bulk_parse_request schemas (Some mx) (bulk_document f l) h q = Ok (rq, iss) -> In e (errs_at iss x) ->
    (exists i o y, nth_error l i = Some o /\ x = at_bulk i ++ y) \/ e = e_too_many_ops /\ x = [LStr ($"body"); LStr ($"Operations")].
  Proof.
    intros schemas mx f l h q rq iss e x Hs Hl Hn H I. destruct (bulk_result schemas mx f l h q rq iss (made_all _ Hs) Hl Hn H) as [outs [_ [_ [_ [_ A]]]]].
    destruct (A e x I) as [G|[-> ->]]; [left; exact G | right; auto].
  Qed.

  Lemma raw_no_data o : ~ has_key (bulk_raw o None) ($"data").
  Proof. destruct o as [m [b|] [ve|] [p|] w]; intros [k K]; discriminate K. Qed.
  Lemma raw_parts o d : holds (bulk_raw o d) ($"method") (VStr (k_method o)) /\ part (bulk_raw o d) ($"bulkId") (k_id o)
    /\ part (bulk_raw o d) ($"version") (k_version o) /\ part (bulk_raw o d) ($"path") (k_path o).
  Proof.
    destruct o as [m [b|] [ve|] [p|] w]; destruct d; (split; [held|]); (split; [|split]); cbn [part k_id k_version k_path]; first [held | intros [k K]; discriminate K].
  Qed.
  Lemma raw_data o d : holds (bulk_raw o (Some d)) ($"data") d.
  Proof. destruct o as [m [b|] [ve|] [p|] w]; held. Qed.
  Lemma doc_ops f xs : holds (bulk_doc f xs) ($"Operations") (VList xs).
  Proof. destruct f; held. Qed.

  (** When nothing is reported the parsed request keeps every operation, with the
      body of the request it stands for as its data. *)
  Theorem C61_kept : forall schemas mx f l h q rq iss,
    Forall made schemas -> Forall callable l -> l <> [] -> bulk_parse_request schemas (Some mx) (bulk_document f l) h q = Ok (rq, iss) ->
    (forall p, errs_at iss p = []) -> exists vs, holds (rq_body rq) ($"Operations") (VList vs) /\ Forall2 (carried schemas) l vs.
  Proof.
    intros schemas mx f l h q rq iss Hs Hl Hn H N. destruct (bulk_result schemas mx f l h q rq iss (made_all _ Hs) Hl Hn H) as [outs [F [B [W [A _]]]]].
    assert (B' : rq_body rq = bulk_doc f (map fst outs)).
    { rewrite B. unfold keep_body. destruct (has_issues iss []) eqn:E; [|reflexivity]. exfalso. apply (has_issues_wf _ W) in E as [x E]. apply E, N. }
    rewrite B'. exists (map fst outs). split; [apply doc_ops|].
    assert (A' : forall i o out, nth_error l i = Some o -> nth_error outs i = Some out -> (forall e x, ~ bulk_fault o e x) /\ forall x, snd out x = []).
    { intros i o out Hi Ho. split.
      - intros e x G. assert (K : In e (errs_at iss (at_bulk i ++ x))) by (apply (A i o out Hi Ho); auto). rewrite N in K. destruct K.
      - intros x. destruct (snd out x) as [|e es] eqn:E; [reflexivity|]. assert (K : In e (errs_at iss (at_bulk i ++ x))) by (apply (A i o out Hi Ho); right; rewrite E; left; reflexivity). rewrite N in K. destruct K. }
    clear - F A'. induction F as [|o out l outs D F IH]; [constructor|]. cbn [map]. constructor; [|apply IH; intros i; exact (A' (S i))].
    destruct (A' 0 o out eq_refl eq_refl) as [N1 N2]. destruct out as [v er]. cbn [fst snd] in *. clear - D N1 N2.
    destruct D as [[e U]|N M|p n N M P B V|p n s r js N M P B V L].
    - destruct (N1 e [LStr ($"path")]); destruct U as [U|U]; [exact U | destruct (N1 _ _ U)].
    - unfold bulk_left, kept. assert (K : sendsb o = false) by (unfold sendsb; rewrite M; reflexivity). rewrite K.
      destruct (raw_parts o None) as [R1 [R2 [R3 R4]]]. constructor; try assumption. left. split; [exact M | apply raw_no_data].
    - pose proof (N2 [LStr ($"path")]) as G. cbv in G. discriminate G.
    - destruct (raw_parts o (Some (rq_body r))) as [R1 [R2 [R3 R4]]]. constructor; try assumption. right. split; [exact M|]. exists n, p, s, r, js.
      do 4 (split; [assumption|]). split; [|apply raw_data]. intros x. exact (N2 (LStr ($"data") :: x)).
  Qed.
End Env.

(** Seven operations: one without bulkId and with a body that lacks the name, a
    fine one, one with the wrong kind of path, one without data, one about unknown
    resources, and deletions of a resource that is known and of one that is not. *)
Definition ex_group_data : value := dict_of [($"schemas", VList [VStr ($"urn:ietf:params:scim:schemas:core:2.0:Group")]); ($"displayName", VStr ($"ann"))].
Definition ex_nameless : value := dict_of [($"schemas", VList [VStr ($"urn:ietf:params:scim:schemas:core:2.0:Group")])].
Definition ex_bulk_ops : list bulk_op :=
  [mkBulkOp ($"POST") None None (Some ($"/Groups")) (Some ex_nameless);
   mkBulkOp ($"POST") (Some ($"a1")) None (Some ($"/Groups")) (Some ex_group_data);
   mkBulkOp ($"PUT") None (Some ($"W/1")) (Some ($"/Groups")) (Some ex_group_data);
   mkBulkOp ($"PATCH") None None (Some ($"/Groups/7")) None;
   mkBulkOp ($"GET") None None (Some ($"/Cars/7")) None;
   mkBulkOp ($"DELETE") None None (Some ($"/Groups/7")) None;
   mkBulkOp ($"DELETE") None None (Some ($"/Cars/7")) None].
Definition nth_op (i : nat) : bulk_op := nth i ex_bulk_ops (mkBulkOp [] None None None None).

Lemma word_groups : word ($"Groups").
Proof. split; [discriminate|]. repeat (constructor; [reflexivity|]). constructor. Qed.
Lemma word_cars : word ($"Cars").
Proof. split; [discriminate|]. repeat (constructor; [reflexivity|]). constructor. Qed.
Lemma groups_served : serves [group_schema] ($"Groups") group_schema.
Proof. exists [], []. split; [reflexivity|]. split; [reflexivity | constructor]. Qed.
Lemma cars_unserved s : ~ serves [group_schema] ($"Cars") s.
Proof. intros [l1 [l2 [E [P _]]]]. destruct l1 as [|x [|y l1]]; [|discriminate E|discriminate E]. injection E as E _. rewrite <- E in P. discriminate P. Qed.
Lemma usable_by o p n : k_path o = Some p -> about o n p -> (sends o -> given (k_data o)) -> ~ unusable o.
Proof.
  intros P B D [e [U|U]]; inversion U as [|H|p' H H0 H1 H2|p' H H0 H1 H2|]; subst.
  - destruct B as [[_ [_ B]]|[_ [_ [r [B _]]]]]; destruct H as [H|H]; congruence.
  - destruct B as [[_ B]|[B _]]; [|contradiction]. rewrite P in H0. injection H0 as <-. exact (H1 n B).
  - destruct B as [[B _]|[_ B]]; [contradiction|]. rewrite P in H0. injection H0 as <-. exact (H1 n B).
  - auto.
Qed.

Example ex_C60 :
  Forall made [group_schema] /\ Forall callable ex_bulk_ops
  /\ ~ unusable (nth_op 0) /\ about (nth_op 0) ($"Groups") ($"/Groups") /\ serves [group_schema] ($"Groups") group_schema /\ bulk_fault (nth_op 0) e_missing [LStr ($"bulkId")]
  /\ unusable (nth_op 2) /\ bulk_fault (nth_op 2) e_object_endpoint [LStr ($"path")] /\ unusable (nth_op 3) /\ bulk_fault (nth_op 3) e_missing [LStr ($"data")]
  /\ ~ unusable (nth_op 4) /\ about (nth_op 4) ($"Cars") ($"/Cars/7") /\ (forall s, ~ serves [group_schema] ($"Cars") s)
  /\ ~ unusable (nth_op 6) /\ about (nth_op 6) ($"Cars") ($"/Cars/7")
  /\ outcome_is (@bulk_parse_request no_env [group_schema] (Some 10%Z) (bulk_document None ex_bulk_ops) VNone VNone) (fun _ iss => map fst (i_errs iss) =
       [at_bulk 0 ++ [LStr ($"bulkId")]; at_bulk 2 ++ [LStr ($"path")]; at_bulk 3 ++ [LStr ($"data")]; at_bulk 0 ++ [LStr ($"data"); LStr ($"displayName")]; at_bulk 4 ++ [LStr ($"path")]]).
Proof.
  split; [constructor; [exact group_made | constructor]|].
  split; [repeat (constructor; [split; [vm_compute; intuition congruence | discriminate]|]); constructor|].
  assert (A0 : about (nth_op 0) ($"Groups") ($"/Groups")) by (left; split; [reflexivity|]; split; [exact word_groups | reflexivity]).
  assert (A4 : about (nth_op 4) ($"Cars") ($"/Cars/7")) by (right; split; [discriminate|]; split; [exact word_cars | exists ($"7"); split; [reflexivity | vm_compute; intuition discriminate]]).
  assert (A6 : about (nth_op 6) ($"Cars") ($"/Cars/7")) by (right; split; [discriminate|]; split; [exact word_cars | exists ($"7"); split; [reflexivity | vm_compute; intuition discriminate]]).
  split; [eapply usable_by; [reflexivity | exact A0 | intros _; eexists; repeat split; discriminate]|]. split; [exact A0|]. split; [exact groups_served|].
  split; [apply post_without_id; reflexivity|].
  assert (B2 : bulk_fault (nth_op 2) e_object_endpoint [LStr ($"path")]).
  { apply (no_object_path _ ($"/Groups")); [discriminate | reflexivity|]. intros n [[_ Hn] [r [E _]]]. assert (E' : $"Groups" = n ++ slash_ :: r) by exact (f_equal (@tl ascii) E).
    assert (I : In slash_ ($"Groups")) by (rewrite E'; apply in_or_app; right; left; reflexivity). vm_compute in I. intuition discriminate. }
  assert (B3 : bulk_fault (nth_op 3) e_missing [LStr ($"data")]).
  { apply without_data; [right; right; left; reflexivity|]. intros [v [G _]]. discriminate G. }
  split; [eexists; left; exact B2|]. split; [exact B2|]. split; [eexists; right; exact B3|]. split; [exact B3|].
  split; [eapply usable_by; [reflexivity | exact A4 | intros G; vm_compute in G; intuition discriminate]|]. split; [exact A4|]. split; [exact cars_unserved|].
  split; [eapply usable_by; [reflexivity | exact A6 | intros G; vm_compute in G; intuition discriminate]|]. split; [exact A6|].
  vm_compute. reflexivity.
Qed.

(** Accepted operations: the read-only parts of a replacement are dropped, a fetched
    resource gets the value "missing" as data. *)
Definition ex_replacement : value := dict_of [($"schemas", VList [VStr ($"urn:ietf:params:scim:schemas:core:2.0:Group")]); ($"id", VStr ($"7")); ($"displayName", VStr ($"ann"))].
Definition ex_accepted : list bulk_op :=
  [nth_op 1; mkBulkOp ($"PUT") None (Some ($"W/1")) (Some ($"/Groups/7")) (Some ex_replacement); mkBulkOp ($"GET") None None (Some ($"/Groups/7")) None; nth_op 6].
Example ex_C61 : Forall callable ex_accepted
  /\ outcome_is (@bulk_parse_request no_env [group_schema] (Some 10%Z) (bulk_document (Some 1%Z) ex_accepted) VNone VNone) (fun rq iss => i_errs iss = []
       /\ map (fun v => get_item v (mkRep [] ($"data") [] false)) (ops_of (rq_body rq)) = [Ok (mk_cont ex_group_data); Ok (mk_cont (dict_of [($"displayName", VStr ($"ann"))])); Ok VMissing; Ok VMissing]
       /\ map (fun v => match v with VCont d _ => map fst d | _ => [] end) (ops_of (rq_body rq))
          = [[$"method"; $"bulkId"; $"path"; $"data"]; [$"method"; $"version"; $"path"; $"data"]; [$"method"; $"path"; $"data"]; [$"method"; $"path"]]).
Proof.
  split; [repeat (constructor; [split; [vm_compute; intuition congruence | discriminate]|]); constructor|]. vm_compute. split; [reflexivity|]. split; [|reflexivity]. reflexivity.
Qed.

Print Assumptions C60_faults.
Print Assumptions C60_unknown.
Print Assumptions C60_like_alone.
Print Assumptions C60_delete.
Print Assumptions C60_nothing_else.
Print Assumptions C61_kept.
Print Assumptions ex_C60.
Print Assumptions ex_C61.
