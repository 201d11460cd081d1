(** Properties C65 and C66: the operations of bulk responses. *)
From Coq Require Import Lia.
From Verif Require Import PyBase BaseFacts PyNum Issues IssuesSpec IssuesFacts AttrRep AttrRepSpec Value Container ContainerSpec
  Types Attr Schema Assets Presence Match FilterParse Path Sort Patch ListResp Search Bulk Requests
  AttrSpec SchemaSpec PropAttr PropSchema PatchSpec PatchFacts RequestSpec ListSpec RequestFacts MsgFacts PropRequest ListFacts PropList BulkSpec BulkFacts PropBulk BulkOpSpec BulkOpFacts PropBulkOp
  BulkRespSpec BulkRespFacts BulkRespLoop.

Section Env.
  Context {env : PyEnv}.

  Lemma ends_one o z z' : ends o z -> ends o z' -> z = z'.
  Proof. intros [t [H1 H2]] [t' [H3 H4]]. rewrite H1 in H3. injection H3 as <-. rewrite H2 in H4. injection H4 as <-. reflexivity. Qed.
  Lemma says_one o r r' : says o r -> says o r' -> r = r'.
  Proof. intros [v [H1 [-> _]]] [v' [H3 [-> _]]]. rewrite H1 in H3. injection H3 as <-. reflexivity. Qed.
  Lemma judges_one schemas t s s' : told_apart schemas -> judges schemas t s -> judges schemas t s' -> s = s'.
  Proof.
    intros Hd H1 H2. destruct (locate (validators schemas) t None) as [v b] eqn:E. destruct (locate_judges schemas t v b Hd E) as [_ [L _]].
    apply L in H1. apply L in H2. rewrite H1 in H2. injection H2 as <-. reflexivity.
  Qed.

  Lemma answer_one schemas st mx l h rs iss i o : Forall made schemas -> told_apart schemas -> Forall well_put l -> nth_error l i = Some o -> bulk_dump_response schemas st (answers_document l) h mx = Ok (rs, iss) ->
    exists v R, replied schemas o v R /\ forall e x, In e (errs_at iss (at_bulk i ++ x)) <-> answer_fault o e x \/ R e x.
  Proof.
    intros Hs Hd Hl Hi H. destruct (answer_result schemas st mx l h rs iss (made_all _ Hs) Hd Hl (not_nil_nth _ _ _ Hi) H) as [outs [F [_ [_ [A _]]]]].
    destruct (two_same _ _ _ _ _ F Hi) as [[v R] [Ho D]]. exists v, R. split; [exact D|]. exact (A i o (v, R) Hi Ho).
  Qed.

  (** About an operation without a response to look at, exactly its faults and an
      unknown location are reported. *)
  Theorem C65_quiet : forall schemas st mx l h rs iss i o,
    Forall made schemas -> told_apart schemas -> Forall well_put l -> nth_error l i = Some o -> bulk_dump_response schemas st (answers_document l) h mx = Ok (rs, iss) ->
    (forall z r, ends o z -> says o r -> (z < 300)%Z /\ t_location o = None) ->
    forall e x, In e (errs_at iss (at_bulk i ++ x)) <-> answer_fault o e x \/ astray schemas o e x.
  Proof.
    intros schemas st mx l h rs iss i o Hs Hd Hl Hi H Q e x. destruct (answer_one _ _ _ _ _ _ _ _ _ Hs Hd Hl Hi H) as [v [R [D A]]]. rewrite A.
    destruct D as [_|z r rs' iss' E S L _|z r t s rs' iss' R E S L T _ _ _]; [reflexivity| |]; destruct (Q z r E S) as [Q1 Q2]; [lia | congruence].
  Qed.

  (** About one that failed and says why, also what an error message of its own
      would be reproached with. *)
  Theorem C65_failed : forall schemas st mx l h rs iss i o z r,
    Forall made schemas -> told_apart schemas -> Forall well_put l -> nth_error l i = Some o -> bulk_dump_response schemas st (answers_document l) h mx = Ok (rs, iss) ->
    ends o z -> (300 <= z)%Z -> says o r ->
    exists rs' iss', error_dump z r VNone = Ok (rs', iss') /\
      forall e x, In e (errs_at iss (at_bulk i ++ x)) <-> answer_fault o e x \/ astray schemas o e x \/ said_wrongly iss' e x.
  Proof.
    intros schemas st mx l h rs iss i o z r Hs Hd Hl Hi H E L S. destruct (answer_one _ _ _ _ _ _ _ _ _ Hs Hd Hl Hi H) as [v [R [D A]]].
    destruct D as [Q|z' r' rs' iss' E' S' L' Er|z' r' t s rs' iss' R E' _ L' _ _ _ _].
    - destruct (Q z r E S) as [Q1 _]. lia.
    - rewrite <- (ends_one _ _ _ E E'), <- (says_one _ _ _ S S') in Er. exists rs', iss'. split; [exact Er | exact A].
    - rewrite <- (ends_one _ _ _ E E') in L'. lia.
  Qed.

  (** About one that succeeded, what is reported about the response it stands for,
      below its response; a location or a version that is not the operation's is
      reported for both places. *)
  Theorem C65_like_alone_partial : forall schemas st mx l h rs iss i o z r t s,
    Forall made schemas -> told_apart schemas -> Forall well_put l -> nth_error l i = Some o -> bulk_dump_response schemas st (answers_document l) h mx = Ok (rs, iss) ->
    ends o z -> (z < 300)%Z -> says o r -> t_location o = Some t -> judges schemas t s ->
    exists rs' iss', sent_alone s o z t r rs' iss' /\
      forall e x, (x = in_response at_meta_location -> no_adjacent 11%N (errs_at iss' (at_body at_meta_location))) ->
        (In e (errs_at iss (at_bulk i ++ x)) <-> answer_fault o e x \/ astray schemas o e x \/ passed_on iss' e x \/ displaced iss' e x \/ outdated o rs' iss' e x).
  Proof.
    intros schemas st mx l h rs iss i o z r t s Hs Hd Hl Hi H E L S T J. destruct (answer_one _ _ _ _ _ _ _ _ _ Hs Hd Hl Hi H) as [v [R [D A]]].
    destruct D as [Q|z' r' rs' iss' E' S' L' Er|z' r' t' s' rs' iss' R E' S' L' T' J' Al Ch].
    - destruct (Q z r E S) as [_ [G|G]]; [congruence|]. exfalso. destruct J as [l1 x l2 G' _ _|l1 x G' _]; rewrite G in G'; destruct l1; discriminate G'.
    - rewrite <- (ends_one _ _ _ E E') in L'. lia.
    - assert (t' = t) as -> by (rewrite T in T'; injection T'; auto). rewrite <- (ends_one _ _ _ E E'), <- (says_one _ _ _ S S'), <- (judges_one _ _ _ _ Hd J J') in Al.
      exists rs', iss'. split; [exact Al|]. intros e x Hx. rewrite A, (Ch e x Hx). reflexivity.
  Qed.

  (** Nothing else is reported but that too many operations failed and that the
      response has the wrong status. *)
  Theorem C65_nothing_else : forall schemas st mx l h rs iss e x,
    Forall made schemas -> told_apart schemas -> Forall well_put l -> l <> [] -> bulk_dump_response schemas st (answers_document l) h mx = Ok (rs, iss) -> In e (errs_at iss x) ->
    (exists i o y, nth_error l i = Some o /\ x = at_bulk i ++ y) \/ e = e_too_many_errors /\ x = [LStr ($"body"); LStr ($"Operations")] \/ e = e_bad_status /\ x = [LStr ($"status")] /\ st <> 200%Z.
  Proof.
    intros schemas st mx l h rs iss e x Hs Hd Hl Hn H I. destruct (answer_result schemas st mx l h rs iss (made_all _ Hs) Hd Hl Hn H) as [outs [_ [_ [_ [_ A]]]]].
    destruct (A e x I) as [G|[[-> ->]|[-> [-> G]]]]; [left; exact G | right; left; auto | right; right; auto].
  Qed.

  Lemma raw_no_response o : ~ has_key (answer_raw o None) ($"response").
  Proof. destruct o as [m [b|] [ve|] [p|] [z|] w]; intros [k K]; discriminate K. Qed.
  Lemma answer_parts o d : holds (answer_raw o d) ($"method") (VStr (t_method o)) /\ part (answer_raw o d) ($"bulkId") (t_id o)
    /\ part (answer_raw o d) ($"version") (t_version o) /\ part (answer_raw o d) ($"location") (t_location o) /\ part (answer_raw o d) ($"status") (t_status o).
  Proof.
    destruct o as [m [b|] [ve|] [p|] [z|] w]; destruct d; (split; [held|]); (split; [|split; [|split]]); cbn [part t_id t_version t_location t_status]; first [held | intros [k K]; discriminate K].
  Qed.
  Lemma raw_response o d : holds (answer_raw o (Some d)) ($"response") d.
  Proof. destruct o as [m [b|] [ve|] [p|] [z|] w]; held. Qed.

  (** When nothing is reported the dumped response keeps every operation, with the
      body of the response it stands for as its response. *)
  Theorem C66_kept : forall schemas st mx l h rs iss,
    Forall made schemas -> told_apart schemas -> Forall well_put l -> l <> [] -> bulk_dump_response schemas st (answers_document l) h mx = Ok (rs, iss) ->
    (forall p, errs_at iss p = []) -> exists vs, holds (rs_body rs) ($"Operations") (VList vs) /\ Forall2 (answer_kept schemas) l vs.
  Proof.
    intros schemas st mx l h rs iss Hs Hd Hl Hn H N. destruct (answer_result schemas st mx l h rs iss (made_all _ Hs) Hd Hl Hn H) as [outs [F [B [W [A _]]]]].
    assert (B' : rs_body rs = answers_doc (map fst outs)).
    { rewrite B. unfold keep_body. destruct (has_issues iss []) eqn:E; [|reflexivity]. exfalso. apply (has_issues_wf _ W) in E as [x E]. apply E, N. }
    rewrite B'. exists (map fst outs). split; [held|].
    assert (A' : forall i o out, nth_error l i = Some o -> nth_error outs i = Some out -> forall e x, ~ (snd out : error -> loc -> Prop) e x).
    { intros i o out Hi Ho e x G. assert (K : In e (errs_at iss (at_bulk i ++ x))) by (apply (A i o out Hi Ho); auto). rewrite N in K. destruct K. }
    clear - F A'. induction F as [|o out l outs D F IH]; [constructor|]. cbn [map]. constructor; [|apply IH; intros i; exact (A' (S i))].
    pose proof (A' 0 o out eq_refl eq_refl) as N. destruct out as [v R]. cbn [fst snd] in *. clear - D N.
    destruct D as [Q|z r rs iss E S L Er|z r t s rs iss R E S L T J Al Ch].
    - unfold answer_left. destruct (answer_parts o (answered o)) as [R1 [R2 [R3 [R4 R5]]]]. constructor; try assumption. unfold answered. destruct (t_response o) as [x|] eqn:Er; cbn [option_map].
      + apply (kept_as_given _ _ _ x Er Q). apply raw_response.
      + apply kept_none; [exact Er | apply raw_no_response].
    - destruct (answer_parts o (Some (rs_body rs))) as [R1 [R2 [R3 [R4 R5]]]]. constructor; try assumption. apply (kept_error _ _ _ z r rs iss); try assumption; [|apply raw_response].
      intros p. destruct (errs_at iss (at_body p)) as [|e es] eqn:Ep; [reflexivity|]. exfalso. apply (N e (in_response p)). right. apply wrong_body. rewrite Ep. left. reflexivity.
    - destruct (answer_parts o (Some (body_kept rs))) as [R1 [R2 [R3 [R4 R5]]]]. constructor; try assumption. apply (kept_resource _ _ _ z r t s rs iss); try assumption; [|apply raw_response].
      intros p Np. destruct (errs_at iss (at_body p)) as [|e es] eqn:Ep; [reflexivity|]. exfalso. apply (N e (in_response p)). apply Ch; [intros G; exfalso; apply Np; injection G as ->; reflexivity|].
      right. left. apply passed; [rewrite Ep; left; reflexivity | intros [G _]; contradiction].
  Qed.
End Env.

(** Six operations: a creation without bulkId and location, a failure about unknown
    resources whose message tells another status, a resource that is elsewhere, one
    with another version, one without a name, and a deletion. *)
Definition ex_versioned (w : str) : value :=
  ex_a_group [VStr group_uri] [($"id", VStr ($"1")); ($"meta", dict_of [($"resourceType", VStr ($"Group")); ($"location", VStr ($"https://x/Groups/1")); ($"version", VStr w)])].
Definition ex_unnamed : value :=
  dict_of [($"schemas", VList [VStr group_uri]); ($"id", VStr ($"1")); ($"meta", dict_of [($"resourceType", VStr ($"Group")); ($"location", VStr ($"https://x/Groups/1"))])].
Definition ex_answers : list bulk_answer :=
  [mkAnswer ($"POST") None None None (Some ($"201")) None;
   mkAnswer ($"GET") None None (Some ($"https://x/Cars/2")) (Some ($"404")) (Some (ex_error ($"405")));
   mkAnswer ($"PUT") None None (Some ($"https://x/Groups/2")) (Some ($"200")) (Some ex_created);
   mkAnswer ($"PUT") None (Some ($"W/1")) (Some ($"https://x/Groups/1")) (Some ($"200")) (Some (ex_versioned ($"W/2")));
   mkAnswer ($"GET") None None (Some ($"https://x/Groups/1")) (Some ($"200")) (Some ex_unnamed);
   mkAnswer ($"DELETE") None None (Some ($"https://x/Groups/1")) (Some ($"204")) None].
Definition nth_answer (i : nat) : bulk_answer := nth i ex_answers (mkAnswer [] None None None None None).
Definition ex_served : list schema := [user_schema; group_schema].
Lemma served_made : Forall made ex_served.
Proof. constructor; [exact user_made | constructor; [exact group_made | constructor]]. Qed.
Lemma served_apart : told_apart ex_served.
Proof. constructor; [vm_compute; intuition discriminate | constructor; [intros [] | constructor]]. Qed.
Ltac putting := apply (@mkWellPut no_env); [vm_compute; tauto | let E := fresh in intros ? E; first [discriminate E | split; [intros ->; discriminate E | reflexivity]]
  | let E := fresh in intros ? E; first [discriminate E | apply (f_equal (fun o => match o with Some x => x | None => [] end)) in E; cbn [t_status] in E; subst; eexists; vm_compute; reflexivity] | discriminate].
Lemma ends_by o t z : t_status o = Some t -> py_int (VStr t) = Ok z -> ends o z.
Proof. intros H1 H2. exists t. auto. Qed.
Lemma unnamed_by schemas t : forallb (fun s => negb (contains t ("/"%char :: sc_plural s ++ ["/"%char]))) schemas = true -> names_none schemas t.
Proof. intros H. apply Forall_forall. intros s I G. rewrite forallb_forall in H. specialize (H s I). apply names_iff in G. unfold slash in G. rewrite G in H. discriminate H. Qed.
Lemma group_judges a b : contains (a ++ ("/"%char :: $"Groups" ++ ["/"%char]) ++ b) ($"/Users/") = false -> judges ex_served (a ++ ("/"%char :: $"Groups" ++ ["/"%char]) ++ b) group_schema.
Proof. intros H. apply (judge_named _ _ [user_schema] group_schema []); [reflexivity | exists a, b; reflexivity|]. apply unnamed_by. cbn [forallb]. change (sc_plural user_schema) with ($"Users"). change ("/"%char :: $"Users" ++ ["/"%char]) with ($"/Users/"). rewrite H. reflexivity. Qed.
Lemma cars_named_none : names_none ex_served ($"https://x/Cars/2").
Proof. apply unnamed_by. vm_compute. reflexivity. Qed.

Example ex_C65 :
  Forall made ex_served /\ told_apart ex_served /\ Forall (@well_put no_env) ex_answers
  /\ answer_fault (nth_answer 0) e_missing [LStr ($"bulkId")] /\ answer_fault (nth_answer 0) e_missing [LStr ($"location")]
  /\ (forall z r, ends (nth_answer 0) z -> says (nth_answer 0) r -> (z < 300)%Z /\ t_location (nth_answer 0) = None)
  /\ ends (nth_answer 1) 404%Z /\ (exists r, says (nth_answer 1) r) /\ astray ex_served (nth_answer 1) e_unknown_resource [LStr ($"location")]
  /\ ends (nth_answer 2) 200%Z /\ (exists r, says (nth_answer 2) r) /\ judges ex_served ($"https://x/Groups/2") group_schema
  /\ ends (nth_answer 3) 200%Z /\ (exists r, says (nth_answer 3) r) /\ judges ex_served ($"https://x/Groups/1") group_schema
  /\ outcome_is (@bulk_dump_response no_env ex_served 201 (answers_document ex_answers) VNone (Some 0%Z)) (fun _ iss => map fst (i_errs iss) =
       [at_bulk 0 ++ [LStr ($"bulkId")]; at_bulk 0 ++ [LStr ($"location")]; [LStr ($"status")]; at_bulk 1 ++ [LStr ($"location")];
        at_bulk 1 ++ [LStr ($"response"); LStr ($"status")]; at_bulk 1 ++ [LStr ($"status")];
        at_bulk 2 ++ [LStr ($"response"); LStr ($"meta"); LStr ($"location")]; at_bulk 2 ++ [LStr ($"location")];
        at_bulk 3 ++ [LStr ($"response"); LStr ($"meta"); LStr ($"version")]; at_bulk 3 ++ [LStr ($"version")];
        at_bulk 4 ++ [LStr ($"response"); LStr ($"displayName")]; at_body [LStr ($"Operations")]]).
Proof.
  split; [exact served_made|]. split; [exact served_apart|]. split; [unfold ex_answers; repeat (constructor; [putting|]); constructor|].
  assert (E0 : ends (nth_answer 0) 201%Z) by (apply (ends_by _ ($"201")); [reflexivity | vm_compute; reflexivity]).
  split; [apply answer_without_id; reflexivity|]. split; [apply (answer_without_location _ 201%Z E0); [reflexivity | intros [_ G]; vm_compute in G; apply G; reflexivity]|].
  split; [intros z r _ [v [G _]]; discriminate G|]. split; [apply (ends_by _ ($"404")); [reflexivity | vm_compute; reflexivity]|].
  split; [eexists; eexists; split; [reflexivity|]; split; reflexivity|]. split; [apply (astray_at _ _ ($"https://x/Cars/2")); [reflexivity | exact cars_named_none]|].
  split; [apply (ends_by _ ($"200")); [reflexivity | vm_compute; reflexivity]|]. split; [eexists; eexists; split; [reflexivity|]; split; reflexivity|].
  split; [exact (group_judges ($"https://x") ($"2") eq_refl)|].
  split; [apply (ends_by _ ($"200")); [reflexivity | vm_compute; reflexivity]|]. split; [eexists; eexists; split; [reflexivity|]; split; reflexivity|].
  split; [exact (group_judges ($"https://x") ($"1") eq_refl)|].
  vm_compute. reflexivity.
Qed.

(** Accepted operations. *)
Definition ex_fine : list bulk_answer :=
  [mkAnswer ($"POST") (Some ($"a1")) (Some ($"W/2")) (Some ($"https://x/Groups/1")) (Some ($"201")) (Some (ex_versioned ($"W/2")));
   mkAnswer ($"GET") None None (Some ($"https://x/Groups/2")) (Some ($"404")) (Some (ex_error ($"404")));
   mkAnswer ($"DELETE") None None (Some ($"https://x/Groups/1")) (Some ($"204")) None].
Example ex_C66 : Forall (@well_put no_env) ex_fine
  /\ outcome_is (@bulk_dump_response no_env ex_served 200 (answers_document ex_fine) VNone (Some 1%Z)) (fun rs iss => i_errs iss = []
       /\ map (fun v => get_item_str v ($"response.displayName")) (ops_of (rs_body rs)) = [Ok (VStr ($"tour guides")); Ok VMissing; Ok VMissing]
       /\ map (fun v => get_item_str v ($"response")) (skipn 1 (ops_of (rs_body rs))) = [Ok (ex_error ($"404")); Ok VMissing]).
Proof. split; [unfold ex_fine; repeat (constructor; [putting|]); constructor|]. vm_compute. repeat split; reflexivity. Qed.

(** The full claims, that an operation is reported like the response it stands for
    and that what is accepted is kept, are false.  A creation with the status 200
    is reported as a response of its own (C55), but not as an operation, and its
    response is dropped: the dumped operation has none. *)
Definition ex_ok_post : bulk_answer := mkAnswer ($"POST") (Some ($"a1")) None (Some ($"https://x/Groups/1")) (Some ($"200")) (Some ex_created).
Theorem C66_dropped_refuted : exists env schemas o rs,
  Forall made schemas /\ told_apart schemas /\ @well_put env o /\ (exists r, says o r) /\
  @bulk_dump_response env schemas 200 (answers_document [o]) VNone None = Ok (rs, no_issues) /\
  (exists v, ops_of (rs_body rs) = [v] /\ get_item_str v ($"response") = Ok VNone) /\
  outcome_is (@post_dump env group_schema 200 ex_created (located_at ($"https://x/Groups/1")) None) (fun _ iss => errs_at iss [LStr ($"status")] = [e_bad_status]).
Proof.
  assert (G : outcome_is (@bulk_dump_response no_env ex_served 200 (answers_document [ex_ok_post]) VNone None) (fun rs iss => iss = no_issues /\ match ops_of (rs_body rs) with [v] => get_item_str v ($"response") = Ok VNone | _ => False end)).
  { vm_compute. split; reflexivity. }
  destruct (@bulk_dump_response no_env ex_served 200 (answers_document [ex_ok_post]) VNone None) as [[rs iss]|x] eqn:E; [|contradiction]. destruct G as [-> G].
  exists no_env, ex_served, ex_ok_post, rs. split; [exact served_made|]. split; [exact served_apart|]. split; [putting|]. split; [eexists; eexists; split; [reflexivity|]; split; reflexivity|].
  split; [exact E|]. split; [|vm_compute; reflexivity].
  destruct (ops_of (rs_body rs)) as [|v [|? ?]]; [destruct G | exists v; split; [reflexivity | exact G] | destruct G].
Qed.

(** A deletion with a response makes the dump fail. *)
Definition ex_told_delete : bulk_answer := mkAnswer ($"DELETE") None None (Some ($"https://x/Groups/1")) (Some ($"200")) (Some ex_created).
Theorem C65_delete_refuted : exists env schemas o,
  Forall made schemas /\ told_apart schemas /\ @well_put env o /\ (forall e x, ~ answer_fault o e x) /\ exists er, @bulk_dump_response env schemas 200 (answers_document [o]) VNone None = Raise er.
Proof.
  exists no_env, ex_served, ex_told_delete. split; [exact served_made|]. split; [exact served_apart|]. split; [putting|].
  split; [|eexists; vm_compute; reflexivity]. intros e x [G _|G|z _ G _|z _ G _]; try discriminate G. apply G. eexists. split; [reflexivity|]. split; discriminate.
Qed.

(** A response at an unknown location is judged by the last schema: a user that is
    fine is reproached with not being a group. *)
Definition ex_lost : bulk_answer := mkAnswer ($"GET") None None (Some ($"https://x/Cars/2")) (Some ($"200")) (Some (ex_user [VStr user_uri] [])).
Theorem C65_unknown_refuted : exists env schemas o t,
  Forall made schemas /\ told_apart schemas /\ @well_put env o /\ t_location o = Some t /\ names_none schemas t /\
  outcome_is (@bulk_dump_response env schemas 200 (answers_document [o]) VNone None) (fun _ iss => In e_missing (errs_at iss (at_bulk 0 ++ [LStr ($"response"); LStr ($"displayName")]))).
Proof.
  exists no_env, ex_served, ex_lost, ($"https://x/Cars/2"). split; [exact served_made|]. split; [exact served_apart|]. split; [putting|]. split; [reflexivity|]. split; [exact cars_named_none|].
  vm_compute. left. reflexivity.
Qed.

(** A status that is no number hides the faults of all other operations. *)
Definition ex_odd : bulk_answer := mkAnswer ($"GET") None None (Some ($"https://x/Groups/2")) (Some ($"none")) None.
Theorem C65_hidden_refuted : exists env schemas o o',
  Forall made schemas /\ told_apart schemas /\ @well_put env o /\ answer_fault o e_missing [LStr ($"bulkId")] /\
  outcome_is (@bulk_dump_response env schemas 200 (answers_document [o; o']) VNone None) (fun _ iss => forall x, errs_at iss (at_bulk 0 ++ x) = []).
Proof.
  exists no_env, ex_served, (nth_answer 0), ex_odd. split; [exact served_made|]. split; [exact served_apart|]. split; [unfold nth_answer, nth, ex_answers; putting|]. split; [apply answer_without_id; reflexivity|].
  assert (G : outcome_is (@bulk_dump_response no_env ex_served 200 (answers_document [nth_answer 0; ex_odd]) VNone None) (fun _ iss => map fst (i_errs iss) = [at_bulk 1 ++ [LStr ($"status")]])) by (vm_compute; reflexivity).
  destruct (@bulk_dump_response no_env ex_served 200 (answers_document [nth_answer 0; ex_odd]) VNone None) as [[rs iss]|x]; [|contradiction]. cbn [outcome_is] in *. intros x.
  unfold errs_at. destruct (lget (at_bulk 0 ++ x) (i_errs iss)) as [es|] eqn:E; [|reflexivity]. exfalso. assert (I : In (at_bulk 0 ++ x) (map fst (i_errs iss))) by (apply (aget_Some_key _ loc_eqb_eq); exists es; exact E). rewrite G in I. clear E. rename I into E. destruct E as [E|[]]. discriminate E.
Qed.

Print Assumptions C65_quiet.
Print Assumptions C65_failed.
Print Assumptions C65_like_alone_partial.
Print Assumptions C65_nothing_else.
Print Assumptions C66_kept.
Print Assumptions ex_C65.
Print Assumptions ex_C66.
Print Assumptions C66_dropped_refuted.
Print Assumptions C65_delete_refuted.
Print Assumptions C65_unknown_refuted.
Print Assumptions C65_hidden_refuted.
