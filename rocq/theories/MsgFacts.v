(** The message schemas are put together soundly. *)
From Verif Require Import PyBase BaseFacts PyNum Issues IssuesSpec IssuesFacts AttrRep AttrRepSpec Value Container ContainerSpec ContainerFacts ContainerRW AttrRepFacts ValueFacts
  Types Attr Schema Assets Presence Match FilterParse Path Sort Patch ListResp Search Bulk Requests
  AttrSpec AttrFacts AttrItems SchemaSpec SchemaFacts SchemaBuild PropAttr PropSchema PatchSpec PatchFacts.

Lemma report_iss_of l : report (iss_of l).
Proof.
  unfold iss_of. assert (G : forall i, report i -> report (fold_left (fun i e => add_issue i e false []) l i)); [|apply G; constructor].
  induction l as [|e t IH]; intros i Hi; [exact Hi|]. cbn [fold_left]. apply IH, report_add, Hi.
Qed.
Lemma report_add_if b e p l i : report i -> report (add_if b e p l i).
Proof. destruct b; [apply report_add | auto]. Qed.

Lemma filter_parser_reporting : reporting filter_parser.
Proof.
  intros v w iss H. destruct v; try discriminate. cbn [filter_parser] in H. unfold parse_filter in H. apply bind_ok in H as [[o errs] [_ H]].
  destruct errs; injection H as _ <-; [constructor | apply report_iss_of].
Qed.
Lemma parse_path_report s w iss : parse_path s = Ok (w, iss) -> report iss.
Proof.
  intros H. unfold parse_path in H. destruct (mask_strings s) as [t d]. destruct (bad_brackets t); [injection H as _ <-; apply report_iss_of|]. destruct (Nat.ltb _ _).
  - unfold parse_complex_path in H. apply bind_ok in H as [[o errs] [_ H]]. destruct errs; [|injection H as _ <-; apply report_iss_of].
    destruct (skipn _ _).
    + apply bind_ok in H as [r [_ H]]. apply bind_ok in H as [p [_ H]]. injection H as _ <-. constructor.
    + apply bind_ok in H as [r [_ H]]. apply bind_ok in H as [[p|e] [_ H]]; [apply bind_ok in H as [q [_ H]]|]; injection H as _ <-; [constructor | apply report_iss_of].
  - destruct (parse_rep _); [apply bind_ok in H as [q [_ H]]|]; injection H as _ <-; [constructor | apply report_iss_of].
Qed.
Lemma path_parser_reporting : reporting path_parser.
Proof. intros v w iss H. destruct v; try discriminate. exact (parse_path_report _ _ _ H). Qed.
Lemma attr_rep_reporting : reporting parse_attr_rep.
Proof. intros v w iss H. destruct v; try discriminate. cbn [parse_attr_rep] in H. destruct (parse_rep s); injection H as _ <-; repeat constructor. Qed.
Lemma attr_rep_multi_reporting : reporting parse_attr_rep_multi.
Proof.
  intros v w iss H. unfold parse_attr_rep_multi in H. apply bind_ok in H as [l [_ H]]. apply bind_ok in H as [[l' i] [Hf H]]. injection H as _ <-.
  assert (G : (fun st => report (snd st)) (l', i)); [|exact G]. revert Hf. apply (foldM_inv _ (fun st => report (snd st))); [|constructor]. intros [a b] e [a' b'] _ Hb E. cbn [fst snd] in *.
  apply bind_ok in E as [[x js] [E1 E]]. injection E as _ <-. apply report_merge; [exact Hb | exact (attr_rep_reporting _ _ _ E1)].
Qed.
Lemma error_status_reporting : reporting parse_error_status.
Proof.
  intros v w iss H. unfold parse_error_status in H. destruct (py_int v) as [z|[]]; try discriminate; injection H as _ <-; [destruct (_ && _)|]; repeat constructor.
Qed.
Lemma status_reporting : reporting validate_status.
Proof. intros v w iss H. unfold validate_status in H. destruct (py_int v) as [z|[]]; try discriminate; injection H as _ <-; repeat constructor. Qed.
Lemma each_reporting f : (forall i c iss c' iss', report iss -> f i c iss = Ok (c', iss') -> report iss') -> reporting (each_operation f).
Proof.
  intros Hf v w iss H. unfold each_operation in H. apply bind_ok in H as [l [_ H]]. apply bind_ok in H as [[l' i] [Hl H]]. injection H as _ <-.
  assert (G : (fun st => report (snd st)) (l', i)); [|exact G]. revert Hl. apply (foldM_inv _ (fun st => report (snd st))); [|constructor]. intros [a b] e [a' b'] _ Hb E. cbn [fst snd] in *.
  apply bind_ok in E as [[x js] [E1 E]]. injection E as _ <-. exact (Hf _ _ _ _ _ Hb E1).
Qed.
Lemma validate_operations_reporting : reporting validate_operations.
Proof.
  apply (each_reporting validate_operation). intros i c iss c' iss' Hi H. unfold validate_operation in H.
  apply bind_ok in H as [t [_ H]]. apply bind_ok in H as [p [_ H]]. apply bind_ok in H as [v [_ H]]. destruct (_ && _).
  - apply bind_ok in H as [c2 [_ H]]. injection H as _ <-. apply report_add, Hi.
  - destruct (str_is _ _); [|injection H as _ <-; exact Hi].
    assert (G : report (if is_none_or_missing v then add_issue iss e_missing false [LIdx i; LStr ($"value")] else iss)) by (destruct (is_none_or_missing v); [apply report_add|]; exact Hi).
    destruct (truthy p); [|injection H as _ <-; exact G]. destruct p; try discriminate. injection H as _ <-. destruct (p_filter p), (p_sub p); try exact G. apply report_add, G.
Qed.
Lemma request_operations_reporting : reporting validate_request_operations.
Proof.
  apply each_reporting. intros i c iss c' iss' Hi H. unfold validate_request_operation in H.
  apply bind_ok in H as [m [_ H]]. apply bind_ok in H as [b [_ H]]. apply bind_ok in H as [c2 [_ H]]. apply bind_ok in H as [p [_ H]]. apply bind_ok in H as [j [Hj H]]. apply bind_ok in H as [d [_ H]].
  injection H as _ <-. apply report_add_if.
  assert (G : report (add_if (str_is m ($"POST") && is_none_or_missing b) e_missing false (sub_loc i b_id) (add_if (is_none_or_missing m) e_missing false (sub_loc i b_method) iss))) by (repeat apply report_add_if; exact Hi).
  destruct (is_none_or_missing p); [injection Hj as <-; apply report_add, G|].
  destruct (str_is _ _); [|destruct (str_in _ _); [|injection Hj as <-; exact G]]; apply bind_ok in Hj as [x [_ Hj]]; injection Hj as <-; apply report_add_if, G.
Qed.
Lemma response_operations_reporting : reporting validate_response_operations.
Proof.
  apply each_reporting. intros i c iss c' iss' Hi H. unfold validate_response_operation in H.
  apply bind_ok in H as [m [_ H]]. apply bind_ok in H as [b [_ H]]. apply bind_ok in H as [s [_ H]]. apply bind_ok in H as [j [Hj H]].
  injection H as _ <-.
  assert (G : report (add_if (str_is m ($"POST") && is_none_or_missing b) e_missing false (sub_loc i b_id) (add_if (is_none_or_missing m) e_missing false (sub_loc i b_method) iss))) by (repeat apply report_add_if; exact Hi).
  destruct (truthy s).
  - apply bind_ok in Hj as [lo [_ Hj]]. apply bind_ok in Hj as [nl [_ Hj]]. apply bind_ok in Hj as [re [_ Hj]]. apply bind_ok in Hj as [nr [_ Hj]]. injection Hj as <-. repeat apply report_add_if. exact Hi.
  - injection Hj as <-. apply report_add_if, G.
Qed.

Lemma procs_neat i : Forall reporting (a_parsers i) -> Forall reporting (a_dumpers i) -> plain_rep (a_rep i) ->
  sound_attr (mk_simple i) /\ plain_rep (arep (mk_simple i)) /\ distinct_names (sub_attrs (mk_simple i)).
Proof. intros H1 H2 H3. split; [constructor; assumption|]. split; [exact H3 | constructor]. Qed.
Lemma complex_procs_neat i subs ps ds : a_type i = TComplex -> a_parsers i = [] -> a_dumpers i = [] -> plain_rep (a_rep i) -> Forall reporting ps -> Forall reporting ds -> neat subs ->
  sound_attr (mk_complex i subs ps ds) /\ plain_rep (arep (mk_complex i subs ps ds)) /\ distinct_names (sub_attrs (mk_complex i subs ps ds)).
Proof.
  intros Ht H1 H2 H3 Hp Hd [H4 H5]. unfold mk_complex. rewrite dedup_names; [|exact H5|revert H4; apply Forall_impl; intros a [_ [H _]]; exact H].
  split; [|split; [exact H3 | exact H5]].
  assert (G : Forall reporting (if a_multi i then [single_primary] else [])).
  { destruct (a_multi i); repeat constructor. apply single_primary_reporting. }
  constructor; try (apply Forall_app; split; assumption); try (rewrite ?H1, ?H2; constructor); [exact Ht| |]; revert H4; apply Forall_impl; intros a [Ha [Hb _]]; assumption.
Qed.

Ltac reporting_list := repeat (apply Forall_cons; [first [apply filter_parser_reporting | apply path_parser_reporting | apply attr_rep_multi_reporting | apply attr_rep_reporting
  | apply error_status_reporting | apply status_reporting | apply validate_operations_reporting | apply request_operations_reporting | apply response_operations_reporting]|]); apply Forall_nil.
Ltac msg_simple := apply procs_neat; [reporting_list | reporting_list | apply ex_plain; vm_compute; reflexivity].
Ltac msg_attr := first [ msg_simple
  | apply complex_procs_neat; [reflexivity | reflexivity | reflexivity | apply ex_plain; vm_compute; reflexivity | reporting_list | reporting_list
                              | apply neat_check; [repeat (apply Forall_cons; [msg_simple|]); apply Forall_nil | vm_compute; reflexivity]] ].
Ltac msg_made := apply made_base; [discriminate | apply neat_check; [repeat (apply Forall_cons; [msg_attr|]); apply Forall_nil | vm_compute; reflexivity] | apply fresh_check; vm_compute; reflexivity].

Lemma error_made : made error_schema.
Proof. unfold error_schema. msg_made. Qed.
Lemma search_made : made search_schema.
Proof. unfold search_schema. msg_made. Qed.
Lemma list_made : made list_schema.
Proof. unfold list_schema. msg_made. Qed.
Lemma patch_made : made patch_schema.
Proof. unfold patch_schema, operations_attr, op_attr, path_attr, value_attr. msg_made. Qed.
Lemma bulk_request_made : made bulk_request_schema.
Proof. unfold bulk_request_schema, b_method, b_id, b_version, b_path, b_data. msg_made. Qed.
Lemma bulk_response_made : made bulk_response_schema.
Proof. unfold bulk_response_schema, b_method, b_id, b_version, b_location, b_status, b_response. msg_made. Qed.

(** ** Fields of messages *)

Lemma made_no_ext s : made s -> sc_exts s = [] -> forall a, In a (at_top (sc_attrs s)) -> r_ext (arep a) = false /\ r_schema (arep a) = sc_uri s /\ r_sub (arep a) = [] /\ attr_ok (r_attr (arep a)).
Proof.
  intros Hm He a Ha. pose proof (made_wf _ Hm) as [_ W _ _]. rewrite Forall_forall in W. destruct (W a Ha) as [_ [H1 [H2 H3]]]. destruct (r_ext (arep a)).
  - rewrite He in H3. destruct H3.
  - auto.
Qed.
Lemma top_unique s a b : made s -> sc_exts s = [] -> In a (at_all (sc_attrs s)) -> r_sub (arep a) = [] -> In b (at_top (sc_attrs s)) ->
  same_text (r_attr (arep a)) (r_attr (arep b)) -> a = b.
Proof.
  intros Hm He Ha Hs Hb E. assert (Ht : In a (at_top (sc_attrs s))).
  { pose proof (made_assembled _ Hm) as [[_ [_ [T _]]] _]. rewrite T. apply filter_In. split; [exact Ha|]. unfold no_sub. rewrite Hs. reflexivity. }
  destruct (made_no_ext s Hm He a Ht) as [_ [A _]]. destruct (made_no_ext s Hm He b Hb) as [_ [B _]]. pose proof (made_wf _ Hm) as [_ _ D _].
  apply (NoDup_map_eq _ _ _ _ D Ht Hb). rewrite A, B. unfold same_text in E. rewrite E. reflexivity.
Qed.
Lemma no_ext_regular s c : made s -> sc_exts s = [] -> is_cont c = true -> ~ has_key c (sc_uri s) -> regular s c.
Proof. intros Hm He Hc Hk. split; [exact Hc|]. split; [exact Hk|]. intros a Ha E. destruct (made_no_ext s Hm He a Ha) as [G _]. congruence. Qed.

Section Env.
  Context {env : PyEnv}.

  (** A message of schema [s] whose URI is not used as a key. *)
  Definition message (s : schema) (doc : value) : Prop := is_object doc /\ ~ has_key (mk_cont doc) (sc_uri s).

  Section Message.
    Variables (s : schema) (m : method) (doc y : value) (js : issues).
    Hypotheses (Hm : made s) (He : sc_exts s = []) (Hd : message s doc) (H : base_parse m s doc = Ok (y, js)).

    Lemma message_regular : regular s (mk_cont doc).
    Proof. destruct Hd as [_ Hk]. apply no_ext_regular; [assumption|assumption|apply mk_cont_is_cont|exact Hk]. Qed.
    Lemma message_result_regular : regular s y.
    Proof.
      destruct Hd as [Ho _]. destruct (parsed_no_main s m doc y js (made_wf _ Hm) Ho H) as [[d [l [-> _]]] N]. apply no_ext_regular; [assumption | assumption | reflexivity | exact N].
    Qed.
    Lemma message_clear : errs_at js [] = [].
    Proof.
      destruct (C25_known_only_partial s m doc y js Hm (proj1 Hd) message_regular H) as [_ [_ [_ C]]]. destruct (errs_at js []) eqn:E; [reflexivity|]. exfalso.
      destruct (C []) as [G|[a [x [p [G1 [_ [_ G]]]]]]]; [rewrite E; discriminate | discriminate G|]. unfold place in G. destruct (r_ext (arep a)); discriminate G.
    Qed.
    Lemma message_field a x v k : In a (at_top (sc_attrs s)) -> r_attr (arep a) <> $"schemas" -> holds (mk_cont doc) (r_attr (arep a)) x -> x <> VMissing ->
      process a m x = Ok (v, k) -> v <> VMissing -> get_item y (arep a) = Ok v /\ forall p, errs_at js (LStr (r_attr (arep a)) :: p) = errs_at k p.
    Proof.
      intros Ha Hn Hh Hx Hp Hv. destruct (made_no_ext s Hm He a Ha) as [E1 [E2 [E3 E4]]].
      destruct (C25_known_only_partial s m doc y js Hm (proj1 Hd) message_regular H) as [C _].
      destruct (C a x Ha) as [v' [k' [C1 [C2 C3]]]]; [unfold doc_holds; rewrite E1; exact Hh | exact Hx|]. rewrite Hp in C1. injection C1 as <- <-. split.
      - apply (read_doc s); [apply made_wf; exact Hm | exact message_result_regular | exact Ha | exact Hv|]. apply C2. reflexivity.
      - intros p. unfold place in C3. rewrite E1 in C3. apply (C3 p). unfold schemas_loc. cbn [app]. congruence.
    Qed.
    Lemma message_absent a : In a (at_top (sc_attrs s)) -> r_attr (arep a) <> $"schemas" -> (forall x, holds (mk_cont doc) (r_attr (arep a)) x -> x = VMissing) ->
      get_item y (arep a) = Ok VMissing /\ forall p, errs_at js (LStr (r_attr (arep a)) :: p) = [].
    Proof.
      intros Ha Hn Hh. destruct (made_no_ext s Hm He a Ha) as [E1 [E2 [E3 E4]]].
      destruct (C25_known_only_partial s m doc y js Hm (proj1 Hd) message_regular H) as [_ [C2 [_ C4]]]. split.
      - destruct message_result_regular as [Hc [N _]]. destruct y as [| | | | | | | | | |data l2o| | | | | |]; try discriminate. rewrite get_item_eq, E2. unfold has_key in N.
        destruct (sget (lower (sc_uri s)) l2o) as [k|] eqn:Ek; [exfalso; apply N; exists k; reflexivity|].
        destruct (sget (lower (r_attr (arep a))) l2o) as [k|] eqn:Ek2; [|reflexivity]. exfalso.
        assert (R : exists x, sget k data = Some x).
        { clear - H Hm Hd Ek2. pose proof (made_wf _ Hm) as Hw.
          destruct (parse_shape s m doc _ js Hw (proj1 Hd) H) as [outs [iss2 [Hg [Ey _]]]]. destruct (tops_fit s Hw) as [Hnd Hf].
          assert (Hfo : Forall (fun e => fits (map fst (sc_exts s)) (arep (fst e))) outs).
          { apply Forall_forall. intros [b o] Hin. rewrite Forall_forall in Hf. apply Hf. exact (proj1 (gather_top_In _ _ _ _ _ _ Hg Hin)). }
          destruct (put_tops_keys _ _ Hnd Hfo [] [] (shelf_empty _)) as [d' [m' [Ey' [K1 [K2 _]]]]]. change (VCont [] []) with empty_cont in Ey'. rewrite Ey' in Ey. injection Ey as -> ->.
          destruct (K1 _ _ Ek2) as [G|G]; [discriminate|]. apply sget_Some_key. apply K2. right. exact G. }
        destruct R as [x R]. destruct (C2 a x Ha) as [x' [G1 G2]]; [unfold doc_holds; rewrite E1; eexists _, _, k; split; [reflexivity|]; split; assumption|].
        unfold doc_holds in G1. rewrite E1 in G1. exact (G2 (Hh _ G1)).
      - intros p. destruct (errs_at js _) eqn:E; [reflexivity|]. exfalso. destruct (C4 (LStr (r_attr (arep a)) :: p)) as [G|[b [x [q [G1 [G2 [G3 G4]]]]]]]; [rewrite E; discriminate | unfold schemas_loc in G; congruence|].
        destruct (made_no_ext s Hm He b G1) as [F1 _]. unfold place in G4. rewrite F1 in G4. injection G4 as G4 _. unfold doc_holds in G2. rewrite F1, <- G4 in G2. exact (G3 (Hh x G2)).
    Qed.
  End Message.
End Env.
