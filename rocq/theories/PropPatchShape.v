(** Properties of the shape and the result of patch operations (C58, C59). *)
From Coq Require Import Lia.
From Verif Require Import PyBase BaseFacts PyNum Issues IssuesSpec IssuesFacts AttrRep AttrRepSpec Value Container ContainerSpec ContainerFacts ContainerRW AttrRepFacts ValueFacts Types Attr Schema FilterParse Path Patch
  AttrSpec AttrFacts AttrItems SchemaSpec SchemaFacts SchemaBuild PropSchema PresenceSpec PresenceFacts PathSpec PropPath Assets PropAttr JsonCheck PatchSpec PatchFacts PropPatch
  PatchShapeSpec PatchShapeFacts.

Section Env.
  Context {env : PyEnv}.

  Lemma at_operation' s l y iss i o : sound s -> Forall readable l -> patch_parse s (request l) = Ok (y, iss) -> nth_error l i = Some o ->
    exists v js, outcome' s o = Ok (v, js) /\ parsed_op y i v /\ forall p, errs_at iss (at_op i ++ p) = shape_errs o p ++ errs_at js p.
  Proof.
    intros Hs Ho H Hi. pose proof (patch_result' s l (fun o v iss _ => outcome_wf s o v iss Hs) Ho) as R.
    destruct (mapM (outcome' s) l) as [outs|e] eqn:Em; [|congruence]. destruct R as [iss' [R1 [R2 R3]]]. rewrite H in R1. injection R1 as -> <-.
    destruct (mapM_nth _ _ _ _ _ Em Hi) as [[v js] [N1 N2]]. exists v, js. split; [exact N2|]. split.
    - exists (map fst outs). split; [|exact (map_nth_error fst i outs N1)].
      eexists _, _, ($"Operations"). split; [reflexivity|]. split; reflexivity.
    - intros p. rewrite R3. f_equal; [|exact (ops_errs_nth _ _ _ _ N1)].
      unfold under_ops. change (at_op i ++ p) with ([LStr ops_name] ++ LIdx i :: p). rewrite loc_strip_app. cbn [shape_outs]. rewrite Hi. reflexivity.
  Qed.

  (** C58: about an operation that is faulty as a whole, exactly its faults are
      reported. *)
  Theorem C58_faults s l y iss i o : made s -> Forall readable l -> patch_parse s (request l) = Ok (y, iss) ->
    nth_error l i = Some o -> faulty o -> forall e q, In e (errs_at iss (at_op i ++ q)) <-> shape_fault o e q.
  Proof.
    intros Hm Hl H Hi Hf e q. apply made_sound in Hm. destruct (at_operation' _ _ _ _ _ _ Hm Hl H Hi) as [v [js [E [_ He]]]].
    assert (Hr : readable o) by (rewrite Forall_forall in Hl; apply Hl; exact (nth_error_In _ _ Hi)).
    unfold outcome' in E. rewrite (proj2 (faulty_iff o Hr) Hf) in E. injection E as _ <-.
    rewrite He. change (errs_at no_issues q) with (@nil error). rewrite app_nil_r. apply shape_fault_iff. exact Hr.
  Qed.

  (** C58: faults of other operations make no difference to one that has none; it
      fares as in a request of its own. *)
  Theorem C58_others s l y iss i o : made s -> Forall readable l -> patch_parse s (request l) = Ok (y, iss) ->
    nth_error l i = Some o -> ~ faulty o ->
    exists y1 iss1, patch_parse s (request [o]) = Ok (y1, iss1) /\ (forall q, errs_at iss (at_op i ++ q) = errs_at iss1 (at_op 0 ++ q))
    /\ (forall e q, In e (errs_at iss (at_op i ++ q)) -> ~ shape_fault o e q)
    /\ exists v, parsed_op y i v /\ parsed_op y1 0 v.
  Proof.
    intros Hm Hl H Hi Hf. apply made_sound in Hm. destruct (at_operation' _ _ _ _ _ _ Hm Hl H Hi) as [v [js [E [Hv He]]]].
    assert (Hr : readable o) by (rewrite Forall_forall in Hl; apply Hl; exact (nth_error_In _ _ Hi)).
    assert (Hl1 : Forall readable [o]) by (constructor; [exact Hr | constructor]).
    pose proof (patch_result' s [o] (fun o v iss _ => outcome_wf s o v iss Hm) Hl1) as R. cbn [mapM] in R. rewrite E in R. cbn [bind] in R.
    destruct R as [iss1 [R1 [_ R3]]]. exists (answer [v]), iss1. split; [exact R1|]. split; [|split].
    - intros q. destruct (at_operation' _ _ _ _ 0 o Hm Hl1 R1 eq_refl) as [v1 [js1 [E1 [_ He1]]]]. rewrite E in E1. injection E1 as <- <-.
      rewrite He, He1. reflexivity.
    - intros e q _ F. apply Hf. exists e, q. exact F.
    - exists v. split; [exact Hv|]. exists [v]. split; [|reflexivity]. eexists _, _, ($"Operations"). split; [reflexivity|]. split; reflexivity.
  Qed.

  (** C58: nothing else is ever reported by the parse. *)
  Theorem C58_located s l y iss p : made s -> Forall readable l -> patch_parse s (request l) = Ok (y, iss) -> errs_at iss p <> [] ->
    exists i o q, nth_error l i = Some o /\ p = at_op i ++ q.
  Proof.
    intros Hm Ho H Hp. apply made_sound in Hm. pose proof (patch_result' s l (fun o v iss _ => outcome_wf s o v iss Hm) Ho) as R.
    destruct (mapM (outcome' s) l) as [outs|e] eqn:Em; [|congruence]. destruct R as [iss' [R1 [R2 R3]]]. rewrite H in R1. injection R1 as -> <-.
    rewrite R3 in Hp. destruct (under_ops (shape_outs l) p) as [|e0 es] eqn:U.
    - cbn [app] in Hp. apply ops_errs_some in Hp as [i [o [q [H1 [H2 _]]]]]. destruct (mapM_nth_back _ _ _ _ _ Em H1) as [o' [H3 _]]. exists i, o', q. auto.
    - unfold under_ops in U. destruct (loc_strip [LStr ops_name] p) as [p1|] eqn:E; [|discriminate U]. apply loc_strip_spec in E as ->.
      destruct p1 as [|[n|i] q]; try discriminate U. cbn [shape_outs] in U. destruct (nth_error l i) as [o|] eqn:N; [|discriminate U]. exists i, o, q. auto.
  Qed.

  (** ** What accepted operations become *)

  Lemma accepted_outcome s l y iss i o : sound s -> Forall readable l -> patch_parse s (request l) = Ok (y, iss) -> nth_error l i = Some o -> accepted iss i ->
    exists v js, outcome_of s o = Ok (v, js) /\ parsed_op y i v /\ forall p, errs_at js p = [].
  Proof.
    intros Hs Hl H Hi Ha. destruct (at_operation' _ _ _ _ _ _ Hs Hl H Hi) as [v [js [E [Hv He]]]]. exists v, js.
    assert (F : faultyb o = false).
    { destruct (faultyb o) eqn:F; [|reflexivity]. destruct (shape_errs_some o F) as [q Hq]. specialize (He q). rewrite Ha in He. symmetry in He. apply app_eq_nil in He as [He _]. contradiction. }
    unfold outcome' in E. rewrite F in E. split; [exact E|]. split; [exact Hv|]. intros p. specialize (He p). rewrite Ha in He. symmetry in He. apply app_eq_nil in He as [_ He]. exact He.
  Qed.

  Lemma mk_three k p v : mk_cont (dict_of [($"op", VStr k); ($"path", p); ($"value", v)]) = tabled [($"op", VStr k); ($"path", wrap p); ($"value", wrap v)].
  Proof.
    destruct p; destruct v; try reflexivity; cbn [wrap]; rewrite <- ?items_map; reflexivity.
  Qed.
  Lemma three_parts k p v : holds (tabled [($"op", k); ($"path", p); ($"value", v)]) ($"op") k
    /\ holds (tabled [($"op", k); ($"path", p); ($"value", v)]) ($"path") p /\ holds (tabled [($"op", k); ($"path", p); ($"value", v)]) ($"value") v.
  Proof. split; [|split]; eexists _, _, _; split; try reflexivity; split; reflexivity. Qed.

  (** C59: the answer has one operation for each requested one. *)
  Theorem C59_count s l y iss : made s -> Forall readable l -> patch_parse s (request l) = Ok (y, iss) ->
    exists vs, holds y ($"Operations") (VList vs) /\ length vs = length l.
  Proof.
    intros Hm Ho H. apply made_sound in Hm. pose proof (patch_result' s l (fun o v iss _ => outcome_wf s o v iss Hm) Ho) as R.
    destruct (mapM (outcome' s) l) as [outs|e] eqn:Em; [|congruence]. destruct R as [iss' [R1 _]]. rewrite H in R1. injection R1 as -> _.
    exists (map fst outs). split; [eexists _, _, ($"Operations"); split; [reflexivity|]; split; reflexivity|].
    rewrite map_length. clear - Em. revert outs Em. induction l as [|o t IH]; intros outs Em; cbn [mapM] in Em; [injection Em as <-; reflexivity|].
    apply bind_ok in Em as [x [_ Em]]. apply bind_ok in Em as [xs [E Em]]. injection Em as <-. cbn [length]. rewrite (IH xs E). reflexivity.
  Qed.

  (** C59: an accepted "remove" keeps its kind and its path. *)
  Theorem C59_remove s l y iss i o t p : made s -> Forall readable l -> patch_parse s (request l) = Ok (y, iss) -> nth_error l i = Some o ->
    accepted iss i -> o_kind o = $"remove" -> o_path o = Some t -> reads t p ->
    exists v, parsed_op y i v /\ holds v ($"op") (VStr ($"remove")) /\ holds v ($"path") (VPath p) /\ (forall x, ~ holds v ($"value") x)
    /\ exists a, denotes s (p_rep p) a /\ (p_sub p = None \/ exists q b, p_sub p = Some q /\ denotes s q b).
  Proof.
    intros Hm Hl H Hi Ha Hk Ht Hp. apply made_sound in Hm. destruct (accepted_outcome _ _ _ _ _ _ Hm Hl H Hi Ha) as [v [js [E [Hv He]]]]. exists v. split; [exact Hv|].
    unfold outcome_of in E. rewrite Hk in E. change (str_eqb ($"remove") ($"remove")) with true in E. cbv iota in E.
    unfold path_value in E. rewrite Ht in E. unfold reads in Hp. rewrite Hp in E. cbn [opt] in E.
    unfold parse_remove, validate_operation_path in E. destruct (find_attr (at_all (sc_attrs s)) (p_rep p)) as [a|] eqn:Fa; cbn [orb] in E;
      [|cbn [bind] in E; injection E as _ <-; specialize (He []); discriminate He].
    apply find_denotes in Fa. assert (V : forall js', Ok (mk_cont (dict_of [($"op", VStr ($"remove")); ($"path", VPath p)]), js') = Ok (v, js) -> v = removed p).
    { intros js' Q. injection Q as <- _. reflexivity. }
    assert (P : v = removed p -> holds v ($"op") (VStr ($"remove")) /\ holds v ($"path") (VPath p) /\ forall x, ~ holds v ($"value") x).
    { intros ->. split; [|split].
      - eexists _, _, _. split; [reflexivity|]. split; reflexivity.
      - eexists _, _, _. split; [reflexivity|]. split; reflexivity.
      - intros x [d [l2o [k [Q [Q1 _]]]]]. injection Q as <- <-. discriminate Q1. }
    destruct (p_sub p) as [q|] eqn:Eq.
    - destruct (find_attr (at_all (sc_attrs s)) q) as [b|] eqn:Fb; [|cbn [bind] in E; injection E as _ <-; specialize (He []); discriminate He].
      apply find_denotes in Fb. cbn [bind] in E. change (has_issues no_issues []) with false in E. cbv iota in E.
      destruct (P (V _ E)) as [P1 [P2 P3]]. split; [exact P1|]. split; [exact P2|]. split; [exact P3|]. exists a. split; [exact Fa|]. right. exists q, b. auto.
    - cbn [bind] in E. change (has_issues no_issues []) with false in E. cbv iota in E.
      destruct (P (V _ E)) as [P1 [P2 P3]]. split; [exact P1|]. split; [exact P2|]. split; [exact P3|]. exists a. split; [exact Fa|]. left. reflexivity.
  Qed.

  Lemma silent a : sound_attr a -> forall v w js, process a MParse v = Ok (w, js) -> (has_issues js [] = false <-> forall q, errs_at js q = []).
  Proof.
    intros Ha v w js Hpr. pose proof (process_report a Ha _ _ _ _ Hpr) as Hr. split.
    - intros F q. destruct (errs_at js q) eqn:E; [reflexivity|]. assert (G : has_issues js [] = true) by (apply (has_issues_iff _ Hr); exists q; rewrite E; discriminate). congruence.
    - intros F. destruct (has_issues js []) eqn:E; [|reflexivity]. apply (has_issues_iff _ Hr) in E as [q E]. exfalso. apply E, F.
  Qed.

  (** C59: an accepted "add" or "replace" with a path keeps its kind and its
      path, its target is not read-only, and its value is what the target makes of
      the requested value, which it accepts. *)
  Theorem C59_path s l y iss i o t p a x : made s -> Forall readable l -> patch_parse s (request l) = Ok (y, iss) -> nth_error l i = Some o ->
    accepted iss i -> o_kind o <> $"remove" -> o_path o = Some t -> reads t p -> changes s p a -> o_value o = Some x ->
    exists v w js, parsed_op y i v /\ holds v ($"op") (VStr (o_kind o)) /\ holds v ($"path") (VPath p) /\ holds v ($"value") (wrap w)
    /\ process a MParse (wrap x) = Ok (w, js) /\ (forall q, errs_at js q = []) /\ ~ read_only a.
  Proof.
    intros Hm Hl H Hi Hacc Hk Ht Hp Hc Hv. apply made_sound in Hm. destruct (accepted_outcome _ _ _ _ _ _ Hm Hl H Hi Hacc) as [v [js [E [Hpo He]]]]. exists v.
    pose proof Hk as Hk'. unfold outcome_of in E. apply str_eqb_neq in Hk. rewrite Hk in E.
    assert (Ep : path_value o = Some (VPath p)) by (unfold path_value; rewrite Ht; unfold reads in Hp; rewrite Hp; reflexivity).
    rewrite Ep, Hv in E. cbn [opt option_map] in E. unfold parse_add_or_replace in E. cbn [is_none_or_missing] in E.
    destruct (known_path s p a (reads_whole _ _ Hp) Hc) as [K1 K2]. rewrite K1 in E. cbn [bind] in E. change (has_issues no_issues []) with false in E. cbv iota in E.
    rewrite K2 in E. unfold parse_update_value in E. pose proof (changes_found _ _ _ Hc) as Hf. rewrite Hf in E.
    assert (Ha : sound_attr a). { destruct Hm as [F _]. rewrite Forall_forall in F. apply F. apply find_some in Hf. tauto. }
    assert (Hat : forall js2, wf js2 -> js = merge no_issues js2 [LStr ($"value")] -> forall q, errs_at js2 q = []).
    { intros js2 W -> q. specialize (He ([LStr ($"value")] ++ q)). rewrite errs_at_merge, loc_strip_app in He; [exact He | reflexivity | apply W | apply W]. }
    destruct (is_read_only (a_mut (info a))) eqn:Ro.
    - cbn [fail bind] in E. injection E as _ <-. specialize (He [LStr ($"value")]). discriminate He.
    - assert (Hro : ~ read_only a) by (rewrite <- ro_iff, Ro; discriminate).
      destruct (process a MParse (wrap x)) as [[w jw]|] eqn:Pr; cbn [bind] in E; [|discriminate E]. exists w, jw.
      assert (G : v = mk_cont (dict_of [($"op", VStr (o_kind o)); ($"path", VPath p); ($"value", w)]) /\ has_issues jw [] = false).
      { destruct (has_issues jw []) eqn:Hj.
        - cbn [bind] in E. injection E as <- Ej. split; [reflexivity|]. exfalso.
          pose proof (process_report a Ha _ _ _ _ Pr) as Hr. assert (Hr' : report (merge no_issues jw [])) by (apply report_merge; [apply report_empty | exact Hr]).
          apply (has_issues_iff _ Hr) in Hj as [q Hj]. apply Hj. symmetry in Ej.
          pose proof (Hat _ (report_wf _ Hr') Ej q) as Z. rewrite errs_merge in Z by (apply report_empty || exact Hr). exact Z.
        - destruct (_ && _); [|cbn [bind] in E; injection E as <- _; auto]. apply bind_ok in E as [[w' js3] [E1 E]]. apply bind_ok in E1 as [js4 [_ E1]]. injection E1 as <- _.
          injection E as <- _. auto. }
      destruct G as [G1 G2]. rewrite mk_three in G1. cbn [wrap] in G1.
      destruct (three_parts (VStr (o_kind o)) (VPath p) (wrap w)) as [T1 [T2 T3]]. rewrite G1 in *.
      split; [exact Hpo|]. split; [exact T1|]. split; [exact T2|]. split; [exact T3|]. split; [reflexivity|]. split; [|exact Hro].
      apply (proj1 (silent a Ha _ _ _ Pr)). exact G2.
  Qed.

  Lemma pop_elsewhere i c p : wf i -> p <> schemas_loc -> errs_at (snd (pop_issues i schemas_loc c)) p = errs_at i p.
  Proof.
    intros W N. unfold pop_issues. destruct (lget schemas_loc (i_errs i)) as [es|] eqn:E; [|reflexivity].
    destruct (pop_loop _ _ _ _ _) as [es' st']. unfold errs_at. cbn [snd i_errs]. destruct es' as [|e0 r].
    - unfold lget, ldel. rewrite (aget_adel_other loc_eqb loc_eqb_eq) by congruence. reflexivity.
    - unfold lget, lset. rewrite (aget_aset_other loc_eqb loc_eqb_eq) by congruence. reflexivity.
  Qed.

  (** C59: an accepted "add" or "replace" without path keeps its kind, and its
      value is what the resource schema makes of the requested value; apart from
      the field "schemas", which is not required here, the schema accepts it. *)
  Theorem C59_whole s l y iss i o x : made s -> Forall readable l -> patch_parse s (request l) = Ok (y, iss) -> nth_error l i = Some o ->
    accepted iss i -> o_kind o <> $"remove" -> o_path o = None -> o_value o = Some x ->
    exists v w js, parsed_op y i v /\ holds v ($"op") (VStr (o_kind o)) /\ holds v ($"path") VMissing /\ holds v ($"value") (wrap w)
    /\ schema_parse s (wrap x) = Ok (w, js) /\ (forall q, q <> [LStr ($"schemas")] -> errs_at js q = []).
  Proof.
    intros Hm Hl H Hi Hacc Hk Ht Hv. apply made_sound in Hm. destruct (accepted_outcome _ _ _ _ _ _ Hm Hl H Hi Hacc) as [v [js [E [Hpo He]]]].
    destruct (no_path_outcome _ _ _ _ _ Hk Ht Hv E Hm) as [w [jw [js2 [E1 [W2 [E2 [E3 E4]]]]]]]. exists v, w, jw. rewrite mk_three in E4. cbn [wrap] in E4.
    destruct (three_parts (VStr (o_kind o)) VMissing (wrap w)) as [T1 [T2 T3]]. rewrite E4 in *.
    split; [exact Hpo|]. split; [exact T1|]. split; [exact T2|]. split; [exact T3|]. split; [exact E1|].
    intros q Hq. pose proof (report_wf _ (schema_report MParse s _ _ _ (proj2 Hm) E1)) as Wj.
    destruct (errs_at jw q) as [|e es] eqn:Q; [reflexivity|]. exfalso.
    destruct (scan_reports _ _ _ _ schemas_attr VNone E2) as [G _]. specialize (G q e).
    rewrite !pop_elsewhere in G by (try exact Hq; repeat apply wf_pop; exact Wj). rewrite Q in G. specialize (G (or_introl eq_refl)). rewrite <- E3, He in G. destruct G.
  Qed.
End Env.

(** A request with three faulty operations among three others. *)
Definition ex_shapes : list operation :=
  [mkOper ($"remove") None None;
   mkOper ($"add") (Some ($"title")) None;
   mkOper ($"add") (Some ($"emails[type eq ""work""]")) (Some VNone);
   mkOper ($"remove") (Some ($"emails[type eq ""work""].display")) None;
   mkOper ($"replace") (Some manager_name) (Some (VStr ($"Ann")));
   mkOper ($"add") (Some ($"name.familyName")) (Some (VStr ($"Doe")))].

Example ex_C58 : Forall readable ex_shapes /\ exists y iss, @patch_parse no_env user_schema (request ex_shapes) = Ok (y, iss)
  /\ errs_at iss (at_path 0) = [e_missing] /\ errs_at iss (at_value 1) = [e_missing] /\ errs_at iss (at_value 2) = [e_missing]
  /\ errs_at iss (at_path 2) = [e_filter_without_sub] /\ errs_at iss (at_value 4) = [e_not_modifiable] /\ length (i_errs iss) = 5.
Proof.
  split.
  - unfold ex_shapes. repeat (apply Forall_cons; [split; [path_good|split; [discriminate|]]; auto|]). apply Forall_nil.
  - apply run_of. vm_compute. repeat split; reflexivity.
Qed.

Example ex_C58_faulty : faulty (mkOper ($"remove") None None)
  /\ shape_fault (mkOper ($"add") (Some ($"emails[type eq ""work""]")) (Some VNone)) e_filter_without_sub [LStr ($"path")]
  /\ ~ faulty (mkOper ($"remove") (Some ($"emails[type eq ""work""].display")) None).
Proof.
  split; [exists e_missing, [LStr ($"path")]; apply remove_without_path; reflexivity|]. split.
  - assert (R : exists p, reads ($"emails[type eq ""work""]") p /\ (match p_filter p with None => true | _ => false end, p_sub p) = (false, None))
      by (eexists; split; vm_compute; reflexivity).
    destruct R as [p [R1 R2]]. injection R2 as R2 R3. apply (fun K P => add_to_selection _ ($"emails[type eq ""work""]") p K P R1); [reflexivity | reflexivity | | exact R3].
    intros E. rewrite E in R2. discriminate R2.
  - intros [e [q F]]. inversion F as [K P|K P|t p K P]; discriminate.
Qed.

(** The fourth and the sixth operation are accepted and kept. *)
Example ex_C59 : exists y iss, @patch_parse no_env user_schema (request ex_shapes) = Ok (y, iss) /\ accepted iss 3 /\ accepted iss 5
  /\ exists p a, reads ($"name.familyName") p /\ changes user_schema p a
  /\ exists v, parsed_op y 5 v /\ holds v ($"op") (VStr ($"add")) /\ holds v ($"path") (VPath p) /\ holds v ($"value") (VStr ($"Doe")).
Proof.
  set (p := mkPath (mkRep [] ($"name") ($"familyName") false) None None).
  destruct (run_of (@patch_parse no_env user_schema (request ex_shapes))
    (fun y iss => forallb (fun e => match fst e with LStr _ :: LIdx i :: _ => negb (Nat.eqb i 3) && negb (Nat.eqb i 5) | _ => false end) (i_errs iss) = true
       /\ exists v, parsed_op y 5 v /\ holds v ($"op") (VStr ($"add")) /\ holds v ($"path") (VPath p) /\ holds v ($"value") (VStr ($"Doe")))) as [y [iss [H [F V]]]].
  { vm_compute. split; [reflexivity|]. eexists. split; [eexists; split; [eexists _, _, _; split; [reflexivity|]; split; reflexivity|]; reflexivity|].
    repeat split; eexists _, _, _; split; try reflexivity; split; reflexivity. }
  exists y, iss. split; [exact H|].
  assert (N : forall i q, i = 3 \/ i = 5 -> errs_at iss (at_op i ++ q) = []).
  { intros i q Hi. unfold errs_at, lget. clear H V. induction (i_errs iss) as [|[l es] r IH]; [reflexivity|]. cbn [forallb] in F. apply andb_prop in F as [F1 F2]. cbn [aget fst] in *.
    match goal with |- context[loc_eqb ?x ?z] => destruct (loc_eqb x z) eqn:E end; [|exact (IH F2)]. apply loc_eqb_eq in E. first [subst l | rewrite <- E in F1]. cbn [at_op app] in F1. destruct Hi as [-> | ->]; discriminate F1. }
  split; [intros q; apply N; auto|]. split; [intros q; apply N; auto|]. exists p.
  destruct (denotes_by user_schema (mkRep [] ($"name") ($"familyName") false) (fun a => a_mut (info a)) ReadWrite) as [a [Ha _]]; [vm_compute; reflexivity|].
  exists a. split; [vm_compute; reflexivity|]. split; [exact Ha | exact V].
Qed.

(** An operation without path. *)
Example ex_C59_whole : readable (mkOper ($"replace") None (Some (dict_of [($"displayName", VStr ($"x"))])))
  /\ exists y iss, @patch_parse no_env group_schema (request [mkOper ($"replace") None (Some (dict_of [($"displayName", VStr ($"x"))]))]) = Ok (y, iss)
  /\ i_errs iss = [].
Proof.
  split; [split; [intros t [=]|]; split; [discriminate|]; auto|]. apply run_of. vm_compute. reflexivity.
Qed.

Print Assumptions C58_faults.
Print Assumptions C58_others.
Print Assumptions C58_located.
Print Assumptions C59_count.
Print Assumptions C59_remove.
Print Assumptions C59_path.
Print Assumptions C59_whole.
