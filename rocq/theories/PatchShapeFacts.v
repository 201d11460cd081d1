(** Lemmas about the shape of patch operations. *)
From Coq Require Import Lia.
From Verif Require Import PyBase BaseFacts PyNum Issues IssuesSpec IssuesFacts AttrRep AttrRepSpec Value Container ContainerSpec ContainerFacts ContainerRW AttrRepFacts ValueFacts Types Attr Schema FilterParse Path Patch
  AttrSpec AttrFacts AttrItems SchemaSpec SchemaFacts SchemaBuild PropSchema PresenceSpec PresenceFacts.
From Verif Require Import PatchSpec PatchFacts PropPatch RequestFacts MsgFacts PatchShapeSpec.

Section Env.
  Context {env : PyEnv}.

  Lemma in_order_readable o : in_order o -> readable o.
  Proof. intros H. split; [exact (proj1 H)|]. split; [exact (proj1 (proj2 H)) | exact (kind_cases o H)]. Qed.

  Lemma path_cases' o : readable o ->
    (o_path o = None /\ path_value o = None) \/ exists t p, o_path o = Some t /\ reads t p /\ path_value o = Some (VPath p).
  Proof.
    intros [H _]. unfold path_value. destruct (o_path o) as [t|]; [|auto]. right.
    destruct (H t eq_refl) as [p Hp]. exists t, p. split; [reflexivity|]. split; [exact Hp|]. unfold reads in Hp. rewrite Hp. reflexivity.
  Qed.

  (** Every readable operation reads like one in good order. *)
  Lemma read_one' o k : readable o -> walk MParse (mk_cont (raw_op o)) [LIdx k] [op_attr; path_attr; value_attr] empty_cont no_issues = Ok (read_op o, no_issues).
  Proof.
    intros H. change (mk_cont (raw_op o)) with (raw_op o).
    rewrite (step_value _ _ (VStr (o_kind o)) _ _ (tabled [($"op", VStr (o_kind o))])) with (y := VStr (o_kind o));
      [|destruct o as [k0 [t|] [v|]]; reflexivity | discriminate | apply op_ok; exact (proj2 (proj2 H)) | reflexivity].
    assert (Hv : forall w, o_value o = Some w -> wrap w <> VMissing).
    { intros w E. apply wrap_not_missing. destruct H as [_ [H _]]. congruence. }
    assert (Hw : forall l, get_item (raw_op o) (arep value_attr) = Ok (match o_value o with Some v => wrap v | None => VMissing end) ->
      (forall w, set_item (tabled l) (arep value_attr) w = Ok (tabled (l ++ [($"value", w)]))) ->
      walk MParse (raw_op o) [LIdx k] [value_attr] (tabled l) no_issues = Ok (tabled (l ++ field ($"value") (option_map wrap (o_value o))), no_issues)).
    { intros l Hg Hs. destruct (o_value o) as [v|].
      - rewrite (step_value _ _ (wrap v) _ _ (tabled (l ++ [($"value", wrap v)]))) with (y := wrap v); auto using value_ok. 
      - rewrite step_missing by exact Hg. cbn [option_map field walk]. rewrite app_nil_r. reflexivity. }
    assert (Hg : get_item (raw_op o) (arep value_attr) = Ok (match o_value o with Some v => wrap v | None => VMissing end))
      by (destruct o as [k0 [t|] [v|]]; reflexivity).
    unfold read_op. destruct (path_cases' o H) as [[E1 E2]|[t [p [E1 [E2 E3]]]]].
    - rewrite step_missing by (destruct o as [k0 [t|] [v|]]; cbn in E1; try discriminate E1; reflexivity).
      rewrite E2. cbn [field app]. change (?a :: field ?b ?c) with ([a] ++ field b c). apply Hw; [exact Hg | reflexivity].
    - rewrite (step_value _ _ (VStr t) _ _ (tabled [($"op", VStr (o_kind o)); ($"path", VPath p)])) with (y := VPath p);
        [|destruct o as [k0 [t'|] [v|]]; cbn in E1; try discriminate E1; injection E1 as ->; reflexivity | discriminate | apply path_ok; exact E2 | reflexivity].
      rewrite E3. cbn [field app]. change (?a :: ?a' :: field ?b ?c) with ([a; a'] ++ field b c). apply Hw; [exact Hg | reflexivity].
  Qed.
  Lemma read_items' l : Forall readable l -> forall k acc,
    foldM (complex_items MParse [op_attr; path_attr; value_attr]) (enum_from k (map raw_op l)) (acc, no_issues) = Ok (acc ++ map read_op l, no_issues).
  Proof.
    induction 1 as [|o t Ho _ IH]; intros k acc; cbn [map enum_from foldM]; [rewrite app_nil_r; reflexivity|].
    unfold complex_items at 1. cbn [fst snd]. rewrite read_one' by exact Ho. cbn [bind]. rewrite IH, <- app_assoc. reflexivity.
  Qed.

  (** ** Validation of the operations *)

  Definition pathless (o : operation) : bool := str_eqb (o_kind o) ($"remove") && match o_path o with None => true | Some _ => false end.
  Definition valueless (o : operation) : bool :=
    str_eqb (o_kind o) ($"add") && match o_value o with None | Some VNone => true | _ => false end.
  Definition bare (o : operation) : bool :=
    str_eqb (o_kind o) ($"add") && match path_value o with
                                   | Some (VPath p) => match p_filter p, p_sub p with Some _, None => true | _, _ => false end
                                   | _ => false
                                   end.
  Definition left_op (o : operation) : value :=
    if pathless o then tabled [($"op", VStr (o_kind o))] else read_op o.
  Definition shape (k : nat) (o : operation) (iss : issues) : issues :=
    add_if (bare o) e_filter_without_sub false [LIdx k; LStr ($"path")]
      (add_if (valueless o) e_missing false [LIdx k; LStr ($"value")]
        (add_if (pathless o) e_missing false [LIdx k; LStr ($"path")] iss)).
  Definition shape_errs (o : operation) (q : loc) : list error :=
    (if pathless o then if loc_dec [LStr ($"path")] q then [e_missing] else [] else [])
    ++ (if valueless o then if loc_dec [LStr ($"value")] q then [e_missing] else [] else [])
    ++ (if bare o then if loc_dec [LStr ($"path")] q then [e_filter_without_sub] else [] else []).

  Lemma strip_one k q' p : loc_strip [LIdx k] p = None -> (LIdx k :: q' = p) -> False.
  Proof. intros H E. rewrite loc_strip_none in H. apply (H q'). symmetry. exact E. Qed.

  Lemma shape_at k o iss p : errs_at (shape k o iss) p = errs_at iss p ++ match loc_strip [LIdx k] p with Some q => shape_errs o q | None => [] end.
  Proof.
    unfold shape. rewrite !add_if_errs. rewrite <- !app_assoc. f_equal.
    destruct (loc_strip [LIdx k] p) as [q|] eqn:E.
    - apply loc_strip_spec in E as ->. unfold shape_errs.
      assert (G : forall t e, (if loc_dec [LIdx k; LStr t] ([LIdx k] ++ q) then [e] else @nil error) = if loc_dec [LStr t] q then [e] else []).
      { intros t e. destruct (loc_dec [LStr t] q) as [<-|N]; [destruct (loc_dec _ _) as [_|N]; [reflexivity | contradiction N; reflexivity]|].
        destruct (loc_dec _ _) as [C|_]; [|reflexivity]. cbn in C. injection C as C. contradiction. }
      rewrite !G. reflexivity.
    - assert (G : forall t e, (if loc_dec [LIdx k; LStr t] p then [e] else @nil error) = []).
      { intros t e. destruct (loc_dec _ _) as [C|_]; [|reflexivity]. exfalso. exact (strip_one _ _ _ E C). }
      rewrite !G. destruct (pathless o), (valueless o), (bare o); reflexivity.
  Qed.
  Lemma shape_report k o iss : report iss -> report (shape k o iss).
  Proof. intros H. unfold shape. repeat apply report_add_if. exact H. Qed.

  Lemma wrap_none v : v <> VMissing -> is_none_or_missing (wrap v) = match v with VNone => true | _ => false end.
  Proof. intros H. destruct v; try reflexivity; try contradiction. cbn [wrap]. destruct (cont_of (VDict d)) as [? [? ->]]. reflexivity. Qed.

  Lemma validate_one' o k iss : readable o -> validate_operation k (read_op o) iss = Ok (left_op o, shape k o iss).
  Proof.
    intros H. unfold validate_operation.
    assert (E1 : get_item (read_op o) (arep op_attr) = Ok (VStr (o_kind o))) by (unfold read_op; destruct (path_value o), (o_value o); reflexivity).
    assert (E2 : get_item (read_op o) (arep path_attr) = Ok (match path_value o with Some v => v | None => VMissing end))
      by (unfold read_op; destruct (path_value o), (o_value o); reflexivity).
    assert (E3 : get_item (read_op o) (arep value_attr) = Ok (match o_value o with Some v => wrap v | None => VMissing end))
      by (unfold read_op; destruct (path_value o), (o_value o); reflexivity).
    rewrite E1, E2, E3. cbn [bind]. pose proof (path_cases' o H) as Hc. destruct H as [H1 [H2 [H|[H|H]]]]; unfold left_op, shape, pathless, valueless, bare; rewrite H.
    - change (str_is (VStr ($"add")) ($"remove")) with false. change (str_is (VStr ($"add")) ($"add")) with true.
      change (str_eqb ($"add") ($"remove")) with false. change (str_eqb ($"add") ($"add")) with true. cbn [andb add_if].
      assert (E : is_none_or_missing (match o_value o with Some v => wrap v | None => VMissing end) = match o_value o with None | Some VNone => true | _ => false end).
      { destruct (o_value o) as [v|]; [|reflexivity]. rewrite wrap_none by congruence. destruct v; reflexivity. }
      rewrite E. unfold add_if. destruct Hc as [[_ ->]|[t [p [Et [Hp ->]]]]]; [reflexivity|]. cbn [truthy].
      destruct (p_filter p), (p_sub p); reflexivity.
    - change (str_eqb ($"remove") ($"remove")) with true. change (str_eqb ($"remove") ($"add")) with false. cbn [andb add_if].
      destruct Hc as [[Ep Ev]|[t [p [Ep [_ Ev]]]]]; rewrite Ep, Ev; [|reflexivity].
      change (str_is (VStr ($"remove")) ($"remove") && is_none_or_missing VMissing) with true. cbv iota.
      unfold read_op. rewrite Ev, H. cbn [field app]. destruct (o_value o); reflexivity.
    - reflexivity.
  Qed.

  Fixpoint shapes (k : nat) (l : list operation) (iss : issues) : issues :=
    match l with [] => iss | o :: t => shapes (S k) t (shape k o iss) end.
  Definition shape_outs (l : list operation) (p : loc) : list error :=
    match p with LIdx i :: q => match nth_error l i with Some o => shape_errs o q | None => [] end | _ => [] end.

  Lemma shapes_report l : forall k iss, report iss -> report (shapes k l iss).
  Proof. induction l as [|o t IH]; intros k iss H; [exact H|]. apply IH, shape_report, H. Qed.
  Lemma shapes_at l : forall k iss p, errs_at (shapes k l iss) p
    = errs_at iss p ++ match p with LIdx i :: q => if Nat.ltb i k then [] else match nth_error l (i - k) with Some o => shape_errs o q | None => [] end | _ => [] end.
  Proof.
    induction l as [|o t IH]; intros k iss p; cbn [shapes].
    - destruct p as [|[n|i] q]; rewrite ?app_nil_r; try reflexivity. destruct (Nat.ltb i k); [|destruct (i - k)]; rewrite app_nil_r; reflexivity.
    - rewrite IH, shape_at, <- app_assoc. f_equal. destruct p as [|[n|i] q]; try reflexivity.
      destruct (loc_strip [LIdx k] (LIdx i :: q)) as [q'|] eqn:E.
      + apply loc_strip_spec in E. cbn in E. injection E as -> ->.
        rewrite Nat.sub_diag, Nat.ltb_irrefl. cbn [nth_error]. replace (Nat.ltb k (S k)) with true by (symmetry; apply Nat.ltb_lt; lia). apply app_nil_r.
      + assert (N : i <> k). { intros ->. exact (strip_one _ _ _ E eq_refl). }
        cbn [app]. destruct (Nat.ltb i (S k)) eqn:L1; destruct (Nat.ltb i k) eqn:L2; try reflexivity.
        * apply Nat.ltb_lt in L1. apply Nat.ltb_ge in L2. lia.
        * apply Nat.ltb_ge in L1. apply Nat.ltb_lt in L2. lia.
        * apply Nat.ltb_ge in L1. replace (i - k) with (S (i - S k)) by lia. reflexivity.
  Qed.
  Lemma shapes_0 l p : errs_at (shapes 0 l no_issues) p = shape_outs l p.
  Proof. rewrite shapes_at. cbn [app]. unfold shape_outs. destruct p as [|[n|i] q]; try reflexivity. rewrite Nat.sub_0_r. reflexivity. Qed.

  Lemma validate_all' l : Forall readable l -> validate_operations (VList (map read_op l)) = Ok (VList (map left_op l), shapes 0 l no_issues).
  Proof.
    intros H. unfold validate_operations. cbn [iter_value bind].
    assert (G : forall k acc iss, foldM (fun st e => let! (c, iss) := validate_operation (fst e) (snd e) (snd st) in Ok (fst st ++ [c], iss))
      (enum_from k (map read_op l)) (acc, iss) = Ok (acc ++ map left_op l, shapes k l iss)).
    { induction H as [|o t Ho _ IH]; intros k acc iss; cbn [map enum_from foldM]; [rewrite app_nil_r; reflexivity|].
      cbn [fst snd]. rewrite validate_one' by exact Ho. cbn [bind fst]. rewrite IH, <- app_assoc. reflexivity. }
    unfold enumerate. rewrite G. reflexivity.
  Qed.
  Lemma primary_none' l : forall k, primary_entries k (map left_op l) = Ok [].
  Proof.
    induction l as [|o t IH]; intros k; [reflexivity|]. cbn [map primary_entries].
    assert (E : get_item_str (left_op o) ($"primary") = Ok VMissing) by (unfold left_op; destruct (pathless o); unfold read_op; destruct (path_value o), (o_value o); reflexivity).
    rewrite E. cbn [bind]. rewrite IH. reflexivity.
  Qed.

  (** The same report, seen from outside. *)
  Definition like (i j : issues) : Prop := report i /\ forall p, errs_at i p = errs_at j p.

  Lemma process_ops' l : Forall readable l -> exists js, process ops_attr MParse (VList (map raw_op l)) = Ok (VList (map left_op l), js)
    /\ report js /\ forall p, errs_at js p = shape_outs l p.
  Proof.
    intros H. unfold ops_attr, operations_attr, mk_complex. cbn [bound_attr]. rewrite process_complex.
    set (i := mkInfo _ _ _ _ _ _ _ _ _ _ _ _ _ _ _).
    assert (E : base_process MParse i (VList (map raw_op l)) = Ok (VList (map raw_op l), no_issues)).
    { unfold base_process. cbn [i a_multi with_multi is_list negb andb]. change (a_multi i) with true. cbn [negb andb is_list].
      unfold enumerate. rewrite type_items by reflexivity. reflexivity. }
    rewrite E. cbn [bind]. change (can_proceed no_issues []) with true. cbn [negb orb].
    unfold complex_part. change (a_multi i) with true. cbn [iter_value bind]. unfold enumerate.
    change (dedup_attrs (dedup_attrs [op_attr; path_attr; value_attr])) with [op_attr; path_attr; value_attr].
    rewrite read_items' by exact H. cbn [bind app]. change (has_issues no_issues []) with false.
    change (a_multi (with_multi (with_required (plain ops_name TComplex)))) with true. unfold run_procs. cbn [app foldM fst snd].
    rewrite validate_all' by exact H. cbn [bind fst snd]. unfold single_primary. cbn [iter_value bind]. rewrite primary_none'. cbn [bind length Nat.ltb Nat.leb].
    pose proof (shapes_report l 0 no_issues report_empty) as R.
    eexists. split; [reflexivity|]. split.
    - repeat apply report_merge; auto using report_empty.
    - intros p. rewrite errs_merge by (auto using report_empty, report_merge). cbn [loc_strip]. 
      rewrite errs_merge by (auto using report_empty). cbn [loc_strip]. rewrite shapes_0. change (errs_at no_issues p) with (@nil error). cbn [app]. apply app_nil_r.
  Qed.

  Definition left_request (l : list operation) : value := tabled [($"schemas", VList [VStr patch_uri]); ($"Operations", VList (map left_op l))].
  Definition under_ops (f : loc -> list error) (p : loc) : list error := match loc_strip [LStr ops_name] p with Some q => f q | None => [] end.

  Lemma read_all' l : Forall readable l -> exists js, schema_parse patch_schema (request l) = Ok (left_request l, js)
    /\ report js /\ forall p, errs_at js p = under_ops (shape_outs l) p.
  Proof.
    intros H. unfold schema_parse, base_parse, request, dict_of. fold (dict_of [($"schemas", VList [VStr patch_uri]); ($"Operations", VList (map op_json l))]).
    fold (request l). unfold process_data. rewrite mk_request, tops. cbn [process_attrs].
    assert (E1 : forall x y, get_item (tabled [($"schemas", x); ($"Operations", y)]) (arep uris_attr) = Ok x) by reflexivity.
    assert (E2 : forall x y, get_item (tabled [($"schemas", x); ($"Operations", y)]) (arep ops_attr) = Ok y) by reflexivity.
    rewrite E1, E2. cbn [bind].
    assert (E3 : process uris_attr MParse (VList [VStr patch_uri]) = Ok (VList [VStr patch_uri], no_issues)) by reflexivity.
    rewrite E3. cbn [bind]. 
    assert (E4 : forall x, set_item empty_cont (arep uris_attr) x = Ok (tabled [($"schemas", x)])) by reflexivity.
    rewrite E4. cbn [bind]. destruct (process_ops' l H) as [js [P1 [P2 P3]]]. rewrite P1. cbn [bind].
    assert (E5 : forall x y, set_item (tabled [($"schemas", x)]) (arep ops_attr) y = Ok (tabled [($"schemas", x); ($"Operations", y)])) by reflexivity.
    rewrite E5. cbn [bind]. rewrite !merge_nil.
    set (i0 := merge no_issues js (attr_loc ops_attr)). set (i1 := merge no_issues i0 []).
    assert (R0 : report i0) by (apply report_merge; auto using report_empty).
    assert (R1 : report i1) by (apply report_merge; auto using report_empty).
    assert (A1 : forall p, errs_at i1 p = under_ops (shape_outs l) p).
    { intros p. unfold i1. rewrite errs_merge by auto using report_empty. unfold i0. cbn [loc_strip]. rewrite errs_merge by auto using report_empty.
      change (errs_at no_issues p) with (@nil error). cbn [app]. unfold under_ops.
      change (attr_loc ops_attr) with [LStr ops_name]. destruct (loc_strip _ p); [apply P3 | reflexivity]. }
    assert (E6 : attr_named (sc_attrs patch_schema) ($"schemas") = Some uris_attr) by reflexivity.
    rewrite E6, E1. cbn [bind].
    assert (C : can_proceed i1 [schemas_loc] = true).
    { apply clear_proceeds; [exact R1|]. intros q [<-|[]]. intros a Ha. rewrite A1. destruct Ha as [b Ha]. unfold under_ops.
      destruct a as [|x [|x' a]]; [reflexivity| |discriminate Ha]. injection Ha as <- _. reflexivity. }
    rewrite C. cbn [andb truthy]. exists (merge i1 no_issues []). split; [reflexivity|]. split; [apply report_merge; auto using report_empty|].
    intros p. rewrite errs_merge by auto using report_empty. cbn [loc_strip]. change (errs_at no_issues p) with (@nil error). rewrite app_nil_r. apply A1.
  Qed.

  (** ** The loop over the operations *)

  Definition left_value (o : operation) : value := if pathless o then VMissing else opt (option_map wrap (o_value o)).

  Lemma ops_column' l sub (f : operation -> value) : (forall o, In o l -> get_item (left_op o) (simple_name sub) = Ok (f o)) -> attr_ok sub -> sub <> [] ->
    get_item (left_request l) (ops_rep patch_uri sub) = Ok (VList (map f l)).
  Proof.
    intros H Hok Hne. unfold left_request, tabled. rewrite get_item_eq. cbn [ops_rep r_schema r_attr r_sub map fst].
    transitivity (get_sub (VList (map left_op l)) sub); [reflexivity|].
    unfold get_sub. destruct sub as [|c t]; [contradiction|].
    assert (E : mapM (fun y => let! r' := mk_rep [] (c :: t) [] false in get_item y r') (map left_op l) = Ok (map f l)).
    { rewrite (mk_rep_plain (c :: t) [] Hok). cbn [bind]. induction l as [|o l IH]; [reflexivity|]. cbn [map mapM].
      unfold simple_name in H. rewrite H by (left; reflexivity). cbn [bind]. rewrite IH by (intros o' Ho; apply H; right; exact Ho). reflexivity. }
    rewrite E. reflexivity.
  Qed.
  Lemma columns' l : Forall readable l ->
    get_item (left_request l) (ops_rep patch_uri ($"op")) = Ok (VList (map (fun o => VStr (o_kind o)) l))
    /\ get_item (left_request l) (ops_rep patch_uri ($"path")) = Ok (VList (map (fun o => opt (path_value o)) l))
    /\ get_item (left_request l) (ops_rep patch_uri ($"value")) = Ok (VList (map left_value l)).
  Proof.
    intros Hr. rewrite Forall_forall in Hr.
    split; [|split]; apply ops_column'; try (apply attr_name_ok_spec; reflexivity); try discriminate;
      intros o Ho; unfold left_op, left_value; destruct (pathless o) eqn:P; unfold read_op;
      try (destruct (path_value o), (o_value o); reflexivity); try reflexivity.
    assert (E : path_value o = None); [|rewrite E; reflexivity].
    unfold pathless in P. apply andb_prop in P as [_ P]. unfold path_value. destruct (o_path o); [discriminate P | reflexivity].
  Qed.

  Definition faultyb (o : operation) : bool := pathless o || valueless o || bare o.
  Definition skipped (o : operation) : value :=
    mk_cont (dict_of [($"op", VStr (o_kind o)); ($"path", opt (path_value o)); ($"value", left_value o)]).
  Definition outcome' (s : schema) (o : operation) : res outcome := if faultyb o then Ok (skipped o, no_issues) else outcome_of s o.

  Lemma shape_errs_none o q : faultyb o = false -> shape_errs o q = [].
  Proof. unfold faultyb, shape_errs. destruct (pathless o), (valueless o), (bare o); try discriminate. reflexivity. Qed.
  Lemma shape_errs_some o : faultyb o = true -> exists q, shape_errs o q <> [].
  Proof.
    unfold faultyb, shape_errs. destruct (pathless o) eqn:P; [intros _; exists [LStr ($"path")]; destruct (loc_dec _ _) as [_|N]; [discriminate | contradiction N; reflexivity]|].
    destruct (valueless o) eqn:V; [intros _; exists [LStr ($"value")]; destruct (loc_dec [LStr ($"value")] _) as [_|N]; [discriminate | contradiction N; reflexivity]|].
    destruct (bare o) eqn:B; [intros _; exists [LStr ($"path")]; destruct (loc_dec _ _) as [_|N]; [discriminate | contradiction N; reflexivity]|]. discriminate.
  Qed.

  Lemma ops_loop' s l : (forall o v iss, In o l -> outcome_of s o = Ok (v, iss) -> wf iss) -> Forall readable l -> forall i acc iss, wf iss ->
    (forall j o p, nth_error l j = Some o -> errs_at iss (at_op (i + j) ++ p) = shape_errs o p) ->
    let run := parse_operations s i (map (fun o => VStr (o_kind o)) l) (map (fun o => opt (path_value o)) l) (map left_value l) acc iss in
    match mapM (outcome' s) l with
    | Raise e => run = Raise e
    | Ok outs => exists iss', run = Ok (acc ++ map fst outs, iss') /\ wf iss' /\ forall p, errs_at iss' p = errs_at iss p ++ ops_errs i outs p
    end.
  Proof.
    intros Hw Ho. induction Ho as [|o l Ho Hl IH]; intros i acc iss Hi Hfree run; unfold run; clear run.
    - cbn [map parse_operations mapM]. exists iss. rewrite app_nil_r. split; [reflexivity|]. split; [exact Hi|].
      intros p. unfold ops_errs. cbn [items_errs]. destruct (loc_strip _ _); rewrite app_nil_r; reflexivity.
    - cbn [map parse_operations mapM].
      assert (Hsh : forall p, errs_at iss (at_op i ++ p) = shape_errs o p).
      { intros p. rewrite <- (Hfree 0 o p eq_refl), Nat.add_0_r. reflexivity. }
      assert (E : parse_operation s i (VStr (o_kind o)) (opt (path_value o)) (left_value o) iss
                  = let! (v, iss') := outcome' s o in Ok (v, if faultyb o then iss else merge iss iss' (at_op i))).
      { unfold parse_operation, outcome'. change (op_loc i) with (at_op i). destruct (faultyb o) eqn:F.
        - assert (Hi' : has_issues iss [at_op i] = true).
          { destruct (shape_errs_some o F) as [q Hq]. apply has_issues_spec. exists (at_op i), q. split; [left; reflexivity|].
            destruct (in_dec loc_dec (at_op i ++ q) (map fst (i_errs iss))) as [X|X]; [exact X|]. apply (errs_at_nil_iff _ _ Hi) in X. rewrite Hsh in X. contradiction. }
          rewrite Hi'. reflexivity.
        - rewrite no_issues_below; [|exact Hi|intros t; rewrite Hsh; apply shape_errs_none; exact F].
          assert (P : pathless o = false) by (unfold faultyb in F; destruct (pathless o); [discriminate F | reflexivity]).
          unfold outcome_of, left_value. rewrite P. destruct Ho as [_ [_ [-> |[->| ->]]]]; reflexivity. }
      rewrite E. clear E.
      assert (Hwo : forall v js, outcome' s o = Ok (v, js) -> wf js).
      { intros v js. unfold outcome'. destruct (faultyb o); [intros E; injection E as _ <-; apply wf_no_issues|]. apply Hw. left. reflexivity. }
      assert (Hn : forall v js p, outcome' s o = Ok (v, js) -> faultyb o = true -> errs_at js p = []).
      { intros v js p E F. unfold outcome' in E. rewrite F in E. injection E as _ <-. reflexivity. }
      destruct (outcome' s o) as [[v js]|e]; cbn [bind]; [|reflexivity].
      specialize (Hwo v js eq_refl). pose proof Hwo as [Hd [Hnd _]]. specialize (fun p => Hn v js p eq_refl).
      set (iss1 := if faultyb o then iss else merge iss js (at_op i)).
      assert (Hw1 : wf iss1) by (unfold iss1; destruct (faultyb o); [exact Hi | apply wf_merge; assumption]).
      assert (Hm : forall p, errs_at iss1 p = errs_at iss p ++ match loc_strip (at_op i) p with Some p' => errs_at js p' | None => [] end).
      { intros p. unfold iss1. destruct (faultyb o).
        - destruct (loc_strip _ _); [rewrite Hn by reflexivity|]; rewrite app_nil_r; reflexivity.
        - apply errs_at_merge; try assumption. exact (proj1 Hi). }
      specialize (IH (fun o' v' js' Hin => Hw o' v' js' (or_intror Hin)) (S i) (acc ++ [v]) iss1 Hw1).
      assert (Hfree' : forall j o' p, nth_error l j = Some o' -> errs_at iss1 (at_op (S i + j) ++ p) = shape_errs o' p).
      { intros j o' p Hj. rewrite Hm. rewrite <- (Hfree (S j) o' p Hj). replace (S i + j) with (i + S j) by lia.
        destruct (loc_strip _ _) as [p'|] eqn:E; [|apply app_nil_r].
        apply loc_strip_spec in E. cbn in E. injection E as E _. lia. }
      specialize (IH Hfree'). cbn zeta in IH. destruct (mapM (outcome' s) l) as [outs|e]; cbn [bind]; [|exact IH].
      destruct IH as [iss3 [R1 [R2 R3]]]. exists iss3. rewrite R1, <- app_assoc. split; [reflexivity|]. split; [exact R2|].
      intros p. rewrite R3, Hm, <- app_assoc. f_equal. unfold ops_errs.
      destruct (loc_strip [LStr ops_name] p) as [p1|] eqn:E1.
      + apply loc_strip_spec in E1 as ->. cbn [items_errs]. reflexivity.
      + rewrite app_nil_r. destruct (loc_strip (at_op i) p) as [p1|] eqn:E2; [|reflexivity].
        apply loc_strip_spec in E2 as ->. rewrite loc_strip_none in E1. exfalso. apply (E1 (LIdx i :: p1)). reflexivity.
  Qed.

  Lemma patch_result' s l : (forall o v iss, In o l -> outcome_of s o = Ok (v, iss) -> wf iss) -> Forall readable l ->
    match mapM (outcome' s) l with
    | Raise e => patch_parse s (request l) = Raise e
    | Ok outs => exists iss, patch_parse s (request l) = Ok (answer (map fst outs), iss) /\ wf iss
                 /\ forall p, errs_at iss p = under_ops (shape_outs l) p ++ ops_errs 0 outs p
    end.
  Proof.
    intros Hw Ho. unfold patch_parse. destruct (read_all' l Ho) as [js [J1 [J2 J3]]]. rewrite J1. cbn [bind].
    assert (C : can_proceed js [[LStr ops_name]] = true).
    { apply clear_proceeds; [exact J2|]. intros q [<-|[]]. intros a [b Ha]. rewrite J3. unfold under_ops.
      destruct a as [|x [|x' a]]; [reflexivity| |discriminate Ha]. injection Ha as <- _. reflexivity. }
    rewrite C. cbn [negb]. destruct (columns' l Ho) as [E1 [E2 E3]]. rewrite E1, E2, E3. cbn [bind iter_value].
    assert (F : forall j o p, nth_error l j = Some o -> errs_at js (at_op (0 + j) ++ p) = shape_errs o p).
    { intros j o p Hj. rewrite J3. unfold under_ops. change (at_op (0 + j) ++ p) with ([LStr ops_name] ++ LIdx j :: p). rewrite loc_strip_app.
      cbn [shape_outs]. rewrite Hj. reflexivity. }
    pose proof (ops_loop' s l Hw Ho 0 [] js (report_wf _ J2) F) as H. cbn zeta in H.
    destruct (mapM (outcome' s) l) as [outs|e]; [|rewrite H; reflexivity].
    destruct H as [iss [R1 [R2 R3]]]. exists iss. rewrite R1. cbn [bind app]. split; [reflexivity|]. split; [exact R2|].
    intros p. rewrite R3, J3. reflexivity.
  Qed.

  (** ** Faults *)

  Lemma shape_fault_iff o e q : readable o -> (In e (shape_errs o q) <-> shape_fault o e q).
  Proof.
    intros Hr. pose proof (path_cases' o Hr) as Hc. destruct Hr as [_ [Hm _]].
    assert (P : pathless o = true <-> o_kind o = $"remove" /\ o_path o = None).
    { unfold pathless. rewrite Bool.andb_true_iff, str_eqb_eq. destruct (o_path o); split; intros [A B]; split; try assumption; try discriminate; reflexivity. }
    assert (V : valueless o = true <-> o_kind o = $"add" /\ ~ given (o_value o)).
    { unfold valueless, given. rewrite Bool.andb_true_iff, str_eqb_eq. split; intros [A B]; (split; [exact A|]).
      - intros [v [E [N1 N2]]]. rewrite E in B. destruct v; try discriminate B. apply N1. reflexivity.
      - destruct (o_value o) as [v|] eqn:E; [|reflexivity]. destruct v; try reflexivity; exfalso; try (apply B; eexists; split; [reflexivity|]; split; discriminate). apply Hm. reflexivity. }
    assert (B : bare o = true <-> o_kind o = $"add" /\ exists t p, o_path o = Some t /\ reads t p /\ p_filter p <> None /\ p_sub p = None).
    { unfold bare. rewrite Bool.andb_true_iff, str_eqb_eq. destruct Hc as [[E1 E2]|[t [p [E1 [E2 E3]]]]].
      - rewrite E2. split; intros [A B]; [discriminate B|]. destruct B as [t [p [B _]]]. congruence.
      - rewrite E3. split; intros [A B]; (split; [exact A|]).
        + exists t, p. split; [exact E1|]. split; [exact E2|]. destruct (p_filter p); [|discriminate B]. destruct (p_sub p); [discriminate B|]. split; [discriminate | reflexivity].
        + destruct B as [t' [p' [B1 [B2 [B3 B4]]]]]. assert (t' = t) by congruence. subst t'. unfold reads in *. rewrite E2 in B2. injection B2 as <-.
          rewrite B4. destruct (p_filter p); [reflexivity | contradiction B3; reflexivity]. }
    unfold shape_errs. rewrite !in_app_iff. split.
    - intros [H|[H|H]].
      + destruct (pathless o); [|destruct H]. destruct (loc_dec _ _) as [<-|_]; [|destruct H]. destruct H as [<-|[]]. destruct (proj1 P eq_refl). constructor; assumption.
      + destruct (valueless o); [|destruct H]. destruct (loc_dec _ _) as [<-|_]; [|destruct H]. destruct H as [<-|[]]. destruct (proj1 V eq_refl). constructor; assumption.
      + destruct (bare o); [|destruct H]. destruct (loc_dec _ _) as [<-|_]; [|destruct H]. destruct H as [<-|[]].
        destruct (proj1 B eq_refl) as [B1 [t [p [B2 [B3 [B4 B5]]]]]]. exact (add_to_selection o t p B1 B2 B3 B4 B5).
    - intros [H1 H2|H1 H2|t p H1 H2 H3 H4 H5].
      + left. rewrite (proj2 P (conj H1 H2)). destruct (loc_dec _ _) as [_|N]; [left; reflexivity | contradiction N; reflexivity].
      + right. left. rewrite (proj2 V (conj H1 H2)). destruct (loc_dec _ _) as [_|N]; [left; reflexivity | contradiction N; reflexivity].
      + right. right. rewrite (proj2 B (conj H1 (ex_intro _ t (ex_intro _ p (conj H2 (conj H3 (conj H4 H5))))))). destruct (loc_dec _ _) as [_|N]; [left; reflexivity | contradiction N; reflexivity].
  Qed.
  Lemma faulty_iff o : readable o -> (faultyb o = true <-> faulty o).
  Proof.
    intros Hr. split.
    - intros F. destruct (shape_errs_some o F) as [q Hq]. destruct (shape_errs o q) as [|e t] eqn:E; [contradiction|].
      exists e, q. apply (shape_fault_iff o e q Hr). rewrite E. left. reflexivity.
    - intros [e [q H]]. apply (shape_fault_iff o e q Hr) in H. destruct (faultyb o) eqn:F; [reflexivity|]. rewrite (shape_errs_none _ _ F) in H. destruct H.
  Qed.
End Env.
