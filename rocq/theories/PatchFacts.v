(** Lemmas about patch operations. *)
From Verif Require Import PyBase BaseFacts PyNum Issues IssuesSpec IssuesFacts AttrRep AttrRepSpec Value Container ContainerSpec ContainerFacts ContainerRW AttrRepFacts ValueFacts Types Attr Schema FilterParse Path Patch
  AttrSpec AttrFacts AttrItems SchemaSpec SchemaFacts SchemaBuild PropSchema PresenceSpec PresenceFacts.
From Verif Require Import PatchSpec.
Section Env.
  Context {env : PyEnv}.
  (** ** Reading the request *)
  Definition tabled (l : list (str * value)) : value := VCont l (map (fun e => (lower (fst e), fst e)) l).
  Definition path_value (o : operation) : option value :=
    match o_path o with
    | None => None
    | Some t => match parse_path t with Ok (v, _) => Some v | Raise _ => None end
    end.
  Definition raw_op (o : operation) : value :=
    tabled (($"op", VStr (o_kind o)) :: field ($"path") (option_map VStr (o_path o)) ++ field ($"value") (option_map wrap (o_value o))).
  Definition read_op (o : operation) : value :=
    tabled (($"op", VStr (o_kind o)) :: field ($"path") (path_value o) ++ field ($"value") (option_map wrap (o_value o))).
  Lemma items_map l : (fix items (l : list value) : list value :=
      match l with [] => [] | y :: t' => match y with VDict _ => mk_cont y | _ => y end :: items t' end) l = map wrap_item l.
  Proof. induction l as [|y t IH]; [reflexivity|]. cbn [map]. rewrite IH. reflexivity. Qed.
  Lemma mk_op o : mk_cont (op_json o) = raw_op o.
  Proof.
    destruct o as [k [t|] [v|]]; try reflexivity; destruct v; try reflexivity;
      unfold raw_op, op_json; cbn [o_kind o_path o_value option_map field app wrap]; rewrite <- items_map; reflexivity.
  Qed.
  Lemma mk_request l : mk_cont (request l) = tabled [($"schemas", VList [VStr patch_uri]); ($"Operations", VList (map raw_op l))].
  Proof.
    transitivity (tabled [($"schemas", VList [VStr patch_uri]); ($"Operations", VList (map wrap_item (map op_json l)))]).
    - rewrite <- items_map. reflexivity.
    - unfold tabled. cbn [map]. rewrite map_map. do 4 f_equal. f_equal. apply map_ext. intros o. apply mk_op.
  Qed.

  Lemma value_ok v : process value_attr MParse v = Ok (v, no_issues).
  Proof. destruct v; reflexivity. Qed.
  Lemma op_ok k : k = $"add" \/ k = $"remove" \/ k = $"replace" -> process op_attr MParse (VStr k) = Ok (VStr k, no_issues).
  Proof. intros [->|[->| ->]]; reflexivity. Qed.
  Lemma path_ok t p : reads t p -> process path_attr MParse (VStr t) = Ok (VPath p, no_issues).
  Proof.
    intros H. transitivity (run_procs [path_parser] (VStr t) no_issues); [reflexivity|].
    unfold run_procs. cbn [foldM fst snd path_parser]. unfold reads in H. rewrite H. reflexivity.
  Qed.

  Lemma kind_cases o : in_order o -> o_kind o = $"add" \/ o_kind o = $"remove" \/ o_kind o = $"replace".
  Proof. intros [_ [_ [H|[[H _]|[H _]]]]]; auto. Qed.

  Lemma path_cases o : in_order o ->
    (o_path o = None /\ path_value o = None) \/ exists t p, o_path o = Some t /\ reads t p /\ path_value o = Some (VPath p).
  Proof.
    intros [H _]. unfold path_value. destruct (o_path o) as [t|]; [|auto]. right.
    destruct (H t eq_refl) as [p Hp]. exists t, p. split; [reflexivity|]. split; [exact Hp|]. unfold reads in Hp. rewrite Hp. reflexivity.
  Qed.

  Lemma cont_of v : exists d l2o, mk_cont v = VCont d l2o.
  Proof. pose proof (mk_cont_is_cont v) as H. destruct (mk_cont v) as [| | | | | | | | | |d l2o| | | | | |]; try discriminate H. eauto. Qed.
  Lemma wrap_not_missing v : v <> VMissing -> wrap v <> VMissing.
  Proof. destruct v; try (intros _ H; discriminate H); try (intros H; exact H). intros _. cbn [wrap].
    destruct (cont_of (VDict d)) as [? [? ->]]. discriminate. Qed.

  Lemma step_value c s v parsed p parsed' : get_item c (arep s) = Ok v -> v <> VMissing ->
    forall y, process s MParse v = Ok (y, no_issues) -> set_item parsed (arep s) y = Ok parsed' ->
    forall t, walk MParse c p (s :: t) parsed no_issues = walk MParse c p t parsed' no_issues.
  Proof.
    intros Hg Hm y Hp Hs t. rewrite walk_cons, Hg. cbn [bind].
    assert (E : (let! (y, iss') := process s MParse v in let! parsed' := set_item parsed (arep s) y in
                 walk MParse c p t parsed' (merge no_issues iss' (p ++ [LStr (r_attr (arep s))]))) = walk MParse c p t parsed' no_issues).
    { rewrite Hp. cbn [bind]. rewrite Hs. cbn [bind]. rewrite merge_nil. reflexivity. }
    destruct v; try exact E. congruence.
  Qed.
  Lemma step_missing c s parsed p : get_item c (arep s) = Ok VMissing ->
    forall t, walk MParse c p (s :: t) parsed no_issues = walk MParse c p t parsed no_issues.
  Proof. intros Hg t. rewrite walk_cons, Hg. reflexivity. Qed.

  Lemma read_one o k : in_order o -> walk MParse (mk_cont (raw_op o)) [LIdx k] [op_attr; path_attr; value_attr] empty_cont no_issues = Ok (read_op o, no_issues).
  Proof.
    intros H. change (mk_cont (raw_op o)) with (raw_op o).
    rewrite (step_value _ _ (VStr (o_kind o)) _ _ (tabled [($"op", VStr (o_kind o))])) with (y := VStr (o_kind o));
      [|destruct o as [k0 [t|] [v|]]; reflexivity | discriminate | apply op_ok, kind_cases; exact H | reflexivity].
    assert (Hv : forall w, o_value o = Some w -> wrap w <> VMissing).
    { intros w E. apply wrap_not_missing. destruct H as [_ [H _]]. congruence. }
    assert (Hw : forall l, get_item (raw_op o) (arep value_attr) = Ok (match o_value o with Some v => wrap v | None => VMissing end) ->
      (forall w, set_item (tabled l) (arep value_attr) w = Ok (tabled (l ++ [($"value", w)]))) ->
      walk MParse (raw_op o) [LIdx k] [value_attr] (tabled l) no_issues = Ok (tabled (l ++ field ($"value") (option_map wrap (o_value o))), no_issues)).
    { intros l Hg Hs. destruct (o_value o) as [v|].
      - rewrite (step_value _ _ (wrap v) _ _ (tabled (l ++ [($"value", wrap v)]))) with (y := wrap v); auto using value_ok. 
      - rewrite step_missing by exact Hg. cbn [option_map field walk]. rewrite app_nil_r. reflexivity. }
    assert (Hg : get_item (raw_op o) (arep value_attr) = Ok (match o_value o with Some v => wrap v | None => VMissing end))
      by (destruct o as [k0 [t|] [v|]]; reflexivity).
    unfold read_op. destruct (path_cases o H) as [[E1 E2]|[t [p [E1 [E2 E3]]]]].
    - rewrite step_missing by (destruct o as [k0 [t|] [v|]]; cbn in E1; try discriminate E1; reflexivity).
      rewrite E2. cbn [field app]. change (?a :: field ?b ?c) with ([a] ++ field b c). apply Hw; [exact Hg | reflexivity].
    - rewrite (step_value _ _ (VStr t) _ _ (tabled [($"op", VStr (o_kind o)); ($"path", VPath p)])) with (y := VPath p);
        [|destruct o as [k0 [t'|] [v|]]; cbn in E1; try discriminate E1; injection E1 as ->; reflexivity | discriminate | apply path_ok; exact E2 | reflexivity].
      rewrite E3. cbn [field app]. change (?a :: ?a' :: field ?b ?c) with ([a; a'] ++ field b c). apply Hw; [exact Hg | reflexivity].
  Qed.

  Lemma read_items l : Forall in_order l -> forall k acc,
    foldM (complex_items MParse [op_attr; path_attr; value_attr]) (enum_from k (map raw_op l)) (acc, no_issues) = Ok (acc ++ map read_op l, no_issues).
  Proof.
    induction 1 as [|o t Ho _ IH]; intros k acc; cbn [map enum_from foldM]; [rewrite app_nil_r; reflexivity|].
    unfold complex_items at 1. cbn [fst snd]. rewrite read_one by exact Ho. cbn [bind]. rewrite IH, <- app_assoc. reflexivity.
  Qed.

  Lemma type_items i l : a_type i = TComplex -> a_canon i = None -> forall k acc,
    foldM (item_step MParse i) (enum_from k (map raw_op l)) (acc, no_issues) = Ok (acc ++ map raw_op l, no_issues).
  Proof.
    intros Ht Hc. induction l as [|o t IH]; intros k acc; cbn [map enum_from foldM]; [rewrite app_nil_r; reflexivity|].
    unfold item_step at 1. rewrite Ht. change (type_proc MParse TComplex (raw_op o)) with (Ok (raw_op o, no_issues)). cbn [bind]. unfold canon_step.
    assert (E : is_canonical i (raw_op o) = true) by (unfold is_canonical, raw_op, tabled; rewrite Hc; reflexivity).
    rewrite E, merge_nil. cbn [bind fst snd]. rewrite IH, <- app_assoc. reflexivity.
  Qed.

  Lemma validate_one o k : in_order o -> validate_operation k (read_op o) no_issues = Ok (read_op o, no_issues).
  Proof.
    intros H. unfold validate_operation.
    assert (E1 : get_item (read_op o) (arep op_attr) = Ok (VStr (o_kind o))) by (unfold read_op; destruct (path_value o), (o_value o); reflexivity).
    assert (E2 : get_item (read_op o) (arep path_attr) = Ok (match path_value o with Some v => v | None => VMissing end))
      by (unfold read_op; destruct (path_value o), (o_value o); reflexivity).
    assert (E3 : get_item (read_op o) (arep value_attr) = Ok (match o_value o with Some v => wrap v | None => VMissing end))
      by (unfold read_op; destruct (path_value o), (o_value o); reflexivity).
    rewrite E1, E2, E3. cbn [bind]. pose proof (path_cases o H) as Hc. destruct H as [H1 [H2 [H|[[H [H3 H4]]|[H H3]]]]]; rewrite H.
    - reflexivity.
    - change (str_is (VStr ($"add")) ($"remove")) with false. change (str_is (VStr ($"add")) ($"add")) with true. cbn [andb].
      destruct H3 as [v [Ev [Hn Hm]]]. rewrite Ev.
      assert (E : is_none_or_missing (wrap v) = false) by (destruct v; try congruence; try reflexivity; cbn [wrap]; destruct (cont_of (VDict d)) as [? [? ->]]; reflexivity).
      rewrite E. destruct Hc as [[_ ->]|[t [p [Et [Hp ->]]]]]; [reflexivity|]. cbn [truthy].
      specialize (H4 t p Et Hp). destruct (p_filter p); [|reflexivity]. destruct (p_sub p); [reflexivity|]. exfalso. apply H4; [discriminate | reflexivity].
    - destruct Hc as [[Hc _]|[t [p [_ [_ ->]]]]]; [contradiction|]. reflexivity.
  Qed.
  Lemma validate_all l : Forall in_order l -> validate_operations (VList (map read_op l)) = Ok (VList (map read_op l), no_issues).
  Proof.
    intros H. unfold validate_operations. cbn [iter_value bind].
    assert (G : forall k acc, foldM (fun st e => let! (c, iss) := validate_operation (fst e) (snd e) (snd st) in Ok (fst st ++ [c], iss))
      (enum_from k (map read_op l)) (acc, no_issues) = Ok (acc ++ map read_op l, no_issues)).
    { induction H as [|o t Ho _ IH]; intros k acc; cbn [map enum_from foldM]; [rewrite app_nil_r; reflexivity|].
      cbn [fst snd]. rewrite validate_one by exact Ho. cbn [bind fst]. rewrite IH, <- app_assoc. reflexivity. }
    unfold enumerate. rewrite G. reflexivity.
  Qed.
  Lemma primary_none l : forall k, primary_entries k (map read_op l) = Ok [].
  Proof.
    induction l as [|o t IH]; intros k; [reflexivity|]. cbn [map primary_entries].
    assert (E : get_item_str (read_op o) ($"primary") = Ok VMissing) by (unfold read_op; destruct (path_value o), (o_value o); reflexivity).
    rewrite E. cbn [bind]. rewrite IH. reflexivity.
  Qed.

  Definition ops_attr : attribute := bound_attr (mkRep patch_uri ops_name [] false) operations_attr.
  Definition uris_attr : attribute := bound_attr (mkRep patch_uri ($"schemas") [] false) schemas_attr.

  Lemma process_ops l : Forall in_order l -> process ops_attr MParse (VList (map raw_op l)) = Ok (VList (map read_op l), no_issues).
  Proof.
    intros H. unfold ops_attr, operations_attr, mk_complex. cbn [bound_attr]. rewrite process_complex.
    set (i := mkInfo _ _ _ _ _ _ _ _ _ _ _ _ _ _ _).
    assert (E : base_process MParse i (VList (map raw_op l)) = Ok (VList (map raw_op l), no_issues)).
    { unfold base_process. cbn [i a_multi with_multi is_list negb andb]. change (a_multi i) with true. cbn [negb andb is_list].
      unfold enumerate. rewrite type_items by reflexivity. reflexivity. }
    rewrite E. cbn [bind]. change (can_proceed no_issues []) with true. cbn [negb orb].
    unfold complex_part. change (a_multi i) with true. cbn [iter_value bind]. unfold enumerate.
    change (dedup_attrs (dedup_attrs [op_attr; path_attr; value_attr])) with [op_attr; path_attr; value_attr].
    rewrite read_items by exact H. cbn [bind app]. change (has_issues no_issues []) with false.
    change (a_multi (with_multi (with_required (plain ops_name TComplex)))) with true. unfold run_procs. cbn [app foldM fst snd].
    rewrite validate_all by exact H. cbn [bind fst snd]. unfold single_primary. cbn [iter_value bind]. rewrite primary_none. reflexivity.
  Qed.

  Lemma tops : at_top (sc_attrs patch_schema) = [uris_attr; ops_attr].
  Proof. reflexivity. Qed.

  Definition read_request (l : list operation) : value := tabled [($"schemas", VList [VStr patch_uri]); ($"Operations", VList (map read_op l))].

  Lemma read_all l : Forall in_order l -> schema_parse patch_schema (request l) = Ok (read_request l, no_issues).
  Proof.
    intros H. unfold schema_parse, base_parse, request, dict_of. fold (dict_of [($"schemas", VList [VStr patch_uri]); ($"Operations", VList (map op_json l))]).
    fold (request l). unfold process_data. rewrite mk_request, tops. cbn [process_attrs].
    assert (E1 : forall x y, get_item (tabled [($"schemas", x); ($"Operations", y)]) (arep uris_attr) = Ok x) by reflexivity.
    assert (E2 : forall x y, get_item (tabled [($"schemas", x); ($"Operations", y)]) (arep ops_attr) = Ok y) by reflexivity.
    rewrite E1, E2. cbn [bind].
    assert (E3 : process uris_attr MParse (VList [VStr patch_uri]) = Ok (VList [VStr patch_uri], no_issues)) by reflexivity.
    rewrite E3. cbn [bind]. 
    assert (E4 : forall x, set_item empty_cont (arep uris_attr) x = Ok (tabled [($"schemas", x)])) by reflexivity.
    rewrite E4. cbn [bind]. rewrite process_ops by exact H. cbn [bind].
    assert (E5 : forall x y, set_item (tabled [($"schemas", x)]) (arep ops_attr) y = Ok (tabled [($"schemas", x); ($"Operations", y)])) by reflexivity.
    rewrite E5. cbn [bind]. rewrite !merge_nil.
    assert (E6 : attr_named (sc_attrs patch_schema) ($"schemas") = Some uris_attr) by reflexivity.
    rewrite E6, E1. cbn [bind]. change (can_proceed no_issues [schemas_loc] && truthy (VList [VStr patch_uri])) with true.
    reflexivity.
  Qed.

  (** ** The lists of kinds, paths and values *)

  Definition opt (o : option value) : value := match o with Some v => v | None => VMissing end.

  Lemma ops_column l sub (f : operation -> value) : (forall o, get_item (read_op o) (simple_name sub) = Ok (f o)) -> attr_ok sub -> sub <> [] ->
    get_item (read_request l) (ops_rep patch_uri sub) = Ok (VList (map f l)).
  Proof.
    intros H Hok Hne. unfold read_request, tabled. rewrite get_item_eq. cbn [ops_rep r_schema r_attr r_sub map fst].
    transitivity (get_sub (VList (map read_op l)) sub); [reflexivity|].
    unfold get_sub. destruct sub as [|c t]; [contradiction|].
    assert (E : mapM (fun y => let! r' := mk_rep [] (c :: t) [] false in get_item y r') (map read_op l) = Ok (map f l)).
    { rewrite (mk_rep_plain (c :: t) [] Hok). cbn [bind]. induction l as [|o l IH]; [reflexivity|]. cbn [map mapM]. 
      unfold simple_name in H. rewrite H. cbn [bind]. rewrite IH. reflexivity. }
    rewrite E. reflexivity.
  Qed.

  Lemma columns l :
    get_item (read_request l) (ops_rep patch_uri ($"op")) = Ok (VList (map (fun o => VStr (o_kind o)) l))
    /\ get_item (read_request l) (ops_rep patch_uri ($"path")) = Ok (VList (map (fun o => opt (path_value o)) l))
    /\ get_item (read_request l) (ops_rep patch_uri ($"value")) = Ok (VList (map (fun o => opt (option_map wrap (o_value o))) l)).
  Proof.
    split; [|split]; apply ops_column; try (apply attr_name_ok_spec; reflexivity); try discriminate;
      intros o; unfold read_op; destruct (path_value o), (o_value o); reflexivity.
  Qed.

  (** ** The loop over the operations *)

  (** The outcome of one operation. *)
  Definition outcome_of (s : schema) (o : operation) : res outcome :=
    if str_eqb (o_kind o) ($"remove") then parse_remove s (opt (path_value o))
    else parse_add_or_replace s (VStr (o_kind o)) (opt (path_value o)) (opt (option_map wrap (o_value o))).

  Definition ops_errs (k : nat) (outs : list outcome) (p : loc) : list error :=
    match loc_strip [LStr ops_name] p with Some p' => items_errs k outs p' | None => [] end.

  Lemma no_issues_below i p : wf i -> (forall t, errs_at i (p ++ t) = []) -> has_issues i [p] = false.
  Proof.
    intros Hw H. destruct (has_issues i [p]) eqn:E; [|reflexivity]. apply has_issues_spec in E as [l [t [[<-|[]] E]]].
    exfalso. exact (proj1 (errs_at_nil_iff _ _ Hw) (H t) E).
  Qed.

  Lemma ops_loop s l : (forall o v iss, In o l -> outcome_of s o = Ok (v, iss) -> wf iss) -> Forall in_order l -> forall i acc iss, wf iss ->
    (forall j p, i <= j -> errs_at iss (at_op j ++ p) = []) ->
    let run := parse_operations s i (map (fun o => VStr (o_kind o)) l) (map (fun o => opt (path_value o)) l)
                 (map (fun o => opt (option_map wrap (o_value o))) l) acc iss in
    match mapM (outcome_of s) l with
    | Raise e => run = Raise e
    | Ok outs => exists iss', run = Ok (acc ++ map fst outs, iss') /\ wf iss' /\ forall p, errs_at iss' p = errs_at iss p ++ ops_errs i outs p
    end.
  Proof.
    intros Hw Ho. induction Ho as [|o l Ho Hl IH]; intros i acc iss Hi Hfree run; unfold run; clear run.
    - cbn [map parse_operations mapM]. exists iss. rewrite app_nil_r. split; [reflexivity|]. split; [exact Hi|].
      intros p. unfold ops_errs. cbn [items_errs]. destruct (loc_strip _ _); rewrite app_nil_r; reflexivity.
    - cbn [map parse_operations mapM].
      assert (E : parse_operation s i (VStr (o_kind o)) (opt (path_value o)) (opt (option_map wrap (o_value o))) iss
                  = let! (v, iss') := outcome_of s o in Ok (v, merge iss iss' (at_op i))).
      { unfold parse_operation. change (op_loc i) with (at_op i). rewrite no_issues_below; [|exact Hi|intros t; apply Hfree; lia].
        unfold outcome_of. destruct (kind_cases o Ho) as [-> |[->| ->]]; reflexivity. }
      rewrite E. clear E. pose proof (Hw o) as Hwo. destruct (outcome_of s o) as [[v js]|e]; cbn [bind]; [|reflexivity].
      specialize (Hwo v js (or_introl eq_refl) eq_refl). pose proof Hwo as [Hd [Hnd _]].
      assert (Hm : forall p, errs_at (merge iss js (at_op i)) p = errs_at iss p ++ match loc_strip (at_op i) p with Some p' => errs_at js p' | None => [] end).
      { intros p. apply errs_at_merge; try assumption. exact (proj1 Hi). }
      specialize (IH (fun o' v' js' Hin => Hw o' v' js' (or_intror Hin)) (S i) (acc ++ [v]) (merge iss js (at_op i)) (wf_merge _ _ _ Hi Hwo)).
      assert (Hfree' : forall j p, S i <= j -> errs_at (merge iss js (at_op i)) (at_op j ++ p) = []).
      { intros j p Hj. rewrite Hm, Hfree by lia. destruct (loc_strip _ _) as [p'|] eqn:E; [|reflexivity].
        apply loc_strip_spec in E. cbn in E. injection E as E _. lia. }
      specialize (IH Hfree'). cbn zeta in IH. destruct (mapM (outcome_of s) l) as [outs|e]; cbn [bind]; [|exact IH].
      destruct IH as [iss3 [R1 [R2 R3]]]. exists iss3. rewrite R1, <- app_assoc. split; [reflexivity|]. split; [exact R2|].
      intros p. rewrite R3, Hm, <- app_assoc. f_equal. unfold ops_errs.
      destruct (loc_strip [LStr ops_name] p) as [p1|] eqn:E1.
      + apply loc_strip_spec in E1 as ->. cbn [items_errs]. reflexivity.
      + rewrite app_nil_r. destruct (loc_strip (at_op i) p) as [p1|] eqn:E2; [|reflexivity].
        apply loc_strip_spec in E2 as ->. rewrite loc_strip_none in E1. exfalso. apply (E1 (LIdx i :: p1)). reflexivity.
  Qed.

  Definition answer (vs : list value) : value := tabled [($"schemas", VList [VStr patch_uri]); ($"Operations", VList vs)].

  Lemma patch_result s l : (forall o v iss, In o l -> outcome_of s o = Ok (v, iss) -> wf iss) -> Forall in_order l ->
    match mapM (outcome_of s) l with
    | Raise e => patch_parse s (request l) = Raise e
    | Ok outs => exists iss, patch_parse s (request l) = Ok (answer (map fst outs), iss) /\ wf iss /\ forall p, errs_at iss p = ops_errs 0 outs p
    end.
  Proof.
    intros Hw Ho. unfold patch_parse. rewrite read_all by exact Ho. cbn [bind]. change (can_proceed no_issues [[LStr ops_name]]) with true. cbn [negb].
    destruct (columns l) as [E1 [E2 E3]]. rewrite E1, E2, E3. cbn [bind iter_value].
    pose proof (ops_loop s l Hw Ho 0 [] no_issues wf_no_issues (fun _ _ _ => eq_refl)) as H. cbn zeta in H.
    destruct (mapM (outcome_of s) l) as [outs|e]; [|rewrite H; reflexivity].
    destruct H as [iss [R1 [R2 R3]]]. exists iss. rewrite R1. cbn [bind app]. split; [reflexivity|]. split; [exact R2|]. exact R3.
  Qed.

  Lemma ops_errs_nth outs i o p : nth_error outs i = Some o -> ops_errs 0 outs (at_op i ++ p) = errs_at (snd o) p.
  Proof.
    intros H. unfold ops_errs. change (at_op i ++ p) with ([LStr ops_name] ++ LIdx i :: p). rewrite loc_strip_app.
    change (LIdx i) with (LIdx (0 + i)). rewrite items_errs_nth, H. reflexivity.
  Qed.
  Lemma ops_errs_some outs p : ops_errs 0 outs p <> [] -> exists i o p', nth_error outs i = Some o /\ p = at_op i ++ p' /\ errs_at (snd o) p' <> [].
  Proof.
    unfold ops_errs. destruct (loc_strip _ _) as [p1|] eqn:E; [|intros []; reflexivity]. apply loc_strip_spec in E as ->. intros H.
    destruct p1 as [|[n|i] p1].
    - rewrite items_errs_other in H; [contradiction|discriminate].
    - rewrite items_errs_other in H; [contradiction|discriminate].
    - change (LIdx i) with (LIdx (0 + i)) in H. rewrite items_errs_nth in H. destruct (nth_error outs i) as [o|] eqn:En; [|contradiction].
      exists i, o, p1. auto.
  Qed.

  Lemma mapM_nth {A B} (f : A -> res B) l : forall outs i x, mapM f l = Ok outs -> nth_error l i = Some x -> exists y, nth_error outs i = Some y /\ f x = Ok y.
  Proof.
    induction l as [|a t IH]; intros outs i x H Hi; [destruct i; discriminate|]. cbn [mapM] in H.
    apply bind_ok in H as [y [Hy H]]. apply bind_ok in H as [ys [Hys H]]. injection H as <-.
    destruct i as [|i]; [injection Hi as ->; exists y; auto|]. exact (IH ys i x Hys Hi).
  Qed.
  Lemma mapM_nth_back {A B} (f : A -> res B) l : forall outs i y, mapM f l = Ok outs -> nth_error outs i = Some y -> exists x, nth_error l i = Some x /\ f x = Ok y.
  Proof.
    induction l as [|a t IH]; intros outs i y H Hi; cbn [mapM] in H; [injection H as <-; destruct i; discriminate|].
    apply bind_ok in H as [y0 [Hy H]]. apply bind_ok in H as [ys [Hys H]]. injection H as <-.
    destruct i as [|i]; [injection Hi as ->; exists a; auto|]. exact (IH ys i y Hys Hi).
  Qed.

  (** ** Reports are well formed *)

  Lemma wf_ldel l d : wf_errs d -> wf_errs (ldel l d).
  Proof.
    intros [H1 H2]. unfold ldel. split; [apply adel_NoDup; exact H1|].
    clear H1. induction H2 as [|[k es] t H2 H3 IH]; cbn [adel]; [constructor|]. destruct (loc_eqb k l); [exact H3|].
    constructor; assumption.
  Qed.
  Lemma wf_pop i l c : wf i -> wf (snd (pop_issues i l c)).
  Proof.
    intros [H1 H2]. unfold pop_issues. destruct (lget l (i_errs i)) as [es|]; [|split; assumption].
    destruct (pop_loop (length es) 0 c es (lget l (i_stop i))) as [es' st']. cbn [snd]. split; [exact H1|]. cbn [i_errs].
    destruct es'; [apply wf_ldel; exact H2|]. apply wf_lset; [exact H2 | discriminate].
  Qed.
  Lemma wf_if b e p l i : wf i -> wf (add_if b e p l i).
  Proof. intros H. unfold add_if. destruct b; [apply wf_add|]; exact H. Qed.
  Lemma wf_fail e : wf (snd (fail e)).
  Proof. apply report_wf, report_fail. Qed.

  Lemma attrs_report m l : Forall sound_attr l -> forall data parsed iss y iss', report iss ->
    process_attrs m l data parsed iss = Ok (y, iss') -> report iss'.
  Proof.
    induction 1 as [|a t Ha _ IH]; intros data parsed iss y iss' Hr H; cbn [process_attrs] in H; [injection H as <- <-; exact Hr|].
    apply bind_ok in H as [x [Hx H]].
    assert (G : (let! (y, iss') := process a m x in let! processed' := set_item parsed (arep a) y in
                 process_attrs m t data processed' (merge iss iss' (attr_loc a))) = Ok (y, iss') -> report iss').
    { clear H. intros H. apply bind_ok in H as [[v js] [Hp H]]. apply bind_ok in H as [q [_ H]]. apply IH in H; [exact H|].
      apply report_merge; [exact Hr|]. exact (process_report a Ha m _ _ _ Hp). }
    destruct x; try exact (G H). exact (IH _ _ _ _ _ Hr H).
  Qed.
  Lemma schema_report m s doc y iss : Forall sound_attr (at_top (sc_attrs s)) -> base_parse m s doc = Ok (y, iss) -> report iss.
  Proof.
    intros Hs H.
    assert (G : (let! (data', iss') := process_data m s doc in
        let iss := merge no_issues iss' [] in
        match attr_named (sc_attrs s) ($"schemas") with
        | None => Raise AttributeErr
        | Some a =>
            let! schemas_ := get_item data' (arep a) in
            if can_proceed iss [schemas_loc] && truthy schemas_ then
              let! iss2 := validate_schemas_field data' schemas_ (sc_uri s) (sc_schemas s) in
              Ok (data', merge iss iss2 [])
            else Ok (data', iss)
        end) = Ok (y, iss) -> report iss).
    { clear H. intros H. apply bind_ok in H as [[d js] [Hp H]]. apply attrs_report in Hp; [|exact Hs|apply report_empty].
      destruct (attr_named _ _); [|discriminate]. apply bind_ok in H as [x [_ H]]. destruct (_ && _).
      - apply bind_ok in H as [js2 [Hv H]]. injection H as <- <-. apply validate_report in Hv as [Hv _].
        apply report_merge; [apply report_merge; [apply report_empty | exact Hp] | exact Hv].
      - injection H as <- <-. apply report_merge; [apply report_empty | exact Hp]. }
    unfold base_parse in H. destruct doc; try exact (G H); injection H as <- <-; apply report_fail.
  Qed.

  Lemma subs_wf l v : forall iss iss', wf iss -> read_only_subs l v iss = Ok iss' -> wf iss'.
  Proof.
    induction l as [|a t IH]; intros iss iss' Hw H; cbn [read_only_subs] in H; [injection H as <-; exact Hw|].
    destruct (is_read_only _); [|exact (IH _ _ Hw H)]. apply bind_ok in H as [x [_ H]]. exact (IH _ _ (wf_if _ _ _ _ _ Hw) H).
  Qed.
  Lemma attrs_wf l v : forall iss iss', wf iss -> read_only_attrs l v iss = Ok iss' -> wf iss'.
  Proof.
    induction l as [|a t IH]; intros iss iss' Hw H; cbn [read_only_attrs] in H; [injection H as <-; exact Hw|].
    apply bind_ok in H as [x [_ H]]. exact (IH _ _ (wf_if _ _ _ _ _ Hw) H).
  Qed.

  (** Schemas all of whose attributes have processors that return reports. *)
  Definition sound (s : schema) : Prop := Forall sound_attr (at_all (sc_attrs s)) /\ Forall sound_attr (at_top (sc_attrs s)).

  Lemma update_wf s r v w iss : sound s -> parse_update_value s r v = Ok (w, iss) -> wf iss.
  Proof.
    intros [Hs _] H. unfold parse_update_value in H. destruct (find_attr _ _) as [a|] eqn:Ef; [|injection H as <- <-; apply wf_no_issues].
    destruct (is_read_only _); [injection H as <- <-; apply wf_fail|]. apply bind_ok in H as [[v' js] [Hp H]].
    apply find_some in Ef as [Ef _]. rewrite Forall_forall in Hs. apply (process_report a (Hs a Ef)) in Hp. apply report_wf in Hp.
    destruct (has_issues js []); [injection H as <- <-; apply wf_merge; [apply wf_no_issues | exact Hp]|].
    destruct (_ && _); [|injection H as <- <-; apply wf_no_issues]. apply bind_ok in H as [js' [H1 H]]. injection H as <- <-.
    exact (subs_wf _ _ _ _ wf_no_issues H1).
  Qed.
  Lemma value_wf s p v w iss : sound s -> parse_operation_value s p v = Ok (w, iss) -> wf iss.
  Proof.
    intros Hs H. unfold parse_operation_value in H.
    assert (G : (let! (v', iss) := schema_parse s v in
        let iss := snd (pop_issues iss schemas_loc 27) in
        let iss := snd (pop_issues iss schemas_loc 28) in
        let iss := snd (pop_issues iss schemas_loc 29) in
        let! iss := read_only_attrs (at_all (sc_attrs s)) v' iss in
        Ok (v', iss)) = Ok (w, iss) -> wf iss).
    { clear H. intros H. apply bind_ok in H as [[v' js] [Hp H]]. cbn zeta in H. apply bind_ok in H as [js' [H1 H]]. injection H as <- <-.
      apply (attrs_wf _ _ _ _) in H1; [exact H1|]. do 3 apply wf_pop. apply report_wf. exact (schema_report _ _ _ _ _ (proj2 Hs) Hp). }
    destruct p; try discriminate H; try exact (G H).
    destruct (match find_attr _ _ with Some _ => _ | None => _ end); [|exact (update_wf _ _ _ _ _ Hs H)].
    destruct (p_filter p); [|exact (update_wf _ _ _ _ _ Hs H)]. destruct (p_sub p); exact (update_wf _ _ _ _ _ Hs H).
  Qed.
  Lemma path_wf s p iss : validate_operation_path s p = Ok iss -> wf iss.
  Proof.
    unfold validate_operation_path. destruct p; try discriminate. destruct (_ || _); intros H; injection H as <-; [apply wf_add|]; apply wf_no_issues.
  Qed.
  Lemma outcome_wf s o v iss : sound s -> outcome_of s o = Ok (v, iss) -> wf iss.
  Proof.
    intros Hs H. unfold outcome_of in H. destruct (str_eqb _ _).
    - unfold parse_remove in H. apply bind_ok in H as [js [Hp H]]. apply path_wf in Hp.
      destruct (has_issues js []); [injection H as <- <-; exact Hp|]. destruct (opt (path_value o)); try discriminate.
      destruct (find_attr _ (p_rep _)) as [a|]; [|discriminate]. destruct (p_sub _) as [r|].
      + destruct (find_attr _ r) as [b|]; [|discriminate]. injection H as <- <-. apply wf_if, wf_if, Hp.
      + injection H as <- <-. apply wf_if, wf_if, Hp.
    - unfold parse_add_or_replace in H. apply bind_ok in H as [js [Hp H]].
      assert (Hj : wf js) by (destruct (is_none_or_missing _); [injection Hp as <-; apply wf_no_issues | exact (path_wf _ _ _ Hp)]).
      destruct (has_issues js []); [injection H as <- <-; apply wf_merge; [apply wf_no_issues | exact Hj]|].
      apply bind_ok in H as [[v' js'] [Hv H]]. injection H as <- <-. apply wf_merge; [apply wf_no_issues | exact (value_wf _ _ _ _ _ Hs Hv)].
  Qed.
End Env.

(** ** Names of attributes *)

Lemma find_denotes s r a : find_attr (at_all (sc_attrs s)) r = Some a <-> denotes s r a.
Proof.
  unfold find_attr, denotes. generalize (at_all (sc_attrs s)) as l. induction l as [|b t IH]; cbn [find].
  - split; [discriminate|]. intros [l1 [l2 [H _]]]. destruct l1; discriminate.
  - destruct (rep_eqb (arep b) r) eqn:E.
    + split.
      * intros H; injection H as ->. exists [], t. split; [reflexivity|]. split; [apply same_rep_iff; exact E | constructor].
      * intros [l1 [l2 [H1 [H2 H3]]]]. destruct l1 as [|c l1]; injection H1 as -> H1; [reflexivity|].
        inversion H3 as [|? ? F _]; subst. exfalso. apply F, same_rep_iff, E.
    + rewrite IH. split.
      * intros [l1 [l2 [H1 [H2 H3]]]]. exists (b :: l1), l2. rewrite H1. split; [reflexivity|]. split; [exact H2|].
        constructor; [|exact H3]. intros F. apply same_rep_iff in F. congruence.
      * intros [l1 [l2 [H1 [H2 H3]]]]. destruct l1 as [|c l1]; injection H1 as -> H1.
        { apply same_rep_iff in H2. congruence. }
        inversion H3; subst. exists l1, l2. auto.
Qed.
Lemma find_unknown s r : find_attr (at_all (sc_attrs s)) r = None <-> unknown s r.
Proof.
  unfold find_attr, unknown. rewrite Forall_forall. split.
  - intros H b Hb F. apply same_rep_iff in F. pose proof (find_none _ _ H b Hb) as G. cbn in G. congruence.
  - intros H. destruct (find _ _) as [a|] eqn:E; [|reflexivity]. apply find_some in E as [E1 E2]. exfalso. apply (H a E1), same_rep_iff, E2.
Qed.

(** ** Schemas put together by the constructors are sound *)

Lemma bound_all_sound uri ext a : sound_attr a -> Forall sound_attr (bound_all uri ext a).
Proof.
  intros H. constructor; [apply bound_sound; exact H|]. apply Forall_forall. intros b Hb. apply in_map_iff in Hb as [c [<- Hc]].
  apply bound_sound. inversion H as [|? ? ? ? _ _ _ _ _ _ F]; subst; [destruct Hc|]. cbn [sub_attrs] in Hc. rewrite Forall_forall in F. apply F, Hc.
Qed.
Lemma mk_attrs_sound l : Forall sound_attr l -> Forall sound_attr (at_all (mk_attrs l)).
Proof.
  rewrite !Forall_forall. intros H a Ha. apply H. apply dedup_In in Ha as [[]|Ha]. exact Ha.
Qed.
Lemma flat_sound uri ext l : Forall sound_attr l -> Forall sound_attr (flat_map (bound_all uri ext) l).
Proof.
  rewrite !Forall_forall. intros H a Ha. apply in_flat_map in Ha as [b [Hb Ha]].
  pose proof (bound_all_sound uri ext b (H b Hb)) as F. rewrite Forall_forall in F. apply F, Ha.
Qed.
Lemma neat_sound l : neat l -> Forall sound_attr l.
Proof. intros [H _]. eapply Forall_impl; [|exact H]. intros a [Ha _]. exact Ha. Qed.
Lemma made_sound s : made s -> sound s.
Proof.
  intros H. split.
  - induction H as [uri l Hu Hn _|uri l name descr plural oi oe om get l' Hu Hn _|s e req s' _ IH _ Hn _ _ He].
    + apply mk_attrs_sound, flat_sound, neat_sound, Hn.
    + apply mk_attrs_sound, flat_sound, neat_sound, Hn.
    + unfold with_extension in He. destruct (smem _ _); [discriminate|].
      assert (E : sc_attrs s' = mk_attrs (at_all (sc_attrs s) ++ flat_map (bound_all (ex_uri e) true) (at_all (ex_attrs e)))).
      { destruct (ex_uri e), (at_all (ex_attrs e)); try discriminate He; injection He as <-; reflexivity. }
      rewrite E. apply mk_attrs_sound, Forall_app. split; [exact IH | apply flat_sound, neat_sound, Hn].
  - apply made_wf in H. destruct H as [_ H _ _]. eapply Forall_impl; [|exact H]. intros a [Ha _]. exact Ha.
Qed.

(** ** Reading parsed documents *)
Section Parsed.
  Context {env : PyEnv}.

  Lemma parsed_no_main s m doc y iss : wf_schema s -> is_object doc -> base_parse m s doc = Ok (y, iss) ->
    shelf (map fst (sc_exts s)) y /\ ~ has_key y (sc_uri s).
  Proof.
    intros Hw Hc H. destruct (parse_shape s m doc y iss Hw Hc H) as [outs [iss2 [Hg [-> _]]]].
    destruct (tops_fit s Hw) as [Hnd Hf].
    assert (Hfo : Forall (fun e => fits (map fst (sc_exts s)) (arep (fst e))) outs).
    { apply Forall_forall. intros [a o] Hin. rewrite Forall_forall in Hf. apply Hf. exact (proj1 (gather_top_In _ _ _ _ _ _ Hg Hin)). }
    destruct (put_tops_read _ _ Hnd Hfo (tops_apart s m _ outs Hw Hg) empty_cont (shelf_empty _)) as [Hsh _]. split; [exact Hsh|].
    destruct (put_tops_keys _ _ Hnd Hfo [] [] (shelf_empty _)) as [data [l2o [Ey [K1 _]]]]. change (VCont [] []) with empty_cont in Ey.
    rewrite Ey in *. destruct Hsh as [d' [m' [E' [Hidx _]]]]. injection E' as <- <-.
    intros [k Hk]. destruct (K1 _ _ Hk) as [G|[[a o] [G1 G2]]]; [discriminate|]. pose proof (Hidx _ _ Hk) as Hlk.
    cbn [fst] in G2. pose proof (proj1 (gather_top_In _ _ _ _ _ _ Hg G1)) as Hat. destruct Hw as [[W1 _] W2 _ W4].
    rewrite Forall_forall in W2. destruct (W2 a Hat) as [_ [_ [_ Sa]]]. unfold topkey in G2. destruct (r_ext (arep a)) eqn:Ee.
    - unfold sc_schemas in W1. cbn [map] in W1. inversion W1 as [|? ? N1 _]; subst. apply N1. rewrite <- Hlk. apply in_map. exact Sa.
    - apply (W4 a Hat Ee). unfold sc_schemas. cbn [map]. left. rewrite <- G2. symmetry. exact Hlk.
  Qed.

  (** What the parsed document holds is what reading it gives. *)
  Lemma parsed_get s m doc y iss a v : wf_schema s -> is_object doc -> base_parse m s doc = Ok (y, iss) -> only_declared m (at_top (sc_attrs s)) (mk_cont doc) y ->
    In a (at_top (sc_attrs s)) -> doc_holds y (arep a) v -> forall x, get_item y (arep a) = Ok x -> x = v.
  Proof.
    intros Hw Hc H Hd Ha Hh x Hx. destruct (parsed_no_main s m doc y iss Hw Hc H) as [Hsh Hmain].
    pose proof (ws_attrs _ Hw) as W. rewrite Forall_forall in W. destruct (W a Ha) as [_ [Hs [Hok Hsch]]]. unfold doc_holds in Hh.
    destruct (r_ext (arep a)) eqn:Ee.
    - destruct Hh as [sub [H1 H2]]. destruct Hsh as [data [l2o [-> [Hi Hu]]]]. destruct (Hu _ Hsch) as [N|[E1 [d2 [l2 [E2 I2]]]]].
      { destruct H1 as [d [q [k [E [G _]]]]]. injection E as <- <-. congruence. }
      assert (Es : sub = VCont d2 l2). { destruct H1 as [d [q [k [E [G1 G2]]]]]. injection E as <- <-. congruence. } subst sub.
      rewrite get_item_eq, E1, E2, Hs, (mk_rep_plain (r_attr (arep a)) [] Hok) in Hx. cbn [bind] in Hx. rewrite get_item_eq in Hx. cbn [r_schema r_attr r_sub] in Hx. change (lower []) with (@nil ascii) in Hx.
      destruct H2 as [d [q [k [E [G1 G2]]]]]. injection E as <- <-.
      destruct (sget [] l2) as [k0|] eqn:E0.
      + rewrite (mk_rep_plain (r_attr (arep a)) [] Hok) in Hx. cbn [bind] in Hx. destruct (sget k0 d2) as [z|] eqn:Ez; [|discriminate].
        apply I2 in E0. apply (proj1 (lower_nil _)) in E0. subst k0. exfalso.
        destruct Hd as [dd [ll [E D]]]. injection E as <- <-. destruct (D _ _ E2) as [[b [Hb [Hbe [Hn _]]]]|[d2' [l2' [E [_ D2]]]]].
        * pose proof (ws_names _ Hw b Hb Hbe) as F. apply F. rewrite <- Hn. unfold sc_schemas. cbn [map]. right. apply in_map, Hsch.
        * injection E as <- <-. destruct (D2 _ _ Ez) as [b [Hb [_ [_ [Hn _]]]]]. destruct (W b Hb) as [_ [_ [Hokb _]]]. rewrite <- Hn in Hokb.
          apply attr_name_ok_spec in Hokb. discriminate.
      + rewrite G1, G2 in Hx. cbn [get_sub] in Hx. congruence.
    - rewrite (get_core y (arep a) v Ee Hs) in Hx; [congruence | rewrite Hsch; exact Hmain | exact Hh].
  Qed.

  (** ** Processing never answers with the Missing marker *)

  Lemma type_gives m t v w iss : v <> VMissing -> type_proc m t v = Ok (w, iss) -> w <> VMissing.
  Proof.
    intros Hv H.
    assert (C : forall ok name, Ok (type_check ok name v) = Ok (w, iss) -> w <> VMissing).
    { intros ok name E. unfold type_check in E. destruct ok; injection E as <- _; [exact Hv | discriminate]. }
    destruct t; cbn [type_proc] in H; try exact (C _ _ H).
    - injection H as <- _. exact Hv.
    - unfold decimal_proc in H. destruct (is_int v); [|exact (C _ _ H)]. apply bind_ok in H as [[p js] [_ H]].
      assert (F : (let! f := to_float p in Ok (f, js)) = Ok (w, iss) -> w <> VMissing).
      { clear H. intros H. apply bind_ok in H as [f [Hf H]]. injection H as <- _. destruct p; try discriminate Hf; apply bind_ok in Hf as [g [_ Hf]]; injection Hf as <-; discriminate. }
      destruct p; try exact (F H). injection H as <- _. discriminate.
    - unfold integer_proc in H. destruct v; try exact (C _ _ H). apply bind_ok in H as [z [_ H]]. destruct (feqb _ _); [injection H as <- _; discriminate | exact (C _ _ H)].
    - unfold binary_proc in H. destruct v; try exact (C _ _ H). apply bind_ok in H as [[e|] [_ H]]; injection H as <- _; discriminate.
    - unfold external_proc in H. destruct v; try exact (C _ _ H). destruct (env_abs_url s); injection H as <- _; discriminate.
    - destruct m.
      + unfold datetime_parse in H. destruct v; try exact (C _ _ H). destruct (env_fromiso s); injection H as <- _; discriminate.
      + unfold datetime_dump in H. destruct v; try exact (C _ _ H). injection H as <- _. discriminate.
  Qed.
  Lemma procs_give ps v iss v' iss' : Forall giving ps -> v <> VMissing -> run_procs ps v iss = Ok (v', iss') -> v' <> VMissing.
  Proof.
    intros Hg Hv H. refine (run_procs_inv (fun v _ => v <> VMissing) ps v iss v' iss' _ Hv H).
    revert Hg. apply Forall_impl. intros p Hp x z j i _ E. exact (Hp _ _ _ E).
  Qed.
  Lemma base_gives m i v w iss : Forall giving (procs_of m i) -> v <> VMissing -> base_process m i v = Ok (w, iss) -> w <> VMissing.
  Proof.
    intros Hg Hv H. rewrite base_process_eq in H.
    assert (G : (if a_multi i && negb (is_list v) then Ok (fail (e_bad_type ($"list") (scim_type_of v)))
           else let! (parsed, iss) := base_core m i v in
                if has_issues iss [] then Ok (parsed, iss) else run_procs (procs_of m i) parsed iss) = Ok (w, iss) -> w <> VMissing).
    { clear H. intros H. destruct (a_multi i && negb (is_list v)); [injection H as <- <-; discriminate|].
      apply bind_ok in H as [[p js] [Hc H]].
      assert (Hp : p <> VMissing).
      { assert (O : one m i v = Ok (p, js) -> p <> VMissing).
        { unfold one. intros O. apply bind_ok in O as [[x' js'] [Ht O]]. injection O as O. assert (E : p = fst (canon_step i x' (merge no_issues js' []) [])) by (rewrite O; reflexivity).
          rewrite canon_fst in E. assert (Hx : x' <> VMissing).
          { exact (type_gives _ _ _ _ _ Hv Ht). }
          subst p. destruct (is_canonical i x'); [exact Hx|]. destruct (a_validate i); [discriminate | exact Hx]. }
        unfold base_core in Hc. destruct (a_multi i); [|exact (O Hc)]. destruct v; try exact (O Hc).
        apply bind_ok in Hc as [[items js'] [_ Hc]]. injection Hc as <- _. discriminate. }
      destruct (has_issues js []); [injection H as <- _; exact Hp|]. exact (procs_give _ _ _ _ _ Hg Hp H). }
    destruct v; try exact (G H). injection H as <- _. discriminate.
  Qed.
  Lemma process_gives m a v w iss : sound_attr a -> gives m a -> v <> VMissing -> process a m v = Ok (w, iss) -> w <> VMissing.
  Proof.
    intros Hs [G1 G2] Hv H. destruct a as [i [[[subs cps] cds]|]].
    - rewrite process_complex in H. apply bind_ok in H as [[v' js] [Hb H]].
      assert (Hv' : v' <> VMissing) by (refine (base_gives m i v v' js _ Hv Hb); destruct m; exact G1).
      destruct (_ || _); [injection H as <- _; exact Hv'|]. apply bind_ok in H as [[p js'] [Hc H]].
      assert (Hp : p <> VMissing).
      { unfold complex_part in Hc. destruct (a_multi i).
        - apply bind_ok in Hc as [l [_ Hc]]. apply bind_ok in Hc as [[items js2] [_ Hc]]. injection Hc as <- _. discriminate.
        - rewrite walk_closed in Hc by (reflexivity || exact (sound_plain _ _ _ _ Hs)). apply bind_ok in Hc as [outs [_ Hc]]. injection Hc as <- _.
          pose proof (put_all_cont outs empty_cont eq_refl) as E. destruct (put_all outs empty_cont); discriminate. }
      destruct (has_issues js' []); [injection H as <- _; exact Hp|]. refine (procs_give _ _ _ _ _ _ Hp H). destruct m; exact G2.
    - refine (base_gives m i v w iss _ Hv H). destruct m; exact G1.
  Qed.
End Parsed.
