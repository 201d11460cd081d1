(** Properties of patch operations (C50, C51). *)
From Verif Require Import PyBase BaseFacts PyNum Issues IssuesSpec IssuesFacts AttrRep AttrRepSpec Value Container ContainerSpec ContainerFacts ContainerRW AttrRepFacts ValueFacts Types Attr Schema FilterParse Path Patch
  AttrSpec AttrFacts AttrItems SchemaSpec SchemaFacts SchemaBuild PropSchema PresenceSpec PresenceFacts PathSpec PropPath Assets PropAttr JsonCheck PatchSpec PatchFacts.

Section Env.
  Context {env : PyEnv}.

  (** What the whole parse says about one operation. *)
  Lemma at_operation s l y iss i o : sound s -> Forall in_order l -> patch_parse s (request l) = Ok (y, iss) -> nth_error l i = Some o ->
    exists v js, outcome_of s o = Ok (v, js) /\ wf js /\ parsed_op y i v /\ forall p, errs_at iss (at_op i ++ p) = errs_at js p.
  Proof.
    intros Hs Ho H Hi. pose proof (patch_result s l (fun o v iss _ => outcome_wf s o v iss Hs) Ho) as R.
    destruct (mapM (outcome_of s) l) as [outs|e] eqn:Em; [|congruence]. destruct R as [iss' [R1 [R2 R3]]]. rewrite H in R1. injection R1 as -> <-.
    destruct (mapM_nth _ _ _ _ _ Em Hi) as [[v js] [N1 N2]]. exists v, js. split; [exact N2|]. split; [exact (outcome_wf _ _ _ _ Hs N2)|]. split.
    - exists (map fst outs). split; [|exact (map_nth_error fst i outs N1)].
      eexists _, _, ($"Operations"). split; [reflexivity|]. split; reflexivity.
    - intros p. rewrite R3. exact (ops_errs_nth _ _ _ _ N1).
  Qed.

  Lemma reads_whole t p : reads t p -> whole_path p.
  Proof.
    intros H. pose proof (C49_result t) as C. unfold reads in H. rewrite H in C. destruct C as [[q [E [_ C]]]|[E _]]; [injection E as ->; exact C | discriminate].
  Qed.

  (** C50: changing a read-only attribute or sub-attribute by "add" or "replace"
      is reported at the value of the operation, and nothing else is reported
      about it. *)
  Theorem C50_path_partial s l y iss i o t p a : made s -> Forall in_order l -> patch_parse s (request l) = Ok (y, iss) ->
    nth_error l i = Some o -> o_kind o <> $"remove" -> o_path o = Some t -> reads t p -> changes s p a -> read_only a ->
    errs_at iss (at_value i) = [e_not_modifiable] /\ forall q, q <> [LStr ($"value")] -> errs_at iss (at_op i ++ q) = [].
  Proof.
    intros Hm Ho H Hi Hk Ht Hp Hc Hro. apply made_sound in Hm.
    destruct (at_operation _ _ _ _ _ _ Hm Ho H Hi) as [v [js [E [_ [_ He]]]]].
    assert (Ej : js = merge no_issues (snd (fail e_not_modifiable)) [LStr ($"value")]).
    { unfold outcome_of in E. apply str_eqb_neq in Hk. rewrite Hk in E.
      assert (Ep : path_value o = Some (VPath p)) by (unfold path_value; rewrite Ht; unfold reads in Hp; rewrite Hp; reflexivity).
      rewrite Ep in E. cbn [opt] in E. unfold parse_add_or_replace in E. cbn [is_none_or_missing] in E.
      pose proof (reads_whole _ _ Hp) as W. unfold whole_path in W. unfold changes in Hc.
      assert (Hro' : is_read_only (a_mut (info a)) = true) by (unfold read_only in Hro; rewrite Hro; reflexivity).
      destruct (p_filter p) as [f|] eqn:Ef.
      - destruct (p_sub p) as [q|] eqn:Eq.
        + destruct Hc as [Hq [b [Hb Hcb]]]. apply find_denotes in Hq, Hb. unfold validate_operation_path in E. rewrite Hb, Eq, Hq in E.
          cbn [orb bind] in E. change (has_issues no_issues []) with false in E. cbv iota in E.
          unfold parse_operation_value in E. rewrite Hb, Hcb, Ef, Eq in E. unfold parse_update_value in E. rewrite Hq, Hro' in E.
          cbn [bind fail] in E. injection E as _ <-. reflexivity.
        + apply find_denotes in Hc. unfold validate_operation_path in E. rewrite Hc, Eq in E.
          cbn [orb bind] in E. change (has_issues no_issues []) with false in E. cbv iota in E.
          unfold parse_operation_value in E. rewrite Hc, Ef, Eq in E. unfold parse_update_value in E. rewrite Hc, Hro' in E.
          destruct (is_complex a); cbn [bind fail] in E; injection E as _ <-; reflexivity.
      - destruct W as [_ W]. apply find_denotes in Hc. unfold validate_operation_path in E. rewrite Hc, W in E.
        cbn [orb bind] in E. change (has_issues no_issues []) with false in E. cbv iota in E.
        unfold parse_operation_value in E. rewrite Hc, Ef in E. unfold parse_update_value in E. rewrite Hc, Hro' in E.
        destruct (is_complex a); cbn [bind fail] in E; injection E as _ <-; reflexivity. }
    split.
    - unfold at_value. rewrite He, Ej. reflexivity.
    - intros q Hq. rewrite He, Ej. rewrite errs_merge by (apply report_empty || apply report_fail).
      destruct (loc_strip _ _) as [q'|] eqn:E'; [|reflexivity]. apply loc_strip_spec in E' as ->.
      cbn [fail snd]. rewrite errs_at_add. destruct (loc_dec [] q') as [<-|]; [exfalso; apply Hq; reflexivity | reflexivity].
  Qed.

  (** The read-only scan of a value without path. *)
  Lemma scan_reports l v : forall iss iss' b x, read_only_attrs l v iss = Ok iss' -> 
    (forall p e, In e (errs_at iss p) -> In e (errs_at iss' p))
    /\ (In b l -> get_item v (arep b) = Ok x -> x <> VMissing -> read_only b -> In e_not_modifiable (errs_at iss' (read_only_loc (arep b)))).
  Proof.
    induction l as [|a t IH]; intros iss iss' b x H; cbn [read_only_attrs] in H.
    - injection H as <-. split; [auto | intros []].
    - apply bind_ok in H as [z [Hz H]]. destruct (IH _ _ b x H) as [I1 I2]. split.
      + intros p e Hin. apply I1. unfold add_if. destruct (_ && _); [|exact Hin]. rewrite errs_at_add. apply in_app_iff. left. exact Hin.
      + intros [->|Hb] Hg Hx Hr; [|exact (I2 Hb Hg Hx Hr)]. apply I1. rewrite Hz in Hg. injection Hg as ->.
        assert (E : negb (is_missing x) && is_read_only (a_mut (info b)) = true).
        { unfold read_only in Hr. rewrite Hr. destruct x; try reflexivity. congruence. }
        rewrite E. cbn [add_if]. rewrite errs_at_add. destruct (loc_dec _ _) as [_|F]; [apply in_app_iff; right; left; reflexivity | congruence].
  Qed.

  Lemma no_path_outcome s o doc v js : o_kind o <> $"remove" -> o_path o = None -> o_value o = Some doc -> outcome_of s o = Ok (v, js) -> sound s ->
    exists v' js' js2, schema_parse s (wrap doc) = Ok (v', js') /\ wf js2
      /\ read_only_attrs (at_all (sc_attrs s)) v' (snd (pop_issues (snd (pop_issues (snd (pop_issues js' schemas_loc 27)) schemas_loc 28)) schemas_loc 29)) = Ok js2
      /\ (forall p, errs_at js ([LStr ($"value")] ++ p) = errs_at js2 p)
      /\ v = mk_cont (dict_of [($"op", VStr (o_kind o)); ($"path", VMissing); ($"value", v')]).
  Proof.
    intros Hk Hp Hv E Hs. unfold outcome_of in E. apply str_eqb_neq in Hk. rewrite Hk in E. unfold path_value in E. rewrite Hp, Hv in E.
    cbn [opt option_map] in E. unfold parse_add_or_replace in E. cbn [is_none_or_missing bind] in E. change (has_issues no_issues []) with false in E. cbv iota in E.
    apply bind_ok in E as [[v' js2] [E1 E]]. injection E as <- <-. pose proof (value_wf _ _ _ _ _ Hs E1) as Hw.
    cbn [parse_operation_value] in E1. apply bind_ok in E1 as [[v0 js'] [Ep E1]]. apply bind_ok in E1 as [js3 [E2 E1]]. injection E1 as <- <-.
    exists v0, js', js3. split; [exact Ep|]. split; [exact Hw|]. split; [exact E2|]. split; [|reflexivity].
    intros p. rewrite errs_at_merge; [rewrite loc_strip_app; reflexivity | reflexivity | apply Hw | apply Hw].
  Qed.

  (** C50: without a path, every read-only attribute and sub-attribute found in
      the parsed value is reported at its place. *)
  Theorem C50_parsed_value s l y iss i o doc v' js' b x : made s -> Forall in_order l -> patch_parse s (request l) = Ok (y, iss) ->
    nth_error l i = Some o -> o_kind o <> $"remove" -> o_path o = None -> o_value o = Some doc -> schema_parse s (wrap doc) = Ok (v', js') ->
    In b (at_all (sc_attrs s)) -> read_only b -> get_item v' (arep b) = Ok x -> x <> VMissing ->
    In e_not_modifiable (errs_at iss (at_value i ++ place (arep b) ++ match r_sub (arep b) with [] => [] | n => [LStr n] end)).
  Proof.
    intros Hm Ho H Hi Hk Hp Hv Hd Hb Hr Hg Hx. apply made_sound in Hm.
    destruct (at_operation _ _ _ _ _ _ Hm Ho H Hi) as [v [js [E [_ [_ He]]]]].
    destruct (no_path_outcome _ _ _ _ _ Hk Hp Hv E Hm) as [v1 [js1 [js2 [E1 [Hw [E2 [E3 _]]]]]]]. rewrite Hd in E1. injection E1 as <- <-.
    unfold at_value. rewrite <- !app_assoc, He, E3.
    replace (place (arep b) ++ match r_sub (arep b) with [] => [] | n => [LStr n] end) with (read_only_loc (arep b)).
    - destruct (scan_reports _ _ _ _ b x E2) as [_ G]. exact (G Hb Hg Hx Hr).
    - unfold read_only_loc, place. destruct (r_ext (arep b)), (r_sub (arep b)); reflexivity.
  Qed.

  (** C50: without a path, a read-only attribute in the value is reported at its
      place, whatever its value. *)
  Theorem C50_value_partial s l y iss i o d a x : made s -> Forall in_order l -> patch_parse s (request l) = Ok (y, iss) ->
    nth_error l i = Some o -> o_kind o <> $"remove" -> o_path o = None -> o_value o = Some (VDict d) -> regular s (mk_cont (VDict d)) ->
    In a (at_top (sc_attrs s)) -> read_only a -> gives MParse a -> doc_holds (mk_cont (VDict d)) (arep a) x -> x <> VMissing ->
    In e_not_modifiable (errs_at iss (at_value i ++ place (arep a))).
  Proof.
    intros Hm Ho H Hi Hk Hp Hv Hreg Ha Hr Hgv Hh Hx. pose proof (made_sound _ Hm) as Hs. pose proof (made_wf _ Hm) as Hw.
    destruct (at_operation _ _ _ _ _ _ Hs Ho H Hi) as [v [js [E [_ [_ He]]]]].
    destruct (no_path_outcome _ _ _ _ _ Hk Hp Hv E Hs) as [v' [js' [js2 [E1 [_ [E2 [E3 _]]]]]]]. cbn [wrap] in E1.
    destruct (cont_of (VDict d)) as [data [l2o Ec]]. rewrite Ec in *.
    assert (Hob : is_object (VCont data l2o)) by exact I.
    destruct (C25_known_only_partial s MParse _ _ _ Hm Hob Hreg E1) as [C1 [_ [C3 _]]]. cbn zeta in C1. cbn [mk_cont] in C1, C3.
    destruct (C1 a x Ha Hh Hx) as [w [jw [Hpr [Hw' _]]]].
    assert (Hall : In a (at_all (sc_attrs s))).
    { apply made_assembled in Hm as [[_ [_ [Et _]]] _]. rewrite Et in Ha. apply filter_In in Ha. tauto. }
    assert (Hnm : w <> VMissing).
    { pose proof (proj2 Hs) as F. rewrite Forall_forall in F. exact (process_gives MParse a x w jw (F a Ha) Hgv Hx Hpr). }
    assert (Hget : exists z, get_item v' (arep a) = Ok z).
    { clear - E2 Hall. revert E2. generalize (snd (pop_issues (snd (pop_issues (snd (pop_issues js' schemas_loc 27)) schemas_loc 28)) schemas_loc 29)).
      revert Hall. generalize (at_all (sc_attrs s)) as ll. induction ll as [|b t IH]; intros Hin i0 Hq; [destruct Hin|]. cbn [read_only_attrs] in Hq.
      apply bind_ok in Hq as [z [Hz Hq]]. destruct Hin as [->|Hin]; [exists z; exact Hz | exact (IH Hin _ Hq)]. }
    destruct Hget as [z Hz].
    pose proof (parsed_get s MParse _ _ _ a w Hw Hob E1 C3 Ha (proj2 (Hw' w) eq_refl) z Hz) as ->.
    destruct (scan_reports _ _ _ _ a w E2) as [_ G]. specialize (G Hall Hz Hnm Hr).
    unfold at_value. rewrite <- app_assoc, He, E3. replace (place (arep a)) with (read_only_loc (arep a)); [exact G|].
    pose proof (ws_attrs _ Hw) as W. rewrite Forall_forall in W. destruct (W a Ha) as [_ [W2 _]]. unfold read_only_loc, place. rewrite W2. destruct (r_ext (arep a)); reflexivity.
  Qed.

  (** C50: in the value for a single-valued complex attribute, read-only
      sub-attributes are reported, though at an empty name. *)
  Lemma subs_reports l v : forall iss iss' b x, read_only_subs l v iss = Ok iss' ->
    (forall p e, In e (errs_at iss p) -> In e (errs_at iss' p))
    /\ (In b l -> get_item v (arep b) = Ok x -> x <> VMissing -> read_only b -> In e_not_modifiable (errs_at iss' [LStr (r_sub (arep b))])).
  Proof.
    induction l as [|a t IH]; intros iss iss' b x H; cbn [read_only_subs] in H.
    - injection H as <-. split; [auto | intros []].
    - destruct (is_read_only (a_mut (info a))) eqn:Er.
      + apply bind_ok in H as [z [Hz H]]. destruct (IH _ _ b x H) as [I1 I2]. split.
        * intros p e Hin. apply I1. unfold add_if. destruct (negb _); [|exact Hin]. rewrite errs_at_add. apply in_app_iff. left. exact Hin.
        * intros [->|Hb] Hg Hx Hr; [|exact (I2 Hb Hg Hx Hr)]. apply I1. rewrite Hz in Hg. injection Hg as ->.
          assert (E : negb (is_missing x) = true) by (destruct x; try reflexivity; congruence).
          rewrite E. cbn [add_if]. rewrite errs_at_add. destruct (loc_dec _ _) as [_|F]; [apply in_app_iff; right; left; reflexivity | congruence].
      + destruct (IH _ _ b x H) as [I1 I2]. split; [exact I1|]. intros [->|Hb] Hg Hx Hr; [|exact (I2 Hb Hg Hx Hr)].
        unfold read_only in Hr. rewrite Hr in Er. discriminate.
  Qed.

  Lemma known_path s p a : whole_path p -> changes s p a -> validate_operation_path s (VPath p) = Ok no_issues
    /\ forall v, parse_operation_value s (VPath p) v = parse_update_value s (match p_filter p, p_sub p with Some _, Some q => q | _, _ => p_rep p end) v.
  Proof.
    intros W Hc. unfold whole_path in W. unfold changes in Hc. unfold validate_operation_path, parse_operation_value. destruct (p_filter p) as [f|] eqn:Ef.
    - destruct (p_sub p) as [q|] eqn:Eq.
      + destruct Hc as [Hq [b [Hb Hcb]]]. apply find_denotes in Hq, Hb. rewrite Hb, Hq, Hcb. split; reflexivity.
      + apply find_denotes in Hc. rewrite Hc. split; [reflexivity|]. intros v. destruct (is_complex a); reflexivity.
    - destruct W as [_ W]. apply find_denotes in Hc. rewrite Hc, W. split; [reflexivity|]. intros v. destruct (is_complex a); reflexivity.
  Qed.
  Lemma changes_found s p a : changes s p a -> find_attr (at_all (sc_attrs s)) (match p_filter p, p_sub p with Some _, Some q => q | _, _ => p_rep p end) = Some a.
  Proof. unfold changes. intros H. apply find_denotes. destruct (p_filter p); [|exact H]. destruct (p_sub p); [exact (proj1 H) | exact H]. Qed.

  Theorem C50_sub_value s l y iss i o t p a doc v' js' b x : made s -> Forall in_order l -> patch_parse s (request l) = Ok (y, iss) ->
    nth_error l i = Some o -> o_kind o <> $"remove" -> o_path o = Some t -> reads t p -> changes s p a -> ~ read_only a ->
    is_complex a = true -> a_multi (info a) = false -> o_value o = Some doc ->
    process a MParse (wrap doc) = Ok (v', js') -> (forall q, errs_at js' q = []) ->
    In b (sub_attrs a) -> read_only b -> get_item v' (arep b) = Ok x -> x <> VMissing ->
    In e_not_modifiable (errs_at iss (at_value i ++ [LStr []])).
  Proof.
    intros Hm Ho H Hi Hk Ht Hp Hc Hro Hcx Hmu Hv Hpr Hno Hb Hrb Hg Hx. apply made_sound in Hm.
    destruct (at_operation _ _ _ _ _ _ Hm Ho H Hi) as [v [js [E [_ [_ He]]]]].
    unfold outcome_of in E. apply str_eqb_neq in Hk. rewrite Hk in E.
    assert (Ep : path_value o = Some (VPath p)) by (unfold path_value; rewrite Ht; unfold reads in Hp; rewrite Hp; reflexivity).
    rewrite Ep, Hv in E. cbn [opt option_map] in E. unfold parse_add_or_replace in E. cbn [is_none_or_missing] in E.
    destruct (known_path s p a (reads_whole _ _ Hp) Hc) as [K1 K2]. rewrite K1 in E. cbn [bind] in E. change (has_issues no_issues []) with false in E. cbv iota in E.
    rewrite K2 in E. unfold parse_update_value in E. pose proof (changes_found _ _ _ Hc) as Hf. rewrite Hf in E.
    assert (Hro' : is_read_only (a_mut (info a)) = false) by (unfold read_only in Hro; destruct (a_mut (info a)); try reflexivity; congruence).
    rewrite Hro', Hpr in E. cbn [bind] in E.
    assert (Ha : sound_attr a). { destruct Hm as [F _]. rewrite Forall_forall in F. apply F. apply find_some in Hf. tauto. }
    pose proof (process_report a Ha _ _ _ _ Hpr) as Hr.
    assert (Hni : has_issues js' [] = false).
    { destruct (has_issues js' []) eqn:F; [|reflexivity]. apply (has_issues_iff _ Hr) in F as [q F]. exfalso. apply F, Hno. }
    rewrite Hni, Hcx, Hmu in E. cbn [negb andb] in E. apply bind_ok in E as [[w js2] [E1 E]]. injection E as _ <-. apply bind_ok in E1 as [js3 [E2 E1]]. injection E1 as _ <-.
    pose proof (subs_wf _ _ _ _ wf_no_issues E2) as Hw.
    destruct (subs_reports _ _ _ _ b x E2) as [_ G]. specialize (G Hb Hg Hx Hrb).
    assert (Es : r_sub (arep b) = []).
    { pose proof (subs_plain a Ha) as F. rewrite Forall_forall in F. apply (F b Hb). }
    rewrite Es in G. unfold at_value. rewrite <- app_assoc, He. rewrite errs_at_merge; [rewrite loc_strip_app; exact G | reflexivity | apply Hw | apply Hw].
  Qed.

  (** Operations do not influence each other: what is reported about one, and
      what it becomes, is the same as in a request with this operation only. *)
  Theorem C50_independent s l y iss i o : made s -> Forall in_order l -> patch_parse s (request l) = Ok (y, iss) -> nth_error l i = Some o ->
    exists y1 iss1, patch_parse s (request [o]) = Ok (y1, iss1) /\ (forall p, errs_at iss (at_op i ++ p) = errs_at iss1 (at_op 0 ++ p))
    /\ exists v, parsed_op y i v /\ parsed_op y1 0 v.
  Proof.
    intros Hm Ho H Hi. apply made_sound in Hm. destruct (at_operation _ _ _ _ _ _ Hm Ho H Hi) as [v [js [E [_ [Hv He]]]]].
    assert (Ho1 : Forall in_order [o]) by (constructor; [|constructor]; rewrite Forall_forall in Ho; apply Ho; exact (nth_error_In _ _ Hi)).
    pose proof (patch_result s [o] (fun o v iss _ => outcome_wf s o v iss Hm) Ho1) as R. cbn [mapM] in R. rewrite E in R. cbn [bind] in R.
    destruct R as [iss1 [R1 [_ R3]]]. exists (answer [v]), iss1. split; [exact R1|]. split.
    - intros p. rewrite He, R3. symmetry. exact (ops_errs_nth [(v, js)] 0 (v, js) p eq_refl).
    - exists v. split; [exact Hv|]. exists [v]. split; [|reflexivity]. eexists _, _, ($"Operations"). split; [reflexivity|]. split; reflexivity.
  Qed.
  (** And every report is about one of the operations. *)
  Theorem C50_located s l y iss p : made s -> Forall in_order l -> patch_parse s (request l) = Ok (y, iss) -> errs_at iss p <> [] ->
    exists i o q, nth_error l i = Some o /\ p = at_op i ++ q.
  Proof.
    intros Hm Ho H Hp. apply made_sound in Hm. pose proof (patch_result s l (fun o v iss _ => outcome_wf s o v iss Hm) Ho) as R.
    destruct (mapM (outcome_of s) l) as [outs|e] eqn:Em; [|congruence]. destruct R as [iss' [R1 [R2 R3]]]. rewrite H in R1. injection R1 as -> <-.
    rewrite R3 in Hp. apply ops_errs_some in Hp as [i [o [q [H1 [H2 _]]]]]. destruct (mapM_nth_back _ _ _ _ _ Em H1) as [o' [H3 _]]. exists i, o', q. auto.
  Qed.

  (** *** Remove *)

  Lemma at_remove s l y iss i o t p : sound s -> Forall in_order l -> patch_parse s (request l) = Ok (y, iss) -> nth_error l i = Some o ->
    o_kind o = $"remove" -> o_path o = Some t -> reads t p ->
    exists v js, parse_remove s (VPath p) = Ok (v, js) /\ parsed_op y i v /\ forall q, errs_at iss (at_op i ++ q) = errs_at js q.
  Proof.
    intros Hm Ho H Hi Hk Ht Hp. destruct (at_operation _ _ _ _ _ _ Hm Ho H Hi) as [v [js [E [_ [Hv He]]]]]. exists v, js. split; [|auto].
    unfold outcome_of in E. rewrite Hk in E. change (str_eqb ($"remove") ($"remove")) with true in E. cbv iota in E.
    unfold path_value in E. rewrite Ht in E. unfold reads in Hp. rewrite Hp in E. exact E.
  Qed.

  Definition removed (p : patch_path) : value := tabled [($"op", VStr ($"remove")); ($"path", VPath p)].

  Lemma remove_known s p a : denotes s (p_rep p) a -> p_sub p = None ->
    parse_remove s (VPath p) = Ok (removed p, add_if (a_required (info a) && negb (is_complex a)) e_not_deletable true [LStr ($"path")]
      (add_if (is_read_only (a_mut (info a))) e_not_modifiable true [LStr ($"path")] no_issues)).
  Proof. intros Ha Hs. apply find_denotes in Ha. unfold parse_remove, validate_operation_path. rewrite Ha, Hs. reflexivity. Qed.
  Lemma remove_sub s p a q b : denotes s (p_rep p) a -> p_sub p = Some q -> denotes s q b ->
    parse_remove s (VPath p) = Ok (removed p, add_if (is_read_only (a_mut (info a)) || is_read_only (a_mut (info b))) e_not_modifiable true [LStr ($"path")]
      (add_if (a_required (info b)) e_not_deletable true [LStr ($"path")] no_issues)).
  Proof. intros Ha Hs Hb. apply find_denotes in Ha, Hb. unfold parse_remove, validate_operation_path. rewrite Ha, Hs, Hb. reflexivity. Qed.

  Lemma ro_iff a : is_read_only (a_mut (info a)) = true <-> read_only a.
  Proof. unfold read_only. destruct (a_mut (info a)); cbn; split; intros H; try reflexivity; discriminate. Qed.
  Lemma add_if_errs b e pr l i p : errs_at (add_if b e pr l i) p = errs_at i p ++ if b then (if loc_dec l p then [e] else []) else [].
  Proof. unfold add_if. destruct b; [apply errs_at_add | rewrite app_nil_r; reflexivity]. Qed.

  (** C51: removing a required or a read-only attribute or sub-attribute is
      reported, except that a required complex attribute may be removed;
      read-only targets are reported as not modifiable. Nothing else is reported. *)
  Theorem C51_remove_partial s l y iss i o t p a : made s -> Forall in_order l -> patch_parse s (request l) = Ok (y, iss) -> nth_error l i = Some o ->
    o_kind o = $"remove" -> o_path o = Some t -> reads t p -> denotes s (p_rep p) a -> p_sub p = None ->
    (In e_not_deletable (errs_at iss (at_path i)) <-> required a /\ is_complex a = false)
    /\ (In e_not_modifiable (errs_at iss (at_path i)) <-> read_only a)
    /\ (forall q e, In e (errs_at iss (at_op i ++ q)) -> q = [LStr ($"path")] /\ (e = e_not_deletable \/ e = e_not_modifiable))
    /\ exists v, parsed_op y i v /\ holds v ($"op") (VStr ($"remove")) /\ holds v ($"path") (VPath p).
  Proof.
    intros Hm Ho H Hi Hk Ht Hp Ha Hs. apply made_sound in Hm. destruct (at_remove _ _ _ _ _ _ _ _ Hm Ho H Hi Hk Ht Hp) as [v [js [E [Hv He]]]].
    rewrite (remove_known s p a Ha Hs) in E. injection E as <- <-. unfold at_path.
    assert (Hq : forall q e, In e (errs_at iss (at_op i ++ q)) <-> q = [LStr ($"path")] /\ ((e = e_not_modifiable /\ read_only a) \/ (e = e_not_deletable /\ required a /\ is_complex a = false))).
    { intros q e. rewrite He, !add_if_errs, <- ro_iff. unfold required. match goal with |- context[loc_dec ?p q] => destruct (loc_dec p q) as [<-|N] end.
      - cbn [app]. destruct (is_read_only _), (a_required (info a)), (is_complex a); cbn; intuition congruence.
      - split; [|intros [-> _]; exfalso; apply N; reflexivity]. change (errs_at no_issues q) with (@nil error). destruct (is_read_only _), (_ && _); intros []. }
    rewrite !Hq. split; [intuition (try discriminate)|]. split; [intuition (try discriminate)|]. split.
    - intros q e G. apply Hq in G. intuition.
    - exists (removed p). split; [exact Hv|]. split; eexists _, _, _; (split; [reflexivity|]); split; reflexivity.
  Qed.

  Theorem C51_remove_sub s l y iss i o t p a q b : made s -> Forall in_order l -> patch_parse s (request l) = Ok (y, iss) -> nth_error l i = Some o ->
    o_kind o = $"remove" -> o_path o = Some t -> reads t p -> denotes s (p_rep p) a -> p_sub p = Some q -> denotes s q b ->
    (In e_not_deletable (errs_at iss (at_path i)) <-> required b)
    /\ (In e_not_modifiable (errs_at iss (at_path i)) <-> read_only a \/ read_only b)
    /\ (forall q e, In e (errs_at iss (at_op i ++ q)) -> q = [LStr ($"path")] /\ (e = e_not_deletable \/ e = e_not_modifiable))
    /\ exists v, parsed_op y i v /\ holds v ($"op") (VStr ($"remove")) /\ holds v ($"path") (VPath p).
  Proof.
    intros Hm Ho H Hi Hk Ht Hp Ha Hs Hb. apply made_sound in Hm. destruct (at_remove _ _ _ _ _ _ _ _ Hm Ho H Hi Hk Ht Hp) as [v [js [E [Hv He]]]].
    rewrite (remove_sub s p a q b Ha Hs Hb) in E. injection E as <- <-. unfold at_path.
    assert (Hq : forall q e, In e (errs_at iss (at_op i ++ q)) <-> q = [LStr ($"path")] /\ ((e = e_not_modifiable /\ (read_only a \/ read_only b)) \/ (e = e_not_deletable /\ required b))).
    { intros q' e. rewrite He, !add_if_errs, <- !ro_iff. unfold required. match goal with |- context[loc_dec ?p q'] => destruct (loc_dec p q') as [<-|N] end.
      - cbn [app]. destruct (is_read_only (a_mut (info a))), (is_read_only (a_mut (info b))), (a_required (info b)); cbn; intuition congruence.
      - split; [|intros [-> _]; exfalso; apply N; reflexivity]. change (errs_at no_issues q') with (@nil error). destruct (_ || _), (a_required (info b)); intros []. }
    rewrite !Hq. split; [intuition (try discriminate)|]. split; [intuition (try discriminate)|]. split.
    - intros q' e G. apply Hq in G. intuition.
    - exists (removed p). split; [exact Hv|]. split; eexists _, _, _; (split; [reflexivity|]); split; reflexivity.
  Qed.

  (** C51: a target that can be deleted is accepted. *)
  Theorem C51_accepted s l y iss i o t p a : made s -> Forall in_order l -> patch_parse s (request l) = Ok (y, iss) -> nth_error l i = Some o ->
    o_kind o = $"remove" -> o_path o = Some t -> reads t p -> denotes s (p_rep p) a -> ~ read_only a ->
    match p_sub p with
    | None => ~ required a
    | Some q => exists b, denotes s q b /\ ~ required b /\ ~ read_only b
    end ->
    (forall q, errs_at iss (at_op i ++ q) = []) /\ exists v, parsed_op y i v /\ holds v ($"op") (VStr ($"remove")) /\ holds v ($"path") (VPath p).
  Proof.
    intros Hm Ho H Hi Hk Ht Hp Ha Hr Hd.
    assert (N : forall (f : loc -> list error), (forall q e, In e (f q) -> False) -> forall q, f q = []).
    { intros f F q. destruct (f q) as [|e es] eqn:E; [reflexivity|]. exfalso. apply (F q e). rewrite E. left. reflexivity. }
    destruct (p_sub p) as [q|] eqn:Es.
    - destruct Hd as [b [Hb [H1 H2]]]. destruct (C51_remove_sub _ _ _ _ _ _ _ _ _ _ _ Hm Ho H Hi Hk Ht Hp Ha Es Hb) as [C1 [C2 [C3 C4]]].
      split; [|exact C4]. apply (N (fun q => errs_at iss (at_op i ++ q))). intros q' e G. destruct (C3 _ _ G) as [-> [->| ->]]; [apply C1 in G | apply C2 in G]; tauto.
    - destruct (C51_remove_partial _ _ _ _ _ _ _ _ _ Hm Ho H Hi Hk Ht Hp Ha Es) as [C1 [C2 [C3 C4]]].
      split; [|exact C4]. apply (N (fun q => errs_at iss (at_op i ++ q))). intros q' e G. destruct (C3 _ _ G) as [-> [->| ->]]; [apply C1 in G | apply C2 in G]; tauto.
  Qed.

  (** C51: unknown targets are refused as such. *)
  Theorem C51_unknown s l y iss i o t p : made s -> Forall in_order l -> patch_parse s (request l) = Ok (y, iss) -> nth_error l i = Some o ->
    o_kind o = $"remove" -> o_path o = Some t -> reads t p -> (unknown s (p_rep p) \/ exists q, p_sub p = Some q /\ unknown s q) ->
    errs_at iss (at_op i) = [e_unknown_target] /\ (forall q, q <> [] -> errs_at iss (at_op i ++ q) = []) /\ parsed_op y i VInvalid.
  Proof.
    intros Hm Ho H Hi Hk Ht Hp Hu. apply made_sound in Hm. destruct (at_remove _ _ _ _ _ _ _ _ Hm Ho H Hi Hk Ht Hp) as [v [js [E [Hv He]]]].
    assert (Ej : (VInvalid, add_issue no_issues e_unknown_target false []) = (v, js)).
    { unfold parse_remove, validate_operation_path in E. destruct Hu as [Hu|[q [Eq Hu]]]; apply find_unknown in Hu.
      - rewrite Hu in E. cbn [orb bind] in E. injection E as <- <-. reflexivity.
      - rewrite Eq, Hu, orb_true_r in E. cbn [bind] in E. injection E as <- <-. reflexivity. }
    injection Ej as <- <-. split; [|split; [|exact Hv]].
    - rewrite <- (app_nil_r (at_op i)), He. reflexivity.
    - intros q Hq. rewrite He, errs_at_add. destruct (loc_dec [] q); [congruence | reflexivity].
  Qed.
End Env.

(** ** Refutations and examples *)

Lemma run_of (r : res outcome) (P : value -> issues -> Prop) :
  match r with Ok (y, iss) => P y iss | Raise _ => False end -> exists y iss, r = Ok (y, iss) /\ P y iss.
Proof. destruct r as [[y iss]|e]; [intros H; exists y, iss; auto | intros []]. Qed.

(** A schema with a required complex attribute, a read-only one with a
    changeable sub-attribute, and a multi-valued one with a read-only
    sub-attribute. *)
Definition device_schema : schema :=
  resource_schema ($"urn:device")
    [mk_complex (with_required (plain ($"owner") TComplex)) [sattr ($"label") TString] [] [];
     mk_complex (ro (plain ($"lock") TComplex)) [sattr ($"note") TString] [] [];
     mk_complex (with_multi (plain ($"parts") TComplex)) [sattr ($"label") TString; mk_simple (ro (plain ($"serial") TString))] [] []]
    ($"Device") [] (Some ($"Devices")) None None None.
Lemma device_made : made device_schema.
Proof.
  unfold device_schema. apply made_resource; [discriminate| |apply fresh_check; vm_compute; reflexivity].
  unfold sattr, schemas_attr, external_id_attr, meta_attr, server_ro. cbv zeta. neat_attrs.
Qed.

(** An attribute known by one of its properties. *)
Lemma denotes_by {A} s r (f : attribute -> A) x : option_map f (find_attr (at_all (sc_attrs s)) r) = Some x -> exists a, denotes s r a /\ f a = x.
Proof.
  destruct (find_attr (at_all (sc_attrs s)) r) as [a|] eqn:E; [|discriminate]. cbn [option_map]. intros [= H]. exists a. split; [apply find_denotes; exact E | exact H].
Qed.
Ltac path_good := let t := fresh "t" in intros t [=]; subst; eexists; vm_compute; reflexivity.

(** C50 fails for a sub-attribute of a read-only attribute: it is changed without
    any report. *)
Theorem C50_parent_refuted : exists env s o y iss a b, made s /\ in_order o /\ o_kind o = $"replace" /\ o_path o = Some ($"lock.note")
  /\ denotes s (mkRep [] ($"lock") [] false) a /\ read_only a /\ denotes s (mkRep [] ($"lock") ($"note") false) b
  /\ @patch_parse env s (request [o]) = Ok (y, iss) /\ forall p, errs_at iss p = [].
Proof.
  exists no_env, device_schema, (mkOper ($"replace") (Some ($"lock.note")) (Some (VStr ($"x")))).
  destruct (run_of (@patch_parse no_env device_schema (request [mkOper ($"replace") (Some ($"lock.note")) (Some (VStr ($"x")))])) (fun _ iss => iss = no_issues)) as [y [iss [H ->]]];
    [vm_compute; reflexivity|]. exists y, no_issues.
  destruct (denotes_by device_schema (mkRep [] ($"lock") [] false) (fun a => a_mut (info a)) ReadOnly) as [a [Ha Hr]]; [vm_compute; reflexivity|].
  destruct (denotes_by device_schema (mkRep [] ($"lock") ($"note") false) (fun a => a_mut (info a)) ReadWrite) as [b [Hb _]]; [vm_compute; reflexivity|].
  exists a, b. split; [exact device_made|]. split; [split; [path_good|split; [discriminate | left; reflexivity]]|].
  repeat (split; [first [reflexivity | assumption]|]). reflexivity.
Qed.

(** C50 fails for a read-only sub-attribute in the value for a multi-valued
    attribute: it is added without any report. *)
Theorem C50_multi_value_refuted : exists env s o y iss b, made s /\ in_order o
  /\ o = mkOper ($"add") (Some ($"parts")) (Some (VList [dict_of [($"serial", VStr ($"x"))]]))
  /\ denotes s (mkRep [] ($"parts") ($"serial") false) b /\ read_only b
  /\ @patch_parse env s (request [o]) = Ok (y, iss) /\ forall p, errs_at iss p = [].
Proof.
  exists no_env, device_schema, (mkOper ($"add") (Some ($"parts")) (Some (VList [dict_of [($"serial", VStr ($"x"))]]))).
  destruct (run_of (@patch_parse no_env device_schema (request [mkOper ($"add") (Some ($"parts")) (Some (VList [dict_of [($"serial", VStr ($"x"))]]))])) (fun _ iss => iss = no_issues)) as [y [iss [H ->]]];
    [vm_compute; reflexivity|]. exists y, no_issues.
  destruct (denotes_by device_schema (mkRep [] ($"parts") ($"serial") false) (fun a => a_mut (info a)) ReadOnly) as [b [Hb Hr]]; [vm_compute; reflexivity|].
  exists b. split; [exact device_made|]. split.
  { split; [path_good|split; [discriminate | right; left]]. split; [reflexivity|]. split; [eexists; split; [reflexivity|split; discriminate]|].
    intros t p [= <-] Hp. vm_compute in Hp. injection Hp as <-. intros []. reflexivity. }
  repeat (split; [first [reflexivity | assumption]|]). reflexivity.
Qed.

(** C50 fails for the operation's name in another letter case: with a value that
    has a read-only attribute and no path the parse crashes. *)
Theorem C50_letter_case_refuted : exists env s d, made s /\ json d
  /\ d = dict_of [($"schemas", VList [VStr patch_uri]); ($"Operations", VList [dict_of [($"op", VStr ($"Add")); ($"value", dict_of [($"id", VStr ($"x"))])]])]
  /\ @patch_parse env s d = Raise AttributeErr.
Proof.
  exists no_env, user_schema. eexists. split; [exact user_made|]. split; [|split; [reflexivity | vm_compute; reflexivity]].
  apply json_check. vm_compute. reflexivity.
Qed.
(** And for a value that is not an object. *)
Theorem C50_plain_value_refuted : exists env s o, made s /\ in_order o /\ o = mkOper ($"add") None (Some (VInt 1)) /\ @patch_parse env s (request [o]) = Raise TypeErr.
Proof.
  exists no_env, user_schema. eexists. split; [exact user_made|]. split; [|split; [reflexivity | vm_compute; reflexivity]].
  split; [intros t [=]|]. split; [discriminate|]. right; left. split; [reflexivity|]. split; [eexists; split; [reflexivity|split; discriminate] | intros t p [=]].
Qed.

(** C51 fails for a required complex attribute: it is removed without any report. *)
Theorem C51_complex_refuted : exists env s o y iss a, made s /\ in_order o /\ o = mkOper ($"remove") (Some ($"owner")) None
  /\ denotes s (mkRep [] ($"owner") [] false) a /\ required a
  /\ @patch_parse env s (request [o]) = Ok (y, iss) /\ forall p, errs_at iss p = [].
Proof.
  exists no_env, device_schema, (mkOper ($"remove") (Some ($"owner")) None).
  destruct (run_of (@patch_parse no_env device_schema (request [mkOper ($"remove") (Some ($"owner")) None])) (fun _ iss => iss = no_issues)) as [y [iss [H ->]]];
    [vm_compute; reflexivity|]. exists y, no_issues.
  destruct (denotes_by device_schema (mkRep [] ($"owner") [] false) (fun a => a_required (info a)) true) as [a [Ha Hr]]; [vm_compute; reflexivity|].
  exists a. split; [exact device_made|]. split; [split; [path_good|split; [discriminate | right; right; split; [reflexivity|discriminate]]]|].
  repeat (split; [first [reflexivity | assumption]|]). reflexivity.
Qed.

(** A request about users whose operations meet the hypotheses of the theorems. *)
Definition manager_name : str := $"urn:ietf:params:scim:schemas:extension:enterprise:2.0:User:manager.displayName".
Definition manager_path : str := $"urn:ietf:params:scim:schemas:extension:enterprise:2.0:User:manager".
Definition ex_ops : list operation :=
  [mkOper ($"replace") (Some manager_name) (Some (VStr ($"Ann")));
   mkOper ($"add") (Some ($"GROUPS[type eq ""direct""].value")) (Some (VStr ($"g")));
   mkOper ($"remove") (Some ($"userName")) None;
   mkOper ($"remove") (Some ($"groups[value pr]")) None;
   mkOper ($"remove") (Some ($"emails[type eq ""work""].display")) None;
   mkOper ($"remove") (Some ($"nope")) None;
   mkOper ($"add") (Some manager_path) (Some (dict_of [($"value", VStr ($"m")); ($"DisplayName", VStr ($"Ann"))]))].

Example ex_C50 : Forall in_order ex_ops /\ exists y iss, @patch_parse no_env user_schema (request ex_ops) = Ok (y, iss)
  /\ errs_at iss (at_value 0) = [e_not_modifiable] /\ errs_at iss (at_value 1) = [e_not_modifiable]
  /\ errs_at iss (at_path 2) = [e_not_deletable] /\ errs_at iss (at_path 3) = [e_not_modifiable] /\ errs_at iss (at_path 4) = []
  /\ errs_at iss (at_op 5) = [e_unknown_target] /\ errs_at iss (at_value 6 ++ [LStr []]) = [e_not_modifiable].
Proof.
  split.
  - unfold ex_ops. repeat (apply Forall_cons; [split; [path_good|split; [discriminate|]];
      first [left; reflexivity | right; right; split; [reflexivity | discriminate] | right; left; split; [reflexivity|]; split; [eexists; split; [reflexivity|split; discriminate]|]]|]).
    + intros t p [= <-] Hp. vm_compute in Hp. injection Hp as <-. discriminate.
    + intros t p [= <-] Hp. vm_compute in Hp. injection Hp as <-. intros []. reflexivity.
    + apply Forall_nil.
  - apply run_of. vm_compute. repeat split; reflexivity.
Qed.

Example ex_C50_changes : exists p a, reads manager_name p /\ changes user_schema p a /\ read_only a.
Proof.
  exists (mkPath (mkRep enterprise_uri ($"manager") ($"displayName") false) None None).
  destruct (denotes_by user_schema (mkRep enterprise_uri ($"manager") ($"displayName") false) (fun a => a_mut (info a)) ReadOnly) as [a [Ha Hr]]; [vm_compute; reflexivity|].
  exists a. split; [vm_compute; reflexivity|]. split; [exact Ha | exact Hr].
Qed.

(** A value without path. *)
Definition ex_value : list (dkey * value) := [(KStr ($"displayName"), VStr ($"x")); (KStr ($"META"), dict_of [($"location", VStr ($"u"))])].
Example ex_C50_value : in_order (mkOper ($"add") None (Some (VDict ex_value))) /\ regular group_schema (mk_cont (VDict ex_value))
  /\ exists a x, In a (at_top (sc_attrs group_schema)) /\ read_only a /\ gives MParse a /\ doc_holds (mk_cont (VDict ex_value)) (arep a) x /\ x <> VMissing
  /\ exists y iss, @patch_parse no_env group_schema (request [mkOper ($"add") None (Some (VDict ex_value))]) = Ok (y, iss).
Proof.
  split; [|split].
  - split; [intros t [=]|]. split; [discriminate|]. right; left. split; [reflexivity|]. split; [eexists; split; [reflexivity|split; discriminate] | intros t p [=]].
  - split; [reflexivity|]. split; [intros [k H]; vm_compute in H; discriminate|]. intros a Ha He.
    pose proof (ws_attrs _ (made_wf _ group_made)) as W. rewrite Forall_forall in W. destruct (W a Ha) as [_ [_ [_ Sa]]]. rewrite He in Sa.
    assert (X : map fst (sc_exts group_schema) = []) by (vm_compute; reflexivity). rewrite X in Sa. destruct Sa.
  - exists (nth 3 (at_top (sc_attrs group_schema)) schemas_attr), (mk_cont (dict_of [($"location", VStr ($"u"))])).
    split; [apply nth_In; vm_compute; lia|]. split; [vm_compute; reflexivity|]. split; [split; constructor|].
    split; [|split; [discriminate|]].
    + change (arep (nth 3 (at_top (sc_attrs group_schema)) schemas_attr)) with (mkRep group_uri ($"meta") [] false). eexists _, _, _. split; [reflexivity|]. split; vm_compute; reflexivity.
    + destruct (run_of (@patch_parse no_env group_schema (request [mkOper ($"add") None (Some (VDict ex_value))])) (fun _ _ => True)) as [y [iss [H _]]]; [vm_compute; exact I|]. eauto.
Qed.

(** Targets of "remove". *)
Example ex_C51 : exists p a, reads ($"emails[type eq ""work""].display") p /\ denotes user_schema (p_rep p) a /\ ~ read_only a
  /\ exists q b, p_sub p = Some q /\ denotes user_schema q b /\ ~ required b /\ ~ read_only b.
Proof.
  assert (R : exists p, reads ($"emails[type eq ""work""].display") p /\ p_rep p = mkRep [] ($"emails") [] false /\ p_sub p = Some (mkRep [] ($"emails") ($"display") false)).
  { eexists. split; [vm_compute; reflexivity|]. split; reflexivity. }
  destruct R as [p [R1 [R2 R3]]].
  destruct (denotes_by user_schema (mkRep [] ($"emails") [] false) (fun a => a_mut (info a)) ReadWrite) as [a [Ha Hr]]; [vm_compute; reflexivity|].
  destruct (denotes_by user_schema (mkRep [] ($"emails") ($"display") false) (fun a => (a_mut (info a), a_required (info a))) (ReadWrite, false)) as [b [Hb Hs]]; [vm_compute; reflexivity|].
  injection Hs as Hs1 Hs2. exists p, a. rewrite R2. split; [exact R1|]. split; [exact Ha|]. split; [unfold read_only; congruence|].
  exists (mkRep [] ($"emails") ($"display") false), b. split; [exact R3|]. split; [exact Hb|]. split; [unfold required | unfold read_only]; congruence.
Qed.
Example ex_C51_unknown : unknown user_schema (mkRep [] ($"nope") [] false).
Proof. apply find_unknown. vm_compute. reflexivity. Qed.

Print Assumptions C50_path_partial.
Print Assumptions C50_parsed_value.
Print Assumptions C50_value_partial.
Print Assumptions C50_sub_value.
Print Assumptions C50_independent.
Print Assumptions C50_located.
Print Assumptions C50_parent_refuted.
Print Assumptions C50_multi_value_refuted.
Print Assumptions C50_letter_case_refuted.
Print Assumptions C50_plain_value_refuted.
Print Assumptions C51_remove_partial.
Print Assumptions C51_remove_sub.
Print Assumptions C51_accepted.
Print Assumptions C51_unknown.
Print Assumptions C51_complex_refuted.
