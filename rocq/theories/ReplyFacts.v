(** Lemmas about responses that are always served (C85). *)
From Verif Require Import PyBase BaseFacts PyNum Issues IssuesSpec IssuesFacts AttrRep AttrRepSpec AttrRepFacts Value ValueFacts
  Container ContainerSpec ContainerFacts ContainerRW Types TypesSpec Attr Schema AttrSpec AttrFacts AttrHonest AttrItems PropAttr
  SchemaSpec SchemaFacts SchemaBuild PropSchema TotalSpec TotalFacts Presence PresenceSpec PresenceFacts Requests PatchFacts RequestSpec RequestFacts BodyFacts PutFacts AnswerSpec AnswerFacts PatchAnswerFacts MsgFacts ReplySpec.

Section Env.
  Context {env : PyEnv}.

  Lemma process_fine_in m a v v' iss : sound_attr a -> distinct_names (sub_attrs a) -> calm_attr a -> standard_in m a -> process a m v = Ok (v', iss) -> fine_value a v'.
  Proof.
    intros Ha Hd Hq Hst H. destruct a as [i [[[subs cps] cds]|]]; [|exact I]. cbn [sub_attrs standard_in fine_value] in *.
    pose proof (subs_plain _ Ha) as Hpl. cbn [sub_attrs] in Hpl. inversion Hq as [|? ? ? ? Q1 Q2 Q3 Q4 Q5 Q6]; subst. inversion Ha as [|? ? ? ? Ht Hp1 Hp2 Hc1 Hc2 Hpl' Hs]; subst.
    rewrite process_complex in H. apply bind_ok in H as [[x js] [Hb H]]. rewrite base_process_eq in Hb. assert (Qp : procs_of m i = []) by (destruct m; assumption). rewrite Qp in Hb. clear Qp.
    assert (Hst' : (match m with MParse => cps | MDump => cds end) = [] \/ a_multi i = true /\ (match m with MParse => cps | MDump => cds end) = [single_primary]) by exact Hst. clear Hst. rename Hst' into Hst.
    assert (B : x = VNone \/ x = VInvalid /\ can_proceed js [] = false \/ (can_proceed js [] = true /\ (a_multi i = true -> exists ys, x = VList ys)) \/ (a_multi i = false /\ x = VInvalid)).
    { assert (D : v = VNone \/ (if a_multi i && negb (is_list v) then Ok (fail (e_bad_type ($"list") (scim_type_of v))) else let! (parsed, iss) := base_core m i v in if has_issues iss [] then Ok (parsed, iss) else run_procs [] parsed iss) = Ok (x, js)) by (destruct v; auto).
      destruct D as [->|D]; [injection Hb as <- _; left; reflexivity|]. clear Hb. right. destruct (a_multi i && negb (is_list v)) eqn:Em; [injection D as <- <-; left; split; reflexivity|].
      apply bind_ok in D as [[w j] [Hw D]]. assert (E : w = x /\ j = js) by (destruct (has_issues j []); injection D as <- <-; auto). destruct E as [-> ->]. clear D.
      destruct (a_multi i) eqn:Emm.
      - cbn [andb] in Em. destruct v; try discriminate Em. unfold base_core in Hw. rewrite Emm in Hw. apply bind_ok in Hw as [[items k] [Hf Hw]]. injection Hw as <- <-. right. left.
        split; [|intros _; eexists; reflexivity]. destruct (can_proceed k []) eqn:E; [reflexivity|]. apply can_proceed_root in E. exfalso. revert E. eapply items_no_stop; [apply report_empty| |exact Hf]. intros [].
      - assert (Ho : one m i v = Ok (x, js)) by (unfold base_core in Hw; rewrite Emm in Hw; destruct v; exact Hw). unfold one in Ho. rewrite Ht in Ho. apply bind_ok in Ho as [[x' jj] [G Hx]]. injection Hx as Hx.
        unfold canon_step in Hx. apply type_complex in G as [[e [G _]]|[G _]]; injection G as -> ->.
        + right. right. split; [reflexivity|]. cbn [is_canonical] in Hx. injection Hx as <- _. reflexivity.
        + destruct (is_canonical i v); [injection Hx as <- <-|destruct (a_validate i); injection Hx as <- <-].
          * right. left. rewrite merge_nil. split; [reflexivity | discriminate].
          * right. right. split; reflexivity.
          * right. left. rewrite merge_nil. split; [reflexivity | discriminate]. }
    destruct (negb (can_proceed js []) || match x with VNone => true | _ => false end) eqn:Eg.
    { injection H as <- _. destruct B as [->|[[-> _]|[[B1 B2]|[_ ->]]]]; auto. rewrite B1 in Eg. cbn [negb orb] in Eg. destruct x; try discriminate Eg. auto. }
    right. right. apply orb_false_iff in Eg as [Eg1 Eg2]. apply negb_false_iff in Eg1.
    apply bind_ok in H as [[parsed ks] [Hc H]].
    assert (Hwalk : forall c p j y k, walk m c p subs empty_cont j = Ok (y, k) -> solid y).
    { intros c p j y k E. rewrite walk_closed in E by (exact Hpl || reflexivity). apply bind_ok in E as [outs [Hg E]]. injection E as <- _.
      apply tidy_solid. exact (proj2 (put_all_tidy _ _ _ _ Hd Hpl Hg)). }
    unfold complex_part in Hc. destruct (a_multi i) eqn:Emm.
    - apply bind_ok in Hc as [l [_ Hc]]. apply bind_ok in Hc as [[items ks'] [Hf Hc]]. injection Hc as <- _.
      assert (Q : Forall solid items).
      { change ((fun st : list value * issues => Forall solid (fst st)) (items, ks')). revert Hf.
        apply (foldM_inv _ (fun st : list value * issues => Forall solid (fst st))); [|constructor].
        intros [acc j] e [acc' j'] _ Hacc E. unfold complex_items in E. apply bind_ok in E as [[y k] [E1 E]]. injection E as <- _. cbn [fst snd] in *.
        apply Forall_app. split; [exact Hacc|]. constructor; [|constructor]. exact (Hwalk _ _ _ _ _ E1). }
      exists items. split; [|exact Q]. destruct (has_issues ks []); [injection H as <- _; reflexivity|]. destruct Hst as [Hst|[_ Hst]]; rewrite Hst in H; cbn [run_procs foldM] in H.
      + injection H as <- _. reflexivity.
      + apply bind_ok in H as [[w k2] [H1 H]]. injection H as <- _. apply bind_ok in H1 as [[w' k3] [H1 H2]]. injection H2 as <- _.
        unfold single_primary in H1. cbn [fst] in H1. apply bind_ok in H1 as [l1 [Hl H1]]. apply bind_ok in H1 as [ps [_ H1]]. injection Hl as <-. injection H1 as <- _. reflexivity.
    - apply Hwalk in Hc. destruct (has_issues ks []); [injection H as <- _; exact Hc|]. destruct Hst as [Hst|[Hst _]]; [|discriminate Hst]. rewrite Hst in H. injection H as <- _. exact Hc.
  Qed.

  Lemma parsed_whole_in m s doc y iss : made s -> own_names s -> distinct_names (at_top (sc_attrs s)) -> Forall calm_attr (at_top (sc_attrs s)) -> Forall (standard_in m) (at_top (sc_attrs s)) ->
    is_object doc -> base_parse m s doc = Ok (y, iss) -> whole (sc_uri s) (map fst (sc_exts s)) (at_top (sc_attrs s)) y.
  Proof.
    intros Hm Hown Hdn Hq Hst Hobj H. pose proof (made_wf s Hm) as Hw.
    destruct (parse_shape s m doc y iss Hw Hobj H) as [outs [iss2 [Hg [-> _]]]]. destruct (tops_fit s Hw) as [Hnd Hf].
    assert (Hno' : forall a, In a (at_top (sc_attrs s)) -> ~ listed (r_attr (arep a)) (map fst (sc_exts s))).
    { intros a Ha G. apply (Hown a Ha). right. exact G. }
    destruct (made_placed s Hm Hno') as [_ Hpl]. apply put_tops_whole; [exact Hnd | | | apply whole_empty].
    - destruct Hw as [[W _] _ _ _]. unfold sc_schemas in W. cbn [map] in W. inversion W; subst. assumption.
    - apply Forall_forall. intros [a [v j]] Hin. cbn [fst snd]. destruct (gather_top_In _ _ _ _ _ _ Hg Hin) as [Ha [x [_ [_ Hx]]]].
      destruct (Hpl a Ha) as [P1 P2]. split; [exact P1|]. split; [intros G; apply (Hown a Ha); left; symmetry; exact G|].
      intros b Hb E. replace b with a by (symmetry; exact (NoDup_map_eq _ _ _ _ Hdn Hb Ha E)).
      pose proof (ws_attrs s Hw) as W2. rewrite Forall_forall in W2, Hq, Hst. exact (process_fine_in m a x v j (proj1 (W2 a Ha)) P2 (Hq a Ha) (Hst a Ha) Hx).
  Qed.

  Lemma sub_named s n m : has_sub s n m -> exists a, attr_named2 (sc_attrs s) n m = Some a /\ In a (at_all (sc_attrs s)).
  Proof.
    intros [a [Ha [H1 H2]]]. unfold attr_named2. destruct (find _ (at_all (sc_attrs s))) as [b|] eqn:E; [exists b; split; [reflexivity|]; apply find_some in E; tauto|].
    exfalso. apply (find_none _ _ E) in Ha. unfold same_text in *. rewrite H1, H2, !str_eqb_refl in Ha. discriminate.
  Qed.
  Lemma veq_with_text v t : exists b, veq v (VStr t) = Ok b.
  Proof. unfold veq. destruct v; cbn [py_eq num_of]; eexists; reflexivity. Qed.
  Lemma location_text d x : (forall x, In (KStr ($"Location"), x) d -> x = VNone \/ exists t, x = VStr t) -> qget d ($"Location") VNone = x -> x = VNone \/ exists t, x = VStr t.
  Proof.
    unfold qget. intros H <-. destruct (aget dkey_eqb (KStr ($"Location")) d) as [v|] eqn:E; [|left; reflexivity]. apply H. clear H.
    induction d as [|[k w] t IH]; cbn [aget] in E; [discriminate|]. destruct (dkey_eqb k (KStr ($"Location"))) eqn:Ek; [|right; exact (IH E)].
    left. injection E as ->. destruct k as [k|]; [|discriminate Ek]. apply str_eqb_eq in Ek. subst k. reflexivity.
  Qed.
  Lemma object_cases doc : is_object doc \/ ~ is_object doc.
  Proof. destruct doc; auto; left; exact I. Qed.

  Variable s : schema.
  Hypotheses (Hm : made s) (Hown : own_names s) (Hdn : distinct_names (at_top (sc_attrs s))) (Hq : Forall calm_attr (at_top (sc_attrs s))) (Hst : Forall (standard_in MDump) (at_top (sc_attrs s))).

  Lemma dump_total body : has_sub s ($"meta") ($"resourceType") -> tame body -> (is_object body -> well_placed s (mk_cont body)) ->
    exists y iss, schema_dump s body = Ok (y, iss)
    /\ (whole (sc_uri s) (map fst (sc_exts s)) (at_top (sc_attrs s)) y \/ exists e, iss = snd (fail e)).
  Proof.
    intros Hr Ht Hp. unfold schema_dump. destruct (C27_never_raises_partial s MDump body Hm Hq Ht Hp) as [y [iss E]]. rewrite E. cbn [bind]. destruct (object_cases body) as [Ho|Hn].
    - pose proof (parsed_whole_in MDump s body y iss Hm Hown Hdn Hq Hst Ho E) as W. destruct (negb (can_proceed iss [])); [eexists _, _; split; [reflexivity | left; exact W]|].
      destruct (can_proceed iss [meta_type_loc]); [|eexists _, _; split; [reflexivity | left; exact W]].
      destruct (sub_named _ _ _ Hr) as [a [Ea Ha]]. change ($"resourcetype") with (lower ($"resourceType")) . assert (Ea' : attr_named2 (sc_attrs s) ($"meta") (lower ($"resourceType")) = Some a) by exact Ea. rewrite Ea'.
      destruct (whole_read s y a Hm Hown W Ha) as [v ->]. cbn [bind]. destruct (is_missing v); eexists _, _; (split; [reflexivity | left; exact W]).
    - assert (F : exists e, (y, iss) = fail e) by (destruct body; try (exfalso; apply Hn; exact I); cbn [base_parse] in E; injection E as <- <-; eexists; reflexivity).
      destruct F as [e F]. injection F as -> ->. eexists _, _. split; [reflexivity|]. right. exists e. reflexivity.
  Qed.

  Lemma stuck_below i p q ls : can_proceed i [p] = false -> can_proceed i ((p ++ q) :: ls) = false.
  Proof.
    intros H. apply can_proceed_spec in H as [l [a [G1 [[t G2] G3]]]]. cbn [asked In] in G1. destruct G1 as [<-|[]]. apply can_proceed_spec. exists (p ++ q), a.
    split; [left; reflexivity|]. split; [|exact G3]. exists (t ++ q). rewrite G2, app_assoc. reflexivity.
  Qed.

  Lemma reply_total req ex st body h c : has_sub s ($"meta") ($"resourceType") -> has_sub s ($"meta") ($"location") -> tame body -> (is_object body -> well_placed s (mk_cont body)) ->
    plain_headers h -> exists rs iss, dump_resource s req ex st body h c = Ok (rs, iss).
  Proof.
    intros H1 H2 Ht Hp Hh. unfold dump_resource. fold (given_headers h).
    assert (Dh : exists d, given_headers h = VDict d /\ (qget d ($"Location") VNone = VNone \/ exists t, qget d ($"Location") VNone = VStr t)).
    { destruct Hh as [->|[d [-> Hd]]]; [exists []; split; [reflexivity | left; reflexivity]|]. unfold given_headers. destruct (truthy (VDict d)); [exists d; split; [reflexivity|]; exact (location_text d _ Hd eq_refl)|].
      exists []. split; [reflexivity | left; reflexivity]. }
    destruct Dh as [d [-> Hd]]. destruct (dump_total body H1 Ht Hp) as [y [js [-> D]]]. cbn [bind]. cbv zeta.
    destruct (sub_named _ _ _ H2) as [a [Ea Ha]]. unfold named_rep2. rewrite Ea. destruct D as [W|[e ->]].
    - assert (V : exists v, get_item y (arep a) = Ok v) by exact (whole_read s y a Hm Hown W Ha). destruct V as [v Ev].
      assert (Fin : forall i0, exists rs iss, (let! r := Ok (arep a) in let! header := Ok (qget d ($"Location") VNone) in
        let! iss := if can_proceed i0 [body_loc ++ presence_loc r; header_location_loc] && match header with VNone => false | _ => true end
          then let! v := get_item y r in let! i := location_consistency v header in Ok (merge i0 i []) else Ok i0 in
        let! b := dump_body y iss in Ok (mkResp (VDict d) b, iss)) = Ok (rs, iss)).
      { intros i0. cbn [bind]. assert (B : forall iss, exists b, dump_body y iss = Ok b) by (intros iss; unfold dump_body; destruct W as [dd [ll [-> _]]]; destruct (has_issues iss []); eexists; reflexivity).
        assert (L : exists iss, (if can_proceed i0 [body_loc ++ presence_loc (arep a); header_location_loc] && match qget d ($"Location") VNone with VNone => false | _ => true end
          then let! v := get_item y (arep a) in let! i := location_consistency v (qget d ($"Location") VNone) in Ok (merge i0 i []) else Ok i0) = Ok iss).
        { destruct Hd as [->|[t ->]]; [rewrite andb_false_r; eexists; reflexivity|]. destruct (_ && _); [|eexists; reflexivity]. rewrite Ev. cbn [bind]. unfold location_consistency.
          destruct (veq_with_text v t) as [b ->]. cbn [bind]. eexists. reflexivity. }
        destruct L as [iss ->]. cbn [bind]. destruct (B iss) as [b ->]. eexists _, _. reflexivity. }
      match goal with |- context[can_proceed ?i [body_loc]] => destruct (can_proceed i [body_loc]) end.
      + destruct (whole_presence s (checker_or_default c) Response y Hm Hown W) as [ps ->]. cbn [bind]. apply Fin.
      + cbn [bind]. apply Fin.
    - set (i1 := merge (merge (merge no_issues (snd (fail e)) body_loc) (location_in_header (VDict d) req) [LStr ($"headers")]) (status_code_issues ex st) status_loc).
      assert (C : can_proceed i1 [body_loc] = false /\ has_issues i1 [] = true).
      { unfold i1, location_in_header, status_code_issues. destruct (_ && _), (ex =? st)%Z; split; reflexivity. }
      destruct C as [C1 C2]. rewrite C1. cbn [bind]. rewrite (stuck_below _ _ _ _ C1). cbn [andb bind]. unfold dump_body. rewrite C2. cbn [bind]. eexists _, _. reflexivity.
  Qed.
End Env.
