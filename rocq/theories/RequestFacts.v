(** Lemmas about requests and responses. *)
From Coq Require Import Lia.
From Verif Require Import PyBase BaseFacts PyNum Issues IssuesSpec IssuesFacts AttrRep AttrRepSpec Value Container ContainerSpec ContainerFacts ContainerRW AttrRepFacts ValueFacts
  Types Attr Schema Assets Presence Match FilterParse Path Sort Patch ListResp Search Bulk Requests
  AttrSpec AttrFacts AttrItems SchemaSpec SchemaFacts SchemaBuild PropSchema PresenceSpec PresenceFacts PropPresence PatchSpec PatchFacts RequestSpec.

(** ** Well-formed reports *)

Lemma errs_merge_wf i j p l : wf i -> wf j ->
  errs_at (merge i j p) l = errs_at i l ++ match loc_strip p l with Some l' => errs_at j l' | None => [] end.
Proof. intros [Hi _] [Hj1 [Hj2 _]]. apply errs_at_merge; assumption. Qed.
Lemma has_issues_wf i : wf i -> (has_issues i [] = true <-> reported i).
Proof.
  intros H. rewrite has_issues_spec. unfold reported. split.
  - intros [l [t [[<-|[]] Hin]]]. exists t. intros E. apply (errs_at_nil_iff _ _ H) in E. exact (E Hin).
  - intros [l E]. exists [], l. split; [left; reflexivity|]. destruct (in_dec loc_dec l (map fst (i_errs i))) as [G|G]; [exact G|].
    exfalso. apply E. apply (errs_at_nil_iff _ _ H). exact G.
Qed.
Lemma merge_at_wf i j p i' : wf i -> wf_errs (i_errs j) -> merge_at i j p = Ok i' -> wf i'.
Proof.
  intros Hi [_ Hj] H. unfold merge_at in H. rewrite Forall_forall in Hj. revert H. apply foldM_inv; [|exact Hi].
  intros s [l es] s' Hin [Hd Hw] E. specialize (Hj _ Hin). cbn [snd] in Hj. unfold merge_entry in E.
  assert (G : s' = mkIssues (lset (p ++ l) (errs_at s (p ++ l) ++ es) (i_errs s)) (lset (p ++ l) (set_update (stop_at s (p ++ l)) (stop_at j l)) (i_stop s)) (i_dd s)).
  { unfold dd in Hd. rewrite Hd in *. destruct (lget l (i_stop j)), (i_dd j), (lget (p ++ l) (i_errs s)), (lget (p ++ l) (i_stop s)); congruence. }
  subst s'. split; [exact Hd|]. cbn [i_errs]. apply wf_lset; [exact Hw|]. destruct (errs_at s (p ++ l)); [exact Hj | discriminate].
Qed.
Lemma below_wf d p : wf_errs d -> wf_errs (below p d).
Proof.
  intros [H1 H2]. split; [apply below_NoDup; exact H1|]. unfold below. apply Forall_map. rewrite Forall_forall in *. intros x Hx. apply filter_In in Hx as [Hx _]. cbn [snd]. auto.
Qed.

(** Stops come with errors. *)
Lemma report_stops i : report i -> forall l, stops i l -> errs_at i l <> [].
Proof.
  induction 1 as [|i e p l Hi IH|i j p Hi IHi Hj IHj]; intros x Hx.
  - destruct Hx.
  - apply stops_add in Hx. rewrite errs_at_add. destruct Hx as [Hx|[_ ->]].
    + specialize (IH _ Hx). destruct (errs_at i x); [congruence | discriminate].
    + destruct (loc_dec l l) as [_|N]; [|congruence]. destruct (errs_at i l); discriminate.
  - pose proof (report_wf _ Hi) as Wi. pose proof (report_wf _ Hj) as Wj. apply stops_merge in Hx; [|apply Wi|apply Wj]. rewrite errs_merge by assumption.
    destruct Hx as [Hx|[l' [-> Hx]]].
    + specialize (IHi _ Hx). destruct (errs_at i x); [congruence | discriminate].
    + rewrite loc_strip_app. intros E. apply app_eq_nil in E as [_ E]. apply (errs_at_nil_iff _ _ Wj) in E. exact (E Hx).
Qed.
Lemma clear_proceeds i ls : report i -> (forall l, In l (asked ls) -> clear_above i l) -> can_proceed i ls = true.
Proof.
  intros Hr H. destruct (can_proceed i ls) eqn:E; [reflexivity|]. exfalso. apply can_proceed_spec in E as [l [a [H1 [H2 H3]]]].
  exact (report_stops i Hr a H3 (H l H1 a H2)).
Qed.

Lemma presence_report c data all d iss : presence c data all d = Ok iss -> report iss.
Proof.
  unfold presence. apply foldM_inv; [|constructor]. intros s a s' _ Hs H. unfold check_attr in H. apply bind_ok in H as [r [_ H]]. apply bind_ok in H as [b [_ H]].
  destruct b.
  - apply bind_ok in H as [v [_ H]].
    assert (G : forall l k i i', report i -> check_items c d a k l i = Ok i' -> report i').
    { induction l as [|x t IH]; intros k i i' Hi E; cbn [check_items] in E; [injection E as <-; exact Hi|].
      apply bind_ok in E as [rs [_ E]]. apply bind_ok in E as [w [_ E]]. destruct (is_invalid w); [exact (IH _ _ _ Hi E)|].
      apply (IH _ _ _ (report_merge _ _ _ Hi (check_presence_report _ _ _ _ _)) E). }
    destruct v; try (injection H as <-; exact Hs); try (apply bind_ok in H as [its [_ H]]; exact (G _ _ _ _ Hs H)).
    injection H as <-. apply report_merge; [exact Hs | apply check_presence_report].
  - apply bind_ok in H as [v [_ H]]. destruct (is_invalid v); injection H as <-; [exact Hs|]. apply report_merge; [exact Hs | apply check_presence_report].
Qed.

(** ** Schemas of messages *)

Definition sound_tops (s : schema) : Prop := Forall sound_attr (at_top (sc_attrs s)).

Section Env.
  Context {env : PyEnv}.

  Lemma base_wf m s doc y iss : sound_tops s -> base_parse m s doc = Ok (y, iss) -> report iss.
  Proof. apply schema_report. Qed.
  Lemma set_item_kind d l r x c : set_item (VCont d l) r x = Ok c -> exists d' l', c = VCont d' l'.
  Proof.
    intros H. unfold set_item in H. destruct (r_ext r).
    - destruct (match sget (lower (r_schema r)) l with None => _ | Some _ => _ end) as [d1 l1]. destruct (sget (r_schema r) d1); [|discriminate].
      apply bind_ok in H as [r' [_ H]]. apply bind_ok in H as [s' [_ H]]. injection H as <-. eauto.
    - unfold set_noext in H. destruct (r_sub r).
      + injection H as <-. unfold set_plain. repeat match goal with |- context[match ?x with _ => _ end] => destruct x end; eauto.
      + unfold set_sub in H. apply bind_ok in H as [[[k d1] l1] [_ H]]. destruct (sget k d1) as [cur|]; [|discriminate].
        destruct x; try (apply bind_ok in H as [c' [_ H]]; injection H as <-; eauto).
        destruct cur; try discriminate. apply bind_ok in H as [c' [_ H]]; injection H as <-; eauto.
  Qed.
  Lemma attrs_cont m l : forall data c iss y iss', (exists d l2, c = VCont d l2) -> process_attrs m l data c iss = Ok (y, iss') -> exists d l2, y = VCont d l2.
  Proof.
    induction l as [|a t IH]; intros data c iss y iss' Hc H; cbn [process_attrs] in H; [injection H as <- _; exact Hc|].
    apply bind_ok in H as [x [_ H]].
    assert (G : (let! (y, iss') := process a m x in let! processed' := set_item c (arep a) y in process_attrs m t data processed' (merge iss iss' (attr_loc a))) = Ok (y, iss')
                -> exists d l2, y = VCont d l2).
    { clear H. intros H. apply bind_ok in H as [[w js] [_ H]]. apply bind_ok in H as [c' [Hs H]]. destruct Hc as [d [l2 ->]]. apply set_item_kind in Hs. exact (IH _ _ _ _ _ Hs H). }
    destruct x; try exact (G H). exact (IH _ _ _ _ _ Hc H).
  Qed.
  Lemma base_kind m s doc y iss : base_parse m s doc = Ok (y, iss) -> (exists d l, y = VCont d l) \/ (y = VInvalid /\ exists e, iss = snd (fail e)).
  Proof.
    intros H. unfold base_parse in H.
    assert (G : forall e, Ok (fail e) = Ok (y, iss) -> (exists d l, y = VCont d l) \/ (y = VInvalid /\ exists e, iss = snd (fail e))).
    { intros e [= <- <-]. right. split; [reflexivity|]. exists e. reflexivity. }
    assert (C : forall d, (let! (data', iss') := process_data m s d in
        let iss := merge no_issues iss' [] in
        match attr_named (sc_attrs s) ($"schemas") with
        | None => Raise AttributeErr
        | Some a =>
            let! schemas_ := get_item data' (arep a) in
            if can_proceed iss [schemas_loc] && truthy schemas_ then
              let! iss2 := validate_schemas_field data' schemas_ (sc_uri s) (sc_schemas s) in
              Ok (data', merge iss iss2 [])
            else Ok (data', iss)
        end) = Ok (y, iss) -> exists d l, y = VCont d l).
    { clear H. intros d H. apply bind_ok in H as [[d' js] [Hp H]]. unfold process_data in Hp. apply attrs_cont in Hp; [|eexists _, _; reflexivity].
      destruct (attr_named _ _); [|discriminate]. apply bind_ok in H as [x [_ H]]. destruct (_ && _); [apply bind_ok in H as [js2 [_ H]]|]; injection H as <- _; exact Hp. }
    destruct doc; try exact (G _ H); left; exact (C _ H).
  Qed.
  Lemma base_not_none m s doc y iss : base_parse m s doc = Ok (y, iss) -> y <> VNone.
  Proof. intros H. apply base_kind in H as [[d [l ->]]|[-> _]]; discriminate. Qed.
  Lemma base_fine m s doc y iss : base_parse m s doc = Ok (y, iss) -> ~ reported iss -> exists d l, y = VCont d l.
  Proof. intros H N. apply base_kind in H as [H|[_ [e ->]]]; [exact H|]. exfalso. apply N. exists []. discriminate. Qed.

  Lemma dump_kind s doc y iss : schema_dump s doc = Ok (y, iss) -> exists js, base_parse MDump s doc = Ok (y, js) /\ (iss = js \/ exists k, report k /\ iss = merge js k []).
  Proof.
    intros H. unfold schema_dump in H. apply bind_ok in H as [[d js] [H1 H]]. exists js.
    destruct (negb _); [injection H as <- <-; auto|]. destruct (can_proceed _ _); [|injection H as <- <-; auto].
    destruct (attr_named2 _ _ _); [|discriminate]. apply bind_ok in H as [rt [_ H]]. destruct (is_missing rt); injection H as <- <-; [auto|].
    split; [exact H1|]. right. eexists; split; [|reflexivity]. unfold resource_type_issues. destruct rt; try (apply report_add, report_empty).
    destruct (str_eqb _ _); [apply report_empty | apply report_add, report_empty].
  Qed.
  Lemma dump_report s doc y iss : sound_tops s -> schema_dump s doc = Ok (y, iss) -> report iss.
  Proof.
    intros Hs H. apply dump_kind in H as [js [H [->|[k [Hk ->]]]]]; [|apply report_merge; [|exact Hk]]; exact (base_wf _ _ _ _ _ Hs H).
  Qed.
End Env.

(** ** Responses carrying a resource *)

Lemma veq_str v h b : veq v (VStr h) = Ok b -> (b = true <-> v = VStr h).
Proof.
  unfold veq. intros H. destruct v; cbn [py_eq num_of] in H; try (injection H as <-; split; [discriminate | intros E; discriminate E]).
  injection H as <-. rewrite str_eqb_eq. split; [intros ->; reflexivity | congruence].
Qed.

Lemma loc_strip_neq a b p q : a <> b -> loc_strip (a :: p) (b :: q) = None.
Proof. intros H. apply loc_strip_none. intros l E. cbn [app] in E. congruence. Qed.

Section Env.
  Context {env : PyEnv}.

  Definition given_headers (h : value) : value := if truthy h then h else VDict [].

  (** What a response with a resource reports. *)
  Lemma dump_resource_spec s req ex st body h c rs iss : sound_tops s -> dump_resource s req ex st body h c = Ok (rs, iss) ->
    exists y js ps d i0 r,
      schema_dump s body = Ok (y, js) /\ report js /\ report ps /\ given_headers h = VDict d /\ rs_headers rs = VDict d /\ report i0
      /\ (forall q, errs_at i0 (at_body q) = errs_at js q ++ errs_at ps q)
      /\ errs_at i0 at_status = (if (ex =? st)%Z then [] else [e_bad_status])
      /\ (forall q, errs_at i0 (LStr ($"status") :: q) <> [] -> q = [])
      /\ (forall q, errs_at i0 (LStr ($"headers") :: q) = if req && negb (amem dkey_eqb (KStr ($"Location")) d) then if loc_dec [LStr ($"Location")] q then [e_missing_header] else [] else [])
      /\ errs_at i0 [] = []
      /\ (can_proceed (merge no_issues js body_loc) [body_loc] = true -> presence (checker_or_default c) y (at_all (sc_attrs s)) Response = Ok ps)
      /\ named_rep2 s ($"meta") ($"location") = Ok r
      /\ dump_body y iss = Ok (rs_body rs) /\ report iss
      /\ (if can_proceed i0 [body_loc ++ presence_loc r; header_location_loc] && match qget d ($"Location") VNone with VNone => false | _ => true end
          then exists v b, get_item y r = Ok v /\ veq v (qget d ($"Location") VNone) = Ok b
               /\ iss = merge i0 (if b : bool then no_issues else add_issue (add_issue no_issues (e_must_equal ($"'Location' header")) true (body_loc ++ meta_location_loc)) (e_must_equal ($"'meta.location'")) true header_location_loc) []
          else iss = i0).
  Proof.
    intros Hs H. unfold dump_resource in H. fold (given_headers h) in H. apply bind_ok in H as [[y js] [Hd H]]. pose proof (dump_report _ _ _ _ Hs Hd) as Hjs.
    set (hd := given_headers h) in *.
    set (ih := location_in_header hd req) in *. assert (Hih : report ih) by (unfold ih, location_in_header; destruct (_ && _); repeat constructor).
    set (is := status_code_issues ex st) in *. assert (His : report is) by (unfold is, status_code_issues; destruct (_ =? _)%Z; repeat constructor).
    set (i1 := merge (merge (merge no_issues js body_loc) ih [LStr ($"headers")]) is status_loc) in *.
    assert (H1 : report i1) by (unfold i1; repeat (apply report_merge; auto); constructor).
    apply bind_ok in H as [i0 [Hp H]]. apply bind_ok in H as [r [Hr H]].
    destruct hd as [| | | | | | | | |d| | | | | | |] eqn:Eh; try discriminate H. cbn [bind] in H.
    apply bind_ok in H as [iss' [Hc H]]. apply bind_ok in H as [b [Hb H]]. injection H as <- <-.
    assert (P : exists ps, report ps /\ report i0 /\ (forall q, errs_at i0 (at_body q) = errs_at i1 (at_body q) ++ errs_at ps q) /\ (forall q, (forall q', q <> at_body q') -> errs_at i0 q = errs_at i1 q)
                /\ (can_proceed (merge no_issues js body_loc) [body_loc] = true -> presence (checker_or_default c) y (at_all (sc_attrs s)) Response = Ok ps)).
    { assert (B : can_proceed i1 [body_loc] = can_proceed (merge no_issues js body_loc) [body_loc]).
      { destruct (can_proceed (merge no_issues js body_loc) [body_loc]) eqn:E.
        - destruct (can_proceed i1 [body_loc]) eqn:F; [reflexivity|]. exfalso.
          apply can_proceed_spec in F as [l [a [G1 [G2 G3]]]]. cbn [asked In] in G1. destruct G1 as [<-|[]].
          assert (W : stops (merge no_issues js body_loc) a).
          { unfold i1 in G3. apply stops_merge in G3; [|apply report_wf; repeat (apply report_merge; auto); constructor | apply report_wf, His].
            destruct G3 as [G3|[l' [-> _]]]; [|destruct G2 as [t G2]; discriminate G2].
            apply stops_merge in G3; [|apply report_wf; repeat (apply report_merge; auto); constructor | apply report_wf, Hih].
            destruct G3 as [G3|[l' [-> _]]]; [exact G3 | destruct G2 as [t G2]; discriminate G2]. }
          assert (Z : can_proceed (merge no_issues js body_loc) [body_loc] = false) by (apply can_proceed_spec; exists body_loc, a; split; [left; reflexivity | auto]). congruence.
        - apply can_proceed_spec in E as [l [a [G1 [G2 G3]]]]. apply can_proceed_spec. exists l, a. split; [exact G1|]. split; [exact G2|].
          unfold i1. apply stops_merge; [apply report_wf; repeat (apply report_merge; auto); constructor | apply report_wf, His |]. left.
          apply stops_merge; [apply report_wf; repeat (apply report_merge; auto); constructor | apply report_wf, Hih |]. left. exact G3. }
      rewrite B in Hp. destruct (can_proceed _ [body_loc]).
      - apply bind_ok in Hp as [ps [Hps Hp]]. injection Hp as <-. exists ps. pose proof (presence_report _ _ _ _ _ Hps) as Rp. split; [exact Rp|].
        split; [apply report_merge; assumption|]. split; [intros q; exact (errs_merge_under i1 ps body_loc q H1 Rp)|]. split; [|intros _; exact Hps].
        intros q Hq. rewrite errs_merge by assumption. assert (N : loc_strip body_loc q = None) by (apply loc_strip_none; exact Hq). rewrite N. apply app_nil_r.
      - injection Hp as <-. exists no_issues. split; [constructor|]. split; [exact H1|]. split; [intros q; change (errs_at no_issues q) with (@nil error); symmetry; apply app_nil_r|].
        split; [reflexivity | discriminate]. }
    destruct P as [ps [Rp [R0 [P1 [P2 P3]]]]].
    assert (E1 : forall q, errs_at i1 q = match loc_strip body_loc q with Some q' => errs_at js q' | None => [] end ++ match loc_strip [LStr ($"headers")] q with Some q' => errs_at ih q' | None => [] end ++ match loc_strip status_loc q with Some q' => errs_at is q' | None => [] end).
    { intros q. unfold i1. rewrite errs_merge by (try assumption; repeat (apply report_merge; auto); constructor). rewrite errs_merge by (try assumption; repeat (apply report_merge; auto); constructor).
      rewrite errs_merge by (try assumption; constructor). change (errs_at no_issues q) with (@nil error). cbn [app]. rewrite app_assoc. reflexivity. }
    assert (Rc : report iss').
    { destruct (_ && _); [|injection Hc as <-; exact R0]. apply bind_ok in Hc as [v [_ Hc]]. apply bind_ok in Hc as [ic [Hc1 Hc]]. injection Hc as <-. apply report_merge; [exact R0|].
      unfold location_consistency in Hc1. apply bind_ok in Hc1 as [e [_ Hc1]]. injection Hc1 as <-. destruct e; repeat constructor. }
    exists y, js, ps, d, i0, r. cbn [rs_headers rs_body]. do 6 (split; [first [assumption | reflexivity]|]).
    split. { intros q. rewrite P1, E1. change (loc_strip body_loc (at_body q)) with (Some q). cbn [app]. change (loc_strip [LStr ($"headers")] (at_body q)) with (@None loc). change (loc_strip status_loc (at_body q)) with (@None loc).
             rewrite !app_nil_r. reflexivity. }
    split. { rewrite P2 by (intros q' E; discriminate E). rewrite E1. cbn. unfold is, status_code_issues. destruct (ex =? st)%Z; reflexivity. }
    split. { intros q. rewrite P2 by (intros q' E; discriminate E). rewrite E1. change (loc_strip body_loc (LStr ($"status") :: q)) with (@None loc). change (loc_strip [LStr ($"headers")] (LStr ($"status") :: q)) with (@None loc).
             change (loc_strip status_loc (LStr ($"status") :: q)) with (Some q). cbn [app]. unfold is, status_code_issues. destruct (ex =? st)%Z; [intros E; contradiction E; reflexivity|]. rewrite errs_at_add.
             destruct (loc_dec [] q) as [<-|N]; [reflexivity | intros E; contradiction E; reflexivity]. }
    split. { intros q. rewrite P2 by (intros q' E; discriminate E). rewrite E1. change (loc_strip body_loc (LStr ($"headers") :: q)) with (@None loc). change (loc_strip [LStr ($"headers")] (LStr ($"headers") :: q)) with (Some q).
             change (loc_strip status_loc (LStr ($"headers") :: q)) with (@None loc). cbn [app]. rewrite app_nil_r. unfold ih, location_in_header. rewrite andb_comm.
             destruct (req && _); [|reflexivity]. rewrite errs_at_add. reflexivity. }
    split. { rewrite P2 by (intros q' E; discriminate E). rewrite E1. reflexivity. }
    split; [exact P3|]. split; [exact Hr|]. split; [exact Hb|]. split; [exact Rc|].
    destruct (_ && _); [|injection Hc as <-; reflexivity]. apply bind_ok in Hc as [v [Hv Hc]]. apply bind_ok in Hc as [ic [Hc1 Hc]]. injection Hc as <-.
    unfold location_consistency in Hc1. apply bind_ok in Hc1 as [e [He Hc1]]. injection Hc1 as <-. exists v, e. auto.
  Qed.
End Env.

(** ** Error responses *)

Definition error_uri : str := $"urn:ietf:params:scim:api:messages:2.0:Error".
Definition error_status_rep : attr_rep := mkRep error_uri ($"status") [] false.
Lemma error_rep : named_rep error_schema ($"status") = Ok error_status_rep.
Proof. reflexivity. Qed.

Section Env.
  Context {env : PyEnv}.

  Lemma body_checked c (s : schema) y js ps i0 d : report js ->
    (if can_proceed (merge no_issues js body_loc) [body_loc] then let! p := presence c y (at_all (sc_attrs s)) d in Ok (merge (merge no_issues js body_loc) p body_loc) else Ok (merge no_issues js body_loc)) = Ok i0 ->
    ps = (if can_proceed (merge no_issues js body_loc) [body_loc] then match presence c y (at_all (sc_attrs s)) d with Ok p => p | Raise _ => no_issues end else no_issues) ->
    report ps /\ report i0 /\ (forall q, errs_at i0 (at_body q) = errs_at js q ++ errs_at ps q) /\ (forall q, (forall q', q <> at_body q') -> errs_at i0 q = [])
    /\ (can_proceed (merge no_issues js body_loc) [body_loc] = true -> presence c y (at_all (sc_attrs s)) d = Ok ps).
  Proof.
    intros Rj H Hp. set (i1 := merge no_issues js body_loc) in *. assert (R1 : report i1) by (apply report_merge; [constructor | exact Rj]).
    assert (B1 : forall q, errs_at i1 (at_body q) = errs_at js q) by (intros q; exact (errs_merge_under no_issues js body_loc q report_empty Rj)).
    assert (O1 : forall q, (forall q', q <> at_body q') -> errs_at i1 q = []).
    { intros q Hq. unfold i1. rewrite errs_merge by (try assumption; constructor). assert (N : loc_strip body_loc q = None) by (apply loc_strip_none; exact Hq). rewrite N. reflexivity. }
    destruct (can_proceed i1 [body_loc]).
    - apply bind_ok in H as [p [Hpr H]]. rewrite Hpr in Hp. subst p. injection H as <-. pose proof (presence_report _ _ _ _ _ Hpr) as Rp. split; [exact Rp|]. split; [apply report_merge; assumption|].
      split; [intros q; rewrite <- B1; exact (errs_merge_under i1 ps body_loc q R1 Rp)|]. split; [|intros _; exact Hpr].
      intros q Hq. rewrite errs_merge, (O1 q Hq) by assumption. assert (N : loc_strip body_loc q = None) by (apply loc_strip_none; exact Hq). rewrite N. reflexivity.
    - injection H as <-. subst ps. split; [constructor|]. split; [exact R1|]. split; [intros q; rewrite B1; symmetry; apply app_nil_r|]. split; [exact O1 | discriminate].
  Qed.

  Lemma error_dump_spec st body h rs iss : sound_tops error_schema -> error_dump st body h = Ok (rs, iss) ->
    exists y js ps i0, base_parse MDump error_schema body = Ok (y, js) /\ report js /\ report ps /\ report i0
    /\ (forall q, errs_at i0 (at_body q) = errs_at js q ++ errs_at ps q) /\ (forall q, (forall q', q <> at_body q') -> errs_at i0 q = [])
    /\ (can_proceed (merge no_issues js body_loc) [body_loc] = true -> presence default_checker y (at_all (sc_attrs error_schema)) Response = Ok ps)
    /\ report iss /\ dump_body y iss = Ok (rs_body rs) /\ rs_headers rs = h
    /\ (if can_proceed i0 [at_body [LStr ($"status")]]
        then exists v, get_item y error_status_rep = Ok v /\ iss = merge (merge i0 (error_status_consistency ($"status") v st) []) (error_status_code st) []
        else iss = merge i0 (error_status_code st) []).
  Proof.
    intros Hs H. unfold error_dump in H. apply bind_ok in H as [[y js] [Hb H]]. pose proof (base_wf _ _ _ _ _ Hs Hb) as Rj.
    apply bind_ok in H as [i0 [Hi H]]. rewrite error_rep in H. cbn [bind] in H. apply bind_ok in H as [i1 [H1 H]]. apply bind_ok in H as [b [Hd H]]. injection H as <- <-.
    destruct (body_checked default_checker error_schema y js _ i0 Response Rj Hi eq_refl) as [Rp [R0 [B [O P]]]].
    eexists y, js, _, i0. split; [exact Hb|]. split; [exact Rj|]. split; [exact Rp|]. split; [exact R0|]. split; [exact B|]. split; [exact O|]. split; [exact P|].
    assert (Rc : report (error_status_code st)) by (unfold error_status_code; destruct (_ && _); repeat constructor).
    assert (Rm : forall v, report (error_status_consistency ($"status") v st)) by (intros v; unfold error_status_consistency; destruct (str_is _ _); repeat constructor).
    change (body_loc ++ presence_loc error_status_rep) with (at_body [LStr ($"status")]) in H1.
    cbn [rs_headers rs_body]. destruct (can_proceed i0 _).
    - apply bind_ok in H1 as [v [Hv H1]]. injection H1 as <-. split; [repeat apply report_merge; auto|]. split; [exact Hd|]. split; [reflexivity|]. exists v. split; [exact Hv | reflexivity].
    - injection H1 as <-. split; [repeat apply report_merge; auto|]. split; [exact Hd|]. split; reflexivity.
  Qed.
End Env.

(** ** Decimal numerals *)

Lemma dec_aux_numeral f : forall n acc, n < f -> exists s, dec_aux f n acc = s ++ acc /\ numeral n s.
Proof.
  induction f as [|f IH]; intros n acc Hn; [lia|]. cbn [dec_aux]. destruct (Nat.ltb_spec n 10) as [L|L].
  - exists [digit_chr (n mod 10)]. split; [reflexivity|]. rewrite Nat.mod_small by exact L. apply num_digit. exact L.
  - destruct (IH (n / 10) (digit_chr (n mod 10) :: acc)) as [s [E H]]; [apply Nat.lt_le_trans with n; [apply Nat.div_lt; lia | lia]|].
    exists (s ++ [digit_chr (n mod 10)]). split; [rewrite E, <- app_assoc; reflexivity|].
    rewrite (Nat.div_mod n 10) at 1 by lia. apply num_more; [apply Nat.div_str_pos; lia | apply Nat.mod_upper_bound; lia | exact H].
Qed.
Lemma dec_numeral n : numeral n (dec_of_nat n).
Proof. unfold dec_of_nat. destruct (dec_aux_numeral (S n) n [] (Nat.lt_succ_diag_r n)) as [s [E H]]. rewrite E, app_nil_r. exact H. Qed.
Lemma numeral_nonempty n s : numeral n s -> s <> [].
Proof. destruct 1; [discriminate|]. intros E. apply app_eq_nil in E as [_ E]. discriminate. Qed.
Lemma numeral_fun n s : numeral n s -> forall t, numeral n t -> t = s.
Proof.
  induction 1 as [d Hd|n d s Hn Hd H IH]; intros t Ht.
  - inversion Ht as [d' Hd' E1 E2|n' d' s' Hn' Hd' H' E1 E2]; [reflexivity | lia].
  - inversion Ht as [d' Hd' E1 E2|n' d' s' Hn' Hd' H' E1 E2]; [lia|]. assert (n' = n) by lia. assert (d' = d) by lia. subst. rewrite (IH _ H'). reflexivity.
Qed.
Lemma dec_Z_numeral z : numeral_z z (dec_of_Z z).
Proof.
  destruct z as [|p|p]; cbn [dec_of_Z].
  - left. split; [lia | apply num_digit; lia].
  - left. split; [lia|]. rewrite Z2Nat.inj_pos. apply dec_numeral.
  - right. split; [lia|]. eexists. split; [reflexivity|]. cbn [Z.opp]. rewrite Z2Nat.inj_pos. apply dec_numeral.
Qed.
Lemma numeral_z_fun z s : numeral_z z s -> s = dec_of_Z z.
Proof.
  pose proof (dec_Z_numeral z) as D. intros [[H1 H2]|[H1 [t [-> H2]]]]; destruct D as [[D1 D2]|[D1 [t' [-> D2]]]]; try lia.
  - symmetry. exact (numeral_fun _ _ H2 _ D2).
  - f_equal. symmetry. exact (numeral_fun _ _ H2 _ D2).
Qed.
Lemma str_is_numeral v z : str_is v (dec_of_Z z) = true <-> exists s, v = VStr s /\ numeral_z z s.
Proof.
  destruct v; cbn [str_is]; try (split; [discriminate | intros [t [E _]]; discriminate]). rewrite str_eqb_eq. split.
  - intros ->. eexists. split; [reflexivity | apply dec_Z_numeral].
  - intros [t [[= <-] H]]. exact (numeral_z_fun _ _ H).
Qed.
