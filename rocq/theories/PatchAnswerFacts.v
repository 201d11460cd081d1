(** Lemmas about requests to modify a resource (C84). *)
From Verif Require Import PyBase BaseFacts PyNum Issues IssuesSpec IssuesFacts AttrRep AttrRepSpec AttrRepFacts Value ValueFacts
  Container ContainerSpec ContainerFacts ContainerRW Types TypesSpec Attr Schema AttrSpec AttrFacts AttrHonest AttrItems PropAttr
  SchemaSpec SchemaFacts SchemaBuild PropSchema TotalSpec TotalFacts Presence PresenceSpec PresenceFacts FilterParse Path PathSpec PropPath Patch Requests PatchSpec PatchFacts PropPatch PatchShapeSpec PatchShapeFacts PropPatchShape RequestSpec RequestFacts BodyFacts PutFacts BulkOpFacts AnswerSpec AnswerFacts MsgFacts PatchAnswerSpec.

(** ** The attributes of a schema *)

Definition descends (l : list attribute) : Prop :=
  forall b, In b l -> r_sub (arep b) <> [] -> exists t b0 r, In t l /\ r_sub (arep t) = [] /\ In b0 (sub_attrs t) /\ b = bound_attr r b0.
Lemma bound_descends uri ext l : Forall (fun a => sound_attr a /\ distinct_names (sub_attrs a)) l -> descends (flat_map (bound_all uri ext) l).
Proof.
  intros Hl b Hb N. apply in_flat_map in Hb as [a [Ha Hb]]. destruct Hb as [<-|Hb]; [rewrite bound_rep in N; contradiction|].
  apply in_map_iff in Hb as [s [<- Hs]]. rewrite Forall_forall in Hl. destruct (Hl a Ha) as [H1 H2].
  exists (bound_attr (mkRep uri (r_attr (arep a)) [] ext) a), s. eexists. split; [apply in_flat_map; exists a; split; [exact Ha | left; reflexivity]|].
  rewrite bound_rep, bound_subs by assumption. auto.
Qed.
Lemma neat_parts l : neat l -> Forall (fun a => sound_attr a /\ distinct_names (sub_attrs a)) l.
Proof. intros [H _]. revert H. apply Forall_impl. intros a H. split; apply H. Qed.
Lemma made_descends s : made s -> descends (at_all (sc_attrs s)).
Proof.
  induction 1 as [uri l Hu Hn Hf|uri l name descr plural oi oe om get l' Hu Hn Hf|s e req s' Hs IH Hu Hn Hl Hf H].
  - cbn [base_schema sc_attrs mk_attrs at_all]. rewrite dedup_id by (apply bound_keys; exact Hn). apply bound_descends, neat_parts, Hn.
  - cbn [resource_schema base_schema sc_attrs mk_attrs at_all]. rewrite dedup_id by (apply bound_keys; exact Hn). apply bound_descends, neat_parts, Hn.
  - destruct (made_assembled s Hs) as [As _]. destruct (extension_all s e req s' As Hn Hu Hl H) as [-> _].
    intros b Hb N. apply in_app_or in Hb as [Hb|Hb]; [destruct (IH b Hb N) as [t [b0 [r [Ht G]]]] | destruct (bound_descends _ _ _ (neat_parts _ Hn) b Hb N) as [t [b0 [r [Ht G]]]]]; exists t, b0, r; (split; [apply in_or_app; auto | exact G]).
Qed.

(** Every attribute is a top one or a simple sub-attribute. *)
Lemma all_parts s a : made s -> Forall calm_attr (at_top (sc_attrs s)) -> Forall flat (at_top (sc_attrs s)) -> In a (at_all (sc_attrs s)) ->
  In a (at_top (sc_attrs s)) \/ (is_complex a = false /\ calm_attr a /\ sound_attr a).
Proof.
  intros Hm Hq Hf Ha. destruct (made_assembled s Hm) as [[_ [_ [Et _]]] _]. destruct (r_sub (arep a)) eqn:E.
  - left. rewrite Et. apply filter_In. split; [exact Ha|]. unfold no_sub. rewrite E. reflexivity.
  - right. destruct (made_descends s Hm a Ha) as [t [b0 [r [Ht [H1 [H2 ->]]]]]]; [rewrite E; discriminate|].
    assert (Htt : In t (at_top (sc_attrs s))) by (rewrite Et; apply filter_In; split; [exact Ht | unfold no_sub; rewrite H1; reflexivity]).
    rewrite Forall_forall in Hq, Hf. pose proof (Hf t Htt) as F. unfold flat in F. rewrite Forall_forall in F. specialize (F b0 H2).
    pose proof (ws_attrs _ (made_wf s Hm)) as W. rewrite Forall_forall in W. pose proof (proj1 (W t Htt)) as St.
    assert (Sb : sound_attr b0).
    { inversion St as [|? ? ? ? _ _ _ _ _ _ S]; subst; cbn [sub_attrs] in H2; [destruct H2|]. rewrite Forall_forall in S. exact (S b0 H2). }
    assert (Cb : calm_attr b0).
    { pose proof (Hq t Htt) as Q. inversion Q as [|? ? ? ? _ _ _ _ _ C]; subst; cbn [sub_attrs] in H2; [destruct H2|]. rewrite Forall_forall in C. exact (C b0 H2). }
    split; [destruct b0 as [i [[[x y] z]|]]; [discriminate F | reflexivity]|]. split; [apply calm_bound; assumption | apply bound_sound; exact Sb].
Qed.

Section Env.
  Context {env : PyEnv}.

  (** What a complex attribute makes of a value that is not null. *)
  Lemma process_list i subs cps cds l v' iss : calm_attr (MkAttr i (Some (subs, cps, cds))) -> standard (MkAttr i (Some (subs, cps, cds))) -> sound_attr (MkAttr i (Some (subs, cps, cds))) -> distinct_names subs ->
    a_multi i = true -> process (MkAttr i (Some (subs, cps, cds))) MParse (VList l) = Ok (v', iss) -> exists ys, v' = VList ys /\ Forall solid ys.
  Proof.
    intros Hq Hst Ha Hd Hm H. pose proof (process_fine _ _ _ _ Ha Hd Hq Hst H) as F. cbn [fine_value] in F. rewrite Hm in F.
    destruct F as [->|[->|[ys [-> F]]]]; [| |exists ys; auto]; exfalso; inversion Hq as [|? ? ? ? Q1 Q2 Q3 Q4 Q5 Q6]; subst;
      rewrite process_complex in H; apply bind_ok in H as [[x js] [Hb H]]; rewrite base_process_eq in Hb; cbn [procs_of] in Hb; rewrite Q1, Hm in Hb; cbn [is_list negb andb] in Hb;
      (apply bind_ok in Hb as [[w j] [Hw D]]; assert (E : w = x /\ j = js) by (destruct (has_issues j []); injection D as <- <-; auto); destruct E as [-> ->]; clear D;
       unfold base_core in Hw; rewrite Hm in Hw; apply bind_ok in Hw as [[items k] [Hf Hw]]; injection Hw as <- <-;
       destruct (negb (can_proceed k []) || false) eqn:Eg; [discriminate H|];
       apply bind_ok in H as [[parsed ks] [Hc H]]; unfold complex_part in Hc; rewrite Hm in Hc; apply bind_ok in Hc as [l0 [_ Hc]]; apply bind_ok in Hc as [[it ks'] [_ Hc]]; injection Hc as <- _;
       destruct (has_issues ks []); [discriminate H|]; destruct Hst as [->|[_ ->]]; cbn [run_procs foldM] in H; [discriminate H|];
       apply bind_ok in H as [[w k2] [H1 H]]; injection H as -> _; apply bind_ok in H1 as [[w' k3] [H1 H2]]; injection H2 as -> _;
       unfold single_primary in H1; cbn [fst] in H1; apply bind_ok in H1 as [l1 [Hl H1]]; apply bind_ok in H1 as [ps [_ H1]]; injection Hl as <-; discriminate H1).
  Qed.
  Lemma process_one i subs cps cds v v' iss : calm_attr (MkAttr i (Some (subs, cps, cds))) -> standard (MkAttr i (Some (subs, cps, cds))) -> sound_attr (MkAttr i (Some (subs, cps, cds))) -> distinct_names subs ->
    a_multi i = false -> v <> VNone -> process (MkAttr i (Some (subs, cps, cds))) MParse v = Ok (v', iss) -> has_issues iss [] = false -> solid v'.
  Proof.
    intros Hq Hst Ha Hd Hm Hv H Hi. pose proof (process_fine _ _ _ _ Ha Hd Hq Hst H) as F. cbn [fine_value] in F. rewrite Hm in F.
    destruct F as [F|[F|F]]; [| |exact F]; exfalso; inversion Hq as [|? ? ? ? Q1 Q2 Q3 Q4 Q5 Q6]; subst; inversion Ha as [|? ? ? ? Ht _ _ _ _ Hpl _]; subst;
      rewrite process_complex in H; apply bind_ok in H as [[x js] [Hb H]]; rewrite base_process_eq in Hb; cbn [procs_of] in Hb; rewrite Q1, Hm in Hb; cbn [andb] in Hb.
    - assert (D : (let! (parsed, iss) := base_core MParse i v in if has_issues iss [] then Ok (parsed, iss) else run_procs [] parsed iss) = Ok (x, js)) by (clear - Hb Hv; destruct v; first [exact Hb | contradiction Hv; reflexivity]).
      apply bind_ok in D as [[w j] [Hw D]]; assert (E : w = x /\ j = js) by (destruct (has_issues j []); injection D as <- <-; auto); destruct E as [-> ->]; clear D.
      assert (Ho : one MParse i v = Ok (x, js)) by (unfold base_core in Hw; rewrite Hm in Hw; destruct v; exact Hw).
      destruct (negb (can_proceed js []) || match x with VNone => true | _ => false end) eqn:Eg.
      + injection H as -> ->. unfold one in Ho. rewrite Ht in Ho. apply bind_ok in Ho as [[x' jj] [G Hx]]. injection Hx as Hx. unfold canon_step in Hx.
        apply type_complex in G as [[e [G _]]|[G G']]; injection G as -> ->.
        * cbn [is_canonical] in Hx. injection Hx as <-. discriminate Hi.
        * destruct v; try discriminate G'. destruct (is_canonical _ _); [discriminate Hx|]. destruct (a_validate i); [|discriminate Hx]. injection Hx as <-. discriminate Hi.
      + apply bind_ok in H as [[parsed ks] [Hc H]]. unfold complex_part in Hc. rewrite Hm in Hc. rewrite walk_closed in Hc by (exact Hpl || reflexivity). apply bind_ok in Hc as [outs [Hg E]]. injection E as <- _.
        destruct (proj2 (put_all_tidy _ _ _ _ Hd Hpl Hg)) as [d [E _]]. destruct (has_issues ks []); [injection H as H _; congruence|]. destruct Hst as [->|[Hst _]]; [|congruence]. injection H as H _. congruence.
    - assert (D : (let! (parsed, iss) := base_core MParse i v in if has_issues iss [] then Ok (parsed, iss) else run_procs [] parsed iss) = Ok (x, js)) by (clear - Hb Hv; destruct v; first [exact Hb | contradiction Hv; reflexivity]).
      apply bind_ok in D as [[w j] [Hw D]]; assert (E : w = x /\ j = js) by (destruct (has_issues j []); injection D as <- <-; auto); destruct E as [-> ->]; clear D.
      assert (Ho : one MParse i v = Ok (x, js)) by (unfold base_core in Hw; rewrite Hm in Hw; destruct v; exact Hw).
      destruct (negb (can_proceed js []) || match x with VNone => true | _ => false end) eqn:Eg.
      + injection H as -> ->. unfold one in Ho. rewrite Ht in Ho. apply bind_ok in Ho as [[x' jj] [G Hx]]. injection Hx as Hx. unfold canon_step in Hx.
        apply type_complex in G as [[e [G _]]|[G G']]; injection G as -> ->.
        * cbn [is_canonical] in Hx. discriminate Hx.
        * destruct v; try discriminate G'. destruct (is_canonical _ _); [discriminate Hx|]. destruct (a_validate i); discriminate Hx.
      + apply bind_ok in H as [[parsed ks] [Hc H]]. unfold complex_part in Hc. rewrite Hm in Hc. rewrite walk_closed in Hc by (exact Hpl || reflexivity). apply bind_ok in Hc as [outs [Hg E]]. injection E as <- _.
        destruct (proj2 (put_all_tidy _ _ _ _ Hd Hpl Hg)) as [d [E _]]. destruct (has_issues ks []); [injection H as H _; congruence|]. destruct Hst as [->|[Hst _]]; [|congruence]. injection H as H _. congruence.
  Qed.

  (** ** Reading the attributes of what the parser leaves *)

  Lemma solid_column l n : Forall solid l -> exists vs, mapM (fun y => get_item y (leaf n)) l = Ok vs.
  Proof.
    induction 1 as [|x t Hx Ht [vs IH]]; cbn [mapM]; [eexists; reflexivity|]. destruct (solid_get x n Hx) as [v ->]. cbn [bind]. rewrite IH. eexists. reflexivity.
  Qed.
  Lemma own_listed s : own_names s -> forall a, In a (at_top (sc_attrs s)) -> ~ listed (r_attr (arep a)) (map fst (sc_exts s)).
  Proof. intros Hown a Ha G. apply (Hown a Ha). right. exact G. Qed.
  Lemma whole_read s y a : made s -> own_names s -> whole (sc_uri s) (map fst (sc_exts s)) (at_top (sc_attrs s)) y -> In a (at_all (sc_attrs s)) -> exists v, get_item y (arep a) = Ok v.
  Proof.
    intros Hm Hown Hy Ha. destruct (made_placed s Hm (own_listed s Hown)) as [Hpl _]. rewrite Forall_forall in Hpl. pose proof (Hpl a Ha) as P. pose proof P as [[Pa Ps] _].
    destruct (whole_get _ _ _ _ y (arep a) Hy P) as [->|[x [Fx ->]]]; [eexists; reflexivity|]. destruct (r_sub (arep a)) as [|ch sub] eqn:Es; [eexists; reflexivity|]. rewrite <- Es in *.
    assert (N : r_sub (arep a) <> []) by (rewrite Es; discriminate). assert (Sub : attr_ok (r_sub (arep a))) by (destruct Ps as [Ps|Ps]; [contradiction | exact Ps]).
    destruct (made_kin s Hm a Ha N) as [t [Ht [T1 [T2 [T3 [T4 T5]]]]]]. destruct (made_assembled s Hm) as [[_ [_ [Et _]]] _].
    assert (Tt : In t (at_top (sc_attrs s))) by (rewrite Et; apply filter_In; split; [exact Ht|]; unfold no_sub; rewrite T1; reflexivity).
    assert (El : lower (r_attr (arep t)) = lower (r_attr (arep a))) by congruence.
    destruct t as [i [sb|]]; [|discriminate T5]. specialize (Fx _ Tt El). cbn [fine_value] in Fx. rewrite get_sub_eq by exact Sub.
    destruct Fx as [->|[->|Fx]]; try (eexists; reflexivity). destruct (a_multi i).
    - destruct Fx as [l [-> L]]. destruct (solid_column l (r_sub (arep a)) L) as [vs ->]. eexists. reflexivity.
    - destruct (solid_get x (r_sub (arep a)) Fx) as [v E]. destruct Fx as [d0 [l0 [-> _]]]. exists v. exact E.
  Qed.
  Lemma read_only_total s y l : made s -> own_names s -> whole (sc_uri s) (map fst (sc_exts s)) (at_top (sc_attrs s)) y -> incl l (at_all (sc_attrs s)) -> forall iss, exists iss', read_only_attrs l y iss = Ok iss'.
  Proof.
    intros Hm Hown Hy. induction l as [|a t IH]; intros Hl iss; cbn [read_only_attrs]; [eexists; reflexivity|]. destruct (whole_read s y a Hm Hown Hy (Hl a (or_introl eq_refl))) as [v ->]. cbn [bind].
    apply IH. intros b Hb. apply Hl. right. exact Hb.
  Qed.
  Lemma subs_total l y : Forall (fun b => AttrSpec.plain_rep (arep b)) l -> solid y -> forall iss, exists iss', read_only_subs l y iss = Ok iss'.
  Proof.
    induction 1 as [|b t [B1 [B2 [B3 _]]] Ht IH]; intros Hy iss; cbn [read_only_subs]; [eexists; reflexivity|]. destruct (is_read_only _); [|apply IH; exact Hy].
    replace (arep b) with (leaf (r_attr (arep b))) by (clear - B1 B2 B3; destruct (arep b) as [q1 q2 q3 q4]; cbn [r_schema r_attr r_sub r_ext] in *; subst; reflexivity). destruct (solid_get y (r_attr (arep b)) Hy) as [v ->]. cbn [bind]. apply IH. exact Hy.
  Qed.

  (** ** Single operations *)

  Lemma wrap_conv v : wrap v = conv v.
  Proof. destruct v; try reflexivity. Qed.
  Lemma tame_wrap v : tame v -> tame (wrap v).
  Proof. rewrite wrap_conv. intros H. exact (proj1 (tame_conv v H)). Qed.
  Lemma wrap_some v : v <> VNone -> wrap v <> VNone.
  Proof. destruct v; cbn [wrap]; try congruence. destruct (cont_of (VDict d)) as [? [? ->]]. discriminate. Qed.

  Variable s : schema.
  Hypothesis Hm : made s.
  Hypothesis Hown : own_names s.
  Hypothesis Hdn : distinct_names (at_top (sc_attrs s)).
  Hypothesis Hq : Forall calm_attr (at_top (sc_attrs s)).
  Hypothesis Hst : Forall standard (at_top (sc_attrs s)).
  Hypothesis Hfl : Forall flat (at_top (sc_attrs s)).

  Lemma top_sound a : In a (at_top (sc_attrs s)) -> sound_attr a /\ distinct_names (sub_attrs a).
  Proof.
    intros Ha. pose proof (ws_attrs _ (made_wf s Hm)) as W. rewrite Forall_forall in W. split; [exact (proj1 (W a Ha))|].
    exact (proj2 (proj2 (made_placed s Hm (own_listed s Hown)) a Ha)).
  Qed.
  Lemma update_total r v : tame v -> v <> VNone -> exists v' iss, parse_update_value s r v = Ok (v', iss)
    /\ forall a, find_attr (at_all (sc_attrs s)) r = Some a -> several a -> is_read_only (a_mut (info a)) = false -> forall l, v = VList l -> exists ys, v' = VList ys /\ Forall solid ys.
  Proof.
    intros Hv Hn. unfold parse_update_value. destruct (find_attr (at_all (sc_attrs s)) r) as [a|] eqn:Ef; [|eexists _, _; split; [reflexivity | discriminate]].
    destruct (is_read_only (a_mut (info a))) eqn:Er; [eexists _, _; split; [reflexivity|]; intros a' E _ E2; injection E as <-; congruence|].
    pose proof (find_some _ _ Ef) as [Ha _]. pose proof (all_parts s a Hm Hq Hfl Ha) as D.
    assert (T : exists o, process a MParse v = Ok o).
    { destruct D as [D|[_ [C S]]]; [|exact (process_total a S C MParse v Hv)]. rewrite Forall_forall in Hq. exact (process_total a (proj1 (top_sound a D)) (Hq a D) MParse v Hv). }
    destruct T as [[v' iss] T]. rewrite T. cbn [bind].
    assert (L : several a -> forall l, v = VList l -> exists ys, v' = VList ys /\ Forall solid ys).
    { intros [S1 S2] l ->. destruct D as [D|[C _]]; [|congruence]. destruct (top_sound a D) as [A1 A2]. rewrite Forall_forall in Hq, Hst. destruct a as [i [[[subs cps] cds]|]]; [|discriminate S1].
      exact (process_list i subs cps cds l v' iss (Hq _ D) (Hst _ D) A1 A2 S2 T). }
    assert (G : exists iss', (if has_issues iss [] then Ok (v', merge no_issues iss []) else if is_complex a && negb (a_multi (info a)) then let! iss := read_only_subs (sub_attrs a) v' no_issues in Ok (v', iss) else Ok (v', no_issues)) = Ok (v', iss')).
    { destruct (has_issues iss []) eqn:Ei; [eexists; reflexivity|]. destruct (is_complex a && negb (a_multi (info a))) eqn:Ec; [|eexists; reflexivity].
      apply andb_true_iff in Ec as [C1 C2]. apply negb_true_iff in C2. destruct D as [D|[C _]]; [|congruence]. destruct (top_sound a D) as [A1 A2]. rewrite Forall_forall in Hq, Hst.
      destruct a as [i [[[subs cps] cds]|]]; [|discriminate C1]. pose proof (process_one i subs cps cds v v' iss (Hq _ D) (Hst _ D) A1 A2 C2 Hn T Ei) as So.
      destruct (subs_total subs v' (subs_plain _ A1) So no_issues) as [k K]. cbn [sub_attrs]. rewrite K. eexists. reflexivity. }
    destruct G as [iss' ->]. exists v', iss'. split; [reflexivity|]. intros a' E S _. injection E as <-. exact (L S).
  Qed.

  (** A document's entries under the name of an attribute. *)
  Lemma get_found c r x : tame c -> is_cont c = true -> placed (sc_uri s) (map fst (sc_exts s)) r -> well_placed s c -> r_sub r = [] -> x <> VMissing -> get_item c r = Ok x ->
    holds c (r_attr r) x \/ exists u e, In u (map fst (sc_exts s)) /\ holds c u e /\ holds e (r_attr r) x.
  Proof.
    intros Ht Hc [[Ha _] [He Hno]] [W1 [W2 _]] Es Hx H. destruct c as [| | | | | | | | | |d l| | | | | |]; try discriminate Hc. rewrite get_item_eq, Es in H.
    assert (Top : sget (lower (r_schema r)) l = None -> holds (VCont d l) (r_attr r) x).
    { intros E. rewrite E in H. destruct (sget (lower (r_attr r)) l) as [k|] eqn:Ek; [|congruence]. destruct (sget k d) as [z|] eqn:Ez; [|discriminate]. cbn [get_sub] in H. injection H as ->. exists d, l, k. auto. }
    destruct (r_ext r).
    - destruct (sget (lower (r_schema r)) l) as [k|] eqn:E; [|left; exact (Top eq_refl)]. destruct (sget k d) as [e|] eqn:Ee; [|rewrite mk_rep_plain in H by exact Ha; discriminate H]. rewrite mk_rep_plain in H by exact Ha. cbn [bind] in H.
      assert (He2 : holds (VCont d l) (r_schema r) e) by (exists d, l, k; auto). pose proof (W2 _ _ He He2) as C. right. exists (r_schema r), e. split; [exact He|]. split; [exact He2|].
      assert (Te : tame e) by exact (tame_get_rep _ _ _ _ Ht He2). destruct e as [| | | | | | | | | |d2 l2| | | | | |]; try discriminate C.
      assert (E0 : sget [] l2 = None) by (clear - Te; inversion Te; subst; assumption).
      change {| r_schema := []; r_attr := r_attr r; r_sub := []; r_ext := false |} with (leaf (r_attr r)) in H. rewrite leaf_get in H by exact E0.
      destruct (sget (lower (r_attr r)) l2) as [k2|] eqn:E2; [|congruence]. destruct (sget k2 d2) as [z|] eqn:Ez; [|discriminate]. injection H as ->. exists d2, l2, k2. auto.
    - left. apply Top. rewrite He. destruct (sget (lower (sc_uri s)) l) as [k|] eqn:E; [|reflexivity]. exfalso. apply W1. exists k. exact E.
  Qed.

  (** What the parser leaves where multi-valued complex attributes get lists. *)
  Definition fine_list (a : attribute) (x : value) : Prop := fine_value a x /\ (several a -> exists ys, x = VList ys /\ Forall solid ys).
  Lemma parsed_lists d y iss : tame (VDict d) -> well_placed s (mk_cont (VDict d)) -> lists_several s (mk_cont (VDict d)) -> base_parse MParse s (VDict d) = Ok (y, iss) ->
    whole_with (sc_uri s) (map fst (sc_exts s)) (at_top (sc_attrs s)) fine_list y.
  Proof.
    intros Ht Hp Hl H. pose proof (made_wf s Hm) as Hw.
    destruct (parse_shape s MParse (VDict d) y iss Hw I H) as [outs [iss2 [Hg [-> _]]]]. destruct (tops_fit s Hw) as [Hnd Hf].
    destruct (made_placed s Hm (own_listed s Hown)) as [_ Hpl]. apply put_tops_whole; [exact Hnd | | | apply whole_empty].
    - destruct Hw as [[W _] _ _ _]. unfold sc_schemas in W. cbn [map] in W. inversion W; subst. assumption.
    - apply Forall_forall. intros [a [v j]] Hin. cbn [fst snd]. destruct (gather_top_In _ _ _ _ _ _ Hg Hin) as [Ha [x [Gx [Nx Hx]]]].
      destruct (Hpl a Ha) as [P1 P2]. split; [exact P1|]. split; [intros G; apply (Hown a Ha); left; symmetry; exact G|].
      intros b Hb E. replace b with a by (symmetry; exact (NoDup_map_eq _ _ _ _ Hdn Hb Ha E)).
      destruct (top_sound a Ha) as [A1 A2]. pose proof Hq as Hq'. pose proof Hst as Hst'. rewrite Forall_forall in Hq', Hst'. split; [exact (process_fine a x v j A1 A2 (Hq' a Ha) (Hst' a Ha) Hx)|].
      intros [S1 S2].
      assert (L : exists l, x = VList l).
      { destruct (made_assembled s Hm) as [[_ [_ [Et _]]] _]. assert (Es : r_sub (arep a) = []).
        { rewrite Et in Ha. apply filter_In in Ha as [_ Ha]. unfold no_sub in Ha. destruct (r_sub (arep a)); [reflexivity | discriminate Ha]. }
        refine (Hl a (r_attr (arep a)) x Ha (conj S1 S2) eq_refl _).
        destruct (get_found _ (arep a) x (tame_mk_cont _ Ht) ltac:(destruct (cont_of (VDict d)) as [? [? ->]]; reflexivity) P1 Hp Es Nx Gx) as [G|[u [e G]]]; [left; exact G | right; exists u, e; exact G]. }
      destruct L as [l ->]. destruct a as [i [[[subs cps] cds]|]]; [|discriminate S1].
      exact (process_list i subs cps cds l v j (Hq' _ Ha) (Hst' _ Ha) A1 A2 S2 Hx).
  Qed.
  Lemma lists_whole y : whole_with (sc_uri s) (map fst (sc_exts s)) (at_top (sc_attrs s)) fine_list y -> whole (sc_uri s) (map fst (sc_exts s)) (at_top (sc_attrs s)) y.
  Proof.
    assert (F : forall lk x, fits_with (at_top (sc_attrs s)) fine_list lk x -> fits_with (at_top (sc_attrs s)) fine_value lk x) by (intros lk x H a Ha E; exact (proj1 (H a Ha E))).
    intros [d [l [-> [H1 [H2 [H3 [H4 H5]]]]]]]. exists d, l. split; [reflexivity|]. split; [exact H1|]. split; [exact H2|]. split; [exact H3|]. split.
    - intros u Hu. destruct (H4 u Hu) as [G|[G [sub [G1 [d2 [l2 [-> [K1 [K2 [K3 K4]]]]]]]]]]; [left; exact G|]. right. split; [exact G|]. eexists. split; [exact G1|]. exists d2, l2. do 4 (split; [first [reflexivity | assumption]|]).
      intros lk k E. destruct (K4 lk k E) as [x [X1 X2]]. exists x. auto.
    - intros lk k E N. destruct (H5 lk k E N) as [x [X1 X2]]. exists x. auto.
  Qed.

  (** ** The presence of sub-attributes in operations *)

  Lemma item_presence c x subs d : Forall (fun b => AttrSpec.plain_rep (arep b)) subs -> solid x -> exists p, presence c x subs d = Ok p.
  Proof.
    intros Hp Hx. unfold presence. destruct (foldM_total (check_attr c x subs d) (fun _ => True) subs no_issues) as [i [E _]]; [exact I| | exists i; exact E].
    intros iss a Ha _. cut (exists i, check_attr c x subs d iss a = Ok i); [intros [i E]; exists i; auto|]. rewrite Forall_forall in Hp. destruct (Hp a Ha) as [P1 [P2 [P3 P4]]]. unfold check_attr.
    rewrite mk_rep_ok by (first [apply attr_ok_spec; exact P4 | discriminate]). cbn [bind]. rewrite P2. cbn [nonempty].
    replace (arep a) with (leaf (r_attr (arep a))) by (clear - P1 P2 P3; destruct (arep a) as [q1 q2 q3 q4]; cbn [r_schema r_attr r_sub r_ext] in *; subst; reflexivity).
    destruct (solid_get x (r_attr (arep a)) Hx) as [v E]. rewrite E. cbn [bind]. destruct (is_invalid v); eexists; reflexivity.
  Qed.
  Lemma items_total c subs l xs : Forall (fun b => AttrSpec.plain_rep (arep b)) subs -> Forall solid xs -> forall j iss, exists iss', items_presence c subs l j xs iss = Ok iss'.
  Proof.
    intros Hp. induction 1 as [|x t Hx Ht IH]; intros j iss; cbn [items_presence]; [eexists; reflexivity|]. destruct (has_issues _ _); [apply IH|].
    destruct (item_presence c x subs Request Hp Hx) as [p ->]. cbn [bind]. apply IH.
  Qed.
  Lemma complex_total iss a v l : sound_attr a -> (several a -> v = VMissing \/ exists ys, v = VList ys /\ Forall solid ys) -> exists iss', complex_presence iss (Some a) v l = Ok iss'.
  Proof.
    intros Ha H. unfold complex_presence. destruct (negb (is_complex a && a_multi (info a)) || is_missing v) eqn:E; [eexists; reflexivity|]. apply orb_false_iff in E as [E1 E2]. apply negb_false_iff, andb_true_iff in E1.
    destruct (H E1) as [->|[ys [-> G]]]; [discriminate E2|]. cbn [iter_value bind]. apply items_total; [exact (subs_plain a Ha) | exact G].
  Qed.

  (** An operation of the parsed request that can be checked. *)
  Definition good_item (c : value) : Prop := solid c /\ exists op p v, get_item c (leaf ($"op")) = Ok op /\ get_item c (leaf ($"path")) = Ok p /\ get_item c (leaf ($"value")) = Ok v
    /\ forall i iss, exists iss', patch_operation_presence s i op v p iss = Ok iss'.
  Lemma two_solid k p : solid (tabled [($"op", k); ($"path", p)]).
  Proof. apply tidy_solid. eexists. split; [reflexivity|]. split; [apply nodupb_ok; reflexivity | repeat constructor; discriminate]. Qed.
  Lemma three_solid k p v : solid (tabled [($"op", k); ($"path", p); ($"value", v)]).
  Proof. apply tidy_solid. eexists. split; [reflexivity|]. split; [apply nodupb_ok; reflexivity | repeat constructor; discriminate]. Qed.
  Lemma remove_good p : good_item (mk_cont (dict_of [($"op", VStr ($"remove")); ($"path", VPath p)])).
  Proof.
    split; [exact (two_solid (VStr ($"remove")) (VPath p))|]. exists (VStr ($"remove")), (VPath p), VMissing. do 3 (split; [reflexivity|]). intros i iss. exists iss. reflexivity.
  Qed.
  Lemma three_good k p v : (forall i iss, exists iss', patch_operation_presence s i (VStr k) (wrap v) (wrap p) iss = Ok iss') -> good_item (mk_cont (dict_of [($"op", VStr k); ($"path", p); ($"value", v)])).
  Proof.
    intros H. rewrite mk_three. split; [apply three_solid|]. exists (VStr k), (wrap p), (wrap v). do 3 (split; [reflexivity|]). exact H.
  Qed.
  Lemma wrap_solids ys : Forall solid ys -> wrap (VList ys) = VList ys.
  Proof.
    intros H. cbn [wrap]. f_equal. induction H as [|x t [d [l [-> _]]] Ht IH]; cbn [map]; [reflexivity|]. rewrite IH. reflexivity.
  Qed.
  Lemma path_wrap p : wrap (VPath p) = VPath p.
  Proof. reflexivity. Qed.

  Lemma has_now e : has_issues (add_issue no_issues e false []) [] = true.
  Proof. reflexivity. Qed.
  Lemma remove_total p : exists v iss, parse_remove s (VPath p) = Ok (v, iss) /\ (known s p -> good_item v).
  Proof.
    unfold parse_remove, validate_operation_path.
    assert (K : known s p -> exists a, find_attr (at_all (sc_attrs s)) (p_rep p) = Some a) by (intros [[a Ha] _]; apply find_denotes in Ha; eauto).
    assert (K2 : known s p -> forall r, p_sub p = Some r -> exists b, find_attr (at_all (sc_attrs s)) r = Some b).
    { intros [_ [E|[q [b [E B]]]]] r Er; [congruence|]. rewrite E in Er. injection Er as <-. apply find_denotes in B. eauto. }
    destruct (find_attr (at_all (sc_attrs s)) (p_rep p)) as [a|]; cbn [orb].
    - destruct (p_sub p) as [r|].
      + destruct (find_attr (at_all (sc_attrs s)) r) as [b|] eqn:Eb; cbn [bind].
        * eexists _, _. split; [reflexivity|]. intros _. apply remove_good.
        * eexists _, _. split; [reflexivity|]. intros G. destruct (K2 G r eq_refl) as [b E]. congruence.
      + cbn [bind]. eexists _, _. split; [reflexivity|]. intros _. apply remove_good.
    - cbn [bind]. eexists _, _. split; [reflexivity|]. intros G. destruct (K G) as [a E]. congruence.
  Qed.

  (** What is checked for a path is what is changed, unless it is simple. *)
  Lemma by_path t p : reads t p -> known s p -> exists a, get_by_path (at_all (sc_attrs s)) p = Ok (Some a) /\ In a (at_all (sc_attrs s))
    /\ (several a -> changes s p a /\ match p_filter p, p_sub p with Some _, Some _ => False | _, _ => True end).
  Proof.
    intros Hr [[a Ha] Hs]. pose proof Ha as Fa. apply find_denotes in Fa. pose proof (reads_whole t p Hr) as Wp. unfold whole_path in Wp. unfold get_by_path.
    assert (B : (match p_filter p with None => Ok false | Some o => match oper_rep o with None => Raise AttributeErr | Some r => Ok (match find_attr (at_all (sc_attrs s)) r with None => true | Some _ => false end) end end) = Ok false).
    { destruct (p_filter p) as [f|]; [|reflexivity]. destruct Wp as [o [-> _]]. cbn [oper_rep]. rewrite Fa. reflexivity. }
    rewrite B. cbn [bind]. rewrite Fa. destruct (p_sub p) as [q|] eqn:Eq.
    - destruct Hs as [Hs|[q' [b [Hs Hb]]]]; [discriminate|]. injection Hs as <-. pose proof Hb as Fb. apply find_denotes in Fb. exists b. split; [rewrite Fb; reflexivity|]. pose proof (find_some _ _ Fb) as [Ib _]. split; [exact Ib|].
      intros [S1 S2]. exfalso. destruct (all_parts s b Hm Hq Hfl Ib) as [D|[C _]]; [|congruence]. destruct (made_assembled s Hm) as [[_ [_ [Et _]]] _]. rewrite Et in D. apply filter_In in D as [_ D].
      unfold no_sub in D. destruct Hb as [l1 [l2 [_ [[_ [_ R]] _]]]]. destruct (p_filter p) as [f|]; [|destruct Wp as [_ Wp]; discriminate Wp]. destruct Wp as [o [_ [_ Wp]]]. destruct (Wp q eq_refl) as [_ W].
      destruct (r_sub (arep b)); [|discriminate D]. unfold same_text in R. destruct (r_sub q); [|discriminate R]. destruct W as [[W _]|W]; [contradiction W; reflexivity | discriminate W].
    - exists a. split; [reflexivity|]. split; [exact (proj1 (find_some _ _ Fa))|]. intros _. unfold changes. rewrite Eq. destruct (p_filter p); auto.
  Qed.

  Lemma outcome_total o : in_order o -> workable s o -> exists v iss, outcome_of s o = Ok (v, iss) /\ (apt s o -> good_item v).
  Proof.
    intros Ho Hw. unfold outcome_of. destruct (str_eqb (o_kind o) ($"remove")) eqn:Ek.
    - apply str_eqb_eq in Ek. destruct (path_cases o Ho) as [[P _]|[t [p [P [R ->]]]]].
      { exfalso. destruct Ho as [_ [_ [G|[[G _]|[_ G]]]]]; [rewrite Ek in G; discriminate G | rewrite Ek in G; discriminate G | contradiction]. }
      cbn [opt]. destruct (remove_total p) as [v [iss [E G]]]. exists v, iss. split; [exact E|]. intros A. apply G. unfold apt in A. rewrite P in A. exact (proj1 (A p R)).
    - assert (Nk : o_kind o <> $"remove") by (intros E; rewrite E in Ek; discriminate Ek). destruct Hw as [E|Hw]; [contradiction|]. unfold parse_add_or_replace, apt.
      destruct (path_cases o Ho) as [[P ->]|[t [p [P [R ->]]]]]; rewrite P in *; cbn [opt is_none_or_missing].
      + destruct Hw as [d [-> [Ht Hp]]]. cbn [option_map opt bind]. change (has_issues no_issues []) with false. cbv iota. cbn [parse_operation_value]. unfold schema_parse. rewrite base_parse_wrap.
        destruct (C27_never_raises_partial s MParse (VDict d) Hm Hq Ht (fun _ => Hp)) as [y [iss E]]. rewrite E. cbn [bind].
        pose proof (parsed_whole s (VDict d) y iss Hm Hown Hdn Hq Hst I E) as W.
        match goal with |- context[read_only_attrs ?l ?c ?i] => destruct (read_only_total s y l Hm Hown W (incl_refl _) i) as [iss' ->] end. cbn [bind].
        eexists _, _. split; [reflexivity|]. intros A. apply three_good. intros i0 j. unfold patch_operation_presence. destruct (str_is _ _); [eexists; reflexivity|].
        pose proof (parsed_lists d y iss Ht Hp (A d eq_refl) E) as L. replace (wrap y) with y by (destruct L as [d0 [l0 [-> _]]]; reflexivity). cbn [wrap].
        match goal with |- exists k, foldM ?f ?l j = Ok k => destruct (foldM_total f (fun _ => True) l j) as [kk [K _]]; [exact I| | exists kk; exact K] end.
        intros j' a Ha _. destruct (whole_read s y a Hm Hown W Ha) as [x Ex]. rewrite Ex. cbn [bind].
        match goal with |- exists k, ?t = Ok k /\ True => cut (exists k, t = Ok k); [intros [kk K]; exists kk; auto|] end.
        destruct (all_parts s a Hm Hq Hfl Ha) as [D|[C [_ S]]]; [|apply complex_total; [exact S | intros [S1 _]; congruence]].
        apply complex_total; [exact (proj1 (top_sound a D))|]. intros Sa. destruct (made_placed s Hm (own_listed s Hown)) as [_ Hpl].
        destruct (whole_get _ _ _ _ y (arep a) L (proj1 (Hpl a D))) as [G|[x' [F G]]]; rewrite Ex in G; [injection G as ->; left; reflexivity|].
        assert (Es : r_sub (arep a) = []).
        { destruct (made_assembled s Hm) as [[_ [_ [Et _]]] _]. rewrite Et in D. apply filter_In in D as [_ D]. unfold no_sub in D. destruct (r_sub (arep a)); [reflexivity | discriminate D]. }
        rewrite Es in G. cbn [get_sub] in G. injection G as ->. right. exact (proj2 (F a D eq_refl) Sa).
      + destruct Hw as [v [Ev [Ht Hn]]]. rewrite Ev. cbn [option_map opt].
        assert (V : (exists e, validate_operation_path s (VPath p) = Ok e /\ has_issues e [] = true /\ ~ known s p) \/ validate_operation_path s (VPath p) = Ok no_issues).
        { unfold validate_operation_path. destruct (_ || _) eqn:E; [|right; reflexivity]. left. eexists. split; [reflexivity|]. split; [reflexivity|]. intros [[a Ha] Hs]. apply find_denotes in Ha. rewrite Ha in E. cbn [orb] in E.
          destruct Hs as [Hs|[q [b [Hs Hb]]]]; rewrite Hs in E; [discriminate E|]. apply find_denotes in Hb. rewrite Hb in E. discriminate E. }
        destruct V as [[e [-> [He Nk']]]| ->]; cbn [bind]; [rewrite He; eexists _, _; split; [reflexivity|]; intros A; destruct (Nk' (proj1 (A p R)))|].
        change (has_issues no_issues []) with false. cbv iota.
        assert (U : exists r, parse_operation_value s (VPath p) (wrap v) = parse_update_value s r (wrap v) /\ (match p_filter p, p_sub p with Some _, Some _ => False | _, _ => True end -> r = p_rep p)).
        { cbn [parse_operation_value]. destruct (match find_attr _ _ with Some a => is_complex a | None => false end), (p_filter p), (p_sub p); eexists; (split; [reflexivity|]); intros G; first [reflexivity | destruct G]. }
        destruct U as [r [-> Hr]]. destruct (update_total r (wrap v) (tame_wrap v Ht) (wrap_some v Hn)) as [v' [iss [-> L]]]. cbn [bind].
        eexists _, _. split; [reflexivity|]. intros A. destruct (A p R) as [K A2]. destruct A2 as [A2|A2]; [contradiction|]. apply three_good. intros i0 j. unfold patch_operation_presence. destruct (str_is _ _); [eexists; reflexivity|].
        cbn [wrap]. destruct (by_path t p R K) as [a [-> [Ia B]]]. cbn [bind].
        apply complex_total; [destruct (all_parts s a Hm Hq Hfl Ia) as [D|[_ [_ S]]]; [exact (proj1 (top_sound a D)) | exact S]|].
        intros Sa. destruct (B Sa) as [C N]. destruct (A2 a C Sa) as [Nro [l El]]. injection El as ->. right.
        assert (Fr : find_attr (at_all (sc_attrs s)) r = Some a).
        { rewrite (Hr N). pose proof (changes_found s p a C) as F. destruct (p_filter p), (p_sub p); first [exact F | destruct N]. }
        destruct (L a Fr Sa) with (l := map wrap_item l) as [ys [-> Y]]; [destruct (is_read_only (a_mut (info a))) eqn:X; [exfalso; apply Nro; apply ro_iff; exact X | reflexivity] | reflexivity|].
        exists ys. split; [apply wrap_solids; exact Y | exact Y].
  Qed.
  Lemma outcomes_total l : Forall in_order l -> Forall (workable s) l -> exists outs, mapM (outcome_of s) l = Ok outs /\ (Forall (apt s) l -> Forall good_item (map fst outs)).
  Proof.
    induction 1 as [|o t Ho _ IH]; intros H; [exists []; split; [reflexivity | intros _; constructor]|]. inversion H; subst. destruct (outcome_total o Ho) as [v [iss [E G]]]; [assumption|]. destruct IH as [outs [E2 G2]]; [assumption|].
    cbn [mapM]. rewrite E, E2. cbn [bind]. eexists. split; [reflexivity|]. intros A. inversion A; subst. cbn [map fst]. constructor; auto.
  Qed.

  (** ** The whole request *)

  Lemma answer_whole vs : Forall solid vs -> whole patch_uri [] (at_top (sc_attrs patch_schema)) (answer vs).
  Proof.
    intros H. assert (T : tidy (answer vs)) by (eexists; split; [reflexivity|]; split; [apply nodupb_ok; reflexivity | repeat constructor; discriminate]).
    destruct (tidy_leafy _ T) as [d [l [E [H1 [H2 H3]]]]]. unfold answer, tabled in E. assert (Ed : d = [($"schemas", VList [VStr patch_uri]); ($"Operations", VList vs)]) by congruence.
    assert (El : l = [(lower ($"schemas"), $"schemas"); (lower ($"Operations"), $"Operations")]) by (injection E as _ <-; reflexivity). clear E. subst d.
    exists [($"schemas", VList [VStr patch_uri]); ($"Operations", VList vs)], l. split; [subst l; reflexivity|]. split; [exact H1|]. split; [exact H2|]. split; [subst l; reflexivity|]. split; [intros u []|].
    intros lk k G _. pose proof (H1 _ _ G) as K. subst l. unfold sget in G. cbn [aget] in G. rewrite tops.
    destruct (str_eqb (lower ($"schemas")) lk) eqn:E1; [|destruct (str_eqb (lower ($"Operations")) lk) eqn:E2; [|discriminate G]].
    - apply (f_equal (fun o => match o with Some x => x | None => k end)) in G. cbv beta iota in G. subst k. eexists. split; [reflexivity|]. intros a [<-|[<-|[]]] E; [exact I|]. exfalso. subst lk. discriminate E.
    - apply (f_equal (fun o => match o with Some x => x | None => k end)) in G. cbv beta iota in G. subst k. eexists. split; [reflexivity|]. intros a [<-|[<-|[]]] E; [exact I|]. right. right. exists vs. auto.
  Qed.
  Lemma patch_own : own_names patch_schema.
  Proof.
    intros a Ha. rewrite tops in Ha. destruct Ha as [<-|[<-|[]]]; intros [G|[]]; discriminate G.
  Qed.
  Lemma columns_total vs : Forall good_item vs -> exists ops paths vals,
    mapM (fun y => get_item y (leaf ($"op"))) vs = Ok ops /\ mapM (fun y => get_item y (leaf ($"path"))) vs = Ok paths /\ mapM (fun y => get_item y (leaf ($"value"))) vs = Ok vals
    /\ forall i iss, exists iss', patch_presence s i ops vals paths iss = Ok iss'.
  Proof.
    induction 1 as [|c t [_ [op [p [v [G1 [G2 [G3 G4]]]]]]] Ht [ops [paths [vals [E1 [E2 [E3 IH]]]]]]].
    - exists [], [], []. do 3 (split; [reflexivity|]). intros i iss. exists iss. reflexivity.
    - exists (op :: ops), (p :: paths), (v :: vals). cbn [mapM]. rewrite G1, G2, G3, E1, E2, E3. do 3 (split; [reflexivity|]). intros i iss. cbn [patch_presence]. destruct (G4 i iss) as [j ->]. cbn [bind]. apply IH.
  Qed.
  Lemma answer_column vs sub xs : attr_ok sub -> mapM (fun y => get_item y (leaf sub)) vs = Ok xs -> get_item (answer vs) (ops_rep patch_uri sub) = Ok (VList xs).
  Proof.
    intros Hok E. unfold answer, tabled. rewrite get_item_eq. cbn [ops_rep r_schema r_attr r_sub map fst]. transitivity (get_sub (VList vs) sub); [reflexivity|]. rewrite get_sub_eq by exact Hok. rewrite E. reflexivity.
  Qed.
  Lemma request_total l h q : Forall in_order l -> Forall (workable s) l -> Forall (apt s) l -> textual_query q ->
    exists rq iss, patch_parse_request s (PatchSpec.request l) h q = Ok (rq, iss).
  Proof.
    intros Ho Hw Ha Ht. unfold patch_parse_request. destruct (query_answered q Ht) as [q' [i1 ->]]. cbn [bind]. unfold parse_body.
    destruct (outcomes_total l Ho Hw) as [outs [E G]]. specialize (G Ha).
    pose proof (patch_result s l (fun o v iss _ X => outcome_wf s o v iss (made_sound s Hm) X) Ho) as P. rewrite E in P. destruct P as [iss [-> _]]. cbn [bind].
    assert (So : Forall solid (map fst outs)) by (revert G; apply Forall_impl; intros c [X _]; exact X).
    match goal with |- context[can_proceed ?a ?b] => destruct (can_proceed a b) end.
    2:{ cbn [bind]. match goal with |- context[negb ?b] => destruct (negb b) end; [eexists _, _; reflexivity|].
        destruct (columns_total _ G) as [ops [paths [vals [E1 [E2 [E3 P]]]]]].
        rewrite (answer_column _ ($"op") _ ltac:(apply attr_ok_spec; reflexivity) E1), (answer_column _ ($"path") _ ltac:(apply attr_ok_spec; reflexivity) E2), (answer_column _ ($"value") _ ltac:(apply attr_ok_spec; reflexivity) E3). cbn [bind iter_value].
        match goal with |- context[patch_presence s 0 ops vals paths ?i] => destruct (P 0 i) as [j ->] end. eexists _, _. reflexivity. }
    destruct (whole_presence patch_schema (mkChecker [] None []) Request (answer (map fst outs)) patch_made patch_own (answer_whole _ So)) as [pp ->]. cbn [bind].
    match goal with |- context[negb ?b] => destruct (negb b) end; [eexists _, _; reflexivity|].
    destruct (columns_total _ G) as [ops [paths [vals [E1 [E2 [E3 P]]]]]].
    rewrite (answer_column _ ($"op") _ ltac:(apply attr_ok_spec; reflexivity) E1), (answer_column _ ($"path") _ ltac:(apply attr_ok_spec; reflexivity) E2), (answer_column _ ($"value") _ ltac:(apply attr_ok_spec; reflexivity) E3). cbn [bind iter_value].
    match goal with |- context[patch_presence s 0 ops vals paths ?i] => destruct (P 0 i) as [j ->] end. eexists _, _. reflexivity.
  Qed.
End Env.
