(** Properties of schemas (C25-C28). *)
From Verif Require Import PyBase BaseFacts PyNum Issues IssuesSpec IssuesFacts AttrRep AttrRepSpec AttrRepFacts Value ValueFacts
  Container ContainerSpec ContainerFacts ContainerRW Types TypesSpec Attr Schema Assets AttrSpec AttrFacts AttrHonest AttrItems PropAttr
  SchemaSpec SchemaFacts SchemaBuild NumSpec TotalSpec TotalFacts.

(** ** Auxiliary *)

Lemma scan_report main known l : forall b iss, report iss -> report (snd (scan_schemas main known l b iss)).
Proof.
  induction l as [|s t IH]; intros b iss H; cbn [scan_schemas]; [exact H|].
  destruct (str_eqb s main).
  - specialize (IH b iss H). destruct (scan_schemas main known t b iss) as [q i]. exact IH.
  - destruct (negb (smem s known) && negb b); apply IH; [apply report_add; exact H | exact H].
Qed.

(** The first loop in closed form. *)
Lemma scan_incl main known l : forall b iss, fst (scan_schemas main known l b iss) = smem main l.
Proof.
  induction l as [|s t IH]; intros b iss; cbn [scan_schemas]; [reflexivity|].
  change (smem main (s :: t)) with (str_eqb main s || smem main t). rewrite (str_eqb_sym main s). destruct (str_eqb s main) eqn:E.
  - destruct (scan_schemas main known t b iss); reflexivity.
  - cbn [orb]. destruct (negb (smem s known) && negb b); apply IH.
Qed.
Definition unknown_in (main : str) (known l : list str) : bool :=
  existsb (fun s => negb (str_eqb s main) && negb (smem s known)) l.
Lemma scan_errs main known l : forall b iss p,
  errs_at (snd (scan_schemas main known l b iss)) p =
  errs_at iss p ++ (if negb b && unknown_in main known l then if loc_dec schemas_loc p then [e_unknown_schema] else [] else []).
Proof.
  induction l as [|s t IH]; intros b iss p; cbn [scan_schemas unknown_in existsb].
  - rewrite andb_false_r, app_nil_r. reflexivity.
  - change (existsb _ t) with (unknown_in main known t). destruct (str_eqb s main) eqn:E; cbn [negb andb orb].
    + specialize (IH b iss p). destruct (scan_schemas main known t b iss) as [q i]. exact IH.
    + destruct (smem s known); cbn [negb andb orb].
      * apply IH.
      * destruct b; cbn [negb andb]; [apply IH|]. rewrite IH, errs_at_add. cbn [negb andb]. rewrite app_nil_r. reflexivity.
Qed.

Lemma flag_errs (f : str -> bool) (e : str -> error) l : forall iss,
  let r := fold_left (fun iss k => if f k then add_issue iss (e k) true schemas_loc else iss) l iss in
  (report iss -> report r) /\ forall p, errs_at r p = errs_at iss p ++ if loc_dec schemas_loc p then map e (filter f l) else [].
Proof.
  induction l as [|k t IH]; intros iss; cbn [fold_left filter map].
  - split; [auto|]. intros p. destruct (loc_dec schemas_loc p); rewrite app_nil_r; reflexivity.
  - destruct (f k) eqn:E.
    + specialize (IH (add_issue iss (e k) true schemas_loc)) as [I1 I2]. split; [intros H; apply I1; apply report_add; exact H|].
      intros p. rewrite I2, errs_at_add. cbn [map]. destruct (loc_dec schemas_loc p); rewrite <- app_assoc; reflexivity.
    + apply IH.
Qed.

Lemma mapM_lower l : mapM (fun x => match x with VStr s => Ok (lower s) | _ => Raise AttributeErr end) (map VStr l) = Ok (map lower l).
Proof. induction l as [|s t IH]; cbn [map mapM]; [reflexivity|]. cbn [bind]. rewrite IH. reflexivity. Qed.

Lemma validate_report data schemas_ main known iss : validate_schemas_field data schemas_ main known = Ok iss ->
  report iss /\ forall p, p <> schemas_loc -> errs_at iss p = [].
Proof.
  unfold validate_schemas_field. intros H. apply bind_ok in H as [given [_ H]].
  pose proof (scan_report (lower main) (map lower known) given false no_issues report_empty) as Hr.
  pose proof (scan_errs (lower main) (map lower known) given false no_issues) as He.
  destruct (scan_schemas (lower main) (map lower known) given false no_issues) as [inc i]. cbn [snd] in *. injection H as <-.
  destruct (flag_errs (fun k => smem (lower k) (map lower known) && negb (smem (lower k) given)) e_missing_extension (cont_keys data)
              (if inc then i else add_issue i e_missing_main_schema true schemas_loc)) as [F1 F2].
  cbn zeta in F1, F2. split.
  - apply F1. destruct inc; [exact Hr | apply report_add; exact Hr].
  - intros p Hp. rewrite F2. destruct (loc_dec schemas_loc p); [congruence|]. rewrite app_nil_r.
    assert (E : errs_at i p = []).
    { rewrite He. cbn [negb andb errs_at]. destruct (unknown_in (lower main) (map lower known) given); [|reflexivity]. destruct (loc_dec schemas_loc p); [congruence | reflexivity]. }
    destruct inc; [exact E|]. rewrite errs_at_add, E. destruct (loc_dec schemas_loc p); [congruence | reflexivity].
Qed.

Section Env.
  Context {env : PyEnv}.

  Lemma tops_fit s : wf_schema s -> NoDup (map lower (map fst (sc_exts s)))
    /\ Forall (fun a => fits (map fst (sc_exts s)) (arep a)) (at_top (sc_attrs s)).
  Proof.
    intros [[W1 _] W2 W3 W4]. unfold sc_schemas in *. cbn [map] in W1. inversion W1 as [|? ? N1 N2]; subst. split; [exact N2|].
    apply Forall_forall. intros a Ha. rewrite Forall_forall in W2. destruct (W2 a Ha) as [_ [H1 [H2 H3]]].
    split; [exact H1|]. split; [exact H2|]. destruct (r_ext (arep a)) eqn:E; [exact H3|].
    intros G. apply (W4 a Ha E). right. exact G.
  Qed.

  Lemma parse_shape s m doc y iss : wf_schema s -> is_object doc -> base_parse m s doc = Ok (y, iss) ->
    exists outs iss2, gather_top m (mk_cont doc) (at_top (sc_attrs s)) = Ok outs
    /\ y = put_tops outs empty_cont
    /\ report (merge_tops outs no_issues) /\ report iss2
    /\ (forall p, errs_at iss p = errs_at (merge_tops outs no_issues) p ++ errs_at iss2 p)
    /\ exists a sch, attr_named (sc_attrs s) ($"schemas") = Some a /\ get_item y (arep a) = Ok sch
       /\ if can_proceed (merge no_issues (merge_tops outs no_issues) []) [schemas_loc] && truthy sch
          then validate_schemas_field y sch (sc_uri s) (sc_schemas s) = Ok iss2 else iss2 = no_issues.
  Proof.
    intros Hw Hc H. destruct (tops_fit s Hw) as [Hnd Hf].
    assert (H' : (let! (data', iss') := process_data m s doc in
        let iss := merge no_issues iss' [] in
        match attr_named (sc_attrs s) ($"schemas") with
        | None => Raise AttributeErr
        | Some a =>
            let! schemas_ := get_item data' (arep a) in
            if can_proceed iss [schemas_loc] && truthy schemas_ then
              let! iss2 := validate_schemas_field data' schemas_ (sc_uri s) (sc_schemas s) in
              Ok (data', merge iss iss2 [])
            else Ok (data', iss)
        end) = Ok (y, iss)) by (destruct doc; try contradiction; exact H).
    clear H. apply bind_ok in H' as [[y' iss'] [Hp H]]. unfold process_data in Hp.
    rewrite (process_attrs_closed _ _ _ _ Hnd Hf _ _ (shelf_empty _)) in Hp.
    apply bind_ok in Hp as [outs [Hg Hp]]. injection Hp as <- <-.
    assert (Hr : report (merge_tops outs no_issues)).
    { apply merge_tops_errs; [|apply report_empty]. apply Forall_forall. intros [a [v j]] Hin.
      destruct (gather_top_In _ _ _ _ _ _ Hg Hin) as [Ha [x [_ [_ Hx]]]]. cbn [snd].
      destruct Hw as [_ W2 _ _]. rewrite Forall_forall in W2. destruct (W2 a Ha) as [Hs _]. exact (process_report a Hs _ _ _ _ Hx). }
    assert (Hme : forall p, errs_at (merge no_issues (merge_tops outs no_issues) []) p = errs_at (merge_tops outs no_issues) p).
    { intros p. rewrite errs_merge by (exact Hr || apply report_empty). cbn [loc_strip]. reflexivity. }
    cbv zeta in H. destruct (attr_named (sc_attrs s) ($"schemas")) as [a|] eqn:Ea; [|discriminate].
    apply bind_ok in H as [sch [Hs H]].
    destruct (can_proceed (merge no_issues (merge_tops outs no_issues) []) [schemas_loc] && truthy sch) eqn:Ec.
    - apply bind_ok in H as [iss2 [Hv H]]. injection H as <- <-. exists outs, iss2. split; [exact Hg|]. split; [reflexivity|].
      split; [exact Hr|]. destruct (validate_report _ _ _ _ _ Hv) as [Hr2 _]. split; [exact Hr2|]. split.
      + intros p. rewrite errs_merge by (exact Hr2 || (apply report_merge; [apply report_empty | exact Hr])). rewrite Hme. reflexivity.
      + exists a, sch. split; [reflexivity|]. split; [exact Hs|]. rewrite Ec. exact Hv.
    - injection H as <- <-. exists outs, no_issues. split; [exact Hg|]. split; [reflexivity|]. split; [exact Hr|].
      split; [apply report_empty|]. split; [intros p; rewrite Hme, app_nil_r; reflexivity|].
      exists a, sch. split; [reflexivity|]. split; [exact Hs|]. rewrite Ec. reflexivity.
  Qed.

  Lemma tops_apart s m c outs : wf_schema s -> gather_top m c (at_top (sc_attrs s)) = Ok outs ->
    ForallOrdPairs (fun e e' => apart (arep (fst e)) (arep (fst e')) /\ apart (arep (fst e')) (arep (fst e))) outs.
  Proof.
    intros [_ W2 W3 W4] Hg.
    pose proof (gather_top_NoDup (fun a => (lower (r_schema (arep a)), lower (r_attr (arep a)))) m c _ W3 _ Hg) as Hn.
    assert (Hin : forall e, In e outs -> In (fst e) (at_top (sc_attrs s))).
    { intros [a o] He. exact (proj1 (gather_top_In _ _ _ _ _ _ Hg He)). }
    clear Hg. induction outs as [|e t IH]; [constructor|]. cbn [map] in Hn. inversion Hn as [|? ? N1 N2]; subst. constructor.
    - apply Forall_forall. intros e' He'.
      assert (Hne : (lower (r_schema (arep (fst e))), lower (r_attr (arep (fst e)))) <> (lower (r_schema (arep (fst e'))), lower (r_attr (arep (fst e'))))).
      { intros E. apply N1. rewrite E. apply (in_map (fun e => (lower (r_schema (arep (fst e))), lower (r_attr (arep (fst e)))))). exact He'. }
      pose proof (Hin e (or_introl eq_refl)) as H1. pose proof (Hin e' (or_intror He')) as H2. rewrite Forall_forall in W2.
      destruct (W2 _ H1) as [_ [_ [_ S1]]]. destruct (W2 _ H2) as [_ [_ [_ S2]]]. unfold apart.
      split; (split; [congruence|]); destruct (r_ext (arep (fst e))), (r_ext (arep (fst e'))); intros G1 G2; try discriminate; congruence.
    - apply IH; [exact N2|]. intros e' He'. apply Hin. right; exact He'.
  Qed.

  (** Two top-level attributes never share a location. *)
  Lemma place_apart s a b p p' : wf_schema s -> In a (at_top (sc_attrs s)) -> In b (at_top (sc_attrs s)) ->
    place (arep a) ++ p = place (arep b) ++ p' -> a = b.
  Proof.
    intros [[W1 _] W2 W3 W4] Ha Hb E. rewrite Forall_forall in W2.
    destruct (W2 a Ha) as [_ [_ [_ Sa]]]. destruct (W2 b Hb) as [_ [_ [_ Sb]]].
    refine (NoDup_map_eq _ _ _ _ W3 Ha Hb _). unfold place in E.
    destruct (r_ext (arep a)) eqn:Ea, (r_ext (arep b)) eqn:Eb; cbn [app] in E.
    - injection E as E1 E2 _. rewrite E1, E2. reflexivity.
    - injection E as E1 _. exfalso. apply (W4 b Hb Eb). unfold sc_schemas. cbn [map]. right. rewrite <- E1. apply in_map. exact Sa.
    - injection E as E1 _. exfalso. apply (W4 a Ha Ea). unfold sc_schemas. cbn [map]. right. rewrite E1. apply in_map. exact Sb.
    - injection E as E1 _. rewrite E1, Sa, Sb. reflexivity.
  Qed.

  Lemma flat_map_one {A B} (f : A -> list B) l x : In x l -> NoDup l -> (forall y, In y l -> y <> x -> f y = []) -> flat_map f l = f x.
  Proof.
    induction l as [|a t IH]; intros Hin Hn H; [contradiction|]. cbn [flat_map]. inversion Hn as [|? ? N1 N2]; subst.
    destruct Hin as [<-|Hin].
    - assert (E : flat_map f t = []).
      { clear IH Hn. induction t as [|b t' IHt]; [reflexivity|]. cbn [flat_map]. rewrite (H b); [|right; left; reflexivity|intros ->; apply N1; left; reflexivity].
        apply IHt; [|intros G; apply N1; right; exact G|inversion N2; assumption].
        intros y [<-|Hy] Hne; apply H; auto; [left; reflexivity | right; right; exact Hy]. }
      rewrite E, app_nil_r. reflexivity.
    - rewrite (H a); [|left; reflexivity|intros ->; contradiction]. apply IH; [exact Hin | exact N2|]. intros y Hy. apply H. right; exact Hy.
  Qed.
  Lemma flat_map_none {A B} (f : A -> list B) l : (forall y, In y l -> f y = []) -> flat_map f l = [].
  Proof.
    induction l as [|a t IH]; intros H; [reflexivity|]. cbn [flat_map]. rewrite H by (left; reflexivity). apply IH.
    intros y Hy. apply H. right; exact Hy.
  Qed.

  Lemma flat_map_some {A B} (f : A -> list B) l : flat_map f l <> [] -> exists x, In x l /\ f x <> [].
  Proof.
    induction l as [|a t IH]; cbn [flat_map]; intros H; [contradiction|]. destruct (f a) eqn:E.
    - destruct (IH H) as [x [G1 G2]]. exists x. split; [right; exact G1 | exact G2].
    - exists a. split; [left; reflexivity | rewrite E; discriminate].
  Qed.

  Lemma tops_errs s m c outs : wf_schema s -> gather_top m c (at_top (sc_attrs s)) = Ok outs ->
    (forall a v j p, In (a, (v, j)) outs -> errs_at (merge_tops outs no_issues) (place (arep a) ++ p) = errs_at j p)
    /\ (forall p, errs_at (merge_tops outs no_issues) p <> [] -> exists a v j p', In (a, (v, j)) outs /\ p = place (arep a) ++ p' /\ errs_at j p' <> []).
  Proof.
    intros Hw Hg.
    assert (Hrep : Forall (fun e => report (snd (snd e))) outs).
    { apply Forall_forall. intros [a [v j]] Hin. destruct (gather_top_In _ _ _ _ _ _ Hg Hin) as [Ha [x [_ [_ Hx]]]]. cbn [snd].
      destruct Hw as [_ W2 _ _]. rewrite Forall_forall in W2. destruct (W2 a Ha) as [Hs _]. exact (process_report a Hs _ _ _ _ Hx). }
    destruct (merge_tops_errs outs Hrep no_issues report_empty) as [_ He].
    assert (Hn : NoDup (map fst outs)).
    { pose proof (ws_distinct _ Hw) as W3. apply (gather_top_NoDup (fun a => (lower (r_schema (arep a)), lower (r_attr (arep a)))) _ _ _ W3) in Hg.
      rewrite <- (map_map fst (fun a => (lower (r_schema (arep a)), lower (r_attr (arep a))))) in Hg. apply NoDup_map_inv in Hg. exact Hg. }
    split.
    - intros a v j p Hin. rewrite He. change (errs_at no_issues (place (arep a) ++ p)) with (@nil error). cbn [app].
      rewrite (flat_map_one _ _ (a, (v, j)) Hin).
      + cbn [fst snd]. rewrite loc_strip_app. reflexivity.
      + apply NoDup_map_inv in Hn. exact Hn.
      + intros [b [w k]] Hb Hne. cbn [fst snd]. destruct (loc_strip (place (arep b)) (place (arep a) ++ p)) as [p'|] eqn:E; [|reflexivity].
        apply loc_strip_spec in E. exfalso. apply Hne.
        assert (a = b).
        { apply (place_apart s a b p p' Hw); [| |exact E].
          - exact (proj1 (gather_top_In _ _ _ _ _ _ Hg Hin)).
          - exact (proj1 (gather_top_In _ _ _ _ _ _ Hg Hb)). }
        subst b. exact (NoDup_map_eq fst outs _ _ Hn Hb Hin eq_refl).
    - intros p. rewrite He. change (errs_at no_issues p) with (@nil error). cbn [app]. intros H.
      apply flat_map_some in H.
      destruct H as [[a [v j]] [Hin G]]. cbn [fst snd] in G. destruct (loc_strip (place (arep a)) p) as [p'|] eqn:E; [|congruence].
      apply loc_strip_spec in E. exists a, v, j, p'. auto.
  Qed.

  (** ** C25 *)

  (** For every schema made by the constructors and every document that uses no
      URI in a confusing way: an attribute of the document that is declared is in
      the result with its processed value and its issues below its location;
      nothing else is in the result, and nothing else is reported except about
      the schemas field. *)
  Theorem C25_known_only_partial : forall s m doc y iss, made s -> is_object doc -> regular s (mk_cont doc) -> base_parse m s doc = Ok (y, iss) ->
    let c := mk_cont doc in let top := at_top (sc_attrs s) in
    (forall a x, In a top -> doc_holds c (arep a) x -> x <> VMissing ->
       exists v js, process a m x = Ok (v, js) /\ (forall w, doc_holds y (arep a) w <-> w = v)
       /\ forall p, place (arep a) ++ p <> schemas_loc -> errs_at iss (place (arep a) ++ p) = errs_at js p)
    /\ (forall a w, In a top -> doc_holds y (arep a) w -> exists x, doc_holds c (arep a) x /\ x <> VMissing)
    /\ only_declared m top c y
    /\ (forall p, errs_at iss p <> [] -> p = schemas_loc \/
         exists a x p', In a top /\ doc_holds c (arep a) x /\ x <> VMissing /\ p = place (arep a) ++ p').
  Proof.
    intros s m doc y iss Hm Hc Hreg H c top. pose proof (made_wf s Hm) as Hw.
    destruct (parse_shape s m doc y iss Hw Hc H) as [outs [iss2 [Hg [-> [Hr [Hr2 [He [a0 [sch [_ [_ Hv]]]]]]]]]]].
    fold c top in Hg, Hreg. destruct (tops_fit s Hw) as [Hnd Hf]. fold top in Hf.
    assert (H2 : forall p, p <> schemas_loc -> errs_at iss2 p = []).
    { destruct (can_proceed (merge no_issues (merge_tops outs no_issues) []) [schemas_loc] && truthy sch).
      - exact (proj2 (validate_report _ _ _ _ _ Hv)).
      - subst iss2. reflexivity. }
    clear Hv. pose proof (tops_apart s m c outs Hw Hg) as Hap. destruct (tops_errs s m c outs Hw Hg) as [Ht1 Ht2].
    assert (Hfo : Forall (fun e => fits (map fst (sc_exts s)) (arep (fst e))) outs).
    { apply Forall_forall. intros [a o] Hin. rewrite Forall_forall in Hf. apply Hf. exact (proj1 (gather_top_In _ _ _ _ _ _ Hg Hin)). }
    destruct (put_tops_read _ _ Hnd Hfo Hap empty_cont (shelf_empty _)) as [_ [Hother Hread]].
    split; [|split; [|split]].
    - intros a x Ha Hx Hmis. pose proof (proj2 (read_doc s c a x Hw Hreg Ha Hmis) Hx) as Hget.
      destruct (gather_top_all _ _ _ _ _ _ Hg Ha Hget Hmis) as [[v js] [Hp Hin]]. exists v, js. split; [exact Hp|].
      split; [exact (Hread a (v, js) Hin)|]. intros p Hne. rewrite He, (Ht1 a v js p Hin), (H2 _ Hne), app_nil_r. reflexivity.
    - intros a w Ha Hd.
      assert (Hdec : (exists o, In (a, o) outs) \/ ~ exists o, In (a, o) outs).
      { destruct (get_item c (arep a)) as [x|e] eqn:Eg.
        - assert (Hx : x = VMissing \/ x <> VMissing) by (destruct x; auto; right; discriminate).
          destruct Hx as [Hx|Hx].
          + right. intros [o Ho]. destruct (gather_top_In _ _ _ _ _ _ Hg Ho) as [_ [x' [G1 [G2 _]]]]. congruence.
          + left. destruct (gather_top_all _ _ _ _ _ _ Hg Ha Eg Hx) as [o [_ Ho]]. exists o; exact Ho.
        - right. intros [o Ho]. destruct (gather_top_In _ _ _ _ _ _ Hg Ho) as [_ [x' [G1 _]]]. congruence. }
      destruct Hdec as [[o Ho]|Hno].
      + destruct (gather_top_In _ _ _ _ _ _ Hg Ho) as [_ [x [G1 [G2 _]]]]. exists x. split; [|exact G2].
        exact (proj1 (read_doc s c a x Hw Hreg Ha G2) G1).
      + exfalso. rewrite Forall_forall in Hf. pose proof (Hf a Ha) as Hfa. apply (Hother (arep a) w Hfa) in Hd.
        * unfold doc_holds in Hd. destruct (r_ext (arep a)); [destruct Hd as [sub [Hd _]]|]; exact (holds_empty _ _ Hd).
        * apply Forall_forall. intros [b o] Hb. cbn [fst]. pose proof (proj1 (gather_top_In _ _ _ _ _ _ Hg Hb)) as Hbt.
          destruct Hw as [_ W2 W3 _]. rewrite Forall_forall in W2. fold top in W2, W3.
          destruct (W2 a Ha) as [_ [_ [_ Sa]]]. destruct (W2 b Hbt) as [_ [_ [_ Sb]]]. split.
          -- intros E. apply Hno. exists o. rewrite (NoDup_map_eq _ _ _ _ W3 Ha Hbt (eq_sym E)). exact Hb.
          -- intros E1 E2. rewrite E1 in Sb. rewrite E2 in Sa. congruence.
    - apply (put_tops_src (comes_from m c) (map fst (sc_exts s)) top outs Hnd).
      + rewrite Forall_forall in Hf. exact Hf.
      + intros a [v j] Hin. destruct (gather_top_In _ _ _ _ _ _ Hg Hin) as [Ha [x [G1 [G2 G3]]]]. split; [exact Ha|].
        exists x, j. split; [exact (proj1 (read_doc s c a x Hw Hreg Ha G2) G1)|]. split; [exact G2 | exact G3].
      + apply shelf_empty.
      + exists [], []. split; [reflexivity|]. intros n v G. discriminate.
    - intros p Hp. rewrite He in Hp. destruct (loc_dec p schemas_loc) as [->|Hne]; [left; reflexivity|]. right.
      rewrite (H2 _ Hne), app_nil_r in Hp. destruct (Ht2 p Hp) as [a [v [j [p' [Hin [E _]]]]]].
      destruct (gather_top_In _ _ _ _ _ _ Hg Hin) as [Ha [x [G1 [G2 _]]]]. exists a, x, p'. split; [exact Ha|].
      split; [exact (proj1 (read_doc s c a x Hw Hreg Ha G2) G1)|]. split; [exact G2 | exact E].
  Qed.

  (** ** C26 *)

  (** The key under which a top-level attribute is stored. *)
  Definition topkey (r : attr_rep) : str := if r_ext r then r_schema r else r_attr r.
  Lemma put_top_keys uris c r v : shelf uris c -> fits uris r ->
    exists data l2o data' l2o', c = VCont data l2o /\ put_top c r v = VCont data' l2o'
    /\ (forall lk k, sget lk l2o' = Some k -> sget lk l2o = Some k \/ k = topkey r)
    /\ (forall k, In k (map fst data') <-> k = topkey r \/ In k (map fst data))
    /\ (NoDup (map fst data) -> NoDup (map fst data')).
  Proof.
    intros [data [l2o [-> [Hi Hu]]]] [Hs [Ha He]]. exists data, l2o. unfold put_top, topkey. destruct (r_ext r).
    - destruct (Hu _ He) as [E|[E [d2 [l2 [E2 _]]]]]; rewrite E.
      + rewrite sget_sset_same. unfold empty_cont. eexists _, _. split; [reflexivity|]. split; [reflexivity|]. split; [|split].
        * intros lk k. rewrite sget_sset. destruct (str_eqb _ _); intros G; [right; congruence | left; exact G].
        * intros k. rewrite !sset_In_key. tauto.
        * intros G. apply sset_NoDup, sset_NoDup. exact G.
      + rewrite E2. eexists _, _. split; [reflexivity|]. split; [reflexivity|]. split; [|split].
        * intros lk k G. left; exact G.
        * intros k. rewrite !sset_In_key. reflexivity.
        * intros G. apply sset_NoDup. exact G.
    - eexists _, _. split; [reflexivity|]. split; [reflexivity|]. split; [|split].
      * intros lk k. rewrite sget_sset. destruct (str_eqb _ _); intros G; [right; congruence | left; exact G].
      * intros k. rewrite !sset_In_key. reflexivity.
      * intros G. apply sset_NoDup. exact G.
  Qed.
  Lemma put_tops_keys uris outs : NoDup (map lower uris) -> Forall (fun e => fits uris (arep (fst e))) outs -> forall data l2o, shelf uris (VCont data l2o) ->
    exists data' l2o', put_tops outs (VCont data l2o) = VCont data' l2o'
    /\ (forall lk k, sget lk l2o' = Some k -> sget lk l2o = Some k \/ exists e, In e outs /\ k = topkey (arep (fst e)))
    /\ (forall k, In k (map fst data') <-> In k (map fst data) \/ exists e, In e outs /\ k = topkey (arep (fst e)))
    /\ (NoDup (map fst data) -> NoDup (map fst data')).
  Proof.
    intros Hnd. induction outs as [|e t IH]; intros Hf data l2o Hc; cbn [put_tops fold_left].
    - exists data, l2o. split; [reflexivity|]. split; [auto|]. split; [|auto]. intros k. split; [auto|]. intros [G|[e [[] _]]]; exact G.
    - inversion Hf as [|? ? H1 H2]; subst.
      destruct (put_top_keys uris _ (arep (fst e)) (fst (snd e)) Hc H1) as [d1 [m1 [d2 [m2 [E1 [E2 [K1 [K2 K3]]]]]]]].
      injection E1 as <- <-. pose proof (put_top_shelf uris Hnd _ _ (fst (snd e)) Hc H1) as Hc'. rewrite E2 in Hc'.
      destruct (IH H2 _ _ Hc') as [d3 [m3 [E3 [L1 [L2 L3]]]]]. exists d3, m3. split; [rewrite <- E3, <- E2; reflexivity|]. split; [|split; [|auto]].
      + intros lk k G. destruct (L1 _ _ G) as [G'|[e' [G1 G2]]]; [|right; exists e'; split; [right; exact G1 | exact G2]].
        destruct (K1 _ _ G') as [G2|G2]; [left; exact G2|]. right. exists e. split; [left; reflexivity | exact G2].
      + intros k. rewrite L2, K2. split.
        * intros [[G|G]|[e' [G1 G2]]]; [right; exists e; split; [left; reflexivity | exact G] | left; exact G | right; exists e'; split; [right; exact G1 | exact G2]].
        * intros [G|[e' [[<-|G1] G2]]]; [left; right; exact G | left; left; exact G2 | right; exists e'; auto].
  Qed.

  Lemma get_core c r x : r_ext r = false -> r_sub r = [] -> ~ has_key c (r_schema r) -> holds c (r_attr r) x -> get_item c r = Ok x.
  Proof.
    intros He Hs Hk [data [l2o [k [-> [H1 H2]]]]]. rewrite get_item_eq.
    destruct (sget (lower (r_schema r)) l2o) as [u|] eqn:E; [exfalso; apply Hk; exists u; exact E|].
    rewrite H1, H2, Hs. reflexivity.
  Qed.

  (** The schemas field itself is accepted as it is. *)
  Lemma strings_process m i l : a_multi i = true -> a_type i = TUriRef -> a_validate i = false -> procs_of m i = [] ->
    process (MkAttr i None) m (VList (map VStr l)) = Ok (VList (map VStr l), no_issues).
  Proof.
    intros H1 H2 H3 H4. cbn [process base_process]. rewrite H1, H4. cbn [is_list negb andb].
    assert (G : forall k acc, foldM (item_step m i) (enum_from k (map VStr l)) (acc, no_issues) = Ok (acc ++ map VStr l, no_issues)).
    { induction l as [|t l' IH]; intros k acc; cbn [map enum_from foldM]; [rewrite app_nil_r; reflexivity|].
      cbn [item_step]. rewrite H2. cbn [type_proc is_str type_check pass bind snd fst].
      assert (E : canon_step i (VStr t) (merge no_issues no_issues [LIdx k]) [LIdx k] = (VStr t, no_issues)).
      { unfold canon_step. rewrite H3. destruct (is_canonical i (VStr t)); reflexivity. }
      rewrite E. cbn [bind]. rewrite IH, <- app_assoc. reflexivity. }
    unfold enumerate. rewrite G. reflexivity.
  Qed.
  Lemma schemas_process m uri l :
    process (bound_attr (mkRep uri ($"schemas") [] false) schemas_attr) m (VList (map VStr l)) = Ok (VList (map VStr l), no_issues).
  Proof. apply strings_process; destruct m; reflexivity. Qed.

  Lemma proceeds i p : report i -> (forall a, ancestor a p -> errs_at i a = []) -> can_proceed (merge no_issues i []) [p] = true.
  Proof.
    intros Hr H. destruct (can_proceed (merge no_issues i []) [p]) eqn:E; [reflexivity|]. apply can_proceed_spec in E as [l [a [[<-|[]] [Ha G]]]].
    exfalso. pose proof (report_wf _ Hr) as Hw. apply (stops_merge no_issues i [] a) in G; [|exact (proj1 (report_wf _ report_empty)) | exact (proj1 Hw)].
    destruct G as [[]|[l' [-> G]]]. cbn [app] in *. specialize (H l' Ha). apply (errs_at_nil_iff _ _ Hw) in H. contradiction.
  Qed.

  (** For a document whose schemas field is a non-empty list of texts, exactly
      these issues are reported at "schemas": one if some text is no known schema,
      one if the main schema is not listed, and one per extension used in the
      document but not listed.  (That a required extension is missing is not
      reported: see C26_required_refuted.) *)
  Theorem C26_schemas_field_partial : forall s m doc y iss l, made s -> is_object doc -> regular s (mk_cont doc) ->
    holds (mk_cont doc) ($"schemas") (VList (map VStr l)) -> l <> [] -> base_parse m s doc = Ok (y, iss) ->
    exists e1 e2 used,
      errs_at iss schemas_loc = e1 ++ e2 ++ map e_missing_extension used
      /\ ((exists t, In t l /\ ~ listed t (sc_schemas s)) -> e1 = [e_unknown_schema])
      /\ ((forall t, In t l -> listed t (sc_schemas s)) -> e1 = [])
      /\ (~ listed (sc_uri s) l -> e2 = [e_missing_main_schema])
      /\ (listed (sc_uri s) l -> e2 = [])
      /\ NoDup used
      /\ forall u, In u used <-> ~ listed u l /\
           exists a x, In a (at_top (sc_attrs s)) /\ r_ext (arep a) = true /\ r_schema (arep a) = u /\ doc_holds (mk_cont doc) (arep a) x /\ x <> VMissing.
  Proof.
    intros s m doc y iss l Hm Hc Hreg Hh Hl H. pose proof (made_wf s Hm) as Hw. destruct (made_schemas s Hm) as [Hsn Hsi].
    destruct (parse_shape s m doc y iss Hw Hc H) as [outs [iss2 [Hg [-> [Hr [Hr2 [He [a0 [sch [Ha0 [Hsch Hv]]]]]]]]]]].
    set (c := mk_cont doc) in *. set (sa := bound_attr (mkRep (sc_uri s) ($"schemas") [] false) schemas_attr) in *.
    assert (Ea0 : a0 = sa) by congruence. clear Ha0 Hsn. subst a0.
    destruct (tops_fit s Hw) as [Hnd Hf]. destruct (tops_errs s m c outs Hw Hg) as [Ht1 Ht2].
    assert (Hfo : Forall (fun e => fits (map fst (sc_exts s)) (arep (fst e))) outs).
    { apply Forall_forall. intros [a o] Hin. rewrite Forall_forall in Hf. apply Hf. exact (proj1 (gather_top_In _ _ _ _ _ _ Hg Hin)). }
    pose proof (tops_apart s m c outs Hw Hg) as Hap.
    destruct (put_tops_read _ _ Hnd Hfo Hap empty_cont (shelf_empty _)) as [_ [_ Hread]].
    destruct (put_tops_keys _ _ Hnd Hfo [] [] (shelf_empty _)) as [data [l2o [Ey [K1 [K2 K3]]]]]. change (VCont [] []) with empty_cont in Ey.
    assert (Esa : arep sa = mkRep (sc_uri s) ($"schemas") [] false) by apply bound_rep.
    assert (Hget : get_item c (arep sa) = Ok (VList (map VStr l))).
    { apply (read_doc s c sa _ Hw Hreg Hsi); [discriminate|]. unfold doc_holds. rewrite Esa. cbn [r_ext r_attr]. exact Hh. }
    destruct (gather_top_all _ _ _ _ _ _ Hg Hsi Hget ltac:(discriminate)) as [o [Ho Hin]].
    unfold sa in Ho. rewrite schemas_process in Ho. injection Ho as <-.
    assert (Hpl : place (arep sa) = schemas_loc) by (rewrite Esa; reflexivity).
    assert (He0 : errs_at (merge_tops outs no_issues) schemas_loc = []).
    { rewrite <- Hpl. rewrite <- (app_nil_r (place (arep sa))). rewrite (Ht1 _ _ _ [] Hin). reflexivity. }
    assert (Hmain : ~ has_key (put_tops outs empty_cont) (sc_uri s)).
    { rewrite Ey. intros [k Hk]. destruct (K1 _ _ Hk) as [G|[[a o] [G1 G2]]]; [discriminate|].
      assert (Hi : lower k = lower (sc_uri s)).
      { destruct (put_tops_read _ _ Hnd Hfo Hap empty_cont (shelf_empty _)) as [[d' [m' [E' [Hi _]]]] _]. rewrite Ey in E'. injection E' as <- <-.
        exact (Hi _ _ Hk). }
      cbn [fst] in G2. pose proof (proj1 (gather_top_In _ _ _ _ _ _ Hg G1)) as Hat. destruct Hw as [[W1 _] W2 _ W4].
      rewrite Forall_forall in W2. destruct (W2 a Hat) as [_ [_ [_ Sa]]]. unfold topkey in G2. destruct (r_ext (arep a)) eqn:Ee.
      - unfold sc_schemas in W1. cbn [map] in W1. inversion W1 as [|? ? N1 _]; subst. apply N1. rewrite <- Hi. apply in_map. exact Sa.
      - apply (W4 a Hat Ee). unfold sc_schemas. cbn [map]. left. rewrite <- G2. symmetry. exact Hi. }
    assert (Hys : get_item (put_tops outs empty_cont) (arep sa) = Ok (VList (map VStr l))).
    { apply get_core; rewrite Esa; cbn [r_ext r_sub r_schema r_attr]; [reflexivity | reflexivity | exact Hmain|].
      pose proof (proj2 (Hread sa (VList (map VStr l), no_issues) Hin (VList (map VStr l))) eq_refl) as G.
      unfold doc_holds in G. rewrite Esa in G. exact G. }
    rewrite Hsch in Hys. injection Hys as ->.
    assert (Hcp : can_proceed (merge no_issues (merge_tops outs no_issues) []) [schemas_loc] = true).
    { apply proceeds; [exact Hr|]. intros a [t Ht]. destruct a as [|q a]; cbn [app] in Ht.
      - destruct (errs_at (merge_tops outs no_issues) []) eqn:E; [reflexivity|]. destruct (Ht2 []) as [b [v [j [p' [_ [G _]]]]]]; [rewrite E; discriminate|].
        unfold place in G. destruct (r_ext (arep b)); discriminate.
      - injection Ht as <- Ht. destruct a; [exact He0 | discriminate]. }
    assert (Htr : truthy (VList (map VStr l)) = true) by (destruct l; [congruence | reflexivity]).
    rewrite Hcp, Htr in Hv. cbn [andb] in Hv. unfold validate_schemas_field in Hv.
    change (lower_items (VList (map VStr l))) with (mapM (fun x => match x with VStr s => Ok (lower s) | _ => Raise AttributeErr end) (map VStr l)) in Hv.
    rewrite mapM_lower in Hv. cbn [bind] in Hv.
    pose proof (scan_incl (lower (sc_uri s)) (map lower (sc_schemas s)) (map lower l) false no_issues) as S1.
    pose proof (scan_errs (lower (sc_uri s)) (map lower (sc_schemas s)) (map lower l) false no_issues schemas_loc) as S2.
    destruct (scan_schemas (lower (sc_uri s)) (map lower (sc_schemas s)) (map lower l) false no_issues) as [inc i]. cbn [fst snd] in S1, S2.
    injection Hv as <-.
    destruct (flag_errs (fun k => smem (lower k) (map lower (sc_schemas s)) && negb (smem (lower k) (map lower l))) e_missing_extension (cont_keys (put_tops outs empty_cont))
              (if inc then i else add_issue i e_missing_main_schema true schemas_loc)) as [_ F2].
    specialize (He schemas_loc). rewrite He0 in He. cbn [app] in He. rewrite F2 in He.
    change (errs_at no_issues schemas_loc) with (@nil error) in S2. cbn [negb andb app] in S2.
    destruct (loc_dec schemas_loc schemas_loc) as [_|N]; [|congruence].
    exists (errs_at i schemas_loc), (if inc then [] else [e_missing_main_schema]),
      (filter (fun k => smem (lower k) (map lower (sc_schemas s)) && negb (smem (lower k) (map lower l))) (cont_keys (put_tops outs empty_cont))).
    assert (Hunk : unknown_in (lower (sc_uri s)) (map lower (sc_schemas s)) (map lower l) = true <-> exists t, In t l /\ ~ listed t (sc_schemas s)).
    { unfold unknown_in. rewrite existsb_exists. split.
      - intros [x [Hx G]]. apply in_map_iff in Hx as [t [<- Ht]]. exists t. split; [exact Ht|]. apply andb_prop in G as [_ G].
        intros G2. apply smem_In in G2. rewrite G2 in G. discriminate.
      - intros [t [Ht G]]. exists (lower t). split; [apply in_map; exact Ht|]. apply andb_true_intro. split.
        + apply negb_true_iff. apply str_eqb_neq. intros E. apply G. unfold listed, sc_schemas. left. symmetry. exact E.
        + apply negb_true_iff. destruct (smem (lower t) (map lower (sc_schemas s))) eqn:E; [|reflexivity]. apply smem_In in E. contradiction. }
    split; [|split; [|split; [|split; [|split; [|split]]]]].
    - rewrite He, app_assoc. f_equal. destruct inc; [rewrite app_nil_r; reflexivity|]. rewrite errs_at_add.
      destruct (loc_dec schemas_loc schemas_loc); [reflexivity | congruence].
    - intros G. apply Hunk in G. rewrite S2, G. reflexivity.
    - intros G. rewrite S2. destruct (unknown_in _ _ _); [|reflexivity]. destruct (proj1 Hunk eq_refl) as [t [T1 T2]]. exfalso. exact (T2 (G t T1)).
    - intros G. destruct inc; [|reflexivity]. exfalso. apply G. apply smem_In. symmetry. exact S1.
    - intros G. destruct inc; [reflexivity|]. exfalso. apply smem_In in G. congruence.
    - apply NoDup_filter. rewrite Ey. cbn [cont_keys]. apply K3. constructor.
    - intros u. rewrite filter_In, Ey. cbn [cont_keys]. rewrite K2, andb_true_iff, negb_true_iff. split.
      + intros [[[]|[[a o] [G1 G2]]] [G3 G4]]. cbn [fst] in G2. split.
        { intros G. apply smem_In in G. congruence. }
        destruct (gather_top_In _ _ _ _ _ _ Hg G1) as [Hat [x [X1 [X2 _]]]]. exists a, x. split; [exact Hat|].
        unfold topkey in G2. destruct (r_ext (arep a)) eqn:Ee.
        * split; [reflexivity|]. split; [symmetry; exact G2|]. split; [exact (proj1 (read_doc s c a x Hw Hreg Hat X2) X1) | exact X2].
        * exfalso. apply (ws_names _ Hw a Hat Ee). apply smem_In. rewrite <- G2. exact G3.
      + intros [G [a [x [Hat [Ee [<- [X1 X2]]]]]]]. pose proof (proj2 (read_doc s c a x Hw Hreg Hat X2) X1) as X3.
        destruct (gather_top_all _ _ _ _ _ _ Hg Hat X3 X2) as [o [_ Ho]]. split.
        * right. exists (a, o). split; [exact Ho|]. unfold topkey. cbn [fst]. rewrite Ee. reflexivity.
        * split.
          -- apply smem_In. apply in_map. pose proof (ws_attrs _ Hw) as W2. rewrite Forall_forall in W2. destruct (W2 a Hat) as [_ [_ [_ Sa]]].
             rewrite Ee in Sa. right. exact Sa.
          -- destruct (smem (lower (r_schema (arep a))) (map lower l)) eqn:E; [|reflexivity]. apply smem_In in E. contradiction.
  Qed.

  (** ** C27 *)

  Lemma tame_get_rep data l2o n x : tame (VCont data l2o) -> holds (VCont data l2o) n x -> tame x.
  Proof.
    intros H [d [l2 [k [E [_ G]]]]]. injection E as <- <-. inversion H as [| | | | | | |? ? _ _ Hf]; subst. eapply tame_get; eassumption.
  Qed.
  Lemma get_plain_total data l2o n : tame (VCont data l2o) -> exists x, get_item (VCont data l2o) (mkRep [] n [] false) = Ok x /\ (x = VMissing \/ tame x).
  Proof.
    intros H. inversion H as [| | | | | | |? ? Hi He Hf]; subst. rewrite get_item_eq. cbn [r_schema r_attr r_sub].
    change (lower []) with (@nil ascii). rewrite He. destruct (sget (lower n) l2o) as [k|] eqn:E; [|exists VMissing; auto].
    destruct (Hi _ _ E) as [_ Hin]. apply sget_Some_key in Hin as [x Hx]. rewrite Hx. exists x. split; [reflexivity|]. right. eapply tame_get; eassumption.
  Qed.
  Lemma get_top_total s c a : wf_schema s -> tame c -> is_cont c = true -> well_placed s c -> In a (at_top (sc_attrs s)) ->
    exists x, get_item c (arep a) = Ok x /\ (x = VMissing \/ tame x).
  Proof.
    intros Hw Hc Hi [Hm [He _]] Ha. destruct c; try discriminate. pose proof (ws_attrs _ Hw) as W2. rewrite Forall_forall in W2.
    destruct (W2 a Ha) as [_ [Hs [Hok Hsch]]]. rewrite get_item_eq, Hs.
    destruct (sget (lower (r_schema (arep a))) l2o) as [k|] eqn:E.
    - destruct (r_ext (arep a)); [|exfalso; apply Hm; exists k; rewrite <- Hsch; exact E].
      inversion Hc as [| | | | | | |? ? Hix Hn Hf]; subst. destruct (Hix _ _ E) as [_ Hin]. apply sget_Some_key in Hin as [x Hx].
      rewrite (mk_rep_plain _ [] Hok). cbn [bind]. rewrite Hx.
      assert (Hh : holds (VCont data l2o) (r_schema (arep a)) x) by (exists data, l2o, k; auto).
      specialize (He _ _ Hsch Hh). destruct x; try discriminate. apply get_plain_total. eapply tame_get; eassumption.
    - inversion Hc as [| | | | | | |? ? Hix Hn Hf]; subst. destruct (sget (lower (r_attr (arep a))) l2o) as [k|] eqn:E2; [|exists VMissing; auto].
      destruct (Hix _ _ E2) as [_ Hin]. apply sget_Some_key in Hin as [x Hx]. rewrite Hx. exists x. split; [reflexivity|]. right. eapply tame_get; eassumption.
  Qed.
  Lemma gather_top_total m c l : Forall (fun a => (exists x, get_item c (arep a) = Ok x /\ (x = VMissing \/ tame x)) /\ sound_attr a /\ calm_attr a) l ->
    exists outs, gather_top m c l = Ok outs.
  Proof.
    induction 1 as [|a t [[x [Hx Hc]] [Hs Hq]] Ht IH]; cbn [gather_top]; [eexists; reflexivity|]. destruct IH as [outs Ho].
    rewrite Hx. cbn [bind]. destruct Hc as [->|Hc]; [eexists; exact Ho|]. destruct (process_total a Hs Hq m x Hc) as [o E].
    rewrite Ho. destruct x; rewrite ?E; cbn [bind]; eexists; reflexivity.
  Qed.

  (** Parsing a tame document that uses URIs as intended never raises, whatever
      schema the constructors built and however badly its values are typed. *)
  Theorem C27_never_raises_partial : forall s m doc, made s -> Forall calm_attr (at_top (sc_attrs s)) ->
    tame doc -> (is_object doc -> well_placed s (mk_cont doc)) -> exists y iss, base_parse m s doc = Ok (y, iss).
  Proof.
    intros s m doc Hm Hq Ht Hp.
    assert (D : is_object doc \/ ~ is_object doc) by (destruct doc; auto; left; exact I).
    destruct D as [Ho|Hn]; [|destruct doc; cbn [base_parse]; try (eexists _, _; reflexivity); exfalso; apply Hn; exact I].
    specialize (Hp Ho). pose proof (made_wf s Hm) as Hw. destruct (made_schemas s Hm) as [Hsn Hsi].
    set (c := mk_cont doc) in *. set (sa := bound_attr (mkRep (sc_uri s) ($"schemas") [] false) schemas_attr) in *.
    assert (Hc : tame c) by (apply tame_mk_cont; exact Ht). assert (Hi : is_cont c = true) by apply mk_cont_is_cont.
    assert (Hgo : exists outs, gather_top m c (at_top (sc_attrs s)) = Ok outs).
    { apply gather_top_total. apply Forall_forall. intros a Ha. split; [apply (get_top_total s); assumption|].
      pose proof (ws_attrs _ Hw) as W2. rewrite Forall_forall in W2, Hq. split; [exact (proj1 (W2 a Ha)) | exact (Hq a Ha)]. }
    destruct Hgo as [outs Hg]. destruct (tops_fit s Hw) as [Hnd Hf]. destruct (tops_errs s m c outs Hw Hg) as [Ht1 Ht2].
    assert (Hfo : Forall (fun e => fits (map fst (sc_exts s)) (arep (fst e))) outs).
    { apply Forall_forall. intros [a o] Hin. rewrite Forall_forall in Hf. apply Hf. exact (proj1 (gather_top_In _ _ _ _ _ _ Hg Hin)). }
    pose proof (tops_apart s m c outs Hw Hg) as Hap.
    destruct (put_tops_read _ _ Hnd Hfo Hap empty_cont (shelf_empty _)) as [[d' [m' [E' [Hidx _]]]] [_ Hread]].
    destruct (put_tops_keys _ _ Hnd Hfo [] [] (shelf_empty _)) as [data [l2o [Ey [K1 [K2 K3]]]]]. change (VCont [] []) with empty_cont in Ey.
    rewrite Ey in E'. injection E' as <- <-.
    assert (Esa : arep sa = mkRep (sc_uri s) ($"schemas") [] false) by apply bound_rep.
    assert (Hmain : ~ has_key (put_tops outs empty_cont) (sc_uri s)).
    { rewrite Ey. intros [k Hk]. destruct (K1 _ _ Hk) as [G|[[a o] [G1 G2]]]; [discriminate|]. pose proof (Hidx _ _ Hk) as Hlk.
      cbn [fst] in G2. pose proof (proj1 (gather_top_In _ _ _ _ _ _ Hg G1)) as Hat. destruct Hw as [[W1 _] W2 _ W4].
      rewrite Forall_forall in W2. destruct (W2 a Hat) as [_ [_ [_ Sa]]]. unfold topkey in G2. destruct (r_ext (arep a)) eqn:Ee.
      - unfold sc_schemas in W1. cbn [map] in W1. inversion W1 as [|? ? N1 _]; subst. apply N1. rewrite <- Hlk. apply in_map. exact Sa.
      - apply (W4 a Hat Ee). unfold sc_schemas. cbn [map]. left. rewrite <- G2. symmetry. exact Hlk. }
    assert (Hy : (get_item (put_tops outs empty_cont) (arep sa) = Ok VMissing)
                 \/ exists x o, In (sa, o) outs /\ get_item c (arep sa) = Ok x /\ x <> VMissing /\ process sa m x = Ok o
                      /\ get_item (put_tops outs empty_cont) (arep sa) = Ok (fst o)).
    { destruct (sget ($"schemas") l2o) as [k|] eqn:Ek.
      - right. destruct (K1 _ _ Ek) as [G|[[a o] [G1 G2]]]; [discriminate|]. pose proof (Hidx _ _ Ek) as Hlk. cbn [fst] in G2.
        destruct (gather_top_In _ _ _ _ _ _ Hg G1) as [Hat [x [X1 [X2 X3]]]].
        assert (a = sa).
        { pose proof (ws_attrs _ Hw) as W2. rewrite Forall_forall in W2. destruct (W2 a Hat) as [_ [_ [_ Sa]]].
          unfold topkey in G2. destruct (r_ext (arep a)) eqn:Ee.
          - exfalso. apply (ws_names _ Hw sa Hsi); [rewrite Esa; reflexivity|]. rewrite Esa. cbn [r_attr]. unfold sc_schemas. right.
            change (lower ($"schemas")) with ($"schemas"). rewrite <- Hlk, G2. apply in_map. exact Sa.
          - refine (NoDup_map_eq _ _ _ _ (ws_distinct _ Hw) Hat Hsi _). rewrite Esa, Sa. cbn [r_schema r_attr]. rewrite <- G2, Hlk. reflexivity. }
        subst a. exists x, o. split; [exact G1|]. split; [exact X1|]. split; [exact X2|]. split; [exact X3|].
        apply get_core; rewrite Esa; cbn [r_ext r_sub r_schema r_attr]; [reflexivity | reflexivity | exact Hmain|].
        pose proof (proj2 (Hread sa o G1 (fst o)) eq_refl) as G. unfold doc_holds in G. rewrite Esa in G. exact G.
      - left. rewrite Ey in *. rewrite get_item_eq, Esa. cbn [r_schema r_attr r_sub].
        destruct (sget (lower (sc_uri s)) l2o) as [u|] eqn:E; [exfalso; apply Hmain; exists u; exact E|].
        change (lower ($"schemas")) with ($"schemas"). rewrite Ek. reflexivity. }
    assert (Hr : report (merge_tops outs no_issues)).
    { apply merge_tops_errs; [|apply report_empty]. apply Forall_forall. intros [a [v j]] Hin.
      destruct (gather_top_In _ _ _ _ _ _ Hg Hin) as [Ha [x [_ [_ Hx]]]]. cbn [snd].
      pose proof (ws_attrs _ Hw) as W2. rewrite Forall_forall in W2. destruct (W2 a Ha) as [Hs _]. exact (process_report a Hs _ _ _ _ Hx). }
    assert (Hshape : base_parse m s doc =
      (let! schemas_ := get_item (put_tops outs empty_cont) (arep sa) in
       if can_proceed (merge no_issues (merge_tops outs no_issues) []) [schemas_loc] && truthy schemas_ then
         let! iss2 := validate_schemas_field (put_tops outs empty_cont) schemas_ (sc_uri s) (sc_schemas s) in
         Ok (put_tops outs empty_cont, merge (merge no_issues (merge_tops outs no_issues) []) iss2 [])
       else Ok (put_tops outs empty_cont, merge no_issues (merge_tops outs no_issues) []))).
    { assert (Hpd : process_data m s doc = Ok (put_tops outs empty_cont, merge_tops outs no_issues)).
      { unfold process_data. rewrite (process_attrs_closed _ _ _ _ Hnd Hf _ _ (shelf_empty _)). fold c. rewrite Hg. reflexivity. }
      destruct doc; try contradiction; cbn [base_parse]; rewrite Hpd; cbn [bind]; rewrite Hsn; reflexivity. }
    rewrite Hshape. clear Hshape.
    destruct Hy as [Hy|[x [o [Hin [Hgx [Hxm [Hpx Hy]]]]]]]; rewrite Hy; cbn [bind].
    - rewrite andb_false_r. eexists _, _. reflexivity.
    - assert (Hh : holds c ($"schemas") x).
      { destruct c; try discriminate. rewrite get_item_eq, Esa in Hgx. cbn [r_schema r_attr r_sub] in Hgx.
        destruct (sget (lower (sc_uri s)) l2o0) as [u|] eqn:E; [exfalso; apply (proj1 Hp); exists u; exact E|].
        destruct (sget (lower ($"schemas")) l2o0) as [k|] eqn:E2; [|congruence]. destruct (sget k data0) as [x'|] eqn:E3; [|discriminate].
        cbn [get_sub] in Hgx. injection Hgx as ->. exists data0, l2o0, k. auto. }
      destruct (can_proceed (merge no_issues (merge_tops outs no_issues) []) [schemas_loc]) eqn:Ecp; [|eexists _, _; reflexivity].
      cbn [andb]. destruct (truthy (fst o)) eqn:Etr; [|eexists _, _; reflexivity].
      assert (Hl : exists l, fst o = VList (map VStr l)).
      { assert (Hbad : errs_at (snd o) [] <> [] -> False).
        { intros G. assert (can_proceed (merge no_issues (merge_tops outs no_issues) []) [schemas_loc] = false); [|congruence].
          apply can_proceed_spec. exists schemas_loc, schemas_loc. split; [left; reflexivity|]. split; [exists []; rewrite app_nil_r; reflexivity|].
          pose proof (report_wf _ Hr) as Hwf. apply (stops_merge no_issues (merge_tops outs no_issues) [] schemas_loc); [exact (proj1 (report_wf _ report_empty)) | exact (proj1 Hwf)|].
          right. exists schemas_loc. split; [reflexivity|]. destruct (in_dec loc_dec schemas_loc (map fst (i_errs (merge_tops outs no_issues)))) as [I1|I1]; [exact I1|].
          exfalso. apply (errs_at_nil_iff _ _ Hwf) in I1. apply G. destruct o as [v j]. specialize (Ht1 sa v j [] Hin).
          assert (Hpl : place (arep sa) ++ [] = schemas_loc) by (rewrite Esa; reflexivity). rewrite Hpl, I1 in Ht1. symmetry. exact Ht1. }
        assert (Hcase : (exists l, x = VList l) \/ x = VNone \/ process sa m x = Ok (fail (e_bad_type ($"list") (scim_type_of x)))).
        { destruct x; auto; try (right; right; reflexivity). left; eexists; reflexivity. }
        destruct Hcase as [[l ->]|[->|E]].
        - destruct Hp as [_ [_ Hp]]. specialize (Hp l Hh).
          assert (Hl : exists ts, l = map VStr ts).
          { clear - Hp. induction Hp as [|v t [s ->] _ [ts ->]]; [exists []; reflexivity | exists (s :: ts); reflexivity]. }
          destruct Hl as [ts ->]. unfold sa in Hpx. rewrite schemas_process in Hpx. injection Hpx as <-. exists ts. reflexivity.
        - assert (Eo : process sa m VNone = Ok (VNone, no_issues)) by reflexivity. rewrite Eo in Hpx. injection Hpx as <-. discriminate.
        - rewrite E in Hpx. injection Hpx as <-. exfalso. apply Hbad. vm_compute. discriminate. }
      destruct Hl as [l ->]. unfold validate_schemas_field.
      change (lower_items (VList (map VStr l))) with (mapM (fun x => match x with VStr s => Ok (lower s) | _ => Raise AttributeErr end) (map VStr l)).
      rewrite mapM_lower. cbn [bind]. destruct (scan_schemas _ _ _ _ _) as [inc i]. cbn [bind]. eexists _, _. reflexivity.
  Qed.
End Env.

(** ** C28 *)

Lemma find_app {A} (f : A -> bool) l1 l2 : find f (l1 ++ l2) = match find f l1 with Some x => Some x | None => find f l2 end.
Proof. induction l1 as [|a t IH]; cbn [app find]; [reflexivity|]. destruct (f a); [reflexivity | exact IH]. Qed.
Lemma find_unique {A} (f : A -> bool) l x : In x l -> f x = true -> (forall y, In y l -> f y = true -> y = x) -> find f l = Some x.
Proof.
  induction l as [|a t IH]; intros Hin Hf Hu; [contradiction|]. cbn [find]. destruct (f a) eqn:E.
  - rewrite (Hu a (or_introl eq_refl) E). reflexivity.
  - destruct Hin as [->|Hin]; [congruence|]. apply IH; [exact Hin | exact Hf|]. intros y Hy. apply Hu. right; exact Hy.
Qed.
Lemma rep_eqb_parts a b : rep_eqb a b = true ->
  (r_schema a <> [] -> r_schema b <> [] -> lower (r_schema a) = lower (r_schema b)) /\ lower (r_attr a) = lower (r_attr b) /\ lower (r_sub a) = lower (r_sub b).
Proof.
  unfold rep_eqb. intros H.
  destruct (str_eqb_spec (lower (r_attr a)) (lower (r_attr b))) as [E2|E2]; [|destruct (_ && _ && _); discriminate].
  destruct (str_eqb_spec (lower (r_sub a)) (lower (r_sub b))) as [E3|E3]; [|destruct (_ && _ && _); discriminate].
  split; [|split; assumption]. intros Ha Hb. destruct (str_eqb_spec (lower (r_schema a)) (lower (r_schema b))) as [E1|E1]; [exact E1|].
  exfalso. destruct (r_schema a); [congruence|]. destruct (r_schema b); [congruence|]. discriminate.
Qed.
Lemma rep_eqb_refl r : rep_eqb r r = true.
Proof. unfold rep_eqb. rewrite !str_eqb_refl. cbn [negb]. rewrite andb_false_r. reflexivity. Qed.

Lemma bound_same r a : sound_attr a -> distinct_names (sub_attrs a) -> same_attr a (bound_attr r a).
Proof.
  intros Hs Hd. pose proof (bound_subs r a Hs Hd) as E. destruct a as [i [[[subs cps] cds]|]]; cbn [bound_attr] in *; unfold same_attr;
    cbn [info a_type a_multi a_required a_mut a_ret a_uniq a_issuer a_parsers a_dumpers is_complex a_case_exact]; repeat split; try exact E; try discriminate.
  inversion Hs; subst. symmetry. assumption.
Qed.

Lemma bound_find uri l r : neat l -> uri <> [] -> lower (r_schema r) = lower uri ->
  (forall a, In a l -> lower (r_attr r) = lower (r_attr (arep a)) -> r_sub r = [] ->
     find_attr (flat_map (bound_all uri true) l) r = Some (bound_attr (mkRep uri (r_attr (arep a)) [] true) a))
  /\ (forall a b, In a l -> In b (sub_attrs a) -> lower (r_attr r) = lower (r_attr (arep a)) -> lower (r_sub r) = lower (r_attr (arep b)) ->
     find_attr (flat_map (bound_all uri true) l) r = Some (bound_attr (mkRep uri (r_attr (arep a)) (r_attr (arep b)) true) b)).
Proof.
  intros [Hl Hd] Hu Hr. rewrite Forall_forall in Hl. unfold distinct_names in Hd.
  assert (Huniq : forall a y, In a l -> lower (r_attr r) = lower (r_attr (arep a)) -> In y (flat_map (bound_all uri true) l) -> rep_eqb (arep y) r = true ->
            In y (bound_all uri true a) /\ lower (r_sub (arep y)) = lower (r_sub r)).
  { intros a y Ha E Hy Hf. apply rep_eqb_parts in Hf as [_ [F1 F2]]. split; [|exact F2]. apply in_flat_map in Hy as [a' [Ha' Hy]].
    assert (a' = a); [|subst; exact Hy]. refine (NoDup_map_eq _ _ _ _ Hd Ha' Ha _).
    destruct Hy as [<-|Hy]; [rewrite bound_rep in F1; cbn [r_attr] in F1; congruence|].
    apply in_map_iff in Hy as [b [<- _]]. rewrite bound_rep in F1. cbn [r_attr] in F1. congruence. }
  assert (Hsubs : forall a b, In a l -> In b (sub_attrs a) -> r_attr (arep b) <> []).
  { intros a b Ha Hb. destruct (Hl a Ha) as [Hs _]. pose proof (subs_plain a Hs) as Hp. rewrite Forall_forall in Hp.
    destruct (Hp b Hb) as [_ [_ [_ G]]]. exact (attr_ok_nonempty _ G). }
  split.
  - intros a Ha E Es. apply find_unique.
    + apply in_flat_map. exists a. split; [exact Ha | left; reflexivity].
    + rewrite bound_rep. unfold rep_eqb. cbn [r_schema r_attr r_sub]. rewrite Hr, E, Es, !str_eqb_refl. cbn [negb]. rewrite andb_false_r. reflexivity.
    + intros y Hy Hf. destruct (Huniq a y Ha E Hy Hf) as [Hb F2]. destruct Hb as [<-|Hb]; [reflexivity|].
      apply in_map_iff in Hb as [b [<- Hb]]. rewrite bound_rep, Es in F2. cbn [r_sub] in F2. exfalso.
      apply (proj1 (lower_nil _)) in F2. exact (Hsubs a b Ha Hb F2).
  - intros a b Ha Hb E Es. apply find_unique.
    + apply in_flat_map. exists a. split; [exact Ha|]. right. apply in_map_iff. exists b. split; [reflexivity | exact Hb].
    + rewrite bound_rep. unfold rep_eqb. cbn [r_schema r_attr r_sub]. rewrite Hr, E, Es, !str_eqb_refl. cbn [negb]. rewrite andb_false_r. reflexivity.
    + intros y Hy Hf. destruct (Huniq a y Ha E Hy Hf) as [Hin F2]. rewrite Es in F2. destruct Hin as [<-|Hin].
      * exfalso. rewrite bound_rep in F2. cbn [r_sub] in F2. symmetry in F2. apply (proj1 (lower_nil _)) in F2. exact (Hsubs a b Ha Hb F2).
      * apply in_map_iff in Hin as [b' [<- Hb']]. rewrite bound_rep in F2. cbn [r_sub] in F2. destruct (Hl a Ha) as [_ [_ Hds]].
        rewrite (NoDup_map_eq _ _ _ _ Hds Hb' Hb F2). reflexivity.
Qed.

(** Attaching an extension under a new URI keeps every successful look-up, makes
    the extension's attributes and their sub-attributes available under its URI,
    adds nothing else, and makes the URI known. *)
Theorem C28_only_adds : forall s e req s', made s -> ex_uri e <> [] -> neat (at_all (ex_attrs e)) ->
  ~ listed (ex_uri e) (sc_schemas s) -> with_extension s e req = Ok s' ->
  (forall r a, find_attr (at_all (sc_attrs s)) r = Some a -> find_attr (at_all (sc_attrs s')) r = Some a)
  /\ (forall r a, In a (at_all (ex_attrs e)) -> same_text (r_schema r) (ex_uri e) -> same_text (r_attr r) (r_attr (arep a)) -> r_sub r = [] ->
       exists b, find_attr (at_all (sc_attrs s')) r = Some b /\ arep b = mkRep (ex_uri e) (r_attr (arep a)) [] true /\ same_attr a b)
  /\ (forall r a sub, In a (at_all (ex_attrs e)) -> In sub (sub_attrs a) -> same_text (r_schema r) (ex_uri e) ->
       same_text (r_attr r) (r_attr (arep a)) -> same_text (r_sub r) (r_attr (arep sub)) -> distinct_names (sub_attrs sub) ->
       exists b, find_attr (at_all (sc_attrs s')) r = Some b /\ arep b = mkRep (ex_uri e) (r_attr (arep a)) (r_attr (arep sub)) true /\ same_attr sub b)
  /\ (forall r b, find_attr (at_all (sc_attrs s')) r = Some b ->
       find_attr (at_all (sc_attrs s)) r = Some b \/ r_schema (arep b) = ex_uri e /\ r_ext (arep b) = true)
  /\ (forall u, In u (sc_schemas s') <-> In u (sc_schemas s) \/ u = ex_uri e).
Proof.
  intros s e req s' Hm Hu Hn Hl H. destruct (made_assembled s Hm) as [Has _].
  destruct (extension_all s e req s' Has Hn Hu Hl H) as [E1 [E2 E3]]. set (u := ex_uri e) in *. set (L := at_all (ex_attrs e)) in *.
  destruct Has as [Hw [_ [_ A3]]].
  assert (Hold : forall r, same_text (r_schema r) u -> find_attr (at_all (sc_attrs s)) r = None).
  { intros r Hr. unfold find_attr. destruct (find _ _) as [b|] eqn:E; [|reflexivity]. exfalso. apply find_some in E as [Hin Hf].
    apply rep_eqb_parts in Hf as [F _]. rewrite Forall_forall in A3. specialize (A3 b Hin). unfold same_text in Hr.
    assert (Hs : In (r_schema (arep b)) (sc_schemas s)) by (unfold sc_schemas; destruct (r_ext (arep b)); [right; exact A3 | left; symmetry; exact A3]).
    apply Hl. unfold listed. rewrite <- Hr, <- F; [apply in_map; exact Hs| |].
    - intros G. destruct (ws_uris _ Hw) as [_ N]. apply N. rewrite <- G. exact Hs.
    - intros G. apply Hu. apply (proj1 (lower_nil _)). rewrite <- Hr, G. reflexivity. }
  rewrite E1. unfold find_attr. split; [|split; [|split; [|split]]].
  - intros r a Hf. rewrite find_app, Hf. reflexivity.
  - intros r a Ha Hr1 Hr2 Hr3. pose proof (Hold r Hr1) as Hno. unfold find_attr in Hno. rewrite find_app, Hno.
    destruct (bound_find u L r Hn Hu Hr1) as [B _]. eexists. split; [exact (B a Ha Hr2 Hr3)|]. split; [apply bound_rep|].
    destruct Hn as [Hn _]. rewrite Forall_forall in Hn. destruct (Hn a Ha) as [S1 [_ S2]]. apply bound_same; assumption.
  - intros r a sub Ha Hb Hr1 Hr2 Hr3 Hd. pose proof (Hold r Hr1) as Hno. unfold find_attr in Hno. rewrite find_app, Hno.
    destruct (bound_find u L r Hn Hu Hr1) as [_ B]. eexists. split; [exact (B a sub Ha Hb Hr2 Hr3)|]. split; [apply bound_rep|].
    destruct Hn as [Hn _]. rewrite Forall_forall in Hn. destruct (Hn a Ha) as [S1 _]. apply bound_same; [|exact Hd].
    inversion S1 as [|? ? ? ? _ _ _ _ _ _ Hs]; subst; cbn [sub_attrs] in Hb; [contradiction|]. rewrite Forall_forall in Hs. exact (Hs sub Hb).
  - intros r b. rewrite find_app. destruct (find _ (at_all (sc_attrs s))); [left; assumption|]. intros Hf. right.
    apply find_some in Hf as [Hin _]. apply in_flat_map in Hin as [a [_ Hin]]. destruct Hin as [<-|Hin]; [rewrite bound_rep; auto|].
    apply in_map_iff in Hin as [b0 [<- _]]. rewrite bound_rep. auto.
  - intros v. unfold sc_schemas. rewrite E2, E3, map_app. cbn [map fst In]. rewrite in_app_iff. cbn [In]. intuition.
Qed.

(** A URI in lower case that is already attached (in any case) is refused; so is
    an empty URI for an extension with attributes. *)
Theorem C28_refuses_partial : forall s e req,
  (lower (ex_uri e) = ex_uri e -> listed (ex_uri e) (sc_schemas s) -> with_extension s e req = Raise ValueErr)
  /\ (ex_uri e = [] -> at_all (ex_attrs e) <> [] -> with_extension s e req = Raise ValueErr).
Proof.
  intros s e req. unfold with_extension. split.
  - intros Hl Hin. assert (E : smem (ex_uri e) (map lower (sc_schemas s)) = true) by (apply smem_In; rewrite <- Hl; exact Hin).
    rewrite E. reflexivity.
  - intros Hu Ha. destruct (smem _ _); [reflexivity|]. rewrite Hu. destruct (at_all (ex_attrs e)); [congruence | reflexivity].
Qed.

(** ** Examples and refutations *)

Lemma id_neat : sound_attr id_attr /\ plain_rep (arep id_attr) /\ distinct_names (sub_attrs id_attr).
Proof.
  split; [constructor; repeat constructor; apply bulk_id_reporting|]. split; [apply ex_plain; reflexivity | constructor].
Qed.
Ltac neat_attrs := apply neat_check; [repeat (apply Forall_cons; [first [exact id_neat | neat_attr]|]); apply Forall_nil | vm_compute; reflexivity].

Lemma core_user_made : made core_user.
Proof.
  unfold core_user. apply made_resource; [discriminate| |apply fresh_check; vm_compute; reflexivity].
  unfold user_name_attr, name_attr, password_attr, emails_attr, phone_numbers_attr, ims_attr, photos_attr, addresses_attr, groups_attr,
    entitlements_attr, roles_attr, x509_attr, plural_attr, sattr, schemas_attr, external_id_attr, meta_attr, server_ro, canon. cbv zeta. cbn [map app].
  neat_attrs.
Qed.
Lemma enterprise_neat : neat (at_all (ex_attrs enterprise_ext)).
Proof.
  assert (N : neat [sattr ($"employeeNumber") TString; sattr ($"costCenter") TString; sattr ($"division") TString;
     sattr ($"department") TString; sattr ($"organization") TString; manager_attr]).
  { unfold sattr, manager_attr, sattr. neat_attrs. }
  unfold enterprise_ext, mk_extension. cbn [ex_attrs mk_attrs at_all]. rewrite dedup_names; [exact N | exact (proj2 N)|].
  destruct N as [N _]. revert N. apply Forall_impl. intros a [_ [H _]]. exact H.
Qed.
Lemma enterprise_new : ~ listed enterprise_uri (sc_schemas core_user).
Proof. intros [H|[]]. vm_compute in H. discriminate. Qed.
Lemma user_made : made user_schema.
Proof.
  apply (made_ext core_user enterprise_ext false); [exact core_user_made | discriminate | exact enterprise_neat | exact enterprise_new | | ].
  - apply fresh_check. vm_compute. reflexivity.
  - unfold user_schema. destruct (with_extension core_user enterprise_ext false) as [s|x] eqn:E; [reflexivity|]. exfalso.
    unfold with_extension in E. assert (Hs : smem (ex_uri enterprise_ext) (map lower (sc_schemas core_user)) = false) by (vm_compute; reflexivity).
    rewrite Hs in E. discriminate.
Qed.
Lemma group_made : made group_schema.
Proof.
  unfold group_schema. apply made_resource; [discriminate| |apply fresh_check; vm_compute; reflexivity].
  unfold immutable, schemas_attr, external_id_attr, meta_attr, server_ro. cbv zeta. neat_attrs.
Qed.

(** Attributes without processors, and the shipped ones, are calm. *)
Lemma calm_bound r a : calm_attr a -> sound_attr a -> calm_attr (bound_attr r a).
Proof.
  intros H Hs. inversion H as [i Q1 Q2|i subs cps cds Q1 Q2 Q3 Q4 Q5 Q6]; subst; cbn [bound_attr].
  - constructor; assumption.
  - pose proof (bound_subs r _ Hs Q3) as E. cbn [bound_attr sub_attrs] in E. rewrite E. constructor; assumption.
Qed.
Lemma calm_plain i : a_parsers i = [] -> a_dumpers i = [] -> calm_attr (mk_simple i).
Proof. intros H1 H2. constructor; left; assumption. Qed.
Lemma calm_mk_complex i subs : a_parsers i = [] -> a_dumpers i = [] -> neat subs -> Forall calm_attr subs -> calm_attr (mk_complex i subs [] []).
Proof.
  intros H1 H2 [H3 H4] H5. unfold mk_complex. rewrite dedup_names; [|exact H4|revert H3; apply Forall_impl; intros a [_ [H _]]; exact H].
  assert (Q : quiet (assembled_value (a_multi i)) ([] ++ (if a_multi i then [single_primary] else []))).
  { destruct (a_multi i); [|left; reflexivity]. right. exists single_primary. split; [reflexivity|]. intros v [l [-> Hl]].
    destruct (single_primary_spec l Hl) as [ks [E _]]. eexists; exact E. }
  constructor; assumption.
Qed.
Lemma calm_id : calm_attr id_attr.
Proof.
  assert (Q : quiet (typed (info id_attr)) [bulk_id_validator]).
  { right. exists bulk_id_validator. split; [reflexivity|]. intros v [s ->]. cbn [bulk_id_validator]. destruct (contains s ($"bulkId")); eexists; reflexivity. }
  constructor; exact Q.
Qed.
Ltac calm_one := first [exact calm_id | apply calm_plain; reflexivity
  | apply calm_mk_complex; [reflexivity | reflexivity | neat_list | repeat (apply Forall_cons; [apply calm_plain; reflexivity|]); apply Forall_nil]].
Ltac calm_list := repeat (apply Forall_cons; [calm_one|]); apply Forall_nil.

Lemma top_calm uri ext l : Forall sound_attr l -> Forall calm_attr l ->
  Forall calm_attr (map (fun a => bound_attr (mkRep uri (r_attr (arep a)) [] ext) a) l).
Proof.
  intros H1 H2. apply Forall_map. rewrite Forall_forall in *. intros a Ha. apply calm_bound; auto.
Qed.
Lemma neat_sound l : neat l -> Forall sound_attr l.
Proof. intros [H _]. revert H. apply Forall_impl. intros a [Ha _]. exact Ha. Qed.

Lemma core_user_calm : Forall calm_attr (at_top (sc_attrs core_user)).
Proof.
  unfold core_user, resource_schema. cbn [sc_attrs base_schema mk_attrs at_top]. change (fun a => negb (nonempty (r_sub (arep a)))) with no_sub.
  assert (C : Forall calm_attr [schemas_attr; id_attr; external_id_attr; meta_attr; user_name_attr; name_attr; sattr ($"displayName") TString; sattr ($"nickName") TString;
     sattr ($"profileUrl") TExternalRef; sattr ($"title") TString; sattr ($"userType") TString;
     sattr ($"preferredLanguage") TString; sattr ($"locale") TString; sattr ($"timezone") TString;
     sattr ($"active") TBoolean; password_attr; emails_attr; phone_numbers_attr; ims_attr; photos_attr;
     addresses_attr; groups_attr; entitlements_attr; roles_attr; x509_attr]).
  { unfold user_name_attr, name_attr, password_attr, emails_attr, phone_numbers_attr, ims_attr, photos_attr, addresses_attr, groups_attr,
    entitlements_attr, roles_attr, x509_attr, plural_attr, sattr, schemas_attr, external_id_attr, meta_attr, server_ro, canon. cbv zeta. cbn [map app]. calm_list. }
  assert (N : neat [schemas_attr; id_attr; external_id_attr; meta_attr; user_name_attr; name_attr; sattr ($"displayName") TString; sattr ($"nickName") TString;
     sattr ($"profileUrl") TExternalRef; sattr ($"title") TString; sattr ($"userType") TString;
     sattr ($"preferredLanguage") TString; sattr ($"locale") TString; sattr ($"timezone") TString;
     sattr ($"active") TBoolean; password_attr; emails_attr; phone_numbers_attr; ims_attr; photos_attr;
     addresses_attr; groups_attr; entitlements_attr; roles_attr; x509_attr]).
  { unfold user_name_attr, name_attr, password_attr, emails_attr, phone_numbers_attr, ims_attr, photos_attr, addresses_attr, groups_attr,
    entitlements_attr, roles_attr, x509_attr, plural_attr, sattr, schemas_attr, external_id_attr, meta_attr, server_ro, canon. cbv zeta. cbn [map app]. neat_attrs. }
  rewrite bound_tops by (apply neat_sound; exact N). apply top_calm; [apply neat_sound; exact N | exact C].
Qed.
Lemma user_calm : Forall calm_attr (at_top (sc_attrs user_schema)).
Proof.
  destruct (with_extension core_user enterprise_ext false) as [s|x] eqn:E.
  - assert (Es : user_schema = s) by (unfold user_schema; rewrite E; reflexivity). rewrite Es.
    destruct (extension_assembled core_user enterprise_ext false s) as [_ [_ [E2 _]]]; [exact (proj1 (made_assembled _ core_user_made)) | exact enterprise_neat
      | discriminate | exact enterprise_new | | exact E |].
    + intros a Ha He. assert (F : fresh_names (ex_uri enterprise_ext) (filter (fun a => negb (r_ext (arep a))) (at_top (sc_attrs core_user)))).
      { apply fresh_check. vm_compute. reflexivity. }
      unfold fresh_names in F. rewrite Forall_forall in F. apply F. apply filter_In. rewrite He. auto.
    + rewrite E2. apply Forall_app. split; [exact core_user_calm|]. apply top_calm; [apply neat_sound; exact enterprise_neat|].
      unfold enterprise_ext, mk_extension. cbn [ex_attrs mk_attrs at_all].
      assert (N : neat [sattr ($"employeeNumber") TString; sattr ($"costCenter") TString; sattr ($"division") TString;
         sattr ($"department") TString; sattr ($"organization") TString; manager_attr]).
      { unfold sattr, manager_attr, sattr. neat_attrs. }
      rewrite dedup_names; [|exact (proj2 N)|destruct N as [N _]; revert N; apply Forall_impl; intros a [_ [H _]]; exact H].
      unfold sattr, manager_attr, sattr. calm_list.
  - unfold user_schema. rewrite E. exact core_user_calm.
Qed.

(** A document with a core attribute, an extension attribute and an unknown one. *)
Definition ex_user (schemas : list value) (rest : list (str * value)) : value :=
  dict_of (($"schemas", VList schemas) :: ($"USERNAME", VStr ($"bjensen")) :: rest).
Definition ex_doc : value := ex_user [VStr user_uri]
  [($"nope", VInt 1); (enterprise_uri, dict_of [($"division", VStr ($"Tour")); ($"department", VInt 5)])].

Example ex_C25 : made user_schema /\ is_object ex_doc /\ regular user_schema (mk_cont ex_doc)
  /\ exists y iss, @base_parse no_env MParse user_schema ex_doc = Ok (y, iss) /\ errs_at iss [LStr enterprise_uri; LStr ($"department")] <> []
     /\ errs_at iss schemas_loc = [e_missing_extension enterprise_uri].
Proof.
  split; [exact user_made|]. split; [exact I|]. split.
  - split; [reflexivity|]. split; [intros [k H]; vm_compute in H; discriminate|].
    intros a Ha He. left. exists (mk_cont (dict_of [($"division", VStr ($"Tour")); ($"department", VInt 5)])).
    assert (Hu : r_schema (arep a) = enterprise_uri).
    { pose proof (ws_attrs _ (made_wf _ user_made)) as W. rewrite Forall_forall in W. destruct (W a Ha) as [_ [_ [_ Sa]]]. rewrite He in Sa.
      assert (X : map fst (sc_exts user_schema) = [enterprise_uri]) by (vm_compute; reflexivity). rewrite X in Sa. destruct Sa as [Sa|[]]. symmetry. exact Sa. }
    rewrite Hu. split.
    + eexists _, _, _. split; [reflexivity|]. split; vm_compute; reflexivity.
    + intros [k H]. vm_compute in H. discriminate.
  - eexists _, _. split; [vm_compute; reflexivity|]. split; [vm_compute; discriminate | vm_compute; reflexivity].
Qed.

(** C25 fails when the extension's object is absent: a top-level key with the name
    of an extension attribute is read as that attribute. *)
Theorem C25_extension_fallback_refuted : exists env s doc y iss a v,
  made s /\ is_object doc /\ @base_parse env MParse s doc = Ok (y, iss) /\ In a (at_top (sc_attrs s))
  /\ (forall x, ~ doc_holds (mk_cont doc) (arep a) x) /\ doc_holds y (arep a) v.
Proof.
  exists no_env, user_schema, (ex_user [VStr user_uri] [($"division", VStr ($"Tour"))]).
  eexists _, _, (nth 27 (at_top (sc_attrs user_schema)) schemas_attr), (VStr ($"Tour")).
  split; [exact user_made|]. split; [exact I|]. split; [vm_compute; reflexivity|].
  split; [apply nth_In; vm_compute; lia|]. split.
  - intros x. change (arep (nth 27 (at_top (sc_attrs user_schema)) schemas_attr)) with (mkRep enterprise_uri ($"division") [] true).
    intros [sub [[d [l [k [E [H _]]]]] _]]. vm_compute in E. injection E as <- <-. vm_compute in H. discriminate.
  - change (arep (nth 27 (at_top (sc_attrs user_schema)) schemas_attr)) with (mkRep enterprise_uri ($"division") [] true).
    eexists. split; eexists _, _, _; (split; [reflexivity|]; split; vm_compute; reflexivity).
Qed.

Example ex_C26 : holds (mk_cont ex_doc) ($"schemas") (VList (map VStr [user_uri])) /\ [user_uri] <> [].
Proof. split; [|discriminate]. eexists _, _, _. split; [reflexivity|]. split; vm_compute; reflexivity. Qed.

(** C26 fails for required extensions: a document without one is accepted. *)
Definition strict_user : schema := match with_extension core_user enterprise_ext true with Ok s => s | Raise _ => core_user end.
Lemma strict_user_made : made strict_user.
Proof.
  destruct (with_extension core_user enterprise_ext true) as [s|x] eqn:E.
  - assert (Es : strict_user = s) by (unfold strict_user; rewrite E; reflexivity). rewrite Es.
    apply (made_ext core_user enterprise_ext true); [exact core_user_made | discriminate | exact enterprise_neat | exact enterprise_new | | exact E].
    apply fresh_check. vm_compute. reflexivity.
  - exfalso. unfold with_extension in E. assert (Hs : smem (ex_uri enterprise_ext) (map lower (sc_schemas core_user)) = false) by (vm_compute; reflexivity).
    rewrite Hs in E. discriminate.
Qed.
Theorem C26_required_refuted : exists env s doc y iss, made s /\ sc_exts s = [(enterprise_uri, true)]
  /\ is_object doc /\ ~ has_key (mk_cont doc) enterprise_uri /\ @base_parse env MParse s doc = Ok (y, iss) /\ forall l, errs_at iss l = [].
Proof.
  exists no_env, strict_user, (ex_user [VStr user_uri] []).
  assert (P : match @base_parse no_env MParse strict_user (ex_user [VStr user_uri] []) with Ok (_, iss) => iss = no_issues | Raise _ => False end)
    by (vm_compute; reflexivity).
  destruct (@base_parse no_env MParse strict_user (ex_user [VStr user_uri] [])) as [[y iss]|x]; [|contradiction]. subst iss.
  exists y, no_issues. split; [exact strict_user_made|]. split; [vm_compute; reflexivity|]. split; [exact I|].
  split; [intros [k H]; vm_compute in H; discriminate|]. split; reflexivity.
Qed.

Example ex_C27 : made user_schema /\ Forall calm_attr (at_top (sc_attrs user_schema)) /\ tame ex_doc /\ well_placed user_schema (mk_cont ex_doc).
Proof.
  split; [exact user_made|]. split; [exact user_calm|]. split.
  - assert (Hn : forall z, (Z.abs z < 100)%Z -> ~ overflows z 1).
    { intros z Hz G. unfold overflows in G. assert (100 < (2 ^ 1024 - 2 ^ 970) * 1)%Z by (vm_compute; reflexivity). lia. }
    unfold ex_doc, ex_user, dict_of. cbn [map fst snd]. constructor.
    + repeat (apply Forall_cons; [cbn [fst]; discriminate|]). constructor.
    + repeat (apply Forall_cons; [cbn [snd]|]); try constructor; try (constructor; reflexivity); try (vm_compute; reflexivity).
      * repeat (apply Forall_cons); repeat constructor.
      * apply Hn. reflexivity.
      * repeat (apply Forall_cons; [cbn [fst]; discriminate|]). constructor.
      * apply Forall_cons; [cbn [snd]; constructor; reflexivity|]. apply Forall_cons; [cbn [snd]; constructor; apply Hn; reflexivity | constructor].
  - split; [intros [k H]; vm_compute in H; discriminate|]. split.
    + intros u x Hu [d [l [k [E [H1 H2]]]]]. vm_compute in Hu. destruct Hu as [<-|[]]. vm_compute in E. injection E as <- <-.
      vm_compute in H1. injection H1 as <-. vm_compute in H2. injection H2 as <-. reflexivity.
    + intros l [d [l2 [k [E [H1 H2]]]]]. vm_compute in E. injection E as <- <-. vm_compute in H1. injection H1 as <-. vm_compute in H2. injection H2 as <-.
      constructor; [eexists; reflexivity | constructor].
Qed.

(** C27 fails for some JSON documents: a number among the schemas, an extension
    URI holding a non-object, an empty key holding a non-object. *)
Theorem C27_never_raises_refuted : exists env s, made s
  /\ (exists doc, json doc /\ @base_parse env MParse s doc = Raise AttributeErr)
  /\ (exists doc, json doc /\ @base_parse env MParse s doc = Raise TypeErr)
  /\ (exists doc, json doc /\ ~ has_key (mk_cont doc) (sc_uri s) /\ ~ has_key (mk_cont doc) enterprise_uri /\ @base_parse env MParse s doc = Raise TypeErr).
Proof.
  exists no_env, user_schema. split; [exact user_made|]. split; [|split].
  - exists (ex_user [VInt 1] []). split; [|vm_compute; reflexivity].
    unfold ex_user, dict_of. cbn [map fst snd]. constructor.
    + repeat (apply NoDup_cons; [intros G; repeat (destruct G as [G|G]; [discriminate|]); exact G|]). constructor.
    + repeat (apply Forall_cons; [eexists; reflexivity|]). constructor.
    + repeat constructor.
  - exists (ex_user [VStr user_uri] [(enterprise_uri, VInt 1)]). split; [|vm_compute; reflexivity].
    unfold ex_user, dict_of. cbn [map fst snd]. constructor.
    + repeat (apply NoDup_cons; [intros G; repeat (destruct G as [G|G]; [discriminate|]); exact G|]). constructor.
    + repeat (apply Forall_cons; [eexists; reflexivity|]). constructor.
    + repeat constructor.
  - exists (ex_user [VStr user_uri] [($"name", dict_of [([], VInt 1)])]). split.
    + unfold ex_user, dict_of. cbn [map fst snd]. constructor.
      * repeat (apply NoDup_cons; [intros G; repeat (destruct G as [G|G]; [discriminate|]); exact G|]). constructor.
      * repeat (apply Forall_cons; [eexists; reflexivity|]). constructor.
      * apply Forall_cons; [repeat constructor|]. apply Forall_cons; [repeat constructor|]. apply Forall_cons; [|constructor].
        cbn [snd]. constructor; [constructor; [intros []|constructor]|repeat constructor; eexists; reflexivity|repeat constructor].
    + split; [intros [k H]; vm_compute in H; discriminate|]. split; [intros [k H]; vm_compute in H; discriminate|]. vm_compute. reflexivity.
Qed.

Example ex_C28 : made core_user /\ ex_uri enterprise_ext <> [] /\ neat (at_all (ex_attrs enterprise_ext))
  /\ ~ listed (ex_uri enterprise_ext) (sc_schemas core_user) /\ exists s', with_extension core_user enterprise_ext true = Ok s'.
Proof.
  split; [exact core_user_made|]. split; [discriminate|]. split; [exact enterprise_neat|]. split; [exact enterprise_new|].
  eexists. unfold with_extension. reflexivity.
Qed.
Example ex_C28_refuses : exists e, lower (ex_uri e) = ex_uri e /\ listed (ex_uri e) (sc_schemas core_user).
Proof. exists (mk_extension (lower user_uri) [] [] []). split; [vm_compute; reflexivity | left; vm_compute; reflexivity]. Qed.

(** C28 fails for URIs with capitals: the same extension is attached twice. *)
Theorem C28_duplicate_refuted : exists s e s', made s /\ In (ex_uri e) (map fst (sc_exts s)) /\ with_extension s e true = Ok s'.
Proof.
  exists user_schema, enterprise_ext. eexists. split; [exact user_made|]. split; [vm_compute; left; reflexivity|].
  unfold with_extension. assert (Hs : smem (ex_uri enterprise_ext) (map lower (sc_schemas user_schema)) = false) by (vm_compute; reflexivity).
  rewrite Hs. reflexivity.
Qed.

Print Assumptions C25_known_only_partial.
Print Assumptions C25_extension_fallback_refuted.
Print Assumptions C26_schemas_field_partial.
Print Assumptions C26_required_refuted.
Print Assumptions C27_never_raises_partial.
Print Assumptions C27_never_raises_refuted.
Print Assumptions C28_only_adds.
Print Assumptions C28_refuses_partial.
Print Assumptions C28_duplicate_refuted.
