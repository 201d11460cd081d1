(** Lemmas about requests to find resources (C86). *)
From Verif Require Import PyBase BaseFacts PyNum Issues IssuesSpec IssuesFacts AttrRep AttrRepSpec AttrRepFacts Value ValueFacts
  Container ContainerSpec ContainerFacts ContainerRW Types TypesSpec Attr Schema Assets AttrSpec AttrFacts AttrHonest AttrItems PropAttr
  SchemaSpec SchemaFacts SchemaBuild NumSpec TotalSpec TotalFacts PropSchema SchemaBuild TotalSpec TotalFacts Presence FilterParse FilterTotal PropFilter Sort Requests Search PresenceSpec PropPresence AnswerSpec AnswerFacts Patch PatchFacts MsgFacts RequestSpec RequestFacts ListSpec ListFacts ListReqSpec PropListReq SearchSpec PropSearch FindAnswerSpec.

Section Env.
  Context {env : PyEnv}.

  (** A document whose values can be processed one by one is parsed. *)
  Lemma parse_gathered s m doc outs : made s -> is_object doc -> well_placed s (mk_cont doc) -> gather_top m (mk_cont doc) (at_top (sc_attrs s)) = Ok outs ->
    exists y iss, base_parse m s doc = Ok (y, iss).
  Proof.
    intros Hm Ho Hp Hg.
    pose proof (made_wf s Hm) as Hw. destruct (made_schemas s Hm) as [Hsn Hsi].
    set (c := mk_cont doc) in *. set (sa := bound_attr (mkRep (sc_uri s) ($"schemas") [] false) schemas_attr) in *.
    assert (Hi : is_cont c = true) by apply mk_cont_is_cont.
    destruct (tops_fit s Hw) as [Hnd Hf]. destruct (tops_errs s m c outs Hw Hg) as [Ht1 Ht2].
    assert (Hfo : Forall (fun e => fits (map fst (sc_exts s)) (arep (fst e))) outs).
    { apply Forall_forall. intros [a o] Hin. rewrite Forall_forall in Hf. apply Hf. exact (proj1 (gather_top_In _ _ _ _ _ _ Hg Hin)). }
    pose proof (tops_apart s m c outs Hw Hg) as Hap.
    destruct (put_tops_read _ _ Hnd Hfo Hap empty_cont (shelf_empty _)) as [[d' [m' [E' [Hidx _]]]] [_ Hread]].
    destruct (put_tops_keys _ _ Hnd Hfo [] [] (shelf_empty _)) as [data [l2o [Ey [K1 [K2 K3]]]]]. change (VCont [] []) with empty_cont in Ey.
    rewrite Ey in E'. injection E' as <- <-.
    assert (Esa : arep sa = mkRep (sc_uri s) ($"schemas") [] false) by apply bound_rep.
    assert (Hmain : ~ has_key (put_tops outs empty_cont) (sc_uri s)).
    { rewrite Ey. intros [k Hk]. destruct (K1 _ _ Hk) as [G|[[a o] [G1 G2]]]; [discriminate|]. pose proof (Hidx _ _ Hk) as Hlk.
      cbn [fst] in G2. pose proof (proj1 (gather_top_In _ _ _ _ _ _ Hg G1)) as Hat. destruct Hw as [[W1 _] W2 _ W4].
      rewrite Forall_forall in W2. destruct (W2 a Hat) as [_ [_ [_ Sa]]]. unfold topkey in G2. destruct (r_ext (arep a)) eqn:Ee.
      - unfold sc_schemas in W1. cbn [map] in W1. inversion W1 as [|? ? N1 _]; subst. apply N1. rewrite <- Hlk. apply in_map. exact Sa.
      - apply (W4 a Hat Ee). unfold sc_schemas. cbn [map]. left. rewrite <- G2. symmetry. exact Hlk. }
    assert (Hy : (get_item (put_tops outs empty_cont) (arep sa) = Ok VMissing)
                 \/ exists x o, In (sa, o) outs /\ get_item c (arep sa) = Ok x /\ x <> VMissing /\ process sa m x = Ok o
                      /\ get_item (put_tops outs empty_cont) (arep sa) = Ok (fst o)).
    { destruct (sget ($"schemas") l2o) as [k|] eqn:Ek.
      - right. destruct (K1 _ _ Ek) as [G|[[a o] [G1 G2]]]; [discriminate|]. pose proof (Hidx _ _ Ek) as Hlk. cbn [fst] in G2.
        destruct (gather_top_In _ _ _ _ _ _ Hg G1) as [Hat [x [X1 [X2 X3]]]].
        assert (a = sa).
        { pose proof (ws_attrs _ Hw) as W2. rewrite Forall_forall in W2. destruct (W2 a Hat) as [_ [_ [_ Sa]]].
          unfold topkey in G2. destruct (r_ext (arep a)) eqn:Ee.
          - exfalso. apply (ws_names _ Hw sa Hsi); [rewrite Esa; reflexivity|]. rewrite Esa. cbn [r_attr]. unfold sc_schemas. right.
            change (lower ($"schemas")) with ($"schemas"). rewrite <- Hlk, G2. apply in_map. exact Sa.
          - refine (NoDup_map_eq _ _ _ _ (ws_distinct _ Hw) Hat Hsi _). rewrite Esa, Sa. cbn [r_schema r_attr]. rewrite <- G2, Hlk. reflexivity. }
        subst a. exists x, o. split; [exact G1|]. split; [exact X1|]. split; [exact X2|]. split; [exact X3|].
        apply get_core; rewrite Esa; cbn [r_ext r_sub r_schema r_attr]; [reflexivity | reflexivity | exact Hmain|].
        pose proof (proj2 (Hread sa o G1 (fst o)) eq_refl) as G. unfold doc_holds in G. rewrite Esa in G. exact G.
      - left. rewrite Ey in *. rewrite get_item_eq, Esa. cbn [r_schema r_attr r_sub].
        destruct (sget (lower (sc_uri s)) l2o) as [u|] eqn:E; [exfalso; apply Hmain; exists u; exact E|].
        change (lower ($"schemas")) with ($"schemas"). rewrite Ek. reflexivity. }
    assert (Hr : report (merge_tops outs no_issues)).
    { apply merge_tops_errs; [|apply report_empty]. apply Forall_forall. intros [a [v j]] Hin.
      destruct (gather_top_In _ _ _ _ _ _ Hg Hin) as [Ha [x [_ [_ Hx]]]]. cbn [snd].
      pose proof (ws_attrs _ Hw) as W2. rewrite Forall_forall in W2. destruct (W2 a Ha) as [Hs _]. exact (process_report a Hs _ _ _ _ Hx). }
    assert (Hshape : base_parse m s doc =
      (let! schemas_ := get_item (put_tops outs empty_cont) (arep sa) in
       if can_proceed (merge no_issues (merge_tops outs no_issues) []) [schemas_loc] && truthy schemas_ then
         let! iss2 := validate_schemas_field (put_tops outs empty_cont) schemas_ (sc_uri s) (sc_schemas s) in
         Ok (put_tops outs empty_cont, merge (merge no_issues (merge_tops outs no_issues) []) iss2 [])
       else Ok (put_tops outs empty_cont, merge no_issues (merge_tops outs no_issues) []))).
    { assert (Hpd : process_data m s doc = Ok (put_tops outs empty_cont, merge_tops outs no_issues)).
      { unfold process_data. rewrite (process_attrs_closed _ _ _ _ Hnd Hf _ _ (shelf_empty _)). fold c. rewrite Hg. reflexivity. }
      destruct doc; try contradiction; cbn [base_parse]; rewrite Hpd; cbn [bind]; rewrite Hsn; reflexivity. }
    rewrite Hshape. clear Hshape.
    destruct Hy as [Hy|[x [o [Hin [Hgx [Hxm [Hpx Hy]]]]]]]; rewrite Hy; cbn [bind].
    - rewrite andb_false_r. eexists _, _. reflexivity.
    - assert (Hh : holds c ($"schemas") x).
      { destruct c; try discriminate. rewrite get_item_eq, Esa in Hgx. cbn [r_schema r_attr r_sub] in Hgx.
        destruct (sget (lower (sc_uri s)) l2o0) as [u|] eqn:E; [exfalso; apply (proj1 Hp); exists u; exact E|].
        destruct (sget (lower ($"schemas")) l2o0) as [k|] eqn:E2; [|congruence]. destruct (sget k data0) as [x'|] eqn:E3; [|discriminate].
        cbn [get_sub] in Hgx. injection Hgx as ->. exists data0, l2o0, k. auto. }
      destruct (can_proceed (merge no_issues (merge_tops outs no_issues) []) [schemas_loc]) eqn:Ecp; [|eexists _, _; reflexivity].
      cbn [andb]. destruct (truthy (fst o)) eqn:Etr; [|eexists _, _; reflexivity].
      assert (Hl : exists l, fst o = VList (map VStr l)).
      { assert (Hbad : errs_at (snd o) [] <> [] -> False).
        { intros G. assert (can_proceed (merge no_issues (merge_tops outs no_issues) []) [schemas_loc] = false); [|congruence].
          apply can_proceed_spec. exists schemas_loc, schemas_loc. split; [left; reflexivity|]. split; [exists []; rewrite app_nil_r; reflexivity|].
          pose proof (report_wf _ Hr) as Hwf. apply (stops_merge no_issues (merge_tops outs no_issues) [] schemas_loc); [exact (proj1 (report_wf _ report_empty)) | exact (proj1 Hwf)|].
          right. exists schemas_loc. split; [reflexivity|]. destruct (in_dec loc_dec schemas_loc (map fst (i_errs (merge_tops outs no_issues)))) as [I1|I1]; [exact I1|].
          exfalso. apply (errs_at_nil_iff _ _ Hwf) in I1. apply G. destruct o as [v j]. specialize (Ht1 sa v j [] Hin).
          assert (Hpl : place (arep sa) ++ [] = schemas_loc) by (rewrite Esa; reflexivity). rewrite Hpl, I1 in Ht1. symmetry. exact Ht1. }
        assert (Hcase : (exists l, x = VList l) \/ x = VNone \/ process sa m x = Ok (fail (e_bad_type ($"list") (scim_type_of x)))).
        { destruct x; auto; try (right; right; reflexivity). left; eexists; reflexivity. }
        destruct Hcase as [[l ->]|[->|E]].
        - destruct Hp as [_ [_ Hp]]. specialize (Hp l Hh).
          assert (Hl : exists ts, l = map VStr ts).
          { clear - Hp. induction Hp as [|v t [s ->] _ [ts ->]]; [exists []; reflexivity | exists (s :: ts); reflexivity]. }
          destruct Hl as [ts ->]. unfold sa in Hpx. rewrite schemas_process in Hpx. injection Hpx as <-. exists ts. reflexivity.
        - assert (Eo : process sa m VNone = Ok (VNone, no_issues)) by reflexivity. rewrite Eo in Hpx. injection Hpx as <-. discriminate.
        - rewrite E in Hpx. injection Hpx as <-. exfalso. apply Hbad. vm_compute. discriminate. }
      destruct Hl as [l ->]. unfold validate_schemas_field.
      change (lower_items (VList (map VStr l))) with (mapM (fun x => match x with VStr s => Ok (lower s) | _ => Raise AttributeErr end) (map VStr l)).
      rewrite mapM_lower. cbn [bind]. destruct (scan_schemas _ _ _ _ _) as [inc i]. cbn [bind]. eexists _, _. reflexivity.
  Qed.
  Lemma parse_stopped s m doc e : made s -> is_object doc -> gather_top m (mk_cont doc) (at_top (sc_attrs s)) = Raise e -> base_parse m s doc = Raise e.
  Proof.
    intros Hm Ho Hg. pose proof (made_wf s Hm) as Hw. destruct (tops_fit s Hw) as [Hnd Hf].
    assert (Hpd : process_data m s doc = Raise e) by (unfold process_data; rewrite (process_attrs_closed _ _ _ _ Hnd Hf _ _ (shelf_empty _)), Hg; reflexivity).
    destruct doc; try contradiction; cbn [base_parse]; rewrite Hpd; reflexivity.
  Qed.

  Lemma set_textual d k v : textual_query (VDict d) -> (forall l, v <> VList l) -> textual_query (VDict (qset d k v)).
  Proof.
    intros H Hv d' k' l E Hin. injection E as <-. unfold qset in Hin.
    assert (G : (k', VList l) = (KStr k, v) \/ In (k', VList l) d).
    { clear - Hin. induction d as [|[k0 x0] t IH]; cbn [aset] in Hin; [destruct Hin as [<-|[]]; auto|]. destruct (dkey_eqb k0 (KStr k)) eqn:E.
      - destruct Hin as [<-|Hin]; [left|right; right; exact Hin]. destruct k0 as [s0|]; [|discriminate E]. apply str_eqb_eq in E as ->. reflexivity.
      - destruct Hin as [<-|Hin]; [right; left; reflexivity|]. destruct (IH Hin) as [G|G]; [auto|right; right; exact G]. }
    destruct G as [G|G]; [injection G as _ <-; exfalso; exact (Hv l eq_refl) | exact (H d k' l eq_refl G)].
  Qed.
  Lemma requested_total d : textual_query (VDict d) -> exists c iss, requested_attributes d = Ok (c, iss).
  Proof.
    intros H. destruct (query_answered _ H) as [q' [iss E]]. unfold query_step in E. apply bind_ok in E as [[c j] [E _]]. eauto.
  Qed.
  Lemma int_param_total d k iss : (forall x, aget dkey_eqb (KStr k) d = Some x -> x = VNone \/ (exists t, x = VStr t) \/ exists z, x = VInt z) ->
    exists d' iss', int_param d k iss = Ok (d', iss') /\ (d' = d \/ exists z, d' = qset d k (VInt z)).
  Proof.
    intros H. unfold int_param. unfold qget. destruct (aget dkey_eqb (KStr k) d) as [x|]; [|eexists _, _; split; [reflexivity | auto]].
    destruct (H x eq_refl) as [->|[[t ->]|[z ->]]]; [eexists _, _; split; [reflexivity | auto]| |eexists _, _; split; [reflexivity | eauto]].
    cbn [py_int]. destruct (parse_int t); eexists _, _; (split; [reflexivity | eauto]).
  Qed.
  Lemma filter_value t v iss : parse_filter t = Ok (v, iss) -> forall l, v <> VList l.
  Proof. unfold parse_filter. destruct (parse_filter_core t) as [[o [|e es]]|e]; cbn; intros H l; try discriminate H; injection H as <- _; discriminate. Qed.
  Lemma sorting_value d : forall l, fst (request_sorting d) <> VList l.
  Proof. intros l. unfold request_sorting. destruct (qget d _ _); try discriminate. unfold parse_sorter. destruct (parse_rep s); discriminate. Qed.

  Lemma list_ends b h d : plain_query (VDict d) ->
    (exists rq iss, list_parse_request b h (VDict d) = Ok (rq, iss))
    \/ list_parse_request b h (VDict d) = Raise OverflowErr /\ exists t, entry (VDict d) ($"filter") (VStr t) /\ parse_filter t = Raise OverflowErr.
  Proof.
    intros [Ht Hn]. unfold list_parse_request.
    assert (F : (exists f j, request_filtering d = Ok (f, j) /\ forall l, f <> VList l)
                \/ request_filtering d = Raise OverflowErr /\ exists t, entry (VDict d) ($"filter") (VStr t) /\ parse_filter t = Raise OverflowErr).
    { unfold request_filtering, qget. destruct (aget dkey_eqb (KStr ($"filter")) d) as [x|] eqn:E; [|left; eexists _, _; split; [reflexivity | discriminate]].
      destruct x; try (left; eexists _, _; split; [reflexivity | discriminate]).
      destruct (C39_terminates_partial s) as [[v [j G]]|G]; [left | right].
      - eexists _, _. split; [exact G | exact (filter_value _ _ _ G)].
      - split; [exact G|]. exists s. split; [apply entry_iff; exact E | exact G]. }
    destruct F as [[f [j [-> Hf]]]|[-> G]]; [left | right; split; [reflexivity | exact G]]. cbn [bind].
    destruct (request_sorting (qset d ($"filter") f)) as [so j2] eqn:Es.
    assert (Hs : forall l, so <> VList l) by (intros l; change so with (fst (so, j2)); rewrite <- Es; apply sorting_value).
    pose proof (set_textual _ ($"sorter") so (set_textual d ($"filter") f Ht Hf) Hs) as Hq.
    destruct (requested_total _ Hq) as [c [j3 ->]]. cbn [bind].
    set (q3 := if has_issues j3 [] then _ else _).
    assert (Hg : forall k x, In k [$"count"; $"startIndex"] -> aget dkey_eqb (KStr k) q3 = Some x -> x = VNone \/ (exists t, x = VStr t) \/ exists z, x = VInt z).
    { intros k x Hk Hx. apply (Hn k x Hk). apply entry_iff. rewrite <- Hx. unfold q3.
      destruct (has_issues j3 []); rewrite !dset; destruct Hk as [<-|[<-|[]]]; reflexivity. }
    clearbody q3.
    match goal with |- context[int_param q3 ?k ?i] => destruct (int_param_total q3 k i) as [q4 [j4 [-> H4]]]; [intros x; apply Hg; left; reflexivity|] end. cbn [bind].
    match goal with |- context[int_param q4 ?k ?i] => destruct (int_param_total q4 k i) as [q5 [j5 [-> H5]]] end; [|eexists _, _; reflexivity].
    intros x Hx. apply (Hg ($"startIndex") x); [right; left; reflexivity|]. rewrite <- Hx. destruct H4 as [->|[z ->]]; [reflexivity|]. rewrite dset. reflexivity.
  Qed.

  (** ** Search requests *)

  Lemma filter_ends v : tame v -> (exists o, process s_filter MParse v = Ok o) \/ process s_filter MParse v = Raise OverflowErr /\ exists t, v = VStr t /\ parse_filter t = Raise OverflowErr.
  Proof.
    intros Hv. destruct v; try (left; eexists; reflexivity).
    rewrite process_filter. destruct (C39_terminates_partial s) as [[v [j ->]]|E]; [left; eexists; reflexivity | right]. rewrite E. split; [reflexivity|]. exists s. split; [reflexivity | exact E].
  Qed.
  Lemma names_calm n : calm_attr (s_names n).
  Proof.
    unfold s_names, mk_simple. cbn [bound_attr]. constructor; [right | left; reflexivity]. eexists. split; [reflexivity|].
    intros v [l [-> Hl]]. unfold parse_attr_rep_multi. cbn [iter_value bind].
    assert (T : exists names, l = map VStr names).
    { clear - Hl. induction Hl as [|x t [y ->] _ [names ->]]; [exists []; reflexivity | exists (y :: names); reflexivity]. }
    destruct T as [names ->]. destruct (names_loop names 0 [] no_issues report_empty) as [js [J _]]. unfold enumerate. rewrite J. eexists. reflexivity.
  Qed.
  Lemma sort_calm : calm_attr s_sort.
  Proof.
    unfold s_sort, mk_simple. cbn [bound_attr]. constructor; [right | left; reflexivity]. eexists. split; [reflexivity|].
    intros v [t ->]. cbn [parse_attr_rep]. destruct (parse_rep t); eexists; reflexivity.
  Qed.
  Lemma others_calm a : In a (at_top (sc_attrs search_schema)) -> a = s_filter \/ calm_attr a.
  Proof.
    rewrite search_tops. intros Ha.
    assert (P : forall i, a_parsers i = [] -> a_dumpers i = [] -> calm_attr (MkAttr i None)) by (intros i E1 E2; constructor; left; assumption).
    destruct Ha as [<-|[<-|[<-|[<-|[<-|[<-|[<-|[<-|[]]]]]]]]]; auto using names_calm, sort_calm; right; apply P; reflexivity.
  Qed.
  Lemma gather_ends c l : Forall (fun a => exists x, get_item c (arep a) = Ok x /\ (x = VMissing \/ (exists o, process a MParse x = Ok o) \/ process a MParse x = Raise OverflowErr /\ a = s_filter /\ exists t, x = VStr t /\ parse_filter t = Raise OverflowErr)) l ->
    (exists outs, gather_top MParse c l = Ok outs)
    \/ gather_top MParse c l = Raise OverflowErr /\ exists t, get_item c (arep s_filter) = Ok (VStr t) /\ parse_filter t = Raise OverflowErr.
  Proof.
    induction 1 as [|a t [x [Hx Hc]] Ht IH]; cbn [gather_top]; [left; eexists; reflexivity|]. rewrite Hx. cbn [bind]. destruct Hc as [->|[[o E]|[E [-> [s [-> G]]]]]]; [exact IH| |].
    - assert (D : x = VMissing \/ x <> VMissing) by (destruct x; auto; right; discriminate). destruct D as [->|D]; [exact IH|].
      match goal with |- context[match x with VMissing => ?g | _ => _ end] => assert (M : forall r, match x with VMissing => g | _ => r end = r) by (intros r; destruct x; reflexivity || (contradiction D; reflexivity)) end.
      rewrite M, E. cbn [bind]. destruct IH as [[outs ->]|[-> G]]; [left; eexists; reflexivity | right; split; [reflexivity | exact G]].
    - right. rewrite E. split; [reflexivity | eauto].
  Qed.

  Lemma body_ends doc : tame doc -> is_object doc -> well_placed search_schema (mk_cont doc) ->
    (exists y iss, base_parse MParse search_schema doc = Ok (y, iss))
    \/ base_parse MParse search_schema doc = Raise OverflowErr /\ exists t, get_item (mk_cont doc) (arep s_filter) = Ok (VStr t) /\ parse_filter t = Raise OverflowErr.
  Proof.
    intros Ht Ho Hp. assert (Hc : tame (mk_cont doc)) by (apply tame_mk_cont; exact Ht).
    destruct (gather_ends (mk_cont doc) (at_top (sc_attrs search_schema))) as [[outs G]|[G X]].
    - apply Forall_forall. intros a Ha. pose proof (made_wf _ search_made) as Hw. destruct (get_top_total search_schema (mk_cont doc) a Hw Hc (mk_cont_is_cont _) Hp Ha) as [x [Hx [->|Tx]]]; exists x || exists VMissing; (split; [exact Hx|]); [auto|right].
      destruct (others_calm a Ha) as [->|Q]; [destruct (filter_ends x Tx) as [F|[F1 F2]]; auto|]. left. pose proof (ws_attrs _ Hw) as W2. rewrite Forall_forall in W2. exact (process_total a (proj1 (W2 a Ha)) Q MParse x Tx).
    - left. exact (parse_gathered search_schema MParse doc outs search_made Ho Hp G).
    - right. split; [exact (parse_stopped search_schema MParse doc _ search_made Ho G) | exact X].
  Qed.
  (** The container a document is parsed into can be read and written. *)
  Lemma parsed_index s m doc y iss : wf_schema s -> is_object doc -> base_parse m s doc = Ok (y, iss) ->
    exists d l, y = VCont d l /\ index_ok d l /\ ~ has_key y (sc_uri s).
  Proof.
    intros Hw Ho H. destruct (parsed_no_main s m doc y iss Hw Ho H) as [[d [l [E [Hi _]]]] N]. exists d, l. split; [exact E|]. split; [|exact N].
    destruct (parse_shape s m doc y iss Hw Ho H) as [outs [iss2 [Hg [Ey _]]]]. destruct (tops_fit s Hw) as [Hnd Hf].
    assert (Hfo : Forall (fun e => fits (map fst (sc_exts s)) (arep (fst e))) outs).
    { apply Forall_forall. intros [a o] Hin. rewrite Forall_forall in Hf. apply Hf. exact (proj1 (gather_top_In _ _ _ _ _ _ Hg Hin)). }
    destruct (put_tops_keys _ _ Hnd Hfo [] [] (shelf_empty _)) as [data [l2o [Ey' [K1 [K2 _]]]]]. change (VCont [] []) with empty_cont in Ey'. rewrite <- Ey, E in Ey'. injection Ey' as <- <-.
    intros lk k Hk. split; [exact (Hi _ _ Hk)|]. apply K2. destruct (K1 _ _ Hk) as [G|G]; [discriminate G | right; exact G].
  Qed.
  Lemma field_read d l n : index_ok d l -> ~ has_key (VCont d l) search_uri -> exists x, get_item (VCont d l) (search_rep n) = Ok x.
  Proof.
    intros Hi Nk. rewrite get_item_eq. cbn [search_rep r_schema r_attr r_sub].
    destruct (sget (lower search_uri) l) as [k|] eqn:E; [exfalso; apply Nk; exists k; exact E|].
    destruct (sget (lower n) l) as [k|] eqn:G; [|eexists; reflexivity]. destruct (Hi _ _ G) as [_ Hin]. apply sget_Some_key in Hin as [x Hx]. rewrite Hx. eexists. reflexivity.
  Qed.
  Lemma field_set d l n x : index_ok d l -> ~ has_key (VCont d l) search_uri -> lower search_uri <> lower n ->
    exists d' l', set_item (VCont d l) (simple_name n) x = Ok (VCont d' l') /\ index_ok d' l' /\ ~ has_key (VCont d' l') search_uri.
  Proof.
    intros Hi Nk Hn. cbn [set_item simple_name r_ext r_attr r_sub set_noext]. unfold set_plain. eexists _, _. split; [reflexivity|]. split; [apply index_ok_sset; exact Hi|].
    intros [k G]. cbn [has_key] in G. rewrite sget_sset_other in G by congruence. apply Nk. exists k. exact G.
  Qed.
  Lemma search_ends doc : tame doc -> (is_object doc -> well_placed search_schema (mk_cont doc)) ->
    (exists y iss, search_parse doc = Ok (y, iss))
    \/ search_parse doc = Raise OverflowErr /\ exists t, holds (mk_cont doc) ($"filter") (VStr t) /\ parse_filter t = Raise OverflowErr.
  Proof.
    intros Ht Hp.
    assert (D : is_object doc \/ ~ is_object doc) by (destruct doc; auto; left; exact I).
    destruct D as [Ho|Hn]; [|left; destruct doc; try (eexists _, _; reflexivity); exfalso; apply Hn; exact I]. specialize (Hp Ho).
    unfold search_parse. change (schema_parse search_schema doc) with (base_parse MParse search_schema doc).
    destruct (body_ends doc Ht Ho Hp) as [[y [js Hy]]|[Hy [t [G1 G2]]]].
    - left. rewrite Hy. cbn [bind]. destruct (negb (can_proceed js [])); [eexists _, _; reflexivity|].
      destruct (parsed_index search_schema MParse doc y js (made_wf _ search_made) Ho Hy) as [d [l [-> [Hi Nk]]]]. change (sc_uri search_schema) with search_uri in Nk.
      assert (A : exists d2 l2 i2, (if can_proceed js [[LStr ($"attributes")]; [LStr ($"excludeAttributes")]] then search_attrs (VCont d l) js else Ok (VCont d l, js)) = Ok (VCont d2 l2, i2) /\ index_ok d2 l2 /\ ~ has_key (VCont d2 l2) search_uri).
      { destruct (can_proceed _ _); [|exists d, l, js; auto]. unfold search_attrs. destruct (field_read d l ($"attributes") Hi Nk) as [inc ->]. destruct (field_read d l ($"excludeAttributes") Hi Nk) as [exc ->]. cbn [bind].
        cbn zeta. destruct (truthy inc); [|eexists _, _, _; split; [reflexivity | auto]].
        match goal with |- context[set_item (VCont d l) (simple_name ?n) ?x] => destruct (field_set d l n x Hi Nk ltac:(vm_compute; discriminate)) as [d2 [l2 [-> W]]] end. cbn [bind]. eexists _, _, _. split; [reflexivity | exact W]. }
      destruct A as [d2 [l2 [i2 [-> [Hi2 Nk2]]]]]. cbn [bind]. destruct (can_proceed i2 _); [|eexists _, _; reflexivity].
      unfold search_sorter. destruct (field_read d2 l2 ($"sortBy") Hi2 Nk2) as [b ->]. cbn [bind]. destruct b; try (eexists _, _; reflexivity).
    - right. rewrite Hy. split; [reflexivity|]. exists t. split; [|exact G2].
      pose proof (message_regular search_schema doc search_made eq_refl (conj Ho (proj1 Hp))) as Rg.
      apply (proj1 (read_doc search_schema (mk_cont doc) s_filter (VStr t) (made_wf _ search_made) Rg ltac:(apply search_in; right; right; left; reflexivity) ltac:(discriminate))) in G1. exact G1.
  Qed.
End Env.
