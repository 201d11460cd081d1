(** Property C63: search requests. *)
From Coq Require Import Lia.
From Verif Require Import PyBase BaseFacts PyNum Issues IssuesSpec IssuesFacts AttrRep AttrRepSpec Value Container ContainerSpec ContainerFacts ContainerRW ValueFacts
  Types Attr AttrSpec AttrFacts Schema Presence Match FilterParse Sort Patch Search Requests
  FilterSpec SchemaSpec SchemaFacts SchemaBuild PropSchema PatchFacts RequestSpec RequestFacts MsgFacts BodyFacts ListSpec ListFacts PropAttr PropPresence PropRequest ListReqSpec PropListReq SearchSpec.

Section Env.
  Context {env : PyEnv}.

  Definition s_names (n : str) : attribute := bound_attr (search_rep n) (mk_simple (with_procs [parse_attr_rep_multi] [] (with_multi (plain n TString)))).
  Definition s_filter : attribute := bound_attr (search_rep ($"filter")) (mk_simple (with_procs [filter_parser] [] (plain ($"filter") TString))).
  Definition s_sort : attribute := bound_attr (search_rep ($"sortBy")) (mk_simple (with_procs [parse_attr_rep] [] (plain ($"sortBy") TString))).
  Definition s_order : attribute := bound_attr (search_rep ($"sortOrder")) (mk_simple (with_canon false [LitStr ($"ascending"); LitStr ($"descending")] (plain ($"sortOrder") TString))).
  Definition s_number (n : str) : attribute := bound_attr (search_rep n) (mk_simple (plain n TInteger)).
  Lemma search_tops : at_top (sc_attrs search_schema) = [bound_attr (search_rep ($"schemas")) schemas_attr; s_names ($"attributes"); s_names ($"excludeAttributes"); s_filter; s_sort; s_order; s_number ($"startIndex"); s_number ($"count")].
  Proof. reflexivity. Qed.

  Lemma process_filter t : process s_filter MParse (VStr t) = let! (v, js) := parse_filter t in Ok (v, merge no_issues js []).
  Proof. unfold s_filter, mk_simple. cbn [bound_attr process]. unfold base_process. simpl. unfold run_procs. cbn [foldM fst filter_parser]. destruct (parse_filter t) as [[v js]|]; reflexivity. Qed.
  Lemma process_sort t : process s_sort MParse (VStr t) = Ok (match parse_rep t with Some r => (VRep r, no_issues) | None => (VInvalid, add_issue no_issues (e_bad_attr_name t) false []) end).
  Proof. unfold s_sort, mk_simple. cbn [bound_attr process]. unfold base_process. simpl. unfold run_procs. cbn [foldM fst parse_attr_rep]. destruct (parse_rep t); reflexivity. Qed.

  Lemma string_items i l : a_type i = TString -> a_canon i = None -> forall k acc, foldM (item_step MParse i) (enum_from k (map VStr l)) (acc, no_issues) = Ok (acc ++ map VStr l, no_issues).
  Proof.
    intros Ht Hc. induction l as [|x l IH]; intros k acc; cbn [map enum_from foldM]; [rewrite app_nil_r; reflexivity|].
    assert (E : item_step MParse i (acc, no_issues) (k, VStr x) = Ok (acc ++ [VStr x], no_issues)).
    { unfold item_step. cbn [fst snd]. rewrite Ht. unfold type_proc. cbn. unfold canon_step, is_canonical. rewrite Hc. reflexivity. }
    rewrite E. cbn [bind]. rewrite IH, <- app_assoc. reflexivity.
  Qed.
  Definition read_name (n : str) : value := match parse_rep n with Some r => VRep r | None => VInvalid end.
  Definition bad_index (k : nat) (names : list str) (e : error) (p : loc) : Prop := exists i n, nth_error names i = Some n /\ ~ valid_name n /\ p = [LIdx (k + i)] /\ e = e_bad_attr_name n.
  Lemma names_loop names : forall k acc iss, report iss ->
    exists iss', foldM (fun st e => let! (x, iss) := parse_attr_rep (snd e) in Ok (fst st ++ [x], merge (snd st) iss [LIdx (fst e)])) (enum_from k (map VStr names)) (acc, iss) = Ok (acc ++ map read_name names, iss')
    /\ report iss' /\ forall e p, In e (errs_at iss' p) <-> In e (errs_at iss p) \/ bad_index k names e p.
  Proof.
    induction names as [|n t IH]; intros k acc iss R; cbn [map enum_from foldM].
    - exists iss. rewrite app_nil_r. split; [reflexivity|]. split; [exact R|]. intros e p. split; [auto|]. intros [G|[i [n [G _]]]]; [exact G | destruct i; discriminate G].
    - cbn [snd fst parse_attr_rep].
      assert (X : exists j, (match parse_rep n with Some r => Ok (pass (VRep r)) | None => Ok (fail (e_bad_attr_name n)) end) = Ok (read_name n, j) /\ report j /\ forall e p, In e (errs_at j p) <-> ~ valid_name n /\ p = [] /\ e = e_bad_attr_name n).
      { unfold read_name. destruct (parse_rep n) as [r|] eqn:E.
        - exists no_issues. split; [reflexivity|]. split; [constructor|]. intros e p. split; [intros []|]. intros [G _]. apply invalid_parse in G. congruence.
        - eexists. split; [reflexivity|]. split; [repeat constructor|]. intros e p. rewrite errs_at_add. change (errs_at no_issues p) with (@nil error). cbn [app]. apply invalid_parse in E.
          destruct (loc_dec [] p) as [<-|N]; [split; [intros [<-|[]]; auto | intros [_ [_ ->]]; left; reflexivity]|]. split; [intros [] | intros [_ [-> _]]; contradiction N; reflexivity]. }
      destruct X as [j [X1 [X2 X3]]]. rewrite X1. cbn [bind].
      destruct (IH (S k) (acc ++ [read_name n]) (merge iss j [LIdx k])) as [iss' [I1 [I2 I3]]]; [apply report_merge; assumption|].
      exists iss'. split; [rewrite I1, <- app_assoc; reflexivity|]. split; [exact I2|]. intros e p. rewrite I3, errs_merge by assumption. rewrite in_app_iff.
      assert (Y : In e (match loc_strip [LIdx k] p with Some l' => errs_at j l' | None => [] end) <-> ~ valid_name n /\ p = [LIdx k] /\ e = e_bad_attr_name n).
      { destruct (loc_strip [LIdx k] p) as [p'|] eqn:E; [apply loc_strip_spec in E as ->|].
        - rewrite X3. split; [intros [G1 [-> G2]]; auto|]. intros [G1 [G2 G3]]. cbn [app] in G2. injection G2 as ->. auto.
        - split; [intros []|]. intros [_ [-> _]]. exfalso. exact (proj1 (loc_strip_none _ _) E [] eq_refl). }
      rewrite Y. split.
      + intros [[G|[G1 [-> ->]]]|[i [n' [G1 [G2 [-> ->]]]]]]; [auto| |].
        * right. exists 0, n. rewrite Nat.add_0_r. auto.
        * right. exists (S i), n'. replace (k + S i) with (S k + i) by lia. auto.
      + intros [G|[[|i] [n' [G1 [G2 [-> ->]]]]]]; [auto| |].
        * injection G1 as <-. rewrite Nat.add_0_r. auto.
        * right. exists i, n'. replace (k + S i) with (S k + i) by lia. auto.
  Qed.
  Lemma process_names key names : exists js, process (s_names key) MParse (VList (map VStr names)) = Ok (VList (map read_name names), js) /\ report js /\ forall e p, In e (errs_at js p) <-> bad_index 0 names e p.
  Proof.
    unfold s_names, mk_simple. cbn [bound_attr process].
    match goal with |- context [base_process MParse ?i _] => set (i0 := i) end.
    assert (E : base_process MParse i0 (VList (map VStr names)) = run_procs [parse_attr_rep_multi] (VList (map VStr names)) no_issues).
    { unfold base_process. change (a_multi i0) with true. cbn [is_list andb negb]. unfold enumerate. rewrite string_items by reflexivity. cbn [bind app]. reflexivity. }
    rewrite E. unfold run_procs. cbn [foldM fst snd]. unfold parse_attr_rep_multi at 1. cbn [iter_value bind].
    destruct (names_loop names 0 [] no_issues) as [js [J1 [J2 J3]]]; [constructor|]. unfold enumerate. rewrite J1. cbn [bind app].
    exists (merge no_issues js []). split; [reflexivity|]. split; [apply report_merge; auto using report_empty|]. intros e p. rewrite errs_merge by auto using report_empty. cbn [loc_strip]. change (errs_at no_issues p) with (@nil error). cbn [app]. rewrite J3. cbn [errs_at]. split; [intros [[]|G]; exact G | auto].
  Qed.

  (** ** Writing to the parsed document *)

  Lemma plain_write d l u n x c : set_item (VCont d l) (simple_name n) x = Ok c -> idx l -> ~ has_key (VCont d l) u -> lower u <> lower n ->
    exists d' l', c = VCont d' l' /\ idx l' /\ ~ has_key c u /\ (forall y, holds c n y <-> y = x)
    /\ forall n', lower n' <> lower n -> (forall y, holds c n' y <-> holds (VCont d l) n' y) /\ get_item c (mkRep u n' [] false) = get_item (VCont d l) (mkRep u n' [] false).
  Proof.
    intros H Hi Hk Hu. cbn [set_item simple_name r_ext r_attr r_sub set_noext] in H. injection H as <-. unfold set_plain. eexists _, _. split; [reflexivity|].
    split; [apply idx_sset; exact Hi|]. split; [|split].
    - intros [k G]. cbn [has_key] in G. rewrite sget_sset_other in G by congruence. apply Hk. exists k. exact G.
    - intros y. split.
      + intros [a [b [k [E [G1 G2]]]]]. injection E as <- <-. rewrite sget_sset_same in G1. injection G1 as <-. rewrite sget_sset_same in G2. injection G2 as <-. reflexivity.
      + intros ->. eexists _, _, n. split; [reflexivity|]. rewrite !sget_sset_same. auto.
    - intros n' Hn. split.
      + intros y. split.
        * intros [a [b [k [E [G1 G2]]]]]. injection E as <- <-. rewrite sget_sset_other in G1 by congruence. rewrite sget_sset_other in G2; [exists d, l, k; auto|]. intros <-. apply Hi in G1. congruence.
        * intros [a [b [k [E [G1 G2]]]]]. injection E as <- <-. eexists _, _, k. split; [reflexivity|]. rewrite sget_sset_other by congruence. split; [exact G1|].
          rewrite sget_sset_other; [exact G2|]. intros <-. apply Hi in G1. congruence.
      + assert (F : set_item (VCont d l) (mkRep u n [] false) x = Ok (VCont (sset n x d) (sset (lower n) n l))) by reflexivity.
        exact (proj2 (field_write d l u n x _ Hi Hk Hu F) n' Hn).
  Qed.

  Lemma search_result doc w iss : message search_schema doc -> search_parse doc = Ok (w, iss) ->
    exists y js, base_parse MParse search_schema doc = Ok (y, js) /\ report js
    /\ (errs_at js [LStr ($"attributes")] = [] -> errs_at js [LStr ($"excludeAttributes")] = [] ->
        forall inc exc, get_item y (search_rep ($"attributes")) = Ok inc -> get_item y (search_rep ($"excludeAttributes")) = Ok exc ->
        (forall l, errs_at iss l = errs_at js l ++ if truthy inc && truthy exc then just [LStr ($"attributes")] [e_not_together ($"excludeAttributes")] l ++ just [LStr ($"excludeAttributes")] [e_not_together ($"attributes")] l else [])
        /\ (forall v, holds w ($"presence_checker") v <-> if truthy inc then v = VChecker (mkChecker (reps_of inc) (Some true) []) else holds y ($"presence_checker") v))
    /\ (errs_at js [LStr ($"sortBy")] = [] -> forall b, get_item y (search_rep ($"sortBy")) = Ok b ->
        forall v, holds w ($"sorter") v <-> match b with VRep r => v = VSorter (mkSorter r false) | _ => holds y ($"sorter") v end)
    /\ (forall l, l <> [LStr ($"attributes")] -> l <> [LStr ($"excludeAttributes")] -> errs_at iss l = errs_at js l)
    /\ (forall p, errs_at iss p = errs_at js p \/ In p [[LStr ($"attributes")]; [LStr ($"excludeAttributes")]] /\ forall k, In k [$"attributes"; $"excludeAttributes"] -> exists v, get_item y (search_rep k) = Ok v /\ truthy v = true)
    /\ forall n v, lower n <> lower ($"presence_checker") -> lower n <> lower ($"sorter") -> (holds w n v <-> holds y n v).
  Proof.
    intros Hd H. unfold search_parse in H. apply bind_ok in H as [[y js] [Hy H]]. change (base_parse MParse search_schema doc = Ok (y, js)) in Hy. exists y, js. split; [exact Hy|].
    assert (R : report js) by exact (schema_report _ _ _ _ _ (proj2 (made_sound _ search_made)) Hy). split; [exact R|].
    pose proof (message_clear search_schema MParse doc y js search_made eq_refl Hd Hy) as C0.
    destruct (parsed_no_main search_schema MParse doc y js (made_wf _ search_made) (proj1 Hd) Hy) as [[d [l [-> [Hi _]]]] Nk]. change (sc_uri search_schema) with search_uri in Nk.
    assert (P0 : can_proceed js [] = true).
    { apply clear_proceeds; [exact R|]. intros a [<-|[]] b [t Hb]. apply eq_sym, app_eq_nil in Hb as [-> _]. exact C0. }
    assert (P1 : forall i n, report i -> errs_at i [] = [] -> errs_at i [LStr n] = [] -> clear_above i [LStr n]).
    { intros i n Ri E0 E1 b [t Hb]. destruct b as [|x b]; [exact E0|]. injection Hb as <- Hb. apply eq_sym, app_eq_nil in Hb as [-> _]. exact E1. }
    rewrite P0 in H. cbn [negb] in H. apply bind_ok in H as [[y2 i2] [H2 H]].
    (* the lists *)
    assert (A : report i2 /\ (exists d2 l2, y2 = VCont d2 l2 /\ idx l2) /\ ~ has_key y2 search_uri
      /\ (errs_at js [LStr ($"attributes")] = [] -> errs_at js [LStr ($"excludeAttributes")] = [] ->
        forall inc exc, get_item (VCont d l) (search_rep ($"attributes")) = Ok inc -> get_item (VCont d l) (search_rep ($"excludeAttributes")) = Ok exc ->
        (forall p, errs_at i2 p = errs_at js p ++ if truthy inc && truthy exc then just [LStr ($"attributes")] [e_not_together ($"excludeAttributes")] p ++ just [LStr ($"excludeAttributes")] [e_not_together ($"attributes")] p else [])
        /\ (forall v, holds y2 ($"presence_checker") v <-> if truthy inc then v = VChecker (mkChecker (reps_of inc) (Some true) []) else holds (VCont d l) ($"presence_checker") v))
      /\ (forall p, p <> [LStr ($"attributes")] -> p <> [LStr ($"excludeAttributes")] -> errs_at i2 p = errs_at js p)
      /\ (forall p, errs_at i2 p = errs_at js p \/ In p [[LStr ($"attributes")]; [LStr ($"excludeAttributes")]] /\ forall k, In k [$"attributes"; $"excludeAttributes"] -> exists v, get_item (VCont d l) (search_rep k) = Ok v /\ truthy v = true)
      /\ forall n, lower n <> lower ($"presence_checker") -> (forall v, holds y2 n v <-> holds (VCont d l) n v) /\ get_item y2 (search_rep n) = get_item (VCont d l) (search_rep n)).
    { assert (Same : i2 = js -> y2 = VCont d l -> forall Q : Prop, Q -> report i2 /\ (exists d2 l2, y2 = VCont d2 l2 /\ idx l2) /\ ~ has_key y2 search_uri /\ Q
        /\ (forall p, p <> [LStr ($"attributes")] -> p <> [LStr ($"excludeAttributes")] -> errs_at i2 p = errs_at js p)
        /\ (forall p, errs_at i2 p = errs_at js p \/ In p [[LStr ($"attributes")]; [LStr ($"excludeAttributes")]] /\ forall k, In k [$"attributes"; $"excludeAttributes"] -> exists v, get_item (VCont d l) (search_rep k) = Ok v /\ truthy v = true)
        /\ forall n, lower n <> lower ($"presence_checker") -> (forall v, holds y2 n v <-> holds (VCont d l) n v) /\ get_item y2 (search_rep n) = get_item (VCont d l) (search_rep n)).
      { intros -> -> Q HQ. split; [exact R|]. split; [eauto|]. split; [exact Nk|]. split; [exact HQ|]. split; [reflexivity|]. split; [auto|]. intros n _. split; [tauto | reflexivity]. }
      match type of H2 with context[can_proceed ?a ?b] => destruct (can_proceed a b) eqn:P end.
      2:{ injection H2 as <- <-. apply Same; [reflexivity | reflexivity|]. intros E1 E2. exfalso. rewrite clear_proceeds in P; [discriminate P | exact R|].
          intros a [<-|[<-|[]]]; apply P1; assumption. }
      unfold search_attrs in H2. apply bind_ok in H2 as [inc [Hinc H2]]. apply bind_ok in H2 as [exc [Hexc H2]]. cbn zeta in H2.
      set (i3 := if truthy inc && truthy exc then _ else js) in H2.
      assert (E3 : forall p, errs_at i3 p = errs_at js p ++ if truthy inc && truthy exc then just [LStr ($"attributes")] [e_not_together ($"excludeAttributes")] p ++ just [LStr ($"excludeAttributes")] [e_not_together ($"attributes")] p else []).
      { intros p. unfold i3. destruct (_ && _); [|rewrite app_nil_r; reflexivity]. rewrite !errs_at_add, <- app_assoc. reflexivity. }
      assert (R3 : report i3) by (unfold i3; destruct (_ && _); [do 2 apply report_add|]; exact R).
      assert (F3 : forall p, p <> [LStr ($"attributes")] -> p <> [LStr ($"excludeAttributes")] -> errs_at i3 p = errs_at js p).
      { intros p N1 N2. rewrite E3. unfold just. destruct (loc_dec _ p); [congruence|]. destruct (loc_dec _ p); [congruence|]. destruct (_ && _); apply app_nil_r. }
      assert (F4 : (forall p, errs_at i3 p = errs_at js p \/ In p [[LStr ($"attributes")]; [LStr ($"excludeAttributes")]] /\ forall k, In k [$"attributes"; $"excludeAttributes"] -> exists v, get_item (VCont d l) (search_rep k) = Ok v /\ truthy v = true)).
      { intros p. rewrite E3. destruct (truthy inc && truthy exc) eqn:Tb; [|left; apply app_nil_r]. apply andb_prop in Tb as [Tb1 Tb2]. unfold just.
        assert (U : forall k, In k [$"attributes"; $"excludeAttributes"] -> exists v, get_item (VCont d l) (search_rep k) = Ok v /\ truthy v = true) by (intros k [<-|[<-|[]]]; eauto).
        destruct (loc_dec _ p) as [<-|]; [right; split; [left; reflexivity | exact U]|]. destruct (loc_dec _ p) as [<-|]; [right; split; [right; left; reflexivity | exact U]|]. left. apply app_nil_r. }
      clearbody i3. destruct (truthy inc) eqn:Ti.
      - apply bind_ok in H2 as [y3 [H3 H2]]. injection H2 as <- <-.
        destruct (plain_write d l search_uri _ _ _ H3 Hi Nk ltac:(vm_compute; discriminate)) as [d2 [l2 [W1 [W2 [W3 [W4 W5]]]]]].
        split; [exact R3|]. split; [eauto|]. split; [exact W3|]. split; [|split; [exact F3|split; [exact F4|]]].
        + intros _ _ inc' exc' G1 G2. rewrite Hinc in G1. injection G1 as <-. rewrite Hexc in G2. injection G2 as <-. rewrite Ti. split; [exact E3 | exact W4].
        + intros n Hn. exact (W5 n Hn).
      - injection H2 as <- <-. split; [exact R3|]. split; [eauto|]. split; [exact Nk|]. split; [|split; [exact F3|split; [exact F4|]]].
        + intros _ _ inc' exc' G1 G2. rewrite Hinc in G1. injection G1 as <-. rewrite Hexc in G2. injection G2 as <-. rewrite Ti. split; [exact E3 | tauto].
        + intros n Hn. split; [tauto | reflexivity]. }
    clear H2. destruct A as [R2 [[d2 [l2 [-> Hi2]]] [Nk2 [A1 [A2 [A2' A3]]]]]].
    (* the sorter *)
    assert (B : iss = i2 /\ (errs_at js [LStr ($"sortBy")] = [] -> forall b, get_item (VCont d l) (search_rep ($"sortBy")) = Ok b ->
        forall v, holds w ($"sorter") v <-> match b with VRep r => v = VSorter (mkSorter r false) | _ => holds (VCont d l) ($"sorter") v end)
      /\ forall n, lower n <> lower ($"sorter") -> forall v, holds w n v <-> holds (VCont d2 l2) n v).
    { match type of H with context[can_proceed ?a ?b] => destruct (can_proceed a b) eqn:P end.
      2:{ injection H as <- <-. split; [reflexivity|]. split; [|tauto]. intros E. exfalso. rewrite clear_proceeds in P; [discriminate P | exact R2|].
          intros a [<-|[]]. apply P1; [exact R2| |]; (rewrite A2; [assumption | discriminate..]). }
      unfold search_sorter in H. apply bind_ok in H as [b [Hb H]].
      assert (A4 : forall v, holds (VCont d2 l2) ($"sorter") v <-> holds (VCont d l) ($"sorter") v) by (apply A3; vm_compute; discriminate).
      assert (A5 : get_item (VCont d l) (search_rep ($"sortBy")) = Ok b) by (rewrite <- Hb; symmetry; apply A3; vm_compute; discriminate).
      destruct b; try (injection H as <- <-; split; [reflexivity|]; split; [|tauto]; intros _ b' G; rewrite A5 in G; injection G as <-; exact A4).
      apply bind_ok in H as [y3 [H3 H]]. injection H as <- <-.
      destruct (plain_write d2 l2 search_uri _ _ _ H3 Hi2 Nk2 ltac:(vm_compute; discriminate)) as [d3 [l3 [W1 [W2 [W3 [W4 W5]]]]]].
      split; [reflexivity|]. split; [|intros n Hn; apply W5; exact Hn]. intros _ b' G. rewrite A5 in G. injection G as <-. exact W4. }
    destruct B as [-> [B1 B2]]. split; [|split; [exact B1 | split; [exact A2 | split; [exact A2'|]]]].
    - intros E1 E2 inc exc G1 G2. destruct (A1 E1 E2 inc exc G1 G2) as [K1 K2]. split; [exact K1|]. intros v. rewrite B2 by (vm_compute; discriminate). apply K2.
    - intros n v N1 N2. rewrite B2 by exact N2. apply A3. exact N1.
  Qed.

  (** ** The fields *)

  Lemma search_in a : In a [s_names ($"attributes"); s_names ($"excludeAttributes"); s_filter; s_sort; s_order; s_number ($"startIndex"); s_number ($"count")] -> In a (at_top (sc_attrs search_schema)).
  Proof. intros H. rewrite search_tops. right. exact H. Qed.

  Lemma search_undeclared doc y js n v : message search_schema doc -> base_parse MParse search_schema doc = Ok (y, js) ->
    ~ In (lower n) (map lower [$"schemas"; $"attributes"; $"excludeAttributes"; $"filter"; $"sortBy"; $"sortOrder"; $"startIndex"; $"count"]) -> ~ holds y n v.
  Proof.
    intros Hd Hy Nn [a [b [k [E [G1 G2]]]]].
    destruct (parsed_no_main search_schema MParse doc y js (made_wf _ search_made) (proj1 Hd) Hy) as [[d [l [Ey [Hi _]]]] _].
    destruct (C25_known_only_partial search_schema MParse doc y js search_made (proj1 Hd) (message_regular search_schema doc search_made eq_refl Hd) Hy) as [_ [_ [[d' [l' [Ey' D]]] _]]].
    rewrite Ey in E, Ey'. injection E as <- <-. injection Ey' as <- <-. apply Hi in G1.
    assert (X : exists t, In t (at_top (sc_attrs search_schema)) /\ (k = r_attr (arep t) \/ r_ext (arep t) = true)).
    { destruct (D k v G2) as [[t [T1 [_ [T2 _]]]]|[d2 [l2 [-> [Nd T]]]]]; [exists t; auto|]. destruct d2 as [|[n2 v2] d2]; [contradiction|].
      destruct (T n2 v2) as [t [T1 [T2 _]]]; [unfold sget; cbn [aget]; rewrite (proj2 (str_eqb_eq n2 n2) eq_refl); reflexivity|]. exists t. auto. }
    destruct X as [t [T1 T2]]. destruct (made_no_ext search_schema search_made eq_refl t T1) as [T3 _]. destruct T2 as [T2|T2]; [|congruence]. subst k. apply Nn. rewrite <- G1.
    assert (M : In (lower (r_attr (arep t))) (map (fun a => lower (r_attr (arep a))) (at_top (sc_attrs search_schema)))) by (apply in_map_iff; eauto).
    exact M.
  Qed.

  Lemma names_truthy names : truthy (VList (map read_name names)) = true <-> names <> [].
  Proof. destruct names; cbn; split; congruence. Qed.
  Lemma names_reps names : Forall valid_name names -> Forall2 reads_as names (reps_of (VList (map read_name names))).
  Proof.
    induction 1 as [|n t Hn _ IH]; cbn [reps_of map flat_map]; [constructor|]. unfold read_name at 1. destruct (parse_rep n) as [r|] eqn:E; [|apply invalid_parse in E; contradiction].
    cbn [app]. constructor; [apply reads_parse; exact E | exact IH].
  Qed.

  Lemma lists_field doc y js key names : message search_schema doc -> base_parse MParse search_schema doc = Ok (y, js) -> key = $"attributes" \/ key = $"excludeAttributes" -> lists (mk_cont doc) key names ->
    exists v, get_item y (search_rep key) = Ok v /\ (truthy v = true <-> names <> []) /\ (names <> [] -> v = VList (map read_name names))
    /\ forall e p, In e (errs_at js (LStr key :: p)) <-> bad_index 0 names e p.
  Proof.
    intros Hd Hy Hk L. assert (Ha : In (s_names key) (at_top (sc_attrs search_schema))) by (apply search_in; destruct Hk as [->| ->]; [left | right; left]; reflexivity).
    assert (Ns : r_attr (arep (s_names key)) <> $"schemas") by (destruct Hk as [->| ->]; discriminate).
    destruct L as [L|[L ->]].
    - destruct (process_names key names) as [k [K1 [K2 K3]]].
      destruct (message_field search_schema MParse doc y js search_made eq_refl Hd Hy (s_names key) _ _ k Ha Ns L ltac:(discriminate) K1 ltac:(discriminate)) as [F1 F2].
      exists (VList (map read_name names)). split; [exact F1|]. split; [apply names_truthy|]. split; [reflexivity|]. intros e p. change (LStr key) with (LStr (r_attr (arep (s_names key)))). rewrite F2. apply K3.
    - destruct (message_absent search_schema MParse doc y js search_made eq_refl Hd Hy (s_names key) Ha Ns) as [F1 F2].
      { intros x [d [l [k [E [G _]]]]]. exfalso. apply L. change (r_attr (arep (s_names key))) with key in G. rewrite E. exists k. exact G. }
      exists VMissing. split; [exact F1|]. split; [split; [discriminate | contradiction]|]. split; [contradiction|]. intros e p. change (LStr key) with (LStr (r_attr (arep (s_names key)))). rewrite F2.
      split; [intros [] | intros [i [n [G _]]]; destruct i; discriminate G].
  Qed.

  Lemma search_request doc h q rq iss : search_parse_request doc h q = Ok (rq, iss) ->
    exists w js, search_parse doc = Ok (w, js) /\ (forall p, errs_at iss (at_body p) = errs_at js p) /\ (~ reported iss -> rq_body rq = w) /\ rq_headers rq = h /\ rq_query rq = q
    /\ forall p, errs_at iss p <> [] -> exists p', p = at_body p'.
  Proof.
    intros H. unfold search_parse_request in H. apply bind_ok in H as [[w js] [Hw H]]. injection H as <- <-. cbn [rq_body rq_headers rq_query]. exists w, js. split; [exact Hw|].
    destruct (search_parse_report _ _ _ Hw) as [T N]. pose proof (proj1 T) as W.
    assert (E : forall p, errs_at (merge no_issues js body_loc) p = match loc_strip body_loc p with Some p' => errs_at js p' | None => [] end).
    { intros p. rewrite errs_merge_wf by (auto using wf_no_issues). destruct (loc_strip body_loc p); reflexivity. }
    assert (E2 : forall p, errs_at (merge no_issues js body_loc) (at_body p) = errs_at js p).
    { intros p. rewrite E. change (at_body p) with (body_loc ++ p). rewrite loc_strip_app. reflexivity. }
    split; [exact E2|]. split; [|split; [reflexivity|split; [reflexivity|]]].
    - intros NR. unfold keep_body. destruct (has_issues js []) eqn:HI; [|reflexivity]. apply has_issues_wf in HI as [p Hp]; [|exact W]. exfalso. apply NR. exists (at_body p). rewrite E2. exact Hp.
    - intros p. rewrite E. destruct (loc_strip body_loc p) as [p'|] eqn:Ep; [|intros []; reflexivity]. apply loc_strip_spec in Ep. intros _. exists p'. exact Ep.
  Qed.

  (** ** The theorems *)

  (** The lists of names: every bad name is reported at its place; both lists at
      once are reported; and nothing else. *)
  Theorem C63_names : forall doc h q rq iss key other inc names others, search_parse_request doc h q = Ok (rq, iss) -> message search_schema doc ->
    chooses key other inc -> lists (mk_cont doc) key names -> lists (mk_cont doc) other others ->
    forall e p, In e (errs_at iss (at_body (LStr key :: p))) <->
      (exists i n, nth_error names i = Some n /\ ~ valid_name n /\ p = [LIdx i] /\ e = e_bad_attr_name n)
      \/ p = [] /\ e = e_not_together other /\ names <> [] /\ others <> [].
  Proof.
    intros doc h q rq iss key other inc names others H Hd C L1 L2 e p. destruct (search_request _ _ _ _ _ H) as [w [js' [Hw [E _]]]]. rewrite E. clear E.
    destruct (search_result _ _ _ Hd Hw) as [y [js [Hy [R [A _]]]]].
    assert (Ks : (key = $"attributes" \/ key = $"excludeAttributes") /\ (other = $"attributes" \/ other = $"excludeAttributes")) by (destruct C; auto). destruct Ks as [Kk Ko].
    destruct (lists_field _ _ _ _ _ Hd Hy Kk L1) as [v1 [V1 [T1 [_ F1]]]]. destruct (lists_field _ _ _ _ _ Hd Hy Ko L2) as [v2 [V2 [T2 [_ F2]]]].
    assert (Z : forall k names0, (forall e p, In e (errs_at js (LStr k :: p)) <-> bad_index 0 names0 e p) -> errs_at js [LStr k] = []).
    { intros k names0 F. destruct (errs_at js [LStr k]) as [|x t] eqn:G; [reflexivity|]. exfalso. assert (I : In x (errs_at js [LStr k])) by (rewrite G; left; reflexivity). apply F in I as [i [n [_ [_ [I _]]]]]. discriminate I. }
    assert (T : truthy v1 && truthy v2 = true <-> names <> [] /\ others <> []) by (rewrite andb_true_iff, T1, T2; reflexivity).
    assert (G : In e (errs_at js' (LStr key :: p)) <-> In e (errs_at js (LStr key :: p)) \/ p = [] /\ e = e_not_together other /\ truthy v1 && truthy v2 = true).
    { destruct C.
      - destruct (A (Z _ _ F1) (Z _ _ F2) v1 v2 V1 V2) as [A1 _]. rewrite A1, in_app_iff. destruct (truthy v1 && truthy v2).
        + rewrite in_app_iff. unfold just. destruct (loc_dec _ _) as [D|D]; destruct (loc_dec _ _) as [D2|D2].
          * rewrite <- D in D2. discriminate D2.
          * injection D as <-. cbn [In]. intuition congruence.
          * discriminate D2.
          * split; [intros [X|[[]|[]]]; auto | intros [X|[-> _]]; [auto | contradiction D; reflexivity]].
        + split; [intros [X|[]]; auto | intros [X|[_ [_ X]]]; [auto | discriminate X]].
      - destruct (A (Z _ _ F2) (Z _ _ F1) v2 v1 V2 V1) as [A1 _]. rewrite A1, in_app_iff, (andb_comm (truthy v2)). destruct (truthy v1 && truthy v2).
        + rewrite in_app_iff. unfold just. destruct (loc_dec _ _) as [D|D]; destruct (loc_dec _ _) as [D2|D2].
          * rewrite <- D in D2. discriminate D2.
          * discriminate D.
          * injection D2 as <-. cbn [In]. intuition congruence.
          * split; [intros [X|[[]|[]]]; auto | intros [X|[-> _]]; [auto | contradiction D2; reflexivity]].
        + split; [intros [X|[]]; auto | intros [X|[_ [_ X]]]; [auto | discriminate X]]. }
    rewrite G, F1, T. unfold bad_index. cbn [Nat.add]. tauto.
  Qed.

  (** Accepted lists of names to return are kept for the response; without them
      nothing is kept. *)
  Theorem C63_selection : forall doc h q rq iss names others, search_parse_request doc h q = Ok (rq, iss) -> message search_schema doc -> ~ reported iss ->
    lists (mk_cont doc) ($"attributes") names -> lists (mk_cont doc) ($"excludeAttributes") others ->
    (names <> [] -> others = [] /\ exists reps, Forall2 reads_as names reps /\ forall v, holds (rq_body rq) ($"presence_checker") v <-> v = VChecker (mkChecker reps (Some true) []))
    /\ (names = [] -> forall v, ~ holds (rq_body rq) ($"presence_checker") v).
  Proof.
    intros doc h q rq iss names others H Hd NR L1 L2.
    assert (C1 : forall e p, ~ In e (errs_at iss (at_body (LStr ($"attributes") :: p)))) by (intros e p G; apply NR; eexists; intros Z; rewrite Z in G; exact G).
    pose proof (C63_names _ _ _ _ _ _ _ _ _ _ H Hd chooses_in L1 L2) as N.
    destruct (search_request _ _ _ _ _ H) as [w [js' [Hw [E [K _]]]]]. rewrite (K NR). clear K.
    destruct (search_result _ _ _ Hd Hw) as [y [js [Hy [R [A [_ [O _]]]]]]].
    destruct (lists_field _ _ _ _ _ Hd Hy (or_introl eq_refl) L1) as [v1 [V1 [T1 [W1 F1]]]]. destruct (lists_field _ _ _ _ _ Hd Hy (or_intror eq_refl) L2) as [v2 [V2 [T2 [_ F2]]]].
    assert (Z : forall k names0, (forall e p, In e (errs_at js (LStr k :: p)) <-> bad_index 0 names0 e p) -> errs_at js [LStr k] = []).
    { intros k names0 F. destruct (errs_at js [LStr k]) as [|x t] eqn:G; [reflexivity|]. exfalso. assert (I : In x (errs_at js [LStr k])) by (rewrite G; left; reflexivity). apply F in I as [i [n [_ [_ [I _]]]]]. discriminate I. }
    destruct (A (Z _ _ F1) (Z _ _ F2) v1 v2 V1 V2) as [_ A2]. split.
    - intros Nn. split.
      + destruct others as [|o t]; [reflexivity|]. exfalso. apply (C1 (e_not_together ($"excludeAttributes")) []). apply N. right. split; [reflexivity|]. split; [reflexivity|]. split; [exact Nn | discriminate].
      + exists (reps_of v1). rewrite (proj2 T1 Nn) in A2. split; [|exact A2]. rewrite (W1 Nn). apply names_reps. apply Forall_forall. intros n Hn. apply In_nth_error in Hn as [i Hi].
        destruct (parse_rep n) as [r|] eqn:Er; [apply reads_parse in Er as [segs [Er _]]; exists segs, (r_attr r), (r_sub r); exact Er|]. apply invalid_parse in Er.
        exfalso. apply (C1 (e_bad_attr_name n) [LIdx i]). apply N. left. exists i, n. auto.
    - intros -> v G. destruct (truthy v1) eqn:Tv; [apply (proj1 T1 eq_refl); reflexivity|]. apply A2 in G. revert G. apply (search_undeclared _ _ _ _ _ Hd Hy). vm_compute. intuition discriminate.
  Qed.

  Lemma one_field doc h q rq iss a x v k : search_parse_request doc h q = Ok (rq, iss) -> message search_schema doc ->
    In a [s_filter; s_sort; s_order; s_number ($"startIndex"); s_number ($"count")] -> holds (mk_cont doc) (r_attr (arep a)) x -> x <> VMissing -> process a MParse x = Ok (v, k) -> v <> VMissing ->
    (forall p, errs_at iss (at_body (LStr (r_attr (arep a)) :: p)) = errs_at k p) /\ (~ reported iss -> forall w, holds (rq_body rq) (r_attr (arep a)) w <-> w = v).
  Proof.
    intros H Hd Ha Hx Nx Hp Nv. destruct (search_request _ _ _ _ _ H) as [w [js' [Hw [E [K _]]]]]. destruct (search_result _ _ _ Hd Hw) as [y [js [Hy [R [_ [_ [O [_ P]]]]]]]].
    assert (X : In a (at_top (sc_attrs search_schema)) /\ r_attr (arep a) <> $"schemas" /\ r_attr (arep a) <> $"attributes" /\ r_attr (arep a) <> $"excludeAttributes"
      /\ lower (r_attr (arep a)) <> lower ($"presence_checker") /\ lower (r_attr (arep a)) <> lower ($"sorter")).
    { split; [apply search_in; right; right; exact Ha|]. destruct Ha as [<-|[<-|[<-|[<-|[<-|[]]]]]]; vm_compute; repeat split; discriminate. }
    destruct X as [X0 [X1 [X2 [X3 [X4 X5]]]]].
    destruct (message_field search_schema MParse doc y js search_made eq_refl Hd Hy a _ _ k X0 X1 Hx Nx Hp Nv) as [F1 F2].
    destruct (C25_known_only_partial search_schema MParse doc y js search_made (proj1 Hd) (message_regular search_schema doc search_made eq_refl Hd) Hy) as [C _].
    destruct (made_no_ext search_schema search_made eq_refl a X0) as [Ea _].
    destruct (C a x X0) as [v' [k' [C1 [C2 _]]]]; [unfold doc_holds; rewrite Ea; exact Hx | exact Nx|]. rewrite Hp in C1. injection C1 as <- <-. unfold doc_holds in C2. rewrite Ea in C2.
    split.
    - intros p. rewrite E, O; [apply F2| |]; intros G; [apply X2 | apply X3]; exact (f_equal (fun l => match l with LStr n :: _ => n | _ => [] end) G).
    - intros NR w'. rewrite (K NR), P by assumption. apply C2.
  Qed.

  (** The filter is read as filters are (C33). *)
  Theorem C63_filter : forall doc h q rq iss t, search_parse_request doc h q = Ok (rq, iss) -> message search_schema doc -> holds (mk_cont doc) ($"filter") (VStr t) ->
    exists v js, parse_filter t = Ok (v, js) /\ (forall e p, In e (errs_at iss (at_body (LStr ($"filter") :: p))) <-> In e (errs_at js p))
    /\ (~ reported iss -> forall w, holds (rq_body rq) ($"filter") w <-> w = v).
  Proof.
    intros doc h q rq iss t H Hd Ht. destruct (search_request _ _ _ _ _ H) as [w [js' [Hw _]]]. destruct (search_result _ _ _ Hd Hw) as [y [js [Hy _]]].
    destruct (C25_known_only_partial search_schema MParse doc y js search_made (proj1 Hd) (message_regular search_schema doc search_made eq_refl Hd) Hy) as [C _].
    assert (Hin : In s_filter (at_top (sc_attrs search_schema))) by (apply search_in; right; right; left; reflexivity).
    destruct (C s_filter (VStr t) Hin Ht ltac:(discriminate)) as [v [k [Hk _]]]. clear C. pose proof Hk as Hk'. rewrite process_filter in Hk.
    apply bind_ok in Hk as [[v0 j0] [Hf Hk]]. injection Hk as -> <-. exists v, j0. split; [exact Hf|].
    assert (Rj : report j0 /\ v <> VMissing).
    { unfold parse_filter in Hf. apply bind_ok in Hf as [[o errs] [_ Hf]]. destruct errs; [destruct o|]; injection Hf as <- <-; (split; [constructor || apply report_iss_of | discriminate]). }
    destruct Rj as [Rj Nv]. destruct (one_field _ _ _ _ _ s_filter _ _ _ H Hd (or_introl eq_refl) Ht ltac:(discriminate) Hk' Nv) as [F1 F2]. split; [|exact F2].
    intros e p. change (LStr ($"filter")) with (LStr (r_attr (arep s_filter))). rewrite F1, errs_merge by auto using report_empty. cbn [loc_strip]. reflexivity.
  Qed.

  (** The attribute to sort by. *)
  Theorem C63_sort : forall doc h q rq iss t, search_parse_request doc h q = Ok (rq, iss) -> message search_schema doc -> holds (mk_cont doc) ($"sortBy") (VStr t) ->
    (forall e p, In e (errs_at iss (at_body (LStr ($"sortBy") :: p))) <-> ~ valid_name t /\ p = [] /\ e = e_bad_attr_name t)
    /\ (~ reported iss -> exists r asc, reads_as t r /\ forall v, holds (rq_body rq) ($"sorter") v <-> v = VSorter (mkSorter r asc)).
  Proof.
    intros doc h q rq iss t H Hd Ht. pose proof (process_sort t) as Hp. destruct (parse_rep t) as [r|] eqn:Er.
    - assert (Hin : In s_sort [s_filter; s_sort; s_order; s_number ($"startIndex"); s_number ($"count")]) by (right; left; reflexivity).
      destruct (one_field _ _ _ _ _ s_sort _ _ _ H Hd Hin Ht ltac:(discriminate) Hp ltac:(discriminate)) as [F1 _]. split.
      + intros e p. change (LStr ($"sortBy")) with (LStr (r_attr (arep s_sort))). rewrite F1. split; [intros []|]. intros [G _]. apply invalid_parse in G. congruence.
      + intros NR. exists r, false. split; [apply reads_parse; exact Er|]. destruct (search_request _ _ _ _ _ H) as [w [js' [Hw [E [K _]]]]]. rewrite (K NR).
        destruct (search_result _ _ _ Hd Hw) as [y [js [Hy [R [_ [B [O _]]]]]]].
        assert (Z : errs_at js [LStr ($"sortBy")] = []).
        { destruct (errs_at js [LStr ($"sortBy")]) as [|x l] eqn:G; [reflexivity|]. exfalso. apply NR. exists (at_body [LStr ($"sortBy")]). rewrite E, O, G by discriminate. discriminate. }
        destruct (message_field search_schema MParse doc y js search_made eq_refl Hd Hy s_sort _ _ _ (search_in _ (or_intror (or_intror Hin))) ltac:(discriminate) Ht ltac:(discriminate) Hp ltac:(discriminate)) as [G _].
        exact (B Z _ G).
    - assert (Hin : In s_sort [s_filter; s_sort; s_order; s_number ($"startIndex"); s_number ($"count")]) by (right; left; reflexivity).
      destruct (one_field _ _ _ _ _ s_sort _ _ _ H Hd Hin Ht ltac:(discriminate) Hp ltac:(discriminate)) as [F1 _]. apply invalid_parse in Er.
      assert (F : forall e p, In e (errs_at iss (at_body (LStr ($"sortBy") :: p))) <-> ~ valid_name t /\ p = [] /\ e = e_bad_attr_name t).
      { intros e p. change (LStr ($"sortBy")) with (LStr (r_attr (arep s_sort))). rewrite F1, errs_at_add. change (errs_at no_issues p) with (@nil error). cbn [app].
        destruct (loc_dec [] p) as [<-|N]; [split; [intros [<-|[]]; auto | intros [_ [_ ->]]; left; reflexivity]|]. split; [intros [] | intros [_ [-> _]]; contradiction N; reflexivity]. }
      split; [exact F|]. intros NR. exfalso. apply NR. exists (at_body [LStr ($"sortBy")]). intros Z. assert (G : In (e_bad_attr_name t) (errs_at iss (at_body [LStr ($"sortBy")]))) by (apply F; auto). rewrite Z in G. exact G.
  Qed.
  Theorem C63_no_sort : forall doc h q rq iss, search_parse_request doc h q = Ok (rq, iss) -> message search_schema doc -> ~ reported iss -> ~ has_key (mk_cont doc) ($"sortBy") ->
    forall v, ~ holds (rq_body rq) ($"sorter") v.
  Proof.
    intros doc h q rq iss H Hd NR Nk v G. destruct (search_request _ _ _ _ _ H) as [w [js' [Hw [E [K _]]]]]. rewrite (K NR) in G. destruct (search_result _ _ _ Hd Hw) as [y [js [Hy [R [_ [B _]]]]]].
    destruct (message_absent search_schema MParse doc y js search_made eq_refl Hd Hy s_sort (search_in _ (or_intror (or_intror (or_intror (or_introl eq_refl))))) ltac:(discriminate)) as [F1 F2].
    { intros x [d [l [k [E' [G' _]]]]]. exfalso. apply Nk. change (r_attr (arep s_sort)) with ($"sortBy") in G'. rewrite E'. exists k. exact G'. }
    apply (B (F2 []) _ F1) in G. revert G. apply (search_undeclared _ _ _ _ _ Hd Hy). vm_compute. intuition discriminate.
  Qed.

  (** The order is kept as it is given, and never reported. *)
  Theorem C63_order : forall doc h q rq iss t, search_parse_request doc h q = Ok (rq, iss) -> message search_schema doc -> holds (mk_cont doc) ($"sortOrder") (VStr t) ->
    (forall e p, ~ In e (errs_at iss (at_body (LStr ($"sortOrder") :: p)))) /\ (~ reported iss -> forall w, holds (rq_body rq) ($"sortOrder") w <-> w = VStr t).
  Proof.
    intros doc h q rq iss t H Hd Ht.
    assert (Hin : In s_order [s_filter; s_sort; s_order; s_number ($"startIndex"); s_number ($"count")]) by (right; right; left; reflexivity).
    assert (Hp : process s_order MParse (VStr t) = Ok (VStr t, no_issues)).
    { unfold s_order, mk_simple. cbn [bound_attr process]. unfold base_process. cbn -[lower str_eqb lit_eqb]. unfold canon_step, is_canonical. cbn -[lower str_eqb lit_eqb].
      match goal with |- context [if ?c then (VStr t, no_issues) else _] => destruct c; reflexivity end. }
    destruct (one_field _ _ _ _ _ s_order _ _ _ H Hd Hin Ht ltac:(discriminate) Hp ltac:(discriminate)) as [F1 F2]. split; [|exact F2].
    intros e p. change (LStr ($"sortOrder")) with (LStr (r_attr (arep s_order))). rewrite F1. intros [].
  Qed.

  (** The numbers of the page: integers only. *)
  Theorem C63_numbers : forall doc h q rq iss key x, search_parse_request doc h q = Ok (rq, iss) -> message search_schema doc -> In key [$"startIndex"; $"count"] ->
    holds (mk_cont doc) key x -> x <> VMissing -> x <> VNone -> (forall f, x <> VFloat f) ->
    (forall e p, In e (errs_at iss (at_body (LStr key :: p))) <-> (forall z, x <> VInt z) /\ (forall b, x <> VBool b) /\ p = [] /\ e = e_bad_type ($"integer") (scim_type_of x))
    /\ (~ reported iss -> forall w, holds (rq_body rq) key w <-> w = x).
  Proof.
    intros doc h q rq iss key x H Hd Hk Hx N1 N2 N3.
    assert (Hin : In (s_number key) [s_filter; s_sort; s_order; s_number ($"startIndex"); s_number ($"count")]) by (destruct Hk as [<-|[<-|[]]]; [do 3 right; left | do 4 right; left]; reflexivity).
    assert (Hp : process (s_number key) MParse x = Ok (if is_int x then (x, no_issues) else (VInvalid, add_issue no_issues (e_bad_type ($"integer") (scim_type_of x)) false []))).
    { destruct x; try reflexivity; try contradiction. exfalso. eapply N3. reflexivity. }
    assert (Q : is_int x = true <-> (exists z, x = VInt z) \/ exists b, x = VBool b).
    { split; [destruct x; try discriminate; eauto | intros [[z ->]|[b ->]]; reflexivity]. }
    destruct (is_int x).
    - destruct (one_field _ _ _ _ _ (s_number key) _ _ _ H Hd Hin Hx N1 Hp N1) as [F1 F2]. split; [|exact F2]. intros e p. change (LStr key) with (LStr (r_attr (arep (s_number key)))). rewrite F1.
      split; [intros []|]. intros [G1 [G2 _]]. destruct (proj1 Q eq_refl) as [[z G]|[b G]]; [exact (G1 z G) | exact (G2 b G)].
    - destruct (one_field _ _ _ _ _ (s_number key) _ _ _ H Hd Hin Hx N1 Hp ltac:(discriminate)) as [F1 _].
      assert (F : forall e p, In e (errs_at iss (at_body (LStr key :: p))) <-> (forall z, x <> VInt z) /\ (forall b, x <> VBool b) /\ p = [] /\ e = e_bad_type ($"integer") (scim_type_of x)).
      { intros e p. change (LStr key) with (LStr (r_attr (arep (s_number key)))). rewrite F1, errs_at_add. change (errs_at no_issues p) with (@nil error). cbn [app].
        destruct (loc_dec [] p) as [<-|N]; [|split; [intros [] | intros [_ [_ [-> _]]]; contradiction N; reflexivity]].
        split; [intros [<-|[]] | intros [_ [_ [_ ->]]]; left; reflexivity]. split; [intros z G; discriminate (proj2 Q (or_introl (ex_intro _ z G)))|]. split; [intros b G; discriminate (proj2 Q (or_intror (ex_intro _ b G))) | auto]. }
      split; [exact F|]. intros NR. exfalso. apply NR. exists (at_body [LStr key]). intros Z.
      assert (G : In (e_bad_type ($"integer") (scim_type_of x)) (errs_at iss (at_body [LStr key]))) by (apply F; split; [intros z G; discriminate (proj2 Q (or_introl (ex_intro _ z G)))|]; split; [intros b G; discriminate (proj2 Q (or_intror (ex_intro _ b G))) | auto]).
      rewrite Z in G. exact G.
  Qed.

  (** Reports concern the fields of a search request only, and those given. *)
  Theorem C63_nothing_else : forall doc h q rq iss p, search_parse_request doc h q = Ok (rq, iss) -> message search_schema doc -> errs_at iss p <> [] ->
    exists key p', p = at_body (LStr key :: p') /\ (key = $"schemas" \/ In key [$"attributes"; $"excludeAttributes"; $"filter"; $"sortBy"; $"sortOrder"; $"startIndex"; $"count"] /\ has_key (mk_cont doc) key).
  Proof.
    intros doc h q rq iss p H Hd Hp. destruct (search_request _ _ _ _ _ H) as [w [js' [Hw [E [_ [_ [_ O]]]]]]]. destruct (O p Hp) as [p' ->]. rewrite E in Hp. clear O E.
    destruct (search_result _ _ _ Hd Hw) as [y [js [Hy [_ [_ [_ [_ [O _]]]]]]]].
    destruct (C25_known_only_partial search_schema MParse doc y js search_made (proj1 Hd) (message_regular search_schema doc search_made eq_refl Hd) Hy) as [_ [_ [_ C]]].
    assert (X : forall p0, errs_at js p0 <> [] -> exists key p', p0 = LStr key :: p' /\ (key = $"schemas" \/ In key [$"attributes"; $"excludeAttributes"; $"filter"; $"sortBy"; $"sortOrder"; $"startIndex"; $"count"] /\ has_key (mk_cont doc) key)).
    { intros p0 G. destruct (C p0 G) as [->|[a [x [q0 [G1 [G2 [_ ->]]]]]]]; [exists ($"schemas"), []; split; [reflexivity | left; reflexivity]|].
      destruct (made_no_ext search_schema search_made eq_refl a G1) as [Ea _]. unfold place. unfold doc_holds in G2. rewrite Ea in G2. rewrite Ea. exists (r_attr (arep a)), q0. split; [reflexivity|].
      assert (M : In (r_attr (arep a)) (map (fun a => r_attr (arep a)) (at_top (sc_attrs search_schema)))) by (apply in_map_iff; eauto).
      assert (Hk : has_key (mk_cont doc) (r_attr (arep a))) by (destruct G2 as [d [l [k [G2 [G3 _]]]]]; rewrite G2; exists k; exact G3).
      destruct M as [M|M]; [left; symmetry; exact M | right; split; [exact M | exact Hk]]. }
    destruct (errs_at js p') as [|x t] eqn:Ej; [|destruct (X p') as [key [p2 [-> G]]]; [rewrite Ej; discriminate | exists key, p2; auto]].
    destruct (O p') as [G|[G1 G2]]; [contradiction Hp; rewrite G; exact Ej|].
    assert (U : forall k, k = $"attributes" \/ k = $"excludeAttributes" -> has_key (mk_cont doc) k).
    { intros k Hk. destruct (G2 k) as [v [V1 V2]]; [destruct Hk as [->| ->]; cbn [In]; auto|]. destruct (sget (lower k) (match mk_cont doc with VCont _ l => l | _ => [] end)) as [k'|] eqn:Ek.
      - pose proof (mk_cont_is_cont doc) as Mc. destruct (mk_cont doc); try discriminate Mc. exists k'. exact Ek.
      - exfalso. destruct (message_absent search_schema MParse doc y js search_made eq_refl Hd Hy (s_names k)) as [F _].
        + apply search_in. destruct Hk as [->| ->]; [left | right; left]; reflexivity.
        + destruct Hk as [->| ->]; discriminate.
        + intros x [d [l [k' [Ed [G' _]]]]]. rewrite Ed in Ek. change (r_attr (arep (s_names k))) with k in G'. congruence.
        + change (arep (s_names k)) with (search_rep k) in F. rewrite F in V1. injection V1 as <-. discriminate V2. }
    destruct G1 as [<-|[<-|[]]]; [exists ($"attributes"), [] | exists ($"excludeAttributes"), []]; (split; [reflexivity|]; right; split; [cbn [In]; auto | apply U; auto]).
  Qed.
End Env.

(** ** Concrete requests *)

#[local] Existing Instance no_env.

Definition ex_search : value := VDict
  [(KStr ($"schemas"), VList [VStr search_uri]); (KStr ($"Attributes"), VList [VStr ($"userName"); VStr ($"name.familyName")]); (KStr ($"filter"), VStr ($"userName eq ""ann"""));
   (KStr ($"sortBy"), VStr ($"userName")); (KStr ($"sortOrder"), VStr ($"ascending")); (KStr ($"startIndex"), VInt 1); (KStr ($"count"), VInt 10); (KStr ($"other"), VInt 5)].
Definition bad_search : value := VDict
  [(KStr ($"schemas"), VList [VStr search_uri]); (KStr ($"attributes"), VList [VStr ($"userName"); VStr ($"na me")]); (KStr ($"excludeAttributes"), VList [VStr ($"id")]); (KStr ($"filter"), VStr ($"userName eq"));
   (KStr ($"sortBy"), VStr ($"user name")); (KStr ($"count"), VStr ($"10"))].
Ltac keyed := eexists _, _, _; split; [reflexivity | split; reflexivity].
Lemma ex_message : message search_schema ex_search.
Proof. split; [exact I|]. intros [k G]. vm_compute in G. discriminate G. Qed.
Lemma bad_message : message search_schema bad_search.
Proof. split; [exact I|]. intros [k G]. vm_compute in G. discriminate G. Qed.
Example ex_C63 : message search_schema ex_search /\ lists (mk_cont ex_search) ($"attributes") [$"userName"; $"name.familyName"] /\ lists (mk_cont ex_search) ($"excludeAttributes") []
  /\ holds (mk_cont ex_search) ($"filter") (VStr ($"userName eq ""ann""")) /\ holds (mk_cont ex_search) ($"sortBy") (VStr ($"userName")) /\ holds (mk_cont ex_search) ($"sortOrder") (VStr ($"ascending"))
  /\ holds (mk_cont ex_search) ($"count") (VInt 10)
  /\ outcome_is (search_parse_request ex_search VNone VNone) (fun rq iss => i_errs iss = []
       /\ holds (rq_body rq) ($"presence_checker") (VChecker (mkChecker [simple_name ($"userName"); mkRep [] ($"name") ($"familyName") false] (Some true) []))
       /\ holds (rq_body rq) ($"filter") (VFilter (OBin OpEq (simple_name ($"userName")) (LitStr ($"ann")))) /\ holds (rq_body rq) ($"count") (VInt 10)).
Proof.
  split; [exact ex_message|]. split; [left; keyed|]. split; [right; split; [intros [k G]; vm_compute in G; discriminate G | reflexivity]|].
  split; [keyed|]. split; [keyed|]. split; [keyed|]. split; [keyed|]. vm_compute. split; [reflexivity|]. split; [keyed|]. split; keyed.
Qed.
Example ex_C63_bad : message search_schema bad_search /\ lists (mk_cont bad_search) ($"attributes") [$"userName"; $"na me"] /\ lists (mk_cont bad_search) ($"excludeAttributes") [$"id"]
  /\ ~ valid_name ($"na me") /\ holds (mk_cont bad_search) ($"sortBy") (VStr ($"user name")) /\ ~ valid_name ($"user name") /\ holds (mk_cont bad_search) ($"count") (VStr ($"10"))
  /\ outcome_is (search_parse_request bad_search VNone VNone) (fun rq iss => rq_body rq = VNone
       /\ map fst (i_errs iss) = [at_body [LStr ($"attributes"); LIdx 1]; at_body [LStr ($"filter")]; at_body [LStr ($"sortBy")]; at_body [LStr ($"count")]; at_body [LStr ($"attributes")]; at_body [LStr ($"excludeAttributes")]]).
Proof.
  split; [exact bad_message|]. split; [left; keyed|]. split; [left; keyed|]. split; [apply invalid_parse; vm_compute; reflexivity|]. split; [keyed|]. split; [apply invalid_parse; vm_compute; reflexivity|]. split; [keyed|].
  vm_compute. split; reflexivity.
Qed.
Example ex_C63_unsorted : outcome_is (search_parse_request (VDict [(KStr ($"schemas"), VList [VStr search_uri])]) VNone VNone) (fun rq iss => i_errs iss = [] /\ ~ has_key (rq_body rq) ($"sorter") /\ is_cont (rq_body rq) = true).
Proof. vm_compute. split; [reflexivity|]. split; [intros [k G]; discriminate G | reflexivity]. Qed.

(** ** What does not hold *)

(** A search that asks for ascending order is sorted in descending order, ... *)
Theorem C63_direction_refuted : exists doc, message search_schema doc /\ holds (mk_cont doc) ($"sortOrder") (VStr ($"ascending"))
  /\ outcome_is (search_parse_request doc VNone VNone) (fun rq iss => i_errs iss = [] /\ holds (rq_body rq) ($"sorter") (VSorter (mkSorter (simple_name ($"userName")) false))).
Proof. exists ex_search. split; [exact ex_message|]. split; [keyed|]. vm_compute. split; [reflexivity | keyed]. Qed.
(** ... an unknown order is not reported, ... *)
Theorem C63_order_refuted : exists doc, message search_schema doc /\ holds (mk_cont doc) ($"sortOrder") (VStr ($"up"))
  /\ outcome_is (search_parse_request doc VNone VNone) (fun rq iss => i_errs iss = []).
Proof.
  exists (VDict [(KStr ($"schemas"), VList [VStr search_uri]); (KStr ($"sortOrder"), VStr ($"up"))]). split; [split; [exact I|]; intros [k G]; vm_compute in G; discriminate G|].
  split; [keyed | vm_compute; reflexivity].
Qed.
(** ... attributes to leave out are accepted and forgotten, ... *)
Theorem C63_exclude_refuted : exists doc, message search_schema doc /\ lists (mk_cont doc) ($"excludeAttributes") [$"userName"]
  /\ outcome_is (search_parse_request doc VNone VNone) (fun rq iss => i_errs iss = [] /\ is_cont (rq_body rq) = true /\ ~ has_key (rq_body rq) ($"presence_checker")).
Proof.
  exists (VDict [(KStr ($"schemas"), VList [VStr search_uri]); (KStr ($"excludeAttributes"), VList [VStr ($"userName")])]). split; [split; [exact I|]; intros [k G]; vm_compute in G; discriminate G|].
  split; [left; keyed|]. vm_compute. split; [reflexivity|]. split; [reflexivity|]. intros [k G]. discriminate G.
Qed.
(** ... and the name RFC 7644 (3.4.3) has for them is not known. *)
Theorem C63_excluded_refuted : exists doc, message search_schema doc /\ lists (mk_cont doc) ($"excludedAttributes") [$"na me"]
  /\ outcome_is (search_parse_request doc VNone VNone) (fun rq iss => i_errs iss = [] /\ is_cont (rq_body rq) = true /\ ~ has_key (rq_body rq) ($"excludedAttributes")).
Proof.
  exists (VDict [(KStr ($"schemas"), VList [VStr search_uri]); (KStr ($"excludedAttributes"), VList [VStr ($"na me")])]). split; [split; [exact I|]; intros [k G]; vm_compute in G; discriminate G|].
  split; [left; keyed|]. vm_compute. split; [reflexivity|]. split; [reflexivity|]. intros [k G]. discriminate G.
Qed.

Print Assumptions C63_names.
Print Assumptions C63_selection.
Print Assumptions C63_filter.
Print Assumptions C63_sort.
Print Assumptions C63_no_sort.
Print Assumptions C63_order.
Print Assumptions C63_numbers.
Print Assumptions C63_nothing_else.
Print Assumptions ex_C63.
Print Assumptions ex_C63_bad.
Print Assumptions ex_C63_unsorted.
Print Assumptions C63_direction_refuted.
Print Assumptions C63_order_refuted.
Print Assumptions C63_exclude_refuted.
Print Assumptions C63_excluded_refuted.
