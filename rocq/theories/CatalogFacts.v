(** Lemmas about serving the descriptions of schemas. *)
From Coq Require Import Lia.
From Verif Require Import PyBase BaseFacts PyNum Issues IssuesSpec IssuesFacts AttrRep AttrRepSpec Value ValueFacts Container ContainerSpec ContainerFacts ContainerRW
  Types Attr AttrSpec AttrFacts AttrItems Schema Assets Presence Match FilterParse Path Sort Patch ListResp Search Bulk Requests SchemaS SchemaSpec SchemaFacts SchemaBuild PropSchema PatchFacts
  ListFacts FileSpec FileFacts SelfSpec SelfFacts SelfDump CatalogSpec.

Section Env.
  Context {env : PyEnv}.

  (** ** The attributes of the schema of schemas *)

  Definition schema_list (n : nat) : list attribute :=
    [schemas_attr; server_ro_attr ($"id") TString; external_id_attr; meta_attr; server_ro_attr ($"name") TString; server_ro_attr ($"description") TString; attributes_attr n].
  Lemma schema_all n : at_all (sc_attrs (schema_schema n)) = flat_map (bound_all schema_uri false) (schema_list n).
  Proof.
    unfold schema_schema, resource_schema, base_schema, mk_attrs. cbn [sc_attrs at_all]. fold schema_uri. change (dedup_attrs (flat_map (bound_all schema_uri false) (schema_list n)) = flat_map (bound_all schema_uri false) (schema_list n)).
    apply dedup_id. unfold schema_list. rewrite attributes_form. apply (NoDup_map_inv (fun k => match k with (a, b, c) => b ++ $"." ++ c end)). apply nodupb_ok. vm_compute. reflexivity.
  Qed.

  (** ** Presence *)

  Lemma items_fine a l : (exists rs, rep_attr (r_sub (arep a)) = Ok rs /\ forall x, In x l -> exists v, get_item x rs = Ok v /\ check_presence default_checker v Response (info a) (arep a) = no_issues) ->
    forall k, check_items default_checker Response a k l no_issues = Ok no_issues.
  Proof.
    intros [rs [E H]]. induction l as [|x l IH]; intros k; cbn [check_items]; [reflexivity|]. rewrite E. cbn [bind]. destruct (H x (or_introl eq_refl)) as [v [Hv Cv]]. rewrite Hv. cbn [bind]. rewrite Cv, merge_nil.
    rewrite IH; [destruct (is_invalid v); reflexivity|]. intros y Hy. apply H. right. exact Hy.
  Qed.
  (** Without selection an attribute that is there and may be returned is fine. *)
  Lemma there_fine v i r : is_blank v = false -> a_ret i <> RetNever -> check_presence default_checker v Response i r = no_issues.
  Proof. intros B R. unfold check_presence. rewrite B. cbn [negb is_response]. unfold default_checker, include_is. cbn [ck_include ck_reps rep_in existsb andb orb negb]. rewrite !andb_false_r. destruct (a_ret i); congruence || reflexivity. Qed.
  Lemma optional_fine v i r : a_required i = false -> a_ret i <> RetNever -> check_presence default_checker v Response i r = no_issues.
  Proof. intros B R. destruct (is_blank v) eqn:E; [|apply there_fine; assumption]. unfold check_presence. rewrite E, B. reflexivity. Qed.

  Definition name_set (a : attribute) : Prop := r_attr (arep a) <> [].
  Lemma word_set t : (exists w, type_word t w) -> is_blank (VStr (word_of t)) = false.
  Proof. intros [w H]. destruct H; reflexivity. Qed.

  (** A sub-attribute of "attributes" in a card. *)
  Lemma card_fine dec n a s : describable dec n a -> name_set a -> In s s_all ->
    exists v, get_item (shown a) (mkRep [] (r_attr (arep s)) [] false) = Ok v /\ check_presence default_checker v Response (info s) (mkRep schema_uri ($"attributes") (r_attr (arep s)) false) = no_issues.
  Proof.
    intros Hd Hn Hs. destruct a as [i sub]. pose proof (word_set _ (describable_type _ _ _ _ Hd)) as W. unfold name_set in Hn. cbn [arep info] in Hn. cbn [shown].
    set (sv := match sub with Some (l, _, _) => Some (VList (map shown l)) | None => None end). clearbody sv. unfold out_card.
    assert (N : is_blank (VStr (r_attr (a_rep i))) = false) by (cbn [is_blank]; destruct (r_attr (a_rep i)) eqn:En; [exfalso; apply Hn; exact En | reflexivity]).
    revert N W. generalize (a_descr i) (r_attr (a_rep i)) (a_multi i) (a_required i) (a_case_exact i) (word_of (a_type i)). intros ds nm mu rq ce tw N W.
    destruct (canon_part i) as [cv|]; destruct (ref_part i) as [rv|]; destruct sv as [sv|]; destruct (is_text i); cbn [app one_if];
    (repeat (destruct Hs as [<-|Hs]; [eexists; split; [reflexivity|]; first [apply optional_fine; [reflexivity | discriminate] | apply there_fine; [first [exact N | exact W | destruct (a_mut i); reflexivity | destruct (a_ret i); reflexivity | destruct (a_uniq i); reflexivity | reflexivity] | discriminate]]|])); destruct Hs.
  Qed.

  Lemma all_fine c data all d : (forall a, In a all -> check_attr c data all d no_issues a = Ok no_issues) -> presence c data all d = Ok no_issues.
  Proof.
    unfold presence. generalize (check_attr c data all d). intros f. induction all as [|a l IH]; intros H; cbn [foldM]; [reflexivity|]. rewrite H by (left; reflexivity). cbn [bind]. apply IH. intros b Hb. apply H. right. exact Hb.
  Qed.
  Lemma schema_finds n : find_attr (at_all (sc_attrs (schema_schema n))) (mkRep schema_uri ($"meta") [] false) = Some (bound_top meta_attr)
    /\ find_attr (at_all (sc_attrs (schema_schema n))) (mkRep schema_uri ($"attributes") [] false) = Some (bound_top (attributes_attr n)).
  Proof. rewrite schema_all. unfold schema_list. rewrite attributes_form. split; reflexivity. Qed.
  Lemma doc_present n s : Forall (describable false n) (at_top (sc_attrs s)) -> Forall name_set (at_top (sc_attrs s)) ->
    presence default_checker (shown_doc s) (at_all (sc_attrs (schema_schema n))) Response = Ok no_issues.
  Proof.
    intros Hd Hn. apply all_fine. destruct (schema_finds n) as [F1 F2]. pose proof (schema_all n) as E. rewrite attributes_form in F2. revert F1 F2.
    generalize (at_all (sc_attrs (schema_schema n))) at 1 2 4. intros all F1 F2 a Ha. rewrite E in Ha. clear E. unfold schema_list in Ha. rewrite attributes_form in Ha.
    unfold shown_doc. pose proof (fun x => card_fine false n x) as Card.
    assert (K : forall x, In x (map shown (at_top (sc_attrs s))) -> forall t, In t s_all -> exists v, get_item x (mkRep [] (r_attr (arep t)) [] false) = Ok v /\ check_presence default_checker v Response (info t) (mkRep schema_uri ($"attributes") (r_attr (arep t)) false) = no_issues).
    { intros x Hx t Ht. apply in_map_iff in Hx as [b [<- Hb]]. apply (Card b t); [exact (proj1 (Forall_forall _ _) Hd b Hb) | exact (proj1 (Forall_forall _ _) Hn b Hb) | exact Ht]. }
    clear Card Hd Hn. revert K. generalize (map shown (at_top (sc_attrs s))) (sc_uri s) (sc_name s) (sc_descr s). intros cards u nm de K.
    cbn [flat_map] in Ha. rewrite !in_app_iff in Ha.
    assert (T : forall b v, nonempty (r_sub (arep b)) = false -> mk_rep (r_schema (arep b)) (r_attr (arep b)) [] false = Ok (mkRep (r_schema (arep b)) (r_attr (arep b)) [] false) ->
       get_item (tabled [($"schemas", VList [VStr schema_uri]); ($"id", VStr u); ($"meta", tabled [($"resourceType", VStr ($"Schema"))]); ($"name", VStr nm); ($"description", VStr de); ($"attributes", VList cards)]) (arep b) = Ok v ->
       check_presence default_checker v Response (info b) (arep b) = no_issues ->
       check_attr default_checker (tabled [($"schemas", VList [VStr schema_uri]); ($"id", VStr u); ($"meta", tabled [($"resourceType", VStr ($"Schema"))]); ($"name", VStr nm); ($"description", VStr de); ($"attributes", VList cards)]) all Response no_issues b = Ok no_issues).
    { intros b v N R G C. unfold check_attr. rewrite R, N. cbn [bind]. rewrite G. cbn [bind]. rewrite C, merge_nil. destruct (is_invalid v); reflexivity. }
    destruct Ha as [Ha|[Ha|[Ha|[Ha|[Ha|[Ha|[Ha|[]]]]]]]].
    - destruct Ha as [<-|[]]. eapply T; [reflexivity | reflexivity | reflexivity | apply there_fine; [reflexivity | discriminate]].
    - destruct Ha as [<-|[]]. eapply T; [reflexivity | reflexivity | reflexivity | apply optional_fine; [reflexivity | discriminate]].
    - destruct Ha as [<-|[]]. eapply T; [reflexivity | reflexivity | reflexivity | apply optional_fine; [reflexivity | discriminate]].
    - destruct Ha as [<-|Ha]; [eapply T; [reflexivity | reflexivity | reflexivity | apply optional_fine; [reflexivity | discriminate]]|].
      apply in_map_iff in Ha as [t [<- Ht]]. unfold check_attr. rewrite bound_rep. change (r_attr (arep meta_attr)) with ($"meta"). cbn [r_schema r_attr r_sub].
      change (mk_rep schema_uri ($"meta") [] false) with (Ok (mkRep schema_uri ($"meta") [] false)). cbn [bind]. rewrite F1. change (a_multi (info (bound_top meta_attr))) with false.
      repeat (destruct Ht as [<-|Ht]; [reflexivity|]); destruct Ht.
    - destruct Ha as [<-|[]]. eapply T; [reflexivity | reflexivity | reflexivity | apply optional_fine; [reflexivity | discriminate]].
    - destruct Ha as [<-|[]]. eapply T; [reflexivity | reflexivity | reflexivity | apply optional_fine; [reflexivity | discriminate]].
    - unfold bound_all in Ha. destruct Ha as [<-|Ha]; [eapply T; [reflexivity | reflexivity | reflexivity | apply optional_fine; [reflexivity | discriminate]]|].
      apply in_map_iff in Ha as [t [<- Ht]]. cbn [sub_attrs] in Ht. unfold check_attr.
      assert (RN : nonempty (r_attr (arep t)) = true /\ rep_attr (r_attr (arep t)) = Ok (mkRep [] (r_attr (arep t)) [] false)) by (clear - Ht; repeat (destruct Ht as [<-|Ht]; [split; reflexivity|]); destruct Ht).
      destruct RN as [RN1 RN2]. rewrite bound_rep. change (r_attr (arep (MkAttr (with_mut ReadOnly (with_multi (plain ($"attributes") TComplex))) (Some (s_all, [single_primary], [dump_attributes (deeper n); single_primary]))))) with ($"attributes"). cbn [r_schema r_attr r_sub].
      change (mk_rep schema_uri ($"attributes") [] false) with (Ok (mkRep schema_uri ($"attributes") [] false)). cbn [bind]. rewrite RN1, F2. cbn [bind].
      change (a_multi (info (bound_top (MkAttr (with_mut ReadOnly (with_multi (plain ($"attributes") TComplex))) (Some (s_all, [single_primary], [dump_attributes (deeper n); single_primary])))))) with true. cbv iota.
      match goal with |- (let! v := ?g in _) = _ => change g with (Ok (VList cards)) end. cbn [bind iter_value].
      apply items_fine. exists (mkRep [] (r_attr (arep t)) [] false). split; [rewrite bound_rep; exact RN2|]. intros x Hx. destruct (K x Hx t Ht) as [v [V1 V2]]. exists v. split; [exact V1|]. rewrite bound_rep.
      rewrite <- V2. clear - t. destruct t as [i [[[sb pp] dp]|]]; unfold check_presence; destruct i; reflexivity.
  Qed.

  (** ** The list response *)

  Definition page_of (z : Z) (l : list value) : value :=
    tabled [($"schemas", VList [VStr list_uri]); ($"totalResults", VInt z); ($"Resources", VList l)].
  Lemma catalog_loaded ds l : map conv_item ds = l -> mk_cont (catalog ds) = page_of (Z.of_nat (length ds)) l.
  Proof. intros <-. unfold catalog, dict_of. rewrite mk_cont_dict. cbn [map fst snd load]. reflexivity. Qed.
  Lemma page_read z l d : mk_cont (VDict d) = page_of z l -> base_parse MDump list_schema (VDict d) = Ok (page_of z l, no_issues).
  Proof. intros E. unfold base_parse, process_data. rewrite E. clear E d. unfold page_of. vm_compute. reflexivity. Qed.
  Lemma doc_dumped_cont n s d : Forall (describable false n) (at_top (sc_attrs s)) -> mk_cont (VDict d) = raw_doc s -> schema_dump (schema_schema n) (raw_doc s) = Ok (shown_doc s, no_issues).
  Proof. intros H E. rewrite <- (doc_dumped n s d H E). unfold schema_dump. f_equal. unfold raw_doc, tabled in *. unfold base_parse, process_data. rewrite E. reflexivity. Qed.
  Section Docs.
    Variable A : Type.
    Variable T : schema.
    Variables before after : A -> value.

    Lemma docs_dumped ss : Forall (fun s => schema_dump T (before s) = Ok (after s, no_issues)) ss -> forall i acc,
      dump_resources i (map before ss) (map (fun _ => Some (0%nat, T)) (map before ss)) acc no_issues = Ok (acc ++ map after ss, no_issues).
    Proof.
      induction 1 as [|s ss H _ IH]; intros i acc; cbn [map dump_resources]; [rewrite app_nil_r; reflexivity|]. rewrite H. cbn [bind]. rewrite merge_nil, IH, <- app_assoc. reflexivity.
    Qed.
    Lemma docs_present ss : Forall (fun s => presence default_checker (after s) (at_all (sc_attrs T)) Response = Ok no_issues) ss -> forall i,
      resources_presence default_checker i (map after ss) (map (fun _ => Some (0%nat, T)) (map after ss)) no_issues = Ok no_issues.
    Proof. induction 1 as [|s ss H _ IH]; intros i; cbn [map resources_presence]; [reflexivity|]. rewrite H. cbn [bind]. rewrite merge_nil. apply IH. Qed.
    Lemma page_present z l : presence default_checker (page_of z l) (at_all (sc_attrs list_schema)) Response = Ok no_issues.
    Proof. destruct l; vm_compute; reflexivity. Qed.
    Lemma numbers_fine l : check_numbers (page_of (zlen l) l) l None no_issues = Ok no_issues.
    Proof.
      unfold check_numbers. change (can_proceed no_issues [total_results_loc]) with true. cbv iota. change (get_item (page_of (zlen l) l) (list_rep ($"totalResults"))) with (Ok (VInt (zlen l))). cbn [bind].
      unfold number_of_resources. assert (E : num_lt (VInt (zlen l)) (VInt (zlen l)) = Ok false /\ num_gt (VInt (zlen l)) (VInt (zlen l)) = Ok false) by (rewrite int_lt, int_gt, Z.ltb_irrefl; split; reflexivity).
      destruct E as [-> ->]. cbn [bind]. rewrite merge_nil. change (can_proceed no_issues [start_index_loc; items_per_page_loc]) with true. cbv iota.
      change (get_item (page_of (zlen l) l) (list_rep ($"startIndex"))) with (Ok VMissing). change (get_item (page_of (zlen l) l) (list_rep ($"itemsPerPage"))) with (Ok VMissing). reflexivity.
    Qed.

    Lemma page_dumped ss ds : Forall (fun s => schema_dump T (before s) = Ok (after s, no_issues)) ss -> map conv_item ds = map before ss ->
      list_dump [T] (catalog ds) = Ok (page_of (zlen (map after ss)) (map after ss), no_issues).
    Proof.
      intros H E. assert (L : zlen (map after ss) = Z.of_nat (length ds)) by (unfold zlen; rewrite map_length, <- (map_length before ss), <- E, map_length; reflexivity). rewrite L.
      unfold list_dump. pose proof (catalog_loaded ds _ E) as C. unfold catalog, dict_of in *. rewrite (page_read _ _ _ C). cbn [bind]. change (negb (can_proceed no_issues [])) with false. cbv iota.
      generalize (Z.of_nat (length ds)). intros z. change (get_item (page_of z (map before ss)) (list_rep ($"Resources"))) with (Ok (VList (map before ss))). cbn [bind].
      change (can_proceed no_issues [[LStr ($"itemsPerPage")]]) with true. cbv iota. change (get_item (page_of z (map before ss)) (list_rep ($"itemsPerPage"))) with (Ok VMissing). cbn [bind items_per_page_issues]. rewrite merge_nil.
      cbn [schemas_for bind]. rewrite (docs_dumped ss H 0%nat []). cbn [bind app]. reflexivity.
    Qed.

    Lemma catalog_dumped ss ds h si : Forall (fun s => schema_dump T (before s) = Ok (after s, no_issues)) ss ->
      Forall (fun s => presence default_checker (after s) (at_all (sc_attrs T)) Response = Ok no_issues) ss -> map conv_item ds = map before ss ->
      list_dump_response [T] 200 (catalog ds) h si None None None None = Ok (mkResp h (to_dict (page_of (zlen (map after ss)) (map after ss))), no_issues).
    Proof.
      intros H P E. unfold list_dump_response. rewrite (page_dumped ss ds H E). cbn [bind]. rewrite merge_nil. change (negb (can_proceed no_issues [body_loc])) with false. cbv iota. rewrite page_present. cbn [bind]. change (status_code_issues 200 200) with no_issues. rewrite !merge_nil.
      change (can_proceed no_issues [start_index_loc]) with true. cbv iota.
      set (l := map after ss) in *. change (get_item (page_of (zlen l) l) (list_rep ($"startIndex"))) with (Ok VMissing). cbn [bind truthy]. change (negb (can_proceed no_issues [resources_loc])) with false. cbv iota.
      change (get_item (page_of (zlen l) l) (list_rep ($"Resources"))) with (Ok (VList l)). cbn [bind]. rewrite numbers_fine. cbn [bind]. unfold check_resources. change (has_issues no_issues [resources_loc]) with false. cbv iota.
      cbn [schemas_for bind checker_or_default]. pose proof (docs_present ss P 0%nat) as Dp. fold l in Dp. rewrite Dp. cbn [bind]. rewrite merge_nil. reflexivity.
    Qed.
  End Docs.

  (** ** Reading back *)

  Lemma tabled_filed l : NoDup (map (fun e => lower (fst e)) l) -> Forall (fun e => filed json_scalar (snd e)) l -> filed json_scalar (tabled l).
  Proof. intros N F. apply filed_cont; [split; [reflexivity | exact N] | exact F]. Qed.
  Lemma canon_filed i v : canon_part i = Some v -> filed json_scalar v.
  Proof.
    intros E. apply canon_iff in E as [l [_ [_ ->]]]. apply filed_list; apply Forall_forall; intros x Hx; apply in_map_iff in Hx as [y [<- _]]; [apply filed_scalar; destruct y; split; exact I | destruct y; reflexivity].
  Qed.
  Lemma ref_filed i v : ref_part i = Some v -> filed json_scalar v.
  Proof. intros E. apply ref_iff in E as [_ ->]. apply filed_list; apply Forall_forall; intros x Hx; apply in_map_iff in Hx as [y [<- _]]; [apply filed_scalar; split; exact I | reflexivity]. Qed.
  Lemma card_filed b i sub : (forall v, sub = Some v -> filed json_scalar v) -> filed json_scalar (tabled (out_card b i sub)).
  Proof.
    intros S. apply tabled_filed.
    - apply nodupb_ok. unfold out_card. generalize (VStr (r_attr (a_rep i))) (VStr (word_of (a_type i))) (VBool (a_multi i)) (VStr (a_descr i)) (VBool (a_required i)) (VBool (a_case_exact i)) (VStr (mut_str (a_mut i))) (VStr (ret_str (a_ret i))) (VStr (uniq_str (a_uniq i))). intros.
      destruct (canon_part i), (ref_part i), sub, b; vm_compute; reflexivity.
    - pose proof (canon_filed i) as C. pose proof (ref_filed i) as R. unfold out_card.
      assert (Sc : forall k v, json_scalar v -> (fun e : str * value => filed json_scalar (snd e)) (k, v)) by (intros k v X; apply filed_scalar; exact X).
      assert (O : forall k o, (forall v, o = Some v -> filed json_scalar v) -> Forall (fun e => filed json_scalar (snd e)) (one_if k o)) by (intros k [v|] X; [constructor; [apply X; reflexivity | constructor] | constructor]).
      repeat (apply Forall_app; split); [| apply O; exact S | | apply O; exact C | | | apply O; exact R]; try (destruct b); repeat (apply Forall_cons; [apply Sc; split; exact I|]); apply Forall_nil.
  Qed.
  Lemma shown_filed : forall a, filed json_scalar (shown a) /\ is_list (shown a) = false.
  Proof.
    fix IH 1. intros [i sub]. split; [|destruct sub as [[[? ?] ?]|]; reflexivity]. cbn [shown]. apply card_filed. destruct sub as [[[subs cps] cds]|]; intros v E; [|discriminate]. injection E as <-.
    apply filed_list; (induction subs as [|a l IHl]; cbn [map]; [apply Forall_nil | apply Forall_cons; [apply IH | exact IHl]]).
  Qed.
  Lemma doc_filed s : filed json_scalar (shown_doc s).
  Proof.
    unfold shown_doc. apply tabled_filed; [apply nodupb_ok; generalize (VStr (sc_uri s)) (VStr (sc_name s)) (VStr (sc_descr s)) (VList (map shown (at_top (sc_attrs s)))); intros; vm_compute; reflexivity|].
    assert (Sc : forall v, json_scalar v -> filed json_scalar v) by (intros v X; apply filed_scalar; exact X).
    repeat apply Forall_cons; try apply Forall_nil; cbn [snd]; try (apply Sc; split; exact I).
    - apply filed_list; [repeat constructor | repeat constructor].
    - apply tabled_filed; [repeat constructor; intros [] | repeat constructor].
    - apply filed_list; apply Forall_forall; intros x Hx; apply in_map_iff in Hx as [a [<- _]]; apply shown_filed.
  Qed.
  Lemma page_filed z l : Forall (filed json_scalar) l -> Forall (fun x => is_list x = false) l -> filed json_scalar (page_of z l).
  Proof.
    intros F N. unfold page_of. apply tabled_filed; [apply nodupb_ok; generalize (VInt z) (VList l); intros; vm_compute; reflexivity|].
    repeat apply Forall_cons; try apply Forall_nil; cbn [snd]; [apply filed_list; repeat constructor | apply filed_scalar; split; exact I | apply filed_list; assumption].
  Qed.
  Lemma filed_back y : filed json_scalar y -> is_cont y = true -> mk_cont (to_dict y) = y.
  Proof.
    intros F C. destruct y as [| | | | | | | | | | d q | | | | | |]; try discriminate C. inversion F as [? X| |? ? Hs Hf]; subst; [destruct (proj1 X)|]. apply refile_cont; [exact Hs|]. revert Hf. apply Forall_impl. intros e X.
    apply (refile json_scalar (fun v p => proj1 p) _ X).
  Qed.
End Env.
