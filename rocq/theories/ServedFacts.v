(** Lemmas about the documents in which a server describes itself. *)
From Coq Require Import Lia.
From Verif Require Import PyBase BaseFacts PyNum Issues IssuesSpec IssuesFacts AttrRep AttrRepSpec Value ValueFacts Container ContainerSpec ContainerFacts ContainerRW
  Types Attr AttrSpec AttrFacts AttrItems Schema Assets Presence Match FilterParse Path Sort Patch ListResp Search Bulk Requests SchemaS SchemaSpec SchemaFacts SchemaBuild PropSchema PatchFacts
  ListFacts FileSpec FileFacts SelfSpec SelfFacts SelfDump Config CatalogSpec CatalogFacts ServedSpec.

Section Env.
  Context {env : PyEnv}.

  (** ** Lists of objects *)

  Lemma objects_walked {A} (f g : A -> value) subs l : (forall x, In x l -> is_cont (f x) = true /\ forall p, walk MDump (f x) p subs empty_cont no_issues = Ok (g x, no_issues)) ->
    forall k acc, foldM (complex_items MDump subs) (enum_from k (map f l)) (acc, no_issues) = Ok (acc ++ map g l, no_issues).
  Proof.
    induction l as [|x l IH]; intros H k acc; cbn [map enum_from foldM]; [rewrite app_nil_r; reflexivity|]. destruct (H x (or_introl eq_refl)) as [C W].
    assert (M : mk_cont (f x) = f x) by (destruct (f x); try discriminate C; reflexivity).
    assert (E : complex_items MDump subs (acc, no_issues) (k, f x) = Ok (acc ++ [g x], no_issues)) by (unfold complex_items; cbn [fst snd]; rewrite M, W; reflexivity).
    rewrite E. cbn [bind]. rewrite IH, <- app_assoc by (intros y Hy; apply H; right; exact Hy). reflexivity.
  Qed.
  Lemma unmarked_entries l : (forall y, In y l -> get_item_str y ($"primary") = Ok VMissing) -> forall k, primary_entries k l = Ok [].
  Proof. induction l as [|y l IH]; intros H k; cbn [primary_entries]; [reflexivity|]. rewrite H by (left; reflexivity). rewrite IH; [reflexivity|]. intros z Hz. apply H. right. exact Hz. Qed.
  Lemma objects_dumped {A} (f g : A -> value) i subs cps l : a_type i = TComplex -> a_multi i = true -> a_canon i = None -> a_dumpers i = [] ->
    (forall x, In x l -> is_cont (f x) = true /\ (forall p, walk MDump (f x) p subs empty_cont no_issues = Ok (g x, no_issues)) /\ get_item_str (g x) ($"primary") = Ok VMissing) ->
    process (MkAttr i (Some (subs, cps, [single_primary]))) MDump (VList (map f l)) = Ok (VList (map g l), no_issues).
  Proof.
    intros H1 H2 H3 H4 H. rewrite process_complex.
    assert (B : base_process MDump i (VList (map f l)) = Ok (VList (map f l), no_issues)).
    { apply same_list; try assumption. intros x Hx. apply in_map_iff in Hx as [a [<- Ha]]. rewrite H1. destruct (H a Ha) as [C _]. destruct (f a); try discriminate C; reflexivity. }
    rewrite B. cbn [bind]. change (can_proceed no_issues []) with true. cbv iota. cbn [negb orb]. rewrite H2. unfold complex_part. cbn [iter_value bind].
    unfold enumerate. rewrite (objects_walked f g subs l); [|intros x Hx; destruct (H x Hx) as [C [W _]]; split; assumption]. cbn [bind app]. change (has_issues no_issues []) with false. cbv iota.
    assert (D : single_primary (VList (map g l)) = Ok (VList (map g l), no_issues)).
    { unfold single_primary. cbn [iter_value bind]. rewrite unmarked_entries; [reflexivity|]. intros y Hy. apply in_map_iff in Hy as [x [<- Hx]]. apply (H x Hx). }
    unfold run_procs. cbn [foldM fst snd]. rewrite D. reflexivity.
  Qed.

  (** ** Resource types *)

  Definition type_uri : str := $"urn:ietf:params:scim:schemas:core:2.0:ResourceType".
  Definition ext_card (e : str * bool) : value := tabled [($"schema", VStr (fst e)); ($"required", VBool (snd e))].
  Definition type_page (t : resource_type) : value := tabled
    [($"schemas", VList [VStr type_uri]); ($"id", VStr (rt_name t)); ($"name", VStr (rt_name t)); ($"description", VStr (rt_descr t));
     ($"endpoint", VStr (rt_endpoint t)); ($"schema", VStr (rt_schema t)); ($"schemaExtensions", VList (map ext_card (rt_exts t)))].
  Lemma exts_loaded l : map conv_item (map ext_doc l) = map ext_card l.
  Proof. rewrite map_map. apply map_ext. intros e. reflexivity. Qed.
  Lemma type_loaded t : conv_item (type_doc t) = type_page t.
  Proof. unfold type_doc, dict_of. cbn [conv_item]. rewrite mk_cont_dict. cbn [map fst snd load]. unfold type_page. rewrite <- exts_loaded. reflexivity. Qed.

  Definition exts_attr : attribute := nth 8 (at_top (sc_attrs resource_type_schema)) schemas_attr.
  Lemma exts_dumped l : process exts_attr MDump (VList (map ext_card l)) = Ok (VList (map ext_card l), no_issues).
  Proof.
    assert (E : exists i subs cps, exts_attr = MkAttr i (Some (subs, cps, [single_primary])) /\ a_type i = TComplex /\ a_multi i = true /\ a_canon i = None /\ a_dumpers i = [] /\
       subs = [server_ro_req ($"schema") TString; server_ro_req ($"required") TBoolean]) by (do 3 eexists; repeat split; reflexivity).
    destruct E as (i & subs & cps & -> & H1 & H2 & H3 & H4 & ->). apply (objects_dumped ext_card ext_card); try assumption. intros x _. split; [reflexivity|]. split; [|reflexivity]. intros p.
    destruct x as [u b]. unfold ext_card. cbn [fst snd]. rewrite walk_cons. reflexivity.
  Qed.

  (** ** Presence *)

  Section Checks.
    Variables (data : value) (all : list attribute) (b : attribute).
    Let u := r_schema (arep b).
    Let n := r_attr (arep b).
    Hypothesis named : mk_rep u n [] false = Ok (mkRep u n [] false).

    Lemma top_fine v : nonempty (r_sub (arep b)) = false -> get_item data (arep b) = Ok v -> check_presence default_checker v Response (info b) (arep b) = no_issues ->
      check_attr default_checker data all Response no_issues b = Ok no_issues.
    Proof. intros N G C. unfold check_attr. fold u n. rewrite named, N. cbn [bind]. rewrite G. cbn [bind]. rewrite C, merge_nil. destruct (is_invalid v); reflexivity. Qed.
    Lemma sub_fine t v : nonempty (r_sub (arep b)) = true -> find_attr all (mkRep u n [] false) = Some t -> a_multi (info t) = false -> get_item data (arep b) = Ok v ->
      check_presence default_checker v Response (info b) (arep b) = no_issues -> check_attr default_checker data all Response no_issues b = Ok no_issues.
    Proof. intros N F M G C. unfold check_attr. fold u n. rewrite named, N. cbn [bind]. rewrite F. cbn [bind]. rewrite M, G. cbn [bind]. rewrite C, merge_nil. destruct (is_invalid v); reflexivity. Qed.
    Lemma subs_fine t l rs : nonempty (r_sub (arep b)) = true -> find_attr all (mkRep u n [] false) = Some t -> a_multi (info t) = true -> get_item data (mkRep u n [] false) = Ok (VList l) ->
      rep_attr (r_sub (arep b)) = Ok rs -> (forall x, In x l -> exists v, get_item x rs = Ok v /\ check_presence default_checker v Response (info b) (arep b) = no_issues) ->
      check_attr default_checker data all Response no_issues b = Ok no_issues.
    Proof. intros N F M G R H. unfold check_attr. fold u n. rewrite named, N. cbn [bind]. rewrite F. cbn [bind]. rewrite M, G. cbn [bind iter_value]. apply items_fine. exists rs. split; assumption. Qed.
  End Checks.
  Lemma text_there s : s <> [] -> is_blank (VStr s) = false.
  Proof. destruct s; [congruence | reflexivity]. Qed.

  Definition type_list : list attribute :=
    [schemas_attr; server_ro_attr ($"id") TString; external_id_attr; meta_attr; server_ro_req ($"name") TString; server_ro_attr ($"description") TString; server_ro_req ($"endpoint") TUriRef; server_ro_req ($"schema") TString;
     mk_complex (with_multi (plain ($"schemaExtensions") TComplex)) [server_ro_req ($"schema") TString; server_ro_req ($"required") TBoolean] [] []].
  Lemma type_tops : at_top (sc_attrs resource_type_schema) = map (fun a => bound_attr (mkRep type_uri (r_attr (arep a)) [] false) a) type_list.
  Proof. reflexivity. Qed.
  Lemma type_all : at_all (sc_attrs resource_type_schema) = flat_map (bound_all type_uri false) type_list.
  Proof.
    change (dedup_attrs (flat_map (bound_all type_uri false) type_list) = flat_map (bound_all type_uri false) type_list).
    apply dedup_id. apply (NoDup_map_inv (fun k => match k with (a, b, c) => b ++ $"." ++ c end)). apply nodupb_ok. vm_compute. reflexivity.
  Qed.

  Lemma type_dumped t : schema_dump resource_type_schema (type_page t) = Ok (type_page t, no_issues).
  Proof.
    unfold schema_dump.
    assert (P : process_data MDump resource_type_schema (type_page t) = Ok (type_page t, no_issues)).
    { unfold process_data. change (mk_cont (type_page t)) with (type_page t). pose proof (exts_dumped (rt_exts t)) as P9. unfold exts_attr in P9. rewrite type_tops in *. unfold type_page. revert P9. generalize (map ext_card (rt_exts t)).
      generalize (rt_name t) (rt_descr t) (rt_endpoint t) (rt_schema t). intros nm de en sc l P9. cbn [map type_list nth] in *.
      set (a9 := bound_attr _ (mk_complex (with_multi (plain ($"schemaExtensions") TComplex)) _ _ _)) in *. assert (A9 : arep a9 = mkRep type_uri ($"schemaExtensions") [] false) by reflexivity. clearbody a9.
      erewrite attrs_write; [|reflexivity | reflexivity | reflexivity | discriminate]. erewrite attrs_write; [|reflexivity | reflexivity | reflexivity | discriminate].
      rewrite attrs_skip by reflexivity. rewrite attrs_skip by reflexivity. do 4 (erewrite attrs_write; [|reflexivity | reflexivity | reflexivity | discriminate]).
      erewrite attrs_write; [|rewrite A9; reflexivity | exact P9 | rewrite A9; reflexivity | discriminate]. reflexivity. }
    unfold base_parse, type_page, tabled. fold (tabled [($"schemas", VList [VStr type_uri]); ($"id", VStr (rt_name t)); ($"name", VStr (rt_name t)); ($"description", VStr (rt_descr t));
     ($"endpoint", VStr (rt_endpoint t)); ($"schema", VStr (rt_schema t)); ($"schemaExtensions", VList (map ext_card (rt_exts t)))]). fold (type_page t). rewrite P. clear P. cbn [bind]. unfold type_page.
    generalize (map ext_card (rt_exts t)) (rt_name t) (rt_descr t) (rt_endpoint t) (rt_schema t). intros l nm de en sc. vm_compute. reflexivity.
  Qed.
  Lemma type_present t : full_type t -> presence default_checker (type_page t) (at_all (sc_attrs resource_type_schema)) Response = Ok no_issues.
  Proof.
    intros (N1 & N2 & N3 & N4). apply all_fine. rewrite type_all.
    assert (F : exists a m, find_attr (flat_map (bound_all type_uri false) type_list) (mkRep type_uri ($"schemaExtensions") [] false) = Some a /\ a_multi (info a) = true
      /\ find_attr (flat_map (bound_all type_uri false) type_list) (mkRep type_uri ($"meta") [] false) = Some m /\ a_multi (info m) = false) by (do 2 eexists; repeat split; reflexivity).
    destruct F as (a & m & F1 & F2 & F3 & F4). revert F1 F3. generalize (flat_map (bound_all type_uri false) type_list) at 1 2 4. intros all F1 F3.
    intros b Hb. unfold type_page.
    assert (K : forall x, In x (map ext_card (rt_exts t)) -> exists e, x = ext_card e /\ fst e <> []) by (intros x Hx; apply in_map_iff in Hx as [e [<- He]]; exists e; split; [reflexivity | exact (proj1 (Forall_forall _ _) N4 e He)]).
    apply text_there in N1, N2, N3. revert K N1 N2 N3. generalize (map ext_card (rt_exts t)) (rt_name t) (rt_descr t) (rt_endpoint t) (rt_schema t). intros l nm de en sc K N1 N2 N3. clear N4 t.
    repeat (destruct Hb as [<-|Hb];
      [first [eapply top_fine; [reflexivity | reflexivity | reflexivity | first [apply optional_fine; [reflexivity | discriminate] | apply there_fine; [first [reflexivity | exact N1 | exact N2 | exact N3] | discriminate]]]
        | eapply sub_fine; [reflexivity | reflexivity | exact F3 | exact F4 | reflexivity | apply optional_fine; [reflexivity | discriminate]]
        | eapply subs_fine; [reflexivity | reflexivity | exact F1 | exact F2 | reflexivity | reflexivity|]; intros x Hx; destruct (K x Hx) as [[eu eb] [-> Ne]]; cbn [fst] in Ne; eexists; split; [reflexivity | apply there_fine; [first [reflexivity | apply text_there; exact Ne] | discriminate]]]|]).
    destruct Hb.
  Qed.

  Lemma exts_filed l : filed json_scalar (VList (map ext_card l)).
  Proof.
    apply filed_list; apply Forall_forall; intros x Hx; apply in_map_iff in Hx as [[u b] [<- _]]; [|reflexivity]. unfold ext_card. apply tabled_filed; [apply nodupb_ok; reflexivity|].
    repeat apply Forall_cons; try apply Forall_nil; apply filed_scalar; split; exact I.
  Qed.
  Lemma type_filed t : filed json_scalar (type_page t).
  Proof.
    unfold type_page. pose proof (exts_filed (rt_exts t)) as E. revert E. generalize (VList (map ext_card (rt_exts t))). intros l E. apply tabled_filed; [apply nodupb_ok; reflexivity|].
    repeat apply Forall_cons; try apply Forall_nil; cbn [snd]; try (apply filed_scalar; split; exact I); [apply filed_list; repeat constructor | exact E].
  Qed.

  (** ** The configuration *)

  Definition spc_uri : str := $"urn:ietf:params:scim:schemas:core:2.0:ServiceProviderConfig".
  Definition scheme_card (all : bool) (s : auth_scheme) : value := tabled
    ([($"type", as_type s); ($"name", as_name s); ($"description", as_description s)] ++ unless_empty ($"specUri") (as_spec s) ++ (if all then unless_empty ($"documentationUri") (as_documentation s) else [])).
  Definition spc_page (c : config) (schemes : list value) : value := tabled
    ([($"schemas", VList [VStr spc_uri])] ++ unless_empty ($"documentationUri") (cf_documentation c)
     ++ [($"patch", tabled [($"supported", cf_patch c)]);
         ($"bulk", tabled [($"supported", bo_supported (cf_bulk c)); ($"maxOperations", bo_max_operations (cf_bulk c)); ($"maxPayloadSize", bo_max_payload (cf_bulk c))]);
         ($"filter", tabled [($"supported", fo_supported (cf_filter c)); ($"maxResults", fo_max_results (cf_filter c))]);
         ($"changePassword", tabled [($"supported", cf_change_password c)]);
         ($"sort", tabled [($"supported", cf_sort c)]);
         ($"etag", tabled [($"supported", cf_etag c)]);
         ($"authenticationSchemes", VList schemes)]).
  Lemma url_cases v : maybe_url v -> v = VStr [] \/ exists a t, v = VStr (a :: t) /\ env_abs_url (a :: t) = true.
  Proof. intros [[|a t] [-> H]]; [left; reflexivity|]. right. exists a, t. split; [reflexivity|]. destruct H as [H|H]; [discriminate | exact H]. Qed.
  Lemma scheme_loaded s : full_scheme s -> conv_item (scheme_doc s) = scheme_card true s.
  Proof.
    intros (T & N & D & U & [dt Dt]). destruct s as [n d sp dc ty]. cbn [as_type as_name as_description as_spec as_documentation] in *. destruct T as [t [-> _]], N as [n' [-> _]], D as [d' [-> _]]. subst dc.
    unfold scheme_doc, scheme_card. cbn [as_type as_name as_description as_spec as_documentation]. destruct (url_cases _ U) as [->|[a [r [-> _]]]]; destruct dt; reflexivity.
  Qed.
  Lemma config_loaded c d : full_config c -> config_doc c = VDict d -> mk_cont (VDict d) = spc_page c (map (scheme_card true) (cf_schemes c)).
  Proof.
    intros (U & [b1 B1] & [b2 B2] & [z1 Z1] & [z2 Z2] & [b3 B3] & [z3 Z3] & [b4 B4] & [b5 B5] & [b6 B6] & _ & S) E.
    assert (L : map conv_item (map scheme_doc (cf_schemes c)) = map (scheme_card true) (cf_schemes c)) by (clear - S; induction S as [|s l H _ IH]; cbn [map]; [reflexivity|]; rewrite (scheme_loaded s H), IH; reflexivity).
    rewrite <- L, <- E. clear E d L. destruct c as [doc pa [bs bo bp] [fs fr] cp so et l]. cbn [cf_documentation cf_patch cf_bulk cf_filter cf_change_password cf_sort cf_etag cf_schemes bo_supported bo_max_operations bo_max_payload fo_supported fo_max_results] in *. subst.
    unfold config_doc, spc_page. cbn [cf_documentation cf_patch cf_bulk cf_filter cf_change_password cf_sort cf_etag cf_schemes bo_supported bo_max_operations bo_max_payload fo_supported fo_max_results].
    unfold dict_of at 1. destruct (url_cases _ U) as [->|[a [r [-> _]]]]; rewrite mk_cont_dict; cbn [unless_empty app map fst snd load]; reflexivity.
  Qed.
  Definition spc_list : list attribute :=
    [schemas_attr; spc_id_attr; external_id_attr; meta_attr; mk_simple (ro (plain ($"documentationUri") TExternalRef)); option_attr ($"patch") [supported_attr];
     option_attr ($"bulk") [supported_attr; ro_int ($"maxOperations"); ro_int ($"maxPayloadSize")]; option_attr ($"filter") [supported_attr; ro_int ($"maxResults")];
     option_attr ($"changePassword") [supported_attr]; option_attr ($"sort") [supported_attr]; option_attr ($"etag") [supported_attr]; auth_schemes_attr].
  Lemma spc_tops : at_top (sc_attrs spc_schema) = map (fun a => bound_attr (mkRep spc_uri (r_attr (arep a)) [] false) a) spc_list.
  Proof. reflexivity. Qed.
  Lemma spc_all : at_all (sc_attrs spc_schema) = flat_map (bound_all spc_uri false) spc_list.
  Proof.
    change (dedup_attrs (flat_map (bound_all spc_uri false) spc_list) = flat_map (bound_all spc_uri false) spc_list).
    apply dedup_id. apply (NoDup_map_inv (fun k => match k with (a, b, c) => b ++ $"." ++ c end)). apply nodupb_ok. vm_compute. reflexivity.
  Qed.
  Definition schemes_attr : attribute := bound_attr (mkRep spc_uri ($"authenticationSchemes") [] false) auth_schemes_attr.
  Lemma url_dumped i t : a_type i = TExternalRef -> a_multi i = false -> a_canon i = None -> a_dumpers i = [] -> env_abs_url t = true -> base_process MDump i (VStr t) = Ok (VStr t, no_issues).
  Proof.
    intros H1 H2 H3 H4 H. unfold base_process. rewrite H1, H2. assert (E : type_proc MDump TExternalRef (VStr t) = Ok (pass (VStr t))) by (cbn; rewrite H; reflexivity). cbn [is_list andb negb]. rewrite E. unfold pass. cbn [bind]. rewrite merge_nil.
    unfold canon_step, is_canonical. rewrite H3. change (has_issues no_issues []) with false. cbn [procs_of]. rewrite H4. reflexivity.
  Qed.

  Definition scheme_subs : list attribute :=
    [mk_simple (ro (with_required (with_canon false (canon ["oauth"; "oauth2"; "oauthbearertoken"; "httpbasic"; "httpdigest"]%string) (plain ($"type") TString))));
     ro_req_str ($"name"); ro_req_str ($"description"); mk_simple (ro (plain ($"specUri") TExternalRef))].
  Lemma type_text t : process (nth 0 scheme_subs schemas_attr) MDump (VStr t) = Ok (VStr t, no_issues).
  Proof. cbn [nth scheme_subs process mk_simple]. unfold base_process. cbn [a_multi]. assert (E : type_proc MDump TString (VStr t) = Ok (pass (VStr t))) by reflexivity.
    change (a_type (ro (with_required (with_canon false (canon ["oauth"; "oauth2"; "oauthbearertoken"; "httpbasic"; "httpdigest"]%string) (plain ($"type") TString))))) with TString. rewrite E. unfold pass. cbn [is_list andb negb].
    change (a_multi (ro (with_required (with_canon false (canon ["oauth"; "oauth2"; "oauthbearertoken"; "httpbasic"; "httpdigest"]%string) (plain ($"type") TString))))) with false. cbn [bind].
    unfold canon_step. change (a_validate (ro (with_required (with_canon false (canon ["oauth"; "oauth2"; "oauthbearertoken"; "httpbasic"; "httpdigest"]%string) (plain ($"type") TString))))) with false.
    destruct (is_canonical _ _); reflexivity.
  Qed.
  Lemma scheme_walked s p : full_scheme s -> walk MDump (scheme_card true s) p scheme_subs empty_cont no_issues = Ok (scheme_card false s, no_issues).
  Proof.
    intros (T & N & D & U & [dt Dt]). destruct s as [n d sp dc ty]. cbn [as_type as_name as_description as_spec as_documentation] in *. destruct T as [t [-> _]], N as [n' [-> _]], D as [d' [-> _]]. subst dc.
    unfold scheme_card. cbn [as_type as_name as_description as_spec as_documentation]. unfold scheme_subs. pose proof (type_text t) as Pt. cbn [nth scheme_subs] in Pt.
    destruct (url_cases _ U) as [->|[a [r [-> Hu]]]]; destruct dt as [|x y]; cbn [unless_empty app];
    rewrite walk_cons; match goal with |- context [get_item ?c (arep ?s)] => let E := fresh in eassert (E : get_item c (arep s) = Ok _) by reflexivity; rewrite E; clear E end; cbn [bind]; rewrite Pt; cbn [bind]; rewrite merge_nil;
    match goal with |- context [set_item ?c (arep ?s) ?v] => let E := fresh in eassert (E : set_item c (arep s) v = Ok _) by reflexivity; rewrite E; clear E end; cbn [bind]; clear Pt;
    do 2 (rewrite walk_cons; match goal with |- context [get_item ?c (arep ?s)] => let E := fresh in eassert (E : get_item c (arep s) = Ok _) by reflexivity; rewrite E; clear E end; cbn [bind];
       match goal with |- context [process ?s MDump ?v] => let E := fresh in assert (E : process s MDump v = Ok (v, no_issues)) by reflexivity; rewrite E; clear E end; cbn [bind]; rewrite merge_nil;
       match goal with |- context [set_item ?c (arep ?s) ?v] => let E := fresh in eassert (E : set_item c (arep s) v = Ok _) by reflexivity; rewrite E; clear E end; cbn [bind]);
    rewrite walk_cons; match goal with |- context [get_item ?c (arep ?s)] => let E := fresh in eassert (E : get_item c (arep s) = Ok _) by reflexivity; rewrite E; clear E end; cbn [bind]; try reflexivity;
    (match goal with |- context [process ?s MDump ?v] => let E := fresh in assert (E : process s MDump v = Ok (v, no_issues)) by (apply url_dumped; [reflexivity | reflexivity | reflexivity | reflexivity | exact Hu]); rewrite E; clear E end; cbn [bind]; rewrite merge_nil; reflexivity).
  Qed.
  Lemma schemes_dumped l : Forall full_scheme l -> process schemes_attr MDump (VList (map (scheme_card true) l)) = Ok (VList (map (scheme_card false) l), no_issues).
  Proof.
    intros H. assert (E : exists i cps, schemes_attr = MkAttr i (Some (scheme_subs, cps, [single_primary])) /\ a_type i = TComplex /\ a_multi i = true /\ a_canon i = None /\ a_dumpers i = []) by (do 2 eexists; repeat split; reflexivity).
    destruct E as (i & cps & -> & H1 & H2 & H3 & H4). apply objects_dumped; try assumption. intros s Hs. pose proof (proj1 (Forall_forall _ _) H s Hs) as F. split; [reflexivity|]. split; [intros p; apply scheme_walked; exact F|].
    destruct F as (T & N & D & U & _). destruct s as [n d sp dc ty]. cbn [as_type as_name as_description as_spec as_documentation] in *. destruct T as [t [-> _]], N as [n' [-> _]], D as [d' [-> _]].
    unfold scheme_card. cbn [as_type as_name as_description as_spec as_documentation]. destruct (url_cases _ U) as [->|[a [r [-> _]]]]; reflexivity.
  Qed.

  Ltac write_attr tac := erewrite attrs_write; [|reflexivity | tac | reflexivity | discriminate].
  Lemma config_dumped c d : full_config c -> config_doc c = VDict d -> schema_dump spc_schema (VDict d) = Ok (spc_page c (map (scheme_card false) (cf_schemes c)), no_issues).
  Proof.
    intros F E. pose proof (config_loaded c d F E) as L. clear E. destruct F as (U & [b1 B1] & [b2 B2] & [z1 Z1] & [z2 Z2] & [b3 B3] & [z3 Z3] & [b4 B4] & [b5 B5] & [b6 B6] & _ & S).
    pose proof (schemes_dumped _ S) as P12. revert L P12. generalize (map (scheme_card true) (cf_schemes c)) (map (scheme_card false) (cf_schemes c)). intros l1 l2 L P12.
    destruct c as [doc pa [bs bo bp] [fs fr] cp so et l]. cbn [cf_documentation cf_patch cf_bulk cf_filter cf_change_password cf_sort cf_etag cf_schemes bo_supported bo_max_operations bo_max_payload fo_supported fo_max_results] in *. subst.
    unfold spc_page in *. cbn [cf_documentation cf_patch cf_bulk cf_filter cf_change_password cf_sort cf_etag cf_schemes bo_supported bo_max_operations bo_max_payload fo_supported fo_max_results] in *. clear S l.
    assert (A12 : arep schemes_attr = mkRep spc_uri ($"authenticationSchemes") [] false) by reflexivity.
    match goal with |- schema_dump _ _ = Ok (?pg, _) => assert (P : process_data MDump spc_schema (VDict d) = Ok (pg, no_issues)) end.
    { unfold process_data. rewrite L, spc_tops. clear L. unfold spc_list. cbn [map].
      change (bound_attr (mkRep spc_uri (r_attr (arep auth_schemes_attr)) [] false) auth_schemes_attr) with schemes_attr. revert P12 A12. generalize schemes_attr. intros sa P12 A12.
      destruct (url_cases _ U) as [->|[a [r [-> Hu]]]]; cbn [unless_empty app]; write_attr ltac:(reflexivity); do 3 rewrite attrs_skip by reflexivity;
      [rewrite attrs_skip by reflexivity | write_attr ltac:(apply url_dumped; [reflexivity | reflexivity | reflexivity | reflexivity | exact Hu])];
      do 6 (write_attr ltac:(reflexivity)); (erewrite attrs_write; [|rewrite A12; reflexivity | exact P12 | rewrite A12; reflexivity | discriminate]); reflexivity. }
    unfold schema_dump, base_parse. rewrite P. clear P P12 L A12. cbn [bind]. destruct (url_cases _ U) as [->|[a [r [-> _]]]]; cbn [unless_empty app]; vm_compute; reflexivity.
  Qed.

  Ltac fields_of c := destruct c as [doc pa [bs bo bp] [fs fr] cp so et l]; cbn [cf_documentation cf_patch cf_bulk cf_filter cf_change_password cf_sort cf_etag cf_schemes bo_supported bo_max_operations bo_max_payload fo_supported fo_max_results] in *; subst.
  Definition spc_complex : list str := [$"meta"; $"patch"; $"bulk"; $"filter"; $"changePassword"; $"sort"; $"etag"].
  Lemma spc_finds : forall n, In n spc_complex -> exists t, find_attr (flat_map (bound_all spc_uri false) spc_list) (mkRep spc_uri n [] false) = Some t /\ a_multi (info t) = false.
  Proof. intros n H. repeat (destruct H as [<-|H]; [eexists; split; reflexivity|]). destruct H. Qed.
  Lemma config_present c : full_config c -> presence default_checker (spc_page c (map (scheme_card false) (cf_schemes c))) (at_all (sc_attrs spc_schema)) Response = Ok no_issues.
  Proof.
    intros (U & [b1 B1] & [b2 B2] & [z1 Z1] & [z2 Z2] & [b3 B3] & [z3 Z3] & [b4 B4] & [b5 B5] & [b6 B6] & Ne & S). apply all_fine. rewrite spc_all. pose proof spc_finds as F.
    assert (F1 : exists t, find_attr (flat_map (bound_all spc_uri false) spc_list) (mkRep spc_uri ($"authenticationSchemes") [] false) = Some t /\ a_multi (info t) = true) by (eexists; split; reflexivity).
    destruct F1 as (t & F1 & F2). revert F F1. generalize (flat_map (bound_all spc_uri false) spc_list) at 1 2 4. intros all F F1.
    assert (K : forall x, In x (map (scheme_card false) (cf_schemes c)) -> exists ty n d sp, x = tabled ([($"type", VStr ty); ($"name", VStr n); ($"description", VStr d)] ++ unless_empty ($"specUri") sp ++ []) /\ ty <> [] /\ n <> [] /\ d <> [] /\ maybe_url sp).
    { intros x Hx. apply in_map_iff in Hx as [s [<- Hs]]. destruct (proj1 (Forall_forall _ _) S s Hs) as ([ty [T1 T2]] & [n [N1 N2]] & [d [D1 D2]] & Us & _). exists ty, n, d, (as_spec s). unfold scheme_card. rewrite T1, N1, D1. auto. }
    assert (Bl : is_blank (VList (map (scheme_card false) (cf_schemes c))) = false) by (destruct (cf_schemes c); [congruence | reflexivity]). clear S Ne.
    revert K Bl. generalize (map (scheme_card false) (cf_schemes c)). intros cards K Bl. fields_of c. unfold spc_page.
    cbn [cf_documentation cf_patch cf_bulk cf_filter cf_change_password cf_sort cf_etag cf_schemes bo_supported bo_max_operations bo_max_payload fo_supported fo_max_results] in *. clear l.
    assert (G : forall n, In n spc_complex -> exists t, find_attr all (mkRep spc_uri n [] false) = Some t /\ a_multi (info t) = false) by exact F. clear F.
    destruct (G ($"meta") ltac:(simpl; tauto)) as (t1 & G1 & M1). destruct (G ($"patch") ltac:(simpl; tauto)) as (t2 & G2 & M2). destruct (G ($"bulk") ltac:(simpl; tauto)) as (t3 & G3 & M3). destruct (G ($"filter") ltac:(simpl; tauto)) as (t4 & G4 & M4).
    destruct (G ($"changePassword") ltac:(simpl; tauto)) as (t5 & G5 & M5). destruct (G ($"sort") ltac:(simpl; tauto)) as (t6 & G6 & M6). destruct (G ($"etag") ltac:(simpl; tauto)) as (t7 & G7 & M7). clear G.
    intros b Hb. destruct (url_cases _ U) as [->|[a [r [-> Hu]]]]; cbn [unless_empty app]; clear U;
    (repeat (destruct Hb as [<-|Hb];
      [first [eapply top_fine; [reflexivity | reflexivity | reflexivity | first [apply optional_fine; [reflexivity | discriminate] | apply there_fine; [first [reflexivity | exact Bl] | discriminate]]]
        | eapply sub_fine; [reflexivity | reflexivity | first [exact G1 | exact G2 | exact G3 | exact G4 | exact G5 | exact G6 | exact G7] | assumption | reflexivity | first [apply optional_fine; [reflexivity | discriminate] | apply there_fine; [reflexivity | discriminate]]]
        | eapply subs_fine; [reflexivity | reflexivity | exact F1 | exact F2 | reflexivity | reflexivity|]; intros x Hx; destruct (K x Hx) as (ty & n & de & sp & -> & Ny & Nn & Nd & Us); destruct (url_cases _ Us) as [->|[a' [r' [-> _]]]]; cbn [unless_empty app];
          eexists; (split; [reflexivity | first [apply optional_fine; [reflexivity | discriminate] | apply there_fine; [first [apply text_there; exact Ny | apply text_there; exact Nn | apply text_there; exact Nd] | discriminate]]])]|])); destruct Hb.
  Qed.
  Lemma config_filed c : full_config c -> filed json_scalar (spc_page c (map (scheme_card false) (cf_schemes c))).
  Proof.
    intros (U & [b1 B1] & [b2 B2] & [z1 Z1] & [z2 Z2] & [b3 B3] & [z3 Z3] & [b4 B4] & [b5 B5] & [b6 B6] & Ne & S).
    assert (Sc : forall v, json_scalar v -> filed json_scalar v) by (intros v X; apply filed_scalar; exact X).
    assert (K : filed json_scalar (VList (map (scheme_card false) (cf_schemes c)))).
    { apply filed_list; apply Forall_forall; intros x Hx; apply in_map_iff in Hx as [s [<- Hs]]; [|reflexivity]. destruct (proj1 (Forall_forall _ _) S s Hs) as ([ty [T1 T2]] & [n [N1 N2]] & [d [D1 D2]] & Us & _). unfold scheme_card. rewrite T1, N1, D1.
      destruct (url_cases _ Us) as [->|[a [r [-> _]]]]; cbn [unless_empty app]; (apply tabled_filed; [apply nodupb_ok; reflexivity|]); repeat apply Forall_cons; try apply Forall_nil; apply Sc; split; exact I. }
    revert K. generalize (map (scheme_card false) (cf_schemes c)). clear S Ne. intros cards K. fields_of c. unfold spc_page.
    cbn [cf_documentation cf_patch cf_bulk cf_filter cf_change_password cf_sort cf_etag cf_schemes bo_supported bo_max_operations bo_max_payload fo_supported fo_max_results] in *. clear l.
    assert (P1 : forall b, filed json_scalar (tabled [($"supported", VBool b)])) by (intros b; apply tabled_filed; [repeat constructor; intros [] | repeat constructor]).
    assert (P2 : forall b z, filed json_scalar (tabled [($"supported", VBool b); ($"maxResults", VInt z)])) by (intros b z; apply tabled_filed; [apply nodupb_ok; reflexivity | repeat apply Forall_cons; try apply Forall_nil; apply Sc; split; exact I]).
    assert (P3 : forall b z z', filed json_scalar (tabled [($"supported", VBool b); ($"maxOperations", VInt z); ($"maxPayloadSize", VInt z')])) by (intros b z z'; apply tabled_filed; [apply nodupb_ok; reflexivity | repeat apply Forall_cons; try apply Forall_nil; apply Sc; split; exact I]).
    destruct (url_cases _ U) as [->|[a [r [-> _]]]]; cbn [unless_empty app]; (apply tabled_filed; [apply nodupb_ok; reflexivity|]); repeat apply Forall_cons; try apply Forall_nil; cbn [snd];
      first [exact K | apply P1 | apply P2 | apply P3 | apply Sc; split; exact I | apply filed_list; repeat constructor].
  Qed.
End Env.
