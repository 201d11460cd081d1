(** Schemas written by the schema of schemas. *)
From Coq Require Import Lia.
From Verif Require Import PyBase BaseFacts PyNum Issues IssuesSpec IssuesFacts AttrRep AttrRepSpec Value ValueFacts Container ContainerSpec ContainerFacts ContainerRW
  Types Attr AttrSpec AttrFacts AttrItems Schema Assets Patch SchemaS SchemaSpec SchemaFacts SchemaBuild PropSchema PatchFacts SelfSpec SelfFacts.

Section Env.
  Context {env : PyEnv}.

  Lemma items_plain l : (forall x, In x l -> conv_item x = x) -> map conv_item l = l.
  Proof. induction l as [|x l IH]; intros H; [reflexivity|]. cbn [map]. rewrite H by (left; reflexivity). f_equal. apply IH. intros y Hy. apply H. right. exact Hy. Qed.
  Lemma canon_conv i v : canon_part i = Some v -> conv v = v.
  Proof.
    unfold canon_part. destruct (a_canon i) as [[|x l]|]; intros E; try discriminate. injection E as <-. cbn [conv]. f_equal. apply items_plain. intros y Hy. change (v_of_lit x :: map v_of_lit l) with (map v_of_lit (x :: l)) in Hy.
    apply in_map_iff in Hy as [z [<- _]]. destruct z; reflexivity.
  Qed.
  Lemma ref_conv i v : ref_part i = Some v -> conv v = v.
  Proof.
    unfold ref_part. destruct (a_reftypes i) as [|x l]; intros E; try discriminate. injection E as <-. cbn [conv]. f_equal. apply items_plain. intros y Hy. change (VStr x :: map VStr l) with (map VStr (x :: l)) in Hy.
    apply in_map_iff in Hy as [z [<- _]]. reflexivity.
  Qed.
  Lemma card_loaded i sub : mk_cont (dict_of (in_card i sub)) = tabled (in_card i (option_map conv sub)).
  Proof.
    unfold dict_of. rewrite mk_cont_dict. unfold in_card. pose proof (canon_conv i) as C. pose proof (ref_conv i) as R.
    destruct (canon_part i) as [cv|]; [specialize (C cv eq_refl)|clear C]; (destruct (ref_part i) as [rv|]; [specialize (R rv eq_refl)|clear R]); destruct sub as [sv|];
      cbn [one_if app map fst snd load option_map]; rewrite ?C, ?R; reflexivity.
  Qed.

  Lemma card_fields i sub w : scim_name (a_type i) = Ok w -> attr_fields (MkAttr i sub) =
    match sub with
    | None => Ok (in_card i None)
    | Some (subs, _, _) => let! ds := mapM attr_to_dict subs in Ok (in_card i (Some (VList ds)))
    end.
  Proof.
    intros E. cbn [attr_fields]. unfold in_card, word_of, canon_part, ref_part. rewrite E. cbn [bind].
    assert (G : forall subs, (fix go (l : list attribute) : res (list value) := match l with [] => Ok [] | s :: t => let! d := attr_fields s in let! ds := go t in Ok (dict_of d :: ds) end) subs = mapM attr_to_dict subs).
    { induction subs as [|a l IH]; [reflexivity|]. cbn [mapM]. rewrite <- IH. unfold attr_to_dict. destruct (attr_fields a); reflexivity. }
    destruct sub as [[[subs cps] cds]|]; [rewrite G; destruct (mapM _ _); [|reflexivity]|]; cbn [bind]; f_equal; destruct (a_canon i) as [[|]|]; destruct (a_reftypes i); reflexivity.
  Qed.

  (** Every attribute with a type that has a name. *)
  Lemma dict_raw : forall a, (exists dec n, describable dec n a) -> exists d, attr_to_dict a = Ok (VDict d) /\ mk_cont (VDict d) = raw a.
  Proof.
    fix IH 1. intros [i sub] [dec [n Hn]]. destruct (describable_type _ _ _ _ Hn) as [w Hw]. pose proof (proj1 (type_word_iff _ _ Hw)) as Ew.
    unfold attr_to_dict. rewrite (card_fields i sub w Ew). destruct sub as [[[subs cps] cds]|]; cbn [raw].
    - destruct (describable_subs _ _ _ _ _ _ Hn) as [_ [n' [_ Hs]]].
      assert (G : exists ds, mapM attr_to_dict subs = Ok ds /\ map conv_item ds = map raw subs).
      { clear Hn Ew Hw w. induction subs as [|a l IHl]; [exists []; split; reflexivity|]. apply Forall_cons_iff in Hs as [H1 H2]. destruct (IH a (ex_intro _ dec (ex_intro _ n' H1))) as [d [D1 D2]]. destruct (IHl H2) as [ds [E1 E2]].
        exists (VDict d :: ds). cbn [mapM map conv_item]. rewrite D1, E1, E2, D2. split; reflexivity. }
      destruct G as [ds [G1 G2]]. rewrite G1. cbn [bind]. unfold dict_of. eexists. split; [reflexivity|]. fold (dict_of (in_card i (Some (VList ds)))).
      rewrite (card_loaded i (Some (VList ds))). cbn [option_map conv]. rewrite G2. reflexivity.
    - cbn [bind]. unfold dict_of. eexists. split; [reflexivity|]. fold (dict_of (in_card i None)). exact (card_loaded i None).
  Qed.

  (** ** What the cards tell *)

  Definition look (l : list (str * value)) (n : str) : option value :=
    match sget (lower n) (map (fun e => (lower (fst e), fst e)) l) with Some k => sget k l | None => None end.
  Lemma holds_look l n v : holds (tabled l) n v <-> look l n = Some v.
  Proof.
    unfold tabled, look. split.
    - intros [d [m [k [E [G1 G2]]]]]. injection E as <- <-. rewrite G1. exact G2.
    - destruct (sget (lower n) _) as [k|] eqn:G; [|discriminate]. intros E. exists l, (map (fun e => (lower (fst e), fst e)) l), k. auto.
  Qed.
  Lemma canon_iff i v : canon_part i = Some v <-> exists l, a_canon i = Some l /\ l <> [] /\ v = VList (map v_of_lit l).
  Proof.
    unfold canon_part. destruct (a_canon i) as [[|x l]|]; split; try discriminate.
    - intros [l [E [N _]]]. injection E as <-. contradiction.
    - intros E. injection E as <-. exists (x :: l). split; [reflexivity|]. split; [discriminate | reflexivity].
    - intros [l' [E [_ ->]]]. injection E as <-. reflexivity.
    - intros [l [E _]]. discriminate.
  Qed.
  Lemma ref_iff i v : ref_part i = Some v <-> a_reftypes i <> [] /\ v = VList (map VStr (a_reftypes i)).
  Proof.
    unfold ref_part. destruct (a_reftypes i) as [|x l]; split; try discriminate.
    - intros [N _]. contradiction.
    - intros E. injection E as <-. split; [discriminate | reflexivity].
    - intros [_ ->]. reflexivity.
  Qed.
  Lemma mut_tells m : mut_word m (mut_str m).
  Proof. destruct m; constructor. Qed.
  Lemma ret_tells m : ret_word m (ret_str m).
  Proof. destruct m; constructor. Qed.
  Lemma uniq_tells m : uniq_word m (uniq_str m).
  Proof. destruct m; constructor. Qed.

  (** Where the entries of a card are found. *)
  Definition found (all : bool) (i : ainfo) (sub : option value) (l : list (str * value)) : Prop :=
    map (look l) [$"name"; $"type"; $"multiValued"; $"description"; $"required"; $"caseExact"; $"mutability"; $"returned"; $"uniqueness"; $"canonicalValues"; $"referenceTypes"; $"subAttributes"]
    = [Some (VStr (r_attr (a_rep i))); Some (VStr (word_of (a_type i))); Some (VBool (a_multi i)); Some (VStr (a_descr i)); Some (VBool (a_required i)); (if all then Some (VBool (a_case_exact i)) else None);
       Some (VStr (mut_str (a_mut i))); Some (VStr (ret_str (a_ret i))); Some (VStr (uniq_str (a_uniq i))); canon_part i; ref_part i; sub].
  Lemma in_found i sub : found true i sub (in_card i sub).
  Proof. unfold found, in_card. destruct (canon_part i), (ref_part i), sub; reflexivity. Qed.
  Lemma out_found all i sub : found all i sub (out_card all i sub).
  Proof. unfold found, out_card. destruct (canon_part i), (ref_part i), sub, all; reflexivity. Qed.

  Lemma found_tells (all b : bool) i sub l : (exists w, type_word (a_type i) w) -> (b = true <-> all = true \/ a_type i = TString) -> found b i sub l ->
    tells all i (tabled l) /\ forall v, holds (tabled l) ($"subAttributes") v <-> sub = Some v.
  Proof.
    intros [w Hw] Hb F. destruct (type_word_iff _ _ Hw) as [_ Ew]. unfold found in F. rewrite Ew in F. cbn [map] in F.
    assert (Q : forall x y (t u : list (option value)), x :: t = y :: u -> x = y /\ t = u) by (intros x y t u E; split; [exact (f_equal (hd None) E) | exact (f_equal (@tl _) E)]).
    apply Q in F as [L1 F]. apply Q in F as [L2 F]. apply Q in F as [L3 F]. apply Q in F as [L4 F]. apply Q in F as [L5 F]. apply Q in F as [L6 F].
    apply Q in F as [L7 F]. apply Q in F as [L8 F]. apply Q in F as [L9 F]. apply Q in F as [L10 F]. apply Q in F as [L11 F]. apply Q in F as [L12 _]. clear Q.
    split; [|intros v; rewrite holds_look, L12; reflexivity].
    unfold tells. split; [apply holds_look; exact L1|]. split; [exists w; split; [exact Hw | apply holds_look; exact L2]|]. split; [apply holds_look; exact L3|]. split; [apply holds_look; exact L4|].
    split; [apply holds_look; exact L5|]. split; [|split; [|split; [|split; [|split]]]].
    - intros v. rewrite holds_look, L6. destruct b.
      + split; [intros E; injection E as <-; split; [apply Hb|]; reflexivity | intros [_ ->]; reflexivity].
      + split; [discriminate|]. intros [E _]. apply Hb in E. discriminate.
    - eexists. split; [apply mut_tells | apply holds_look; exact L7].
    - eexists. split; [apply ret_tells | apply holds_look; exact L8].
    - eexists. split; [apply uniq_tells | apply holds_look; exact L9].
    - intros v. rewrite holds_look, L10. apply canon_iff.
    - intros v. rewrite holds_look, L11. apply ref_iff.
  Qed.

  Lemma raw_describes : forall a, (exists dec n, describable dec n a) -> describes true a (raw a).
  Proof.
    fix IH 1. intros [i sub] [dec [n Hn]]. destruct (found_tells true true i (match sub with Some (l, _, _) => Some (VList (map raw l)) | None => None end) _ (describable_type _ _ _ _ Hn) ltac:(tauto) (in_found i _)) as [T1 T2].
    cbn [raw describes]. split; [exact T1|]. destruct sub as [[[subs cps] cds]|].
    - exists (map raw subs). split; [apply T2; reflexivity|]. destruct (describable_subs _ _ _ _ _ _ Hn) as [_ [n' [_ Hs]]]. clear T1 T2 Hn. induction subs as [|a l IHl]; [exact I|]. apply Forall_cons_iff in Hs as [H1 H2].
      cbn [map]. split; [apply IH; eauto | apply IHl; exact H2].
    - intros v Hv. apply T2 in Hv. discriminate.
  Qed.
  Lemma shown_describes : forall a, (exists dec n, describable dec n a) -> describes false a (shown a).
  Proof.
    fix IH 1. intros [i sub] [dec [n Hn]]. destruct (found_tells false (is_text i) i (match sub with Some (l, _, _) => Some (VList (map shown l)) | None => None end) (out_card (is_text i) i (match sub with Some (l, _, _) => Some (VList (map shown l)) | None => None end)) (describable_type _ _ _ _ Hn)) as [T1 T2].
    { unfold is_text. destruct (a_type i); split; try discriminate; try (intros [E|E]; discriminate); auto. }
    { apply out_found. }
    cbn [shown describes]. split; [exact T1|]. destruct sub as [[[subs cps] cds]|].
    - exists (map shown subs). split; [apply T2; reflexivity|]. destruct (describable_subs _ _ _ _ _ _ Hn) as [_ [n' [_ Hs]]]. clear T1 T2 Hn. induction subs as [|a l IHl]; [exact I|]. apply Forall_cons_iff in Hs as [H1 H2].
      cbn [map]. split; [apply IH; eauto | apply IHl; exact H2].
    - intros v Hv. apply T2 in Hv. discriminate.
  Qed.

  (** ** The whole document *)

  Definition schema_uri : str := $"urn:ietf:params:scim:schemas:core:2.0:Schema".
  Definition bound_top (a : attribute) : attribute := bound_attr (mkRep schema_uri (r_attr (arep a)) [] false) a.
  Lemma schema_tops n : at_top (sc_attrs (schema_schema n)) = map bound_top [schemas_attr; server_ro_attr ($"id") TString; external_id_attr; meta_attr; server_ro_attr ($"name") TString; server_ro_attr ($"description") TString; attributes_attr n].
  Proof.
    unfold schema_schema, resource_schema, base_schema, mk_attrs. cbn [sc_attrs at_top flat_map map]. change (fun a => negb (nonempty (r_sub (arep a)))) with no_sub. rewrite !filter_app.
    assert (G : forall a, filter no_sub (map (fun s => bound_attr (mkRep schema_uri (r_attr (arep a)) (r_attr (arep s)) false) s) (sub_attrs a)) = [] -> filter no_sub (bound_all schema_uri false a) = [bound_top a]).
    { intros a E. unfold bound_all. cbn [filter]. unfold no_sub at 1. rewrite bound_rep. cbn [r_sub nonempty negb]. rewrite E. reflexivity. }
    fold schema_uri. rewrite !G; [reflexivity | rewrite attributes_form; vm_compute; reflexivity | vm_compute; reflexivity ..].
  Qed.
  Lemma schema_meta n : exists a, attr_named2 (sc_attrs (schema_schema n)) ($"meta") ($"resourcetype") = Some a /\ arep a = mkRep schema_uri ($"meta") ($"resourceType") false.
  Proof. unfold schema_schema. rewrite attributes_form. eexists. split; reflexivity. Qed.
  Lemma schema_named n : attr_named (sc_attrs (schema_schema n)) ($"schemas") = Some (bound_top schemas_attr).
  Proof. unfold attr_named. rewrite schema_tops. reflexivity. Qed.

  Definition raw_doc (s : schema) : value :=
    tabled [($"id", VStr (sc_uri s)); ($"schemas", VList [VStr schema_uri]); ($"name", VStr (sc_name s)); ($"description", VStr (sc_descr s));
            ($"attributes", VList (map raw (at_top (sc_attrs s)))); ($"meta", tabled [($"resourceType", VStr ($"Schema"))])].
  Definition shown_doc (s : schema) : value :=
    tabled [($"schemas", VList [VStr schema_uri]); ($"id", VStr (sc_uri s)); ($"meta", tabled [($"resourceType", VStr ($"Schema"))]); ($"name", VStr (sc_name s)); ($"description", VStr (sc_descr s));
            ($"attributes", VList (map shown (at_top (sc_attrs s))))].
  Lemma dicts_raw dec n l : Forall (describable dec n) l -> exists ds, mapM attr_to_dict l = Ok ds /\ map conv_item ds = map raw l.
  Proof.
    induction 1 as [|a l Ha _ [ds [E1 E2]]]; [exists []; split; reflexivity|]. destruct (dict_raw a (ex_intro _ dec (ex_intro _ n Ha))) as [d [D1 D2]].
    exists (VDict d :: ds). cbn [mapM map conv_item]. rewrite D1, E1, E2, D2. split; reflexivity.
  Qed.
  Lemma rep_loaded dec n s : Forall (describable dec n) (at_top (sc_attrs s)) -> exists d, get_schema_rep s = Ok (VDict d) /\ mk_cont (VDict d) = raw_doc s.
  Proof.
    intros H. destruct (dicts_raw _ _ _ H) as [ds [E1 E2]]. unfold get_schema_rep. rewrite E1. cbn [bind]. unfold dict_of at 1. eexists. split; [reflexivity|]. rewrite mk_cont_dict. cbn [map fst snd load].
    unfold raw_doc. rewrite <- E2. reflexivity.
  Qed.

  Lemma p_attributes n l : Forall (describable false n) l -> process (bound_top (attributes_attr n)) MDump (VList (map raw l)) = Ok (VList (map shown l), no_issues).
  Proof. intros H. rewrite attributes_form. unfold bound_top. cbn [bound_attr]. rewrite s_dedup. apply dump_list; [apply all_deep | reflexivity | reflexivity | reflexivity | reflexivity | exact H]. Qed.

  Lemma attrs_write m a t data pr x y pr' : get_item data (arep a) = Ok x -> process a m x = Ok (y, no_issues) -> set_item pr (arep a) y = Ok pr' -> x <> VMissing ->
    process_attrs m (a :: t) data pr no_issues = process_attrs m t data pr' no_issues.
  Proof. intros H1 H2 H3 N. cbn [process_attrs]. rewrite H1. cbn [bind]. rewrite H2. cbn [bind]. rewrite H3. cbn [bind]. rewrite merge_nil. destruct x; congruence || reflexivity. Qed.
  Lemma attrs_skip m a t data pr : get_item data (arep a) = Ok VMissing -> process_attrs m (a :: t) data pr no_issues = process_attrs m t data pr no_issues.
  Proof. intros H1. cbn [process_attrs]. rewrite H1. reflexivity. Qed.
  Lemma doc_data n s d : Forall (describable false n) (at_top (sc_attrs s)) -> mk_cont (VDict d) = raw_doc s -> process_data MDump (schema_schema n) (VDict d) = Ok (shown_doc s, no_issues).
  Proof.
    intros H E. unfold process_data. rewrite E, schema_tops. unfold raw_doc, shown_doc. pose proof (p_attributes n _ H) as P7. revert P7. generalize (map raw (at_top (sc_attrs s))) (map shown (at_top (sc_attrs s))). intros rs ss P7. cbn [map].
    generalize (sc_uri s) (sc_name s) (sc_descr s). intros u nm de. set (at7 := bound_top (attributes_attr n)) in *.
    assert (A7 : arep at7 = mkRep schema_uri ($"attributes") [] false) by (unfold at7; rewrite attributes_form; reflexivity). clearbody at7.
    assert (P1 : process (bound_top schemas_attr) MDump (VList [VStr schema_uri]) = Ok (VList [VStr schema_uri], no_issues)) by reflexivity.
    assert (P2 : process (bound_top (server_ro_attr ($"id") TString)) MDump (VStr u) = Ok (VStr u, no_issues)) by reflexivity.
    assert (P4 : process (bound_top meta_attr) MDump (tabled [($"resourceType", VStr ($"Schema"))]) = Ok (tabled [($"resourceType", VStr ($"Schema"))], no_issues)) by reflexivity.
    assert (P5 : process (bound_top (server_ro_attr ($"name") TString)) MDump (VStr nm) = Ok (VStr nm, no_issues)) by reflexivity.
    assert (P6 : process (bound_top (server_ro_attr ($"description") TString)) MDump (VStr de) = Ok (VStr de, no_issues)) by reflexivity.
    erewrite attrs_write; [|reflexivity | exact P1 | reflexivity | discriminate]. erewrite attrs_write; [|reflexivity | exact P2 | reflexivity | discriminate].
    rewrite attrs_skip by reflexivity. erewrite attrs_write; [|reflexivity | exact P4 | reflexivity | discriminate]. erewrite attrs_write; [|reflexivity | exact P5 | reflexivity | discriminate].
    erewrite attrs_write; [|reflexivity | exact P6 | reflexivity | discriminate]. erewrite attrs_write; [|rewrite A7; reflexivity | exact P7 | rewrite A7; reflexivity | discriminate].
    reflexivity.
  Qed.

  Lemma doc_dumped n s d : Forall (describable false n) (at_top (sc_attrs s)) -> mk_cont (VDict d) = raw_doc s -> schema_dump (schema_schema n) (VDict d) = Ok (shown_doc s, no_issues).
  Proof.
    intros H E. unfold schema_dump, base_parse. rewrite (doc_data n s d H E). cbn [bind]. rewrite schema_named.
    assert (E1 : get_item (shown_doc s) (arep (bound_top schemas_attr)) = Ok (VList [VStr schema_uri])) by reflexivity. rewrite E1. cbn [bind]. clear E1.
    change (can_proceed (merge no_issues no_issues []) [schemas_loc] && truthy (VList [VStr schema_uri])) with true. cbv iota.
    assert (E2 : validate_schemas_field (shown_doc s) (VList [VStr schema_uri]) (sc_uri (schema_schema n)) (sc_schemas (schema_schema n)) = Ok no_issues) by reflexivity. rewrite E2. cbn [bind]. clear E2.
    change (merge (merge no_issues no_issues []) no_issues []) with no_issues. change (negb (can_proceed no_issues [])) with false. change (can_proceed no_issues [meta_type_loc]) with true. cbv iota.
    destruct (schema_meta n) as [a [A1 A2]]. rewrite A1, A2.
    assert (E3 : get_item (shown_doc s) (mkRep schema_uri ($"meta") ($"resourceType") false) = Ok (VStr ($"Schema"))) by reflexivity. rewrite E3. reflexivity.
  Qed.
End Env.
