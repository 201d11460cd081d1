(** Lemmas about the operations of bulk requests. *)
From Coq Require Import Lia.
From Verif Require Import PyBase BaseFacts PyNum Issues IssuesSpec IssuesFacts AttrRep AttrRepSpec Value Container ContainerSpec ContainerFacts ContainerRW AttrRepFacts ValueFacts
  Types Attr Schema Assets Presence Match FilterParse Path Sort Patch ListResp Search Bulk Requests
  AttrSpec AttrFacts AttrItems SchemaSpec SchemaFacts SchemaBuild PropAttr PropSchema PresenceSpec PresenceFacts PropPresence PatchSpec PatchFacts PropPatch RequestSpec ListSpec RequestFacts MsgFacts BodyFacts ListFacts
  PatchShapeFacts BulkFacts BulkOpSpec.

(** ** Merging a part of a report *)

Definition undone (j : issues) : issues := mkIssues (i_errs j) (i_stop j) true.
Lemma merge_at_dd i j q i' : dd i -> merge_at i j q = Ok i' -> i' = merge i (undone j) q.
Proof.
  intros D H. unfold merge.
  assert (G : merge_at i (undone j) q = Ok i'); [|rewrite G; reflexivity].
  unfold merge_at in *. cbn [undone i_errs]. revert i D H. generalize (i_errs j) as ents.
  induction ents as [|[ol es] t IH]; intros i D H; cbn [foldM] in *; [exact H|].
  apply bind_ok in H as [s [H1 H]].
  assert (E : merge_entry (undone j) q i (ol, es) = Ok s /\ dd s).
  { unfold merge_entry in *. unfold dd in *. cbn [undone i_stop i_dd]. rewrite D in *.
    destruct (lget ol (i_stop j)), (i_dd j); try discriminate H1; injection H1 as <-; split; try reflexivity; exact D. }
  destruct E as [E1 E2]. rewrite E1. cbn [bind]. exact (IH s E2 H).
Qed.
Lemma merge_get i j p q i' : tight i -> wf j -> merge_at i (get_issues j p) q = Ok i' ->
  tight i' /\ forall x, errs_at i' x = errs_at i x ++ match loc_strip q x with Some x' => errs_at j (p ++ x') | None => [] end.
Proof.
  intros T W H. apply merge_at_dd in H as ->; [|apply T].
  assert (Wj : wf (undone (get_issues j p))).
  { split; [reflexivity|]. cbn [undone i_errs get_issues]. apply below_wf. apply W. }
  split; [apply tight_merge; assumption|]. intros x. rewrite errs_merge_wf by (try exact Wj; apply T).
  f_equal. destruct (loc_strip q x) as [x'|]; [|reflexivity]. change (errs_at (undone (get_issues j p)) x') with (errs_at (get_issues j p) x'). apply errs_at_get.
Qed.
Lemma tight_add i e l : tight i -> tight (add_issue i e false l).
Proof.
  intros [W H]. split; [apply wf_add; exact W|]. intros x. rewrite stops_add, errs_at_add, H. destruct (loc_dec l x) as [<-|N].
  - split; [intros _ G; apply app_eq_nil in G as [_ G]; discriminate G | intros _; right; auto].
  - rewrite app_nil_r. split; [intros [G|[_ G]]; [exact G | congruence] | auto].
Qed.

(** ** Paths *)

Lemma nonempty_word_iff s : nonempty_word s = true <-> word s.
Proof.
  unfold word. destruct s as [|c t]; [split; [discriminate | intros [H _]; contradiction H; reflexivity]|].
  unfold nonempty_word. rewrite forallb_forall, Forall_forall. split; [intros H; split; [discriminate | exact H] | intros [_ H]; exact H].
Qed.
Lemma slash_no_word : is_word slash = false.
Proof. reflexivity. Qed.
Lemma word_no_slash n : word n -> forallb (fun c => negb (chr_eqb c slash)) n = true.
Proof.
  intros [_ H]. apply forallb_forall. intros c Hc. rewrite Forall_forall in H. specialize (H c Hc). destruct (chr_eqb c slash) eqn:E; [|reflexivity].
  apply chr_eqb_eq in E. subst c. discriminate H.
Qed.
Lemma type_path_iff p : resource_type_path p = true <-> exists n, type_path n p.
Proof.
  unfold type_path. destruct p as [|c t]; cbn [resource_type_path]; [split; [discriminate | intros [n [_ H]]; discriminate H]|].
  rewrite Bool.andb_true_iff, chr_eqb_eq, nonempty_word_iff. split; [intros [-> H]; exists t; auto | intros [n [H E]]; injection E as -> ->; auto].
Qed.
Lemma object_path_iff p : resource_object_path p = true <-> exists n, object_path n p.
Proof.
  unfold object_path. destruct p as [|c t]; cbn [resource_object_path]; [split; [discriminate | intros [n [_ [r [H _]]]]; discriminate H]|].
  rewrite Bool.andb_true_iff, chr_eqb_eq. destruct (span is_word t) as [n rest] eqn:E. apply span_spec in E as [-> [E1 E2]].
  assert (Hn : word n <-> nonempty n = true).
  { rewrite <- nonempty_word_iff. unfold nonempty_word. destruct n; [split; discriminate|]. rewrite E1. split; reflexivity. }
  rewrite Bool.andb_true_iff, <- Hn. split.
  - intros [-> [H1 H2]]. exists n. split; [exact H1|]. destruct rest as [|d u]; [discriminate H2|]. apply andb_prop in H2 as [H2 H3]. apply chr_eqb_eq in H2. subst d.
    exists u. split; [reflexivity|]. intros I. rewrite forallb_forall in H3. specialize (H3 _ I). rewrite (proj2 (chr_eqb_eq _ _) eq_refl) in H3. discriminate H3.
  - intros [n' [H1 [r [H2 H3]]]]. injection H2 as -> H2.
    assert (E : n = n' /\ rest = slash :: r).
    { assert (S1 : span is_word (n ++ rest) = (n, rest)) by (apply span_app; assumption).
      assert (S2 : span is_word (n' ++ slash :: r) = (n', slash :: r)).
      { apply span_app; [|reflexivity]. destruct H1 as [_ H1]. apply forallb_forall. rewrite Forall_forall in H1. exact H1. }
      rewrite H2 in S1. change slash_ with slash in S1. rewrite S2 in S1. injection S1 as -> ->. auto. }
    destruct E as [-> ->]. split; [reflexivity|]. split; [exact H1|]. apply andb_true_intro. split; [reflexivity|]. apply forallb_forall. intros x Hx. destruct (chr_eqb x newline) eqn:Ex; [|reflexivity].
    apply chr_eqb_eq in Ex. subst x. contradiction.
Qed.
Lemma after_slash_type n p : type_path n p -> after_slash p = Ok n.
Proof. intros [_ ->]. reflexivity. Qed.
Lemma second_segment_object n p : object_path n p -> second_segment p = Ok n.
Proof.
  intros [H [rest [-> _]]]. unfold second_segment. change (after_slash (slash_ :: n ++ slash_ :: rest)) with (@Ok str (n ++ slash_ :: rest)). cbn [bind].
  rewrite span_app; [reflexivity | apply word_no_slash; exact H | reflexivity].
Qed.

(** ** The schema that serves a name *)

Lemma validators_spec schemas n s : sget n (validators schemas) = Some s <-> serves schemas n s.
Proof.
  unfold validators.
  assert (G : forall l acc, sget n (fold_left (fun acc s => sset (sc_plural s) s acc) l acc) = Some s <->
    serves l n s \/ (Forall (fun x => sc_plural x <> n) l /\ sget n acc = Some s)).
  { clear schemas. induction l as [|x t IH]; intros acc; cbn [fold_left].
    - split; [intros H; right; split; [constructor | exact H]|]. intros [[l1 [l2 [E _]]]|[_ H]]; [destruct l1; discriminate E | exact H].
    - rewrite IH, sget_sset. split.
      + intros [[l1 [l2 [-> [H1 H2]]]]|[H1 H2]].
        * left. exists (x :: l1), l2. auto.
        * destruct (str_eqb (sc_plural x) n) eqn:E.
          -- apply str_eqb_eq in E. injection H2 as <-. left. exists [], t. auto.
          -- apply str_eqb_neq in E. right. split; [constructor; assumption | exact H2].
      + intros [[l1 [l2 [E [H1 H2]]]]|[H1 H2]].
        * destruct l1 as [|y l1]; injection E as -> ->.
          -- right. split; [exact H2|]. rewrite (proj2 (str_eqb_eq _ _) H1). reflexivity.
          -- left. exists l1, l2. auto.
        * inversion_clear H1 as [|? ? H3 H4]. right. split; [exact H4|]. rewrite (proj2 (str_eqb_neq _ _) H3). exact H2. }
  rewrite G. split; [intros [H|[_ H]]; [exact H | discriminate H] | auto].
Qed.
Lemma unserved_spec schemas n : sget n (validators schemas) = None <-> forall s, ~ serves schemas n s.
Proof.
  split; [intros H s Hs; apply validators_spec in Hs; congruence|]. intros H. destruct (sget n (validators schemas)) as [s|] eqn:E; [|reflexivity].
  apply validators_spec in E. exfalso. exact (H s E).
Qed.

Section Env.
  Context {env : PyEnv}.

  (** ** The document read as containers *)

  Definition bulk_raw (o : bulk_op) (data : option value) : value :=
    tabled (($"method", VStr (k_method o)) :: field ($"bulkId") (option_map VStr (k_id o)) ++ field ($"version") (option_map VStr (k_version o))
            ++ field ($"path") (option_map VStr (k_path o)) ++ field ($"data") data).
  Definition wrapped (o : bulk_op) : option value := option_map wrap (k_data o).
  Lemma mk_bulk_op o : mk_cont (bulk_op_json o) = bulk_raw o (wrapped o).
  Proof.
    destruct o as [m [b|] [ve|] [p|] [v|]]; try reflexivity; destruct v; try reflexivity;
      unfold bulk_raw, wrapped, bulk_op_json; cbn [k_method k_id k_version k_path k_data option_map field app wrap]; rewrite <- items_map; reflexivity.
  Qed.
  Definition bulk_doc (f : option Z) (xs : list value) : value :=
    tabled (($"schemas", VList [VStr bulk_request_uri]) :: field ($"failOnErrors") (option_map VInt f) ++ [($"Operations", VList xs)]).
  Lemma mk_bulk_document f l : mk_cont (bulk_document f l) = bulk_doc f (map (fun o => bulk_raw o (wrapped o)) l).
  Proof.
    transitivity (bulk_doc f (map wrap_item (map bulk_op_json l))).
    - unfold bulk_doc. rewrite <- items_map. destruct f; reflexivity.
    - f_equal. rewrite map_map. apply map_ext. intros o. change (wrap_item (bulk_op_json o)) with (mk_cont (bulk_op_json o)). apply mk_bulk_op.
  Qed.

  Lemma opt_step c s n ov l p : get_item c (arep s) = Ok (opt ov) -> (forall v, ov = Some v -> v <> VMissing /\ process s MParse v = Ok (v, no_issues)) ->
    (forall w, set_item (tabled l) (arep s) w = Ok (tabled (l ++ [(n, w)]))) ->
    forall t, walk MParse c p (s :: t) (tabled l) no_issues = walk MParse c p t (tabled (l ++ field n ov)) no_issues.
  Proof.
    intros Hg Hp Hs t. destruct ov as [v|]; cbn [opt field] in *.
    - destruct (Hp v eq_refl) as [N P]. exact (step_value _ _ v _ _ (tabled (l ++ [(n, v)])) Hg N v P (Hs v) t).
    - rewrite app_nil_r. exact (step_missing _ _ _ _ Hg t).
  Qed.
  Definition bulk_subs : list attribute := [b_method; b_id; b_version; b_path; b_data].
  Lemma bulk_data_ok v : process b_data MParse v = Ok (v, no_issues).
  Proof. destruct v; reflexivity. Qed.
  Lemma bulk_method_ok m : In m [$"GET"; $"POST"; $"PUT"; $"PATCH"; $"DELETE"] -> process b_method MParse (VStr m) = Ok (VStr m, no_issues).
  Proof. intros [<-|[<-|[<-|[<-|[<-|[]]]]]]; reflexivity. Qed.
  Lemma bulk_read_one o k : callable o -> walk MParse (mk_cont (bulk_raw o (wrapped o))) [LIdx k] bulk_subs empty_cont no_issues = Ok (bulk_raw o (wrapped o), no_issues).
  Proof.
    intros [Hm Hd]. change (mk_cont (bulk_raw o (wrapped o))) with (bulk_raw o (wrapped o)). unfold bulk_subs. change empty_cont with (tabled []).
    rewrite (opt_step _ _ ($"method") (Some (VStr (k_method o)))); [|destruct o as [m [b|] [ve|] [p|] [v|]]; reflexivity | intros v [= <-]; split; [discriminate | exact (bulk_method_ok _ Hm)] | reflexivity].
    rewrite (opt_step _ _ ($"bulkId") (option_map VStr (k_id o)));
      [|destruct o as [m [b|] [ve|] [p|] [v|]]; reflexivity | destruct (k_id o); intros v [= <-]; split; [discriminate | reflexivity] | reflexivity].
    rewrite (opt_step _ _ ($"version") (option_map VStr (k_version o)));
      [|destruct o as [m [b|] [ve|] [p|] [v|]]; reflexivity | destruct (k_version o); intros v [= <-]; split; [discriminate | reflexivity] | destruct o as [m [b|] [ve|] [p|] [v|]]; reflexivity].
    rewrite (opt_step _ _ ($"path") (option_map VStr (k_path o)));
      [|destruct o as [m [b|] [ve|] [p|] [v|]]; reflexivity | destruct (k_path o); intros v [= <-]; split; [discriminate | reflexivity] | destruct o as [m [b|] [ve|] [p|] [v|]]; reflexivity].
    rewrite (opt_step _ _ ($"data") (wrapped o));
      [|destruct o as [m [b|] [ve|] [p|] [v|]]; reflexivity | | destruct o as [m [b|] [ve|] [p|] [v|]]; reflexivity].
    - cbn [walk]. unfold bulk_raw. cbn [field app]. rewrite <- !app_assoc. reflexivity.
    - unfold wrapped. destruct (k_data o) as [d|]; intros v [= <-]. split; [apply wrap_not_missing; congruence | apply bulk_data_ok].
  Qed.
  Lemma bulk_read_items l : Forall callable l -> forall k acc,
    foldM (complex_items MParse bulk_subs) (enum_from k (map (fun o => bulk_raw o (wrapped o)) l)) (acc, no_issues) = Ok (acc ++ map (fun o => bulk_raw o (wrapped o)) l, no_issues).
  Proof.
    induction 1 as [|o t Ho _ IH]; intros k acc; cbn [map enum_from foldM]; [rewrite app_nil_r; reflexivity|].
    unfold complex_items at 1. cbn [fst snd]. rewrite bulk_read_one by exact Ho. cbn [bind]. rewrite IH, <- app_assoc. reflexivity.
  Qed.
  Lemma bulk_type_items i l : a_type i = TComplex -> a_canon i = None -> forall k acc,
    foldM (item_step MParse i) (enum_from k (map (fun o => bulk_raw o (wrapped o)) l)) (acc, no_issues) = Ok (acc ++ map (fun o => bulk_raw o (wrapped o)) l, no_issues).
  Proof.
    intros Ht Hc. induction l as [|o t IH]; intros k acc; cbn [map enum_from foldM]; [rewrite app_nil_r; reflexivity|].
    unfold item_step at 1. rewrite Ht. change (type_proc MParse TComplex (bulk_raw o (wrapped o))) with (Ok (bulk_raw o (wrapped o), no_issues)). cbn [bind]. unfold canon_step.
    assert (E : is_canonical i (bulk_raw o (wrapped o)) = true) by (unfold is_canonical, bulk_raw, tabled; rewrite Hc; reflexivity).
    rewrite E, merge_nil. cbn [bind fst snd]. rewrite IH, <- app_assoc. reflexivity.
  Qed.

  (** ** Validation of the operations *)

  Definition is_post (o : bulk_op) : bool := str_eqb (k_method o) ($"POST").
  Definition sendsb (o : bulk_op) : bool := existsb (str_eqb (k_method o)) [$"POST"; $"PUT"; $"PATCH"].
  Definition idless (o : bulk_op) : bool := is_post o && match k_id o with None => true | Some _ => false end.
  Definition nowhere (o : bulk_op) : bool := match k_path o with None => true | Some _ => false end.
  Definition typeless (o : bulk_op) : bool := is_post o && match k_path o with Some p => negb (resource_type_path p) | None => false end.
  Definition objectless (o : bulk_op) : bool := negb (is_post o) && match k_path o with Some p => negb (resource_object_path p) | None => false end.
  Definition dataless (o : bulk_op) : bool := sendsb o && match k_data o with None | Some VNone => true | _ => false end.
  Definition kept (o : bulk_op) : option value := if sendsb o then wrapped o else None.
  Definition bulk_left (o : bulk_op) : value := bulk_raw o (kept o).
  Definition bshape (k : nat) (o : bulk_op) (iss : issues) : issues :=
    add_if (dataless o) e_missing false [LIdx k; LStr ($"data")]
      (add_if (objectless o) e_object_endpoint false [LIdx k; LStr ($"path")]
        (add_if (typeless o) e_type_endpoint false [LIdx k; LStr ($"path")]
          (add_if (nowhere o) e_missing false [LIdx k; LStr ($"path")]
            (add_if (idless o) e_missing false [LIdx k; LStr ($"bulkId")] iss)))).
  Definition one_err (b : bool) (e : error) (n : str) (q : loc) : list error := if b then if loc_dec [LStr n] q then [e] else [] else [].
  Definition bshape_errs (o : bulk_op) (q : loc) : list error :=
    one_err (idless o) e_missing ($"bulkId") q ++ one_err (nowhere o) e_missing ($"path") q ++ one_err (typeless o) e_type_endpoint ($"path") q
    ++ one_err (objectless o) e_object_endpoint ($"path") q ++ one_err (dataless o) e_missing ($"data") q.

  Lemma bshape_at k o iss p : errs_at (bshape k o iss) p = errs_at iss p ++ match loc_strip [LIdx k] p with Some q => bshape_errs o q | None => [] end.
  Proof.
    unfold bshape. rewrite !add_if_errs. rewrite <- !app_assoc. f_equal.
    destruct (loc_strip [LIdx k] p) as [q|] eqn:E.
    - apply loc_strip_spec in E as ->. unfold bshape_errs, one_err.
      assert (G : forall t e, (if loc_dec [LIdx k; LStr t] ([LIdx k] ++ q) then [e] else @nil error) = if loc_dec [LStr t] q then [e] else []).
      { intros t e. destruct (loc_dec [LStr t] q) as [<-|N]; [destruct (loc_dec _ _) as [_|N]; [reflexivity | contradiction N; reflexivity]|].
        destruct (loc_dec _ _) as [C|_]; [|reflexivity]. cbn in C. injection C as C. contradiction. }
      rewrite !G. reflexivity.
    - assert (G : forall t e, (if loc_dec [LIdx k; LStr t] p then [e] else @nil error) = []).
      { intros t e. destruct (loc_dec _ _) as [C|_]; [|reflexivity]. exfalso. exact (strip_one _ _ _ E C). }
      rewrite !G. destruct (idless o), (nowhere o), (typeless o), (objectless o), (dataless o); reflexivity.
  Qed.
  Lemma bshape_report k o iss : report iss -> report (bshape k o iss).
  Proof. intros H. unfold bshape. repeat apply report_add_if. exact H. Qed.

  Lemma bulk_validate_one o k iss : callable o -> validate_request_operation k (bulk_raw o (wrapped o)) iss = Ok (bulk_left o, bshape k o iss).
  Proof.
    intros [Hm Hd]. unfold validate_request_operation.
    assert (E1 : get_item (bulk_raw o (wrapped o)) (arep b_method) = Ok (VStr (k_method o))) by (destruct o as [m [b|] [ve|] [p|] [v|]]; reflexivity).
    assert (E2 : get_item (bulk_raw o (wrapped o)) (arep b_id) = Ok (opt (option_map VStr (k_id o)))) by (destruct o as [m [b|] [ve|] [p|] [v|]]; reflexivity).
    rewrite E1, E2. cbn [bind]. change (is_none_or_missing (VStr (k_method o))) with false. cbn [add_if].
    assert (E3 : str_is (VStr (k_method o)) ($"POST") && is_none_or_missing (opt (option_map VStr (k_id o))) = idless o).
    { unfold idless, is_post. destruct (k_id o); reflexivity. }
    rewrite E3. clear E1 E2 E3.
    assert (E4 : (if str_in (VStr (k_method o)) [$"GET"; $"DELETE"] then del_item (bulk_raw o (wrapped o)) (arep b_data) else Ok (bulk_raw o (wrapped o))) = Ok (bulk_left o)).
    { unfold bulk_left, kept, sendsb. destruct Hm as [E|[E|[E|[E|[E|[]]]]]]; rewrite <- E; destruct o as [m [b|] [ve|] [p|] [v|]]; cbn in E; subst m; reflexivity. }
    rewrite E4. cbn [bind]. clear E4.
    assert (E5 : get_item (bulk_left o) (arep b_path) = Ok (opt (option_map VStr (k_path o)))).
    { unfold bulk_left. destruct (kept o); destruct o as [m [b|] [ve|] [p|] w]; reflexivity. }
    rewrite E5. cbn [bind]. clear E5.
    set (iss0 := add_if (idless o) _ _ _ _).
    match goal with |- (let! iss1 := ?m in _) = _ => assert (E6 : m = Ok (add_if (objectless o) e_object_endpoint false [LIdx k; LStr ($"path")]
        (add_if (typeless o) e_type_endpoint false [LIdx k; LStr ($"path")] (add_if (nowhere o) e_missing false [LIdx k; LStr ($"path")] iss0)))) end.
    { unfold objectless, typeless, nowhere. destruct (k_path o) as [p|]; cbn [option_map opt is_none_or_missing].
      - unfold is_post. destruct Hm as [E|[E|[E|[E|[E|[]]]]]]; rewrite <- E; cbn; reflexivity.
      - rewrite !Bool.andb_false_r. reflexivity. }
    rewrite E6. cbn [bind]. clear E6.
    assert (E7 : get_item (bulk_left o) (arep b_data) = Ok (opt (kept o))).
    { unfold bulk_left. destruct (kept o); destruct o as [m [b|] [ve|] [p|] w]; reflexivity. }
    rewrite E7. cbn [bind].
    assert (E8 : str_in (VStr (k_method o)) [$"POST"; $"PUT"; $"PATCH"] && is_none_or_missing (opt (kept o)) = dataless o).
    { unfold dataless, kept. change (str_in (VStr (k_method o)) [$"POST"; $"PUT"; $"PATCH"]) with (sendsb o). destruct (sendsb o); [|reflexivity]. cbn [andb].
      unfold wrapped. destruct (k_data o) as [v|]; [|reflexivity]. cbn [option_map opt]. rewrite wrap_none by congruence. destruct v; reflexivity. }
    rewrite E8. reflexivity.
  Qed.

  Fixpoint bshapes (k : nat) (l : list bulk_op) (iss : issues) : issues :=
    match l with [] => iss | o :: t => bshapes (S k) t (bshape k o iss) end.
  Definition bshape_outs (l : list bulk_op) (p : loc) : list error :=
    match p with LIdx i :: q => match nth_error l i with Some o => bshape_errs o q | None => [] end | _ => [] end.
  Lemma bshapes_report l : forall k iss, report iss -> report (bshapes k l iss).
  Proof. induction l as [|o t IH]; intros k iss H; [exact H|]. apply IH, bshape_report, H. Qed.
  Lemma bshapes_at l : forall k iss p, errs_at (bshapes k l iss) p
    = errs_at iss p ++ match p with LIdx i :: q => if Nat.ltb i k then [] else match nth_error l (i - k) with Some o => bshape_errs o q | None => [] end | _ => [] end.
  Proof.
    induction l as [|o t IH]; intros k iss p; cbn [bshapes].
    - destruct p as [|[n|i] q]; rewrite ?app_nil_r; try reflexivity. destruct (Nat.ltb i k); [|destruct (i - k)]; rewrite app_nil_r; reflexivity.
    - rewrite IH, bshape_at, <- app_assoc. f_equal. destruct p as [|[n|i] q]; try reflexivity.
      destruct (loc_strip [LIdx k] (LIdx i :: q)) as [q'|] eqn:E.
      + apply loc_strip_spec in E. cbn in E. injection E as -> ->.
        rewrite Nat.sub_diag, Nat.ltb_irrefl. cbn [nth_error]. replace (Nat.ltb k (S k)) with true by (symmetry; apply Nat.ltb_lt; lia). apply app_nil_r.
      + assert (N : i <> k). { intros ->. exact (strip_one _ _ _ E eq_refl). }
        cbn [app]. destruct (Nat.ltb i (S k)) eqn:L1; destruct (Nat.ltb i k) eqn:L2; try reflexivity.
        * apply Nat.ltb_lt in L1. apply Nat.ltb_ge in L2. lia.
        * apply Nat.ltb_ge in L1. apply Nat.ltb_lt in L2. lia.
        * apply Nat.ltb_ge in L1. replace (i - k) with (S (i - S k)) by lia. reflexivity.
  Qed.
  Lemma bshapes_0 l p : errs_at (bshapes 0 l no_issues) p = bshape_outs l p.
  Proof. rewrite bshapes_at. cbn [app]. unfold bshape_outs. destruct p as [|[n|i] q]; try reflexivity. rewrite Nat.sub_0_r. reflexivity. Qed.
  Lemma bulk_validate_all l : Forall callable l -> validate_request_operations (VList (map (fun o => bulk_raw o (wrapped o)) l)) = Ok (VList (map bulk_left l), bshapes 0 l no_issues).
  Proof.
    intros H. unfold validate_request_operations, each_operation. cbn [iter_value bind].
    assert (G : forall k acc iss, foldM (fun st e => let! (c, iss) := validate_request_operation (fst e) (snd e) (snd st) in Ok (fst st ++ [c], iss))
      (enum_from k (map (fun o => bulk_raw o (wrapped o)) l)) (acc, iss) = Ok (acc ++ map bulk_left l, bshapes k l iss)).
    { induction H as [|o t Ho _ IH]; intros k acc iss; cbn [map enum_from foldM]; [rewrite app_nil_r; reflexivity|].
      cbn [fst snd]. rewrite bulk_validate_one by exact Ho. cbn [bind fst]. rewrite IH, <- app_assoc. reflexivity. }
    unfold enumerate. rewrite G. reflexivity.
  Qed.
  Lemma bulk_primary_none l : forall k, primary_entries k (map bulk_left l) = Ok [].
  Proof.
    induction l as [|o t IH]; intros k; [reflexivity|]. cbn [map primary_entries].
    assert (E : get_item_str (bulk_left o) ($"primary") = Ok VMissing) by (unfold bulk_left; destruct (kept o); destruct o as [m [b|] [ve|] [p|] w]; reflexivity).
    rewrite E. cbn [bind]. rewrite IH. reflexivity.
  Qed.

  Lemma request_ops_is : exists i, request_ops = MkAttr i (Some (bulk_subs, [validate_request_operations; single_primary], [single_primary]))
    /\ a_multi i = true /\ a_parsers i = [] /\ a_type i = TComplex /\ a_canon i = None.
  Proof. eexists. split; [reflexivity|]. repeat split; reflexivity. Qed.

  Lemma bulk_process_ops l : Forall callable l -> exists js, process request_ops MParse (VList (map (fun o => bulk_raw o (wrapped o)) l)) = Ok (VList (map bulk_left l), js)
    /\ report js /\ forall p, errs_at js p = bshape_outs l p.
  Proof.
    intros H. destruct request_ops_is as [i [-> [M [P [T C]]]]]. rewrite process_complex.
    assert (E : base_process MParse i (VList (map (fun o => bulk_raw o (wrapped o)) l)) = Ok (VList (map (fun o => bulk_raw o (wrapped o)) l), no_issues)).
    { unfold base_process. rewrite M. cbn [negb andb is_list]. unfold enumerate. rewrite bulk_type_items by assumption. cbn [bind app].
      change (has_issues no_issues []) with false; cbv iota; unfold procs_of; rewrite P; reflexivity. }
    rewrite E. cbn [bind]. change (can_proceed no_issues []) with true. cbn [negb orb].
    unfold complex_part. rewrite M. cbn [iter_value bind]. unfold enumerate.
    rewrite bulk_read_items by exact H. cbn [bind app]. change (has_issues no_issues []) with false. unfold run_procs. cbn [foldM fst snd].
    rewrite bulk_validate_all by exact H. cbn [bind fst snd]. unfold single_primary. cbn [iter_value bind]. rewrite bulk_primary_none. cbn [bind length Nat.ltb Nat.leb].
    pose proof (bshapes_report l 0 no_issues report_empty) as R.
    eexists. split; [reflexivity|]. split.
    - repeat apply report_merge; auto using report_empty.
    - intros p. rewrite errs_merge by (auto using report_empty, report_merge). cbn [loc_strip].
      rewrite errs_merge by (auto using report_empty). cbn [loc_strip]. rewrite bshapes_0. change (errs_at no_issues p) with (@nil error). cbn [app]. apply app_nil_r.
  Qed.

  (** ** The whole request *)

  Definition bulk_uris : attribute := bound_attr (mkRep bulk_request_uri ($"schemas") [] false) schemas_attr.
  Definition bulk_fail : attribute := bound_attr (mkRep bulk_request_uri ($"failOnErrors") [] false) (mk_simple (plain ($"failOnErrors") TInteger)).
  Lemma bulk_tops : at_top (sc_attrs bulk_request_schema) = [bulk_uris; bulk_fail; request_ops].
  Proof. reflexivity. Qed.

  Lemma bulk_read_all f l : Forall callable l -> exists js, schema_parse bulk_request_schema (bulk_document f l) = Ok (bulk_doc f (map bulk_left l), js)
    /\ report js /\ forall p, errs_at js p = under_ops (bshape_outs l) p.
  Proof.
    intros H. unfold schema_parse, base_parse. unfold bulk_document at 1. unfold dict_of at 1. cbv iota.
    fold (bulk_document f l). unfold process_data. rewrite mk_bulk_document, bulk_tops. cbn [process_attrs].
    assert (E1 : forall xs, get_item (bulk_doc f xs) (arep bulk_uris) = Ok (VList [VStr bulk_request_uri])) by (intros xs; destruct f; reflexivity).
    assert (E2 : forall xs, get_item (bulk_doc f xs) (arep bulk_fail) = Ok (opt (option_map VInt f))) by (intros xs; destruct f; reflexivity).
    assert (E3 : forall xs, get_item (bulk_doc f xs) (arep request_ops) = Ok (VList xs)) by (intros xs; rewrite request_ops_rep; destruct f; reflexivity).
    rewrite E1. cbn [bind].
    assert (E4 : process bulk_uris MParse (VList [VStr bulk_request_uri]) = Ok (VList [VStr bulk_request_uri], no_issues)) by reflexivity.
    rewrite E4. cbn [bind].
    assert (E5 : forall x, set_item empty_cont (arep bulk_uris) x = Ok (tabled [($"schemas", x)])) by reflexivity.
    rewrite E5. cbn [bind]. rewrite !merge_nil, E2. cbn [bind].
    destruct (bulk_process_ops l H) as [js [P1 [P2 P3]]].
    set (i0 := merge no_issues js (attr_loc request_ops)). set (i1 := merge no_issues i0 []).
    assert (R0 : report i0) by (apply report_merge; auto using report_empty).
    assert (R1 : report i1) by (apply report_merge; auto using report_empty).
    assert (A1 : forall p, errs_at i1 p = under_ops (bshape_outs l) p).
    { intros p. unfold i1. rewrite errs_merge by auto using report_empty. unfold i0. cbn [loc_strip]. rewrite errs_merge by auto using report_empty.
      change (errs_at no_issues p) with (@nil error). cbn [app]. unfold under_ops.
      change (attr_loc request_ops) with [LStr ops_name]. destruct (loc_strip _ p); [apply P3 | reflexivity]. }
    assert (E6 : attr_named (sc_attrs bulk_request_schema) ($"schemas") = Some bulk_uris) by reflexivity.
    assert (C : can_proceed i1 [schemas_loc] = true).
    { apply clear_proceeds; [exact R1|]. intros q [<-|[]]. intros a Ha. rewrite A1. destruct Ha as [b Ha]. unfold under_ops.
      destruct a as [|x [|x' a]]; [reflexivity| |discriminate Ha]. injection Ha as <- _. reflexivity. }
    match goal with |- context [bind ?m _] => match m with context [opt] => assert (E7 : m = Ok (bulk_doc f (map bulk_left l), i0)) end end.
    { destruct f as [z|]; cbn [option_map opt].
      - assert (F1 : process bulk_fail MParse (VInt z) = Ok (VInt z, no_issues)) by reflexivity.
        rewrite F1. cbn [bind].
        assert (F2 : forall x y, set_item (tabled [($"schemas", x)]) (arep bulk_fail) y = Ok (tabled [($"schemas", x); ($"failOnErrors", y)])) by reflexivity.
        rewrite F2. cbn [bind]. rewrite E3. cbn [bind]. rewrite P1. cbn [bind].
        assert (F3 : forall x y w, set_item (tabled [($"schemas", x); ($"failOnErrors", y)]) (arep request_ops) w = Ok (tabled [($"schemas", x); ($"failOnErrors", y); ($"Operations", w)])) by reflexivity.
        rewrite F3. cbn [bind]. rewrite !merge_nil. reflexivity.
      - rewrite E3. cbn [bind]. rewrite P1. cbn [bind].
        assert (F3 : forall x w, set_item (tabled [($"schemas", x)]) (arep request_ops) w = Ok (tabled [($"schemas", x); ($"Operations", w)])) by reflexivity.
        rewrite F3. cbn [bind]. reflexivity. }
    rewrite E7. cbn [bind]. clear E7. rewrite E6, E1. cbn [bind]. fold i1. rewrite C. cbn [andb truthy].
    assert (V : validate_schemas_field (bulk_doc f (map bulk_left l)) (VList [VStr bulk_request_uri]) (sc_uri bulk_request_schema) (sc_schemas bulk_request_schema) = Ok no_issues) by (destruct f; reflexivity).
    rewrite V. cbn [bind].
    exists (merge i1 no_issues []). split; [reflexivity|]. split; [apply report_merge; auto using report_empty|].
    intros p. rewrite errs_merge by auto using report_empty. cbn [loc_strip]. change (errs_at no_issues p) with (@nil error). rewrite app_nil_r. apply A1.
  Qed.

  Definition bq_rep (n : str) : attr_rep := mkRep bulk_request_uri ops_name n false.
  Definition traits (a : attribute) := (arep a, a_ret (info a), a_required (info a), a_multi (info a)).
  Lemma bulk_attrs_are : map traits (at_all (sc_attrs bulk_request_schema))
    = [(mkRep bulk_request_uri ($"schemas") [] false, RetAlways, true, true); (mkRep bulk_request_uri ($"failOnErrors") [] false, RetDefault, false, false);
       (bq_rep [], RetDefault, true, true); (bq_rep ($"method"), RetDefault, true, false); (bq_rep ($"bulkId"), RetDefault, false, false);
       (bq_rep ($"version"), RetDefault, false, false); (bq_rep ($"path"), RetDefault, true, false); (bq_rep ($"data"), RetDefault, false, false)].
  Proof. vm_compute. reflexivity. Qed.
  Lemma bulk_doc_top f xs : get_item (bulk_doc f xs) (bq_rep []) = Ok (VList xs).
  Proof. destruct f; reflexivity. Qed.
  Lemma bulk_left_path o : get_item (bulk_left o) (simple_name ($"path")) = Ok (opt (option_map VStr (k_path o))).
  Proof. unfold bulk_left. destruct (kept o); destruct o as [m [b|] [ve|] [p|] w]; reflexivity. Qed.
  Lemma bulk_left_method o : get_item (bulk_left o) (simple_name ($"method")) = Ok (VStr (k_method o)).
  Proof. unfold bulk_left. destruct (kept o); destruct o as [m [b|] [ve|] [p|] w]; reflexivity. Qed.
  Lemma bulk_left_data o : get_item (bulk_left o) (simple_name ($"data")) = Ok (opt (kept o)).
  Proof. unfold bulk_left. destruct (kept o); destruct o as [m [b|] [ve|] [p|] w]; reflexivity. Qed.

  Definition unpathed (o : bulk_op) : Prop := k_path o = None \/ k_path o = Some [].
  Lemma bulk_presence f l ps : Forall callable l -> l <> [] -> presence default_checker (bulk_doc f (map bulk_left l)) (at_all (sc_attrs bulk_request_schema)) Response = Ok ps ->
    forall e p, In e (errs_at ps p) <-> e = e_missing /\ exists i o, nth_error l i = Some o /\ p = [LStr ops_name; LIdx i; LStr ($"path")] /\ unpathed o.
  Proof.
    intros Hl Hn Hp e p. assert (no_reps : Forall proper (ck_reps default_checker)) by constructor.
    pose proof bulk_attrs_are as A.
    assert (Ma : forall a, In a (at_all (sc_attrs bulk_request_schema)) -> In (traits a) (map traits (at_all (sc_attrs bulk_request_schema)))) by (intros a; apply in_map).
    rewrite A in Ma.
    assert (Item : forall a v n, arep a = bq_rep n -> n <> [] -> found (at_all (sc_attrs bulk_request_schema)) (bulk_doc f (map bulk_left l)) a v p ->
      exists i o, nth_error l i = Some o /\ p = [LStr ops_name; LIdx i; LStr n] /\ get_item (bulk_left o) (simple_name n) = Ok v).
    { intros a v n Ra Nn F. destruct F as [v F1 F2 F3|t v F1 F2 F3 F4 F5 F6|t F1 F2 F3 F4 F5|t items k x v F1 F2 F3 F4 F5 F6 F7 F8]; rewrite Ra in *; cbn [bq_rep r_sub r_attr] in *.
      - contradiction.
      - exfalso. apply Ma in F2. destruct F3 as [G1 [_ G3]]. cbn [bq_rep r_attr] in G3. 
        destruct F2 as [F2|[F2|[F2|[F2|[F2|[F2|[F2|[F2|[]]]]]]]]]; unfold traits in F2; injection F2 as Q1 Q2 Q3 Q4; rewrite <- Q1 in *; cbn [r_sub r_attr bq_rep] in *; try discriminate G1; try congruence. unfold same_text in G3; rewrite Ra in G3; vm_compute in G3; discriminate G3.
      - exfalso. change (top_name (bq_rep n)) with (bq_rep []) in F5. rewrite bulk_doc_top in F5. discriminate F5.
      - change (top_name (bq_rep n)) with (bq_rep []) in F5. rewrite bulk_doc_top in F5. injection F5 as <-.
        rewrite nth_error_map in F6. destruct (nth_error l k) as [o|] eqn:E; [|discriminate F6]. injection F6 as <-. exists k, o. auto. }
    split.
    - intros He. destruct (C30_nothing_else _ _ _ _ _ _ _ bulk_request_made no_reps Hp He) as [->|[-> _]].
      + split; [reflexivity|]. apply (C30_missing_iff _ _ _ _ _ p bulk_request_made no_reps Hp) in He as [a [v [H1 [H2 [H3 H4]]]]].
        apply Ma in H1. destruct H4 as [H4 _].
        assert (Q : (arep a = mkRep bulk_request_uri ($"schemas") [] false \/ arep a = bq_rep []) \/ arep a = bq_rep ($"method") \/ arep a = bq_rep ($"path")).
        { unfold traits in H1. destruct H1 as [H1|[H1|[H1|[H1|[H1|[H1|[H1|[H1|[]]]]]]]]]; injection H1 as Q1 Q2 Q3 Q4; rewrite <- Q1; auto; congruence. }
        destruct Q as [Q|[Q|Q]].
        * exfalso. destruct H2 as [v F1 F2 F3|? ? G|? G|? ? ? ? ? G]; try (destruct Q as [Q|Q]; rewrite Q in G; apply G; reflexivity).
          destruct Q as [Q|Q]; rewrite Q in F2.
          -- assert (E : v = VList [VStr bulk_request_uri]) by (destruct f; injection F2 as <-; reflexivity). rewrite E in H3. destruct H3 as [H3|[H3|[H3|H3]]]; discriminate H3.
          -- rewrite bulk_doc_top in F2. injection F2 as <-. destruct H3 as [H3|[H3|[H3|H3]]]; try discriminate H3. injection H3 as H3. destruct l; [contradiction Hn; reflexivity | discriminate H3].
        * exfalso. destruct (Item a v _ Q ltac:(discriminate) H2) as [i [o [N1 [_ N3]]]]. rewrite bulk_left_method in N3. injection N3 as <-.
          apply nth_error_In in N1. rewrite Forall_forall in Hl. destruct (Hl o N1) as [M _]. destruct H3 as [H3|[H3|[H3|H3]]]; try discriminate H3. injection H3 as H3. rewrite H3 in M. cbn [In] in M. intuition discriminate.
        * destruct (Item a v _ Q ltac:(discriminate) H2) as [i [o [N1 [N2 N3]]]]. rewrite bulk_left_path in N3. injection N3 as <-. exists i, o. split; [exact N1|]. split; [exact N2|].
          unfold unpathed. destruct (k_path o) as [t|]; [|auto]. cbn [option_map opt] in H3. destruct H3 as [H3|[H3|[H3|H3]]]; try discriminate H3. injection H3 as ->. auto.
      + exfalso. apply (C29_only_requested _ _ _ _ _ p bulk_request_made no_reps Hp) in He as [_ [a [v [H1 [H2 [H3 H4]]]]]].
        apply Ma in H1. unfold withheld in H4.
        unfold traits in H1. destruct H1 as [H1|[H1|[H1|[H1|[H1|[H1|[H1|[H1|[]]]]]]]]]; injection H1 as Q1 Q2 Q3 Q4; rewrite <- Q2 in H4; exact H4.
    - intros [-> [i [o [N1 [-> U]]]]]. apply (C30_missing_iff _ _ _ _ _ _ bulk_request_made no_reps Hp).
      assert (Ea : exists a, In a (at_all (sc_attrs bulk_request_schema)) /\ traits a = (bq_rep ($"path"), RetDefault, true, false)).
      { assert (I : In (bq_rep ($"path"), RetDefault, true, false) (map traits (at_all (sc_attrs bulk_request_schema)))) by (rewrite A; cbn [In]; tauto).
        apply in_map_iff in I as [a [I1 I2]]. exists a. auto. }
      assert (Et : exists t, In t (at_all (sc_attrs bulk_request_schema)) /\ traits t = (bq_rep [], RetDefault, true, true)).
      { assert (I : In (bq_rep [], RetDefault, true, true) (map traits (at_all (sc_attrs bulk_request_schema)))) by (rewrite A; cbn [In]; tauto).
        apply in_map_iff in I as [a [I1 I2]]. exists a. auto. }
      destruct Ea as [a [Ia Ta]]. destruct Et as [t [It Tt]]. unfold traits in Ta, Tt. 
      assert (Ra : arep a = bq_rep ($"path")) by exact (f_equal (fun x => fst (fst (fst x))) Ta). assert (Qa : a_required (info a) = true) by exact (f_equal (fun x => snd (fst x)) Ta).
      assert (Rt : arep t = bq_rep []) by exact (f_equal (fun x => fst (fst (fst x))) Tt). assert (Mt : a_multi (info t) = true) by exact (f_equal snd Tt). clear Ta Tt.
      exists a, (opt (option_map VStr (k_path o))). split; [exact Ia|]. split; [|split].
      + assert (E : [LStr ops_name; LIdx i; LStr ($"path")] = [LStr (r_attr (arep a)); LIdx i; LStr (r_sub (arep a))]) by (rewrite Ra; reflexivity). rewrite E.
        apply (found_item _ _ a t (map bulk_left l) i (bulk_left o)); try assumption.
        * rewrite Ra. discriminate.
        * unfold parent_of. rewrite Rt, Ra. split; [reflexivity|]. split; reflexivity.
        * rewrite Ra. apply bulk_doc_top.
        * exact (map_nth_error bulk_left i l N1).
        * rewrite Ra. exact (bulk_left_path o).
        * destruct (k_path o); discriminate.
      + unfold empty_value. destruct U as [-> | ->]; cbn [option_map opt]; auto.
      + split; [exact Qa|]. split; [intros [x [[] _]] | discriminate].
  Qed.

  (** ** Faults *)

  Lemma is_post_iff o : is_post o = true <-> k_method o = $"POST".
  Proof. apply str_eqb_eq. Qed.
  Lemma sendsb_iff o : sendsb o = true <-> sends o.
  Proof.
    unfold sendsb, sends. rewrite existsb_exists. split.
    - intros [x [H1 H2]]. apply str_eqb_eq in H2. congruence.
    - intros H. exists (k_method o). split; [exact H | apply str_eqb_refl].
  Qed.
  Lemma in_one_err b e n q x : In x (one_err b e n q) <-> b = true /\ x = e /\ q = [LStr n].
  Proof.
    unfold one_err. destruct b; [|split; [intros [] | intros [H _]; discriminate H]]. destruct (loc_dec _ _) as [<-|N].
    - split; [intros [<-|[]]; auto | intros [_ [-> _]]; left; reflexivity].
    - split; [intros [] | intros [_ [_ E]]; congruence].
  Qed.
  Lemma dataless_iff o : callable o -> (dataless o = true <-> sends o /\ ~ given (k_data o)).
  Proof.
    intros [_ Hd]. unfold dataless. rewrite Bool.andb_true_iff, sendsb_iff. unfold given. split; intros [A B]; (split; [exact A|]).
    - intros [v [E [N1 N2]]]. rewrite E in B. destruct v; try discriminate B. apply N1. reflexivity.
    - destruct (k_data o) as [v|] eqn:E; [|reflexivity]. destruct v; try reflexivity; exfalso; try (apply B; eexists; split; [reflexivity|]; split; discriminate). apply Hd. reflexivity.
  Qed.
  Lemma typeless_iff o : typeless o = true <-> k_method o = $"POST" /\ exists p, k_path o = Some p /\ forall n, ~ type_path n p.
  Proof.
    unfold typeless. rewrite Bool.andb_true_iff, is_post_iff. split; intros [A B]; (split; [exact A|]).
    - destruct (k_path o) as [p|]; [|discriminate B]. exists p. split; [reflexivity|]. intros n Hn. apply Bool.negb_true_iff in B. rewrite (proj2 (type_path_iff p) (ex_intro _ n Hn)) in B. discriminate B.
    - destruct B as [p [-> B]]. destruct (resource_type_path p) eqn:E; [|reflexivity]. apply type_path_iff in E as [n E]. exfalso. exact (B n E).
  Qed.
  Lemma objectless_iff o : objectless o = true <-> k_method o <> $"POST" /\ exists p, k_path o = Some p /\ forall n, ~ object_path n p.
  Proof.
    unfold objectless. rewrite Bool.andb_true_iff, Bool.negb_true_iff, <- Bool.not_true_iff_false, is_post_iff. split; intros [A B]; (split; [exact A|]).
    - destruct (k_path o) as [p|]; [|discriminate B]. exists p. split; [reflexivity|]. intros n Hn. apply Bool.negb_true_iff in B. rewrite (proj2 (object_path_iff p) (ex_intro _ n Hn)) in B. discriminate B.
    - destruct B as [p [-> B]]. destruct (resource_object_path p) eqn:E; [|reflexivity]. apply object_path_iff in E as [n E]. exfalso. exact (B n E).
  Qed.

  (** What the check of the operations and the check for missing parts report
      together are the faults. *)
  Lemma bulk_fault_iff o e q : callable o ->
    (bulk_fault o e q <-> In e (bshape_errs o q) \/ e = e_missing /\ q = [LStr ($"path")] /\ unpathed o).
  Proof.
    intros Hc. unfold bshape_errs. rewrite !in_app_iff, !in_one_err, dataless_iff, typeless_iff, objectless_iff by exact Hc.
    unfold idless, nowhere, unpathed. rewrite Bool.andb_true_iff, is_post_iff. split.
    - intros [H1 H2|H|p H1 H2 H3|p H1 H2 H3|H1 H2].
      + rewrite H2. tauto.
      + tauto.
      + assert (E : exists p, k_path o = Some p /\ forall n, ~ type_path n p) by (exists p; auto). tauto.
      + assert (E : exists p, k_path o = Some p /\ forall n, ~ object_path n p) by (exists p; auto). tauto.
      + tauto.
    - intros [[[[H1 H2] [-> ->]]|[[H [-> ->]]|[[[H1 [p [H2 H3]]] [-> ->]]|[[[H1 [p [H2 H3]]] [-> ->]]|[[H1 H2] [-> ->]]]]]]|[-> [-> H]]].
      + apply post_without_id; [exact H1|]. destruct (k_id o); [discriminate H2 | reflexivity].
      + apply without_path. destruct (k_path o); [discriminate H | auto].
      + exact (no_type_path o p H1 H2 H3).
      + exact (no_object_path o p H1 H2 H3).
      + apply without_data; assumption.
      + apply without_path. exact H.
  Qed.

  Lemma usable_path o : ~ unusable o -> exists p n, k_path o = Some p /\ about o n p.
  Proof.
    intros U. destruct (k_path o) as [p|] eqn:E.
    - exists p. unfold about. destruct (is_post o) eqn:P.
      + apply is_post_iff in P. destruct (resource_type_path p) eqn:R.
        * apply type_path_iff in R as [n R]. exists n. auto.
        * exfalso. apply U. exists e_type_endpoint. left. apply (no_type_path o p P E). intros n Hn. rewrite (proj2 (type_path_iff p) (ex_intro _ n Hn)) in R. discriminate R.
      + assert (P' : k_method o <> $"POST") by (intros Q; apply is_post_iff in Q; congruence). destruct (resource_object_path p) eqn:R.
        * apply object_path_iff in R as [n R]. exists n. auto.
        * exfalso. apply U. exists e_object_endpoint. left. apply (no_object_path o p P' E). intros n Hn. rewrite (proj2 (object_path_iff p) (ex_intro _ n Hn)) in R. discriminate R.
    - exfalso. apply U. exists e_missing. left. apply without_path. auto.
  Qed.
  Lemma usable_data o : callable o -> ~ unusable o -> sends o -> exists d, k_data o = Some d /\ d <> VNone /\ d <> VMissing.
  Proof.
    intros Hc U S. destruct (dataless o) eqn:D.
    - apply (dataless_iff o Hc) in D as [D1 D2]. exfalso. apply U. exists e_missing. right. apply without_data; assumption.
    - destruct (k_data o) as [d|] eqn:E.
      + exists d. split; [reflexivity|]. unfold dataless in D. rewrite E, (proj2 (sendsb_iff o) S) in D. split; [intros ->; discriminate D|]. destruct Hc as [_ Hc]. congruence.
      + unfold dataless in D. rewrite E, (proj2 (sendsb_iff o) S) in D. discriminate D.
  Qed.

  (** ** The single requests *)

  Lemma base_parse_wrap m s v : base_parse m s (wrap v) = base_parse m s v.
  Proof.
    destruct v; try reflexivity. cbn [wrap]. unfold base_parse, process_data.
    assert (E : mk_cont (mk_cont (VDict d)) = mk_cont (VDict d)) by (destruct (cont_of (VDict d)) as [? [? ->]]; reflexivity).
    rewrite E. destruct (cont_of (VDict d)) as [? [? ->]]. reflexivity.
  Qed.
  Lemma alone_item s o m : callable o -> ~ unusable o -> bmethod_of (VStr (k_method o)) = Ok m -> m <> BDelete ->
    forall rq js, bulk_item_parse m s (opt (kept o)) = Ok (rq, js) <-> alone s o rq js.
  Proof.
    intros Hc U Hm N rq js. unfold kept.
    assert (P : forall d, post_parse s (wrap d) VNone VNone = post_parse s d VNone VNone) by (intros d; unfold post_parse, parse_body, schema_parse; rewrite base_parse_wrap; reflexivity).
    assert (P2 : forall d, put_parse s (wrap d) VNone VNone = put_parse s d VNone VNone) by (intros d; unfold put_parse, parse_body, schema_parse; rewrite base_parse_wrap; reflexivity).
    assert (P3 : forall d, patch_parse_request s (wrap d) VNone VNone = patch_parse_request s d VNone VNone) by (intros d; unfold patch_parse_request, parse_body, patch_parse, schema_parse; rewrite base_parse_wrap; reflexivity).
    assert (D : sends o -> exists d, k_data o = Some d) by (intros S; destruct (usable_data o Hc U S) as [d [D _]]; exists d; exact D).
    assert (K : sendsb o = true -> opt (if sendsb o then wrapped o else None) = opt (option_map wrap (k_data o))) by (intros ->; reflexivity).
    destruct Hc as [Hc _]. unfold sends in D. destruct Hc as [E|[E|[E|[E|[E|[]]]]]]; rewrite <- E in *; cbn in Hm; injection Hm as <-; cbn [bulk_item_parse]; try (contradiction N; reflexivity).
    - assert (S : sendsb o = false) by (unfold sendsb; rewrite <- E; reflexivity). rewrite S. cbn [opt]. split; intros H; [apply alone_get; [symmetry; exact E | exact H]|].
      inversion H as [? ? H1 H2|? ? ? H1 H2|? ? ? H1 H2|? ? ? H1 H2]; subst; [exact H2|rewrite <- E in H1; discriminate H1..].
    - rewrite K by (unfold sendsb; rewrite <- E; reflexivity). destruct D as [d D]; [cbn [In]; tauto|]. rewrite D. cbn [option_map opt]. rewrite P. split; intros H; [apply (alone_post _ _ d); [symmetry; exact E | exact D | exact H]|].
      inversion H as [? ? H1 H2|d' ? ? H1 H2 H3|? ? ? H1 H2|? ? ? H1 H2]; subst; try (rewrite <- E in H1; discriminate H1). congruence.
    - rewrite K by (unfold sendsb; rewrite <- E; reflexivity). destruct D as [d D]; [cbn [In]; tauto|]. rewrite D. cbn [option_map opt]. rewrite P2. split; intros H; [apply (alone_put _ _ d); [symmetry; exact E | exact D | exact H]|].
      inversion H as [? ? H1 H2|? ? ? H1 H2|d' ? ? H1 H2 H3|? ? ? H1 H2]; subst; try (rewrite <- E in H1; discriminate H1). congruence.
    - rewrite K by (unfold sendsb; rewrite <- E; reflexivity). destruct D as [d D]; [cbn [In]; tauto|]. rewrite D. cbn [option_map opt]. rewrite P3. split; intros H; [apply (alone_patch _ _ d); [symmetry; exact E | exact D | exact H]|].
      inversion H as [? ? H1 H2|? ? ? H1 H2|? ? ? H1 H2|d' ? ? H1 H2 H3]; subst; try (rewrite <- E in H1; discriminate H1). congruence.
  Qed.

  (** ** The loop over the operations *)

  Definition below_data (js : issues) (q : loc) : list error := match loc_strip [LStr ($"data")] q with Some q' => errs_at js (body_loc ++ q') | None => [] end.
  Inductive did (schemas : list schema) (o : bulk_op) : value -> (loc -> list error) -> Prop :=
  | did_stop : unusable o -> did schemas o (bulk_left o) (fun _ => [])
  | did_delete : ~ unusable o -> k_method o = $"DELETE" -> did schemas o (bulk_left o) (fun _ => [])
  | did_unknown p n : ~ unusable o -> k_method o <> $"DELETE" -> k_path o = Some p -> about o n p -> (forall s, ~ serves schemas n s) ->
      did schemas o (bulk_left o) (one_err true e_unknown_resource ($"path"))
  | did_served p n s rq js : ~ unusable o -> k_method o <> $"DELETE" -> k_path o = Some p -> about o n p -> serves schemas n s -> alone s o rq js ->
      did schemas o (bulk_raw o (Some (rq_body rq))) (below_data js).

  Lemma did_root schemas o v er : did schemas o v er -> er [] = [].
  Proof. intros [ | | | ]; reflexivity. Qed.

  Lemma put_data o x : set_item_str (bulk_left o) ($"data") x = Ok (bulk_raw o (Some x)).
  Proof. unfold bulk_left. destruct (kept o); destruct o as [m [b|] [ve|] [p|] w]; reflexivity. Qed.
  Lemma set_bulk_doc f xs i o x : nth_error xs i = Some (bulk_left o) -> set_op_field (bulk_doc f xs) (mkRep bulk_request_uri ops_name [] false) i ($"data") x = Ok (bulk_doc f (set_nth i (bulk_raw o (Some x)) xs)).
  Proof.
    intros H. unfold set_op_field. change (mkRep bulk_request_uri ops_name [] false) with (bq_rep []). rewrite bulk_doc_top. cbn [bind]. rewrite H, put_data. cbn [bind]. destruct f; reflexivity.
  Qed.
  Lemma set_nth_same {A} i (x : A) l : nth_error l i = Some x -> set_nth i x l = l.
  Proof. revert i. induction l as [|y t IH]; intros [|i] H; try discriminate H; cbn [set_nth]; [injection H as ->; reflexivity | rewrite IH by exact H; reflexivity]. Qed.

  Definition under_op (i : nat) (er : loc -> list error) (p : loc) : list error := match loc_strip (at_bulk i) p with Some q => er q | None => [] end.

  Lemma about_name o n p : about o n p -> (if str_is (VStr (k_method o)) ($"POST") then after_slash p else second_segment p) = Ok n.
  Proof.
    intros [[M H]|[M H]].
    - rewrite M. change (str_is (VStr ($"POST")) ($"POST")) with true. exact (after_slash_type n p H).
    - assert (E : str_is (VStr (k_method o)) ($"POST") = false) by (apply str_eqb_neq; exact M). rewrite E. exact (second_segment_object n p H).
  Qed.

  Lemma not_delete o m : callable o -> bmethod_of (VStr (k_method o)) = Ok m -> k_method o <> $"DELETE" -> m <> BDelete.
  Proof. intros [Hc _] Hm N. destruct Hc as [E|[E|[E|[E|[E|[]]]]]]; rewrite <- E in *; cbn in Hm; injection Hm as <-; try discriminate. contradiction N. reflexivity. Qed.

  Lemma bulk_step schemas f xs i o iss b' iss' : Forall sound schemas -> callable o -> tight iss -> nth_error xs i = Some (bulk_left o) ->
    (forall p, errs_at iss p <> [] -> exists j x q, p = at_bulk j ++ x :: q) ->
    (unusable o <-> errs_at iss (at_bulk i ++ [LStr ($"path")]) <> [] \/ errs_at iss (at_bulk i ++ [LStr ($"data")]) <> []) ->
    bulk_parse_operation (validators schemas) i (opt (option_map VStr (k_path o))) (opt (kept o)) (VStr (k_method o)) (bulk_doc f xs) iss = Ok (b', iss') ->
    exists v er, did schemas o v er /\ b' = bulk_doc f (set_nth i v xs) /\ tight iss' /\ forall p, errs_at iss' p = errs_at iss p ++ under_op i er p.
  Proof.
    intros Hs Hc T Hx Hl Hu H. unfold bulk_parse_operation in H.
    match type of H with context [can_proceed ?a ?b] => assert (C : can_proceed a b = true <-> ~ unusable o) end.
    { rewrite (tight_proceeds _ _ T). split.
      - intros G U. apply Hu in U as [U|U]; apply U.
        + apply (G (op_field_loc i ($"path"))); [left; reflexivity | exists []; symmetry; apply app_nil_r].
        + apply (G (op_field_loc i ($"data"))); [right; left; reflexivity | exists []; symmetry; apply app_nil_r].
      - intros U q Hq a [t Ha]. destruct (errs_at iss a) as [|e es] eqn:E; [reflexivity|]. exfalso.
        destruct (Hl a) as [j [x [q' Ej]]]; [rewrite E; discriminate|]. subst a. cbn [at_bulk app] in Ha.
        destruct Hq as [Hq|[Hq|[Hq|[]]]]; rewrite <- Hq in Ha.
        + cbn in Ha. injection Ha as <- <- Ha. apply U. apply Hu. left. destruct q'; [|discriminate Ha]. intros G. assert (X : [] = e :: es) by exact (eq_trans (eq_sym G) E). discriminate X.
        + cbn in Ha. injection Ha as <- <- Ha. apply U. apply Hu. right. destruct q'; [|discriminate Ha]. intros G. assert (X : [] = e :: es) by exact (eq_trans (eq_sym G) E). discriminate X.
        + cbn in Ha. discriminate Ha. }
    assert (Stay : forall v', v' = bulk_left o -> Ok (bulk_doc f xs, iss) = Ok (b', iss') -> did schemas o v' (fun _ => []) -> exists v er, did schemas o v er /\ b' = bulk_doc f (set_nth i v xs) /\ tight iss' /\ forall p, errs_at iss' p = errs_at iss p ++ under_op i er p).
    { intros v' -> Q D. injection Q as <- <-. exists (bulk_left o), (fun _ => []). split; [exact D|]. split; [rewrite set_nth_same by exact Hx; reflexivity|]. split; [exact T|].
      intros p. unfold under_op. destruct (loc_strip _ _); rewrite app_nil_r; reflexivity. }
    destruct (can_proceed _ _).
    2:{ apply (Stay _ eq_refl H). apply did_stop. apply Hu.
        destruct (errs_at iss (at_bulk i ++ [LStr ($"path")])) as [|e1 l1] eqn:E1; [|left; discriminate]. destruct (errs_at iss (at_bulk i ++ [LStr ($"data")])) as [|e2 l2] eqn:E2; [|right; discriminate].
        exfalso. assert (G : false = true); [|discriminate G]. apply C. intros U. apply Hu in U as [U|U]; apply U; reflexivity. }
    assert (U : ~ unusable o) by (apply C; reflexivity). clear C.
    destruct (usable_path o U) as [p [n [Hp Ha]]].
    destruct (str_is (VStr (k_method o)) ($"DELETE")) eqn:D.
    { apply (Stay _ eq_refl H). apply did_delete; [exact U | apply str_eqb_eq; exact D]. }
    assert (N : k_method o <> $"DELETE") by (apply str_eqb_neq; exact D).
    rewrite Hp in H. cbn [option_map opt bind] in H. rewrite (about_name o n p Ha) in H. cbn [bind] in H.
    apply bind_ok in H as [m [Hm H]]. destruct (sget n (validators schemas)) as [s|] eqn:E.
    - apply bind_ok in H as [[rq js] [Hi H]]. apply bind_ok in H as [ks [Hk H]]. rewrite (set_bulk_doc f xs i o _ Hx) in H. cbn [bind] in H. injection H as <- <-.
      assert (W : wf js) by (apply (item_parse_wf m s (opt (kept o)) rq js); [exact (validators_sound _ _ _ Hs E) | exact Hi]).
      destruct (merge_get _ _ _ _ _ T W Hk) as [T' Eq]. exists (bulk_raw o (Some (rq_body rq))), (below_data js). split; [|split; [reflexivity|split; [exact T'|]]].
      + apply validators_spec in E. apply (did_served _ _ p n s); try assumption. refine (proj1 (alone_item s o m Hc U Hm _ rq js) Hi).
        exact (not_delete o m Hc Hm N).
      + intros q. rewrite Eq. f_equal. unfold under_op, below_data. change (op_field_loc i ($"data")) with (at_bulk i ++ [LStr ($"data")]).
        destruct (loc_strip (at_bulk i) q) as [q1|] eqn:L1.
        * apply loc_strip_spec in L1 as ->. destruct (loc_strip [LStr ($"data")] q1) as [q2|] eqn:L2.
          -- apply loc_strip_spec in L2 as ->. rewrite app_assoc, loc_strip_app. reflexivity.
          -- destruct (loc_strip (at_bulk i ++ _) _) as [q3|] eqn:L3; [|reflexivity]. apply loc_strip_spec in L3. rewrite <- app_assoc in L3. apply app_inv_head in L3. subst q1. rewrite loc_strip_app in L2. discriminate L2.
        * destruct (loc_strip (at_bulk i ++ _) q) as [q3|] eqn:L3; [|reflexivity]. apply loc_strip_spec in L3. rewrite <- app_assoc in L3. subst q. rewrite loc_strip_app in L1. discriminate L1.
    - injection H as <- <-. exists (bulk_left o), (one_err true e_unknown_resource ($"path")). split; [|split; [rewrite set_nth_same by exact Hx; reflexivity|split; [apply tight_add; exact T|]]].
      + apply (did_unknown _ _ p n); try assumption. apply unserved_spec. exact E.
      + intros q. rewrite errs_at_add. f_equal. unfold under_op, one_err. change (op_field_loc i ($"path")) with (at_bulk i ++ [LStr ($"path")]).
        destruct (loc_strip (at_bulk i) q) as [q1|] eqn:L1.
        * apply loc_strip_spec in L1 as ->. destruct (loc_dec [LStr ($"path")] q1) as [<-|Nq].
          -- destruct (loc_dec _ _) as [_|G]; [reflexivity | contradiction G; reflexivity].
          -- destruct (loc_dec _ _) as [G|_]; [|reflexivity]. exfalso. apply Nq. exact (app_inv_head (at_bulk i) [LStr ($"path")] q1 G).
        * destruct (loc_dec _ _) as [G|_]; [|reflexivity]. exfalso. rewrite loc_strip_none in L1. exact (L1 [LStr ($"path")] (eq_sym G)).
  Qed.

  Lemma bulk_loop schemas f l : Forall sound schemas -> Forall callable l -> forall i pre iss b' iss', length pre = i -> tight iss ->
    (forall p, errs_at iss p <> [] -> exists j x q, p = at_bulk j ++ x :: q) ->
    (forall j o, nth_error l j = Some o -> (unusable o <-> errs_at iss (at_bulk (i + j) ++ [LStr ($"path")]) <> [] \/ errs_at iss (at_bulk (i + j) ++ [LStr ($"data")]) <> [])) ->
    bulk_parse_operations (validators schemas) i (map (fun o => opt (option_map VStr (k_path o))) l) (map (fun o => opt (kept o)) l) (map (fun o => VStr (k_method o)) l)
      (bulk_doc f (pre ++ map bulk_left l)) iss = Ok (b', iss') ->
    exists outs, Forall2 (fun o out => did schemas o (fst out) (snd out)) l outs /\ b' = bulk_doc f (pre ++ map fst outs) /\ tight iss'
    /\ (forall j out q, nth_error outs j = Some out -> errs_at iss' (at_bulk (i + j) ++ q) = errs_at iss (at_bulk (i + j) ++ q) ++ snd out q)
    /\ (forall p, (forall j q, j < length l -> p <> at_bulk (i + j) ++ q) -> errs_at iss' p = errs_at iss p).
  Proof.
    intros Hs Hl. induction Hl as [|o l Ho Hl IH]; intros i pre iss b' iss' Hi T Hp Hu H.
    - cbn [map bulk_parse_operations] in H. injection H as <- <-. exists []. split; [constructor|]. split; [reflexivity|]. split; [exact T|]. split; [|reflexivity].
      intros [|j] out q E; discriminate E.
    - cbn [map bulk_parse_operations] in H. apply bind_ok in H as [[b1 i1] [H1 H]].
      pose proof (Hu 0 o eq_refl) as Hu0. rewrite Nat.add_0_r in Hu0.
      assert (Hx : nth_error (pre ++ bulk_left o :: map bulk_left l) i = Some (bulk_left o)) by (rewrite nth_error_app2 by lia; rewrite Hi, Nat.sub_diag; reflexivity).
      destruct (bulk_step schemas f _ i o iss b1 i1 Hs Ho T Hx Hp Hu0 H1) as [v [er [D [-> [T1 E1]]]]].
      assert (Sn : set_nth i v (pre ++ bulk_left o :: map bulk_left l) = (pre ++ [v]) ++ map bulk_left l).
      { subst i. rewrite <- app_assoc. clear. induction pre as [|x pre IH]; [reflexivity|]. cbn [length set_nth app]. rewrite IH. reflexivity. }
      rewrite Sn in H.
      assert (Far : forall j q, errs_at i1 (at_bulk (i + S j) ++ q) = errs_at iss (at_bulk (i + S j) ++ q)).
      { intros j q. rewrite E1. unfold under_op. destruct (loc_strip (at_bulk i) _) as [q'|] eqn:L; [|apply app_nil_r]. apply loc_strip_spec in L. cbn in L. injection L as L _. lia. }
      specialize (IH (S i) (pre ++ [v]) i1 b' iss'). destruct IH as [outs [F [-> [T' [A1 A2]]]]].
      + rewrite app_length. cbn [length]. lia.
      + exact T1.
      + intros p Np. rewrite E1 in Np. destruct (errs_at iss p) as [|e es] eqn:Ep.
        * cbn [app] in Np. unfold under_op in Np. destruct (loc_strip (at_bulk i) p) as [q|] eqn:L; [|contradiction Np; reflexivity]. apply loc_strip_spec in L as ->.
          destruct q as [|x q]; [rewrite (did_root _ _ _ _ D) in Np; contradiction Np; reflexivity|]. exists i, x, q. reflexivity.
        * apply Hp. rewrite Ep. discriminate.
      + intros j o' Hj. replace (S i + j) with (i + S j) by lia. rewrite !Far. exact (Hu (S j) o' Hj).
      + exact H.
      + exists ((v, er) :: outs). split; [constructor; [exact D | exact F]|]. split; [cbn [map fst]; rewrite <- app_assoc; reflexivity|]. split; [exact T'|]. split.
        * intros [|j] out q E; cbn [nth_error] in E.
          -- injection E as <-. cbn [snd]. rewrite Nat.add_0_r. rewrite A2.
             ++ rewrite E1. unfold under_op. rewrite loc_strip_app. reflexivity.
             ++ intros j q' _ C. cbn in C. injection C as C _. lia.
          -- replace (i + S j) with (S i + j) by lia. rewrite (A1 j out q E). f_equal. replace (S i + j) with (i + S j) by lia. apply Far.
        * intros p Np. rewrite A2.
          -- rewrite E1. unfold under_op. destruct (loc_strip (at_bulk i) p) as [q|] eqn:L; [|apply app_nil_r]. apply loc_strip_spec in L as ->. exfalso. apply (Np 0 q); [cbn; lia|]. rewrite Nat.add_0_r. reflexivity.
          -- intros j q Hj C. apply (Np (S j) q); [cbn; lia|]. replace (i + S j) with (S i + j) by lia. exact C.
  Qed.

  Lemma bulk_column f l sub (g : bulk_op -> value) : (forall o, get_item (bulk_left o) (simple_name sub) = Ok (g o)) -> attr_ok sub -> sub <> [] ->
    get_item (bulk_doc f (map bulk_left l)) (ops_rep bulk_request_uri sub) = Ok (VList (map g l)).
  Proof.
    intros H Hok Hne. transitivity (get_sub (VList (map bulk_left l)) sub); [unfold bulk_doc, tabled; rewrite get_item_eq; destruct f; reflexivity|].
    unfold get_sub. destruct sub as [|c t]; [contradiction|].
    assert (E : mapM (fun y => let! r' := mk_rep [] (c :: t) [] false in get_item y r') (map bulk_left l) = Ok (map g l)).
    { rewrite (mk_rep_plain (c :: t) [] Hok). cbn [bind]. induction l as [|o l IH]; [reflexivity|]. cbn [map mapM].
      unfold simple_name in H. rewrite H. cbn [bind]. rewrite IH. reflexivity. }
    rewrite E. reflexivity.
  Qed.

  (** A request with operations, taken apart. *)
  Lemma bulk_result schemas mx f l h q rq iss : Forall sound schemas -> Forall callable l -> l <> [] ->
    bulk_parse_request schemas (Some mx) (bulk_document f l) h q = Ok (rq, iss) ->
    exists outs, Forall2 (fun o out => did schemas o (fst out) (snd out)) l outs /\ rq_body rq = keep_body (bulk_doc f (map fst outs)) iss /\ wf iss
    /\ (forall i o out, nth_error l i = Some o -> nth_error outs i = Some out -> forall e q, In e (errs_at iss (at_bulk i ++ q)) <-> bulk_fault o e q \/ In e (snd out q))
    /\ (forall e p, In e (errs_at iss p) -> (exists i o q, nth_error l i = Some o /\ p = at_bulk i ++ q) \/ e = e_too_many_ops /\ p = at_body [LStr ops_name]).
  Proof.
    intros Hs Hl Hn H. unfold bulk_parse_request in H. destruct (bulk_read_all f l Hl) as [js [J1 [J2 J3]]]. rewrite J1 in H. cbn [bind] in H.
    apply bind_ok in H as [ps [Hp H]]. pose proof (bulk_presence f l ps Hl Hn Hp) as Pp. apply presence_report in Hp.
    set (i0 := merge (merge no_issues js body_loc) ps body_loc) in *.
    assert (T0 : tight i0) by (apply tight_merge; [apply tight_merge; [apply tight_none|]|]; apply report_wf; assumption).
    assert (E0 : forall p, errs_at i0 p = match loc_strip body_loc p with Some q => errs_at js q ++ errs_at ps q | None => [] end).
    { intros p. unfold i0. rewrite errs_merge_wf by (try (apply wf_merge; [apply wf_no_issues|]); apply report_wf; assumption). rewrite errs_merge_wf by (first [apply wf_no_issues | apply report_wf; assumption]).
      destruct (loc_strip body_loc p); reflexivity. }
    assert (F0 : forall i o, nth_error l i = Some o -> forall e q, In e (errs_at i0 (at_bulk i ++ q)) <-> bulk_fault o e q).
    { intros i o Hi e q0. assert (Ho : callable o) by (rewrite Forall_forall in Hl; apply Hl; exact (nth_error_In _ _ Hi)).
      rewrite E0. change (at_bulk i ++ q0) with (body_loc ++ [LStr ops_name] ++ LIdx i :: q0). rewrite loc_strip_app, in_app_iff, J3, (bulk_fault_iff o e q0 Ho). unfold under_ops. rewrite loc_strip_app. cbn [bshape_outs]. rewrite Hi.
      rewrite Pp. split; intros [G|G]; auto; right.
      - destruct G as [-> [j [o' [G1 [G2 G3]]]]]. cbn in G2. injection G2 as <- ->. rewrite Hi in G1. injection G1 as <-. auto.
      - destruct G as [-> [-> G]]. split; [reflexivity|]. exists i, o. auto. }
    assert (L0 : forall p, errs_at i0 p <> [] -> exists j x q, p = at_bulk j ++ x :: q).
    { intros p Np. rewrite E0 in Np. destruct (loc_strip body_loc p) as [p1|] eqn:L; [|contradiction Np; reflexivity]. apply loc_strip_spec in L as ->.
      destruct (errs_at js p1) as [|e es] eqn:Ej.
      - destruct (errs_at ps p1) as [|e es] eqn:Ep; [contradiction Np; reflexivity|]. assert (I : In e (errs_at ps p1)) by (rewrite Ep; left; reflexivity). apply Pp in I as [_ [i [o [_ [-> _]]]]]. exists i, (LStr ($"path")), []. reflexivity.
      - assert (I : In e (errs_at js p1)) by (rewrite Ej; left; reflexivity). rewrite J3 in I. unfold under_ops in I. destruct (loc_strip [LStr ops_name] p1) as [p2|] eqn:L; [|destruct I]. apply loc_strip_spec in L as ->.
        destruct p2 as [|[n|i] p2]; try destruct I. cbn [bshape_outs] in I. destruct (nth_error l i) as [o|]; [|destruct I]. destruct p2 as [|x p2]; [|exists i, x, p2; reflexivity].
        unfold bshape_errs in I. rewrite !in_app_iff, !in_one_err in I. decompose [or and] I; discriminate. }
    assert (L1 : forall p, errs_at i0 p <> [] -> exists j o q, nth_error l j = Some o /\ p = at_bulk j ++ q).
    { intros p Np. destruct (L0 p Np) as [j [x [q0 ->]]]. rewrite E0 in Np. change (at_bulk j ++ x :: q0) with (body_loc ++ [LStr ops_name] ++ LIdx j :: x :: q0) in Np. rewrite loc_strip_app, J3 in Np. unfold under_ops in Np. rewrite loc_strip_app in Np. cbn [bshape_outs] in Np.
      destruct (nth_error l j) as [o|] eqn:E; [exists j, o, (x :: q0); auto|]. exfalso. cbn [app] in Np.
      destruct (errs_at ps _) as [|e es] eqn:Ep; [contradiction Np; reflexivity|]. assert (I : In e (errs_at ps (LStr ops_name :: LIdx j :: x :: q0))) by (rewrite Ep; left; reflexivity).
      apply Pp in I as [_ [i [o [I1 [I2 _]]]]]. injection I2 as -> _. congruence. }
    assert (C : can_proceed (merge_src js) [body_loc ++ [LStr ops_name]] = true).
    { destruct (can_proceed (merge_src js) [body_loc ++ [LStr ops_name]]) eqn:C; [reflexivity|]. exfalso. apply can_proceed_spec in C as [x [a [C1 [C2 C3]]]]. change (stops (merge_src js) a) in C3. apply stops_src in C3.
      assert (Q : errs_at js a <> []).
      { destruct C3 as [C3|C3]; [exact (report_stops _ J2 _ C3)|]. intros G. apply (errs_at_nil_iff _ _ (report_wf _ J2)) in G. contradiction. }
      rewrite J3 in Q. destruct C1 as [<-|[]]. destruct C2 as [t C2]. unfold under_ops in Q. destruct (loc_strip [LStr ops_name] a) as [p2|] eqn:L; [|apply Q; reflexivity]. apply loc_strip_spec in L as ->. discriminate C2. }
    rewrite C in H. cbn [negb] in H.
    assert (K1 : attr_ok ($"path")) by (apply attr_name_ok_spec; reflexivity). assert (K2 : attr_ok ($"data")) by (apply attr_name_ok_spec; reflexivity). assert (K3 : attr_ok ($"method")) by (apply attr_name_ok_spec; reflexivity).
    rewrite (bulk_column f l ($"path") _ bulk_left_path K1), (bulk_column f l ($"data") _ bulk_left_data K2), (bulk_column f l ($"method") _ bulk_left_method K3) in H by discriminate.
    cbn [bind iter_value] in H. apply bind_ok in H as [[b2 i2] [Hb H]].
    assert (U0 : forall j o, nth_error l j = Some o -> (unusable o <-> errs_at i0 (at_bulk (0 + j) ++ [LStr ($"path")]) <> [] \/ errs_at i0 (at_bulk (0 + j) ++ [LStr ($"data")]) <> [])).
    { intros j o Hj. cbn [Nat.add].
      assert (G : forall q, errs_at i0 (at_bulk j ++ q) <> [] <-> exists e, bulk_fault o e q).
      { intros q0. destruct (errs_at i0 (at_bulk j ++ q0)) as [|e es] eqn:E.
        - split; [intros G; contradiction G; reflexivity|]. intros [e G]. apply (F0 j o Hj) in G. rewrite E in G. destruct G.
        - split; [|discriminate]. intros _. exists e. apply (F0 j o Hj). rewrite E. left. reflexivity. }
      rewrite !G. unfold unusable. split; [intros [e [X|X]]; eauto | intros [[e X]|[e X]]; eauto]. }
    destruct (bulk_loop schemas f l Hs Hl 0 [] i0 b2 i2 eq_refl T0 L0 U0 Hb) as [outs [F [-> [T2 [A1 A2]]]]].
    change ([] ++ map fst outs) with (map fst outs) in H. change (mkRep bulk_request_uri ops_name [] false) with (bq_rep []) in H. rewrite bulk_doc_top in H. cbn [bind] in H. injection H as <- <-.
    exists outs. split; [exact F|]. split; [reflexivity|].
    set (bb := (mx <? _)%Z).
    split; [apply wf_if; apply T2|]. split.
    - intros i o out Hi Ho e q0. rewrite add_if_errs. match goal with |- context [if bb then ?t else []] => assert (Z0 : (if bb then t else []) = []) end.
      { destruct bb; [|reflexivity]. destruct (loc_dec _ _) as [G|_]; [discriminate G | reflexivity]. }
      rewrite Z0, app_nil_r. pose proof (A1 i out q0 Ho) as A. cbn [Nat.add] in A. rewrite A, in_app_iff, (F0 i o Hi). reflexivity.
    - intros e p I. rewrite add_if_errs in I. apply in_app_iff in I as [I|I].
      + left. destruct (errs_at i0 p) as [|e0 es] eqn:E.
        * destruct p as [|x p]; [rewrite A2 in I by (intros j q0 _ G; discriminate G); rewrite E in I; destruct I|].
          assert (G : (exists j q0, j < length l /\ x :: p = at_bulk j ++ q0) \/ forall j q0, j < length l -> x :: p <> at_bulk j ++ q0).
          { destruct p as [|y [|[z|k] p]]; try (right; intros j q0 _ G; discriminate G). destruct (loc_dec [x; y] [LStr ($"body"); LStr ($"Operations")]) as [G|G].
            - injection G as -> ->. destruct (Nat.lt_ge_cases k (length l)) as [Q|Q]; [left; exists k, p; split; [exact Q | reflexivity]|]. right. intros j q0 Hj G. cbn in G. injection G as -> _. lia.
            - right. intros j q0 _ G'. apply G. cbn in G'. injection G' as -> -> _ _. reflexivity. }
          destruct G as [[j [q0 [G1 G2]]]|G].
          -- destruct (nth_error l j) as [o|] eqn:Ho; [exists j, o, q0; auto|]. apply nth_error_None in Ho. lia.
          -- rewrite A2 in I by exact G. rewrite E in I. destruct I.
        * apply L1. rewrite E. discriminate.
      + destruct bb; [|destruct I]. destruct (loc_dec _ _) as [<-|_]; [|destruct I]. destruct I as [<-|[]]. right. auto.
  Qed.
End Env.
