(** Lemmas about the operations of bulk responses. *)
From Coq Require Import Lia.
From Verif Require Import PyBase BaseFacts PyNum Issues IssuesSpec IssuesFacts AttrRep AttrRepSpec Value Container ContainerSpec ContainerFacts ContainerRW AttrRepFacts ValueFacts
  Types Attr Schema Assets Presence Match MatchCompare FilterParse Path Sort Patch ListResp Search Bulk Requests
  AttrSpec AttrFacts AttrItems SchemaSpec SchemaFacts SchemaBuild PropAttr PropSchema PresenceSpec PresenceFacts PropPresence PatchSpec PatchFacts PropPatch RequestSpec ListSpec RequestFacts MsgFacts BodyFacts ListFacts
  PatchShapeFacts BulkFacts BulkOpSpec BulkOpFacts BulkRespSpec.

(** ** The schema that judges a location *)

Lemma names_iff t s : contains t (slash :: sc_plural s ++ [slash]) = true <-> names t s.
Proof. apply contains_spec. Qed.
Definition listing (l : list schema) : list (str * schema) := map (fun s => (sc_plural s, s)) l.
Lemma sset_new {A} k (v : A) l : ~ In k (map fst l) -> sset k v l = l ++ [(k, v)].
Proof.
  induction l as [|[n x] t IH]; intros H; [reflexivity|]. cbn [map fst In] in H. unfold sset in *. cbn [aset app].
  destruct (str_eqb n k) eqn:E; [apply str_eqb_eq in E; subst n; exfalso; apply H; left; reflexivity|]. rewrite IH by (intros G; apply H; right; exact G). reflexivity.
Qed.
Lemma validators_listing schemas : told_apart schemas -> validators schemas = listing schemas.
Proof.
  unfold told_apart, validators.
  assert (G : forall l acc, NoDup (map sc_plural acc ++ map sc_plural l) -> fold_left (fun acc s => sset (sc_plural s) s acc) l (listing acc) = listing (acc ++ l)).
  { induction l as [|s l IH]; intros acc H; cbn [fold_left map] in *; [rewrite app_nil_r; reflexivity|].
    rewrite sset_new.
    - replace (listing acc ++ [(sc_plural s, s)]) with (listing (acc ++ [s])) by (unfold listing; rewrite map_app; reflexivity).
      rewrite IH; [rewrite <- app_assoc; reflexivity|]. rewrite map_app, <- app_assoc. exact H.
    - unfold listing. rewrite map_map. cbn [fst]. apply NoDup_remove_2 in H. intros G. apply H. apply in_or_app. left. exact G. }
  intros H. apply (G schemas []). exact H.
Qed.
(** The search, with the schema looked at last. *)
Lemma locate_spec t l : forall last v b, locate (listing l) t last = (v, b) ->
  (b = true /\ exists l1 s l2, l = l1 ++ s :: l2 /\ v = Some s /\ names t s /\ names_none l1 t)
  \/ (b = false /\ names_none l t /\ v = match rev l with s :: _ => Some s | [] => last end).
Proof.
  induction l as [|s l IH]; intros last v b H; cbn [listing map locate] in H.
  - injection H as <- <-. right. split; [reflexivity|]. split; [constructor | reflexivity].
  - fold (listing l) in H. destruct (contains _ _) eqn:E.
    + injection H as <- <-. left. split; [reflexivity|]. exists [], s, l. split; [reflexivity|]. split; [reflexivity|]. split; [apply names_iff; exact E | constructor].
    + assert (N : ~ names t s) by (intros G; apply names_iff in G; congruence). apply IH in H as [[-> [l1 [x [l2 [-> [-> [H1 H2]]]]]]]|[-> [H1 ->]]].
      * left. split; [reflexivity|]. exists (s :: l1), x, l2. split; [reflexivity|]. split; [reflexivity|]. split; [exact H1 | constructor; assumption].
      * right. split; [reflexivity|]. split; [constructor; assumption|]. cbn [rev]. destruct (rev l); reflexivity.
Qed.
Lemma locate_judges schemas t v b : told_apart schemas -> locate (validators schemas) t None = (v, b) ->
  (b = false <-> names_none schemas t) /\ (forall s, v = Some s <-> judges schemas t s) /\ (v = None -> schemas = []).
Proof.
  intros Hd H. rewrite validators_listing in H by exact Hd. apply locate_spec in H as [[-> [l1 [s [l2 [-> [-> [H1 H2]]]]]]]|[-> [H1 ->]]].
  - assert (N : ~ names_none (l1 ++ s :: l2) t) by (intros G; apply Forall_app in G as [_ G]; inversion_clear G as [|? ? G1 G2]; contradiction). split; [split; [discriminate | contradiction]|].
    split; [|discriminate]. intros s'. split.
    + intros [= <-]. exact (judge_named _ _ l1 s l2 eq_refl H1 H2).
    + intros [m1 x m2 E G1 G2|m x E G]; [|contradiction]. f_equal.
      clear N Hd. revert m1 E G2. induction H2 as [|y l1 Hy H2 IH]; intros m1 E G2; destruct m1 as [|z m1]; cbn [app] in E.
      * injection E as E _. exact E.
      * injection E as <- _. inversion_clear G2. contradiction.
      * injection E as -> _. contradiction.
      * injection E as -> E. inversion_clear G2 as [|? ? G3 G4]. exact (IH m1 E G4).
  - split; [split; [intros _; exact H1 | reflexivity]|]. split; [|destruct (rev schemas) as [|x r] eqn:E; [|discriminate]; intros _; rewrite <- (rev_involutive schemas), E; reflexivity]. intros s. split.
    + destruct (rev schemas) as [|x r] eqn:E; [discriminate|]. intros [= <-]. apply (judge_last _ _ (rev r)); [|exact H1]. rewrite <- (rev_involutive schemas), E. reflexivity.
    + intros [l1 x l2 E G1 G2|m x E G].
      * exfalso. rewrite E in H1. apply Forall_app in H1 as [_ H1]. inversion_clear H1 as [|? ? G3 G4]. contradiction.
      * rewrite E, rev_app_distr. reflexivity.
Qed.

(** ** Taking an issue out of a report *)

Lemma lget_key {V} l (v : V) d : lget l d = Some v -> In l (map fst d).
Proof. intros H. apply (proj1 (aget_Some_key _ loc_eqb_eq l d)). exists v. exact H. Qed.
Lemma pop_elsewhere i l c l' : wf i -> l <> l' -> errs_at (snd (pop_issues i l c)) l' = errs_at i l'.
Proof.
  intros [_ [Hn _]] N. unfold pop_issues. destruct (lget l (i_errs i)) as [es|]; [|reflexivity]. destruct (pop_loop _ _ _ _ _) as [es' st']. cbn [snd]. unfold errs_at; cbn [i_errs].
  destruct es'; [rewrite lget_ldel by exact Hn | rewrite lget_lset]; destruct (loc_dec l l'); congruence.
Qed.
Lemma popped_has i l c : wf i -> has_issues (fst (pop_issues i l c)) [] = true <-> errs_at i l <> [].
Proof.
  intros W. unfold pop_issues, errs_at. destruct (lget l (i_errs i)) as [es|] eqn:E; [|split; [discriminate | intros G; contradiction G; reflexivity]].
  destruct (pop_loop _ _ _ _ _) as [es' st']. cbn [fst]. split.
  - intros _ G. assert (H : errs_at i l = []) by (unfold errs_at; rewrite E; exact G). apply (errs_at_nil_iff _ _ W) in H. apply H. exact (lget_key _ _ _ E).
  - intros _. apply has_issues_spec. exists [], []. split; [left; reflexivity|]. cbn [app get_issues i_errs].
    assert (G : errs_at (get_issues i l) [] <> []).
    { rewrite errs_at_get, app_nil_r. intros G. apply (errs_at_nil_iff _ _ W) in G. apply G. exact (lget_key _ _ _ E). }
    unfold errs_at in G. destruct (lget [] (i_errs (get_issues i l))) as [x|] eqn:F; [|contradiction G; reflexivity]. exact (lget_key _ _ _ F).
Qed.
Lemma veq_text w v b : veq (VStr w) v = Ok b -> (b = true <-> v = VStr w).
Proof.
  unfold veq. intros H. destruct v; cbn [py_eq num_of] in H; try (injection H as <-; split; [discriminate | intros E; discriminate E]).
  injection H as <-. rewrite str_eqb_eq. split; [intros ->; reflexivity | intros [= ->]; reflexivity].
Qed.

Section Env.
  Context {env : PyEnv}.

  (** ** The document read as containers *)

  Definition answer_raw (o : bulk_answer) (r : option value) : value :=
    tabled (($"method", VStr (t_method o)) :: field ($"bulkId") (option_map VStr (t_id o)) ++ field ($"version") (option_map VStr (t_version o))
            ++ field ($"location") (option_map VStr (t_location o)) ++ field ($"status") (option_map VStr (t_status o)) ++ field ($"response") r).
  Definition answered (o : bulk_answer) : option value := option_map wrap (t_response o).
  Definition answer_left (o : bulk_answer) : value := answer_raw o (answered o).
  Ltac parts o := destruct o as [m [b|] [ve|] [lo|] [st|] [v|]].
  Lemma mk_answer o : mk_cont (answer_json o) = answer_left o.
  Proof.
    parts o; try reflexivity; destruct v; try reflexivity;
      unfold answer_left, answer_raw, answered, answer_json; cbn [t_method t_id t_version t_location t_status t_response option_map field app wrap]; rewrite <- items_map; reflexivity.
  Qed.
  Definition answers_doc (xs : list value) : value := tabled [($"schemas", VList [VStr bulk_response_uri]); ($"Operations", VList xs)].
  Lemma mk_answers l : mk_cont (answers_document l) = answers_doc (map answer_left l).
  Proof.
    transitivity (answers_doc (map wrap_item (map answer_json l))).
    - unfold answers_doc. rewrite <- items_map. reflexivity.
    - f_equal. rewrite map_map. apply map_ext. intros o. change (wrap_item (answer_json o)) with (mk_cont (answer_json o)). apply mk_answer.
  Qed.

  Lemma dump_step c s n ov l p : get_item c (arep s) = Ok (opt ov) -> (forall v, ov = Some v -> v <> VMissing /\ process s MDump v = Ok (v, no_issues)) ->
    (forall w, set_item (tabled l) (arep s) w = Ok (tabled (l ++ [(n, w)]))) ->
    forall t, walk MDump c p (s :: t) (tabled l) no_issues = walk MDump c p t (tabled (l ++ field n ov)) no_issues.
  Proof.
    intros Hg Hp Hs t. rewrite walk_cons, Hg. destruct ov as [v|]; cbn [opt field bind] in *.
    - destruct (Hp v eq_refl) as [N P].
      assert (E : (let! (y, iss') := process s MDump v in let! parsed' := set_item (tabled l) (arep s) y in
                 walk MDump c p t parsed' (merge no_issues iss' (p ++ [LStr (r_attr (arep s))]))) = walk MDump c p t (tabled (l ++ [(n, v)])) no_issues).
      { rewrite P. cbn [bind]. rewrite Hs. cbn [bind]. rewrite merge_nil. reflexivity. }
      destruct v; try exact E. congruence.
    - rewrite app_nil_r. reflexivity.
  Qed.
  Lemma answer_method_ok m : In m [$"GET"; $"POST"; $"PUT"; $"PATCH"; $"DELETE"] -> process b_method MDump (VStr m) = Ok (VStr m, no_issues).
  Proof. intros [<-|[<-|[<-|[<-|[<-|[]]]]]]; reflexivity. Qed.
  Lemma answer_location_ok t : env_abs_url t = true -> process b_location MDump (VStr t) = Ok (VStr t, no_issues).
  Proof.
    intros H. assert (E : process b_location MDump (VStr t) = if env_abs_url t then Ok (VStr t, no_issues) else process b_location MDump (VStr t)).
    { destruct (env_abs_url t) eqn:F; [|reflexivity]. unfold b_location, mk_simple. cbn [process]. unfold base_process. simpl. rewrite F. reflexivity. }
    rewrite E, H. reflexivity.
  Qed.
  Lemma answer_status_ok t z : py_int (VStr t) = Ok z -> process b_status MDump (VStr t) = Ok (VStr t, no_issues).
  Proof.
    intros H. unfold b_status, mk_simple. cbn [process]. unfold base_process. simpl. unfold run_procs, validate_status. cbn [foldM fst py_int] in *. destruct (parse_int t); [reflexivity | discriminate H].
  Qed.
  Lemma answer_response_ok v : process b_response MDump v = Ok (v, no_issues).
  Proof. destruct v; reflexivity. Qed.

  Lemma answer_read_one o k : well_put o -> walk MDump (mk_cont (answer_left o)) [LIdx k] response_subs empty_cont no_issues = Ok (answer_left o, no_issues).
  Proof.
    intros [Hm Hl Hst Hr]. change (mk_cont (answer_left o)) with (answer_left o). unfold response_subs. change empty_cont with (tabled []).
    rewrite (dump_step _ _ ($"method") (Some (VStr (t_method o)))); [|parts o; reflexivity | intros v [= <-]; split; [discriminate | exact (answer_method_ok _ Hm)] | reflexivity].
    rewrite (dump_step _ _ ($"bulkId") (option_map VStr (t_id o)));
      [|parts o; reflexivity | destruct (t_id o); intros v [= <-]; split; [discriminate | reflexivity] | reflexivity].
    rewrite (dump_step _ _ ($"version") (option_map VStr (t_version o)));
      [|parts o; reflexivity | destruct (t_version o); intros v [= <-]; split; [discriminate | reflexivity] | parts o; reflexivity].
    rewrite (dump_step _ _ ($"location") (option_map VStr (t_location o)));
      [|parts o; reflexivity | | parts o; reflexivity].
    2:{ destruct (t_location o) as [t|]; intros v [= <-]; split; [discriminate | apply answer_location_ok; exact (proj2 (Hl t eq_refl))]. }
    rewrite (dump_step _ _ ($"status") (option_map VStr (t_status o)));
      [|parts o; reflexivity | | parts o; reflexivity].
    2:{ destruct (t_status o) as [t|]; intros v [= <-]; split; [discriminate|]. destruct (Hst t eq_refl) as [z Hz]. exact (answer_status_ok t z Hz). }
    rewrite (dump_step _ _ ($"response") (answered o)); [|parts o; reflexivity | | parts o; reflexivity].
    - cbn [walk]. unfold answer_left, answer_raw. cbn [field app]. rewrite <- !app_assoc. reflexivity.
    - unfold answered. destruct (t_response o) as [d|]; intros v [= <-]. split; [apply wrap_not_missing; congruence | apply answer_response_ok].
  Qed.
  Lemma answer_read_items l : Forall well_put l -> forall k acc,
    foldM (complex_items MDump response_subs) (enum_from k (map answer_left l)) (acc, no_issues) = Ok (acc ++ map answer_left l, no_issues).
  Proof.
    induction 1 as [|o t Ho _ IH]; intros k acc; cbn [map enum_from foldM]; [rewrite app_nil_r; reflexivity|].
    unfold complex_items at 1. cbn [fst snd]. rewrite answer_read_one by exact Ho. cbn [bind]. rewrite IH, <- app_assoc. reflexivity.
  Qed.
  Lemma answer_type_items i l : a_type i = TComplex -> a_canon i = None -> forall k acc,
    foldM (item_step MDump i) (enum_from k (map answer_left l)) (acc, no_issues) = Ok (acc ++ map answer_left l, no_issues).
  Proof.
    intros Ht Hc. induction l as [|o t IH]; intros k acc; cbn [map enum_from foldM]; [rewrite app_nil_r; reflexivity|].
    unfold item_step at 1. rewrite Ht. change (type_proc MDump TComplex (answer_left o)) with (Ok (answer_left o, no_issues)). cbn [bind]. unfold canon_step.
    assert (E : is_canonical i (answer_left o) = true) by (unfold is_canonical, answer_left, answer_raw, tabled; rewrite Hc; reflexivity).
    rewrite E, merge_nil. cbn [bind fst snd]. rewrite IH, <- app_assoc. reflexivity.
  Qed.

  (** ** Validation of the operations *)

  Definition posted (o : bulk_answer) : bool := str_eqb (t_method o) ($"POST").
  Definition number (o : bulk_answer) : option Z := match t_status o with Some t => match py_int (VStr t) with Ok z => Some z | _ => None end | None => None end.
  Lemma number_iff o z : number o = Some z <-> ends o z.
  Proof.
    unfold number, ends. split.
    - destruct (t_status o) as [t|]; [|discriminate]. destruct (py_int (VStr t)) eqn:E; [|discriminate]. intros [= ->]. exists t. auto.
    - intros [t [-> E]]. rewrite E. reflexivity.
  Qed.
  Definition no_id (o : bulk_answer) : bool := posted o && match t_id o with None => true | _ => false end.
  Definition no_status (o : bulk_answer) : bool := match t_status o with None => true | _ => false end.
  Definition no_location (o : bulk_answer) : bool := match number o, t_location o with Some z, None => negb (posted o) || (z <? 300)%Z | _, _ => false end.
  Definition no_reason (o : bulk_answer) : bool := match number o, t_response o with Some z, (None | Some VNone) => (300 <=? z)%Z | _, _ => false end.
  Definition ashape (k : nat) (o : bulk_answer) (iss : issues) : issues :=
    add_if (no_status o) e_missing false [LIdx k; LStr ($"status")]
      (add_if (no_reason o) e_missing false [LIdx k; LStr ($"response")]
        (add_if (no_location o) e_missing false [LIdx k; LStr ($"location")]
          (add_if (no_id o) e_missing false [LIdx k; LStr ($"bulkId")] iss))).
  Definition ashape_errs (o : bulk_answer) (q : loc) : list error :=
    one_err (no_id o) e_missing ($"bulkId") q ++ one_err (no_location o) e_missing ($"location") q ++ one_err (no_reason o) e_missing ($"response") q
    ++ one_err (no_status o) e_missing ($"status") q.
  Lemma ashape_at k o iss p : errs_at (ashape k o iss) p = errs_at iss p ++ match loc_strip [LIdx k] p with Some q => ashape_errs o q | None => [] end.
  Proof.
    unfold ashape. rewrite !add_if_errs. rewrite <- !app_assoc. f_equal.
    destruct (loc_strip [LIdx k] p) as [q|] eqn:E.
    - apply loc_strip_spec in E as ->. unfold ashape_errs, one_err.
      assert (G : forall t e, (if loc_dec [LIdx k; LStr t] ([LIdx k] ++ q) then [e] else @nil error) = if loc_dec [LStr t] q then [e] else []).
      { intros t e. destruct (loc_dec [LStr t] q) as [<-|N]; [destruct (loc_dec _ _) as [_|N]; [reflexivity | contradiction N; reflexivity]|].
        destruct (loc_dec _ _) as [C|_]; [|reflexivity]. cbn in C. injection C as C. contradiction. }
      rewrite !G. reflexivity.
    - assert (G : forall t e, (if loc_dec [LIdx k; LStr t] p then [e] else @nil error) = []).
      { intros t e. destruct (loc_dec _ _) as [C|_]; [|reflexivity]. exfalso. exact (strip_one _ _ _ E C). }
      rewrite !G. destruct (no_id o), (no_location o), (no_reason o), (no_status o); reflexivity.
  Qed.
  Lemma ashape_report k o iss : report iss -> report (ashape k o iss).
  Proof. intros H. unfold ashape. repeat apply report_add_if. exact H. Qed.

  Lemma numeral_nonempty t z : py_int (VStr t) = Ok z -> truthy (VStr t) = true.
  Proof. destruct t; [discriminate | reflexivity]. Qed.
  Lemma answer_validate_one o k iss : well_put o -> validate_response_operation k (answer_left o) iss = Ok (answer_left o, ashape k o iss).
  Proof.
    intros [Hm Hl Hst Hr]. unfold validate_response_operation.
    assert (E1 : get_item (answer_left o) (arep b_method) = Ok (VStr (t_method o))) by (parts o; reflexivity).
    assert (E2 : get_item (answer_left o) (arep b_id) = Ok (opt (option_map VStr (t_id o)))) by (parts o; reflexivity).
    assert (E3 : get_item (answer_left o) (arep b_status) = Ok (opt (option_map VStr (t_status o)))) by (parts o; reflexivity).
    assert (E4 : get_item (answer_left o) (arep b_location) = Ok (opt (option_map VStr (t_location o)))) by (parts o; reflexivity).
    assert (E5 : get_item (answer_left o) (arep b_response) = Ok (opt (answered o))) by (parts o; reflexivity).
    rewrite E1, E2, E3, E4, E5. cbn [bind]. change (is_none_or_missing (VStr (t_method o))) with false. cbn [add_if].
    assert (E6 : str_is (VStr (t_method o)) ($"POST") && is_none_or_missing (opt (option_map VStr (t_id o))) = no_id o) by (unfold no_id, posted; destruct (t_id o); reflexivity).
    rewrite E6. unfold ashape. set (i0 := add_if (no_id o) _ _ _ _). clearbody i0. clear E1 E2 E3 E4 E5 E6.
    unfold no_status, no_location, no_reason, number. destruct (t_status o) as [t|] eqn:Et; cbn [option_map opt add_if]; [|reflexivity].
    destruct (Hst t eq_refl) as [z Hz]. rewrite (numeral_nonempty t z Hz), Hz. cbn [bind].
    assert (Mt : truthy (VStr (t_method o)) = true) by (destruct Hm as [<-|[<-|[<-|[<-|[<-|[]]]]]]; reflexivity). rewrite Mt.
    change (str_is (VStr (t_method o)) ($"POST")) with (posted o).
    assert (N1 : is_none_or_missing (opt (option_map VStr (t_location o))) = match t_location o with None => true | _ => false end) by (destruct (t_location o); reflexivity). rewrite N1.
    assert (N2 : is_none_or_missing (opt (answered o)) = match t_response o with None | Some VNone => true | _ => false end).
    { unfold answered. destruct (t_response o) as [v|]; [|reflexivity]. cbn [option_map opt]. rewrite wrap_none by congruence. reflexivity. }
    rewrite N2. destruct (t_location o); cbn [andb bind add_if].
    - destruct (t_response o) as [[]|]; reflexivity.
    - destruct (posted o); cbn [negb orb bind add_if]; destruct (t_response o) as [[]|]; reflexivity.
  Qed.

  Fixpoint ashapes (k : nat) (l : list bulk_answer) (iss : issues) : issues :=
    match l with [] => iss | o :: t => ashapes (S k) t (ashape k o iss) end.
  Definition ashape_outs (l : list bulk_answer) (p : loc) : list error :=
    match p with LIdx i :: q => match nth_error l i with Some o => ashape_errs o q | None => [] end | _ => [] end.
  Lemma ashapes_report l : forall k iss, report iss -> report (ashapes k l iss).
  Proof. induction l as [|o t IH]; intros k iss H; [exact H|]. apply IH, ashape_report, H. Qed.
  Lemma ashapes_at l : forall k iss p, errs_at (ashapes k l iss) p
    = errs_at iss p ++ match p with LIdx i :: q => if Nat.ltb i k then [] else match nth_error l (i - k) with Some o => ashape_errs o q | None => [] end | _ => [] end.
  Proof.
    induction l as [|o t IH]; intros k iss p; cbn [ashapes].
    - destruct p as [|[n|i] q]; rewrite ?app_nil_r; try reflexivity. destruct (Nat.ltb i k); [|destruct (i - k)]; rewrite app_nil_r; reflexivity.
    - rewrite IH, ashape_at, <- app_assoc. f_equal. destruct p as [|[n|i] q]; try reflexivity.
      destruct (loc_strip [LIdx k] (LIdx i :: q)) as [q'|] eqn:E.
      + apply loc_strip_spec in E. cbn in E. injection E as -> ->.
        rewrite Nat.sub_diag, Nat.ltb_irrefl. cbn [nth_error]. replace (Nat.ltb k (S k)) with true by (symmetry; apply Nat.ltb_lt; lia). apply app_nil_r.
      + assert (N : i <> k). { intros ->. exact (strip_one _ _ _ E eq_refl). }
        cbn [app]. destruct (Nat.ltb i (S k)) eqn:L1; destruct (Nat.ltb i k) eqn:L2; try reflexivity.
        * apply Nat.ltb_lt in L1. apply Nat.ltb_ge in L2. lia.
        * apply Nat.ltb_ge in L1. apply Nat.ltb_lt in L2. lia.
        * apply Nat.ltb_ge in L1. replace (i - k) with (S (i - S k)) by lia. reflexivity.
  Qed.
  Lemma ashapes_0 l p : errs_at (ashapes 0 l no_issues) p = ashape_outs l p.
  Proof. rewrite ashapes_at. cbn [app]. unfold ashape_outs. destruct p as [|[n|i] q]; try reflexivity. rewrite Nat.sub_0_r. reflexivity. Qed.
  Lemma answer_validate_all l : Forall well_put l -> validate_response_operations (VList (map answer_left l)) = Ok (VList (map answer_left l), ashapes 0 l no_issues).
  Proof.
    intros H. unfold validate_response_operations, each_operation. cbn [iter_value bind].
    assert (G : forall k acc iss, foldM (fun st e => let! (c, iss) := validate_response_operation (fst e) (snd e) (snd st) in Ok (fst st ++ [c], iss))
      (enum_from k (map answer_left l)) (acc, iss) = Ok (acc ++ map answer_left l, ashapes k l iss)).
    { induction H as [|o t Ho _ IH]; intros k acc iss; cbn [map enum_from foldM]; [rewrite app_nil_r; reflexivity|].
      cbn [fst snd]. rewrite answer_validate_one by exact Ho. cbn [bind fst]. rewrite IH, <- app_assoc. reflexivity. }
    unfold enumerate. rewrite G. reflexivity.
  Qed.
  Lemma answer_primary_none l : forall k, primary_entries k (map answer_left l) = Ok [].
  Proof.
    induction l as [|o t IH]; intros k; [reflexivity|]. cbn [map primary_entries].
    assert (E : get_item_str (answer_left o) ($"primary") = Ok VMissing) by (parts o; reflexivity).
    rewrite E. cbn [bind]. rewrite IH. reflexivity.
  Qed.

  Lemma answer_process_ops l : Forall well_put l -> exists js, process response_ops MDump (VList (map answer_left l)) = Ok (VList (map answer_left l), js)
    /\ report js /\ forall p, errs_at js p = ashape_outs l p.
  Proof.
    intros H. destruct response_ops_is as [i [-> [M [P [T C]]]]]. rewrite process_complex.
    assert (E : base_process MDump i (VList (map answer_left l)) = Ok (VList (map answer_left l), no_issues)).
    { unfold base_process. rewrite M. cbn [negb andb is_list]. unfold enumerate. rewrite answer_type_items by assumption. cbn [bind app].
      change (has_issues no_issues []) with false; cbv iota; unfold procs_of; rewrite P; reflexivity. }
    rewrite E. cbn [bind]. change (can_proceed no_issues []) with true. cbn [negb orb].
    unfold complex_part. rewrite M. cbn [iter_value bind]. unfold enumerate.
    rewrite answer_read_items by exact H. cbn [bind app]. change (has_issues no_issues []) with false. unfold run_procs. cbn [foldM fst snd].
    rewrite answer_validate_all by exact H. cbn [bind fst snd]. unfold single_primary. cbn [iter_value bind]. rewrite answer_primary_none. cbn [bind length Nat.ltb Nat.leb].
    pose proof (ashapes_report l 0 no_issues report_empty) as R.
    eexists. split; [reflexivity|]. split.
    - repeat apply report_merge; auto using report_empty.
    - intros p. rewrite errs_merge by (auto using report_empty, report_merge). cbn [loc_strip].
      rewrite errs_merge by (auto using report_empty). cbn [loc_strip]. rewrite ashapes_0. change (errs_at no_issues p) with (@nil error). cbn [app]. apply app_nil_r.
  Qed.

  (** ** The whole response *)

  Definition answer_uris : attribute := bound_attr (mkRep bulk_response_uri ($"schemas") [] false) schemas_attr.
  Lemma answer_tops : at_top (sc_attrs bulk_response_schema) = [answer_uris; response_ops].
  Proof. reflexivity. Qed.

  Lemma answer_read_all l : Forall well_put l -> exists js, base_parse MDump bulk_response_schema (answers_document l) = Ok (answers_doc (map answer_left l), js)
    /\ report js /\ forall p, errs_at js p = under_ops (ashape_outs l) p.
  Proof.
    intros H. unfold base_parse. unfold answers_document at 1. unfold dict_of at 1. cbv iota.
    fold (answers_document l). unfold process_data. rewrite mk_answers, answer_tops. cbn [process_attrs].
    assert (E1 : forall xs, get_item (answers_doc xs) (arep answer_uris) = Ok (VList [VStr bulk_response_uri])) by (intros xs; reflexivity).
    assert (E3 : forall xs, get_item (answers_doc xs) (arep response_ops) = Ok (VList xs)) by (intros xs; rewrite response_ops_rep; reflexivity).
    rewrite E1. cbn [bind].
    assert (E4 : process answer_uris MDump (VList [VStr bulk_response_uri]) = Ok (VList [VStr bulk_response_uri], no_issues)) by reflexivity.
    rewrite E4. cbn [bind].
    assert (E5 : forall x, set_item empty_cont (arep answer_uris) x = Ok (tabled [($"schemas", x)])) by reflexivity.
    rewrite E5. cbn [bind]. rewrite !merge_nil.
    destruct (answer_process_ops l H) as [js [P1 [P2 P3]]].
    set (i0 := merge no_issues js (attr_loc response_ops)). set (i1 := merge no_issues i0 []).
    assert (R0 : report i0) by (apply report_merge; auto using report_empty).
    assert (R1 : report i1) by (apply report_merge; auto using report_empty).
    assert (A1 : forall p, errs_at i1 p = under_ops (ashape_outs l) p).
    { intros p. unfold i1. rewrite errs_merge by auto using report_empty. unfold i0. cbn [loc_strip]. rewrite errs_merge by auto using report_empty.
      change (errs_at no_issues p) with (@nil error). cbn [app]. unfold under_ops.
      change (attr_loc response_ops) with [LStr ops_name]. destruct (loc_strip _ p); [apply P3 | reflexivity]. }
    assert (E6 : attr_named (sc_attrs bulk_response_schema) ($"schemas") = Some answer_uris) by reflexivity.
    assert (C : can_proceed i1 [schemas_loc] = true).
    { apply clear_proceeds; [exact R1|]. intros q [<-|[]]. intros a Ha. rewrite A1. destruct Ha as [b Ha]. unfold under_ops.
      destruct a as [|x [|x' a]]; [reflexivity| |discriminate Ha]. injection Ha as <- _. reflexivity. }
    rewrite E3. cbn [bind]. rewrite P1. cbn [bind].
    assert (F3 : forall x w, set_item (tabled [($"schemas", x)]) (arep response_ops) w = Ok (tabled [($"schemas", x); ($"Operations", w)])) by reflexivity.
    rewrite F3. cbn [bind].
    change (tabled [($"schemas", VList [VStr bulk_response_uri]); ($"Operations", VList (map answer_left l))]) with (answers_doc (map answer_left l)).
    rewrite E6, E1. cbn [bind]. fold i0. fold i1. rewrite C. cbn [andb truthy].
    assert (V : validate_schemas_field (answers_doc (map answer_left l)) (VList [VStr bulk_response_uri]) (sc_uri bulk_response_schema) (sc_schemas bulk_response_schema) = Ok no_issues) by reflexivity.
    rewrite V. cbn [bind].
    exists (merge i1 no_issues []). split; [reflexivity|]. split; [apply report_merge; auto using report_empty|].
    intros p. rewrite errs_merge by auto using report_empty. cbn [loc_strip]. change (errs_at no_issues p) with (@nil error). rewrite app_nil_r. apply A1.
  Qed.

  Definition bp_rep (n : str) : attr_rep := mkRep bulk_response_uri ops_name n false.
  Lemma answer_attrs_are : map traits (at_all (sc_attrs bulk_response_schema))
    = [(mkRep bulk_response_uri ($"schemas") [] false, RetAlways, true, true);
       (bp_rep [], RetDefault, true, true); (bp_rep ($"method"), RetDefault, true, false); (bp_rep ($"bulkId"), RetDefault, false, false);
       (bp_rep ($"version"), RetDefault, false, false); (bp_rep ($"location"), RetDefault, false, false); (bp_rep ($"status"), RetDefault, true, false); (bp_rep ($"response"), RetDefault, false, false)].
  Proof. vm_compute. reflexivity. Qed.
  Lemma answers_doc_top xs : get_item (answers_doc xs) (bp_rep []) = Ok (VList xs).
  Proof. reflexivity. Qed.
  Lemma answer_get_method o : get_item (answer_left o) (simple_name ($"method")) = Ok (VStr (t_method o)).
  Proof. parts o; reflexivity. Qed.
  Lemma answer_get_status o : get_item (answer_left o) (simple_name ($"status")) = Ok (opt (option_map VStr (t_status o))).
  Proof. parts o; reflexivity. Qed.
  Lemma answer_get_response o : get_item (answer_left o) (simple_name ($"response")) = Ok (opt (answered o)).
  Proof. parts o; reflexivity. Qed.
  Lemma answer_get_location o : get_item (answer_left o) (simple_name ($"location")) = Ok (opt (option_map VStr (t_location o))).
  Proof. parts o; reflexivity. Qed.
  Lemma answer_get_version o : get_item (answer_left o) (simple_name ($"version")) = Ok (opt (option_map VStr (t_version o))).
  Proof. parts o; reflexivity. Qed.

  Lemma answer_presence l ps : Forall well_put l -> l <> [] -> presence default_checker (answers_doc (map answer_left l)) (at_all (sc_attrs bulk_response_schema)) Response = Ok ps ->
    forall e p, In e (errs_at ps p) <-> e = e_missing /\ exists i o, nth_error l i = Some o /\ p = [LStr ops_name; LIdx i; LStr ($"status")] /\ t_status o = None.
  Proof.
    intros Hl Hn Hp e p. assert (no_reps : Forall proper (ck_reps default_checker)) by constructor.
    pose proof answer_attrs_are as A.
    assert (Ma : forall a, In a (at_all (sc_attrs bulk_response_schema)) -> In (traits a) (map traits (at_all (sc_attrs bulk_response_schema)))) by (intros a; apply in_map).
    rewrite A in Ma.
    assert (Item : forall a v n, arep a = bp_rep n -> n <> [] -> found (at_all (sc_attrs bulk_response_schema)) (answers_doc (map answer_left l)) a v p ->
      exists i o, nth_error l i = Some o /\ p = [LStr ops_name; LIdx i; LStr n] /\ get_item (answer_left o) (simple_name n) = Ok v).
    { intros a v n Ra Nn F. destruct F as [v F1 F2 F3|t v F1 F2 F3 F4 F5 F6|t F1 F2 F3 F4 F5|t items k x v F1 F2 F3 F4 F5 F6 F7 F8]; rewrite Ra in *; cbn [bp_rep r_sub r_attr] in *.
      - contradiction.
      - exfalso. apply Ma in F2. destruct F3 as [G1 [_ G3]]. cbn [bp_rep r_attr] in G3. 
        destruct F2 as [F2|[F2|[F2|[F2|[F2|[F2|[F2|[F2|[]]]]]]]]]; unfold traits in F2; injection F2 as Q1 Q2 Q3 Q4; rewrite <- Q1 in *; cbn [r_sub r_attr bp_rep] in *; try discriminate G1; congruence.
      - exfalso. change (top_name (bp_rep n)) with (bp_rep []) in F5. rewrite answers_doc_top in F5. discriminate F5.
      - change (top_name (bp_rep n)) with (bp_rep []) in F5. rewrite answers_doc_top in F5. injection F5 as <-.
        rewrite nth_error_map in F6. destruct (nth_error l k) as [o|] eqn:E; [|discriminate F6]. injection F6 as <-. exists k, o. auto. }
    split.
    - intros He. destruct (C30_nothing_else _ _ _ _ _ _ _ bulk_response_made no_reps Hp He) as [->|[-> _]].
      + split; [reflexivity|]. apply (C30_missing_iff _ _ _ _ _ p bulk_response_made no_reps Hp) in He as [a [v [H1 [H2 [H3 H4]]]]].
        apply Ma in H1. destruct H4 as [H4 _].
        assert (Q : (arep a = mkRep bulk_response_uri ($"schemas") [] false \/ arep a = bp_rep []) \/ arep a = bp_rep ($"method") \/ arep a = bp_rep ($"status")).
        { unfold traits in H1. destruct H1 as [H1|[H1|[H1|[H1|[H1|[H1|[H1|[H1|[]]]]]]]]]; injection H1 as Q1 Q2 Q3 Q4; rewrite <- Q1; auto; congruence. }
        destruct Q as [Q|[Q|Q]].
        * exfalso. destruct H2 as [v F1 F2 F3|? ? G|? G|? ? ? ? ? G]; try (destruct Q as [Q|Q]; rewrite Q in G; apply G; reflexivity).
          destruct Q as [Q|Q]; rewrite Q in F2.
          -- assert (E : v = VList [VStr bulk_response_uri]) by (injection F2 as <-; reflexivity). rewrite E in H3. destruct H3 as [H3|[H3|[H3|H3]]]; discriminate H3.
          -- rewrite answers_doc_top in F2. injection F2 as <-. destruct H3 as [H3|[H3|[H3|H3]]]; try discriminate H3. injection H3 as H3. destruct l; [contradiction Hn; reflexivity | discriminate H3].
        * exfalso. destruct (Item a v _ Q ltac:(discriminate) H2) as [i [o [N1 [_ N3]]]]. rewrite answer_get_method in N3. injection N3 as <-.
          apply nth_error_In in N1. rewrite Forall_forall in Hl. destruct (Hl o N1) as [M _ _ _]. destruct H3 as [H3|[H3|[H3|H3]]]; try discriminate H3. injection H3 as H3. rewrite H3 in M. cbn [In] in M. intuition discriminate.
        * destruct (Item a v _ Q ltac:(discriminate) H2) as [i [o [N1 [N2 N3]]]]. rewrite answer_get_status in N3. injection N3 as <-. exists i, o. split; [exact N1|]. split; [exact N2|].
          apply nth_error_In in N1. rewrite Forall_forall in Hl. destruct (Hl o N1) as [_ _ M _].
          destruct (t_status o) as [t|]; [|auto]. exfalso. cbn [option_map opt] in H3. destruct H3 as [H3|[H3|[H3|H3]]]; try discriminate H3. injection H3 as ->. destruct (M _ eq_refl) as [z Z]. discriminate Z.
      + exfalso. apply (C29_only_requested _ _ _ _ _ p bulk_response_made no_reps Hp) in He as [_ [a [v [H1 [H2 [H3 H4]]]]]].
        apply Ma in H1. unfold withheld in H4.
        unfold traits in H1. destruct H1 as [H1|[H1|[H1|[H1|[H1|[H1|[H1|[H1|[]]]]]]]]]; injection H1 as Q1 Q2 Q3 Q4; rewrite <- Q2 in H4; exact H4.
    - intros [-> [i [o [N1 [-> U]]]]]. apply (C30_missing_iff _ _ _ _ _ _ bulk_response_made no_reps Hp).
      assert (Ea : exists a, In a (at_all (sc_attrs bulk_response_schema)) /\ traits a = (bp_rep ($"status"), RetDefault, true, false)).
      { assert (I : In (bp_rep ($"status"), RetDefault, true, false) (map traits (at_all (sc_attrs bulk_response_schema)))) by (rewrite A; cbn [In]; tauto).
        apply in_map_iff in I as [a [I1 I2]]. exists a. auto. }
      assert (Et : exists t, In t (at_all (sc_attrs bulk_response_schema)) /\ traits t = (bp_rep [], RetDefault, true, true)).
      { assert (I : In (bp_rep [], RetDefault, true, true) (map traits (at_all (sc_attrs bulk_response_schema)))) by (rewrite A; cbn [In]; tauto).
        apply in_map_iff in I as [a [I1 I2]]. exists a. auto. }
      destruct Ea as [a [Ia Ta]]. destruct Et as [t [It Tt]]. unfold traits in Ta, Tt. 
      assert (Ra : arep a = bp_rep ($"status")) by exact (f_equal (fun x => fst (fst (fst x))) Ta). assert (Qa : a_required (info a) = true) by exact (f_equal (fun x => snd (fst x)) Ta).
      assert (Rt : arep t = bp_rep []) by exact (f_equal (fun x => fst (fst (fst x))) Tt). assert (Mt : a_multi (info t) = true) by exact (f_equal snd Tt). clear Ta Tt.
      exists a, (opt (option_map VStr (t_status o))). split; [exact Ia|]. split; [|split].
      + assert (E : [LStr ops_name; LIdx i; LStr ($"status")] = [LStr (r_attr (arep a)); LIdx i; LStr (r_sub (arep a))]) by (rewrite Ra; reflexivity). rewrite E.
        apply (found_item _ _ a t (map answer_left l) i (answer_left o)); try assumption.
        * rewrite Ra. discriminate.
        * unfold parent_of. rewrite Rt, Ra. split; [reflexivity|]. split; reflexivity.
        * rewrite Ra. apply answers_doc_top.
        * exact (map_nth_error answer_left i l N1).
        * rewrite Ra. exact (answer_get_status o).
        * destruct (t_status o); discriminate.
      + unfold empty_value. rewrite U. cbn [option_map opt]. auto.
      + split; [exact Qa|]. split; [intros [x [[] _]] | discriminate].
  Qed.

  (** ** Faults *)

  Lemma posted_iff o : posted o = true <-> t_method o = $"POST".
  Proof. apply str_eqb_eq. Qed.
  (** What the check of the operations and the check for missing parts report
      together are the faults. *)
  Lemma answer_fault_iff o e q : well_put o ->
    (answer_fault o e q <-> In e (ashape_errs o q) \/ e = e_missing /\ q = [LStr ($"status")] /\ t_status o = None).
  Proof.
    intros [Hm Hl Hst Hr]. unfold ashape_errs. rewrite !in_app_iff, !in_one_err.
    assert (I1 : no_id o = true <-> t_method o = $"POST" /\ t_id o = None).
    { unfold no_id. rewrite Bool.andb_true_iff, posted_iff. destruct (t_id o); intuition discriminate. }
    assert (I2 : no_status o = true <-> t_status o = None) by (unfold no_status; destruct (t_status o); intuition discriminate).
    assert (I3 : no_location o = true <-> exists z, ends o z /\ t_location o = None /\ ~ (t_method o = $"POST" /\ (300 <= z)%Z)).
    { unfold no_location. split.
      - destruct (number o) as [z|] eqn:E; [|discriminate]. destruct (t_location o); [discriminate|]. intros H. exists z. split; [apply number_iff; exact E|]. split; [reflexivity|].
        intros [G1 G2]. apply posted_iff in G1. rewrite G1 in H. cbn [negb orb] in H. apply Z.ltb_lt in H. lia.
      - intros [z [E [-> G]]]. apply number_iff in E. rewrite E. destruct (posted o) eqn:P; [|reflexivity]. cbn [negb orb]. apply Z.ltb_lt. apply posted_iff in P.
        destruct (Z.lt_ge_cases z 300) as [L|L]; [exact L|]. exfalso. auto. }
    assert (I4 : no_reason o = true <-> exists z, ends o z /\ ~ given (t_response o) /\ (300 <= z)%Z).
    { unfold no_reason, given. split.
      - destruct (number o) as [z|] eqn:E; [|discriminate]. intros H. exists z. split; [apply number_iff; exact E|].
        destruct (t_response o) as [[]|]; try discriminate H; apply Z.leb_le in H; (split; [|exact H]); intros [v [G1 [G2 G3]]]; [|discriminate G1]. injection G1 as <-. apply G2. reflexivity.
      - intros [z [E [G L]]]. apply number_iff in E. rewrite E. apply Z.leb_le in L. rewrite L.
        destruct (t_response o) as [v|]; [|reflexivity]. destruct v; try reflexivity; exfalso; try (apply G; eexists; split; [reflexivity | split; discriminate]). apply Hr. reflexivity. }
    rewrite I1, I2, I3, I4. split.
    - intros [H1 H2|H|z H1 H2 H3|z H1 H2 H3].
      + tauto.
      + tauto.
      + left. right. left. split; [exists z; auto | auto].
      + left. right. right. left. split; [exists z; auto | auto].
    - intros [[[[H1 H2] [-> ->]]|[[[z [H1 [H2 H3]]] [-> ->]]|[[[z [H1 [H2 H3]]] [-> ->]]|[H [-> ->]]]]]|[-> [-> H]]].
      + apply answer_without_id; assumption.
      + apply (answer_without_location o z); assumption.
      + apply (answer_without_reason o z); assumption.
      + apply answer_without_status. exact H.
      + apply answer_without_status. exact H.
  Qed.

  (** ** The responses the operations stand for *)

  Lemma schema_dump_wrap s v : schema_dump s (wrap v) = schema_dump s v.
  Proof. unfold schema_dump. rewrite base_parse_wrap. reflexivity. Qed.
  Lemma content_wrap v : wrap (content v) = wrap v.
  Proof. destruct v; try reflexivity. destruct d; reflexivity. Qed.
  Lemma truthy_wrap v : truthy (wrap v) = truthy (content v).
  Proof. destruct v; try reflexivity; [destruct l; reflexivity|]. cbn [wrap]. destruct (cont_of (VDict d)) as [? [? ->]]. destruct d; reflexivity. Qed.
  Lemma dump_content s v : schema_dump s (wrap v) = schema_dump s (content v).
  Proof. rewrite <- content_wrap. apply schema_dump_wrap. Qed.
  Lemma error_content z v : error_dump z (wrap v) VNone = error_dump z (content v) VNone.
  Proof. unfold error_dump. rewrite <- (base_parse_wrap _ _ (content v)), content_wrap. reflexivity. Qed.
  Lemma says_iff o : truthy (opt (answered o)) = true <-> exists r, says o r.
  Proof.
    unfold answered, says. destruct (t_response o) as [v|]; cbn [option_map opt].
    - rewrite truthy_wrap. split; [intros H; exists (content v), v; auto|]. intros [r [x [[= <-] [-> H]]]]. exact H.
    - split; [discriminate | intros [r [v [E _]]]; discriminate E].
  Qed.
  Lemma says_opt o r : says o r -> exists v, opt (answered o) = wrap v /\ r = content v.
  Proof. intros [v [E [-> _]]]. exists v. unfold answered. rewrite E. auto. Qed.

  Lemma alone_dump s o z t v m rs iss : well_put o -> bmethod_of (VStr (t_method o)) = Ok m -> truthy (content v) = true ->
    bulk_item_dump m s z (wrap v) (dict_of [($"Location", VStr t)]) = Ok (rs, iss) -> sent_alone s o z t (content v) rs iss.
  Proof.
    intros [Hm _ _ _] Eb Ht H.
    assert (D : forall a b c h k, dump_resource s a b c (wrap v) h k = dump_resource s a b c (content v) h k) by (intros; unfold dump_resource; rewrite dump_content; reflexivity).
    destruct Hm as [E|[E|[E|[E|[E|[]]]]]]; rewrite <- E in Eb; cbn in Eb; injection Eb as <-; cbn [bulk_item_dump] in H.
    - apply sent_get; [symmetry; exact E|]. unfold get_dump in *. rewrite <- D. exact H.
    - apply sent_post; [symmetry; exact E|]. unfold post_dump in *. rewrite truthy_wrap in H. rewrite <- D. exact H.
    - apply sent_put; [symmetry; exact E|]. unfold put_dump in *. rewrite <- D. exact H.
    - apply sent_patch; [symmetry; exact E|]. unfold patch_dump in *. rewrite <- D. exact H.
    - discriminate H.
  Qed.

  (** A location that does not fit is reported in the header and in the body. *)
  Lemma resource_mismatch s req ex st body t c rs iss : sound_tops s -> dump_resource s req ex st body (located_at t) c = Ok (rs, iss) ->
    errs_at iss at_header <> [] -> errs_at iss (at_body at_meta_location) <> [].
  Proof.
    intros Hs H. apply dump_resource_spec in H as (y & js & ps & d & i0 & r & _ & _ & _ & Hg & _ & R0 & _ & _ & _ & Eh & _ & _ & _ & _ & _ & H); [|exact Hs].
    assert (Ed : d = [(KStr ($"Location"), VStr t)]) by (unfold given_headers, located_at, dict_of in Hg; injection Hg as <-; reflexivity).
    assert (H0 : errs_at i0 at_header = []).
    { unfold at_header. rewrite Eh, Ed. assert (A : amem dkey_eqb (KStr ($"Location")) [(KStr ($"Location"), VStr t)] = true) by reflexivity. rewrite A, andb_false_r. reflexivity. }
    match type of H with if ?c then _ else _ => destruct c end; [|subst iss; intros G; contradiction]. destruct H as [v [b [_ [_ ->]]]].
    assert (Rm : report (if b then no_issues else add_issue (add_issue no_issues (e_must_equal ($"'Location' header")) true (body_loc ++ meta_location_loc)) (e_must_equal ($"'meta.location'")) true header_location_loc)).
    { destruct b; repeat constructor. }
    rewrite !errs_merge by assumption. cbn [loc_strip]. rewrite H0. destruct b; [intros G; contradiction G; reflexivity|]. intros _ G. apply app_eq_nil in G as [_ G]. rewrite !errs_at_add in G. cbn in G. discriminate G.
  Qed.
  Lemma alone_mismatch s o z t r rs iss : sound_tops s -> truthy r = true -> sent_alone s o z t r rs iss -> errs_at iss at_header <> [] -> errs_at iss (at_body at_meta_location) <> [].
  Proof.
    intros Hs Ht [rs' iss' _ H|rs' iss' _ H|rs' iss' _ H|rs' iss' _ H].
    - exact (resource_mismatch _ _ _ _ _ _ _ _ _ Hs H).
    - unfold post_dump in H. rewrite Ht in H. exact (resource_mismatch _ _ _ _ _ _ _ _ _ Hs H).
    - exact (resource_mismatch _ _ _ _ _ _ _ _ _ Hs H).
    - unfold patch_dump in H. destruct (Z.eqb _ _); [injection H as <- <-; intros G; contradiction G; reflexivity|]. exact (resource_mismatch _ _ _ _ _ _ _ _ _ Hs H).
  Qed.
  Lemma alone_wf s o z t r rs iss : sound s -> truthy r = true -> sent_alone s o z t r rs iss -> wf iss /\ (dropped (rs_body rs) iss \/ z = 204%Z /\ rs_body rs = VNone).
  Proof.
    intros Hs Ht [rs' iss' _ H|rs' iss' _ H|rs' iss' _ H|rs' iss' _ H].
    - apply dump_resource_wf in H as [W D]; [|exact Hs]. auto.
    - unfold post_dump in H. rewrite Ht in H. apply dump_resource_wf in H as [W D]; [|exact Hs]. auto.
    - apply dump_resource_wf in H as [W D]; [|exact Hs]. auto.
    - unfold patch_dump in H. destruct (Z.eqb_spec z 204) as [->|_]; [injection H as <- <-; split; [apply wf_no_issues | auto]|]. apply dump_resource_wf in H as [W D]; [|exact Hs]. auto.
  Qed.

  (** ** The loop over the operations *)

  Definition body_kept (rs : response) : value := match rs_body rs with VNone => VNone | b => mk_cont b end.
  Definition spoken (iss : issues) : Prop := no_adjacent 11%N (errs_at iss (at_body at_meta_location)).
  Inductive replied (schemas : list schema) (o : bulk_answer) : value -> (error -> loc -> Prop) -> Prop :=
  | replied_silent : (forall z r, ends o z -> says o r -> (z < 300)%Z /\ (t_location o = None \/ schemas = [])) ->
      replied schemas o (answer_left o) (astray schemas o)
  | replied_error z r rs iss : ends o z -> says o r -> (300 <= z)%Z -> error_dump z r VNone = Ok (rs, iss) ->
      replied schemas o (answer_raw o (Some (rs_body rs))) (fun e x => astray schemas o e x \/ said_wrongly iss e x)
  | replied_resource z r t s rs iss R : ends o z -> says o r -> (z < 300)%Z -> t_location o = Some t -> judges schemas t s -> sent_alone s o z t r rs iss ->
      (forall e x, (x = in_response at_meta_location -> spoken iss) -> (R e x <-> astray schemas o e x \/ passed_on iss e x \/ displaced iss e x \/ outdated o rs iss e x)) ->
      replied schemas o (answer_raw o (Some (body_kept rs))) R.

  Lemma put_response o x : set_item_str (answer_left o) ($"response") x = Ok (answer_raw o (Some x)).
  Proof. parts o; reflexivity. Qed.
  Lemma set_answers_doc xs i o x : nth_error xs i = Some (answer_left o) -> set_op_field (answers_doc xs) (mkRep bulk_request_uri ops_name [] false) i ($"response") x = Ok (answers_doc (set_nth i (answer_raw o (Some x)) xs)).
  Proof.
    intros H. unfold set_op_field. assert (E : get_item (answers_doc xs) (mkRep bulk_request_uri ops_name [] false) = Ok (VList xs)) by reflexivity. rewrite E. cbn [bind]. rewrite H, put_response. reflexivity.
  Qed.
  Lemma merge_part i j p q i' : wf i -> wf j -> merge_at i (get_issues j p) q = Ok i' ->
    wf i' /\ forall e x, In e (errs_at i' x) <-> In e (errs_at i x) \/ exists x', x = q ++ x' /\ In e (errs_at j (p ++ x')).
  Proof.
    intros Wi Wj H. split; [exact (merge_get_wf _ _ _ _ _ Wi Wj H)|]. apply merge_at_dd in H as ->; [|apply Wi].
    assert (Wu : wf (undone (get_issues j p))).
    { split; [reflexivity|]. cbn [undone i_errs get_issues]. apply below_wf. apply Wj. }
    intros e x. rewrite errs_merge_wf by assumption. rewrite in_app_iff. destruct (loc_strip q x) as [x'|] eqn:L.
    - apply loc_strip_spec in L as ->. change (errs_at (undone (get_issues j p)) x') with (errs_at (get_issues j p) x'). rewrite errs_at_get.
      split; intros [G|G]; auto; right; [exists x'; auto|]. destruct G as [x2 [G1 G2]]. apply app_inv_head in G1. subst x2. exact G2.
    - split; [intros [G|[]]; auto|]. intros [G|[x' [-> _]]]; auto. rewrite loc_strip_app in L. discriminate L.
  Qed.
  Lemma add_part i e0 b l : forall e x, In e (errs_at (add_issue i e0 b l) x) <-> In e (errs_at i x) \/ e = e0 /\ x = l.
  Proof.
    intros e x. rewrite errs_at_add, in_app_iff. destruct (loc_dec l x) as [<-|N]; cbn [In].
    - split; [intros [G|[G|[]]]; auto | intros [G|[-> _]]; auto].
    - split; [intros [G|[]]; auto | intros [G|[_ G]]; [auto | congruence]].
  Qed.
  Lemma dropped_clear b iss : dropped b iss -> b <> VNone -> forall p, errs_at iss p = [].
  Proof. intros D N p. destruct (errs_at iss p) eqn:E; [reflexivity|]. exfalso. apply N, D. exists p. rewrite E. discriminate. Qed.
End Env.
