(** Bodies are dropped exactly when something is reported. *)
From Verif Require Import PyBase BaseFacts PyNum Issues IssuesSpec IssuesFacts AttrRep AttrRepSpec Value Container ContainerSpec ContainerFacts ContainerRW AttrRepFacts ValueFacts
  Types Attr Schema Assets Presence Match FilterParse Path Sort Patch ListResp Search Bulk Requests
  AttrSpec AttrFacts AttrItems SchemaSpec SchemaFacts SchemaBuild PropSchema PresenceSpec PresenceFacts PropPresence PatchSpec PatchFacts RequestSpec RequestFacts MsgFacts.

(** Reports whose stops come with errors. *)
Definition orderly (i : issues) : Prop := wf i /\ forall l, stops i l -> errs_at i l <> [].

Lemma report_orderly i : report i -> orderly i.
Proof. intros H. split; [apply report_wf; exact H | apply report_stops; exact H]. Qed.
Lemma orderly_add i e p l : orderly i -> orderly (add_issue i e p l).
Proof.
  intros [H1 H2]. split; [apply wf_add; exact H1|]. intros x Hx. apply stops_add in Hx. rewrite errs_at_add. destruct Hx as [Hx|[_ ->]].
  - specialize (H2 _ Hx). destruct (errs_at i x); [congruence | discriminate].
  - destruct (loc_dec l l) as [_|N]; [|congruence]. destruct (errs_at i l); discriminate.
Qed.
Lemma orderly_merge i j p : orderly i -> wf j -> orderly (merge i j p).
Proof.
  intros [W H] Wj. split; [apply wf_merge; assumption|]. intros x Hx. apply stops_merge in Hx; [|apply W|apply Wj]. rewrite errs_merge_wf by assumption.
  destruct Hx as [Hx|[l' [-> Hx]]].
  - specialize (H _ Hx). destruct (errs_at i x); [congruence | discriminate].
  - rewrite loc_strip_app. intros E. apply app_eq_nil in E as [_ E]. apply (errs_at_nil_iff _ _ Wj) in E. exact (E Hx).
Qed.
Lemma orderly_stuck i ls : orderly i -> can_proceed i ls = false -> reported i.
Proof. intros [_ H] E. apply can_proceed_spec in E as [l [a [_ [_ H3]]]]. exists a. exact (H a H3). Qed.
Lemma reported_at i ls : wf i -> has_issues i ls = true -> reported i.
Proof.
  intros H E. apply has_issues_spec in E as [l [t [_ Hin]]]. exists (l ++ t). intros G. apply (errs_at_nil_iff _ _ H) in G. exact (G Hin).
Qed.
Lemma reported_under j p : wf j -> (reported (merge no_issues j p) <-> reported j).
Proof.
  intros H. unfold reported. split.
  - intros [l E]. rewrite errs_merge_wf in E by (try exact H; apply wf_no_issues). destruct (loc_strip p l) as [l'|]; [exists l'; exact E | contradiction E; reflexivity].
  - intros [l E]. exists (p ++ l). rewrite errs_merge_wf by (try exact H; apply wf_no_issues). rewrite loc_strip_app. exact E.
Qed.

(** [b] is the body of an outcome with report [iss]. *)
Definition dropped (b : value) (iss : issues) : Prop := b = VNone <-> reported iss.
Lemma keep_dropped body iss : wf iss -> body <> VNone -> dropped (keep_body body iss) iss.
Proof.
  intros H N. unfold dropped, keep_body. rewrite <- (has_issues_wf iss H). destruct (has_issues iss []); split; congruence.
Qed.
Lemma dump_dropped body iss b : wf iss -> dump_body body iss = Ok b -> dropped b iss.
Proof.
  intros H E. unfold dropped, dump_body in *. rewrite <- (has_issues_wf iss H). destruct (has_issues iss []); [injection E as <-; split; congruence|].
  destruct body; try discriminate. injection E as <-. split; [|discriminate]. cbn [to_dict]. discriminate.
Qed.

Lemma set_item_some c r x c' : set_item c r x = Ok c' -> c' <> VNone.
Proof.
  intros H. destruct c; try discriminate. apply set_item_kind in H as [d [l2 ->]]. discriminate.
Qed.

Section Env.
  Context {env : PyEnv}.

  Lemma requested_report q c iss : requested_attributes q = Ok (c, iss) -> report iss.
  Proof.
    intros H. unfold requested_attributes in H. destruct (names_of _) as [| | | | | | | |li| | | | | | | |]; try (injection H as _ <-; constructor).
    destruct (names_of _) as [| | | | | | | |le| | | | | | | |]; try (injection H as _ <-; constructor).
    destruct (negb _); [injection H as _ <-; constructor|]. destruct (_ && _); [injection H as _ <-; repeat constructor|].
    apply bind_ok in H as [[k js] [Hp H]]. injection H as _ <-. apply report_merge; [constructor|]. revert Hp. generalize (if truthy (VList li) then li else le) as l. intros l Hp.
    unfold parse_checker in Hp. apply bind_ok in Hp as [[[reps ok] js'] [Hf Hp]].
    assert (G : report js'). { change ((fun st : list attr_rep * bool * issues => report (snd st)) (reps, ok, js')). revert Hf. apply (foldM_inv _ (fun st : list attr_rep * bool * issues => report (snd st))); [|constructor].
      intros [[a b] i] x [[a' b'] i'] _ Hi E. cbn [fst snd] in *. destruct x; try discriminate. unfold parse_name_step in E. destruct (parse_rep _) as [r|]; [match type of E with context[can_proceed ?x ?y] => destruct (can_proceed x y) end; injection E as _ _ <-; exact Hi | injection E as _ _ <-; apply report_add; exact Hi]. }
    injection Hp as _ <-. exact G.
  Qed.
  Lemma query_report q q' iss : query_step q = Ok (q', iss) -> report iss.
  Proof.
    intros H. unfold query_step in H. destruct q; try (injection H as _ <-; constructor). apply bind_ok in H as [[c js] [Hr H]]. injection H as _ <-.
    apply report_merge; [constructor | exact (requested_report _ _ _ Hr)].
  Qed.

  (** ** Requests *)

  Lemma parse_body_orderly p s b ig y iss : (forall v w js, p v = Ok (w, js) -> orderly js) -> parse_body p s b ig = Ok (y, iss) -> orderly iss.
  Proof.
    intros Hp H. unfold parse_body in H. apply bind_ok in H as [[d js] [H1 H]]. apply Hp in H1. cbn zeta in H.
    assert (T : orderly (merge no_issues js body_loc)) by (apply orderly_merge; [apply report_orderly; constructor | apply H1]).
    destruct (can_proceed _ _); [|injection H as _ <-; exact T]. apply bind_ok in H as [q [Hq H]]. injection H as _ <-.
    apply orderly_merge; [exact T|]. apply report_wf. exact (presence_report _ _ _ _ _ Hq).
  Qed.
  Lemma parse_body_value p s b ig y iss : parse_body p s b ig = Ok (y, iss) -> exists js, p b = Ok (y, js) /\ (wf iss -> wf js -> reported js -> reported iss).
  Proof.
    intros H. unfold parse_body in H. apply bind_ok in H as [[d js] [H1 H]]. cbn zeta in H. exists js.
    assert (G : wf js -> reported js -> reported (merge no_issues js body_loc)) by (intros W; apply reported_under; exact W).
    destruct (can_proceed _ _).
    - apply bind_ok in H as [q [Hq H]]. injection H as -> <-. split; [exact H1|]. intros _ W R. destruct (G W R) as [l E]. exists l.
      rewrite errs_merge_wf; [|apply wf_merge; [apply wf_no_issues | exact W]|apply report_wf, (presence_report _ _ _ _ _ Hq)].
      destruct (errs_at _ l); [congruence | discriminate].
    - injection H as -> <-. split; [exact H1|]. intros _. exact G.
  Qed.
  Lemma parse_orderly s v w js : sound s -> schema_parse s v = Ok (w, js) -> orderly js.
  Proof. intros Hs H. apply report_orderly. exact (base_wf _ _ _ _ _ (proj2 Hs) H). Qed.
  Lemma strip_some l : forall b b', b <> VNone -> strip_read_only l b = Ok b' -> b' <> VNone.
  Proof.
    intros b b' N. unfold strip_read_only. apply (foldM_inv _ (fun v => v <> VNone)); [|exact N]. intros v a v' _ Hv E.
    destruct (is_read_only _); [|injection E as <-; exact Hv]. destruct v; try discriminate. apply del_is_cont in E as [d [m ->]]. discriminate.
  Qed.

  Lemma post_dropped s b h q rq iss : sound s -> post_parse s b h q = Ok (rq, iss) -> orderly iss /\ dropped (rq_body rq) iss.
  Proof.
    intros Hs H. unfold post_parse in H. apply bind_ok in H as [[q' i1] [Hq H]]. apply bind_ok in H as [[y i2] [Hb H]]. injection H as <- <-. cbn [rq_body].
    apply query_report in Hq. pose proof (parse_body_orderly _ _ _ _ _ _ (fun v w js => parse_orderly s v w js Hs) Hb) as T.
    assert (W : orderly (merge i1 i2 [])) by (apply orderly_merge; [apply report_orderly; exact Hq | apply T]). split; [exact W|].
    apply keep_dropped; [apply W|]. apply parse_body_value in Hb as [js [Hb _]]. exact (base_not_none _ _ _ _ _ Hb).
  Qed.
  Lemma put_dropped s b h q rq iss : sound s -> put_parse s b h q = Ok (rq, iss) -> orderly iss /\ dropped (rq_body rq) iss.
  Proof.
    intros Hs H. unfold put_parse in H. apply bind_ok in H as [[q' i1] [Hq H]]. apply bind_ok in H as [[y i2] [Hb H]]. cbn zeta in H.
    apply query_report in Hq. pose proof (parse_body_orderly _ _ _ _ _ _ (fun v w js => parse_orderly s v w js Hs) Hb) as T.
    assert (W : orderly (merge i1 i2 [])) by (apply orderly_merge; [apply report_orderly; exact Hq | apply T]). pose proof (has_issues_wf _ (proj1 W)) as R. unfold dropped.
    destruct (has_issues (merge i1 i2 []) []) eqn:E.
    - injection H as <- <-. cbn [rq_body]. split; [exact W|]. split; [intros _; apply R; reflexivity | reflexivity].
    - apply bind_ok in H as [y' [Hs' H]]. injection H as <- <-. cbn [rq_body]. split; [exact W|]. apply parse_body_value in Hb as [js [Hb _]].
      apply strip_some in Hs'; [|exact (base_not_none _ _ _ _ _ Hb)]. split; [congruence|]. intros G. apply R in G. congruence.
  Qed.

  Lemma outcome_orderly s op p v o js : sound s ->
    (if str_is op ($"add") || str_is op ($"replace") then parse_add_or_replace s op p v else parse_remove s p) = Ok (o, js) -> wf js.
  Proof.
    intros Hs H. destruct (_ || _).
    - unfold parse_add_or_replace in H. apply bind_ok in H as [ks [Hp H]].
      assert (Hj : wf ks) by (destruct (is_none_or_missing _); [injection Hp as <-; apply wf_no_issues | exact (path_wf _ _ _ Hp)]).
      destruct (has_issues ks []); [injection H as <- <-; apply wf_merge; [apply wf_no_issues | exact Hj]|].
      apply bind_ok in H as [[v' ks'] [Hv H]]. injection H as <- <-. apply wf_merge; [apply wf_no_issues | exact (value_wf _ _ _ _ _ Hs Hv)].
    - unfold parse_remove in H. apply bind_ok in H as [ks [Hp H]]. apply path_wf in Hp.
      destruct (has_issues ks []); [injection H as <- <-; exact Hp|]. destruct p; try discriminate.
      destruct (find_attr _ (p_rep _)) as [a|]; [|discriminate]. destruct (p_sub _) as [r|].
      + destruct (find_attr _ r) as [b|]; [|discriminate]. injection H as <- <-. apply wf_if, wf_if, Hp.
      + injection H as <- <-. apply wf_if, wf_if, Hp.
  Qed.
  Lemma operations_orderly s ops : sound s -> forall i ps vs acc iss acc' iss', orderly iss -> parse_operations s i ops ps vs acc iss = Ok (acc', iss') -> orderly iss'.
  Proof.
    intros Hs. induction ops as [|op ops IH]; intros i ps vs acc iss acc' iss' T H; cbn [parse_operations] in H; [injection H as _ <-; exact T|].
    destruct ps as [|p ps]; [injection H as _ <-; exact T|]. destruct vs as [|v vs]; [injection H as _ <-; exact T|].
    apply bind_ok in H as [[o js] [Ho H]]. refine (IH _ _ _ _ _ _ _ _ H). unfold parse_operation in Ho.
    destruct (has_issues _ _); [injection Ho as _ <-; exact T|]. apply bind_ok in Ho as [[o' ks] [Hp Ho]]. injection Ho as _ <-.
    apply orderly_merge; [exact T|]. exact (outcome_orderly _ _ _ _ _ _ Hs Hp).
  Qed.
  Lemma patch_parse_orderly s v w js : sound s -> patch_parse s v = Ok (w, js) -> orderly js /\ w <> VNone.
  Proof.
    intros Hs H. unfold patch_parse in H. apply bind_ok in H as [[d i1] [H1 H]]. pose proof (parse_orderly _ _ _ _ (made_sound _ patch_made) H1) as T. apply base_not_none in H1.
    destruct (negb _); [injection H as <- <-; auto|]. do 6 apply bind_ok in H as [? [_ H]]. apply bind_ok in H as [[l i2] [Hl H]]. apply bind_ok in H as [d' [Hd H]]. injection H as <- <-.
    split; [exact (operations_orderly _ _ Hs _ _ _ _ _ _ _ T Hl) | exact (set_item_some _ _ _ _ Hd)].
  Qed.

  Lemma items_orderly c subs l items : forall j iss iss', orderly iss -> items_presence c subs l j items iss = Ok iss' -> orderly iss'.
  Proof.
    induction items as [|x t IH]; intros j iss iss' T H; cbn [items_presence] in H; [injection H as <-; exact T|].
    destruct (has_issues _ _); [exact (IH _ _ _ T H)|]. apply bind_ok in H as [p [Hp H]]. refine (IH _ _ _ _ H). apply orderly_merge; [exact T|].
    apply report_wf. exact (presence_report _ _ _ _ _ Hp).
  Qed.
  Lemma complex_orderly iss a v l iss' : orderly iss -> complex_presence iss a v l = Ok iss' -> orderly iss'.
  Proof.
    intros T H. unfold complex_presence in H. destruct a as [a|]; [|injection H as <-; exact T]. destruct (_ || _); [injection H as <-; exact T|].
    apply bind_ok in H as [its [_ H]]. exact (items_orderly _ _ _ _ _ _ _ T H).
  Qed.
  Lemma patch_presence_orderly s ops : forall i vs ps iss iss', orderly iss -> patch_presence s i ops vs ps iss = Ok iss' -> orderly iss'.
  Proof.
    induction ops as [|op ops IH]; intros i vs ps iss iss' T H; cbn [patch_presence] in H; [injection H as <-; exact T|].
    destruct vs as [|v vs]; [injection H as <-; exact T|]. destruct ps as [|p ps]; [injection H as <-; exact T|].
    apply bind_ok in H as [js [Hj H]]. refine (IH _ _ _ _ _ _ H). clear H. unfold patch_operation_presence in Hj. destruct (str_is _ _); [injection Hj as <-; exact T|].
    assert (G : forall vl, foldM (fun iss a => let! x := get_item v (arep a) in complex_presence iss (Some a) x (vl ++ presence_loc (arep a))) (at_all (sc_attrs s)) iss = Ok js -> orderly js).
    { intros vl. apply (foldM_inv _ orderly); [|exact T]. intros a b a' _ Ta E. apply bind_ok in E as [x [_ E]]. exact (complex_orderly _ _ _ _ _ Ta E). }
    destruct p; try discriminate Hj; try exact (G _ Hj). apply bind_ok in Hj as [a [_ Hj]]. exact (complex_orderly _ _ _ _ _ T Hj).
  Qed.
  Lemma patch_dropped s b h q rq iss : sound s -> patch_parse_request s b h q = Ok (rq, iss) -> orderly iss /\ dropped (rq_body rq) iss.
  Proof.
    intros Hs H. unfold patch_parse_request in H. apply bind_ok in H as [[q' i1] [Hq H]]. apply bind_ok in H as [[y i2] [Hb H]]. cbn zeta in H.
    apply query_report in Hq. pose proof (parse_body_orderly _ _ _ _ _ _ (fun v w js E => proj1 (patch_parse_orderly s v w js Hs E)) Hb) as T.
    assert (W : orderly (merge i1 i2 [])) by (apply orderly_merge; [apply report_orderly; exact Hq | apply T]).
    destruct (can_proceed _ _) eqn:E; cbn [negb] in H.
    - do 6 apply bind_ok in H as [? [_ H]]. apply bind_ok in H as [js [Hj H]]. injection H as <- <-. cbn [rq_body]. apply patch_presence_orderly in Hj; [|exact W].
      split; [exact Hj|]. apply keep_dropped; [apply Hj|]. apply parse_body_value in Hb as [ks [Hb _]]. exact (proj2 (patch_parse_orderly _ _ _ _ Hs Hb)).
    - injection H as <- <-. cbn [rq_body]. split; [exact W|]. split; [intros _ | reflexivity]. exact (orderly_stuck _ _ W E).
  Qed.

  Lemma search_parse_report b w js : search_parse b = Ok (w, js) -> orderly js /\ w <> VNone.
  Proof.
    intros H. unfold search_parse in H. apply bind_ok in H as [[d i1] [H1 H]]. pose proof (parse_orderly _ _ _ _ (made_sound _ search_made) H1) as T. apply base_not_none in H1.
    destruct (negb _); [injection H as <- <-; auto|]. apply bind_ok in H as [[d2 i2] [H2 H]].
    assert (G : orderly i2 /\ d2 <> VNone).
    { match type of H2 with context[can_proceed ?a ?c] => destruct (can_proceed a c) end; [|injection H2 as <- <-; auto]. unfold search_attrs in H2. apply bind_ok in H2 as [inc [_ H2]]. apply bind_ok in H2 as [exc [_ H2]]. cbn zeta in H2.
      assert (T' : orderly (if truthy inc && truthy exc then add_issue (add_issue i1 (e_not_together ($"excludeAttributes")) false [LStr ($"attributes")])
                           (e_not_together ($"attributes")) false [LStr ($"excludeAttributes")] else i1)) by (destruct (_ && _); [do 2 apply orderly_add|]; exact T).
      destruct (truthy inc); [apply bind_ok in H2 as [d3 [H3 H2]]|]; injection H2 as <- <-; [|auto]. split; [exact T' | exact (set_item_some _ _ _ _ H3)]. }
    destruct G as [T2 N2]. match type of H with context[can_proceed ?x ?y] => destruct (can_proceed x y) end; [|injection H as <- <-; auto]. unfold search_sorter in H. apply bind_ok in H as [by_ [_ H]].
    destruct by_; try (injection H as <- <-; auto). apply bind_ok in H as [d3 [H3 H]]. injection H as <- <-. split; [exact T2 | exact (set_item_some _ _ _ _ H3)].
  Qed.
  Lemma search_dropped b h q rq iss : search_parse_request b h q = Ok (rq, iss) -> dropped (rq_body rq) iss.
  Proof.
    intros H. unfold search_parse_request in H. apply bind_ok in H as [[w js] [Hw H]]. injection H as <- <-. cbn [rq_body]. apply search_parse_report in Hw as [T N].
    pose proof (keep_dropped w js (proj1 T) N) as D. unfold dropped in *. rewrite D. symmetry. apply reported_under. apply T.
  Qed.

  Lemma set_op_some b r i sub x b' : set_op_field b r i sub x = Ok b' -> b' <> VNone.
  Proof.
    intros H. unfold set_op_field in H. apply bind_ok in H as [l [_ H]]. destruct l; try discriminate. destruct (nth_error _ _); [|discriminate].
    apply bind_ok in H as [c [_ H]]. exact (set_item_some _ _ _ _ H).
  Qed.
  Lemma get_parse_wf b h q rq iss : get_parse b h q = Ok (rq, iss) -> wf iss.
  Proof. intros H. unfold get_parse in H. apply bind_ok in H as [[q' i1] [Hq H]]. injection H as _ <-. apply report_wf. exact (query_report _ _ _ Hq). Qed.
  Lemma validators_sound schemas n s : Forall sound schemas -> sget n (validators schemas) = Some s -> sound s.
  Proof.
    intros H. unfold validators. assert (G : forall l acc, Forall sound l -> (forall n s, sget n acc = Some s -> sound s) ->
      forall n s, sget n (fold_left (fun acc s => sset (sc_plural s) s acc) l acc) = Some s -> sound s).
    { clear. induction l as [|x t IH]; intros acc Hl Ha n s E; cbn [fold_left] in E; [exact (Ha n s E)|]. inversion_clear Hl as [|? ? Hx Ht]. refine (IH _ Ht _ n s E).
      intros m y E'. rewrite sget_sset in E'. destruct (str_eqb _ _); [injection E' as <-; exact Hx | exact (Ha m y E')]. }
    exact (G schemas [] H ltac:(discriminate) n s).
  Qed.

  (** ** Bulk requests *)

  Lemma merge_get_wf i j p q i' : wf i -> wf j -> merge_at i (get_issues j p) q = Ok i' -> wf i'.
  Proof. intros Hi Hj H. apply merge_at_wf in H; [exact H | exact Hi|]. unfold get_issues. cbn [i_errs]. apply below_wf. apply Hj. Qed.
  Lemma item_parse_wf m s d rq js : sound s -> bulk_item_parse m s d = Ok (rq, js) -> wf js.
  Proof.
    intros Hs H. destruct m; cbn [bulk_item_parse] in H; [exact (get_parse_wf _ _ _ _ _ H)| | | |discriminate].
    - apply post_dropped in H; [apply H | exact Hs].
    - apply put_dropped in H; [apply H | exact Hs].
    - apply patch_dropped in H; [apply H | exact Hs].
  Qed.
  Lemma bulk_operation_wf vs i p d m b iss b' iss' : (forall n s, sget n vs = Some s -> sound s) -> wf iss -> b <> VNone ->
    bulk_parse_operation vs i p d m b iss = Ok (b', iss') -> wf iss' /\ b' <> VNone.
  Proof.
    intros Hv W N H. unfold bulk_parse_operation in H. destruct (can_proceed _ _); [|injection H as <- <-; auto]. destruct (str_is _ _); [injection H as <- <-; auto|].
    apply bind_ok in H as [pp [_ H]]. apply bind_ok in H as [name [_ H]]. apply bind_ok in H as [bm [_ H]]. destruct (sget name vs) as [s|] eqn:E.
    - apply bind_ok in H as [[rq js] [Hi H]]. apply bind_ok in H as [ks [Hm H]]. apply bind_ok in H as [b2 [Hb H]]. injection H as <- <-.
      split; [|exact (set_op_some _ _ _ _ _ _ Hb)]. exact (merge_get_wf _ _ _ _ _ W (item_parse_wf _ _ _ _ _ (Hv _ _ E) Hi) Hm).
    - injection H as <- <-. split; [apply wf_add; exact W | exact N].
  Qed.
  Lemma bulk_operations_wf vs ps : (forall n s, sget n vs = Some s -> sound s) -> forall i ds ms b iss b' iss', wf iss -> b <> VNone ->
    bulk_parse_operations vs i ps ds ms b iss = Ok (b', iss') -> wf iss' /\ b' <> VNone.
  Proof.
    intros Hv. induction ps as [|p ps IH]; intros i ds ms b iss b' iss' W N H; cbn [bulk_parse_operations] in H; [injection H as <- <-; auto|].
    destruct ds as [|d ds]; [injection H as <- <-; auto|]. destruct ms as [|m ms]; [injection H as <- <-; auto|]. apply bind_ok in H as [[b2 js] [H1 H]].
    apply bulk_operation_wf in H1 as [W1 N1]; try assumption. exact (IH _ _ _ _ _ _ _ W1 N1 H).
  Qed.
  Lemma bulk_request_dropped schemas mx b h q rq iss : Forall sound schemas -> bulk_parse_request schemas mx b h q = Ok (rq, iss) -> dropped (rq_body rq) iss.
  Proof.
    intros Hs H. unfold bulk_parse_request in H. apply bind_ok in H as [[d js] [Hp H]]. cbn zeta in H. apply bind_ok in H as [p [Hq H]]. cbn zeta in H.
    pose proof (parse_orderly _ _ _ _ (made_sound _ bulk_request_made) Hp) as T. apply base_not_none in Hp. apply presence_report in Hq.
    assert (W0 : wf (merge no_issues js body_loc)) by (apply wf_merge; [apply wf_no_issues | apply T]).
    assert (W : wf (merge (merge no_issues js body_loc) p body_loc)) by (apply wf_merge; [exact W0 | apply report_wf; exact Hq]).
    destruct (can_proceed _ _) eqn:E; cbn [negb] in H.
    - do 6 apply bind_ok in H as [? [_ H]]. apply bind_ok in H as [[b2 ks] [Hb H]]. apply bind_ok in H as [ops [_ H]]. apply bind_ok in H as [n [_ H]]. destruct mx as [mx|]; [|discriminate].
      injection H as <- <-. cbn [rq_body]. apply bulk_operations_wf in Hb as [W2 N2]; [|intros n' s'; exact (validators_sound _ _ _ Hs)|exact W|exact Hp].
      apply keep_dropped; [|exact N2]. apply wf_if. exact W2.
    - injection H as <- <-. cbn [rq_body]. split; [intros _ | reflexivity]. apply can_proceed_spec in E as [l [a [_ [_ E]]]]. apply stops_src in E.
      assert (R : errs_at js a <> []) by (destruct E as [E|E]; [exact (proj2 T a E) | intros G; apply (errs_at_nil_iff _ _ (proj1 T)) in G; exact (G E)]).
      exists (body_loc ++ a). rewrite errs_merge_wf by (try exact W0; apply report_wf; exact Hq). rewrite errs_merge_wf by (try apply wf_no_issues; apply T). rewrite loc_strip_app.
      change (errs_at no_issues (body_loc ++ a)) with (@nil error). cbn [app]. destruct (errs_at js a); [congruence | discriminate].
  Qed.

  (** ** Bulk responses *)

  Lemma status_code_wf a b : wf (status_code_issues a b).
  Proof. unfold status_code_issues. destruct (Z.eqb _ _); [|apply wf_add]; apply wf_no_issues. Qed.
  Lemma dump_resource_wf s req ex st b h c rs iss : sound s -> dump_resource s req ex st b h c = Ok (rs, iss) -> wf iss /\ dropped (rs_body rs) iss.
  Proof.
    intros Hs H. unfold dump_resource in H. cbn zeta in H. apply bind_ok in H as [[y js] [Hd H]]. apply (dump_report _ _ _ _ (proj2 Hs)) in Hd. cbn zeta in H.
    assert (W : wf (merge (merge (merge no_issues js body_loc) (location_in_header (if truthy h then h else VDict []) req) [LStr ($"headers")]) (status_code_issues ex st) status_loc)).
    { apply wf_merge; [apply wf_merge; [apply wf_merge; [apply wf_no_issues | apply report_wf; exact Hd]|]|apply status_code_wf].
      unfold location_in_header. destruct (_ && _); [apply wf_add|]; apply wf_no_issues. }
    revert H W. generalize (merge (merge (merge no_issues js body_loc) (location_in_header (if truthy h then h else VDict []) req) [LStr ($"headers")]) (status_code_issues ex st) status_loc) as i0.
    intros i0 H W. apply bind_ok in H as [i1 [H1 H]].
    assert (W1 : wf i1). { destruct (can_proceed i0 [body_loc]); [|injection H1 as <-; exact W]. apply bind_ok in H1 as [p [Hp H1]]. injection H1 as <-. apply wf_merge; [exact W | apply report_wf; exact (presence_report _ _ _ _ _ Hp)]. }
    apply bind_ok in H as [r [_ H]]. apply bind_ok in H as [hd [_ H]]. apply bind_ok in H as [i2 [H2 H]].
    assert (W2 : wf i2). { match type of H2 with (if ?x then _ else _) = _ => destruct x end; [|injection H2 as <-; exact W1]. apply bind_ok in H2 as [v [_ H2]]. apply bind_ok in H2 as [k [Hk H2]]. injection H2 as <-. apply wf_merge; [exact W1|].
      unfold location_consistency in Hk. apply bind_ok in Hk as [e [_ Hk]]. destruct e; injection Hk as <-; [|do 2 apply wf_add]; apply wf_no_issues. }
    apply bind_ok in H as [bb [Hb H]]. injection H as <- <-. cbn [rs_body]. split; [exact W2 | exact (dump_dropped _ _ _ W2 Hb)].
  Qed.
  Lemma error_dump_wf st b h rs iss : error_dump st b h = Ok (rs, iss) -> wf iss /\ dropped (rs_body rs) iss.
  Proof.
    intros H. unfold error_dump in H. apply bind_ok in H as [[y js] [Hd H]]. apply (base_wf _ _ _ _ _ (proj2 (made_sound _ error_made))) in Hd. cbn zeta in H.
    assert (W : wf (merge no_issues js body_loc)) by (apply wf_merge; [apply wf_no_issues | apply report_wf; exact Hd]).
    apply bind_ok in H as [i1 [H1 H]].
    assert (W1 : wf i1). { match type of H1 with context[can_proceed ?a ?c] => destruct (can_proceed a c) end; [|injection H1 as <-; exact W]. apply bind_ok in H1 as [p [Hp H1]]. injection H1 as <-. apply wf_merge; [exact W | apply report_wf; exact (presence_report _ _ _ _ _ Hp)]. }
    apply bind_ok in H as [r [_ H]]. apply bind_ok in H as [i2 [H2 H]].
    assert (W2 : wf i2). { match type of H2 with context[can_proceed ?a ?c] => destruct (can_proceed a c) end; [|injection H2 as <-; exact W1]. apply bind_ok in H2 as [v [_ H2]]. injection H2 as <-. apply wf_merge; [exact W1|].
      unfold error_status_consistency. destruct (str_is _ _); [|do 2 apply wf_add]; apply wf_no_issues. }
    assert (W3 : wf (merge i2 (error_status_code st) [])). { apply wf_merge; [exact W2|]. unfold error_status_code. destruct (_ && _); [|apply wf_add]; apply wf_no_issues. }
    apply bind_ok in H as [bb [Hb H]]. injection H as <- <-. cbn [rs_body]. split; [exact W3 | exact (dump_dropped _ _ _ W3 Hb)].
  Qed.
  Lemma item_dump_wf m s st b h rs iss : sound s -> bulk_item_dump m s st b h = Ok (rs, iss) -> wf iss.
  Proof.
    intros Hs H. destruct m; cbn [bulk_item_dump] in H; [| | | |discriminate].
    - unfold get_dump in H. apply dump_resource_wf in H; [apply H | exact Hs].
    - unfold post_dump in H. destruct (negb _); [injection H as _ <-; apply wf_no_issues|]. apply dump_resource_wf in H; [apply H | exact Hs].
    - unfold put_dump in H. apply dump_resource_wf in H; [apply H | exact Hs].
    - unfold patch_dump in H. destruct (Z.eqb _ _); [injection H as _ <-; apply wf_no_issues|]. apply dump_resource_wf in H; [apply H | exact Hs].
  Qed.
  Lemma locate_sound vs t : Forall (fun e => sound (snd e)) vs -> forall last s b, (forall s', last = Some s' -> sound s') -> locate vs t last = (Some s, b) -> sound s.
  Proof.
    induction 1 as [|[n x] l Hx _ IH]; intros last s b Hl H; cbn [locate] in H; [injection H as -> _; apply Hl; reflexivity|].
    destruct (contains _ _); [injection H as <- _; exact Hx|]. refine (IH _ _ _ _ H). intros s' [= <-]. exact Hx.
  Qed.
  Lemma version_wf i v r iss b iss' : wf iss -> bulk_version i v r iss = Ok (b, iss') -> wf iss'.
  Proof.
    intros W H. unfold bulk_version in H.
    assert (G : forall c, (let! rv := get_item_str c ($"meta.version") in
        let! differ := (if truthy v && truthy rv then let! e := veq v rv in Ok (negb e) else Ok false) in
        Ok (c, if differ : bool then
                 add_issue (add_issue iss (e_must_equal ($"operation's version")) true
                              (op_field_loc i ($"response") ++ [LStr ($"meta"); LStr ($"version")]))
                           (e_must_equal ($"'response.meta.version'")) true (op_field_loc i ($"version"))
               else iss)) = Ok (b, iss') -> wf iss').
    { clear H. intros c H. apply bind_ok in H as [rv [_ H]]. apply bind_ok in H as [df [_ H]]. injection H as _ <-. destruct df; [do 2 apply wf_add|]; exact W. }
    destruct r; try exact (G _ H). injection H as _ <-. exact W.
  Qed.
  Lemma bulk_dump_operation_wf vs i m st re lo ve b iss n b' iss' n' : Forall (fun e => sound (snd e)) vs -> wf iss -> b <> VNone ->
    bulk_dump_operation vs i m st re lo ve b iss n = Ok (b', iss', n') -> wf iss' /\ b' <> VNone.
  Proof.
    intros Hv W N H. unfold bulk_dump_operation in H. cbn zeta in H. destruct (negb (truthy m)); [injection H as <- <- <-; auto|].
    apply bind_ok in H as [[va i1] [H1 H]].
    assert (G : wf i1 /\ forall s, va = Some s -> sound s).
    { destruct (truthy lo); [|injection H1 as <- <-; split; [exact W | discriminate]]. apply bind_ok in H1 as [bm [_ H1]]. apply bind_ok in H1 as [t [_ H1]].
      destruct (locate vs t None) as [v f] eqn:El. injection H1 as <- <-. split; [apply wf_if; exact W|]. intros s ->. exact (locate_sound _ _ Hv None s f ltac:(discriminate) El). }
    destruct G as [W1 Hs]. match type of H with (if ?x then _ else _) = _ => destruct x end; [injection H as <- <- <-; auto|]. apply bind_ok in H as [z [_ H]].
    destruct (300 <=? z)%Z.
    - apply bind_ok in H as [[er js] [He H]]. apply error_dump_wf in He as [We _]. apply bind_ok in H as [i2 [H2 H]]. apply bind_ok in H as [i3 [H3 H]]. apply bind_ok in H as [b2 [Hb H]]. injection H as <- <- <-.
      split; [|exact (set_op_some _ _ _ _ _ _ Hb)]. exact (merge_get_wf _ _ _ _ _ (merge_get_wf _ _ _ _ _ W1 We H2) We H3).
    - destruct va as [s|]; [|injection H as <- <- <-; auto]. destruct (truthy lo); [|injection H as <- <- <-; auto].
      apply bind_ok in H as [bm [_ H]]. apply bind_ok in H as [[rd js] [Hd H]]. apply item_dump_wf in Hd; [|apply Hs; reflexivity].
      pose proof (wf_pop js (body_loc ++ meta_location_loc) 11 Hd) as Wa. destruct (pop_issues js (body_loc ++ meta_location_loc) 11) as [mm ja]. cbn [snd] in Wa.
      pose proof (wf_pop ja header_location_loc 11 Wa) as Wb. destruct (pop_issues ja header_location_loc 11) as [hm jb]. cbn [snd] in Wb.
      apply bind_ok in H as [i2 [H2 H]]. cbn zeta in H. apply bind_ok in H as [[rb i3] [H3 H]]. apply bind_ok in H as [b2 [Hb H]]. injection H as <- <- <-.
      split; [|exact (set_op_some _ _ _ _ _ _ Hb)]. apply version_wf in H3; [exact H3|]. pose proof (merge_get_wf _ _ _ _ _ W1 Wb H2) as W2. destruct (_ && _); [do 2 apply wf_add|]; exact W2.
  Qed.
  Lemma bulk_dump_operations_wf vs ms : Forall (fun e => sound (snd e)) vs -> forall i sts res los ves b iss n b' iss' n', wf iss -> b <> VNone ->
    bulk_dump_operations vs i ms sts res los ves b iss n = Ok (b', iss', n') -> wf iss' /\ b' <> VNone.
  Proof.
    intros Hv. induction ms as [|m ms IH]; intros i sts res los ves b iss n b' iss' n' W N H; cbn [bulk_dump_operations] in H; [injection H as <- <- <-; auto|].
    destruct sts as [|st sts]; [injection H as <- <- <-; auto|]. destruct res as [|re res]; [injection H as <- <- <-; auto|]. destruct los as [|lo los]; [injection H as <- <- <-; auto|].
    destruct ves as [|ve ves]; [injection H as <- <- <-; auto|]. apply bind_ok in H as [[[b2 js] n2] [H1 H]].
    apply bulk_dump_operation_wf in H1 as [W1 N1]; try assumption. exact (IH _ _ _ _ _ _ _ _ _ _ _ W1 N1 H).
  Qed.
  Lemma validators_all schemas : Forall sound schemas -> Forall (fun e => sound (snd e)) (validators schemas).
  Proof.
    intros H. apply Forall_forall. intros [n s] Hin. cbn [snd]. revert n s Hin. unfold validators.
    assert (G : forall l acc, Forall sound l -> (forall n s, In (n, s) acc -> sound s) -> forall n s, In (n, s) (fold_left (fun acc s => sset (sc_plural s) s acc) l acc) -> sound s).
    { clear. induction l as [|x t IH]; intros acc Hl Ha n s E; cbn [fold_left] in E; [exact (Ha n s E)|]. inversion_clear Hl as [|? ? Hx Ht]. refine (IH _ Ht _ n s E).
      clear - Ha Hx. unfold sset. induction acc as [|[k v] t IH]; cbn [aset]; intros m y E'.
      - destruct E' as [[= _ <-]|[]]. exact Hx.
      - destruct (str_eqb _ _); destruct E' as [[= _ <-]|E']; [exact Hx | exact (Ha m y (or_intror E')) | exact (Ha k v (or_introl eq_refl)) |].
        refine (IH _ m y E'). intros a b Hab. exact (Ha a b (or_intror Hab)). }
    exact (G schemas [] H (fun _ _ F => match F with end)).
  Qed.
  Lemma bulk_response_dropped schemas st b h f rs iss : Forall sound schemas -> bulk_dump_response schemas st b h f = Ok (rs, iss) -> dropped (rs_body rs) iss.
  Proof.
    intros Hs H. unfold bulk_dump_response in H. apply bind_ok in H as [[d js] [Hp H]]. cbn zeta in H. apply bind_ok in H as [p [Hq H]]. cbn zeta in H.
    pose proof (base_wf _ _ _ _ _ (proj2 (made_sound _ bulk_response_made)) Hp) as T. apply base_not_none in Hp. apply presence_report in Hq.
    assert (W : orderly (merge (merge (merge no_issues js body_loc) p body_loc) (status_code_issues 200 st) status_loc)).
    { apply orderly_merge; [apply orderly_merge; [apply orderly_merge; [apply report_orderly; constructor|]|]|apply status_code_wf]; apply report_wf; assumption. }
    destruct (can_proceed _ _) eqn:E; cbn [negb] in H.
    - do 10 apply bind_ok in H as [? [_ H]]. apply bind_ok in H as [[[b2 ks] n] [Hb H]].
      injection H as <- <-. cbn [rs_body]. apply bulk_dump_operations_wf in Hb as [W2 N2]; [|exact (validators_all _ Hs)|apply W|exact Hp].
      apply keep_dropped; [|exact N2]. apply wf_if. exact W2.
    - injection H as <- <-. cbn [rs_body]. split; [intros _ | reflexivity]. exact (orderly_stuck _ _ W E).
  Qed.

  (** ** List responses *)

  Lemma dump_resources_orderly l : forall i ss acc iss acc' iss', (forall k s, In (Some (k, s)) ss -> sound s) -> orderly iss -> dump_resources i l ss acc iss = Ok (acc', iss') -> orderly iss'.
  Proof.
    induction l as [|x t IH]; intros i ss acc iss acc' iss' Hs T H; cbn [dump_resources] in H; [injection H as _ <-; exact T|].
    destruct ss as [|[[k s]|] ss]; [injection H as _ <-; exact T| |].
    - apply bind_ok in H as [[x' js] [Hx H]]. refine (IH _ _ _ _ _ _ (fun k s Hin => Hs k s (or_intror Hin)) _ H). apply orderly_merge; [exact T|].
      apply report_wf. exact (dump_report _ _ _ _ (proj2 (Hs k s (or_introl eq_refl))) Hx).
    - refine (IH _ _ _ _ _ _ (fun k s Hin => Hs k s (or_intror Hin)) _ H). apply orderly_add. exact T.
  Qed.
  Lemma first_covering_sound vals schemas : Forall sound schemas -> forall i k s, first_covering vals i schemas = Some (k, s) -> sound s.
  Proof.
    induction 1 as [|x t Hx _ IH]; intros i k s E; cbn [first_covering] in E; [discriminate|]. destruct (forallb _ _); [injection E as _ <-; exact Hx | exact (IH _ _ _ E)].
  Qed.
  Lemma schemas_for_sound schemas l ss : Forall sound schemas -> schemas_for schemas l = Ok ss -> forall k s, In (Some (k, s)) ss -> sound s.
  Proof.
    intros Hs H k s Hin. unfold schemas_for in H.
    assert (G : forall l ss, mapM (infer_schema schemas) l = Ok ss -> In (Some (k, s)) ss -> sound s).
    { clear - Hs. induction l as [|x t IH]; intros ss H Hin; cbn [mapM] in H; [injection H as <-; destruct Hin|]. apply bind_ok in H as [y [Hy H]]. apply bind_ok in H as [ys [Hys H]]. injection H as <-.
      destruct Hin as [->|Hin]; [|exact (IH _ Hys Hin)]. unfold infer_schema in Hy. destruct x; try discriminate. apply bind_ok in Hy as [v [_ Hy]].
      destruct v as [| | | | | | | |[|z zs]| | | | | | | |]; try discriminate. destruct (forallb _ _); [|discriminate]. injection Hy as Hy. exact (first_covering_sound _ _ Hs _ _ _ Hy). }
    destruct schemas as [|s0 [|s1 t]]; try exact (G _ _ H Hin). injection H as <-. apply in_map_iff in Hin as [x [E _]]. injection E as _ <-. inversion Hs; assumption.
  Qed.
  Lemma list_dump_orderly schemas b y js : Forall sound schemas -> list_dump schemas b = Ok (y, js) -> orderly js /\ y <> VNone.
  Proof.
    intros Hs H. unfold list_dump in H. apply bind_ok in H as [[d i1] [H1 H]].
    pose proof (report_orderly _ (base_wf _ _ _ _ _ (proj2 (made_sound _ list_made)) H1)) as T. apply base_not_none in H1.
    destruct (negb _); [injection H as <- <-; auto|]. apply bind_ok in H as [rs [_ H]].
    destruct rs; try (injection H as <- <-; split; [apply orderly_add; exact T | exact H1]); [injection H as <- <-; auto|].
    apply bind_ok in H as [i2 [H2 H]].
    assert (T2 : orderly i2). { match type of H2 with context[can_proceed ?a ?c] => destruct (can_proceed a c) end; [|injection H2 as <-; exact T]. apply bind_ok in H2 as [v [_ H2]]. injection H2 as <-.
      apply orderly_merge; [exact T|]. unfold items_per_page_issues. destruct v; try apply wf_no_issues; match goal with |- context[Z.eqb ?a ?c] => destruct (Z.eqb a c) end; try (do 2 apply wf_add); apply wf_no_issues. }
    apply bind_ok in H as [ss [Hss H]]. apply bind_ok in H as [[l' i3] [H3 H]]. apply bind_ok in H as [d' [Hd H]]. injection H as <- <-.
    split; [|exact (set_item_some _ _ _ _ Hd)]. exact (dump_resources_orderly _ _ _ _ _ _ _ (schemas_for_sound _ _ _ Hs Hss) T2 H3).
  Qed.
  Lemma skip_wf m i : (forall j, m = Ok j -> wf j) -> skip_if_bad_data m = Ok i -> wf i.
  Proof. intros G H. unfold skip_if_bad_data in H. destruct m as [j|[]]; try discriminate; injection H as <-; try apply wf_no_issues. apply G. reflexivity. Qed.
  Lemma number_wf c t l i : number_of_resources c t l = Ok i -> wf i.
  Proof.
    intros H. unfold number_of_resources in H. apply bind_ok in H as [b [_ H]]. cbn zeta in H.
    assert (W : wf (if b then add_issue no_issues e_total_mismatch true [] else no_issues)) by (destruct b; [apply wf_add|]; apply wf_no_issues).
    destruct c as [c|]; [destruct (Z.ltb _ _)|apply bind_ok in H as [m [_ H]]; destruct m]; injection H as <-; try apply wf_add; exact W.
  Qed.
  Lemma pagination_wf c t l a b i : pagination_info c t l a b = Ok i -> wf i.
  Proof.
    intros H. unfold pagination_info in H. apply skip_wf in H; [exact H|]. clear. intros j H. apply bind_ok in H as [p [_ H]]. destruct p; injection H as <-; [do 2 apply wf_if|]; apply wf_no_issues.
  Qed.
  Lemma check_numbers_orderly b l c iss iss' : orderly iss -> check_numbers b l c iss = Ok iss' -> orderly iss'.
  Proof.
    intros T H. unfold check_numbers in H. destruct (can_proceed _ _); [|injection H as <-; exact T]. apply bind_ok in H as [t [_ H]]. apply bind_ok in H as [i [Hi H]]. cbn zeta in H.
    assert (T2 : orderly (merge iss i resources_loc)) by (apply orderly_merge; [exact T | exact (number_wf _ _ _ _ Hi)]).
    match type of H with context[can_proceed ?a ?c] => destruct (can_proceed a c) end; [|injection H as <-; exact T2]. apply bind_ok in H as [si [_ H]]. apply bind_ok in H as [ipp [_ H]]. apply bind_ok in H as [j [Hj H]]. injection H as <-.
    apply orderly_merge; [exact T2 | exact (pagination_wf _ _ _ _ _ _ Hj)].
  Qed.
  Lemma filter_loop_wf o st l : forall i ss iss j, wf iss -> filter_loop o st i l ss iss = Ok j -> wf j.
  Proof.
    induction l as [|x t IH]; intros i ss iss j W H; cbn [filter_loop] in H; [injection H as <-; exact W|]. destruct ss as [|[[k s]|] ss]; [injection H as <-; exact W| |discriminate].
    apply bind_ok in H as [m [_ H]]. apply bind_ok in H as [b [_ H]]. refine (IH _ _ _ _ _ H). apply wf_if. exact W.
  Qed.
  Lemma resources_presence_wf c l : forall i ss iss j, wf iss -> resources_presence c i l ss iss = Ok j -> wf j.
  Proof.
    induction l as [|x t IH]; intros i ss iss j W H; cbn [resources_presence] in H; [injection H as <-; exact W|]. destruct ss as [|[[k s]|] ss]; [injection H as <-; exact W| |discriminate].
    apply bind_ok in H as [p [Hp H]]. refine (IH _ _ _ _ _ H). apply wf_merge; [exact W|]. apply report_wf. exact (presence_report _ _ _ _ _ Hp).
  Qed.
  Lemma to_dict_some b : b <> VNone -> to_dict b <> VNone.
  Proof. destruct b; intros H; try exact H; discriminate. Qed.
  Lemma check_resources_dropped schemas b h l f so c iss rs iss' : orderly iss -> b <> VNone -> check_resources schemas b h l f so c iss = Ok (rs, iss') -> dropped (rs_body rs) iss'.
  Proof.
    intros T N H. unfold check_resources in H. destruct (has_issues _ [resources_loc]) eqn:E.
    - injection H as <- <-. split; [intros _ | reflexivity]. exact (reported_at _ _ (proj1 T) E).
    - apply bind_ok in H as [ss [_ H]]. apply bind_ok in H as [i1 [H1 H]].
      assert (W1 : wf i1). { destruct f as [o|]; [|injection H1 as <-; apply T]. apply bind_ok in H1 as [i [Hi H1]]. injection H1 as <-. apply wf_merge; [apply T|].
        unfold resources_filtered in Hi. apply skip_wf in Hi; [exact Hi|]. intros j Hj. exact (filter_loop_wf _ _ _ _ _ _ _ wf_no_issues Hj). }
      apply bind_ok in H as [i2 [H2 H]].
      assert (W2 : wf i2). { destruct so as [o|]; [|injection H2 as <-; exact W1]. apply bind_ok in H2 as [i [Hi H2]]. injection H2 as <-. apply wf_merge; [exact W1|].
        unfold resources_sorted in Hi. apply skip_wf in Hi; [exact Hi|]. clear. intros j Hj. apply bind_ok in Hj as [x [_ Hj]]. apply bind_ok in Hj as [d [_ Hj]]. injection Hj as <-. destruct d; [apply wf_add|]; apply wf_no_issues. }
      apply bind_ok in H as [p [Hp H]]. cbn zeta in H. assert (W3 : wf (merge i2 p resources_loc)) by (apply wf_merge; [exact W2 | exact (resources_presence_wf _ _ _ _ _ _ wf_no_issues Hp)]).
      pose proof (has_issues_wf _ W3) as R. destruct (has_issues (merge i2 p resources_loc) []); injection H as <- <-; cbn [rs_body].
      + split; [intros _; apply R; reflexivity | reflexivity].
      + split; [intros F; contradiction (to_dict_some b N F) | intros G; apply R in G; discriminate].
  Qed.
  Lemma list_dropped schemas st b h si cn f so c rs iss : Forall sound schemas -> list_dump_response schemas st b h si cn f so c = Ok (rs, iss) -> dropped (rs_body rs) iss.
  Proof.
    intros Hs H. unfold list_dump_response in H. apply bind_ok in H as [[y js] [Hy H]]. apply list_dump_orderly in Hy as [T N]; [|exact Hs]. cbn zeta in H.
    assert (T0 : orderly (merge no_issues js body_loc)) by (apply orderly_merge; [apply report_orderly; constructor | apply T]).
    destruct (can_proceed _ _) eqn:E; cbn [negb] in H; [|injection H as <- <-; split; [intros _; exact (orderly_stuck _ _ T0 E) | reflexivity]].
    apply bind_ok in H as [p [Hp H]]. cbn zeta in H. apply presence_report in Hp.
    assert (T1 : orderly (merge (merge (merge no_issues js body_loc) p body_loc) (status_code_issues 200 st) status_loc)) by (apply orderly_merge; [apply orderly_merge; [exact T0 | apply report_wf; exact Hp] | apply status_code_wf]).
    apply bind_ok in H as [i2 [H2 H]].
    assert (T2 : orderly i2). { match type of H2 with context[can_proceed ?a ?c] => destruct (can_proceed a c) end; [|injection H2 as <-; exact T1]. apply bind_ok in H2 as [v [_ H2]].
      destruct (truthy v); [|injection H2 as <-; exact T1]. apply bind_ok in H2 as [k [Hk H2]]. injection H2 as <-. apply orderly_merge; [exact T1|].
      unfold start_index_consistency in Hk. apply bind_ok in Hk as [g [_ Hk]]. injection Hk as <-. destruct g; [apply wf_add|]; apply wf_no_issues. }
    match type of H with context[can_proceed i2 ?c] => destruct (can_proceed i2 c) eqn:E2 end; cbn [negb] in H; [|injection H as <- <-; split; [intros _; exact (orderly_stuck _ _ T2 E2) | reflexivity]].
    apply bind_ok in H as [r [_ H]].
    assert (G : forall l, (let! iss := check_numbers y l cn i2 in check_resources schemas y h l f so c iss) = Ok (rs, iss) -> dropped (rs_body rs) iss).
    { clear H. intros l H. apply bind_ok in H as [i3 [H3 H]]. apply check_numbers_orderly in H3; [|exact T2]. exact (check_resources_dropped _ _ _ _ _ _ _ _ _ _ H3 N H). }
    destruct r; try discriminate H; exact (G _ H).
  Qed.
End Env.
