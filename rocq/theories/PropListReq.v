(** Property C62: the query of list requests. *)
From Coq Require Import Lia.
From Verif Require Import PyBase BaseFacts PyNum Issues IssuesSpec IssuesFacts AttrRep AttrRepSpec Value Container ContainerSpec
  Types Attr AttrSpec AttrFacts Schema Presence Match FilterParse Sort Patch Search Requests
  FilterSpec FilterNum RequestSpec RequestFacts MsgFacts BodyFacts PropAttr PropPresence PropRequest ListReqSpec.

Lemma entry_iff d k v : aget dkey_eqb (KStr k) d = Some v <-> entry (VDict d) k v.
Proof.
  split.
  - induction d as [|[k1 v1] t IH]; cbn [aget]; [discriminate|]. destruct (dkey_eqb k1 (KStr k)) eqn:E; intros H.
    + injection H as ->. destruct k1 as [s|]; [|discriminate E]. apply str_eqb_eq in E as ->. exists [], t. split; [reflexivity | intros []].
    + destruct (IH H) as [l1 [l2 [E' N]]]. injection E' as ->. exists ((k1, v1) :: l1), l2. split; [reflexivity|]. intros [G|G]; [|contradiction]. cbn [fst] in G. subst k1.
      cbn [dkey_eqb] in E. rewrite (proj2 (str_eqb_eq k k) eq_refl) in E. discriminate E.
  - intros [l1 [l2 [E N]]]. injection E as ->. induction l1 as [|[k1 v1] t IH]; cbn [aget app]; [cbn [dkey_eqb]; rewrite (proj2 (str_eqb_eq k k) eq_refl); reflexivity|].
    destruct (dkey_eqb k1 (KStr k)) eqn:E; [|apply IH; intros G; apply N; right; exact G].
    exfalso. apply N. left. cbn [fst]. destruct k1; [|discriminate]. apply str_eqb_eq in E. congruence.
Qed.
Lemma no_entry_iff d k : aget dkey_eqb (KStr k) d = None <-> no_entry (VDict d) k.
Proof.
  split; [|intros H; apply no_entry_get in H; apply H]. intros H l E G. injection E as <-. apply in_map_iff in G as [[k1 v1] [E G]]. cbn [fst] in E. subst k1.
  induction d as [|[k2 v2] t IH]; [destruct G|]. cbn [aget] in H. destruct (dkey_eqb k2 (KStr k)) eqn:E; [discriminate|]. destruct G as [G|G]; [|auto].
  injection G as -> ->. cbn [dkey_eqb] in E. rewrite (proj2 (str_eqb_eq k k) eq_refl) in E. discriminate E.
Qed.
Lemma dset k k' v d : aget dkey_eqb (KStr k') (qset d k v) = if str_eqb k k' then Some v else aget dkey_eqb (KStr k') d.
Proof.
  unfold qset. induction d as [|[k1 v1] t IH]; cbn [aset aget].
  - cbn [dkey_eqb]. destruct (str_eqb k k'); reflexivity.
  - destruct (dkey_eqb k1 (KStr k)) eqn:E; cbn [aget].
    + destruct k1 as [s|]; [|discriminate E]. apply str_eqb_eq in E as ->. cbn [dkey_eqb]. destruct (str_eqb k k'); reflexivity.
    + rewrite IH. destruct (dkey_eqb k1 (KStr k')) eqn:E2; [|reflexivity]. destruct k1 as [s|]; [|discriminate E2]. apply str_eqb_eq in E2 as ->. cbn [dkey_eqb] in E.
      destruct (str_eqb k k') eqn:E3; [|reflexivity]. apply str_eqb_eq in E3 as ->. rewrite (proj2 (str_eqb_eq k' k') eq_refl) in E. discriminate E.
Qed.

(** ** Numbers *)

Lemma parse_int_whole s z : compact s -> (parse_int s = Some z <-> whole s z).
Proof.
  intros T. unfold parse_int. rewrite num_strip_tight by exact T. rewrite drop_underscores_tight by (revert T; apply Forall_impl; tauto). split.
  - destruct (take_sign s) as [b u] eqn:Es. apply take_sign_inv in Es as [t [g [-> [Hs ->]]]]. destruct (span_digits u) as [ds r] eqn:Ed. apply span_digits_inv in Ed as [-> [Hd _]].
    destruct ds as [|d ds]; [discriminate|]. destruct r as [|]; [|discriminate]. intros E. injection E as <-. rewrite app_nil_r, z_of_digits_value.
    assert (W : whole (t ++ d :: ds) (g * digits_value 0 (d :: ds))) by (constructor; [exact Hs | split; [discriminate | apply digits_bool; exact Hd]]).
    replace (if (g <? 0)%Z then _ else _) with (g * digits_value 0 (d :: ds))%Z by (destruct Hs; cbn [Z.ltb Z.compare]; lia). exact W.
  - intros [t g ds Hs Hd]. rewrite (take_sign_text t g ds Hs) by (intros c' t' E; pose proof (sign_digit _ (digits_head _ _ _ Hd E)); tauto).
    destruct Hd as [Hn Hd]. apply digits_bool in Hd. pose proof (span_digits_app ds [] Hd ltac:(discriminate)) as E. rewrite app_nil_r in E. rewrite E.
    destruct ds as [|d ds]; [contradiction|]. rewrite z_of_digits_value. f_equal. destruct Hs; cbn [Z.ltb Z.compare]; lia.
Qed.

(** ** Names *)

Lemma split_plain n : ~ In comma_ n -> split_on comma n = [n].
Proof.
  induction n as [|c n IH]; intros H; [reflexivity|]. cbn [split_on]. destruct (chr_eqb c comma) eqn:E; [apply chr_eqb_eq in E; contradiction H; left; exact E|].
  rewrite IH by (intros G; apply H; right; exact G). reflexivity.
Qed.
Lemma split_more n t : ~ In comma_ n -> split_on comma (n ++ comma_ :: t) = n :: split_on comma t.
Proof.
  induction n as [|c n IH]; intros H; [reflexivity|]. cbn [app split_on]. destruct (chr_eqb c comma) eqn:E; [apply chr_eqb_eq in E; contradiction H; left; exact E|].
  rewrite IH by (intros G; apply H; right; exact G). reflexivity.
Qed.
Lemma split_commas l t : comma_list l t -> split_on comma t = l.
Proof. induction 1 as [n H|n l t H _ IH]; [apply split_plain; exact H|]. rewrite split_more by exact H. rewrite IH. reflexivity. Qed.

(** ** The result *)

Definition number (v : option value) : option value * list error :=
  match v with
  | None | Some VNone => (v, [])
  | Some x => match py_int x with Ok z => (Some (VInt z), []) | Raise _ => (v, [e_bad_type ($"integer") (scim_type_of x)]) end
  end.
Definition under (p : loc) (j : issues) (l : loc) : list error := match loc_strip p l with Some l' => errs_at j l' | None => [] end.
Definition just (p : loc) (es : list error) (l : loc) : list error := if loc_dec p l then es else [].

Lemma int_param_result q k iss q' iss' : int_param q k iss = Ok (q', iss') ->
  (forall k', aget dkey_eqb (KStr k') q' = if str_eqb k k' then fst (number (aget dkey_eqb (KStr k) q)) else aget dkey_eqb (KStr k') q)
  /\ (wf iss -> wf iss') /\ forall l, errs_at iss' l = errs_at iss l ++ just (at_query k) (snd (number (aget dkey_eqb (KStr k) q))) l.
Proof.
  intros H. unfold int_param, qget in H. unfold number.
  assert (A0 : forall k', aget dkey_eqb (KStr k') q = if str_eqb k k' then aget dkey_eqb (KStr k) q else aget dkey_eqb (KStr k') q).
  { intros k'. destruct (str_eqb k k') eqn:E; [apply str_eqb_eq in E as ->|]; reflexivity. }
  assert (Z0 : forall l, errs_at iss l = errs_at iss l ++ just (at_query k) [] l) by (intros l; unfold just; destruct (loc_dec _ _); rewrite app_nil_r; reflexivity).
  destruct (aget dkey_eqb (KStr k) q) as [v|] eqn:E; [|injection H as <- <-; auto].
  destruct v; try (injection H as <- <-; auto; fail).
  all: match type of H with match py_int ?v with _ => _ end = _ => destruct (py_int v) as [zz|[]] eqn:Ez; try discriminate H; injection H as <- <-; cbn [fst snd] end.
  all: try (split; [intros k'; apply dset|]; auto; fail).
  all: split; [exact A0|]; split; [intros W; apply wf_add; exact W|]; intros lc; rewrite errs_at_add; reflexivity.
Qed.

Lemma sorting_report q v j : request_sorting q = (v, j) -> report j.
Proof.
  unfold request_sorting. destruct (qget q ($"sortBy") VNone); unfold fail, parse_sorter; try (intros H; injection H as _ <-; repeat constructor; fail).
  destruct (parse_rep _); intros H; injection H as _ <-; [constructor | apply report_iss_of].
Qed.
Lemma filtering_report q v j : request_filtering q = Ok (v, j) -> report j.
Proof.
  unfold request_filtering. destruct (qget q ($"filter") VNone); unfold fail, parse_filter; try (intros H; injection H as _ <-; repeat constructor; fail).
  intros H. apply bind_ok in H as [[o errs] [_ H]]. destruct errs; injection H as _ <-; [constructor | apply report_iss_of].
Qed.

Lemma list_query_result body h q rq iss : list_parse_request body h (VDict q) = Ok (rq, iss) ->
  exists f jf so js c jc q', request_filtering q = Ok (f, jf) /\ request_sorting q = (so, js) /\ requested_attributes q = Ok (c, jc)
  /\ report jf /\ report js /\ report jc /\ rq = mkReq h (VDict q') body /\ wf iss
  /\ (forall k, aget dkey_eqb (KStr k) q' = 
       if str_eqb ($"startIndex") k then fst (number (aget dkey_eqb (KStr k) q)) else
       if str_eqb ($"count") k then fst (number (aget dkey_eqb (KStr k) q)) else
       if str_eqb ($"presence_checker") k then if has_issues jc [] then aget dkey_eqb (KStr k) q else Some c else
       if str_eqb ($"sorter") k then Some so else if str_eqb ($"filter") k then Some f else aget dkey_eqb (KStr k) q)
  /\ forall l, errs_at iss l = under (at_query ($"filter")) jf l ++ under (at_query ($"sortby")) js l ++ under [LStr ($"query_string")] jc l
       ++ just (at_query ($"count")) (snd (number (aget dkey_eqb (KStr ($"count")) q))) l ++ just (at_query ($"startIndex")) (snd (number (aget dkey_eqb (KStr ($"startIndex")) q))) l.
Proof.
  intros H. unfold list_parse_request in H. apply bind_ok in H as [[f jf] [Hf H]]. cbn zeta in H.
  destruct (request_sorting (qset q ($"filter") f)) as [so js] eqn:Hs. apply bind_ok in H as [[c jc] [Hc H]].
  apply bind_ok in H as [[q2 i2] [H2 H]]. apply bind_ok in H as [[q3 i3] [H3 H]]. injection H as <- <-.
  apply int_param_result in H2 as [A2 [W2 E2]]. apply int_param_result in H3 as [A3 [W3 E3]].
  assert (Hs' : request_sorting q = (so, js)). { refine (eq_trans _ Hs). unfold request_sorting, qget. rewrite !dset. reflexivity. }
  assert (Hc' : requested_attributes q = Ok (c, jc)). { refine (eq_trans _ Hc). unfold requested_attributes, qget. rewrite !dset. reflexivity. }
  pose proof (filtering_report _ _ _ Hf) as Rf. pose proof (sorting_report _ _ _ Hs') as Rs. pose proof (requested_report _ _ _ Hc') as Rc.
  exists f, jf, so, js, c, jc, q3. do 6 (split; [assumption|]). split; [reflexivity|].
  assert (Ri : report (merge (merge (merge no_issues jf (query_loc ++ [LStr ($"filter")])) js (query_loc ++ [LStr ($"sortby")])) jc query_loc)) by (repeat apply report_merge; auto using report_empty).
  split; [apply W3, W2, report_wf; exact Ri|].
  assert (B : forall k, aget dkey_eqb (KStr k) (if has_issues jc [] then qset (qset q ($"filter") f) ($"sorter") so else qset (qset (qset q ($"filter") f) ($"sorter") so) ($"presence_checker") c)
    = if str_eqb ($"presence_checker") k then if has_issues jc [] then aget dkey_eqb (KStr k) q else Some c else
       if str_eqb ($"sorter") k then Some so else if str_eqb ($"filter") k then Some f else aget dkey_eqb (KStr k) q).
  { intros k. destruct (has_issues jc []); rewrite !dset; [|reflexivity].
    destruct (str_eqb ($"presence_checker") k) eqn:E; [|reflexivity]. apply str_eqb_eq in E as <-. reflexivity. }
  split.
  - intros k. rewrite A3. destruct (str_eqb ($"startIndex") k) eqn:K1; [apply str_eqb_eq in K1 as <-; rewrite A2; change (str_eqb ($"count") ($"startIndex")) with false; cbv iota; rewrite B; reflexivity|].
    rewrite A2. destruct (str_eqb ($"count") k) eqn:K2; [apply str_eqb_eq in K2 as <-; rewrite B; reflexivity|]. apply B.
  - intros l. rewrite E3, E2. rewrite !errs_merge by (repeat apply report_merge; auto using report_empty). change (errs_at no_issues l) with (@nil error). cbn [app].
    rewrite A2. assert (N : str_eqb ($"count") ($"startIndex") = false) by reflexivity. rewrite N, !B. unfold under. rewrite <- !app_assoc. reflexivity.
Qed.

Lemma in_under k k' j e p : In e (under (at_query k) j (at_query k' ++ p)) <-> k = k' /\ In e (errs_at j p).
Proof.
  unfold under. destruct (loc_strip (at_query k) (at_query k' ++ p)) as [l|] eqn:E.
  - apply loc_strip_spec in E. cbn in E. injection E as -> ->. tauto.
  - split; [intros []|]. intros [-> _]. rewrite loc_strip_app in E. discriminate E.
Qed.
Lemma in_just k k' es e p : In e (just (at_query k) es (at_query k' ++ p)) <-> k = k' /\ p = [] /\ In e es.
Proof.
  unfold just. destruct (loc_dec (at_query k) (at_query k' ++ p)) as [E|E].
  - cbn in E. injection E as -> <-. tauto.
  - split; [intros []|]. intros [-> [-> _]]. contradiction E. reflexivity.
Qed.

Lemma checker_report names inc v js : parse_checker names inc = Ok (v, js) -> report js.
Proof.
  intros H. unfold parse_checker in H. apply bind_ok in H as [[[reps ok] js'] [Hf H]].
  assert (G : report js'). { change ((fun st : list attr_rep * bool * issues => report (snd st)) (reps, ok, js')). revert Hf. apply (foldM_inv _ (fun st : list attr_rep * bool * issues => report (snd st))); [|constructor].
    intros [[a b] i] x [[a' b'] i'] _ Hi E. cbn [fst snd] in *. destruct x; try discriminate. unfold parse_name_step in E. destruct (parse_rep _) as [r|]; [match type of E with context[can_proceed ?x ?y] => destruct (can_proceed x y) end; injection E as _ _ <-; exact Hi | injection E as _ _ <-; apply report_add; exact Hi]. }
  injection H as _ <-. exact G.
Qed.

(** What choosing attributes comes to. *)
Lemma chosen_none q : no_entry (VDict q) ($"attributes") -> no_entry (VDict q) ($"excludeAttributes") -> requested_attributes q = Ok (VNone, no_issues).
Proof. intros H1 H2. apply no_entry_iff in H1. apply no_entry_iff in H2. unfold requested_attributes, qget. rewrite H1, H2. reflexivity. Qed.
Lemma text_names names text : comma_list names text -> text <> [] -> names_of (VStr text) = VList (map VStr names) /\ names <> [].
Proof.
  intros H N. destruct text as [|c t]; [contradiction|]. cbn [names_of]. rewrite (split_commas _ _ H). split; [reflexivity|]. intros ->. inversion H.
Qed.
Lemma chosen_one q key other inc names text : chooses key other inc -> entry (VDict q) key (VStr text) -> no_entry (VDict q) other -> comma_list names text -> text <> [] ->
  exists v js, parse_checker (map VStr names) (Some inc) = Ok (v, js) /\ requested_attributes q = Ok (v, merge no_issues js [LStr key]).
Proof.
  intros C H1 H2 L N. apply entry_iff in H1. apply no_entry_iff in H2. destruct (text_names _ _ L N) as [T Nn].
  destruct (C31_selection names (Some inc)) as [v [js [P _]]]. exists v, js. split; [exact P|].
  assert (K : truthy (VList (map VStr names)) = true) by (destruct names; [contradiction | reflexivity]).
  unfold requested_attributes, qget. destruct C; rewrite H1, H2, T; cbn [names_of]; rewrite K; cbn [truthy orb andb negb]; rewrite P; reflexivity.
Qed.
Lemma chosen_both q n1 t1 n2 t2 : entry (VDict q) ($"attributes") (VStr t1) -> entry (VDict q) ($"excludeAttributes") (VStr t2) -> comma_list n1 t1 -> comma_list n2 t2 -> t1 <> [] -> t2 <> [] ->
  requested_attributes q = Ok (VInvalid, add_issue (add_issue no_issues (e_not_together ($"excludeAttributes")) false [LStr ($"attributes")]) (e_not_together ($"attributes")) false [LStr ($"excludeAttributes")]).
Proof.
  intros H1 H2 L1 L2 N1 N2. apply entry_iff in H1. apply entry_iff in H2. destruct (text_names _ _ L1 N1) as [T1 M1]. destruct (text_names _ _ L2 N2) as [T2 M2].
  assert (K1 : truthy (VList (map VStr n1)) = true) by (destruct n1; [contradiction | reflexivity]).
  assert (K2 : truthy (VList (map VStr n2)) = true) by (destruct n2; [contradiction | reflexivity]).
  unfold requested_attributes, qget. rewrite H1, H2, T1, T2, K1, K2. reflexivity.
Qed.
Lemma chosen_place q c jc e p : requested_attributes q = Ok (c, jc) -> In e (errs_at jc p) -> exists k p', In k [$"attributes"; $"excludeAttributes"] /\ p = LStr k :: p'.
Proof.
  intros H I. unfold requested_attributes in H.
  destruct (names_of (qget q ($"attributes") _)) as [| | | | | | | |li| | | | | | | |]; try (injection H as _ <-; destruct I).
  destruct (names_of (qget q ($"excludeAttributes") _)) as [| | | | | | | |le| | | | | | | |]; try (injection H as _ <-; destruct I).
  destruct (negb _); [injection H as _ <-; destruct I|]. destruct (_ && _).
  - injection H as _ <-. rewrite !errs_at_add in I. apply in_app_iff in I as [I|I].
    + apply in_app_iff in I as [[]|I]. destruct (loc_dec _ p) as [<-|_]; [|destruct I]. eexists _, _. split; [left; reflexivity | reflexivity].
    + destruct (loc_dec _ p) as [<-|_]; [|destruct I]. eexists _, _. split; [right; left; reflexivity | reflexivity].
  - apply bind_ok in H as [[k js] [Hp H]]. injection H as _ <-.
    assert (R : report js) by (revert Hp; apply checker_report).
    rewrite errs_merge in I by auto using report_empty. apply in_app_iff in I as [[]|I]. destruct (loc_strip _ p) as [p'|] eqn:E; [|destruct I]. apply loc_strip_spec in E as ->.
    eexists _, p'. split; [|reflexivity]. destruct li; [right; left | left]; reflexivity.
Qed.

(** What is reported about a parameter. *)
Lemma at_param f jf so js c jc q iss : requested_attributes q = Ok (c, jc) ->
  (forall l, errs_at iss l = under (at_query ($"filter")) jf l ++ under (at_query ($"sortby")) js l ++ under [LStr ($"query_string")] jc l
       ++ just (at_query ($"count")) (snd (number (aget dkey_eqb (KStr ($"count")) q))) l ++ just (at_query ($"startIndex")) (snd (number (aget dkey_eqb (KStr ($"startIndex")) q))) l) ->
  request_filtering q = Ok (f, jf) -> request_sorting q = (so, js) ->
  forall k e p, In e (errs_at iss (at_query k ++ p)) <->
    k = $"filter" /\ In e (errs_at jf p) \/ k = $"sortby" /\ In e (errs_at js p)
    \/ In k [$"attributes"; $"excludeAttributes"] /\ In e (errs_at jc (LStr k :: p))
    \/ In k [$"count"; $"startIndex"] /\ p = [] /\ In e (snd (number (aget dkey_eqb (KStr k) q))).
Proof.
  intros Hc E _ _ k e p. rewrite E, !in_app_iff, !in_under, !in_just.
  assert (U : under [LStr ($"query_string")] jc (at_query k ++ p) = errs_at jc (LStr k :: p)).
  { unfold under. change (at_query k ++ p) with ([LStr ($"query_string")] ++ LStr k :: p). rewrite loc_strip_app. reflexivity. }
  rewrite U. clear U E. split.
  - intros [[<- G]|[[<- G]|[G|[[<- G]|[<- G]]]]]; [auto|auto| |do 3 right; split; [left; reflexivity | exact G]|do 3 right; split; [right; left; reflexivity | exact G]].
    right. right. left. split; [|exact G]. destruct (chosen_place _ _ _ _ _ Hc G) as [k' [p' [I E]]]. injection E as -> _. exact I.
  - intros [[-> G]|[[-> G]|[[_ G]|[[<-|[<-|[]]] G]]]]; [left; split; [reflexivity | exact G] | right; left; split; [reflexivity | exact G] | | |]; right; right; [left; exact G | right; left; split; [reflexivity | exact G] | right; right; split; [reflexivity | exact G]].
Qed.
Ltac parts H := let f := fresh "f" in let jf := fresh "jf" in let so := fresh "so" in let js := fresh "js" in let c := fresh "c" in let jc := fresh "jc" in let q' := fresh "q'" in
  destruct (list_query_result _ _ _ _ _ H) as [f [jf [so [js [c [jc [q' [Hf [Hs [Hc [Rf [Rs [Rc [-> [W [A E]]]]]]]]]]]]]]]]; pose proof (at_param f jf so js c jc _ _ Hc E Hf Hs) as P; cbn [rq_query].
Ltac no_key := let G := fresh in intros [[G _]|[[G _]|[[G _]|[G _]]]]; revert G; cbn [In]; intuition discriminate.

(** The filter: what the filter parser makes of it, with its complaints. *)
Theorem C62_filter : forall body h q rq iss t, list_parse_request body h (VDict q) = Ok (rq, iss) -> entry (VDict q) ($"filter") (VStr t) ->
  exists v js, parse_filter t = Ok (v, js) /\ entry (rq_query rq) ($"filter") v
  /\ forall e p, In e (errs_at iss (at_query ($"filter") ++ p)) <-> In e (errs_at js p).
Proof.
  intros body h q rq iss t H T. parts H. apply entry_iff in T. unfold request_filtering, qget in Hf. rewrite T in Hf. exists f, jf. split; [exact Hf|].
  split; [apply entry_iff; rewrite A; reflexivity|]. intros e p. rewrite P. split; [|auto]. intros [[_ G]|[[G _]|[[G _]|[G _]]]]; [exact G | discriminate G | |]; cbn [In] in G; intuition discriminate.
Qed.
Theorem C62_no_filter : forall body h q rq iss, list_parse_request body h (VDict q) = Ok (rq, iss) -> no_entry (VDict q) ($"filter") ->
  entry (rq_query rq) ($"filter") VInvalid /\ forall e p, ~ In e (errs_at iss (at_query ($"filter") ++ p)).
Proof.
  intros body h q rq iss H T. parts H. apply no_entry_iff in T. unfold request_filtering, qget in Hf. rewrite T in Hf. injection Hf as <- <-.
  split; [apply entry_iff; rewrite A; reflexivity|]. intros e p. rewrite P. intros [[_ []]|[[G _]|[[G _]|[G _]]]]; [discriminate G | |]; cbn [In] in G; intuition discriminate.
Qed.

(** The order: a readable name sorts by it, ascending unless another order is
    asked for; any other name is reported. *)
Theorem C62_sorter : forall body h q rq iss t r, list_parse_request body h (VDict q) = Ok (rq, iss) -> entry (VDict q) ($"sortBy") (VStr t) -> reads_as t r ->
  exists asc, entry (rq_query rq) ($"sorter") (VSorter (mkSorter r asc)) /\ (asc = true <-> no_entry (VDict q) ($"sortOrder") \/ entry (VDict q) ($"sortOrder") (VStr ($"ascending")))
  /\ forall e p, ~ In e (errs_at iss (at_query ($"sortby") ++ p)).
Proof.
  intros body h q rq iss t r H T R. parts H. apply entry_iff in T. apply reads_parse in R. unfold request_sorting, qget in Hs. rewrite T in Hs. unfold parse_sorter in Hs. rewrite R in Hs.
  set (asc := str_is _ _) in Hs. injection Hs as <- <-. exists asc. split; [apply entry_iff; rewrite A; reflexivity|]. split.
  - rewrite <- entry_iff, <- no_entry_iff. unfold asc. destruct (aget dkey_eqb (KStr ($"sortOrder")) q) as [v|]; [|split; [auto | reflexivity]].
    unfold str_is. split.
    + intros G. destruct v; try discriminate G. apply str_eqb_eq in G as ->. auto.
    + intros [G|G]; [discriminate G|]. injection G as ->. reflexivity.
  - intros e p. rewrite P. intros [[G _]|[[_ []]|[[G _]|[G _]]]]; [discriminate G | |]; cbn [In] in G; intuition discriminate.
Qed.
Theorem C62_bad_sorter : forall body h q rq iss t, list_parse_request body h (VDict q) = Ok (rq, iss) -> entry (VDict q) ($"sortBy") (VStr t) -> ~ valid_name t ->
  entry (rq_query rq) ($"sorter") VInvalid /\ forall e p, In e (errs_at iss (at_query ($"sortby") ++ p)) <-> e = e_bad_name /\ p = [].
Proof.
  intros body h q rq iss t H T R. parts H. apply entry_iff in T. apply invalid_parse in R. unfold request_sorting, qget in Hs. rewrite T in Hs. unfold parse_sorter in Hs. rewrite R in Hs.
  injection Hs as <- <-. split; [apply entry_iff; rewrite A; reflexivity|]. intros e p. rewrite P. split.
  - intros [[G _]|[[_ G]|[[G _]|[G _]]]]; [discriminate G | | |]; [|cbn [In] in G; intuition discriminate..].
    destruct p; [|destruct G]. destruct G as [<-|[]]. auto.
  - intros [-> ->]. right. left. split; [reflexivity | left; reflexivity].
Qed.
Theorem C62_no_sorter : forall body h q rq iss, list_parse_request body h (VDict q) = Ok (rq, iss) -> no_entry (VDict q) ($"sortBy") ->
  entry (rq_query rq) ($"sorter") VInvalid /\ forall e p, ~ In e (errs_at iss (at_query ($"sortby") ++ p)).
Proof.
  intros body h q rq iss H T. parts H. apply no_entry_iff in T. unfold request_sorting, qget in Hs. rewrite T in Hs. injection Hs as <- <-.
  split; [apply entry_iff; rewrite A; reflexivity|]. intros e p. rewrite P. intros [[G _]|[[_ []]|[[G _]|[G _]]]]; [discriminate G | |]; cbn [In] in G; intuition discriminate.
Qed.

(** Both must be texts. *)
Theorem C62_texts : forall body h q rq iss key named place v, list_parse_request body h (VDict q) = Ok (rq, iss) ->
  textual key named place -> entry (VDict q) key v -> (forall t, v <> VStr t) -> v <> VNone ->
  entry (rq_query rq) named VInvalid /\ forall e p, In e (errs_at iss (at_query place ++ p)) <-> e = e_bad_type ($"string") (scim_type_of v) /\ p = [].
Proof.
  intros body h q rq iss key named place v H K T N1 N2. parts H. apply entry_iff in T.
  assert (F : forall e0 e p, In e (errs_at (add_issue no_issues e0 false []) p) <-> e = e0 /\ p = []).
  { intros e0 e p. rewrite errs_at_add. change (errs_at no_issues p) with (@nil error). cbn [app]. destruct (loc_dec [] p) as [<-|X]; [cbn [In]; split; [intros [<-|[]]; auto | intros [-> _]; auto]|].
    split; [intros [] | intros [_ ->]; contradiction X; reflexivity]. }
  destruct K.
  - unfold request_filtering, qget in Hf. rewrite T in Hf.
    assert (X : Ok (f, jf) = Ok (fail (e_bad_type ($"string") (scim_type_of v)))) by (rewrite <- Hf; destruct v; try reflexivity; [contradiction N2; reflexivity | exfalso; eapply N1; reflexivity]).
    injection X as -> ->. split; [apply entry_iff; rewrite A; reflexivity|]. intros e p. rewrite P, F. split; [|auto]. intros [[_ G]|[[G _]|[[G _]|[G _]]]]; [exact G | discriminate G | |]; cbn [In] in G; intuition discriminate.
  - unfold request_sorting, qget in Hs. rewrite T in Hs.
    assert (X : (so, js) = fail (e_bad_type ($"string") (scim_type_of v))) by (rewrite <- Hs; destruct v; try reflexivity; [contradiction N2; reflexivity | exfalso; eapply N1; reflexivity]).
    injection X as -> ->. split; [apply entry_iff; rewrite A; reflexivity|]. intros e p. rewrite P, F. split; [|auto]. intros [[G _]|[[_ G]|[[G _]|[G _]]]]; [discriminate G | exact G | |]; cbn [In] in G; intuition discriminate.
Qed.

(** The attributes: readable names are chosen, every other name is reported. *)
Theorem C62_attributes_partial : forall body h q rq iss key other inc names text, list_parse_request body h (VDict q) = Ok (rq, iss) ->
  chooses key other inc -> entry (VDict q) key (VStr text) -> no_entry (VDict q) other -> comma_list names text -> text <> [] ->
  (forall e p, In e (errs_at iss (at_query key ++ p)) <-> exists n, In n names /\ ~ valid_name n /\ p = [LStr n] /\ e = e_bad_attr_name n)
  /\ (Forall valid_name names -> exists reps, entry (rq_query rq) ($"presence_checker") (VChecker (mkChecker reps (Some inc) [])) /\ Forall2 reads_as names reps).
Proof.
  intros body h q rq iss key other inc names text H C T O L N. parts H. destruct (chosen_one _ _ _ _ _ _ C T O L N) as [v [j [K R]]]. rewrite Hc in R. injection R as -> ->.
  destruct (C31_selection names (Some inc)) as [v' [j' [K' [B1 [B2 B3]]]]]. rewrite K in K'. injection K' as <- <-. pose proof (checker_report _ _ _ _ K) as Rj.
  assert (M : forall p, errs_at (merge no_issues j [LStr key]) (LStr key :: p) = errs_at j p).
  { intros p. rewrite errs_merge by auto using report_empty. change (LStr key :: p) with ([LStr key] ++ p). rewrite loc_strip_app. reflexivity. }
  split.
  - intros e p. rewrite P, M, B1. split; [|intros G; right; right; left; split; [destruct C; cbn [In]; auto | exact G]].
    intros [[G _]|[[G _]|[[_ G]|[G _]]]]; [destruct C; discriminate G | destruct C; discriminate G | exact G | destruct C; cbn [In] in G; intuition discriminate].
  - intros F. destruct (B2 F) as [reps [-> G]]. exists reps. split; [|exact G]. apply entry_iff. rewrite A.
    assert (Z0 : has_issues (merge no_issues j [LStr key]) [] = false).
    { destruct (has_issues _ []) eqn:X; [|reflexivity]. exfalso. apply (has_issues_wf _ (report_wf _ Rc)) in X as [p X]. apply X.
      rewrite errs_merge by auto using report_empty. destruct (loc_strip _ p) as [p'|]; [|reflexivity]. cbn [app]. change (errs_at no_issues p) with (@nil error). cbn [app].
      destruct (errs_at j p') as [|e es] eqn:Q; [reflexivity|]. assert (I : In e (errs_at j p')) by (rewrite Q; left; reflexivity). apply B1 in I as [n [I1 [I2 _]]].
      rewrite Forall_forall in F. contradiction (I2 (F n I1)). }
    rewrite Z0. reflexivity.
Qed.
Theorem C62_both_attributes : forall body h q rq iss n1 t1 n2 t2, list_parse_request body h (VDict q) = Ok (rq, iss) ->
  entry (VDict q) ($"attributes") (VStr t1) -> entry (VDict q) ($"excludeAttributes") (VStr t2) -> comma_list n1 t1 -> comma_list n2 t2 -> t1 <> [] -> t2 <> [] ->
  forall key other inc, chooses key other inc -> forall e p, In e (errs_at iss (at_query key ++ p)) <-> e = e_not_together other /\ p = [].
Proof.
  intros body h q rq iss n1 t1 n2 t2 H T1 T2 L1 L2 N1 N2 key other inc C. parts H. pose proof (chosen_both _ _ _ _ _ T1 T2 L1 L2 N1 N2) as R. rewrite Hc in R. injection R as -> ->.
  intros e p. rewrite P, !errs_at_add. change (errs_at no_issues (LStr key :: p)) with (@nil error). cbn [app].
  split.
  - intros [[G _]|[[G _]|[[_ G]|[G _]]]]; [destruct C; discriminate G | destruct C; discriminate G | | destruct C; cbn [In] in G; intuition discriminate].
    apply in_app_iff in G as [G|G]; destruct (loc_dec _ _) as [X|_]; try (destruct G; fail); destruct G as [<-|[]]; destruct C; try discriminate X; injection X as <-; auto.
  - intros [-> ->]. right. right. left. destruct C; (split; [cbn [In]; auto|]); apply in_app_iff; [left | right]; (destruct (loc_dec _ _) as [_|X]; [left; reflexivity | contradiction X; reflexivity]).
Qed.
Theorem C62_no_attributes : forall body h q rq iss, list_parse_request body h (VDict q) = Ok (rq, iss) ->
  no_entry (VDict q) ($"attributes") -> no_entry (VDict q) ($"excludeAttributes") -> entry (rq_query rq) ($"presence_checker") VNone
  /\ forall key other inc, chooses key other inc -> forall e p, ~ In e (errs_at iss (at_query key ++ p)).
Proof.
  intros body h q rq iss H T1 T2. parts H. rewrite (chosen_none _ T1 T2) in Hc. injection Hc as <- <-. split; [apply entry_iff; rewrite A; reflexivity|].
  intros key other inc C e p. rewrite P. intros [[G _]|[[G _]|[[_ []]|[G _]]]]; [destruct C; discriminate G | destruct C; discriminate G | destruct C; cbn [In] in G; intuition discriminate].
Qed.

(** The numbers: numerals are read, other texts are reported. *)
Theorem C62_numbers_partial : forall body h q rq iss key t, list_parse_request body h (VDict q) = Ok (rq, iss) ->
  In key [$"count"; $"startIndex"] -> entry (VDict q) key (VStr t) -> compact t ->
  (forall z, whole t z -> entry (rq_query rq) key (VInt z))
  /\ forall e p, In e (errs_at iss (at_query key ++ p)) <-> (forall z, ~ whole t z) /\ e = e_bad_type ($"integer") ($"string") /\ p = [].
Proof.
  intros body h q rq iss key t H K T Ct. parts H. apply entry_iff in T. split.
  - intros z Z0. apply (parse_int_whole _ _ Ct) in Z0. apply entry_iff. rewrite A, T. unfold number. cbn [py_int]. rewrite Z0. destruct K as [<-|[<-|[]]]; reflexivity.
  - intros e p. rewrite P, T. unfold number. cbn [py_int]. split.
    + intros [[G _]|[[G _]|[[G _]|[_ [-> G]]]]]; try (destruct K as [<-|[<-|[]]]; cbn [In] in G; intuition discriminate).
      destruct (parse_int t) as [z|] eqn:Z0; [destruct G|]. destruct G as [<-|[]]. split; [|split; reflexivity]. intros z G. apply (parse_int_whole _ _ Ct) in G. congruence.
    + intros [G [-> ->]]. do 3 right. split; [exact K|]. split; [reflexivity|]. destruct (parse_int t) as [z|] eqn:Z0; [destruct (G z); apply (parse_int_whole _ _ Ct); exact Z0 | left; reflexivity].
Qed.
Theorem C62_given_numbers : forall body h q rq iss key z, list_parse_request body h (VDict q) = Ok (rq, iss) ->
  In key [$"count"; $"startIndex"] -> entry (VDict q) key (VInt z) -> entry (rq_query rq) key (VInt z) /\ forall e p, ~ In e (errs_at iss (at_query key ++ p)).
Proof.
  intros body h q rq iss key z H K T. parts H. apply entry_iff in T. split.
  - apply entry_iff. rewrite A, T. destruct K as [<-|[<-|[]]]; reflexivity.
  - intros e p. rewrite P, T. intros [[G _]|[[G _]|[[G _]|[_ [_ []]]]]]; destruct K as [<-|[<-|[]]]; cbn [In] in G; intuition discriminate.
Qed.

(** Everything else is left as it is, and nothing is reported elsewhere. *)
Theorem C62_rest : forall body h q rq iss, list_parse_request body h (VDict q) = Ok (rq, iss) ->
  rq_body rq = body /\ rq_headers rq = h /\ (exists q', rq_query rq = VDict q') /\
  forall k, ~ In k [$"filter"; $"sorter"; $"presence_checker"; $"count"; $"startIndex"] ->
    (forall v, entry (rq_query rq) k v <-> entry (VDict q) k v) /\ (no_entry (rq_query rq) k <-> no_entry (VDict q) k).
Proof.
  intros body h q rq iss H. parts H. split; [reflexivity|]. split; [reflexivity|]. split; [eexists; reflexivity|]. intros k K.
  assert (G : aget dkey_eqb (KStr k) q' = aget dkey_eqb (KStr k) q).
  { assert (X : forall x, In x [$"filter"; $"sorter"; $"presence_checker"; $"count"; $"startIndex"] -> str_eqb x k = false).
    { intros x I. destruct (str_eqb x k) eqn:Q; [|reflexivity]. apply str_eqb_eq in Q as <-. contradiction. }
    rewrite A. rewrite !X by (cbn [In]; tauto). reflexivity. }
  split; [intros v; rewrite <- !entry_iff, G; reflexivity | rewrite <- !no_entry_iff, G; reflexivity].
Qed.
Theorem C62_nothing_else : forall body h q rq iss e l, list_parse_request body h (VDict q) = Ok (rq, iss) -> In e (errs_at iss l) ->
  exists k p, l = at_query k ++ p /\ In k [$"filter"; $"sortby"; $"attributes"; $"excludeAttributes"; $"count"; $"startIndex"].
Proof.
  intros body h q rq iss e l H I. parts H. rewrite E, !in_app_iff in I.
  assert (U : forall k j, In e (under (at_query k) j l) -> exists p, l = at_query k ++ p).
  { intros k j G. unfold under in G. destruct (loc_strip _ l) as [p|] eqn:X; [|destruct G]. apply loc_strip_spec in X as ->. exists p. reflexivity. }
  assert (J : forall k es, In e (just (at_query k) es l) -> exists p, l = at_query k ++ p).
  { intros k es G. unfold just in G. destruct (loc_dec _ l) as [<-|_]; [|destruct G]. exists []. reflexivity. }
  destruct I as [I|[I|[I|[I|I]]]]; [apply U in I as [p ->]|apply U in I as [p ->]| |apply J in I as [p ->]|apply J in I as [p ->]]; try (eexists _, p; split; [reflexivity | cbn [In]; tauto]).
  unfold under in I. destruct (loc_strip _ l) as [p|] eqn:X; [|destruct I]. apply loc_strip_spec in X as ->. destruct (chosen_place _ _ _ _ _ Hc I) as [k [p' [K ->]]].
  exists k, p'. split; [reflexivity|]. cbn [In] in *. tauto.
Qed.

(** Without a dictionary of parameters exactly that is reported. *)
Theorem C62_no_query : forall body h v, (forall q, v <> VDict q) -> exists iss, list_parse_request body h v = Ok (mkReq h v body, iss)
  /\ forall e l, In e (errs_at iss l) <-> l = [LStr ($"query_string")] /\ (v = VNone /\ e = e_missing \/ v <> VNone /\ e = e_bad_type ($"dict") ($"tuple")).
Proof.
  intros body h v N.
  assert (G : forall e0 e l, In e (errs_at (add_issue no_issues e0 false query_loc) l) <-> l = [LStr ($"query_string")] /\ e = e0).
  { intros e0 e l. rewrite errs_at_add. change (errs_at no_issues l) with (@nil error). cbn [app]. destruct (loc_dec query_loc l) as [<-|X]; [cbn [In]; split; [intros [<-|[]]; auto | intros [_ ->]; auto]|].
    split; [intros [] | intros [-> _]; contradiction X; reflexivity]. }
  destruct v; try (exfalso; eapply N; reflexivity); eexists; (split; [reflexivity|]); intros e lc; rewrite G; intuition (try congruence; try discriminate).
Qed.

(** A request for the provider's configuration must not have a filter. *)
Theorem C62_config : forall h v e l, let (rq, iss) := config_parse_request h v in
  rq_query rq = VNone /\ rq_headers rq = h /\ (In e (errs_at iss l) <-> (exists x, entry v ($"filter") x) /\ e = e_not_supported /\ l = at_query ($"filter")).
Proof.
  intros h v e l. unfold config_parse_request. split; [reflexivity|]. split; [reflexivity|].
  assert (G : forall b, In e (errs_at (if b : bool then add_issue no_issues e_not_supported false (query_loc ++ [LStr ($"filter")]) else no_issues) l) <-> b = true /\ e = e_not_supported /\ l = at_query ($"filter")).
  { intros [|]; [|split; [intros [] | intros [X _]; discriminate X]]. rewrite errs_at_add. change (errs_at no_issues l) with (@nil error). cbn [app]. destruct (loc_dec _ l) as [<-|X].
    - cbn [In]. split; [intros [<-|[]]; auto | intros [_ [-> _]]; auto].
    - split; [intros [] | intros [_ [_ ->]]; contradiction X; reflexivity]. }
  rewrite G. clear G.
  assert (F : (match v with VDict q => amem dkey_eqb (KStr ($"filter")) q | _ => false end) = true <-> exists x, entry v ($"filter") x); [|rewrite F; reflexivity].
  destruct v as [| | | | | | | | |q| | | | | | |]; try (split; [discriminate | intros [x [l1 [l2 [X _]]]]; discriminate X]).
  unfold amem. split.
  - destruct (aget _ _ q) as [x|] eqn:X; [|discriminate]. intros _. exists x. apply entry_iff. exact X.
  - intros [x X]. apply entry_iff in X. rewrite X. reflexivity.
Qed.

(** ** Examples *)

Definition ex_query : list (dkey * value) :=
  [(KStr ($"filter"), VStr ($"userName eq ""ann""")); (KStr ($"sortBy"), VStr ($"name.familyName")); (KStr ($"attributes"), VStr ($"userName,na me,emails.value"));
   (KStr ($"count"), VStr ($"+10")); (KStr ($"startIndex"), VStr ($"x")); (KStr ($"tenant"), VStr ($"t"))].
Example ex_C62 :
  entry (VDict ex_query) ($"filter") (VStr ($"userName eq ""ann""")) /\ entry (VDict ex_query) ($"sortBy") (VStr ($"name.familyName")) /\ valid_name ($"name.familyName")
  /\ comma_list [$"userName"; $"na me"; $"emails.value"] ($"userName,na me,emails.value") /\ ~ valid_name ($"na me") /\ no_entry (VDict ex_query) ($"excludeAttributes")
  /\ whole ($"+10") 10 /\ (forall z, ~ whole ($"x") z) /\ compact ($"+10") /\ compact ($"x")
  /\ outcome_is (list_parse_request VNone VNone (VDict ex_query)) (fun rq iss => map fst (i_errs iss) = [at_query ($"attributes") ++ [LStr ($"na me")]; at_query ($"startIndex")]
       /\ rq_query rq = VDict [(KStr ($"filter"), VFilter (OBin OpEq (simple_name ($"userName")) (LitStr ($"ann")))); (KStr ($"sortBy"), VStr ($"name.familyName"));
            (KStr ($"attributes"), VStr ($"userName,na me,emails.value")); (KStr ($"count"), VInt 10); (KStr ($"startIndex"), VStr ($"x")); (KStr ($"tenant"), VStr ($"t"));
            (KStr ($"sorter"), VSorter (mkSorter (mkRep [] ($"name") ($"familyName") false) true))]).
Proof.
  split; [apply entry_iff; reflexivity|]. split; [apply entry_iff; reflexivity|].
  split; [destruct (parse_rep ($"name.familyName")) as [r|] eqn:E; [|vm_compute in E; discriminate]; apply reads_parse in E as [segs [E _]]; exists segs, (r_attr r), (r_sub r); exact E|].
  split; [apply (comma_more ($"userName")); [vm_compute; intuition discriminate|]; apply (comma_more ($"na me")); [vm_compute; intuition discriminate|]; apply comma_one; vm_compute; intuition discriminate|].
  split; [apply invalid_parse; vm_compute; reflexivity|]. split; [apply no_entry_iff; reflexivity|].
  assert (C1 : compact ($"+10")) by (repeat (constructor; [split; [reflexivity | discriminate]|]); constructor).
  assert (C2 : compact ($"x")) by (repeat (constructor; [split; [reflexivity | discriminate]|]); constructor).
  split; [apply (parse_int_whole _ _ C1); reflexivity|]. split; [intros z G; apply (parse_int_whole _ _ C2) in G; vm_compute in G; discriminate G|]. split; [exact C1|]. split; [exact C2|].
  vm_compute. split; reflexivity.
Qed.
Example ex_C62_both : entry (VDict [(KStr ($"attributes"), VStr ($"id")); (KStr ($"excludeAttributes"), VStr ($"id"))]) ($"attributes") (VStr ($"id"))
  /\ outcome_is (list_parse_request VNone VNone (VDict [(KStr ($"attributes"), VStr ($"id")); (KStr ($"excludeAttributes"), VStr ($"id"))]))
       (fun _ iss => map fst (i_errs iss) = [at_query ($"attributes"); at_query ($"excludeAttributes")]).
Proof. split; [apply entry_iff; reflexivity | vm_compute; reflexivity]. Qed.

(** The whole claim is false: an order that is neither ascending nor descending is
    not reported, ... *)
Theorem C62_sort_order_refuted : exists q o, entry (VDict q) ($"sortOrder") (VStr o) /\ o <> $"ascending" /\ o <> $"descending"
  /\ outcome_is (list_parse_request VNone VNone (VDict q)) (fun _ iss => i_errs iss = []).
Proof.
  exists [(KStr ($"sortBy"), VStr ($"id")); (KStr ($"sortOrder"), VStr ($"up"))], ($"up"). split; [apply entry_iff; reflexivity|]. split; [discriminate|]. split; [discriminate | vm_compute; reflexivity].
Qed.
(** ... the parameter of RFC 7644 (3.9) for attributes to leave out is not known, ... *)
Theorem C62_excluded_refuted : exists q, entry (VDict q) ($"excludedAttributes") (VStr ($"emails"))
  /\ outcome_is (list_parse_request VNone VNone (VDict q)) (fun rq iss => i_errs iss = [] /\ entry (rq_query rq) ($"presence_checker") VNone).
Proof. exists [(KStr ($"excludedAttributes"), VStr ($"emails"))]. split; [apply entry_iff; reflexivity|]. vm_compute. split; [reflexivity|]. apply entry_iff. reflexivity. Qed.
(** ... an empty selection yields an unusable checker without a word, ... *)
Theorem C62_empty_refuted : exists q, entry (VDict q) ($"attributes") (VStr [])
  /\ outcome_is (list_parse_request VNone VNone (VDict q)) (fun rq iss => i_errs iss = [] /\ entry (rq_query rq) ($"presence_checker") VInvalid).
Proof. exists [(KStr ($"attributes"), VStr [])]. split; [apply entry_iff; reflexivity|]. vm_compute. split; [reflexivity|]. apply entry_iff. reflexivity. Qed.
(** ... texts that are no numerals and fractions pass as numbers, ... *)
Theorem C62_loose_numbers_refuted : exists q t, entry (VDict q) ($"count") (VStr t) /\ (forall z, ~ whole t z) /\ entry (VDict q) ($"startIndex") (VFloat (FFin 3 (-1)))
  /\ outcome_is (list_parse_request VNone VNone (VDict q)) (fun rq iss => i_errs iss = [] /\ entry (rq_query rq) ($"count") (VInt 10) /\ entry (rq_query rq) ($"startIndex") (VInt 1)).
Proof.
  exists [(KStr ($"count"), VStr ($" 1_0")); (KStr ($"startIndex"), VFloat (FFin 3 (-1)))], ($" 1_0"). split; [apply entry_iff; reflexivity|]. split.
  - intros z G. remember ($" 1_0") as t eqn:E. destruct G as [s g ds Hs [Hn Hd]]. destruct Hs; try discriminate E. destruct ds as [|c ds]; [discriminate E|]. injection E as E _. subst c. inversion Hd as [|? ? X]. vm_compute in X. destruct X as [X _]. apply X. reflexivity.
  - split; [apply entry_iff; reflexivity|]. vm_compute. split; [reflexivity|]. split; apply entry_iff; reflexivity.
Qed.
(** ... and a number that is given as a list raises. *)
Theorem C62_raises_refuted : exists q, entry (VDict q) ($"count") (VList []) /\ list_parse_request VNone VNone (VDict q) = Raise TypeErr.
Proof. exists [(KStr ($"count"), VList [])]. split; [apply entry_iff; reflexivity | vm_compute; reflexivity]. Qed.

Print Assumptions C62_filter.
Print Assumptions C62_no_filter.
Print Assumptions C62_sorter.
Print Assumptions C62_bad_sorter.
Print Assumptions C62_no_sorter.
Print Assumptions C62_texts.
Print Assumptions C62_attributes_partial.
Print Assumptions C62_both_attributes.
Print Assumptions C62_no_attributes.
Print Assumptions C62_numbers_partial.
Print Assumptions C62_given_numbers.
Print Assumptions C62_rest.
Print Assumptions C62_nothing_else.
Print Assumptions C62_no_query.
Print Assumptions C62_config.
Print Assumptions ex_C62.
Print Assumptions ex_C62_both.
Print Assumptions C62_sort_order_refuted.
Print Assumptions C62_excluded_refuted.
Print Assumptions C62_empty_refuted.
Print Assumptions C62_loose_numbers_refuted.
Print Assumptions C62_raises_refuted.
