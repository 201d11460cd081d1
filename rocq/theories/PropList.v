(** Properties of list responses (C56, C57). *)
From Coq Require Import Lia.
From Verif Require Import PyBase BaseFacts PyNum Issues IssuesSpec IssuesFacts AttrRep AttrRepSpec Value Container ContainerSpec ContainerFacts ContainerRW AttrRepFacts ValueFacts
  Types Attr Schema Assets Presence Match FilterParse Path Sort Patch ListResp Search Bulk Requests
  AttrSpec AttrFacts AttrItems SchemaSpec SchemaFacts SchemaBuild PropAttr PropSchema MatchSpec MatchFacts PresenceSpec PresenceFacts PropPresence PatchSpec PatchFacts RequestSpec ListSpec RequestFacts MsgFacts BodyFacts PropRequest ListFacts.

(** The number of resources in an answer. *)
Definition how_many (l : option (list value)) : Z := match l with Some l => Z.of_nat (length l) | None => 0%Z end.

Section Env.
  Context {env : PyEnv}.

  (** The answer [doc] to a request for resources from [req] on, at most [count] of
      them, with these numbers and resources in it, gets the report [iss]. *)
  Inductive answered (schemas : list schema) (doc : value) (req : Z) (count : option Z) (t : Z) (si ipp : option Z) (l : option (list value)) (iss : issues) : Prop :=
  | answered_by st h f so c rs : Forall made schemas -> message list_schema doc -> holds (mk_cont doc) ($"totalResults") (VInt t) ->
      given_int doc ($"startIndex") si -> given_int doc ($"itemsPerPage") ipp -> given_list doc ($"Resources") l ->
      list_dump_response schemas st doc h req count f so c = Ok (rs, iss) -> answered schemas doc req count t si ipp l iss.

  Lemma made_all schemas : Forall made schemas -> Forall sound schemas.
  Proof. intros H. induction H; constructor; [apply made_sound|]; assumption. Qed.

  Section C56.
    Variables (schemas : list schema) (doc : value) (req : Z) (count : option Z) (t : Z) (si ipp : option Z) (l : option (list value)) (iss : issues).
    Hypothesis H : answered schemas doc req count t si ipp l iss.
    Let n := how_many l.

    Lemma numbers :
      errs_at iss (at_field ($"totalResults")) = []
      /\ errs_at iss (at_field ($"startIndex")) = (if ahead req si then [e_start_index] else []) ++ (if negb (miscounted ipp l) && (paged count t n && negb (is_some si)) then [e_missing] else [])
      /\ errs_at iss (at_field ($"itemsPerPage")) = (if miscounted ipp l then [e_must_equal ($"number of resources")] else [])
         ++ (if negb (miscounted ipp l) && negb (ahead req si) && (paged count t n && negb (is_some ipp)) then [e_missing] else [])
      /\ exists extra, errs_at iss (at_field ($"Resources")) = (if miscounted ipp l then [e_must_equal ($"itemsPerPage")] else number_errors count t n) ++ extra
         /\ Forall (eq e_not_sorted) extra.
    Proof.
      destruct H as [st h f so c rs Hs Hd Ht Hsi Hi Hl E]. destruct (list_numbers _ _ _ _ _ _ _ _ _ _ _ _ _ _ _ (made_all _ Hs) Hd Ht Hsi Hi Hl E) as [G1 [G2 [G3 [extra [G4 [G5 _]]]]]].
      split; [exact G1|]. split; [exact G2|]. split; [exact G3|]. exists extra. split; [exact G4 | exact G5].
    Qed.
    Lemma mis_true : miscounted ipp l = true <-> l <> None /\ ~ rule_page_size n ipp.
    Proof.
      unfold rule_page_size, n, how_many, miscounted. destruct ipp as [p|], l as [rs|]; split; try discriminate; try (intros [A B]; exfalso; try (apply A; reflexivity); apply B; discriminate).
      - intros G. apply Bool.negb_true_iff, Z.eqb_neq in G. split; [discriminate|]. intros A. apply G, A. reflexivity.
      - intros [_ A]. apply Bool.negb_true_iff, Z.eqb_neq. intros E. apply A. intros q Q. injection Q as <-. exact E.
    Qed.
    Lemma ahead_true : ahead req si = true -> ~ rule_start req si.
    Proof. unfold ahead, rule_start. destruct si as [s|]; [|discriminate]. intros G A. apply andb_prop in G as [_ G]. apply Z.ltb_lt in G. specialize (A s eq_refl). lia. Qed.
    Lemma ahead_false : (0 <= req)%Z -> ~ rule_start req si -> ahead req si = true.
    Proof.
      unfold ahead, rule_start. intros R A. destruct si as [s|]; [|exfalso; apply A; discriminate]. destruct (Z.ltb req s) eqn:E.
      - apply Z.ltb_lt in E. destruct (Z.eqb_spec s 0); [lia | reflexivity].
      - exfalso. apply Z.ltb_ge in E. apply A. intros q Q. injection Q as <-. exact E.
    Qed.
    Lemma paged_true : paged count t n = true <-> partial_page count t n.
    Proof.
      unfold paged, partial_page. destruct count as [c|]; [|split; [discriminate | intros [_ [c [E _]]]; discriminate]]. rewrite Bool.andb_true_iff, !Z.ltb_lt. split.
      - intros [A B]. split; [exact B|]. exists c. auto.
      - intros [A [c' [E B]]]. injection E as <-. auto.
    Qed.
    Lemma in_if {A} (b : bool) (x e : A) : In e (if b then [x] else []) <-> b = true /\ e = x.
    Proof. destruct b; cbn [In]; split; [intros [->|[]]; auto | intros [_ ->]; auto | intros [] | intros [G _]; discriminate]. Qed.

    (** Whatever is reported about the numbers is called for by a broken rule (what
        else is said about the list of resources is that it is not sorted). *)
    Theorem C56_only_broken_rules name e : In name counted -> In e (errs_at iss (at_field name)) ->
      called_for req count t n si ipp name e \/ name = $"Resources" /\ e = e_not_sorted.
    Proof.
      destruct numbers as [G1 [G2 [G3 [extra [G4 G5]]]]]. intros [<-|[<-|[<-|[<-|[]]]]] He.
      - rewrite G1 in He. destruct He.
      - left. rewrite G2 in He. apply in_app_or in He as [He|He]; apply in_if in He as [B ->].
        + apply cf_start, ahead_true, B.
        + apply andb_prop in B as [_ B]. apply andb_prop in B as [B1 B2]. apply cf_start_given. intros G. apply paged_true in B1. apply (G B1). destruct si; [discriminate B2 | reflexivity].
      - left. rewrite G3 in He. apply in_app_or in He as [He|He]; apply in_if in He as [B ->].
        + apply cf_size. apply mis_true in B. apply B.
        + apply andb_prop in B as [_ B]. apply andb_prop in B as [B1 B2]. apply cf_size_given. intros G. apply paged_true in B1. apply (G B1). destruct ipp; [discriminate B2 | reflexivity].
      - rewrite G4 in He. apply in_app_or in He as [He|He]; [left | right].
        + destruct (miscounted ipp l) eqn:M.
          * destruct He as [<-|[]]. apply cf_resources. apply mis_true in M. apply M.
          * unfold number_errors in He. apply in_app_or in He as [He|He].
            { apply in_if in He as [B ->]. apply cf_total. unfold rule_total. apply Z.ltb_lt in B. lia. }
            destruct count as [c|]; apply in_if in He as [B ->]; apply Z.ltb_lt in B.
            { apply cf_count. intros G. specialize (G c eq_refl). lia. }
            { apply cf_all. intros G. specialize (G eq_refl). lia. }
        + split; [reflexivity|]. rewrite Forall_forall in G5. symmetry. apply G5, He.
    Qed.

    (** A wrong page size and a wrong start index are always reported. *)
    Theorem C56_page_size_partial : l <> None -> ~ rule_page_size n ipp ->
      In (e_must_equal ($"number of resources")) (errs_at iss (at_field ($"itemsPerPage"))) /\ In (e_must_equal ($"itemsPerPage")) (errs_at iss (at_field ($"Resources"))).
    Proof.
      intros Hl Hr. assert (M : miscounted ipp l = true) by (apply mis_true; auto). destruct numbers as [_ [_ [G3 [extra [G4 _]]]]]. rewrite G3, G4, M. split; left; reflexivity.
    Qed.
    Theorem C56_start_index_partial : (0 <= req)%Z -> ~ rule_start req si -> In e_start_index (errs_at iss (at_field ($"startIndex"))).
    Proof. intros R Hr. apply ahead_false in Hr; [|exact R]. destruct numbers as [_ [G2 _]]. rewrite G2, Hr. left. reflexivity. Qed.

    (** When these two rules are kept, whatever the others call for is reported. *)
    Theorem C56_other_rules_partial name e : rule_page_size n ipp -> rule_start req si -> called_for req count t n si ipp name e -> In e (errs_at iss (at_field name)).
    Proof.
      intros Hp Hs He. assert (M : miscounted ipp l = false) by (destruct (miscounted ipp l) eqn:M; [apply mis_true in M as [_ M]; contradiction | reflexivity]).
      assert (A : ahead req si = false) by (destruct (ahead req si) eqn:A; [apply ahead_true in A; contradiction | reflexivity]).
      destruct numbers as [_ [G2 [G3 [extra [G4 _]]]]]. rewrite M in *. rewrite A in *. cbn [negb andb app] in *.
      assert (P : forall o : option Z, ~ (partial_page count t n -> o <> None) -> paged count t n && negb (is_some o) = true).
      { intros o G. destruct (paged count t n) eqn:B; [|exfalso; apply G; intros B'; apply paged_true in B'; congruence]. destruct o; [exfalso; apply G; discriminate | reflexivity]. }
      destruct He as [G|G|G|G|G|G|G|G]; try contradiction.
      - rewrite G4. apply in_or_app. left. unfold number_errors. apply in_or_app. left. apply in_if. split; [|reflexivity]. apply Z.ltb_lt. unfold rule_total in G. lia.
      - rewrite G4. apply in_or_app. left. unfold number_errors. apply in_or_app. right. unfold rule_all in G. destruct count; [exfalso; apply G; discriminate|]. apply in_if. split; [|reflexivity]. apply Z.ltb_lt. lia.
      - rewrite G4. apply in_or_app. left. unfold number_errors. apply in_or_app. right. unfold rule_count in G. destruct count as [c|]; [|exfalso; apply G; discriminate]. apply in_if. split; [|reflexivity].
        apply Z.ltb_lt. destruct (Z_lt_ge_dec c n) as [B|B]; [exact B|]. exfalso. apply G. intros c' E. injection E as <-. lia.
      - rewrite G2. apply in_if. split; [exact (P _ G) | reflexivity].
      - rewrite G3. apply in_if. split; [exact (P _ G) | reflexivity].
    Qed.
  End C56.

  (** With all resources prepared and the numbers right, a mismatch is reported
      exactly for the resources that do not match, if the filter can be applied to
      all of them. *)
  Theorem C57_mismatch_iff_partial schemas st doc h req count o so c resp iss t si ipp l rs ss :
    Forall made schemas -> message list_schema doc -> holds (mk_cont doc) ($"totalResults") (VInt t) ->
    given_int doc ($"startIndex") si -> given_int doc ($"itemsPerPage") ipp -> holds (mk_cont doc) ($"Resources") (VList l) ->
    rule_total t (how_many (Some l)) -> rule_all count t (how_many (Some l)) -> rule_count count (how_many (Some l)) ->
    prepared schemas doc rs ss -> (forall i x, nth_error rs i = Some x -> exists k s, nth_error ss i = Some (Some (k, s)) /\ returns o x (at_all (sc_attrs s)) false) ->
    list_dump_response schemas st doc h req count (Some o) so c = Ok (resp, iss) ->
    forall i x k s, nth_error rs i = Some x -> nth_error ss i = Some (Some (k, s)) ->
    (In e_filter_mismatch (errs_at iss (at_field ($"Resources") ++ [LIdx i])) <-> ~ matching o x (at_all (sc_attrs s)) false).
  Proof.
    intros Hs Hd Ht Hsi Hi Hl R1 R2 R3 Hp Hr H i x k s Hx Hk. apply made_all in Hs.
    assert (N : number_errors count t (Z.of_nat (length l)) = []).
    { unfold number_errors, rule_total, rule_all, rule_count, how_many in *. destruct (Z.ltb_spec t (Z.of_nat (length l))); [lia|]. cbn [app]. destruct count as [z|].
      - specialize (R3 z eq_refl). destruct (Z.ltb_spec z (Z.of_nat (length l))); [lia | reflexivity].
      - specialize (R2 eq_refl). destruct (Z.ltb_spec (Z.of_nat (length l)) t); [lia | reflexivity]. }
    destruct (filter_exact _ _ _ _ _ _ _ _ _ _ _ _ _ _ _ _ _ Hs Hd Ht Hsi Hi Hl N Hp H) as [fi [F1 [F2 F3]]]. rewrite F3.
    assert (L : length ss = length rs) by (destruct Hp as [y [js [_ [_ [P3 _]]]]]; exact (schemas_for_length _ _ _ P3)).
    destruct (filter_loop_returns o rs 0 ss no_issues L Hr) as [j Hj]. unfold resources_filtered in F1. rewrite Hj in F1. cbn [skip_if_bad_data] in F1. injection F1 as ->.
    destruct (filter_loop_items o false rs 0 ss no_issues fi wf_no_issues Hj i x s k Hx Hk) as [m [G1 [G2 G3]]]. cbn [Nat.add] in G3. rewrite G3. unfold matching, MatchSpec.gives. rewrite G1.
    change (errs_at no_issues [LIdx i]) with (@nil error). cbn [app]. destruct m; cbn [In]; split; intros G; try (destruct G; fail); try discriminate; auto; try contradiction.
  Qed.
  (** The same for an endpoint with one schema, where the resources are dumped one
      by one. *)
  Theorem C57_one_schema_partial sc st doc h req count o so c resp iss t si ipp l rs :
    made sc -> message list_schema doc -> holds (mk_cont doc) ($"totalResults") (VInt t) ->
    given_int doc ($"startIndex") si -> given_int doc ($"itemsPerPage") ipp -> holds (mk_cont doc) ($"Resources") (VList l) ->
    rule_page_size (how_many (Some l)) ipp -> rule_total t (how_many (Some l)) -> rule_all count t (how_many (Some l)) -> rule_count count (how_many (Some l)) ->
    Forall2 (dumped sc) l rs -> Forall (fun x => returns o x (at_all (sc_attrs sc)) false) rs ->
    list_dump_response [sc] st doc h req count (Some o) so c = Ok (resp, iss) ->
    forall i x, nth_error rs i = Some x ->
    (In e_filter_mismatch (errs_at iss (at_field ($"Resources") ++ [LIdx i])) <-> ~ matching o x (at_all (sc_attrs sc)) false).
  Proof.
    intros Hs Hd Ht Hsi Hi Hl R0 R1 R2 R3 Hp Hr H i x Hx.
    assert (M : miscounted ipp (Some l) = false).
    { unfold miscounted. destruct ipp as [p|]; [|reflexivity]. apply Bool.negb_false_iff, Z.eqb_eq. exact (R0 p eq_refl). }
    assert (D : exists out, list_dump [sc] doc = Ok out).
    { unfold list_dump_response in H. apply bind_ok in H as [out [D _]]. exists out. exact D. }
    pose proof (prepared_single _ _ _ _ _ _ _ (made_sound _ Hs) Hd Ht Hsi Hi Hl M Hp D) as P.
    apply (C57_mismatch_iff_partial [sc] st doc h req count o so c resp iss t si ipp l rs _ (Forall_cons _ Hs (Forall_nil _)) Hd Ht Hsi Hi Hl R1 R2 R3 P) with (k := 0); try assumption.
    - intros j y Hy. exists 0, sc. split; [rewrite nth_error_map, Hy; reflexivity|]. rewrite Forall_forall in Hr. apply Hr, (nth_error_In _ _ Hy).
    - rewrite nth_error_map, Hx. reflexivity.
  Qed.
End Env.

Definition ex_list (t : Z) (rest : list (str * value)) : value := dict_of (($"schemas", VList [VStr list_uri]) :: ($"totalResults", VInt t) :: rest).
Definition ex_member (name : str) (rest : list (str * value)) : value :=
  dict_of (($"schemas", VList [VStr user_uri]) :: ($"id", VStr name) :: ($"userName", VStr name)
    :: ($"meta", dict_of [($"resourceType", VStr ($"User")); ($"location", VStr ($"https://x/Users/1"))]) :: rest).
Definition ex_members : value := VList [ex_member ($"ann") []; ex_member ($"bob") []].
Definition ex_named (x : str) : oper := OBin OpEq (mkRep user_uri ($"userName") [] false) (LitStr x).
Definition ex_has_emails : oper := OPresent (mkRep user_uri ($"emails") [] false).
Definition list_of (v : value) : list value := match v with VList l => l | _ => [] end.
(** The value of a key of a document. *)
Definition lookup (doc : value) (n : str) : option value :=
  match mk_cont doc with VCont d l => match sget (lower n) l with Some k => sget k d | None => None end | _ => None end.
Lemma lookup_some doc n v : lookup doc n = Some v -> holds (mk_cont doc) n v.
Proof.
  unfold lookup, holds. destruct (mk_cont doc) as [| | | | | | | | | |d l| | | | | |]; try discriminate. intros H. destruct (sget (lower n) l) as [k|] eqn:E; [|discriminate]. exists d, l, k. auto.
Qed.
Lemma lookup_none doc n : lookup doc n = None -> forall x, holds (mk_cont doc) n x -> x = VMissing.
Proof. unfold lookup. intros H x [d [l [k [E [E1 E2]]]]]. rewrite E, E1, E2 in H. discriminate. Qed.
Definition members_of (doc : value) : list value := match lookup doc ($"Resources") with Some v => list_of v | None => [] end.

Ltac in_doc := unfold given_int, given_list; first [apply lookup_some; vm_compute; reflexivity | apply lookup_none; vm_compute; reflexivity].

(** The answer in [doc] to an unfiltered request for users. *)
Lemma ex_answered doc req count t si ipp l : is_object doc -> sget (lower list_uri) (match mk_cont doc with VCont _ l => l | _ => [] end) = None -> holds (mk_cont doc) ($"totalResults") (VInt t) ->
  given_int doc ($"startIndex") si -> given_int doc ($"itemsPerPage") ipp -> given_list doc ($"Resources") l ->
  forall P : issues -> Prop, outcome_is (@list_dump_response no_env [user_schema] 200 doc VNone req count None None None) (fun _ iss => P iss) ->
  exists iss, @answered no_env [user_schema] doc req count t si ipp l iss /\ P iss.
Proof.
  intros H0 H1 H2 H3 H4 H5 P H. destruct (@list_dump_response no_env [user_schema] 200 doc VNone req count None None None) as [[rs iss]|e] eqn:E; [|contradiction]. cbn [outcome_is] in H.
  exists iss. split; [|exact H]. refine (@answered_by no_env _ _ _ _ _ _ _ _ _ _ _ _ _ _ rs (Forall_cons _ user_made (Forall_nil _)) _ H2 H3 H4 H5 E).
  split; [exact H0|]. intros K. unfold has_key in K. destruct (mk_cont doc); try (destruct K; fail). destruct K as [k K]. pose proof (eq_trans (eq_sym K) H1) as Z. discriminate Z.
Qed.

Ltac answer_by := apply ex_answered; [exact I | vm_compute; reflexivity | in_doc | in_doc | in_doc | in_doc | vm_compute; try tauto].

(** Two resources of three, with everything said about the page; and the same with
    neither start index nor page size, and with more resources than results. *)
Example ex_C56 :
  (exists iss, @answered no_env [user_schema] (ex_list 3 [($"startIndex", VInt 1); ($"itemsPerPage", VInt 2); ($"Resources", ex_members)]) 1 (Some 2%Z) 3 (Some 1%Z) (Some 2%Z)
       (Some (members_of (ex_list 3 [($"startIndex", VInt 1); ($"itemsPerPage", VInt 2); ($"Resources", ex_members)]))) iss /\ iss = no_issues)
  /\ (exists iss, @answered no_env [user_schema] (ex_list 3 [($"Resources", ex_members)]) 1 (Some 2%Z) 3 None None (Some (members_of (ex_list 3 [($"Resources", ex_members)]))) iss
       /\ errs_at iss (at_field ($"startIndex")) = [e_missing] /\ errs_at iss (at_field ($"itemsPerPage")) = [e_missing])
  /\ (exists iss, @answered no_env [user_schema] (ex_list 1 [($"startIndex", VInt 4); ($"Resources", ex_members)]) 3 (Some 1%Z) 1 (Some 4%Z) None (Some (members_of (ex_list 1 [($"startIndex", VInt 4); ($"Resources", ex_members)]))) iss
       /\ errs_at iss (at_field ($"Resources")) = [e_total_mismatch; e_too_many_results] /\ errs_at iss (at_field ($"startIndex")) = [e_start_index])
  /\ (exists iss, @answered no_env [user_schema] (ex_list 2 [($"itemsPerPage", VInt 5); ($"Resources", ex_members)]) 3 None 2 None (Some 5%Z) (Some (members_of (ex_list 2 [($"itemsPerPage", VInt 5); ($"Resources", ex_members)]))) iss
       /\ errs_at iss (at_field ($"Resources")) = [e_must_equal ($"itemsPerPage")] /\ errs_at iss (at_field ($"itemsPerPage")) = [e_must_equal ($"number of resources")]).
Proof.
  split; [|split; [|split]].
  - answer_by.
  - answer_by.
  - answer_by.
  - answer_by.
Qed.

(** What is missing for "exactly those required by the pagination rules". A wrong
    page size hides other broken rules: there are more resources than results, and
    it is not reported. *)
Theorem C56_page_size_hides_refuted : exists env schemas doc req count t si ipp l iss, @answered env schemas doc req count t si ipp l iss
  /\ called_for req count t (how_many l) si ipp ($"Resources") e_total_mismatch /\ ~ In e_total_mismatch (errs_at iss (at_field ($"Resources"))).
Proof.
  destruct (ex_answered (ex_list 1 [($"itemsPerPage", VInt 5); ($"Resources", ex_members)]) 1 None 1 None (Some 5%Z) (Some (members_of (ex_list 1 [($"itemsPerPage", VInt 5); ($"Resources", ex_members)]))))
    with (P := fun iss => errs_at iss (at_field ($"Resources")) = [e_must_equal ($"itemsPerPage")]) as [iss [H1 H2]]; [exact I | vm_compute; reflexivity | in_doc | in_doc | in_doc | in_doc | vm_compute; reflexivity|].
  do 10 eexists. split; [exact H1|]. split; [apply cf_total; vm_compute; auto|]. rewrite H2. intros [G|[]]. discriminate.
Qed.
(** A wrong start index hides that the page size is not given. *)
Theorem C56_start_index_hides_refuted : exists env schemas doc req count t si ipp l iss, @answered env schemas doc req count t si ipp l iss
  /\ called_for req count t (how_many l) si ipp ($"itemsPerPage") e_missing /\ ~ In e_missing (errs_at iss (at_field ($"itemsPerPage"))).
Proof.
  destruct (ex_answered (ex_list 3 [($"startIndex", VInt 2); ($"Resources", ex_members)]) 1 (Some 2%Z) 3 (Some 2%Z) None (Some (members_of (ex_list 3 [($"startIndex", VInt 2); ($"Resources", ex_members)]))))
    with (P := fun iss => errs_at iss (at_field ($"itemsPerPage")) = []) as [iss [H1 H2]]; [exact I | vm_compute; reflexivity | in_doc | in_doc | in_doc | in_doc | vm_compute; reflexivity|].
  do 10 eexists. split; [exact H1|]. split; [apply cf_size_given; intros G; apply G; [split; [vm_compute; reflexivity | exists 2%Z; split; reflexivity] | reflexivity]|]. rewrite H2. intros [].
Qed.
(** Without "Resources" the page size is not looked at. *)
Theorem C56_no_resources_refuted : exists env schemas doc req count t si ipp iss, @answered env schemas doc req count t si ipp None iss
  /\ called_for req count t (how_many None) si ipp ($"itemsPerPage") (e_must_equal ($"number of resources")) /\ iss = no_issues.
Proof.
  destruct (ex_answered (ex_list 0 [($"itemsPerPage", VInt 5)]) 1 None 0 None (Some 5%Z) None)
    with (P := fun iss => iss = no_issues) as [iss [H1 H2]]; [exact I | vm_compute; reflexivity | in_doc | in_doc | in_doc | in_doc | vm_compute; reflexivity|].
  do 9 eexists. split; [exact H1|]. split; [apply cf_size; intros G; specialize (G 5%Z eq_refl); discriminate | exact H2].
Qed.
(** A start index of 0 is never compared with the one asked for. *)
Theorem C56_start_zero_refuted : exists env schemas doc req count t si ipp l iss, @answered env schemas doc req count t si ipp l iss
  /\ called_for req count t (how_many l) si ipp ($"startIndex") e_start_index /\ iss = no_issues.
Proof.
  destruct (ex_answered (ex_list 0 [($"startIndex", VInt 0)]) (-1) None 0 (Some 0%Z) None None)
    with (P := fun iss => iss = no_issues) as [iss [H1 H2]]; [exact I | vm_compute; reflexivity | in_doc | in_doc | in_doc | in_doc | vm_compute; reflexivity|].
  do 10 eexists. split; [exact H1|]. split; [apply cf_start; intros G; specialize (G 0%Z eq_refl); apply G; reflexivity | exact H2].
Qed.
(** The rule about answers to requests without a limit does not consider where
    they begin: the last two of three resources, asked for and given from
    position 2 on, are reported as too few. *)
Theorem C56_later_page_refuted : exists env schemas doc t l iss, @answered env schemas doc 2 None t (Some 2%Z) (Some 2%Z) l iss
  /\ (how_many l = t - (2 - 1))%Z /\ errs_at iss (at_field ($"Resources")) = [e_too_little_results].
Proof.
  destruct (ex_answered (ex_list 3 [($"startIndex", VInt 2); ($"itemsPerPage", VInt 2); ($"Resources", ex_members)]) 2 None 3 (Some 2%Z) (Some 2%Z)
      (Some (members_of (ex_list 3 [($"startIndex", VInt 2); ($"itemsPerPage", VInt 2); ($"Resources", ex_members)]))))
    with (P := fun iss => errs_at iss (at_field ($"Resources")) = [e_too_little_results]) as [iss [H1 H2]]; [exact I | vm_compute; reflexivity | in_doc | in_doc | in_doc | in_doc | vm_compute; reflexivity|].
  do 6 eexists. split; [exact H1|]. split; [vm_compute; reflexivity | exact H2].
Qed.

Definition dump_of (x : value) : value := match @schema_dump no_env user_schema x with Ok (y, _) => y | Raise _ => VNone end.
Lemma dump_of_dumped x : match @schema_dump no_env user_schema x with Ok (_, j) => j = no_issues | Raise _ => False end -> @dumped no_env user_schema x (dump_of x).
Proof.
  unfold dumped, dump_of. destruct (@schema_dump no_env user_schema x) as [[y j]|e]; [|contradiction]. intros ->. exists no_issues. split; reflexivity.
Qed.
Definition ex_pair : value := ex_list 2 [($"itemsPerPage", VInt 2); ($"Resources", ex_members)].

(** Two resources of which the second does not match. *)
Example ex_C57 : made user_schema /\ message list_schema ex_pair /\ holds (mk_cont ex_pair) ($"totalResults") (VInt 2)
  /\ given_int ex_pair ($"startIndex") None /\ given_int ex_pair ($"itemsPerPage") (Some 2%Z) /\ holds (mk_cont ex_pair) ($"Resources") (VList (members_of ex_pair))
  /\ Forall2 (@dumped no_env user_schema) (members_of ex_pair) (map dump_of (members_of ex_pair))
  /\ Forall (fun x => @returns no_env (ex_named ($"ann")) x (at_all (sc_attrs user_schema)) false) (map dump_of (members_of ex_pair))
  /\ (exists x y, map dump_of (members_of ex_pair) = [x; y] /\ @matching no_env (ex_named ($"ann")) x (at_all (sc_attrs user_schema)) false /\ ~ @matching no_env (ex_named ($"ann")) y (at_all (sc_attrs user_schema)) false)
  /\ outcome_is (@list_dump_response no_env [user_schema] 200 ex_pair VNone 1 None (Some (ex_named ($"ann"))) None None) (fun _ iss =>
       errs_at iss (at_field ($"Resources") ++ [LIdx 0]) = [] /\ errs_at iss (at_field ($"Resources") ++ [LIdx 1]) = [e_filter_mismatch]).
Proof.
  split; [exact user_made|]. split; [split; [exact I | intros [k H]; vm_compute in H; discriminate]|]. split; [in_doc|]. split; [in_doc|]. split; [in_doc|]. split; [in_doc|].
  assert (E : exists a b, members_of ex_pair = [a; b] /\ match @schema_dump no_env user_schema a with Ok (_, j) => j = no_issues | Raise _ => False end
    /\ match @schema_dump no_env user_schema b with Ok (_, j) => j = no_issues | Raise _ => False end
    /\ @filter_apply no_env (ex_named ($"ann")) (dump_of a) (at_all (sc_attrs user_schema)) false = Ok Passed /\ @filter_apply no_env (ex_named ($"ann")) (dump_of b) (at_all (sc_attrs user_schema)) false = Ok Failed).
  { do 2 eexists. split; [vm_compute; reflexivity|]. split; [vm_compute; reflexivity|]. split; [vm_compute; reflexivity|]. split; vm_compute; reflexivity. }
  destruct E as [a [b [-> [Ha [Hb [Fa Fb]]]]]]. cbn [map].
  split; [constructor; [exact (dump_of_dumped _ Ha)|]; constructor; [exact (dump_of_dumped _ Hb) | constructor]|].
  split; [constructor; [exists Passed; exact Fa|]; constructor; [exists Failed; exact Fb | constructor]|].
  split; [exists (dump_of a), (dump_of b); split; [reflexivity|]; split; [exact Fa|]; unfold matching, MatchSpec.gives; rewrite Fb; discriminate|].
  vm_compute. split; reflexivity.
Qed.

Lemma outcome_inv {A} (m : res (A * issues)) P : outcome_is m P -> exists a iss, m = Ok (a, iss) /\ P a iss.
Proof. destruct m as [[a iss]|]; [|intros []]. intros H. exists a, iss. auto. Qed.

(** What is missing for "iff resource i does not match": when the filter cannot be
    applied to one resource, no resource is reported. Here two users are returned
    for "emails pr": the filter raises on the first, which has e-mail addresses,
    and the second, which has none, is not reported. *)
Definition ex_mailed : value := ex_list 2 [($"itemsPerPage", VInt 2); ($"Resources", VList [ex_member ($"ann") [($"emails", VList [dict_of [($"value", VStr ($"a@x"))]])]; ex_member ($"bob") []])].
Theorem C57_not_applied_refuted : exists env sc st doc h req count o so c rs iss y js l x, made sc /\ @list_dump_response env [sc] st doc h req count (Some o) so c = Ok (rs, iss)
  /\ @list_dump env [sc] doc = Ok (y, js) /\ get_item y (list_rep ($"Resources")) = Ok (VList l) /\ nth_error l 1 = Some x
  /\ @MatchSpec.gives env o x (at_all (sc_attrs sc)) false Failed /\ iss = no_issues.
Proof.
  assert (E : outcome_is (@list_dump_response no_env [user_schema] 200 ex_mailed VNone 1 None (Some ex_has_emails) None None) (fun _ iss => iss = no_issues)) by (vm_compute; reflexivity).
  assert (D : outcome_is (@list_dump no_env [user_schema] ex_mailed) (fun y _ => match get_item y (list_rep ($"Resources")) with Ok (VList [_; x]) => @filter_apply no_env ex_has_emails x (at_all (sc_attrs user_schema)) false = Ok Failed | _ => False end)) by (vm_compute; reflexivity).
  apply outcome_inv in E as [rs [iss [H1 E]]]. apply outcome_inv in D as [y [js [H2 D]]].
  destruct (get_item y (list_rep ($"Resources"))) as [v|] eqn:H3; [|destruct D]. destruct v as [| | | | | | | |[|a [|b [|? ?]]]| | | | | | | |]; try (destruct D; fail).
  exists no_env, user_schema, 200%Z, ex_mailed, VNone, 1%Z, None, ex_has_emails, None, None, rs, iss, y, js, [a; b], b. split; [exact user_made|]. split; [exact H1|]. split; [exact H2|]. split; [exact H3|]. split; [reflexivity|]. split; [exact D | exact E].
Qed.

Print Assumptions C56_only_broken_rules.
Print Assumptions C56_page_size_partial.
Print Assumptions C56_start_index_partial.
Print Assumptions C56_other_rules_partial.
Print Assumptions C56_page_size_hides_refuted.
Print Assumptions C56_start_index_hides_refuted.
Print Assumptions C56_no_resources_refuted.
Print Assumptions C56_start_zero_refuted.
Print Assumptions C56_later_page_refuted.
Print Assumptions C57_mismatch_iff_partial.
Print Assumptions C57_one_schema_partial.
Print Assumptions C57_not_applied_refuted.
