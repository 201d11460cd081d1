(** Property C83: the query of requests about one resource. *)
From Verif Require Import PyBase BaseFacts PyNum Issues IssuesSpec IssuesFacts AttrRep AttrRepSpec Value Container ContainerSpec ContainerFacts ContainerRW AttrRepFacts ValueFacts
  Types Attr Schema Assets Presence Match FilterParse Path Sort Patch Search Requests AttrSpec AttrFacts AttrItems SchemaSpec SchemaFacts SchemaBuild PropAttr PropSchema PresenceSpec PresenceFacts PropPresence
  PatchSpec PatchFacts FilterSpec RequestSpec RequestFacts MsgFacts BodyFacts PropRequest ListReqSpec PropListReq QuerySpec.
Import Requests.

(** ** Reports about the body leave the query alone *)

Definition beyond (iss iss' : issues) : Prop := forall l, ~ in_body l -> errs_at iss' l = errs_at iss l.
Lemma beyond_refl i : beyond i i.
Proof. intros l _. reflexivity. Qed.
Lemma beyond_trans i j k : beyond i j -> beyond j k -> beyond i k.
Proof. intros H1 H2 l H. rewrite (H2 l H). exact (H1 l H). Qed.
Lemma beyond_merge i j p : wf i -> wf j -> in_body p -> beyond i (merge i j p).
Proof.
  intros Wi Wj [q ->] l H. rewrite errs_merge_wf by assumption. destruct (loc_strip _ l) as [t|] eqn:E; [|apply app_nil_r].
  exfalso. apply H. apply loc_strip_spec in E as ->. eexists. reflexivity.
Qed.

Section Env.
  Context {env : PyEnv}.

  Lemma items_beyond c subs l items : in_body l -> forall j iss iss', wf iss -> items_presence c subs l j items iss = Ok iss' -> wf iss' /\ beyond iss iss'.
  Proof.
    intros [q ->]. induction items as [|x t IH]; intros j iss iss' W H; cbn [items_presence] in H; [injection H as <-; split; [exact W | apply beyond_refl]|].
    destruct (has_issues _ _); [exact (IH _ _ _ W H)|]. apply bind_ok in H as [p [Hp H]]. apply presence_report, report_wf in Hp.
    apply IH in H as [H1 H2]; [|apply wf_merge; assumption]. split; [exact H1|]. eapply beyond_trans; [|exact H2]. apply beyond_merge; [exact W | exact Hp | eexists; reflexivity].
  Qed.
  Lemma complex_beyond iss a v l iss' : in_body l -> wf iss -> complex_presence iss a v l = Ok iss' -> wf iss' /\ beyond iss iss'.
  Proof.
    intros L W H. unfold complex_presence in H. destruct a as [a|]; [|injection H as <-; split; [exact W | apply beyond_refl]]. destruct (_ || _); [injection H as <-; split; [exact W | apply beyond_refl]|].
    apply bind_ok in H as [its [_ H]]. exact (items_beyond _ _ _ _ L _ _ _ W H).
  Qed.
  Lemma patch_beyond s ops : forall i vs ps iss iss', wf iss -> patch_presence s i ops vs ps iss = Ok iss' -> wf iss' /\ beyond iss iss'.
  Proof.
    induction ops as [|op ops IH]; intros i vs ps iss iss' W H; cbn [patch_presence] in H; [injection H as <-; split; [exact W | apply beyond_refl]|].
    destruct vs as [|v vs]; [injection H as <-; split; [exact W | apply beyond_refl]|]. destruct ps as [|p ps]; [injection H as <-; split; [exact W | apply beyond_refl]|].
    apply bind_ok in H as [js [Hj H]].
    assert (G : wf js /\ beyond iss js).
    { clear H. unfold patch_operation_presence in Hj. destruct (str_is _ _); [injection Hj as <-; split; [exact W | apply beyond_refl]|].
      assert (G : forall vl, in_body vl -> foldM (fun iss a => let! x := get_item v (arep a) in complex_presence iss (Some a) x (vl ++ presence_loc (arep a))) (at_all (sc_attrs s)) iss = Ok js -> wf js /\ beyond iss js).
      { intros vl [q ->]. apply (foldM_inv _ (fun i => wf i /\ beyond iss i)); [|split; [exact W | apply beyond_refl]]. intros a b a' _ [Wa Ba] E. apply bind_ok in E as [x [_ E]].
        apply complex_beyond in E as [E1 E2]; [|eexists; reflexivity | exact Wa]. split; [exact E1|]. exact (beyond_trans _ _ _ Ba E2). }
      destruct p; try discriminate Hj; try (refine (G _ _ Hj); eexists; reflexivity). apply bind_ok in Hj as [a [_ Hj]]. refine (complex_beyond _ _ _ _ _ _ W Hj). eexists; reflexivity. }
    apply IH in H as [H1 H2]; [|apply G]. split; [exact H1|]. exact (beyond_trans _ _ _ (proj2 G) H2).
  Qed.
  Lemma body_beyond p s b ig y iss : (forall v w js, p v = Ok (w, js) -> wf js) -> parse_body p s b ig = Ok (y, iss) -> wf iss /\ forall l, ~ in_body l -> errs_at iss l = [].
  Proof.
    intros Hp H. unfold parse_body in H. apply bind_ok in H as [[d js] [H1 H]]. apply Hp in H1. cbn zeta in H.
    assert (T : wf (merge no_issues js body_loc)) by (apply wf_merge; [apply wf_no_issues | exact H1]).
    assert (B : beyond no_issues (merge no_issues js body_loc)) by (apply beyond_merge; [apply wf_no_issues | exact H1 | eexists; reflexivity]).
    destruct (can_proceed _ _); [|injection H as _ <-; split; [exact T | exact B]]. apply bind_ok in H as [q [Hq H]]. injection H as _ <-. apply presence_report, report_wf in Hq.
    split; [apply wf_merge; assumption|]. refine (beyond_trans _ _ _ B (beyond_merge _ _ _ T Hq _)). eexists; reflexivity.
  Qed.

  Lemma object_query s body h q rq iss : made s -> object_request s body h q (Ok (rq, iss)) ->
    exists iq, query_step q = Ok (rq_query rq, iq) /\ rq_headers rq = h /\ beyond iq iss.
  Proof.
    intros Hm H. apply made_sound in Hm.
    assert (M : forall i1 i2, wf i1 -> wf i2 /\ (forall l, ~ in_body l -> errs_at i2 l = []) -> wf (merge i1 i2 []) /\ beyond i1 (merge i1 i2 [])).
    { intros i1 i2 W1 [W2 B]. split; [apply wf_merge; assumption|]. intros l L. rewrite errs_merge_wf by assumption. change (loc_strip [] l) with (Some l). cbv iota. rewrite (B l L). apply app_nil_r. }
    remember (Ok (rq, iss)) as r eqn:E. destruct H.
    - unfold get_parse in E. apply bind_ok in E as [[q' i1] [Hq E]]. injection E as <- <-. exists i1. split; [exact Hq|]. split; [reflexivity | apply beyond_refl].
    - unfold put_parse in E. apply bind_ok in E as [[q' i1] [Hq E]]. apply bind_ok in E as [[y i2] [Hb E]]. cbn zeta in E. pose proof (report_wf _ (query_report _ _ _ Hq)) as Wq.
      apply body_beyond in Hb; [|intros v w js G; exact (proj1 (parse_orderly s v w js Hm G))]. destruct (M i1 i2 Wq Hb) as [_ B]. exists i1.
      destruct (has_issues _ _); [|apply bind_ok in E as [y' [_ E]]]; injection E as <- <-; (split; [exact Hq | split; [reflexivity | exact B]]).
    - unfold post_parse in E. apply bind_ok in E as [[q' i1] [Hq E]]. apply bind_ok in E as [[y i2] [Hb E]]. cbn zeta in E. pose proof (report_wf _ (query_report _ _ _ Hq)) as Wq.
      apply body_beyond in Hb; [|intros v w js G; exact (proj1 (parse_orderly s v w js Hm G))]. destruct (M i1 i2 Wq Hb) as [_ B]. exists i1. injection E as <- <-. split; [exact Hq | split; [reflexivity | exact B]].
    - unfold patch_parse_request in E. apply bind_ok in E as [[q' i1] [Hq E]]. apply bind_ok in E as [[y i2] [Hb E]]. cbn zeta in E. pose proof (report_wf _ (query_report _ _ _ Hq)) as Wq.
      apply body_beyond in Hb; [|intros v w js G; exact (proj1 (proj1 (patch_parse_orderly s v w js Hm G)))]. destruct (M i1 i2 Wq Hb) as [W B]. exists i1.
      destruct (negb _); [injection E as <- <-; split; [exact Hq | split; [reflexivity | exact B]]|].
      do 6 apply bind_ok in E as [? [_ E]]. apply bind_ok in E as [js [Hj E]]. injection E as <- <-. split; [exact Hq|]. split; [reflexivity|].
      apply patch_beyond in Hj as [_ Hj]; [|exact W]. exact (beyond_trans _ _ _ B Hj).
  Qed.

  (** What the query comes to. *)
  Lemma chosen_query s body h q rq iss c jc : made s -> object_request s body h (VDict q) (Ok (rq, iss)) -> requested_attributes q = Ok (c, jc) ->
    rq_query rq = (if has_issues jc [] then VDict q else VDict (qset q ($"presence_checker") c)) /\ wf jc
    /\ forall key p, errs_at iss (at_query key ++ p) = errs_at jc (LStr key :: p).
  Proof.
    intros Hm H R. destruct (object_query _ _ _ _ _ _ Hm H) as [iq [Q [_ B]]]. unfold query_step in Q. rewrite R in Q. cbn [bind] in Q. injection Q as Q <-.
    pose proof (requested_report _ _ _ R) as Rj. split; [symmetry; exact Q|]. split; [apply report_wf; exact Rj|]. intros key p. rewrite B by (intros [t E]; discriminate E).
    rewrite errs_merge by auto using report_empty. change (at_query key ++ p) with (query_loc ++ LStr key :: p). rewrite loc_strip_app. reflexivity.
  Qed.
  Lemma quiet_wf i : wf i -> (forall l e, ~ In e (errs_at i l)) -> has_issues i [] = false.
  Proof.
    intros W H. destruct (has_issues i []) eqn:X; [|reflexivity]. exfalso. apply (has_issues_wf _ W) in X as [p X]. destruct (errs_at i p) as [|e t] eqn:E; [contradiction X; reflexivity|].
    apply (H p e). rewrite E. left. reflexivity.
  Qed.
  Lemma loud_wf i l e : wf i -> In e (errs_at i l) -> has_issues i [] = true.
  Proof. intros W H. apply (has_issues_wf _ W). exists l. intros G. rewrite G in H. destruct H. Qed.

  (** One parameter choosing attributes: exactly the names that are no names are
      reported; without such names the checker of exactly these attributes is
      stored, with them the query stays as it is. *)
  Theorem C83_attributes_partial : forall s body h q rq iss key other inc names text, made s -> object_request s body h (VDict q) (Ok (rq, iss)) ->
    chooses key other inc -> entry (VDict q) key (VStr text) -> no_entry (VDict q) other -> comma_list names text -> text <> [] ->
    (forall e p, In e (errs_at iss (at_query key ++ p)) <-> exists n, In n names /\ ~ valid_name n /\ p = [LStr n] /\ e = e_bad_attr_name n)
    /\ (Forall valid_name names -> exists reps, entry (rq_query rq) ($"presence_checker") (VChecker (mkChecker reps (Some inc) [])) /\ Forall2 reads_as names reps)
    /\ (forall n, In n names -> ~ valid_name n -> rq_query rq = VDict q).
  Proof.
    intros s body h q rq iss key other inc names text Hm H C T O L N. destruct (chosen_one _ _ _ _ _ _ C T O L N) as [v [j [K R]]].
    destruct (C31_selection names (Some inc)) as [v' [j' [K' [B1 [B2 B3]]]]]. rewrite K in K'. injection K' as <- <-. pose proof (checker_report _ _ _ _ K) as Rj.
    destruct (chosen_query _ _ _ _ _ _ _ _ Hm H R) as [Q [W E]].
    assert (M : forall p, errs_at (merge no_issues j [LStr key]) (LStr key :: p) = errs_at j p).
    { intros p. rewrite errs_merge by auto using report_empty. change (LStr key :: p) with ([LStr key] ++ p). rewrite loc_strip_app. reflexivity. }
    split; [intros e p; rewrite E, M; apply B1|]. split.
    - intros F. destruct (B2 F) as [reps [-> G]]. exists reps. split; [|exact G]. rewrite Q, quiet_wf; [apply entry_iff; rewrite dset; reflexivity | exact W|].
      intros l e I. rewrite errs_merge in I by auto using report_empty. apply in_app_iff in I as [[]|I]. destruct (loc_strip _ l) as [t|]; [|destruct I].
      apply B1 in I as [n [I1 [I2 _]]]. rewrite Forall_forall in F. exact (I2 (F n I1)).
    - intros n I1 I2. rewrite Q, (loud_wf _ [LStr key; LStr n] (e_bad_attr_name n) W); [reflexivity|]. change [LStr key; LStr n] with (LStr key :: [LStr n]). rewrite M. apply B1. exists n. auto.
  Qed.

  (** Both parameters together: each is reported with the other's name and the
      query stays as it is. *)
  Theorem C83_both_attributes : forall s body h q rq iss n1 t1 n2 t2, made s -> object_request s body h (VDict q) (Ok (rq, iss)) ->
    entry (VDict q) ($"attributes") (VStr t1) -> entry (VDict q) ($"excludeAttributes") (VStr t2) -> comma_list n1 t1 -> comma_list n2 t2 -> t1 <> [] -> t2 <> [] ->
    rq_query rq = VDict q
    /\ forall key other inc, chooses key other inc -> forall e p, In e (errs_at iss (at_query key ++ p)) <-> e = e_not_together other /\ p = [].
  Proof.
    intros s body h q rq iss n1 t1 n2 t2 Hm H T1 T2 L1 L2 N1 N2. pose proof (chosen_both _ _ _ _ _ T1 T2 L1 L2 N1 N2) as R.
    destruct (chosen_query _ _ _ _ _ _ _ _ Hm H R) as [Q [W E]].
    assert (P : forall key other inc, chooses key other inc -> forall e p, In e (errs_at iss (at_query key ++ p)) <-> e = e_not_together other /\ p = []).
    { intros key other inc C e p. rewrite E, !errs_at_add. change (errs_at no_issues (LStr key :: p)) with (@nil error). cbn [app]. split.
      - intros G. apply in_app_iff in G as [G|G]; destruct (loc_dec _ _) as [X|_]; try (destruct G; fail); destruct G as [<-|[]]; destruct C; try discriminate X; injection X as <-; auto.
      - intros [-> ->]. destruct C; apply in_app_iff; [left | right]; (destruct (loc_dec _ _) as [_|X]; [left; reflexivity | contradiction X; reflexivity]). }
    split; [|exact P]. rewrite Q, (loud_wf _ [LStr ($"attributes")] (e_not_together ($"excludeAttributes")) W); [reflexivity|].
    rewrite <- E. apply (P _ _ _ chooses_in). auto.
  Qed.

  (** Neither: no checker, nothing reported about the query. *)
  Theorem C83_no_attributes : forall s body h q rq iss, made s -> object_request s body h (VDict q) (Ok (rq, iss)) ->
    no_entry (VDict q) ($"attributes") -> no_entry (VDict q) ($"excludeAttributes") ->
    entry (rq_query rq) ($"presence_checker") VNone /\ forall e l, In e (errs_at iss l) -> in_body l.
  Proof.
    intros s body h q rq iss Hm H T1 T2. pose proof (chosen_none _ T1 T2) as R. destruct (chosen_query _ _ _ _ _ _ _ _ Hm H R) as [Q [W E]].
    split; [rewrite Q; apply entry_iff; change (has_issues no_issues []) with false; cbv iota; rewrite dset; reflexivity|].
    intros e l I. destruct (object_query _ _ _ _ _ _ Hm H) as [iq [Q' [_ B]]]. unfold query_step in Q'. rewrite R in Q'. cbn [bind] in Q'. injection Q' as _ <-.
    destruct l as [|[k|n] t]; [rewrite B in I by (intros [t E']; discriminate E'); destruct I | | rewrite B in I by (intros [t' E']; discriminate E'); destruct I].
    destruct (str_dec k ($"body")) as [->|Nk]; [eexists; reflexivity|]. exfalso. rewrite B in I by (intros [t' E']; injection E' as -> _; apply Nk; reflexivity). destruct I.
  Qed.

  (** Everything else is left as it is, and outside the body nothing is reported
      but the two parameters. *)
  Theorem C83_rest : forall s body h q rq iss, made s -> object_request s body h (VDict q) (Ok (rq, iss)) ->
    rq_headers rq = h /\ (exists q', rq_query rq = VDict q')
    /\ (forall k, k <> $"presence_checker" -> (forall v, entry (rq_query rq) k v <-> entry (VDict q) k v) /\ (no_entry (rq_query rq) k <-> no_entry (VDict q) k))
    /\ (forall e l, In e (errs_at iss l) -> in_body l \/ exists k p, In k [$"attributes"; $"excludeAttributes"] /\ l = at_query k ++ p).
  Proof.
    intros s body h q rq iss Hm H. destruct (object_query _ _ _ _ _ _ Hm H) as [iq [Q [Hh B]]]. split; [exact Hh|]. unfold query_step in Q. apply bind_ok in Q as [[c jc] [R Q]]. injection Q as Q <-.
    split; [rewrite <- Q; destruct (has_issues _ _); eexists; reflexivity|]. split.
    - intros k Nk. rewrite <- Q. destruct (has_issues _ _); [split; [intros v|]; reflexivity|].
      assert (G : aget dkey_eqb (KStr k) (qset q ($"presence_checker") c) = aget dkey_eqb (KStr k) q).
      { rewrite dset. destruct (str_eqb _ k) eqn:X; [|reflexivity]. apply str_eqb_eq in X. congruence. }
      split; [intros v; split; intros X; apply entry_iff; apply entry_iff in X | split; intros X; apply no_entry_iff; apply no_entry_iff in X]; first [exact (eq_trans G X) | exact (eq_trans (eq_sym G) X)].
    - intros e l I. pose proof (requested_report _ _ _ R) as Rj.
      assert (D : in_body l \/ ~ in_body l).
      { destruct l as [|[k|n] t]; [right; intros [t E]; discriminate E | | right; intros [t' E]; discriminate E].
        destruct (str_dec k ($"body")) as [->|Nk]; [left; eexists; reflexivity | right; intros [t' E]; injection E as -> _; apply Nk; reflexivity]. }
      destruct D as [D|D]; [auto|]. right. rewrite (B l D), errs_merge in I by auto using report_empty. apply in_app_iff in I as [[]|I].
      destruct (loc_strip _ l) as [t|] eqn:X; [|destruct I]. apply loc_strip_spec in X as ->. destruct (chosen_place _ _ _ _ _ R I) as [k [p [K ->]]]. exists k, p. auto.
  Qed.

  (** Without a dictionary of parameters nothing is read. *)
  Theorem C83_no_query : forall s body h v rq iss, made s -> (forall q, v <> VDict q) -> object_request s body h v (Ok (rq, iss)) ->
    rq_headers rq = h /\ rq_query rq = v /\ forall e l, In e (errs_at iss l) -> in_body l.
  Proof.
    intros s body h v rq iss Hm N H. destruct (object_query _ _ _ _ _ _ Hm H) as [iq [Q [Hh B]]]. split; [exact Hh|].
    assert (Q' : query_step v = Ok (v, no_issues)) by (destruct v; try reflexivity; exfalso; eapply N; reflexivity). rewrite Q' in Q. injection Q as <- <-. split; [reflexivity|].
    intros e l I. destruct l as [|[k|n] t]; [rewrite B in I by (intros [t E']; discriminate E'); destruct I | | rewrite B in I by (intros [t' E']; discriminate E'); destruct I].
    destruct (str_dec k ($"body")) as [->|Nk]; [eexists; reflexivity|]. exfalso. rewrite B in I by (intros [t' E']; injection E' as -> _; apply Nk; reflexivity). destruct I.
  Qed.
End Env.

#[local] Existing Instance no_env.

(** A group that is created while only two of its attributes are wanted, one of
    whose names is no name. *)
Example ex_C83 : exists rq iss,
  object_request group_schema (VDict [(KStr ($"displayName"), VStr ($"a"))]) VNone (VDict [(KStr ($"attributes"), VStr ($"id,bad name"))]) (Ok (rq, iss))
  /\ made group_schema /\ comma_list [$"id"; $"bad name"] ($"id,bad name") /\ ~ valid_name ($"bad name").
Proof.
  eexists _, _. split.
  - set (r := Ok _). assert (E : post_parse group_schema (VDict [(KStr ($"displayName"), VStr ($"a"))]) VNone (VDict [(KStr ($"attributes"), VStr ($"id,bad name"))]) = r) by (vm_compute; reflexivity).
    rewrite <- E. apply by_post.
  - split; [exact group_made|]. split.
    + refine (comma_more ($"id") [$"bad name"] ($"bad name") _ (comma_one _ _)); cbn; intuition discriminate.
    + apply invalid_parse. reflexivity.
Qed.
(** A group that is read without some of its attributes. *)
Example ex_C83_get : exists rq iss,
  object_request group_schema VNone VNone (VDict [(KStr ($"excludeAttributes"), VStr ($"members")); (KStr ($"x"), VInt 1)]) (Ok (rq, iss))
  /\ entry (rq_query rq) ($"presence_checker") (VChecker (mkChecker [{| r_schema := []; r_attr := $"members"; r_sub := []; r_ext := false |}] (Some false) [])) /\ entry (rq_query rq) ($"x") (VInt 1).
Proof.
  set (q := VDict _). destruct (get_parse VNone VNone q) as [[rq iss]|e] eqn:E; [|vm_compute in E; discriminate E]. exists rq, iss. split; [rewrite <- E; apply by_get|].
  vm_compute in E. injection E as <- _. split; apply entry_iff; reflexivity.
Qed.

Print Assumptions C83_attributes_partial.
Print Assumptions C83_both_attributes.
Print Assumptions C83_no_attributes.
Print Assumptions C83_rest.
Print Assumptions C83_no_query.
