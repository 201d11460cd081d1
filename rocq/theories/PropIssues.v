(** C01-C06: issue reports (src/error.py 305-415).  The vocabulary of the
    statements is in IssuesSpec.v. *)
From Verif Require Import PyBase BaseFacts Issues IssuesSpec IssuesFacts.

(** A history used in the examples: two direct issues and a merged report. *)
Definition ex_history : list call :=
  [CAdd (err 15) true [LStr ($"userName")];
   CMerge [CAdd (err 2) false [LIdx 1]; CAdd (err 8) true [LIdx 1]] [LStr ($"emails")];
   CAdd (err 9) false [LStr ($"emails"); LIdx 1]].

(** ** C01 *)

Theorem C01_issues_kept : forall h l, errs_at (run h) l = recorded h l.
Proof. exact run_errors. Qed.
Print Assumptions C01_issues_kept.

(** Merging one report into another never raises and concatenates below the prefix. *)
Theorem C01_merge_exact : forall h1 h2 p,
  exists i, merge_at (run h1) (run h2) p = Ok i /\
    forall l, errs_at i l = recorded h1 l ++ match loc_strip p l with Some l' => recorded h2 l' | None => [] end.
Proof.
  intros h1 h2 p. exists (merge (run h1) (run h2) p). split.
  - apply merge_at_ok; apply run_wf.
  - intros l. rewrite errs_at_merge by apply run_wf. rewrite run_errors.
    destruct (loc_strip p l); [rewrite run_errors|]; reflexivity.
Qed.
Print Assumptions C01_merge_exact.

Example C01_example :
  errs_at (run ex_history) [LStr ($"emails"); LIdx 1] = [err 2; err 8; err 9].
Proof. vm_compute. reflexivity. Qed.

(** ** C02 *)

Theorem C02_has_issues : forall h ls,
  has_issues (run h) ls = true <-> exists l t, In l (asked ls) /\ recorded h (l ++ t) <> [].
Proof. exact has_issues_run. Qed.
Print Assumptions C02_has_issues.

Theorem C02_has_issues_any : forall h,
  has_issues (run h) [] = true <-> exists l, recorded h l <> [].
Proof.
  intros h. rewrite has_issues_run. split.
  - intros [l [t [_ H]]]; exists (l ++ t); exact H.
  - intros [l H]; exists [], l; split; [left; reflexivity | exact H].
Qed.
Print Assumptions C02_has_issues_any.

Example C02_example :
  has_issues (run ex_history) [[LStr ($"emails")]] = true
  /\ has_issues (run ex_history) [[LStr ($"name")]; [LStr ($"emails"); LIdx 0]] = false.
Proof. vm_compute. split; reflexivity. Qed.

(** ** C03 *)

(** The full property: blocked exactly by issues recorded with proceed=False. *)
Definition can_proceed_exact (h : list call) : Prop := forall ls,
  can_proceed (run h) ls = false <->
  exists l a, In l (asked ls) /\ ancestor a l /\ blocking h a = true.

(** It fails: merging a report turns its non-blocking issues into blocking ones. *)
Theorem C03_can_proceed_refuted : exists h, ~ can_proceed_exact h.
Proof.
  exists [CMerge [CAdd (err 15) true [LStr ($"a")]] []]. intros H.
  destruct (H [[LStr ($"a")]]) as [H1 _]. destruct H1 as [l [a [Hl [[t Ht] Hb]]]].
  - vm_compute; reflexivity.
  - unfold blocking in Hb; cbn [existsb] in Hb. rewrite call_blocks_merge in Hb. cbn in Hb. discriminate.
Qed.
Print Assumptions C03_can_proceed_refuted.

(** It holds when reports are merged only while all their issues are blocking;
    in particular when issues are only added directly. *)
Theorem C03_can_proceed_partial : forall h, merges_blocking h -> can_proceed_exact h.
Proof.
  intros h Hm ls. rewrite can_proceed_run. split; intros [l [a [H1 [H2 H3]]]]; exists l, a;
    (split; [exact H1|]); (split; [exact H2|]).
  - apply entry_blocking; assumption.
  - apply blocking_entry; exact H3.
Qed.
Print Assumptions C03_can_proceed_partial.

Theorem C03_can_proceed_add_only_partial : forall h, forallb is_add h = true -> can_proceed_exact h.
Proof. intros h H. apply C03_can_proceed_partial, add_only_merges_blocking, H. Qed.
Print Assumptions C03_can_proceed_add_only_partial.

(** What holds of every history: exactly the entries described by
    [entry_blocks] block; blocking issues always do, unaffected paths never. *)
Theorem C03_can_proceed_actual : forall h ls,
  can_proceed (run h) ls = false <->
  exists l a, In l (asked ls) /\ ancestor a l /\ entry_blocks h a.
Proof. exact can_proceed_run. Qed.
Print Assumptions C03_can_proceed_actual.

Theorem C03_blocking_blocks : forall h ls l a,
  In l (asked ls) -> ancestor a l -> blocking h a = true -> can_proceed (run h) ls = false.
Proof.
  intros h ls l a H1 H2 H3. apply can_proceed_run. exists l, a; split; [exact H1|]; split; [exact H2|].
  apply blocking_entry; exact H3.
Qed.
Print Assumptions C03_blocking_blocks.

Theorem C03_clean_path_proceeds : forall h ls,
  (forall l a, In l (asked ls) -> ancestor a l -> recorded h a = []) -> can_proceed (run h) ls = true.
Proof.
  intros h ls H. apply not_false_iff_true. rewrite can_proceed_run. intros [l [a [H1 [H2 H3]]]].
  apply (entry_recorded _ _ H3). eapply H; eassumption.
Qed.
Print Assumptions C03_clean_path_proceeds.

Example C03_example_blocked :
  can_proceed (run ex_history) [[LStr ($"emails"); LIdx 1; LStr ($"value")]] = false
  /\ can_proceed (run ex_history) [[LStr ($"emails"); LIdx 0]] = true
  /\ can_proceed (run ex_history) [[LStr ($"userName")]] = true.
Proof. vm_compute. repeat split; reflexivity. Qed.
Example C03_example_hypothesis :
  merges_blocking [CAdd (err 15) true [LStr ($"a")];
                   CMerge [CAdd (err 2) false [LIdx 1]; CAdd (err 8) true [LIdx 1]] [LStr ($"b")]].
Proof.
  intros h1 c h2 H. destruct h1 as [|x [|y h1]]; [injection H as <- <-; exact I| |].
  - injection H as <- <- <-. intros l Hl.
    unfold recorded, blocking in *; cbn [flat_map existsb call_errors call_blocks] in *.
    destruct (loc_dec [LIdx 1] l); [reflexivity | contradiction].
  - injection H as _ _ H. destruct h1; discriminate.
Qed.

(** ** C04 *)

Theorem C04_get_exact : forall h p l,
  errs_at (get_issues (run h) p) l = recorded h (p ++ l).
Proof. intros h p l. rewrite errs_at_get. apply run_errors. Qed.
Print Assumptions C04_get_exact.

Theorem C04_get_has_issues : forall h p ls,
  has_issues (get_issues (run h) p) ls = true
  <-> exists l t, In l (asked ls) /\ recorded h (p ++ l ++ t) <> [].
Proof.
  intros h p ls. rewrite has_issues_spec. split; intros [l [t [H1 H2]]]; exists l, t; (split; [exact H1|]).
  - rewrite <- run_key. apply (aget_Some_key _ loc_eqb_eq) in H2 as [v Hv].
    apply (aget_Some_key _ loc_eqb_eq). exists v. rewrite <- Hv. symmetry.
    apply (lget_below p (i_errs (run h)) (l ++ t)).
  - rewrite <- run_key in H2. apply (aget_Some_key _ loc_eqb_eq) in H2 as [v Hv].
    apply (aget_Some_key _ loc_eqb_eq). exists v. rewrite <- Hv.
    apply (lget_below p (i_errs (run h)) (l ++ t)).
Qed.
Print Assumptions C04_get_has_issues.

Theorem C04_get_can_proceed : forall h p ls,
  can_proceed (get_issues (run h) p) ls = false
  <-> exists l a, In l (asked ls) /\ ancestor a l /\ entry_blocks h (p ++ a).
Proof.
  intros h p ls. rewrite can_proceed_spec. split; intros [l [a [H1 [H2 H3]]]]; exists l, a;
    (split; [exact H1|]); (split; [exact H2|]).
  - apply stops_run, stops_get; exact H3.
  - apply stops_run, stops_get in H3; exact H3.
Qed.
Print Assumptions C04_get_can_proceed.

(** The full second half: merging the extract back restores the sub-report. *)
Definition get_merge_restores (h : list call) (p : loc) : Prop :=
  exists i, merge_at no_issues (get_issues (run h) p) p = Ok i /\
    forall l, errs_at i l = match loc_strip p l with Some _ => recorded h l | None => [] end.

(** It fails: the extract of a report with a non-blocking issue cannot be merged. *)
Theorem C04_get_merge_refuted : exists h p,
  ~ get_merge_restores h p /\ merge_at no_issues (get_issues (run h) p) p = Raise KeyErr.
Proof.
  exists [CAdd (err 15) true [LStr ($"a")]], [LStr ($"a")]. split.
  - intros [i [H _]]. vm_compute in H. discriminate.
  - vm_compute. reflexivity.
Qed.
Print Assumptions C04_get_merge_refuted.

(** It holds exactly when every location below the prefix has a blocking entry. *)
Theorem C04_get_merge_partial : forall h p,
  get_merge_restores h p
  <-> (forall l, recorded h (p ++ l) <> [] -> entry_blocks h (p ++ l)).
Proof.
  intros h p. set (g := get_issues (run h) p).
  assert (Hkey : forall k, In k (map fst (i_errs g)) <-> recorded h (p ++ k) <> []).
  { intros k. rewrite <- run_key. unfold g, get_issues; cbn [i_errs].
    rewrite <- !(aget_Some_key _ loc_eqb_eq).
    pose proof (lget_below p (i_errs (run h)) k) as E. unfold lget in E. rewrite E. reflexivity. }
  split.
  - intros [i [Hi _]] l Hl. apply stops_run, stops_get. fold g.
    destruct (in_dec loc_dec l (map fst (i_stop g))) as [H|H]; [exact H|].
    fold g in Hi. unfold merge_at in Hi. rewrite (merge_get_raises no_issues g p (i_errs g) l) in Hi;
      [discriminate | reflexivity | reflexivity | apply Hkey; exact Hl | exact H].
  - intros H. eexists. split.
    + unfold merge_at. apply merge_get_ok; [reflexivity | reflexivity|].
      intros k Hk. apply stops_get, stops_run, H, Hkey. exact Hk.
    + intros l. fold g. rewrite errs_at_steps by (apply below_NoDup, run_wf). cbn [errs_at app].
      destruct (loc_strip p l) as [l'|] eqn:E; [|reflexivity].
      apply loc_strip_spec in E as ->. change (errs_at g l' = recorded h (p ++ l')). apply C04_get_exact.
Qed.
Print Assumptions C04_get_merge_partial.

Example C04_example :
  errs_at (get_issues (run ex_history) [LStr ($"emails")]) [LIdx 1] = [err 2; err 8; err 9]
  /\ merge_at no_issues (get_issues (run ex_history) [LStr ($"emails")]) [LStr ($"emails")]
     = Ok (mkIssues [([LStr ($"emails"); LIdx 1], [err 2; err 8; err 9])]
                    [([LStr ($"emails"); LIdx 1], [2%N; 9%N])] true).
Proof. vm_compute. split; reflexivity. Qed.

(** ** C05 *)

(** The full property. *)
Definition pop_exact (h : list call) (l : loc) (c : N) : Prop := forall l',
  errs_at (snd (pop_issues (run h) l c)) l'
  = if loc_dec l l' then filter (other_code c) (recorded h l) else recorded h l'.

(** It fails when two neighbouring issues carry the code: the second is skipped. *)
Theorem C05_pop_refuted : exists h l c, ~ pop_exact h l c.
Proof.
  exists [CAdd (err 15) false []; CAdd (err 15) false []], [], 15%N. intros H.
  specialize (H []). vm_compute in H. discriminate.
Qed.
Print Assumptions C05_pop_refuted.

Theorem C05_pop_partial : forall h l c, no_adjacent c (recorded h l) -> pop_exact h l c.
Proof.
  intros h l c Hna l'. rewrite pop_errs; [|apply run_wf|rewrite run_errors; exact Hna].
  rewrite !run_errors. reflexivity.
Qed.
Print Assumptions C05_pop_partial.

(** Blocking after pop: other locations keep their state; the code no longer
    blocks at the location, which blocks only if another code does. *)
Theorem C05_pop_blocking : forall h l c a,
  In c (map e_code (recorded h l)) ->
  (can_proceed (snd (pop_issues (run h) l c)) [a] = true <->
   forall b, ancestor b a -> (b <> l -> ~ entry_blocks h b)
                            /\ (b = l -> remove_code c (stop_at (run h) l) = []))
  /\ ~ In c (stop_at (snd (pop_issues (run h) l c)) l)
  /\ (forall d, d <> c -> (In d (stop_at (snd (pop_issues (run h) l c)) l) <-> In d (stop_at (run h) l))).
Proof.
  intros h l c a Hin. rewrite <- run_errors in Hin.
  destruct (pop_stop_same (run h) l c (run_wf_stop h) Hin) as [Hsame Hstops].
  split; [|split].
  - rewrite <- not_false_iff_true, can_proceed_spec. split.
    + intros H b Hb. split.
      * intros Hne Hbl. apply H. exists a, b; split; [left; reflexivity|]; split; [exact Hb|].
        apply (aget_Some_key _ loc_eqb_eq). apply stops_run, (aget_Some_key _ loc_eqb_eq) in Hbl as [v Hv].
        exists v. rewrite <- Hv. apply pop_stop_other. congruence.
      * intros ->. destruct (remove_code c (stop_at (run h) l)) as [|x xs] eqn:E; [reflexivity|].
        exfalso. apply H. exists a, l; split; [left; reflexivity|]; split; [exact Hb|].
        apply Hstops; discriminate.
    + intros H [a' [b [Ha [Hb Hst]]]]. destruct Ha as [<-|[]]. destruct (H b Hb) as [H1 H2].
      destruct (loc_dec b l) as [->|Hne].
      * apply Hstops in Hst. apply Hst, H2; reflexivity.
      * apply (H1 Hne). apply stops_run. apply (aget_Some_key _ loc_eqb_eq).
        apply (aget_Some_key _ loc_eqb_eq) in Hst as [v Hv]. exists v. rewrite <- Hv. symmetry.
        apply pop_stop_other. congruence.
  - rewrite Hsame. apply remove_code_not_in, stop_at_NoDup, run_wf_stop.
  - intros d Hd. rewrite Hsame. apply remove_code_other; exact Hd.
Qed.
Print Assumptions C05_pop_blocking.

(** Nothing recorded at the location: pop changes nothing and returns an empty report. *)
Theorem C05_pop_absent : forall h l c, recorded h l = [] -> pop_issues (run h) l c = (no_issues, run h).
Proof.
  intros h l c H. rewrite <- run_errors, errs_at_nil_iff in H by apply run_wf.
  apply (aget_None _ loc_eqb_eq) in H. unfold pop_issues, lget. rewrite H. reflexivity.
Qed.
Print Assumptions C05_pop_absent.

Example C05_example :
  snd (pop_issues (run ex_history) [LStr ($"emails"); LIdx 1] 9%N)
  = mkIssues [([LStr ($"userName")], [err 15]); ([LStr ($"emails"); LIdx 1], [err 2; err 8])]
             [([LStr ($"emails"); LIdx 1], [2%N])] true
  /\ no_adjacent 9%N (recorded ex_history [LStr ($"emails"); LIdx 1]).
Proof. split; [vm_compute; reflexivity|]. vm_compute. repeat split; intros [H1 H2]; discriminate. Qed.

(** ** C06 *)

(** Following a path of names in the serialised report lists exactly the codes
    recorded at the locations with these names. *)
Theorem C06_to_dict_exact : forall h l,
  (forall k, recorded h k <> [] -> names k = names l -> k = l) ->
  tree_errors (names l) (issues_to_dict (run h)) = map e_code (recorded h l).
Proof.
  intros h l Hinj. rewrite tree_errors_dict, errors_named_inj; [rewrite run_errors; reflexivity | apply run_wf|].
  intros k Hk. apply Hinj, run_key, Hk.
Qed.
Print Assumptions C06_to_dict_exact.

(** Without the assumption (an index and the same number as a name share a
    path): nothing is lost and nothing is invented. *)
Theorem C06_to_dict_complete : forall h path c,
  In c (tree_errors path (issues_to_dict (run h)))
  <-> exists l e, names l = path /\ In e (recorded h l) /\ e_code e = c.
Proof.
  intros h path c. rewrite tree_errors_dict, in_map_iff. split.
  - intros [e [He Hin]]. apply in_flat_map in Hin as [[k es] [Hk Hin]]. cbn [fst snd] in Hin.
    destruct (path_dec (names k) path) as [Hp|]; [|contradiction].
    exists k, e; split; [exact Hp|]; split; [|exact He]. rewrite <- run_errors. unfold errs_at, lget.
    rewrite (aget_NoDup _ loc_eqb_eq k es); [exact Hin | apply run_wf | exact Hk].
  - intros [l [e [Hp [Hin He]]]]. exists e; split; [exact He|]. rewrite <- run_errors in Hin.
    unfold errs_at, lget in Hin. destruct (aget loc_eqb l (i_errs (run h))) as [es|] eqn:E; [|contradiction].
    apply (aget_In _ loc_eqb_eq) in E. apply in_flat_map. exists (l, es); split; [exact E|]. cbn [fst snd].
    destruct (path_dec (names l) path); [exact Hin | contradiction].
Qed.
Print Assumptions C06_to_dict_complete.

Example C06_example :
  tree_errors [$"emails"; $"1"] (issues_to_dict (run ex_history)) = [2%N; 8%N; 9%N].
Proof. vm_compute. reflexivity. Qed.
Example C06_hypothesis : forall k,
  recorded ex_history k <> [] -> names k = names [LStr ($"emails"); LIdx 1] -> k = [LStr ($"emails"); LIdx 1].
Proof.
  intros k Hk Hn. unfold ex_history, recorded in Hk. cbn [flat_map] in Hk. rewrite call_errors_merge in Hk.
  cbn [call_errors] in Hk.
  destruct (loc_dec [LStr ($"userName")] k) as [<-|]; [vm_compute in Hn; discriminate|].
  destruct (loc_dec [LStr ($"emails"); LIdx 1] k) as [<-|Hne]; [reflexivity|].
  destruct (loc_strip [LStr ($"emails")] k) as [k'|] eqn:E.
  - apply loc_strip_spec in E as ->. unfold recorded in Hk; cbn [flat_map call_errors] in Hk.
    destruct (loc_dec [LIdx 1] k') as [<-|]; [reflexivity | cbn in Hk; contradiction].
  - cbn in Hk; contradiction.
Qed.
