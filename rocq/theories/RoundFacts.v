(** Lemmas about processing accepted values again. *)
From Verif Require Import PyBase BaseFacts PyNum Issues IssuesSpec IssuesFacts AttrRep AttrRepSpec AttrRepFacts Value ValueFacts
  Container ContainerSpec ContainerFacts ContainerRW Types TypesSpec Attr AttrSpec AttrFacts AttrItems PropAttr PatchFacts RequestFacts RoundSpec.

Lemma silent_none : silent no_issues.
Proof. intros l. reflexivity. Qed.
Lemma silent_has i : report i -> (silent i <-> has_issues i [] = false).
Proof.
  intros R. split.
  - intros H. destruct (has_issues i []) eqn:E; [|reflexivity]. apply (has_issues_iff _ R) in E as [l E]. exfalso. exact (E (H l)).
  - intros H l. exact (no_has_issues _ R H l).
Qed.
Lemma silent_proceeds i : report i -> silent i -> can_proceed i [] = true.
Proof.
  intros R H. destruct (can_proceed i []) eqn:E; [reflexivity|]. exfalso. apply can_proceed_spec in E as [l [a [_ [_ H3]]]]. exact (report_stops i R a H3 (H a)).
Qed.
Lemma silent_merge i j : report i -> report j -> (silent (merge i j []) <-> silent i /\ silent j).
Proof.
  intros Ri Rj. unfold silent. split.
  - intros H. split; intros l; specialize (H l); rewrite errs_merge in H by assumption; cbn [loc_strip] in H; apply app_eq_nil in H; apply H.
  - intros [H1 H2] l. rewrite errs_merge by assumption. cbn [loc_strip]. rewrite H1, H2. reflexivity.
Qed.

(** ** Processors *)

(** Every processor lets the value through. *)
Definition let_through (ps : list proc) (w : value) : Prop := Forall (fun p => exists j, (p : proc) w = Ok (w, j) /\ silent j) ps.

Lemma procs_inv ps : Forall judge ps -> forall v iss w iss', report iss -> run_procs ps v iss = Ok (w, iss') -> silent iss' -> silent iss /\ w = v /\ let_through ps v.
Proof.
  unfold run_procs, let_through. induction 1 as [|p t [Hp1 Hp2] Ht IH]; intros v iss w iss' R H Q; cbn [foldM] in H; [injection H as <- <-; split; [exact Q|]; split; [reflexivity | constructor]|].
  apply bind_ok in H as [[v1 i1] [Ha H]]. apply bind_ok in Ha as [[v2 j] [Hp Ha]]. cbn [fst snd] in *. injection Ha as <- <-. pose proof (Hp1 _ _ _ Hp) as Rj.
  destruct (IH _ _ _ _ (report_merge _ _ [] R Rj) H Q) as [Qm [-> F]]. apply silent_merge in Qm as [Qi Qj]; [|exact R|exact Rj]. pose proof (Hp2 _ _ _ Hp Qj) as ->.
  split; [exact Qi|]. split; [reflexivity|]. constructor; [exists j; split; assumption | exact F].
Qed.
Lemma procs_run ps : Forall judge ps -> forall v iss, report iss -> silent iss -> let_through ps v -> exists iss', run_procs ps v iss = Ok (v, iss') /\ silent iss'.
Proof.
  unfold run_procs, let_through. induction 1 as [|p t [Hp1 Hp2] Ht IH]; intros v iss R Q F; [exists iss; split; [reflexivity | exact Q]|].
  inversion F as [|? ? [j [E Qj]] Ft]; subst. cbn [foldM]. cbn [fst snd]. rewrite E. cbn [bind fst snd]. pose proof (Hp1 _ _ _ E) as Rj.
  apply IH; [apply report_merge; assumption | apply silent_merge; [exact R | exact Rj | split; assumption] | exact Ft].
Qed.

(** The check for a single primary item does not change lists. *)
Definition only_primary (cps : list proc) : Prop := cps = [] \/ cps = [single_primary].
Lemma primary_inv cps l iss w iss' : only_primary cps -> report iss -> run_procs cps (VList l) iss = Ok (w, iss') -> silent iss' -> silent iss /\ w = VList l /\ let_through cps w.
Proof.
  intros [->| ->] R H Q; unfold run_procs in H; cbn [foldM] in H; [injection H as <- <-; split; [exact Q|]; split; [reflexivity | constructor]|].
  apply bind_ok in H as [[v1 i1] [Ha H]]. apply bind_ok in Ha as [[v2 j] [Hp Ha]]. cbn [fst snd] in *. injection Ha as <- <-. injection H as <- <-. pose proof (single_primary_reporting _ _ _ Hp) as Rj.
  apply silent_merge in Q as [Qi Qj]; [|exact R|exact Rj]. split; [exact Qi|]. assert (E : v2 = VList l). { unfold single_primary in Hp. cbn [iter_value bind] in Hp. apply bind_ok in Hp as [ps [_ Hp]]. injection Hp as <- _. reflexivity. }
  subst v2. split; [reflexivity|]. constructor; [exists j; split; assumption | constructor].
Qed.
Lemma primary_run cps v iss : only_primary cps -> report iss -> silent iss -> let_through cps v -> exists iss', run_procs cps v iss = Ok (v, iss') /\ silent iss'.
Proof.
  intros [->| ->] R Q F; unfold run_procs; cbn [foldM fst snd]; [exists iss; split; [reflexivity | exact Q]|].
  inversion F as [|? ? [j [E Qj]] Ft]; subst. rewrite E. cbn [bind]. eexists. split; [reflexivity|]. apply silent_merge; [exact R | exact (single_primary_reporting _ _ _ E) | split; assumption].
Qed.

Section Env.
  Context {env : PyEnv}.

  (** The attribute lets the value through without any issue. *)
  Definition runs (m : method) (a : attribute) (v w : value) : Prop := exists iss, process a m v = Ok (w, iss) /\ silent iss.

  Lemma steady_sound a : steady a -> sound_attr a.
  Proof.
    induction a as [i|i subs cps cds IH] using attr_ind2; intros H; inversion H as [? J D T Dt|? ? ? T P D C Cp Pl N S]; subst.
    - assert (R : Forall reporting (a_parsers i)). { revert J. apply Forall_impl. intros p [X _]. exact X. }
      constructor; [exact R|]. rewrite D. exact R.
    - assert (R : Forall reporting cds). { destruct Cp as [->|[_ ->]]; repeat constructor. apply single_primary_reporting. }
      constructor; [exact T | rewrite P; constructor | rewrite D; constructor | exact R | exact R | exact Pl |].
      rewrite Forall_forall in IH, S |- *. intros s I. exact (IH s I (S s I)).
  Qed.

  (** ** Simple values *)

  Definition accepts (m : method) (i : ainfo) (x y : value) : Prop :=
    type_proc m (a_type i) x = Ok (pass y) /\ (is_canonical i y = true \/ a_validate i = false).

  Lemma one_accepts m i x y : (exists iss, one m i x = Ok (y, iss) /\ silent iss) <-> accepts m i x y.
  Proof.
    unfold one, accepts. split.
    - intros [iss [H Q]]. apply bind_ok in H as [[x' js] [Ht H]]. injection H as H. pose proof (f_equal fst H) as E1. pose proof (f_equal snd H) as E2. cbn [fst snd] in E1, E2. rewrite canon_fst in E1.
      subst iss. assert (A : forall l, errs_at (merge no_issues js []) l = [] /\ (is_canonical i x' = true \/ a_validate i = false)).
      { intros l. pose proof (Q l) as Ql. rewrite canon_errs in Ql. apply app_eq_nil in Ql as [Q1 _]. split; [exact Q1|]. pose proof (Q []) as Qr. rewrite canon_errs in Qr. apply app_eq_nil in Qr as [_ Qr].
        destruct (is_canonical i x'); [left; reflexivity|]. destruct (a_validate i); [|right; reflexivity]. cbn in Qr. discriminate Qr. }
      destruct (A []) as [_ C].
      assert (Ey : y = x'). { destruct C as [C|C]; rewrite C in E1; [congruence|]. destruct (is_canonical i x'); congruence. } clear E1. subst y.
      split; [|exact C]. destruct (type_cases _ _ _ _ Ht) as [[e X]|[[w [X _]]|[_ X]]].
      + exfalso. pose proof (f_equal snd X) as X2. cbn [snd fail] in X2. subst js. destruct (A []) as [X3 _]. cbn in X3. discriminate X3.
      + rewrite Ht, X. pose proof (f_equal fst X) as X1. cbn [fst pass] in X1. subst w. reflexivity.
      + rewrite Ht, X. pose proof (f_equal fst X) as X1. cbn [fst pass] in X1. subst x. reflexivity.
    - intros [-> C]. cbn [bind pass]. exists no_issues. split; [|exact silent_none]. rewrite merge_none_nil. unfold canon_step. destruct C as [-> | ->]; [reflexivity|]. destruct (is_canonical i y); reflexivity.
  Qed.

  Lemma items_accept m i xs ys : (exists iss, foldM (item_step m i) (enumerate xs) ([], no_issues) = Ok (ys, iss) /\ silent iss) <-> Forall2 (accepts m i) xs ys.
  Proof.
    pose proof (items_closed m i xs 0 [] no_issues report_empty) as Hc. unfold enumerate. split.
    - intros [iss [H Q]]. destruct (mapM (one m i) xs) as [outs|e] eqn:M; [|rewrite Hc in H; discriminate H]. destruct Hc as [iss' [H1 [_ H3]]]. rewrite H1 in H. cbn [app] in H. injection H as <- <-.
      apply mapM_ok in M. assert (A : forall k o, nth_error outs k = Some o -> silent (snd o)).
      { intros k o N l. pose proof (Q (LIdx k :: l)) as Ql. rewrite H3, errs_at_none in Ql. cbn [app] in Ql. pose proof (items_errs_nth 0 outs k l) as X. cbn [Nat.add] in X. rewrite X, N in Ql. exact Ql. }
      clear -M A. induction M as [|x o t outs Hx M IH]; cbn [map]; constructor.
      + apply one_accepts. exists (snd o). split; [rewrite Hx; destruct o; reflexivity | exact (A 0 o eq_refl)].
      + apply IH. intros k o' N. exact (A (S k) o' N).
    - intros F. assert (M : mapM (one m i) xs = Ok (map (fun y => (y, no_issues)) ys)).
      { clear Hc. apply mapM_ok. induction F as [|x y t ys [Ht C] F IH]; cbn [map]; constructor; [|exact IH].
        + unfold one. rewrite Ht. cbn [bind pass]. rewrite merge_none_nil. unfold canon_step. destruct C as [-> | ->]; [reflexivity|]. destruct (is_canonical i y); reflexivity. }
      rewrite M in Hc. destruct Hc as [iss' [H1 [_ H3]]]. exists iss'. split.
      + rewrite H1. cbn [app]. rewrite map_map. cbn [fst]. rewrite map_id. reflexivity.
      + intros l. rewrite H3, errs_at_none. cbn [app]. clear. generalize 0. induction ys as [|y t IH]; intros k; [reflexivity|]. cbn [map items_errs snd]. rewrite IH. destruct (loc_strip [LIdx k] l); reflexivity.
  Qed.

  Inductive simple_runs (m : method) (i : ainfo) : value -> value -> Prop :=
  | sr_none : simple_runs m i VNone VNone
  | sr_one v w : a_multi i = false -> v <> VNone -> accepts m i v w -> let_through (procs_of m i) w -> simple_runs m i v w
  | sr_many xs ys : a_multi i = true -> Forall2 (accepts m i) xs ys -> let_through (procs_of m i) (VList ys) -> simple_runs m i (VList xs) (VList ys).

  Lemma base_runs m i v w : Forall judge (procs_of m i) -> ((exists iss, base_process m i v = Ok (w, iss) /\ silent iss) <-> simple_runs m i v w).
  Proof.
    intros J. rewrite base_process_eq. split.
    - intros [iss [H Q]].
      assert (G : v <> VNone -> (if a_multi i && negb (is_list v) then Ok (fail (e_bad_type ($"list") (scim_type_of v)))
           else let! (parsed, iss) := base_core m i v in
                if has_issues iss [] then Ok (parsed, iss) else run_procs (procs_of m i) parsed iss) = Ok (w, iss) -> simple_runs m i v w).
      { clear H. intros Hv H. destruct (a_multi i && negb (is_list v)) eqn:B. { pose proof (f_equal (fun r => match r with Ok o => snd o | _ => no_issues end) H) as X. cbn [fail snd] in X. subst iss. pose proof (Q []) as Q0. cbn in Q0. discriminate Q0. }
        apply bind_ok in H as [[p js] [Hb H]]. pose proof (base_core_report _ _ _ _ _ Hb) as R.
        assert (E : has_issues js [] = false). { destruct (has_issues js []) eqn:E; [|reflexivity]. injection H as _ <-. apply (silent_has _ R) in Q. congruence. } rewrite E in H.
        destruct (procs_inv _ J _ _ _ _ R H Q) as [Qj [-> L]]. unfold base_core in Hb. destruct (a_multi i) eqn:Mu.
        - destruct v; try discriminate B. apply bind_ok in Hb as [[items js'] [Hf Hb]]. injection Hb as <- <-. apply sr_many; [exact Mu | | exact L]. apply items_accept. exists js'. split; assumption.
        - apply sr_one; [exact Mu | exact Hv | | exact L]. apply one_accepts. exists js. split; assumption. }
      destruct v; try (apply G; [discriminate | exact H]). injection H as <- _. constructor.
    - intros H. inversion H as [|v0 w0 Mu Hv A L|xs ys Mu A L]; subst.
      + exists no_issues. split; [reflexivity | exact silent_none].
      + apply one_accepts in A as [js [A Qj]]. assert (Hb : base_core m i v = Ok (w, js)). { unfold base_core. rewrite Mu. exact A. }
        pose proof (base_core_report _ _ _ _ _ Hb) as R. destruct (procs_run _ J w js R Qj L) as [iss [H1 H2]]. exists iss. split; [|exact H2].
        rewrite Mu. cbn [andb]. rewrite Hb. cbn [bind]. rewrite (proj1 (silent_has _ R) Qj), H1. destruct v; try reflexivity. congruence.
      + apply items_accept in A as [js [A Qj]]. assert (Hb : base_core m i (VList xs) = Ok (VList ys, js)). { unfold base_core. rewrite Mu, A. reflexivity. }
        pose proof (base_core_report _ _ _ _ _ Hb) as R. destruct (procs_run _ J _ js R Qj L) as [iss [H1 H2]]. exists iss. split; [|exact H2].
        rewrite Mu. cbn [andb is_list negb]. rewrite Hb. cbn [bind]. rewrite (proj1 (silent_has _ R) Qj), H1. reflexivity.
  Qed.

  (** ** Complex values *)

  (** What a container holds of some attributes. *)
  Inductive mirrors (y : value) : list attribute -> list (attribute * value) -> Prop :=
  | mi_nil : mirrors y [] []
  | mi_skip s t vs : get_item y (arep s) = Ok VMissing -> mirrors y t vs -> mirrors y (s :: t) vs
  | mi_take s t x vs : get_item y (arep s) = Ok x -> x <> VMissing -> mirrors y t vs -> mirrors y (s :: t) ((s, x) :: vs).
  Definition each (Q : attribute -> value -> value -> Prop) : list (attribute * value) -> list (attribute * value) -> Prop :=
    Forall2 (fun e e' => fst e = fst e' /\ Q (fst e) (snd e) (snd e')).
  Definition takes (m : method) (c : value) (subs : list attribute) (vs : list (attribute * value)) : Prop :=
    exists xs, mirrors c subs xs /\ each (runs m) xs vs.
  Definition named (vs : list (attribute * value)) : list (str * value) := map (fun e => (r_attr (arep (fst e)), snd e)) vs.
  Definition box (vs : list (attribute * value)) : value :=
    VCont (named vs) (map (fun e => (lower (r_attr (arep (fst e))), r_attr (arep (fst e)))) vs).

  Lemma gather_inv m c subs : forall outs, gather m c subs = Ok outs -> Forall (fun e => silent (snd (snd e))) outs ->
    exists vs, takes m c subs vs /\ map (fun e => (fst e, fst (snd e))) outs = named vs.
  Proof.
    induction subs as [|s t IH]; intros outs H F; cbn [gather] in H.
    - injection H as <-. exists []. split; [exists []; split; constructor | reflexivity].
    - apply bind_ok in H as [x [Hx H]].
      assert (G : x <> VMissing -> (let! o := process s m x in let! rest := gather m c t in Ok ((r_attr (arep s), o) :: rest)) = Ok outs ->
        exists vs, takes m c (s :: t) vs /\ map (fun e => (fst e, fst (snd e))) outs = named vs).
      { clear H. intros Nx H. apply bind_ok in H as [[w iss] [Hp H]]. apply bind_ok in H as [rest [Hr H]]. injection H as <-. inversion F as [|? ? Q Fr]; subst. cbn [snd] in Q.
        destruct (IH _ Hr Fr) as [vs [[xs [M E]] N]]. exists ((s, w) :: vs). split.
        - exists ((s, x) :: xs). split; [apply mi_take; assumption|]. constructor; [|exact E]. cbn [fst snd]. split; [reflexivity|]. exists iss. split; assumption.
        - cbn [map named fst snd]. f_equal. exact N. }
      destruct x; try (apply G; [discriminate | exact H]). destruct (IH _ H F) as [vs [[xs [M E]] N]]. exists vs. split; [|exact N]. exists xs. split; [|exact E]. apply mi_skip; assumption.
  Qed.
  Lemma gather_run m c subs vs : takes m c subs vs -> exists outs, gather m c subs = Ok outs /\ Forall (fun e => silent (snd (snd e))) outs
    /\ map (fun e => (fst e, fst (snd e))) outs = named vs.
  Proof.
    intros [xs [M E]]. revert vs E. induction M as [|s t xs Hx M IH|s t x xs Hx Nx M IH]; intros vs E.
    - inversion E; subst. exists []. repeat split. constructor.
    - destruct (IH _ E) as [outs [H1 [H2 H3]]]. exists outs. cbn [gather]. rewrite Hx. split; [exact H1|]. split; assumption.
    - inversion E as [|? [s' w] ? vs' [E1 [iss [Hp Q]]] E2]; subst. cbn [fst snd] in *. subst s'. destruct (IH _ E2) as [outs [H1 [H2 H3]]].
      exists ((r_attr (arep s), (w, iss)) :: outs). cbn [gather]. rewrite Hx. cbn [bind]. split.
      + rewrite Hp, H1. cbn [bind]. destruct x; try reflexivity. congruence.
      + split; [constructor; assumption|]. cbn [map named fst snd]. f_equal. exact H3.
  Qed.

  Lemma put_box outs vs : NoDup (map (fun e => lower (fst e)) outs) -> map (fun e => (fst e, fst (snd e))) outs = named vs -> put_all outs empty_cont = box vs.
  Proof.
    intros N E. unfold empty_cont. rewrite put_all_closed; [|exact N | intros k []]. cbn [app]. unfold box. rewrite <- E. f_equal.
    pose proof (f_equal (map (fun e : str * value => (lower (fst e), fst e))) E) as E'. unfold named in E'. rewrite !map_map in E'. cbn [fst] in E'. exact E'.
  Qed.

  Lemma subs_silent outs : (forall l, subs_errs outs l = []) <-> Forall (fun e => silent (snd (snd e))) outs.
  Proof.
    induction outs as [|[n o] t IH]; cbn [subs_errs]; [split; [constructor | reflexivity]|]. split.
    - intros H. assert (Ht : forall l, subs_errs t l = []). { intros l. specialize (H l). apply app_eq_nil in H. apply H. }
      constructor; [|apply IH, Ht]. intros l. specialize (H (LStr n :: l)). rewrite Ht, app_nil_r in H. pose proof (loc_strip_app [LStr n] l) as X. cbn [app] in X. rewrite X in H. exact H.
    - intros H. inversion H as [|? ? Q F]; subst. cbn [snd] in Q. intros l. rewrite (proj2 IH F l), app_nil_r. destruct (loc_strip [LStr n] l); [apply Q | reflexivity].
  Qed.

  Definition item_runs (m : method) (subs : list attribute) (x y : value) : Prop := is_cont x = true /\ exists vs, takes m x subs vs /\ y = box vs.

  Inductive complex_runs (m : method) (i : ainfo) (subs : list attribute) (cps : list proc) : value -> value -> Prop :=
  | cr_none : complex_runs m i subs cps VNone VNone
  | cr_one v w : a_multi i = false -> item_runs m subs v w -> complex_runs m i subs cps v w
  | cr_many xs ys : a_multi i = true -> Forall2 (item_runs m subs) xs ys -> let_through cps (VList ys) -> complex_runs m i subs cps (VList xs) (VList ys).

  Lemma cont_same x : is_cont x = true -> mk_cont x = x.
  Proof. destruct x; try discriminate. reflexivity. Qed.

  Lemma complex_accepts m i x y : a_type i = TComplex -> a_canon i = None -> (accepts m i x y <-> is_cont x = true /\ y = x).
  Proof.
    intros T C. unfold accepts. rewrite T. cbn [type_proc]. unfold type_check. split.
    - intros [H _]. destruct (is_cont x); [|exfalso; pose proof (f_equal (fun r => match r with Ok o => snd o | _ => no_issues end) H) as X; discriminate X].
      split; [reflexivity|]. pose proof (f_equal (fun r => match r with Ok o => fst o | _ => VNone end) H) as X. symmetry. exact X.
    - intros [E ->]. rewrite E. split; [reflexivity|]. left. unfold is_canonical. rewrite C. destruct x; reflexivity.
  Qed.

  Lemma walk_runs m subs x y prefix iss0 : Forall (fun s => plain_rep (arep s)) subs -> distinct_names subs -> Forall sound_attr subs -> report iss0 -> silent iss0 -> is_cont x = true ->
    ((exists iss, walk m x prefix subs empty_cont iss0 = Ok (y, iss) /\ silent iss) <-> exists vs, takes m x subs vs /\ y = box vs).
  Proof.
    intros Pl N S R0 Q0 Hx. rewrite walk_closed by (exact Pl || reflexivity).
    assert (GR : forall outs, gather m x subs = Ok outs -> Forall (fun e => report (snd (snd e))) outs).
    { apply gather_report. rewrite Forall_forall in S |- *. intros s I v w iss. apply process_report, S, I. }
    split.
    - intros [iss [H Q]]. apply bind_ok in H as [outs [Hg H]]. injection H as <- <-. destruct (merge_all_errs prefix outs (GR _ Hg) iss0 R0) as [_ E].
      assert (F : Forall (fun e => silent (snd (snd e))) outs). { apply subs_silent. intros l. specialize (Q (prefix ++ l)). rewrite E, loc_strip_app in Q. apply app_eq_nil in Q. apply Q. }
      destruct (gather_inv _ _ _ _ Hg F) as [vs [T M]]. exists vs. split; [exact T|]. apply put_box; [|exact M]. apply (gather_names _ _ _ N _ Hg).
    - intros [vs [T ->]]. destruct (gather_run _ _ _ _ T) as [outs [Hg [F M]]]. rewrite Hg. cbn [bind]. rewrite (put_box outs vs); [|apply (gather_names _ _ _ N _ Hg) | exact M].
      eexists. split; [reflexivity|]. destruct (merge_all_errs prefix outs (GR _ Hg) iss0 R0) as [_ E]. intros l. rewrite E, Q0. destruct (loc_strip prefix l); [|reflexivity]. apply subs_silent, F.
  Qed.

  Lemma process_runs m i subs cps v w : steady (MkAttr i (Some (subs, cps, cps))) -> (runs m (MkAttr i (Some (subs, cps, cps))) v w <-> complex_runs m i subs cps v w).
  Proof.
    intros St. pose proof (steady_sound _ St) as Sa. inversion St as [|? ? ? T P D C Cp Pl N S]; subst.
    assert (Pr : procs_of m i = []) by (destruct m; assumption). assert (J : Forall judge (procs_of m i)) by (rewrite Pr; constructor).
    assert (SS : Forall sound_attr subs) by (inversion Sa; assumption).
    destruct (a_multi i) eqn:Mu.
    - assert (Op : only_primary cps) by (destruct Cp as [->|[_ ->]]; [left | right]; reflexivity).
      assert (It : itemwise m (MkAttr i (Some (subs, cps, cps)))).
      { split; [exact Mu|]. split; [destruct m; assumption|]. destruct m; exact Op. }
      assert (OI : forall x o, one_item m (MkAttr i (Some (subs, cps, cps))) x = Ok o -> silent (snd o) -> item_runs m subs x (fst o)).
      { intros x o H Q. cbn [one_item] in H. apply bind_ok in H as [[y js] [Ho H]]. apply bind_ok in H as [outs [Hg H]]. injection H as <-. cbn [fst snd] in *. pose proof (one_report _ _ _ _ _ Ho) as Rj.
        assert (GR : Forall (fun e => report (snd (snd e))) outs). { revert Hg. apply gather_report. rewrite Forall_forall in SS |- *. intros s I v' w' iss. apply process_report, SS, I. }
        destruct (merge_all_errs [] outs GR js Rj) as [_ E]. assert (Qj : silent js). { intros l. specialize (Q l). rewrite E in Q. apply app_eq_nil in Q. apply Q. }
        assert (A : accepts m i x y) by (apply one_accepts; exists js; split; assumption). apply (complex_accepts _ _ _ _ T C) in A as [Ic ->]. split; [exact Ic|]. rewrite (cont_same _ Ic) in Hg.
        assert (F : Forall (fun e => silent (snd (snd e))) outs). { apply subs_silent. intros l. specialize (Q l). rewrite E in Q. cbn [loc_strip] in Q. apply app_eq_nil in Q. apply Q. }
        destruct (gather_inv _ _ _ _ Hg F) as [vs [Tk M]]. exists vs. split; [exact Tk|]. apply put_box; [|exact M]. apply (gather_names _ _ _ N _ Hg). }
      assert (OB : forall x y, item_runs m subs x y -> exists o, one_item m (MkAttr i (Some (subs, cps, cps))) x = Ok o /\ fst o = y /\ silent (snd o)).
      { intros x y [Ic [vs [Tk ->]]]. destruct (gather_run _ _ _ _ Tk) as [outs [Hg [F M]]]. destruct (proj2 (one_accepts m i x x) (proj2 (complex_accepts m i x x T C) (conj Ic eq_refl))) as [js [Ho Qj]].
        cbn [one_item]. rewrite Ho. cbn [bind]. rewrite (cont_same _ Ic), Hg. cbn [bind]. eexists. split; [reflexivity|]. cbn [fst snd]. split; [apply put_box; [|exact M]; apply (gather_names _ _ _ N _ Hg)|].
        assert (GR : Forall (fun e => report (snd (snd e))) outs). { revert Hg. apply gather_report. rewrite Forall_forall in SS |- *. intros s I v' w' iss. apply process_report, SS, I. }
        destruct (merge_all_errs [] outs GR js (one_report _ _ _ _ _ Ho)) as [_ E]. intros l. rewrite E, Qj. apply subs_silent, F. }
      split.
      + intros [iss [H Q]]. destruct (match v with VNone => true | _ => false end) eqn:Ev.
        { destruct v; try discriminate Ev. rewrite process_complex, base_process_eq in H. cbn [bind orb] in H. rewrite Bool.orb_true_r in H. injection H as <- _. constructor. }
        destruct (is_list v) eqn:Il.
        * destruct v as [| | | | | | | | xs | | | | | | | | ]; try discriminate Il. rewrite (process_multi _ _ _ It) in H. apply bind_ok in H as [[ys js] [Hb H]].
          destruct (proj1 (before_procs_spec m _ xs Sa) _ _ Hb) as [outs [M [-> [Rj [Ro Ej]]]]].
          assert (E : has_issues js [] = false). { destruct (has_issues js []) eqn:E; [|reflexivity]. injection H as _ <-. apply (silent_has _ Rj) in Q. congruence. } rewrite E in H.
          replace (final_procs m (MkAttr i (Some (subs, cps, cps)))) with cps in H by (destruct m; reflexivity).
          destruct (primary_inv _ _ _ _ _ Op Rj H Q) as [Qj [-> L]]. apply cr_many; [exact Mu | | exact L].
          apply mapM_ok in M. assert (A : forall k o, nth_error outs k = Some o -> silent (snd o)).
          { intros k o Nk l. pose proof (Qj (LIdx k :: l)) as Ql. rewrite Ej in Ql. pose proof (items_errs_nth 0 outs k l) as X. cbn [Nat.add] in X. rewrite X, Nk in Ql. exact Ql. }
          clear -M A OI. induction M as [|x o t outs Hx M IH]; cbn [map]; constructor; [apply OI; [exact Hx | exact (A 0 o eq_refl)]|]. apply IH. intros k o' Nk. exact (A (S k) o' Nk).
        * exfalso. rewrite process_complex, base_process_eq, Mu, Il in H. cbn [andb negb] in H.
          destruct v; try discriminate Ev; try discriminate Il; cbn [bind fail] in H;
            (match type of H with context [can_proceed ?j ?l] => set (cp := can_proceed j l) in H; assert (X : cp = false) by reflexivity; rewrite X in H; clear X cp end); cbn [orb negb] in H;
            injection H as _ <-; specialize (Q []); cbn in Q; discriminate Q.
      + intros H. inversion H as [|? ? Mf _|xs ys _ F L]; subst; [| congruence |].
        * exists no_issues. split; [|exact silent_none]. rewrite process_complex, base_process_eq. cbn [bind]. rewrite Bool.orb_true_r. reflexivity.
        * assert (M : exists outs, mapM (one_item m (MkAttr i (Some (subs, cps, cps)))) xs = Ok outs /\ ys = map fst outs /\ Forall (fun o => silent (snd o)) outs).
          { clear -F OB. induction F as [|x y xs ys Hx F [outs [M [-> Q]]]]; [exists []; repeat split; constructor|]. destruct (OB _ _ Hx) as [o [Ho [<- Qo]]]. exists (o :: outs).
            cbn [mapM]. rewrite Ho. cbn [bind]. rewrite M. cbn [bind map]. repeat split. constructor; assumption. }
          destruct M as [outs [M [-> Qo]]]. destruct (proj2 (before_procs_spec m _ xs Sa) outs M) as [[ys js] Hb]. destruct (proj1 (before_procs_spec m _ xs Sa) _ _ Hb) as [outs' [M' [-> [Rj [_ Ej]]]]].
          rewrite M in M'. injection M' as <-. assert (Qj : silent js).
          { intros l. rewrite Ej. clear -Qo. generalize 0. induction Qo as [|o t Q F IH]; intros k; [reflexivity|]. cbn [items_errs]. rewrite IH, app_nil_r. destruct (loc_strip [LIdx k] l); [apply Q | reflexivity]. }
          destruct (primary_run cps (VList (map fst outs)) js Op Rj Qj L) as [iss [Hr Hq]]. exists iss. split; [|exact Hq]. rewrite (process_multi _ _ _ It), Hb. cbn [bind].
          rewrite (proj1 (silent_has _ Rj) Qj). replace (final_procs m (MkAttr i (Some (subs, cps, cps)))) with cps by (destruct m; reflexivity). exact Hr.
    - assert (cps = []) as -> by (destruct Cp as [->|[X _]]; [reflexivity | congruence]).
      split.
      + intros [iss [H Q]]. rewrite process_complex in H. apply bind_ok in H as [[v' js] [Hb H]]. 
        assert (Rj : report js) by (eapply base_report; [rewrite P; constructor | rewrite D; constructor | exact Hb]).
        destruct (match v with VNone => true | _ => false end) eqn:Ev.
        { destruct v; try discriminate Ev. rewrite base_process_eq in Hb. injection Hb as <- <-. rewrite Bool.orb_true_r in H. injection H as <- _. constructor. }
        assert (Qj : silent js).
        { destruct (negb (can_proceed js []) || match v' with VNone => true | _ => false end); [injection H as _ <-; exact Q|]. apply bind_ok in H as [[p js'] [Hc H]].
          assert (js' = iss) as ->. { destruct (has_issues js' []); [injection H as _ <-; reflexivity|]. destruct m; injection H as _ <-; reflexivity. }
          unfold complex_part in Hc. rewrite Mu, walk_closed in Hc by (exact Pl || reflexivity). apply bind_ok in Hc as [outs [Hg Hc]]. injection Hc as _ <-.
          assert (GR : Forall (fun e => report (snd (snd e))) outs). { revert Hg. apply gather_report. rewrite Forall_forall in SS |- *. intros s I v1 w1 iss. apply process_report, SS, I. }
          destruct (merge_all_errs [] outs GR js Rj) as [_ E]. intros l. specialize (Q l). rewrite E in Q. apply app_eq_nil in Q. apply Q. }
        assert (B : simple_runs m i v v') by (apply base_runs; [exact J | exists js; split; assumption]).
        inversion B as [|? ? _ Hv A _|? ? Mt _ _]; subst; [discriminate Ev | | congruence]. apply (complex_accepts _ _ _ _ T C) in A as [Ic ->].
        rewrite (silent_proceeds _ Rj Qj) in H. replace (negb true || match v with VNone => true | _ => false end) with false in H by (destruct v; try discriminate Ic; reflexivity).
        apply bind_ok in H as [[p js'] [Hc H]]. assert ((p, js') = (w, iss)) as X. { destruct (has_issues js' []); [injection H as <- <-; reflexivity|]. destruct m; injection H as <- <-; reflexivity. } injection X as -> ->.
        unfold complex_part in Hc. rewrite Mu, (cont_same _ Ic) in Hc. apply cr_one; [exact Mu|]. split; [exact Ic|]. apply (walk_runs m subs v w [] js); try assumption. exists iss. split; assumption.
      + intros H. inversion H as [|? ? _ [Ic Tk]|? ? Mt _ _]; subst; [| | congruence].
        * exists no_issues. split; [|exact silent_none]. rewrite process_complex, base_process_eq. cbn [bind]. rewrite Bool.orb_true_r. reflexivity.
        * assert (B : simple_runs m i v v). { apply sr_one; [exact Mu | destruct v; discriminate | apply complex_accepts; auto | rewrite Pr; constructor]. }
          apply (base_runs _ _ _ _ J) in B as [js [Hb Qj]]. assert (Rj : report js) by (eapply base_report; [rewrite P; constructor | rewrite D; constructor | exact Hb]).
          destruct (proj2 (walk_runs m subs v w [] js Pl N SS Rj Qj Ic) Tk) as [iss [Hw Qi]]. exists iss. split; [|exact Qi].
          rewrite process_complex, Hb. cbn [bind]. rewrite (silent_proceeds _ Rj Qj). replace (negb true || match v with VNone => true | _ => false end) with false by (destruct v; try discriminate Ic; reflexivity).
          unfold complex_part. rewrite Mu, (cont_same _ Ic), Hw. cbn [bind]. destruct (has_issues iss []); [reflexivity|]. destruct m; reflexivity.
  Qed.
End Env.
