(** Lemmas about attribute processing. *)
From Verif Require Import PyBase BaseFacts PyNum Issues IssuesSpec IssuesFacts AttrRep AttrRepSpec AttrRepFacts Value ValueFacts
  Container ContainerSpec ContainerFacts ContainerRW Types TypesSpec Attr AttrSpec.

Lemma report_wf i : report i -> wf i.
Proof.
  induction 1 as [|i e p l _ IH|i j p _ IHi _ IHj]; [apply wf_no_issues | apply wf_add; exact IH | apply wf_merge; assumption].
Qed.

Lemma errs_at_none l : errs_at no_issues l = [].
Proof. reflexivity. Qed.

Lemma errs_merge i j p l : report i -> report j ->
  errs_at (merge i j p) l = errs_at i l ++ match loc_strip p l with Some l' => errs_at j l' | None => [] end.
Proof.
  intros Hi Hj. apply report_wf in Hi as [Hi _]. apply report_wf in Hj as [Hj1 [Hj2 _]].
  apply errs_at_merge; assumption.
Qed.

Lemma errs_merge_under i j p l : report i -> report j -> errs_at (merge i j p) (p ++ l) = errs_at i (p ++ l) ++ errs_at j l.
Proof. intros Hi Hj. rewrite errs_merge by assumption. rewrite loc_strip_app. reflexivity. Qed.

Lemma has_issues_iff i : report i -> (has_issues i [] = true <-> exists l, errs_at i l <> []).
Proof.
  intros H. apply report_wf in H. rewrite has_issues_spec. split.
  - intros [l [t [[<-|[]] Hin]]]. exists t. intros E. apply (errs_at_nil_iff _ _ H) in E. exact (E Hin).
  - intros [l Hl]. exists [], l. split; [left; reflexivity|].
    destruct (in_dec loc_dec l (map fst (i_errs i))) as [Hin|Hin]; [exact Hin|].
    exfalso. apply Hl. apply (errs_at_nil_iff _ _ H). exact Hin.
Qed.

Lemma no_has_issues i : report i -> has_issues i [] = false -> forall l, errs_at i l = [].
Proof.
  intros H Hf l. destruct (errs_at i l) eqn:E; [reflexivity|].
  assert (has_issues i [] = true) by (apply has_issues_iff; [exact H | exists l; congruence]). congruence.
Qed.

(** Induction over attributes. *)
Section AttrInd.
  Variable P : attribute -> Prop.
  Hypothesis HS : forall i, P (MkAttr i None).
  Hypothesis HC : forall i subs cps cds, Forall P subs -> P (MkAttr i (Some (subs, cps, cds))).
  Fixpoint attr_ind2 (a : attribute) : P a :=
    match a with
    | MkAttr i None => HS i
    | MkAttr i (Some (subs, cps, cds)) =>
        HC i subs cps cds ((fix go (l : list attribute) : Forall P l :=
                              match l with
                              | [] => Forall_nil P
                              | s :: t => Forall_cons s (attr_ind2 s) (go t)
                              end) subs)
    end.
End AttrInd.

Section Env.
  Context {env : PyEnv}.

  (** The loop over the sub-attributes of one container. *)
  Definition walk (m : method) (c : value) (prefix : loc) : list attribute -> value -> issues -> res outcome :=
    fix go (subs : list attribute) (parsed : value) (iss : issues) : res outcome :=
      match subs with
      | [] => Ok (parsed, iss)
      | s :: t =>
          let! x := get_item c (arep s) in
          match x with
          | VMissing => go t parsed iss
          | _ =>
              let! (y, iss') := process s m x in
              let! parsed' := set_item parsed (arep s) y in
              go t parsed' (merge iss iss' (prefix ++ [LStr (r_attr (arep s))]))
          end
      end.

  Definition complex_items (m : method) (subs : list attribute) (st : list value * issues) (e : nat * value)
    : res (list value * issues) :=
    let! (c, iss') := walk m (mk_cont (snd e)) [LIdx (fst e)] subs empty_cont (snd st) in
    Ok (fst st ++ [c], iss').

  Definition complex_part (m : method) (multi : bool) (subs : list attribute) (v : value) (iss : issues) : res outcome :=
    if multi then
      let! l := iter_value v in
      let! (items, iss) := foldM (complex_items m subs) (enumerate l) ([], iss) in
      Ok (VList items, iss)
    else walk m (mk_cont v) [] subs empty_cont iss.

  Lemma process_complex i subs cps cds m v :
    process (MkAttr i (Some (subs, cps, cds))) m v =
    (let! (v', iss) := base_process m i v in
     if negb (can_proceed iss []) || match v' with VNone => true | _ => false end
     then Ok (v', iss)
     else
       let! (parsed, iss) := complex_part m (a_multi i) subs v' iss in
       if has_issues iss [] then Ok (parsed, iss)
       else run_procs (match m with MParse => cps | MDump => cds end) parsed iss).
  Proof. reflexivity. Qed.

  Lemma walk_cons m c p s t parsed iss :
    walk m c p (s :: t) parsed iss =
    let! x := get_item c (arep s) in
    match x with
    | VMissing => walk m c p t parsed iss
    | _ => let! (y, iss') := process s m x in
           let! parsed' := set_item parsed (arep s) y in
           walk m c p t parsed' (merge iss iss' (p ++ [LStr (r_attr (arep s))]))
    end.
  Proof. reflexivity. Qed.

  (** ** Types *)

  Lemma type_cases m t v o : type_proc m t v = Ok o ->
    (exists e, o = fail e) \/ (exists w, o = pass w /\ w <> VInvalid /\ (atomic w \/ w = v))
    \/ (t = TUnknown /\ o = pass v).
  Proof.
    intros H.
    assert (C : forall ok name, (ok = true -> v <> VInvalid) -> Ok (type_check ok name v) = Ok o ->
      (exists e, o = fail e) \/ (exists w, o = pass w /\ w <> VInvalid /\ (atomic w \/ w = v)) \/ (t = TUnknown /\ o = pass v)).
    { intros ok name Hn E. injection E as <-. unfold type_check. destruct ok; [|left; eexists; reflexivity].
      right; left. exists v. split; [reflexivity|]. split; [apply Hn; reflexivity | right; reflexivity]. }
    assert (A : forall w, w <> VInvalid -> atomic w -> Ok (pass w) = Ok o ->
      (exists e, o = fail e) \/ (exists w, o = pass w /\ w <> VInvalid /\ (atomic w \/ w = v)) \/ (t = TUnknown /\ o = pass v)).
    { intros w Hn Ha E. injection E as <-. right; left. exists w. auto. }
    assert (F : forall e, Ok (fail e) = Ok o ->
      (exists e, o = fail e) \/ (exists w, o = pass w /\ w <> VInvalid /\ (atomic w \/ w = v)) \/ (t = TUnknown /\ o = pass v)).
    { intros e E. injection E as <-. left; eexists; reflexivity. }
    destruct t; cbn [type_proc] in H.
    - injection H as <-. right; right. split; reflexivity.
    - refine (C _ _ _ H). destruct v; discriminate.
    - unfold decimal_proc in H. destruct (is_int v) eqn:E.
      + destruct v; try discriminate; cbn [integer_proc type_check is_int pass bind to_float] in H;
          apply bind_ok in H as [w [Hw H]]; apply bind_ok in Hw as [f [_ Hw]]; injection Hw as <-;
          (apply (A (VFloat f)); [discriminate | exact I | exact H]).
      + refine (C _ _ _ H). destruct v; discriminate.
    - unfold integer_proc in H. destruct v; try (refine (C _ _ _ H); discriminate).
      apply bind_ok in H as [z [_ H]]. destruct (feqb (fint z) f).
      + apply (A (VInt z)); [discriminate | exact I | exact H].
      + refine (C _ _ _ H). discriminate.
    - refine (C _ _ _ H). destruct v; discriminate.
    - unfold binary_proc in H. destruct v; try (refine (C _ _ _ H); discriminate).
      apply bind_ok in H as [[e|] [_ H]]; [exact (F _ H)|].
      apply (A (VStr s)); [discriminate | exact I | exact H].
    - unfold external_proc in H. destruct v; try (refine (C _ _ _ H); discriminate).
      destruct (env_abs_url s); [|exact (F _ H)]. apply (A (VStr s)); [discriminate | exact I | exact H].
    - refine (C _ _ _ H). destruct v; discriminate.
    - refine (C _ _ _ H). destruct v; discriminate.
    - destruct m.
      + unfold datetime_parse in H. destruct v; try (refine (C _ _ _ H); discriminate).
        destruct (env_fromiso s); [|exact (F _ H)]. eapply A; [| |exact H]; [discriminate | exact I].
      + unfold datetime_dump in H. destruct v; try (refine (C _ _ _ H); discriminate).
        eapply A; [| |exact H]; [discriminate | exact I].
    - refine (C _ _ _ H). destruct v; discriminate.
  Qed.

  Lemma type_complex m v o : type_proc m TComplex v = Ok o ->
    (exists e, o = fail e /\ is_cont v = false) \/ (o = pass v /\ is_cont v = true).
  Proof.
    cbn [type_proc]. unfold type_check. destruct (is_cont v); intros H; injection H as <-;
      [right; split; reflexivity | left; eexists; split; reflexivity].
  Qed.

  (** ** One item of a simple attribute *)

  Definition one (m : method) (i : ainfo) (x : value) : res outcome :=
    let! (x', iss') := type_proc m (a_type i) x in
    Ok (canon_step i x' (merge no_issues iss' []) []).

  Lemma merge_none_nil : merge no_issues no_issues [] = no_issues.
  Proof. reflexivity. Qed.
  Lemma merge_nil i p : merge i no_issues p = i.
  Proof. reflexivity. Qed.

  Lemma report_fail e : report (snd (fail e)).
  Proof. apply report_add, report_empty. Qed.

  Lemma type_report m t v w iss : type_proc m t v = Ok (w, iss) -> report iss.
  Proof.
    intros H. apply type_cases in H as [[e He]|[[w' [He _]]|[_ He]]]; injection He as -> ->;
      [apply report_fail | apply report_empty | apply report_empty].
  Qed.

  Lemma canon_report i v iss l : report iss -> report (snd (canon_step i v iss l)).
  Proof.
    intros H. unfold canon_step. destruct (is_canonical i v); [exact H|]. destruct (a_validate i); [|exact H].
    apply report_add; exact H.
  Qed.

  Lemma one_report m i x y iss : one m i x = Ok (y, iss) -> report iss.
  Proof.
    unfold one. intros H. apply bind_ok in H as [[x' iss'] [H1 H2]]. injection H2 as H2.
    apply type_report in H1. replace iss with (snd (y, iss)) by reflexivity. rewrite <- H2. apply canon_report.
    apply report_merge; [apply report_empty | exact H1].
  Qed.

  Lemma one_root m i x y iss : one m i x = Ok (y, iss) -> forall l, l <> [] -> errs_at iss l = [].
  Proof.
    unfold one. intros H l Hl. apply bind_ok in H as [[x' iss'] [H1 H2]]. injection H2 as H2.
    assert (E : errs_at (merge no_issues iss' []) l = []).
    { rewrite errs_merge; [|apply report_empty | eapply type_report; exact H1]. cbn [loc_strip app errs_at].
      apply type_cases in H1 as [[e He]|[[w' [He _]]|[_ He]]]; injection He as -> ->; try reflexivity.
      cbn [fail snd]. rewrite errs_at_add. destruct (loc_dec [] l); [congruence | reflexivity]. }
    unfold canon_step in H2. destruct (is_canonical i x'); [injection H2 as _ <-; exact E|].
    destruct (a_validate i); [|injection H2 as _ <-; exact E]. injection H2 as _ <-.
    rewrite errs_at_add, E. destruct (loc_dec [] l); [congruence | reflexivity].
  Qed.

  (** What canon_step adds. *)
  Lemma canon_errs i v iss l l' :
    errs_at (snd (canon_step i v iss l)) l' =
    errs_at iss l' ++ if is_canonical i v then [] else if a_validate i then if loc_dec l l' then [e_must_be_one_of] else [] else [].
  Proof.
    unfold canon_step. destruct (is_canonical i v); [rewrite app_nil_r; reflexivity|].
    destruct (a_validate i); [|rewrite app_nil_r; reflexivity]. cbn [snd]. apply errs_at_add.
  Qed.
  Lemma canon_fst i v iss l : fst (canon_step i v iss l) = if is_canonical i v then v else if a_validate i then VInvalid else v.
  Proof. unfold canon_step. destruct (is_canonical i v); [reflexivity|]. destruct (a_validate i); reflexivity. Qed.

  (** ** Lists of items *)

  Fixpoint items_errs (k : nat) (outs : list outcome) (l : loc) : list error :=
    match outs with
    | [] => []
    | o :: t => match loc_strip [LIdx k] l with Some l' => errs_at (snd o) l' | None => [] end ++ items_errs (S k) t l
    end.

  Lemma items_errs_low k outs l j : j < k -> items_errs k outs (LIdx j :: l) = [].
  Proof.
    revert k; induction outs as [|o t IH]; intros k H; cbn [items_errs]; [reflexivity|].
    rewrite IH by lia. cbn [loc_strip]. destruct (locpart_dec (LIdx k) (LIdx j)) as [E|_]; [|reflexivity].
    injection E as E; lia.
  Qed.
  Lemma items_errs_nth k outs j l :
    items_errs k outs (LIdx (k + j) :: l) = match nth_error outs j with Some o => errs_at (snd o) l | None => [] end.
  Proof.
    revert k j; induction outs as [|o t IH]; intros k j; cbn [items_errs]; [destruct j; reflexivity|].
    destruct j as [|j].
    - rewrite Nat.add_0_r. cbn [loc_strip nth_error]. destruct (locpart_dec (LIdx k) (LIdx k)) as [_|E]; [|congruence].
      rewrite items_errs_low by lia. apply app_nil_r.
    - cbn [nth_error loc_strip]. destruct (locpart_dec (LIdx k) (LIdx (k + S j))) as [E|_]; [injection E as E; lia|].
      replace (k + S j) with (S k + j) by lia. apply IH.
  Qed.
  Lemma items_errs_other k outs l : (forall j l', l <> LIdx j :: l') -> items_errs k outs l = [].
  Proof.
    intros H. revert k; induction outs as [|o t IH]; intros k; cbn [items_errs]; [reflexivity|].
    rewrite IH, app_nil_r. destruct (loc_strip [LIdx k] l) as [l'|] eqn:E; [|reflexivity].
    apply loc_strip_spec in E. exfalso; exact (H _ _ E).
  Qed.

  Lemma items_closed m i xs : forall k acc iss, report iss ->
    match mapM (one m i) xs with
    | Raise e => foldM (item_step m i) (enum_from k xs) (acc, iss) = Raise e
    | Ok outs => exists iss', foldM (item_step m i) (enum_from k xs) (acc, iss) = Ok (acc ++ map fst outs, iss')
                 /\ report iss' /\ forall l, errs_at iss' l = errs_at iss l ++ items_errs k outs l
    end.
  Proof.
    induction xs as [|x t IH]; intros k acc iss Hr; cbn [mapM enum_from foldM].
    - exists iss. rewrite app_nil_r. split; [reflexivity|]. split; [exact Hr|]. intros l. rewrite app_nil_r. reflexivity.
    - unfold one at 1. unfold item_step at 1 3. cbn [fst snd].
      destruct (type_proc m (a_type i) x) as [[x' iss']|e] eqn:Et; cbn [bind]; [|reflexivity].
      pose proof (type_report _ _ _ _ _ Et) as Hr'.
      set (o := canon_step i x' (merge no_issues iss' []) []).
      destruct (canon_step i x' (merge iss iss' [LIdx k]) [LIdx k]) as [x'' iss''] eqn:Ec. cbn [bind].
      assert (Hr'' : report iss'').
      { replace iss'' with (snd (x'', iss'')) by reflexivity. rewrite <- Ec. apply canon_report. apply report_merge; assumption. }
      assert (Hx : x'' = fst o).
      { unfold o. rewrite canon_fst. replace x'' with (fst (x'', iss'')) by reflexivity. rewrite <- Ec, canon_fst. reflexivity. }
      assert (He : forall l, errs_at iss'' l = errs_at iss l ++ match loc_strip [LIdx k] l with Some l' => errs_at (snd o) l' | None => [] end).
      { intros l. replace iss'' with (snd (x'', iss'')) by reflexivity. rewrite <- Ec. unfold o.
        rewrite canon_errs, errs_merge, <- app_assoc by assumption. f_equal.
        destruct (loc_strip [LIdx k] l) as [l'|] eqn:El.
        - apply loc_strip_spec in El as ->. rewrite canon_errs, errs_merge; [|apply report_empty | exact Hr'].
          cbn [loc_strip app]. f_equal. destruct (is_canonical i x'); [reflexivity|]. destruct (a_validate i); [|reflexivity].
          destruct (loc_dec [LIdx k] (LIdx k :: l')) as [E|E], (loc_dec [] l') as [E'|E']; congruence.
        - cbn [app]. destruct (is_canonical i x'); [reflexivity|]. destruct (a_validate i); [|reflexivity].
          destruct (loc_dec [LIdx k] l) as [<-|]; [|reflexivity].
          exfalso. rewrite loc_strip_none in El. apply (El []). reflexivity. }
      specialize (IH (S k) (acc ++ [x'']) iss'' Hr'').
      destruct (mapM (one m i) t) as [outs|e]; cbn [bind]; [|exact IH].
      destruct IH as [iss3 [H1 [H2 H3]]]. exists iss3. rewrite H1. cbn [map items_errs]. rewrite <- app_assoc. cbn [app].
      rewrite Hx. split; [reflexivity|]. split; [exact H2|]. intros l. rewrite H3, He, app_assoc. reflexivity.
  Qed.

  (** ** One container of a complex attribute *)

  Fixpoint gather (m : method) (c : value) (subs : list attribute) : res (list (str * outcome)) :=
    match subs with
    | [] => Ok []
    | s :: t =>
        let! x := get_item c (arep s) in
        match x with
        | VMissing => gather m c t
        | _ => let! o := process s m x in
               let! rest := gather m c t in
               Ok ((r_attr (arep s), o) :: rest)
        end
    end.

  Definition put_all (outs : list (str * outcome)) (parsed : value) : value :=
    fold_left (fun c e => match c with VCont d l2o => set_plain d l2o (fst e) (fst (snd e)) | _ => c end) outs parsed.
  Definition merge_all (p : loc) (outs : list (str * outcome)) (iss : issues) : issues :=
    fold_left (fun iss e => merge iss (snd (snd e)) (p ++ [LStr (fst e)])) outs iss.

  Lemma set_plain_item d l2o r y : plain_rep r -> set_item (VCont d l2o) r y = Ok (set_plain d l2o (r_attr r) y).
  Proof. intros [_ [H1 [H2 _]]]. cbn [set_item]. rewrite H2, H1. reflexivity. Qed.

  Lemma walk_closed m c p subs : Forall (fun s => plain_rep (arep s)) subs -> forall parsed iss, is_cont parsed = true ->
    walk m c p subs parsed iss = let! outs := gather m c subs in Ok (put_all outs parsed, merge_all p outs iss).
  Proof.
    induction 1 as [|s t Hs Ht IH]; intros parsed iss Hc; [reflexivity|].
    rewrite walk_cons. cbn [gather]. rewrite bind_assoc. apply bind_ext; intros x.
    assert (G : (let! (y, iss') := process s m x in
                 let! parsed' := set_item parsed (arep s) y in
                 walk m c p t parsed' (merge iss iss' (p ++ [LStr (r_attr (arep s))])))
              = (let! outs := (let! o := process s m x in let! rest := gather m c t in Ok ((r_attr (arep s), o) :: rest)) in
                 Ok (put_all outs parsed, merge_all p outs iss))).
    { rewrite bind_assoc. apply bind_ext; intros [y iss']. destruct parsed; try discriminate.
      rewrite (set_plain_item _ _ _ _ Hs). cbn [bind]. rewrite IH by reflexivity. rewrite bind_assoc.
      apply bind_ext; intros outs. reflexivity. }
    destruct x; try exact G. apply IH; exact Hc.
  Qed.

  Lemma put_all_cont outs : forall parsed, is_cont parsed = true -> is_cont (put_all outs parsed) = true.
  Proof.
    induction outs as [|e t IH]; intros parsed H; [exact H|]. cbn [put_all fold_left]. apply IH.
    destruct parsed; try discriminate. reflexivity.
  Qed.

  Fixpoint subs_errs (outs : list (str * outcome)) (l : loc) : list error :=
    match outs with
    | [] => []
    | (n, o) :: t => match loc_strip [LStr n] l with Some l' => errs_at (snd o) l' | None => [] end ++ subs_errs t l
    end.

  Lemma merge_all_errs p outs : Forall (fun e => report (snd (snd e))) outs -> forall iss, report iss ->
    report (merge_all p outs iss)
    /\ forall l, errs_at (merge_all p outs iss) l = errs_at iss l ++ match loc_strip p l with Some l' => subs_errs outs l' | None => [] end.
  Proof.
    induction 1 as [|[n o] t Ho Ht IH]; intros iss Hi; cbn [merge_all fold_left subs_errs].
    - split; [exact Hi|]. intros l. destruct (loc_strip p l); rewrite app_nil_r; reflexivity.
    - cbn [fst snd] in *. destruct (IH (merge iss (snd o) (p ++ [LStr n]))) as [H1 H2]; [apply report_merge; assumption|].
      split; [exact H1|]. intros l. unfold merge_all in H2. rewrite H2, errs_merge, <- app_assoc by assumption. f_equal.
      destruct (loc_strip p l) as [l'|] eqn:El.
      + apply loc_strip_spec in El as ->. f_equal.
        destruct (loc_strip [LStr n] l') as [l2|] eqn:E2.
        * apply loc_strip_spec in E2 as ->. rewrite app_assoc, loc_strip_app. reflexivity.
        * destruct (loc_strip (p ++ [LStr n]) (p ++ l')) as [l2|] eqn:E3; [|reflexivity].
          apply loc_strip_spec in E3. rewrite <- app_assoc in E3. apply app_inv_head in E3 as ->.
          rewrite loc_strip_app in E2. discriminate.
      + rewrite app_nil_r. destruct (loc_strip (p ++ [LStr n]) l) as [l2|] eqn:E3; [|reflexivity].
        apply loc_strip_spec in E3. rewrite loc_strip_none in El. exfalso. apply (El ([LStr n] ++ l2)).
        rewrite app_assoc. exact E3.
  Qed.

  (** ** Processors *)

  Lemma run_procs_inv (P : value -> issues -> Prop) ps : forall v iss v' iss',
    Forall (fun p => forall x y j i, P x i -> (p : proc) x = Ok (y, j) -> P y (merge i j [])) ps ->
    P v iss -> run_procs ps v iss = Ok (v', iss') -> P v' iss'.
  Proof.
    unfold run_procs. induction ps as [|p t IH]; intros v iss v' iss' Hf Hp H; cbn [foldM] in H.
    - injection H as <- <-. exact Hp.
    - inversion Hf as [|? ? H1 H2]; subst. apply bind_ok in H as [[v1 iss1] [Ha H]].
      apply bind_ok in Ha as [[v2 iss2] [Ha Hb]]. injection Hb as <- <-. cbn [fst snd] in *.
      eapply IH; [exact H2| |exact H]. eapply H1; eassumption.
  Qed.

  Lemma run_procs_report ps v iss v' iss' : Forall reporting ps -> report iss -> run_procs ps v iss = Ok (v', iss') -> report iss'.
  Proof.
    intros Hf Hr H. refine (run_procs_inv (fun _ i => report i) ps v iss v' iss' _ Hr H).
    revert Hf; apply Forall_impl. intros p Hp x y j i Hi He. apply report_merge; [exact Hi | eapply Hp; exact He].
  Qed.

  Lemma procs_of_Forall (P : proc -> Prop) m i : Forall P (a_parsers i) -> Forall P (a_dumpers i) -> Forall P (procs_of m i).
  Proof. intros H1 H2. destruct m; assumption. Qed.

  (** ** base_process *)

  (** The value and report before processors run. *)
  Definition base_core (m : method) (i : ainfo) (v : value) : res outcome :=
    match a_multi i, v with
    | true, VList l =>
        let! (items, iss) := foldM (item_step m i) (enumerate l) ([], no_issues) in
        Ok (VList items, iss)
    | _, _ => one m i v
    end.
  Lemma base_process_eq m i v : base_process m i v =
    match v with
    | VNone => Ok (VNone, no_issues)
    | _ => if a_multi i && negb (is_list v) then Ok (fail (e_bad_type ($"list") (scim_type_of v)))
           else let! (parsed, iss) := base_core m i v in
                if has_issues iss [] then Ok (parsed, iss) else run_procs (procs_of m i) parsed iss
    end.
  Proof. unfold base_process, base_core, one. destruct v, (a_multi i); reflexivity. Qed.

  Lemma base_core_report m i v w iss : base_core m i v = Ok (w, iss) -> report iss.
  Proof.
    assert (G : one m i v = Ok (w, iss) -> report iss) by apply one_report.
    unfold base_core. destruct (a_multi i); [|exact G]. destruct v; try exact G. clear G. intros H.
    pose proof (items_closed m i l 0 [] no_issues report_empty) as Hc.
    destruct (mapM (one m i) l) as [outs|e].
    - destruct Hc as [iss' [H1 [H2 _]]]. unfold enumerate in H. rewrite H1 in H. cbn [bind] in H. injection H as _ <-. exact H2.
    - unfold enumerate in H. rewrite Hc in H. discriminate.
  Qed.

  Lemma base_report m i v w iss : Forall reporting (a_parsers i) -> Forall reporting (a_dumpers i) ->
    base_process m i v = Ok (w, iss) -> report iss.
  Proof.
    intros H1 H2 H. rewrite base_process_eq in H.
    assert (G : (if a_multi i && negb (is_list v) then Ok (fail (e_bad_type ($"list") (scim_type_of v)))
           else let! (parsed, iss) := base_core m i v in
                if has_issues iss [] then Ok (parsed, iss) else run_procs (procs_of m i) parsed iss) = Ok (w, iss) -> report iss).
    { clear H. intros H. destruct (a_multi i && negb (is_list v)); [injection H as <- <-; apply report_fail|].
      apply bind_ok in H as [[p iss1] [Hc H]]. apply base_core_report in Hc.
      destruct (has_issues iss1 []); [injection H as <- <-; exact Hc|].
      eapply run_procs_report; [|exact Hc|exact H]. apply procs_of_Forall; assumption. }
    destruct v; try exact (G H). injection H as <- <-. apply report_empty.
  Qed.

  (** ** Whole attributes *)

  Lemma complex_items_closed m subs : Forall (fun s => plain_rep (arep s)) subs ->
    (forall c outs, gather m c subs = Ok outs -> Forall (fun e => report (snd (snd e))) outs) ->
    forall xs k acc iss, report iss ->
    match mapM (fun c => let! outs := gather m (mk_cont c) subs in
                         Ok (put_all outs empty_cont, merge_all [] outs no_issues)) xs with
    | Raise e => foldM (complex_items m subs) (enum_from k xs) (acc, iss) = Raise e
    | Ok outs => exists iss', foldM (complex_items m subs) (enum_from k xs) (acc, iss) = Ok (acc ++ map fst outs, iss')
                 /\ report iss' /\ forall l, errs_at iss' l = errs_at iss l ++ items_errs k outs l
    end.
  Proof.
    intros Hp Hrep. induction xs as [|x t IH]; intros k acc iss Hr; cbn [mapM enum_from foldM].
    - exists iss. rewrite app_nil_r. split; [reflexivity|]. split; [exact Hr|]. intros l. rewrite app_nil_r. reflexivity.
    - unfold complex_items at 1 3. cbn [fst snd]. rewrite walk_closed by (exact Hp || reflexivity).
      destruct (gather m (mk_cont x) subs) as [outs|e] eqn:Eg; cbn [bind]; [|reflexivity].
      specialize (Hrep _ _ Eg).
      destruct (merge_all_errs [LIdx k] outs Hrep iss Hr) as [Hr1 He1].
      destruct (merge_all_errs [] outs Hrep no_issues report_empty) as [Hr2 He2].
      specialize (IH (S k) (acc ++ [put_all outs empty_cont]) _ Hr1).
      destruct (mapM _ t) as [rest|e]; cbn [bind]; [|exact IH].
      destruct IH as [iss3 [H1 [H2 H3]]]. exists iss3. rewrite H1. cbn [map items_errs fst snd]. rewrite <- app_assoc.
      split; [reflexivity|]. split; [exact H2|]. intros l. rewrite H3, He1, <- app_assoc. f_equal. f_equal.
      destruct (loc_strip [LIdx k] l); [rewrite He2; reflexivity | reflexivity].
  Qed.

  Lemma gather_report m c subs : Forall (fun s => forall v w iss, process s m v = Ok (w, iss) -> report iss) subs ->
    forall outs, gather m c subs = Ok outs -> Forall (fun e => report (snd (snd e))) outs.
  Proof.
    induction 1 as [|s t Hs Ht IH]; intros outs H; cbn [gather] in H; [injection H as <-; constructor|].
    apply bind_ok in H as [x [_ H]].
    assert (G : (let! o := process s m x in let! rest := gather m c t in Ok ((r_attr (arep s), o) :: rest)) = Ok outs ->
                Forall (fun e => report (snd (snd e))) outs).
    { clear H. intros H. apply bind_ok in H as [[y iss] [H1 H]]. apply bind_ok in H as [rest [H2 H]]. injection H as <-.
      constructor; [cbn [snd]; eapply Hs; exact H1 | apply IH; exact H2]. }
    destruct x; try exact (G H). apply IH; exact H.
  Qed.

  Lemma process_report a : sound_attr a -> forall m v w iss, process a m v = Ok (w, iss) -> report iss.
  Proof.
    induction a as [i|i subs cps cds IH] using attr_ind2; intros Ha m v w iss H.
    - inversion Ha; subst. cbn [process] in H. eapply base_report; eassumption.
    - inversion Ha as [|? ? ? ? Ht Hp1 Hp2 Hc1 Hc2 Hpl Hs]; subst. rewrite process_complex in H.
      apply bind_ok in H as [[v' iss1] [Hb H]]. apply base_report in Hb; [|assumption|assumption].
      destruct (negb (can_proceed iss1 []) || match v' with VNone => true | _ => false end); [injection H as <- <-; exact Hb|].
      apply bind_ok in H as [[parsed iss2] [Hc H]].
      assert (Hg : forall c outs, gather m c subs = Ok outs -> Forall (fun e => report (snd (snd e))) outs).
      { intros c. apply gather_report. rewrite Forall_forall in *. intros s Hin v0 w0 iss0. apply IH; auto. }
      assert (Hr : report iss2).
      { unfold complex_part in Hc. destruct (a_multi i).
        - apply bind_ok in Hc as [l [_ Hc]]. apply bind_ok in Hc as [[items iss3] [Hf Hc]]. injection Hc as _ <-.
          pose proof (complex_items_closed m subs Hpl Hg l 0 [] iss1 Hb) as Hcl. unfold enumerate in Hf.
          destruct (mapM _ l) as [outs|e]; [|congruence]. destruct Hcl as [iss' [H1 [H2 _]]]. rewrite H1 in Hf.
          injection Hf as _ <-. exact H2.
        - rewrite walk_closed in Hc by (exact Hpl || reflexivity). apply bind_ok in Hc as [outs [Hgo Hc]].
          injection Hc as _ <-. apply merge_all_errs; [eapply Hg; exact Hgo | exact Hb]. }
      destruct (has_issues iss2 []); [injection H as <- <-; exact Hr|].
      eapply run_procs_report; [|exact Hr|exact H]. destruct m; assumption.
  Qed.
End Env.
