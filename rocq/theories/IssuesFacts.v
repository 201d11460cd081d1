(** Proofs about issue reports (Issues.v). *)
From Verif Require Import PyBase BaseFacts Issues IssuesSpec.

Lemma NoDup_app_snoc {A} (l : list A) x : NoDup l -> ~ In x l -> NoDup (l ++ [x]).
Proof.
  induction l as [|y t IH]; intros H Hx; cbn [app]; [repeat constructor; easy|].
  inversion H as [|? ? Hy Ht]; subst. constructor.
  - rewrite in_app_iff; cbn [In]. intros [Hin|[->|[]]]; [contradiction | apply Hx; left; reflexivity].
  - apply IH; [exact Ht | intros Hin; apply Hx; right; exact Hin].
Qed.

Lemma rev_case {A} (l : list A) : l = [] \/ exists x t, l = t ++ [x].
Proof. induction l as [|x t _] using rev_ind; [left; reflexivity | right; exists x, t; reflexivity]. Qed.

Lemma locpart_eqb_eq a b : locpart_eqb a b = true <-> a = b.
Proof.
  destruct a as [s|n], b as [t|m]; cbn; split; intros H; try easy.
  - apply str_eqb_eq in H as ->; reflexivity.
  - injection H as ->; apply str_eqb_refl.
  - apply Nat.eqb_eq in H as ->; reflexivity.
  - injection H as ->; apply Nat.eqb_refl.
Qed.

Lemma loc_eqb_eq a b : loc_eqb a b = true <-> a = b.
Proof.
  revert b; induction a as [|x a IH]; intros [|y b]; cbn; split; intros H; try easy.
  - apply andb_true_iff in H as [H1 H2]. apply locpart_eqb_eq in H1 as ->. f_equal; apply IH; exact H2.
  - injection H as -> ->. apply andb_true_iff; split; [apply locpart_eqb_eq | apply IH]; reflexivity.
Qed.
Lemma loc_eqb_refl a : loc_eqb a a = true.
Proof. apply loc_eqb_eq; reflexivity. Qed.

Lemma loc_strip_spec p l l' : loc_strip p l = Some l' <-> l = p ++ l'.
Proof.
  revert l; induction p as [|a p IH]; intros l; cbn [loc_strip app].
  - split; intros H; [injection H as ->; reflexivity | subst; reflexivity].
  - destruct l as [|b l]; [split; discriminate|].
    destruct (locpart_dec a b) as [->|Hne].
    + rewrite IH; split; intros H; [subst; reflexivity | injection H as ->; reflexivity].
    + split; [discriminate | intros H; injection H as -> _; contradiction].
Qed.
Lemma loc_strip_app p l : loc_strip p (p ++ l) = Some l.
Proof. apply loc_strip_spec; reflexivity. Qed.
Lemma loc_strip_none p l : loc_strip p l = None <-> forall l', l <> p ++ l'.
Proof.
  destruct (loc_strip p l) as [l'|] eqn:E; split; intros H; try easy.
  - apply loc_strip_spec in E; exfalso; eapply H; exact E.
  - intros l' ->; rewrite loc_strip_app in E; discriminate.
Qed.

Lemma is_prefix_spec p l : is_prefix p l = true <-> exists l', l = p ++ l'.
Proof.
  unfold is_prefix; rewrite loc_eqb_eq; split.
  - intros H; exists (skipn (length p) l). rewrite <- H at 1. symmetry; apply firstn_skipn.
  - intros [l' ->]. rewrite firstn_app, Nat.sub_diag, firstn_all, firstn_O, app_nil_r; reflexivity.
Qed.

(** ** Association lists keyed by locations *)

Lemma lget_lset {V} l l' (v : V) d : lget l' (lset l v d) = if loc_dec l l' then Some v else lget l' d.
Proof.
  unfold lget, lset; rewrite (aget_aset _ loc_eqb_eq).
  destruct (loc_dec l l') as [->|Hne]; [rewrite loc_eqb_refl; reflexivity|].
  destruct (loc_eqb l l') eqn:E; [apply loc_eqb_eq in E; contradiction | reflexivity].
Qed.

Lemma errs_at_add i e p l l' :
  errs_at (add_issue i e p l) l' = errs_at i l' ++ if loc_dec l l' then [e] else [].
Proof.
  unfold errs_at at 1, add_issue; cbn [i_errs]. rewrite lget_lset.
  destruct (loc_dec l l') as [->|]; [reflexivity | rewrite app_nil_r; reflexivity].
Qed.

(** Well-formed reports: distinct locations, no empty error lists. *)
Definition wf_errs (d : list (loc * list error)) : Prop :=
  NoDup (map fst d) /\ Forall (fun e => snd e <> []) d.

Lemma wf_lset l es d : wf_errs d -> es <> [] -> wf_errs (lset l es d).
Proof.
  intros [H1 H2] Hes; split; [apply (aset_NoDup _ loc_eqb_eq); exact H1|].
  unfold lset. clear H1; induction d as [|[k v] t IH]; cbn [aset]; [repeat constructor; exact Hes|].
  inversion H2 as [|? ? Hv Ht]; subst. destruct (loc_eqb k l); constructor; auto.
Qed.

Definition dd (i : issues) : Prop := i_dd i = true.

Lemma merge_entry_dd other p self ent :
  dd self -> dd other ->
  merge_entry other p self ent =
  Ok (mkIssues (lset (p ++ fst ent) (errs_at self (p ++ fst ent) ++ snd ent) (i_errs self))
               (lset (p ++ fst ent) (set_update (stop_at self (p ++ fst ent)) (stop_at other (fst ent)))
                     (i_stop self)) true).
Proof.
  unfold dd, merge_entry; destruct ent as [ol es]; cbn [fst snd]; intros -> ->.
  destruct (lget ol (i_stop other)), (lget (p ++ ol) (i_errs self)), (lget (p ++ ol) (i_stop self));
    reflexivity.
Qed.

(** The merge loop over a list of entries with distinct locations. *)
Definition merge_step (other : issues) (p : loc) (self : issues) (ent : loc * list error) : issues :=
  mkIssues (lset (p ++ fst ent) (errs_at self (p ++ fst ent) ++ snd ent) (i_errs self))
           (lset (p ++ fst ent) (set_update (stop_at self (p ++ fst ent)) (stop_at other (fst ent)))
                 (i_stop self)) true.

Lemma merge_loop other p ents self :
  dd self -> dd other ->
  foldM (merge_entry other p) ents self = Ok (fold_left (merge_step other p) ents self).
Proof.
  revert self; induction ents as [|ent t IH]; intros self Hs Ho; cbn [foldM fold_left]; [reflexivity|].
  rewrite merge_entry_dd by assumption. cbn [bind]. apply IH; [reflexivity | exact Ho].
Qed.

Lemma merge_dd_eq self other p :
  dd self -> dd other -> merge self other p = fold_left (merge_step other p) (i_errs other) self.
Proof. intros Hs Ho; unfold merge, merge_at; rewrite merge_loop by assumption; reflexivity. Qed.

Lemma merge_at_ok self other p : dd self -> dd other -> merge_at self other p = Ok (merge self other p).
Proof. intros Hs Ho; rewrite merge_dd_eq by assumption; apply merge_loop; assumption. Qed.

Lemma merge_dd self other p : dd self -> dd other -> dd (merge self other p).
Proof.
  intros Hs Ho; rewrite merge_dd_eq by assumption.
  revert self Hs; induction (i_errs other) as [|e t IH]; intros self Hs; cbn [fold_left]; [exact Hs|].
  apply IH; reflexivity.
Qed.

Definition ents_at (ents : list (loc * list error)) (l : loc) : list error :=
  match lget l ents with Some es => es | None => [] end.

Lemma errs_at_step other p self ent l :
  errs_at (merge_step other p self ent) l
  = errs_at self l ++ if loc_dec (p ++ fst ent) l then snd ent else [].
Proof.
  unfold errs_at at 1, merge_step; cbn [i_errs]; rewrite lget_lset.
  destruct (loc_dec (p ++ fst ent) l) as [<-|]; [reflexivity | rewrite app_nil_r; reflexivity].
Qed.

Lemma errs_at_steps other p ents self l :
  NoDup (map fst ents) ->
  errs_at (fold_left (merge_step other p) ents self) l
  = errs_at self l ++ match loc_strip p l with Some l' => ents_at ents l' | None => [] end.
Proof.
  revert self; induction ents as [|[k es] t IH]; intros self Hnd; cbn [fold_left].
  - unfold ents_at; cbn; destruct (loc_strip p l); rewrite app_nil_r; reflexivity.
  - cbn [map fst] in Hnd; inversion Hnd as [|? ? Hk Ht]; subst.
    rewrite IH by exact Ht. rewrite errs_at_step, <- app_assoc; cbn [fst snd]. f_equal.
    destruct (loc_strip p l) as [l'|] eqn:E.
    + apply loc_strip_spec in E as ->. unfold ents_at, lget; cbn [aget].
      destruct (loc_dec (p ++ k) (p ++ l')) as [Heq|Hne].
      * apply app_inv_head in Heq as ->. rewrite loc_eqb_refl.
        assert (Hn : aget loc_eqb l' t = None) by (apply (aget_None _ loc_eqb_eq); exact Hk).
        rewrite Hn, app_nil_r; reflexivity.
      * destruct (loc_eqb k l') eqn:E; [apply loc_eqb_eq in E as ->; contradiction | reflexivity].
    + rewrite loc_strip_none in E. destruct (loc_dec (p ++ k) l) as [Heq|Hne]; [|reflexivity].
      exfalso; eapply E; symmetry; exact Heq.
Qed.

Lemma errs_at_merge self other p l :
  dd self -> dd other -> NoDup (map fst (i_errs other)) ->
  errs_at (merge self other p) l
  = errs_at self l ++ match loc_strip p l with Some l' => errs_at other l' | None => [] end.
Proof. intros Hs Ho Hnd; rewrite merge_dd_eq by assumption; apply errs_at_steps; exact Hnd. Qed.

Lemma wf_steps other p ents self :
  wf_errs (i_errs self) -> Forall (fun e => snd e <> []) ents ->
  wf_errs (i_errs (fold_left (merge_step other p) ents self)).
Proof.
  revert self; induction ents as [|[k es] t IH]; intros self Hs Hne; cbn [fold_left]; [exact Hs|].
  inversion Hne as [|? ? H1 H2]; subst. apply IH; [|exact H2]. cbn [merge_step i_errs fst snd].
  apply wf_lset; [exact Hs|]. cbn in H1; intros H; apply app_eq_nil in H as [_ H]; contradiction.
Qed.

(** Reports as they arise from the code (not from [get]). *)
Definition wf (i : issues) : Prop := dd i /\ wf_errs (i_errs i).

Lemma wf_no_issues : wf no_issues.
Proof. repeat split; constructor. Qed.
Lemma wf_add i e p l : wf i -> wf (add_issue i e p l).
Proof.
  intros [H1 H2]; split; [exact H1|]. cbn [add_issue i_errs]. apply wf_lset; [exact H2|].
  intros H; apply app_eq_nil in H as [_ H]; discriminate.
Qed.
Lemma wf_merge i j p : wf i -> wf j -> wf (merge i j p).
Proof.
  intros [H1 H2] [H3 H4]; split; [apply merge_dd; assumption|].
  rewrite merge_dd_eq by assumption. apply wf_steps; [exact H2 | apply H4].
Qed.
Lemma wf_src i : wf i -> wf (merge_src i).
Proof. intros H; exact H. Qed.

Lemma errs_at_nil_iff i l : wf i -> (errs_at i l = [] <-> ~ In l (map fst (i_errs i))).
Proof.
  intros [_ [_ Hne]]; unfold errs_at. rewrite <- (aget_None _ loc_eqb_eq). unfold lget.
  destruct (aget loc_eqb l (i_errs i)) as [es|] eqn:E; [|easy].
  apply (aget_In _ loc_eqb_eq) in E. rewrite Forall_forall in Hne. specialize (Hne _ E).
  cbn in Hne; split; [contradiction | discriminate].
Qed.

(** ** Histories *)

Section CallInd.
  Variable P : call -> Prop.
  Hypothesis HA : forall e p l, P (CAdd e p l).
  Hypothesis HM : forall h p, Forall P h -> P (CMerge h p).
  Hypothesis HE : P CExport.
  Fixpoint call_ind2 (c : call) : P c :=
    match c with
    | CAdd e p l => HA e p l
    | CMerge h p => HM h p ((fix go (h : list call) : Forall P h :=
                               match h with
                               | [] => Forall_nil P
                               | c :: t => Forall_cons c (call_ind2 c) (go t)
                               end) h)
    | CExport => HE
    end.
End CallInd.

Lemma run_call_merge i h p : run_call i (CMerge h p) = merge i (run h) p.
Proof.
  reflexivity.
Qed.
Lemma call_errors_merge h p l :
  call_errors (CMerge h p) l = match loc_strip p l with Some l' => recorded h l' | None => [] end.
Proof.
  cbn [call_errors]; destruct (loc_strip p l) as [l'|]; [|reflexivity].
  unfold recorded; induction h as [|c t IH]; cbn [flat_map]; [reflexivity | rewrite <- IH; reflexivity].
Qed.
Lemma call_blocks_merge h p l :
  call_blocks (CMerge h p) l = match loc_strip p l with Some l' => blocking h l' | None => false end.
Proof.
  cbn [call_blocks]; destruct (loc_strip p l) as [l'|]; [|reflexivity].
  unfold blocking; induction h as [|c t IH]; cbn [existsb]; [reflexivity | rewrite <- IH; reflexivity].
Qed.

Definition call_ok (c : call) : Prop :=
  forall i, wf i -> wf (run_call i c)
                    /\ forall l, errs_at (run_call i c) l = errs_at i l ++ call_errors c l.

Lemma run_from_ok h : Forall call_ok h -> forall i, wf i ->
  wf (fold_left run_call h i) /\ forall l, errs_at (fold_left run_call h i) l = errs_at i l ++ recorded h l.
Proof.
  induction h as [|c t IH]; intros Hall i Hi; cbn [fold_left].
  - split; [exact Hi | intros l; unfold recorded; cbn; rewrite app_nil_r; reflexivity].
  - inversion Hall as [|? ? Hc Ht]; subst. destruct (Hc i Hi) as [Hw He].
    destruct (IH Ht _ Hw) as [Hw' He']. split; [exact Hw'|].
    intros l; rewrite He', He, <- app_assoc; reflexivity.
Qed.

Lemma call_ok_all c : call_ok c.
Proof.
  induction c as [e p l|h p IH|] using call_ind2; intros i Hi.
  - split; [apply wf_add; exact Hi | intros l'; apply errs_at_add].
  - rewrite run_call_merge. destruct (run_from_ok h IH no_issues wf_no_issues) as [Hw He].
    split; [apply wf_merge; assumption|]. intros l. rewrite call_errors_merge.
    rewrite errs_at_merge; [|apply Hi|apply Hw|apply Hw]. f_equal.
    destruct (loc_strip p l) as [l'|]; [|reflexivity]. rewrite He; reflexivity.
  - split; [apply wf_src; exact Hi | intros l; cbn; rewrite app_nil_r; reflexivity].
Qed.

Lemma run_wf h : wf (run h).
Proof. apply run_from_ok; [apply Forall_forall; intros c _; apply call_ok_all | apply wf_no_issues]. Qed.

Lemma run_errors h l : errs_at (run h) l = recorded h l.
Proof.
  unfold run. destruct (run_from_ok h) with (i := no_issues) as [_ H];
    [apply Forall_forall; intros c _; apply call_ok_all | apply wf_no_issues|]. rewrite H; reflexivity.
Qed.

Lemma run_key h l : In l (map fst (i_errs (run h))) <-> recorded h l <> [].
Proof.
  rewrite <- run_errors, (errs_at_nil_iff _ _ (run_wf h)).
  destruct (in_dec loc_dec l (map fst (i_errs (run h)))); tauto.
Qed.

(** ** has_issues *)

Lemma has_issues_spec i ls :
  has_issues i ls = true <-> exists l t, In l (asked ls) /\ In (l ++ t) (map fst (i_errs i)).
Proof.
  unfold has_issues. change (match ls with [] => [[]] | _ => ls end) with (asked ls).
  rewrite existsb_exists; split.
  - intros [l [Hl H]]. apply existsb_exists in H as [e [He H]]. apply is_prefix_spec in H as [t Ht].
    exists l, t; split; [exact Hl | rewrite <- Ht; apply in_map; exact He].
  - intros [l [t [Hl H]]]. exists l; split; [exact Hl|]. apply existsb_exists.
    apply in_map_iff in H as [e [He Hin]]. exists e; split; [exact Hin|].
    apply is_prefix_spec; exists t; exact He.
Qed.

Lemma has_issues_run h ls :
  has_issues (run h) ls = true <-> exists l t, In l (asked ls) /\ recorded h (l ++ t) <> [].
Proof.
  rewrite has_issues_spec; split; intros [l [t [H1 H2]]]; exists l, t; (split; [exact H1|]);
    apply run_key; exact H2.
Qed.

(** ** can_proceed *)

Lemma prefixes_spec p l : In p (prefixes l) <-> ancestor p l.
Proof.
  unfold prefixes, ancestor; rewrite in_map_iff; split.
  - intros [n [<- _]]. exists (skipn n l); symmetry; apply firstn_skipn.
  - intros [t ->]. exists (length p). rewrite firstn_app, Nat.sub_diag, firstn_all, firstn_O, app_nil_r.
    split; [reflexivity|]. apply in_seq; rewrite app_length; lia.
Qed.

Lemma can_proceed_spec i ls :
  can_proceed i ls = false <->
  exists l a, In l (asked ls) /\ ancestor a l /\ In a (map fst (i_stop i)).
Proof.
  unfold can_proceed. change (match ls with [] => [[]] | _ => ls end) with (asked ls).
  rewrite <- not_true_iff_false, forallb_forall; split.
  - intros H.
    assert (He : existsb (fun l => existsb (fun p => amem loc_eqb p (i_stop i)) (prefixes l)) (asked ls) = true).
    { destruct (existsb _ (asked ls)) eqn:E; [reflexivity|]. exfalso; apply H. intros l Hl.
      apply forallb_forall; intros p Hp.
      destruct (amem loc_eqb p (i_stop i)) eqn:E2; [|reflexivity].
      rewrite <- not_true_iff_false in E; exfalso; apply E. apply existsb_exists; exists l; split; [exact Hl|].
      apply existsb_exists; exists p; split; assumption. }
    apply existsb_exists in He as [l [Hl He]]. apply existsb_exists in He as [p [Hp He]].
    exists l, p; split; [exact Hl|]; split; [apply prefixes_spec; exact Hp|].
    apply (amem_In _ loc_eqb_eq); exact He.
  - intros [l [a [Hl [Ha Hin]]]] H. specialize (H l Hl). rewrite forallb_forall in H.
    apply prefixes_spec in Ha. specialize (H a Ha). apply negb_true_iff in H.
    apply (amem_In _ loc_eqb_eq) in Hin. congruence.
Qed.

(** Which locations have an entry among the blocking codes. *)
Definition stops (i : issues) (l : loc) : Prop := In l (map fst (i_stop i)).

Lemma stops_lset l l' v (d : list (loc * list N)) :
  In l' (map fst (lset l v d)) <-> l' = l \/ In l' (map fst d).
Proof.
  unfold lset; rewrite aset_keys. destruct (amem loc_eqb l d) eqn:E.
  - apply (amem_In _ loc_eqb_eq) in E. split; [right; assumption | intros [->|H]; assumption].
  - rewrite in_app_iff; cbn; split; intros H.
    + destruct H as [H|[H|[]]]; [right; exact H | left; symmetry; exact H].
    + destruct H as [->|H]; [right; left; reflexivity | left; exact H].
Qed.

Lemma stops_add i e p l l' : stops (add_issue i e p l) l' <-> stops i l' \/ (p = false /\ l' = l).
Proof.
  unfold stops, add_issue; cbn [i_stop]. destruct p.
  - split; [left; assumption | intros [H|[H _]]; [exact H | discriminate]].
  - rewrite stops_lset; tauto.
Qed.

Lemma stops_merge i j p l : dd i -> dd j ->
  (stops (merge i j p) l <-> stops i l \/ exists l', l = p ++ l' /\ In l' (map fst (i_errs j))).
Proof.
  intros Hi Hj; rewrite merge_dd_eq by assumption. clear Hi.
  revert i; generalize (i_errs j) as ents; induction ents as [|[k es] t IH]; intros i; cbn [fold_left map fst In].
  - split; [left; assumption | intros [H|[l' [_ []]]]; exact H].
  - rewrite IH. unfold stops at 1, merge_step; cbn [i_stop fst]. rewrite stops_lset. split.
    + intros [[->|H]|[l' [H1 H2]]].
      * right; exists k; split; [reflexivity | left; reflexivity].
      * left; exact H.
      * right; exists l'; split; [exact H1 | right; exact H2].
    + intros [H|[l' [H1 [<-|H2]]]].
      * left; right; exact H.
      * left; left; exact H1.
      * right; exists l'; split; assumption.
Qed.

Lemma stops_src i l : stops (merge_src i) l <-> stops i l \/ In l (map fst (i_errs i)).
Proof.
  unfold stops, merge_src; cbn [i_stop].
  generalize (i_stop i) as st; induction (i_errs i) as [|[k es] t IH]; intros st; cbn [fold_left map fst In].
  - split; [left; assumption | intros [H|[]]; exact H].
  - rewrite IH. destruct (lget k st) as [cs|] eqn:E.
    + unfold lget in E.
      assert (Hk : In k (map fst st)) by (apply (aget_Some_key _ loc_eqb_eq); exists cs; exact E).
      split; [intros [H|H]; auto | intros [H|[<-|H]]; auto].
    + rewrite stops_lset. split; [intros [[->|H]|H]; auto | intros [H|[<-|H]]; auto].
Qed.

(** ** get *)

Lemma lget_below {V} p (d : list (loc * V)) l : lget l (below p d) = lget (p ++ l) d.
Proof.
  unfold below, lget; induction d as [|[k v] t IH]; cbn [filter map aget fst]; [reflexivity|].
  destruct (is_prefix p k) eqn:E.
  - apply is_prefix_spec in E as [k' ->]. cbn [map aget fst snd].
    rewrite skipn_app, skipn_all, Nat.sub_diag; cbn [app skipn].
    destruct (loc_eqb k' l) eqn:E1, (loc_eqb (p ++ k') (p ++ l)) eqn:E2; try reflexivity; try exact IH.
    + apply loc_eqb_eq in E1 as ->. rewrite loc_eqb_refl in E2; discriminate.
    + apply loc_eqb_eq in E2. apply app_inv_head in E2 as ->. rewrite loc_eqb_refl in E1; discriminate.
  - destruct (loc_eqb k (p ++ l)) eqn:E2; [|exact IH].
    apply loc_eqb_eq in E2 as ->. exfalso. rewrite <- not_true_iff_false in E; apply E.
    apply is_prefix_spec; exists l; reflexivity.
Qed.

Lemma errs_at_get i p l : errs_at (get_issues i p) l = errs_at i (p ++ l).
Proof. unfold errs_at, get_issues; cbn [i_errs]; rewrite lget_below; reflexivity. Qed.

Lemma stops_get i p l : stops (get_issues i p) l <-> stops i (p ++ l).
Proof.
  unfold stops, get_issues; cbn [i_stop].
  rewrite <- !(aget_Some_key _ loc_eqb_eq). change (aget loc_eqb) with (@lget (list N)).
  rewrite lget_below; reflexivity.
Qed.

Lemma below_NoDup {V} p (d : list (loc * V)) : NoDup (map fst d) -> NoDup (map fst (below p d)).
Proof.
  unfold below; induction d as [|[k v] t IH]; cbn [filter map fst]; intros H; [constructor|].
  inversion H as [|? ? Hk Ht]; subst. destruct (is_prefix p k) eqn:E; [|apply IH; exact Ht].
  apply is_prefix_spec in E as [k' ->]. cbn [map fst]. constructor; [|apply IH; exact Ht].
  rewrite skipn_app, skipn_all, Nat.sub_diag; cbn [app skipn].
  intros Hin. apply Hk. rewrite map_map in Hin. apply in_map_iff in Hin as [[k2 v2] [H1 H2]].
  apply filter_In in H2 as [H2 H3]. cbn [fst] in H1, H3. apply is_prefix_spec in H3 as [k3 ->].
  rewrite skipn_app, skipn_all, Nat.sub_diag in H1; cbn [app skipn] in H1. subst k3.
  change (p ++ k') with (fst (p ++ k', v2)). apply in_map; exact H2.
Qed.

(** Merging an extracted report into a report. *)
Lemma merge_get_ok self other p ents :
  dd self -> i_dd other = false ->
  (forall k, In k (map fst ents) -> stops other k) ->
  foldM (merge_entry other p) ents self = Ok (fold_left (merge_step other p) ents self).
Proof.
  revert self; induction ents as [|[k es] t IH]; intros self Hs Ho Hst; cbn [foldM fold_left]; [reflexivity|].
  assert (Hk : exists cs, lget k (i_stop other) = Some cs).
  { apply (aget_Some_key _ loc_eqb_eq). apply Hst; left; reflexivity. }
  destruct Hk as [cs Hcs].
  assert (E : merge_entry other p self (k, es) = Ok (merge_step other p self (k, es))).
  { unfold merge_entry; rewrite Hcs, ?Ho. unfold dd in Hs; rewrite Hs. unfold merge_step; cbn [fst snd].
    unfold stop_at at 4; rewrite Hcs.
    destruct (lget (p ++ k) (i_errs self)), (lget (p ++ k) (i_stop self));
      unfold stop_at; rewrite Hcs; reflexivity. }
  rewrite E; cbn [bind]. apply IH; [reflexivity | exact Ho | intros k' H'; apply Hst; right; exact H'].
Qed.

Lemma merge_get_raises self other p ents k :
  dd self -> i_dd other = false -> In k (map fst ents) -> ~ stops other k ->
  foldM (merge_entry other p) ents self = Raise KeyErr.
Proof.
  revert self; induction ents as [|[k' es] t IH]; intros self Hs Ho Hin Hst; cbn [foldM map fst In] in *; [contradiction|].
  destruct (lget k' (i_stop other)) as [cs|] eqn:E.
  - assert (E2 : merge_entry other p self (k', es) = Ok (merge_step other p self (k', es))).
    { unfold merge_entry; rewrite E, ?Ho. unfold dd in Hs; rewrite Hs. unfold merge_step; cbn [fst snd].
      destruct (lget (p ++ k') (i_errs self)), (lget (p ++ k') (i_stop self));
        unfold stop_at; rewrite E; reflexivity. }
    rewrite E2; cbn [bind]. apply IH; [reflexivity | exact Ho| |exact Hst].
    destruct Hin as [->|H]; [|exact H]. exfalso; apply Hst. apply (aget_Some_key _ loc_eqb_eq).
    exists cs; exact E.
  - unfold merge_entry; rewrite E, Ho. reflexivity.
Qed.

(** ** pop *)

Lemma err_eqb_eq a b : err_eqb a b = true <-> a = b.
Proof.
  assert (Hc : forall x y, ctx_eqb x y = true <-> x = y).
  { induction x as [|s x IH]; intros [|t y]; cbn; split; intros H; try easy.
    - apply andb_true_iff in H as [H1 H2]; apply str_eqb_eq in H1 as ->; f_equal; apply IH; exact H2.
    - injection H as -> ->; rewrite str_eqb_refl; apply IH; reflexivity. }
  unfold err_eqb; rewrite andb_true_iff, N.eqb_eq, Hc. destruct a, b; cbn; split.
  - intros [-> ->]; reflexivity.
  - intros H; injection H as -> ->; split; reflexivity.
Qed.

(** The first error in [pre] different from [e], then [e]: removal hits it. *)
Lemma remove_err_app pre e t : Forall (fun x => e_code x <> e_code e) pre -> remove_err e (pre ++ e :: t) = pre ++ t.
Proof.
  induction pre as [|x pre IH]; intros H; cbn [app remove_err].
  - replace (err_eqb e e) with true by (symmetry; apply err_eqb_eq; reflexivity). reflexivity.
  - inversion H as [|? ? Hx Hp]; subst. destruct (err_eqb x e) eqn:E.
    + apply err_eqb_eq in E as ->; contradiction.
    + f_equal; apply IH; exact Hp.
Qed.

Definition drop_code (c : N) (st : option (list N)) (found : bool) : option (list N) :=
  match st with
  | Some cs => if found && nmem c cs then Some (remove_code c cs) else st
  | None => None
  end.

Lemma nmem_In c l : nmem c l = true <-> In c l.
Proof.
  unfold nmem; rewrite existsb_exists; split.
  - intros [x [H1 H2]]; apply N.eqb_eq in H2 as ->; exact H1.
  - intros H; exists c; split; [exact H | apply N.eqb_refl].
Qed.

Lemma remove_code_absent c l : ~ In c l -> remove_code c l = l.
Proof.
  induction l as [|x t IH]; intros H; cbn [remove_code]; [reflexivity|].
  destruct (N.eqb x c) eqn:E.
  - apply N.eqb_eq in E as ->; exfalso; apply H; left; reflexivity.
  - f_equal; apply IH; intros Hin; apply H; right; exact Hin.
Qed.
Lemma remove_code_not_in c l : NoDup l -> ~ In c (remove_code c l).
Proof.
  induction l as [|x t IH]; intros H; cbn [remove_code]; [easy|]. inversion H; subst.
  destruct (N.eqb x c) eqn:E; [apply N.eqb_eq in E as ->; assumption|].
  intros [->|Hin]; [rewrite N.eqb_refl in E; discriminate | apply IH; assumption].
Qed.
Lemma remove_code_other c d l : d <> c -> (In d (remove_code c l) <-> In d l).
Proof.
  intros Hne; induction l as [|x t IH]; cbn [remove_code]; [reflexivity|].
  destruct (N.eqb x c) eqn:E.
  - apply N.eqb_eq in E as ->. split; [right; assumption | intros [->|H]; [contradiction | exact H]].
  - cbn [In]; rewrite IH; reflexivity.
Qed.

Lemma iter_succ_r {A} (f : A -> A) n x : Nat.iter (S n) f x = Nat.iter n f (f x).
Proof. induction n as [|n IH]; [reflexivity|]. change (f (Nat.iter (S n) f x) = f (Nat.iter n f (f x))). f_equal; exact IH. Qed.

Lemma pop_loop_st f : forall idx c es st,
  exists n, snd (pop_loop f idx c es st) = Nat.iter n (fun s => drop_code c s true) st.
Proof.
  induction f as [|f IH]; intros idx c es st; cbn [pop_loop]; [exists 0; reflexivity|].
  destruct (nth_error es idx) as [e|]; [|exists 0; reflexivity].
  destruct (N.eqb (e_code e) c).
  - destruct (IH (S idx) c (remove_err e es)
      (match st with Some cs => if nmem c cs then Some (remove_code c cs) else st | None => None end)) as [n Hn].
    exists (S n). rewrite Hn. rewrite iter_succ_r. reflexivity.
  - apply IH.
Qed.

(** Running the loop over the suffix [t] with the kept prefix [pre]: the list
    iterator index equals the length of [pre]. *)
Lemma pop_loop_spec f : forall pre t c st,
  Forall (fun x => e_code x <> c) pre -> no_adjacent c t -> length t <= f ->
  fst (pop_loop f (length pre) c (pre ++ t) st) = pre ++ filter (other_code c) t.
Proof.
  induction f as [|f IH]; intros pre t c st Hpre Hna Hf.
  - destruct t; [|cbn in Hf; lia]. cbn. reflexivity.
  - cbn [pop_loop]. rewrite nth_error_app2, Nat.sub_diag by lia.
    destruct t as [|e t]; [cbn; reflexivity|]. cbn [nth_error].
    destruct (N.eqb (e_code e) c) eqn:E.
    + apply N.eqb_eq in E. rewrite remove_err_app by (rewrite E; exact Hpre).
      destruct t as [|e2 t2].
      * cbn [filter]. unfold other_code at 1. rewrite E, N.eqb_refl; cbn [negb].
        rewrite app_nil_r. destruct f as [|f]; cbn [pop_loop]; [reflexivity|].
        rewrite (proj2 (nth_error_None pre (S (length pre)))) by lia. reflexivity.
      * cbn [no_adjacent] in Hna. destruct Hna as [Hna1 Hna2].
        assert (Hc2 : e_code e2 <> c) by (intros H; apply Hna1; split; assumption).
        replace (pre ++ e2 :: t2) with ((pre ++ [e2]) ++ t2) by (rewrite <- app_assoc; reflexivity).
        replace (S (length pre)) with (length (pre ++ [e2])) by (rewrite app_length; cbn; lia).
        rewrite IH.
        -- cbn [filter]. unfold other_code at 2. rewrite E, N.eqb_refl; cbn [negb].
           unfold other_code at 2. apply N.eqb_neq in Hc2; rewrite Hc2; cbn [negb].
           rewrite <- app_assoc; reflexivity.
        -- apply Forall_app; split; [exact Hpre | repeat constructor; exact Hc2].
        -- destruct t2; [exact I | apply Hna2].
        -- cbn in Hf |- *; lia.
    + apply N.eqb_neq in E.
      replace (pre ++ e :: t) with ((pre ++ [e]) ++ t) by (rewrite <- app_assoc; reflexivity).
      replace (S (length pre)) with (length (pre ++ [e])) by (rewrite app_length; cbn; lia).
      rewrite IH.
      * cbn [filter]. unfold other_code at 2. apply N.eqb_neq in E; rewrite E; cbn [negb].
        rewrite <- app_assoc; reflexivity.
      * apply Forall_app; split; [exact Hpre | repeat constructor; exact E].
      * destruct t; [exact I | apply Hna].
      * cbn in Hf; lia.
Qed.

Lemma drop_code_iter c n st : st <> None -> (forall cs, st = Some cs -> NoDup cs) ->
  Nat.iter n (fun s => drop_code c s true) st = match n with 0 => st | S _ => drop_code c st true end.
Proof.
  intros Hst Hnd; destruct n as [|n]; [reflexivity|]. induction n as [|n IH]; [reflexivity|].
  change (drop_code c (Nat.iter (S n) (fun s => drop_code c s true) st) true = drop_code c st true). rewrite IH. destruct st as [cs|]; [|contradiction].
  unfold drop_code; cbn [andb]. destruct (nmem c cs) eqn:E.
  - destruct (nmem c (remove_code c cs)) eqn:E2; [|reflexivity].
    apply nmem_In in E2. exfalso; revert E2; apply remove_code_not_in. apply Hnd; reflexivity.
  - rewrite E; reflexivity.
Qed.

(** Whether the loop dropped the blocking code: it did iff it met the code. *)
Lemma pop_loop_st_spec f pre t c cs :
  NoDup cs -> Forall (fun x => e_code x <> c) pre -> length t <= f ->
  snd (pop_loop f (length pre) c (pre ++ t) (Some cs))
  = drop_code c (Some cs) (existsb (fun e => N.eqb (e_code e) c) t).
Proof.
  revert pre t; induction f as [|f IH]; intros pre t Hnd Hpre Hf.
  - destruct t; [|cbn in Hf; lia]. reflexivity.
  - cbn [pop_loop]. rewrite nth_error_app2, Nat.sub_diag by lia.
    destruct t as [|e t]; [reflexivity|]. cbn [nth_error existsb].
    destruct (N.eqb (e_code e) c) eqn:E.
    + cbn [orb].
      destruct (pop_loop_st f (S (length pre)) c (remove_err e (pre ++ e :: t))
                  (if nmem c cs then Some (remove_code c cs) else Some cs)) as [n Hn].
      rewrite Hn.
      change (if nmem c cs then Some (remove_code c cs) else Some cs) with (drop_code c (Some cs) true).
      rewrite <- (iter_succ_r (fun s => drop_code c s true)). rewrite drop_code_iter; [reflexivity | discriminate|].
      intros cs' H; injection H as <-; exact Hnd.
    + cbn [orb]. apply N.eqb_neq in E.
      replace (pre ++ e :: t) with ((pre ++ [e]) ++ t) by (rewrite <- app_assoc; reflexivity).
      replace (S (length pre)) with (length (pre ++ [e])) by (rewrite app_length; cbn; lia).
      apply IH; [exact Hnd | apply Forall_app; split; [exact Hpre | repeat constructor; exact E] | cbn in Hf; lia].
Qed.

Lemma lget_ldel {V} l l' (d : list (loc * V)) :
  NoDup (map fst d) -> lget l' (ldel l d) = if loc_dec l l' then None else lget l' d.
Proof.
  intros Hnd; unfold lget, ldel. destruct (loc_dec l l') as [->|Hne].
  - apply (aget_adel_same _ loc_eqb_eq); exact Hnd.
  - apply (aget_adel_other _ loc_eqb_eq); exact Hne.
Qed.

(** ** Blocking codes are kept as sets under distinct locations *)

Definition wf_stop (d : list (loc * list N)) : Prop :=
  NoDup (map fst d) /\ Forall (fun e => NoDup (snd e)) d.

Lemma set_add_NoDup n l : NoDup l -> NoDup (set_add n l).
Proof.
  intros H; unfold set_add; destruct (nmem n l) eqn:E; [exact H|].
  apply NoDup_app_snoc; [exact H|]. intros Hin; apply nmem_In in Hin; congruence.
Qed.
Lemma set_add_In n l x : In x (set_add n l) <-> In x l \/ x = n.
Proof.
  unfold set_add; destruct (nmem n l) eqn:E.
  - apply nmem_In in E. split; [left; assumption | intros [H| ->]; assumption].
  - rewrite in_app_iff; cbn [In]; intuition.
Qed.
Lemma set_update_NoDup new : forall l, NoDup l -> NoDup (set_update l new).
Proof.
  induction new as [|n t IH]; intros l H; [exact H|]. apply IH. apply set_add_NoDup; exact H.
Qed.
Lemma set_update_In new : forall l x, In x (set_update l new) <-> In x l \/ In x new.
Proof.
  induction new as [|n t IH]; intros l x; [cbn; tauto|].
  change (set_update l (n :: t)) with (set_update (set_add n l) t).
  rewrite IH, set_add_In; cbn [In]; intuition.
Qed.

Lemma wf_stop_lset l cs d : wf_stop d -> NoDup cs -> wf_stop (lset l cs d).
Proof.
  intros [H1 H2] Hcs; split; [apply (aset_NoDup _ loc_eqb_eq); exact H1|].
  unfold lset; clear H1; induction d as [|[k v] t IH]; cbn [aset]; [repeat constructor; exact Hcs|].
  inversion H2; subst. destruct (loc_eqb k l); constructor; auto.
Qed.
Lemma wf_stop_get d l cs : wf_stop d -> lget l d = Some cs -> NoDup cs.
Proof.
  intros [_ H] E; apply (aget_In _ loc_eqb_eq) in E. rewrite Forall_forall in H. apply (H _ E).
Qed.
Lemma stop_at_NoDup i l : wf_stop (i_stop i) -> NoDup (stop_at i l).
Proof.
  intros H; unfold stop_at; destruct (lget l (i_stop i)) eqn:E; [eapply wf_stop_get; eassumption | constructor].
Qed.
Lemma wf_stop_add i e p l : wf_stop (i_stop i) -> wf_stop (i_stop (add_issue i e p l)).
Proof.
  intros H; unfold add_issue; cbn [i_stop]; destruct p; [exact H|].
  apply wf_stop_lset; [exact H | apply set_add_NoDup, stop_at_NoDup; exact H].
Qed.
Lemma wf_stop_steps other p ents : forall self, wf_stop (i_stop self) ->
  wf_stop (i_stop (fold_left (merge_step other p) ents self)).
Proof.
  induction ents as [|[k es] t IH]; intros self H; cbn [fold_left]; [exact H|].
  apply IH. cbn [merge_step i_stop]. apply wf_stop_lset; [exact H | apply set_update_NoDup, stop_at_NoDup; exact H].
Qed.
Lemma wf_stop_merge i j p : dd i -> dd j -> wf_stop (i_stop i) -> wf_stop (i_stop (merge i j p)).
Proof. intros Hi Hj H; rewrite merge_dd_eq by assumption; apply wf_stop_steps; exact H. Qed.
Lemma wf_stop_src i : wf_stop (i_stop i) -> wf_stop (i_stop (merge_src i)).
Proof.
  unfold merge_src; cbn [i_stop]. generalize (i_stop i) as st.
  induction (i_errs i) as [|[k es] t IH]; intros st H; cbn [fold_left]; [exact H|].
  apply IH; cbn [fst]. destruct (lget k st); [exact H | apply wf_stop_lset; [exact H | constructor]].
Qed.

Lemma run_wf_stop h : wf_stop (i_stop (run h)).
Proof.
  assert (H : forall i, wf i -> wf_stop (i_stop i) -> wf_stop (i_stop (fold_left run_call h i))).
  { induction h as [|c t IH]; intros i Hw Hs; cbn [fold_left]; [exact Hs|].
    apply IH; [apply (call_ok_all c i Hw)|]. destruct c as [e p l|h p|].
    - apply wf_stop_add; exact Hs.
    - rewrite run_call_merge. apply wf_stop_merge; [apply Hw | apply run_wf | exact Hs].
    - apply wf_stop_src; exact Hs. }
  apply H; [apply wf_no_issues | repeat constructor].
Qed.

Lemma pop_errs i l c l' :
  wf i -> no_adjacent c (errs_at i l) ->
  errs_at (snd (pop_issues i l c)) l'
  = if loc_dec l l' then filter (other_code c) (errs_at i l) else errs_at i l'.
Proof.
  intros [Hdd [Hnd Hne]] Hna. unfold pop_issues. unfold errs_at in Hna.
  destruct (lget l (i_errs i)) as [es|] eqn:E.
  - pose proof (pop_loop_spec (length es) [] es c (lget l (i_stop i)) (Forall_nil _) Hna (le_n _)) as Hp.
    cbn [app length] in Hp.
    destruct (pop_loop (length es) 0 c es (lget l (i_stop i))) as [es' st']. cbn [fst] in Hp; subst es'.
    cbn [snd]. unfold errs_at at 1; cbn [i_errs].
    destruct (filter (other_code c) es) as [|x xs] eqn:Ef.
    + rewrite lget_ldel by exact Hnd. destruct (loc_dec l l') as [->|]; [|reflexivity].
      unfold errs_at; rewrite E, Ef; reflexivity.
    + rewrite lget_lset. destruct (loc_dec l l') as [->|]; [|reflexivity].
      unfold errs_at; rewrite E, Ef; reflexivity.
  - cbn [snd]. destruct (loc_dec l l') as [->|]; [|reflexivity]. unfold errs_at; rewrite E; reflexivity.
Qed.

Lemma pop_stop_other i l c l' :
  l <> l' -> lget l' (i_stop (snd (pop_issues i l c))) = lget l' (i_stop i).
Proof.
  intros Hne; unfold pop_issues. destruct (lget l (i_errs i)) as [es|]; [|reflexivity].
  destruct (pop_loop _ _ _ _ _) as [es' [[|c' cs]|]]; cbn [snd i_stop]; [| |reflexivity].
  - unfold lget, ldel; apply (aget_adel_other _ loc_eqb_eq); exact Hne.
  - rewrite lget_lset. destruct (loc_dec l l'); [contradiction | reflexivity].
Qed.

Lemma pop_loop_none f : forall idx c es, snd (pop_loop f idx c es None) = None.
Proof.
  induction f as [|f IH]; intros idx c es; cbn [pop_loop]; [reflexivity|].
  destruct (nth_error es idx) as [e|]; [|reflexivity]. destruct (N.eqb (e_code e) c); apply IH.
Qed.

(** What is left among the blocking codes of the popped location. *)
Lemma pop_stop_same i l c :
  wf_stop (i_stop i) -> In c (map e_code (errs_at i l)) ->
  stop_at (snd (pop_issues i l c)) l = remove_code c (stop_at i l)
  /\ (stops (snd (pop_issues i l c)) l <-> remove_code c (stop_at i l) <> []).
Proof.
  intros Hw Hin. unfold pop_issues, errs_at in *.
  destruct (lget l (i_errs i)) as [es|] eqn:E; [|contradiction].
  destruct (lget l (i_stop i)) as [cs|] eqn:Ec.
  - assert (Hndc : NoDup cs) by (eapply wf_stop_get; eassumption).
    pose proof (pop_loop_st_spec (length es) [] es c cs Hndc (Forall_nil _) (le_n _)) as Hp.
    cbn [app length] in Hp.
    replace (existsb (fun e => N.eqb (e_code e) c) es) with true in Hp.
    2:{ symmetry; apply existsb_exists. apply in_map_iff in Hin as [e [He Hi]].
        exists e; split; [exact Hi | apply N.eqb_eq; exact He]. }
    assert (Hd : drop_code c (Some cs) true = Some (remove_code c cs)).
    { unfold drop_code; cbn [andb]. destruct (nmem c cs) eqn:En; [reflexivity|].
      rewrite remove_code_absent; [reflexivity|]. intros H; apply nmem_In in H; congruence. }
    rewrite Hd in Hp.
    destruct (pop_loop (length es) 0 c es (Some cs)) as [es' st']; cbn [snd] in Hp; subst st'.
    cbn [snd]. assert (Hs : stop_at i l = cs) by (unfold stop_at; rewrite Ec; reflexivity).
    rewrite Hs. unfold stops, stop_at; cbn [i_stop].
    destruct (remove_code c cs) as [|x xs] eqn:Er.
    + rewrite lget_ldel by apply Hw. destruct (loc_dec l l) as [_|Hn]; [|contradiction].
      split; [reflexivity|]. split; [|easy].
      intros H. apply (aget_Some_key _ loc_eqb_eq) in H as [v Hv].
      change (aget loc_eqb l (ldel l (i_stop i))) with (lget l (ldel l (i_stop i))) in Hv.
      rewrite lget_ldel in Hv by apply Hw. destruct (loc_dec l l); [discriminate | contradiction].
    + rewrite lget_lset. destruct (loc_dec l l) as [_|Hn]; [|contradiction].
      split; [reflexivity|]. split; [discriminate|]. intros _. apply stops_lset; left; reflexivity.
  - pose proof (pop_loop_none (length es) 0 c es) as Hp.
    destruct (pop_loop (length es) 0 c es None) as [es' st']; cbn [snd] in Hp; subst st'.
    cbn [snd]. unfold stop_at, stops; cbn [i_stop]. rewrite Ec; cbn [remove_code].
    split; [reflexivity|]. split; [|easy]. intros H. apply (aget_Some_key _ loc_eqb_eq) in H as [v Hv].
    unfold lget in Ec; congruence.
Qed.

(** ** to_dict *)

Lemma names_cons p l : names (p :: l) = part_str p :: names l.
Proof. reflexivity. Qed.

Lemma tree_errors_child es ch k path :
  tree_errors (k :: path) (ONode es ch)
  = match aget str_eqb k ch with Some s => tree_errors path s | None => [] end.
Proof.
  cbn [tree_errors]. induction ch as [|[k' s] t IH]; cbn [aget]; [reflexivity|].
  destruct (list_eq_dec ascii_dec k' k) as [->|Hne].
  - rewrite str_eqb_refl; reflexivity.
  - rewrite (proj2 (str_eqb_neq _ _) Hne). exact IH.
Qed.

Definition path_dec (a b : list str) : {a = b} + {a <> b} := list_eq_dec (list_eq_dec ascii_dec) a b.

Lemma tree_errors_empty path : tree_errors path o_empty = [].
Proof. destruct path; reflexivity. Qed.

Lemma tree_errors_insert l : forall codes t path,
  tree_errors path (o_insert l codes t)
  = tree_errors path t ++ if path_dec (names l) path then codes else [].
Proof.
  induction l as [|p l IH]; intros codes [es ch] path; cbn [o_insert].
  - destruct path as [|k path]; cbn [names map].
    + destruct (path_dec [] []) as [_|H]; [|contradiction]. cbn [tree_errors].
      destruct es; reflexivity.
    + destruct (path_dec [] (k :: path)) as [H|_]; [discriminate|]. rewrite app_nil_r; reflexivity.
  - rewrite names_cons. destruct path as [|k path].
    + destruct (path_dec (part_str p :: names l) []) as [H|_]; [discriminate|].
      rewrite app_nil_r; reflexivity.
    + rewrite !tree_errors_child, (aget_aset _ str_eqb_eq).
      destruct (str_eqb (part_str p) k) eqn:E.
      * apply str_eqb_eq in E as <-. rewrite IH.
        destruct (path_dec (names l) path) as [Heq|Hne],
                 (path_dec (part_str p :: names l) (part_str p :: path)) as [Heq2|Hne2];
          try congruence;
          destruct (aget str_eqb (part_str p) ch); rewrite ?tree_errors_empty; reflexivity.
      * apply str_eqb_neq in E.
        destruct (path_dec (part_str p :: names l) (k :: path)) as [H|_]; [congruence|].
        rewrite app_nil_r; reflexivity.
Qed.

(** Errors of all entries whose location renders to [path], in entry order. *)
Definition errors_named (path : list str) (d : list (loc * list error)) : list error :=
  flat_map (fun e => if path_dec (names (fst e)) path then snd e else []) d.

Lemma tree_errors_dict i path :
  tree_errors path (issues_to_dict i) = map e_code (errors_named path (i_errs i)).
Proof.
  unfold issues_to_dict.
  assert (H : forall d t, tree_errors path (fold_left (fun t e => o_insert (fst e) (map e_code (snd e)) t) d t)
              = tree_errors path t ++ map e_code (errors_named path d)).
  { induction d as [|[k es] d IH]; intros t; cbn [fold_left].
    - cbn; rewrite app_nil_r; reflexivity.
    - rewrite IH, tree_errors_insert, <- app_assoc. unfold errors_named at 2; cbn [flat_map fst snd].
      rewrite map_app. f_equal. destruct (path_dec (names k) path); reflexivity. }
  rewrite H, tree_errors_empty; reflexivity.
Qed.

Lemma errors_named_inj i l :
  NoDup (map fst (i_errs i)) ->
  (forall k, In k (map fst (i_errs i)) -> names k = names l -> k = l) ->
  errors_named (names l) (i_errs i) = errs_at i l.
Proof.
  unfold errs_at; induction (i_errs i) as [|[k es] t IH]; intros Hnd Hinj; [reflexivity|].
  cbn [map fst] in Hnd, Hinj. inversion Hnd as [|? ? Hk Ht]; subst.
  unfold errors_named; cbn [flat_map fst snd]. fold (errors_named (names l) t).
  unfold lget; cbn [aget]. destruct (loc_eqb k l) eqn:E.
  - apply loc_eqb_eq in E as ->. destruct (path_dec (names l) (names l)) as [_|H]; [|contradiction].
    rewrite IH; [|exact Ht|intros k' H; apply Hinj; right; exact H].
    unfold lget. rewrite (proj2 (aget_None _ loc_eqb_eq l t) Hk). apply app_nil_r.
  - destruct (path_dec (names k) (names l)) as [H|_].
    + apply Hinj in H; [|left; reflexivity]. subst k; rewrite loc_eqb_refl in E; discriminate.
    + apply IH; [exact Ht | intros k' H; apply Hinj; right; exact H].
Qed.

(** ** can_proceed over histories *)

Lemma run_snoc h c : run (h ++ [c]) = run_call (run h) c.
Proof. unfold run; rewrite fold_left_app; reflexivity. Qed.

Lemma recorded_app h1 h2 l : recorded (h1 ++ h2) l = recorded h1 l ++ recorded h2 l.
Proof. apply flat_map_app. Qed.

Lemma stops_run h l : stops (run h) l <-> entry_blocks h l.
Proof.
  revert l; induction h as [|c h IH] using rev_ind; intros l.
  - split; [intros [] | intros [h1 [c [h2 [H _]]]]; destruct h1; discriminate].
  - rewrite run_snoc. split.
    + intros H.
      assert (Hold : stops (run h) l -> entry_blocks (h ++ [c]) l).
      { intros Ho; apply IH in Ho as [h1 [c' [h2 [-> Hm]]]].
        exists h1, c', (h2 ++ [c]); split; [rewrite <- app_assoc; reflexivity | exact Hm]. }
      destruct c as [e p l'|h' p|].
      * apply stops_add in H as [H|[-> ->]]; [auto|].
        exists h, (CAdd e false l'), []; split; [reflexivity | split; reflexivity].
      * rewrite run_call_merge in H. apply stops_merge in H; [|apply run_wf|apply run_wf].
        destruct H as [H|[l' [-> H]]]; [auto|].
        exists h, (CMerge h' p), []; split; [reflexivity|]. exists l'; split; [reflexivity|].
        apply run_key; exact H.
      * apply stops_src in H as [H|H]; [auto|].
        exists h, CExport, []; split; [reflexivity | apply run_key; exact H].
    + intros [h1 [c' [h2 [Heq Hm]]]].
      destruct (rev_case h2) as [->|[x [h2' ->]]].
      * apply app_inj_tail in Heq as [<- <-]. destruct c as [e p l'|h' p|].
        -- destruct Hm as [-> ->]. apply stops_add; right; split; reflexivity.
        -- rewrite run_call_merge. apply stops_merge; [apply run_wf|apply run_wf|].
           destruct Hm as [l' [-> Hr]]. right; exists l'; split; [reflexivity | apply run_key; exact Hr].
        -- apply stops_src; right; apply run_key; exact Hm.
      * assert (Ho : stops (run h) l).
        { apply IH. rewrite app_comm_cons, app_assoc in Heq. apply app_inj_tail in Heq as [-> _].
          exists h1, c', h2'; split; [reflexivity | exact Hm]. }
        destruct c as [e p l'|h' p|].
        -- apply stops_add; left; exact Ho.
        -- rewrite run_call_merge. apply stops_merge; [apply run_wf|apply run_wf|left; exact Ho].
        -- apply stops_src; left; exact Ho.
Qed.

Lemma can_proceed_run h ls :
  can_proceed (run h) ls = false <->
  exists l a, In l (asked ls) /\ ancestor a l /\ entry_blocks h a.
Proof.
  rewrite can_proceed_spec; split; intros [l [a [H1 [H2 H3]]]]; exists l, a;
    (split; [exact H1|]); (split; [exact H2|]); apply stops_run; exact H3.
Qed.

Lemma call_blocks_recorded c : forall l, call_blocks c l = true -> call_errors c l <> [].
Proof.
  induction c as [e p l'|h p IH|] using call_ind2; intros l H.
  - cbn in *. destruct (loc_dec l' l); [discriminate|]. rewrite andb_false_r in H; discriminate.
  - rewrite call_blocks_merge in H. rewrite call_errors_merge. destruct (loc_strip p l) as [l'|]; [|discriminate].
    unfold blocking in H. apply existsb_exists in H as [c [Hc Hb]].
    rewrite Forall_forall in IH. specialize (IH c Hc l' Hb).
    intros Hn. apply IH. unfold recorded in Hn. destruct (call_errors c l') as [|x xs] eqn:E; [reflexivity|].
    assert (Hi : In x (flat_map (fun c => call_errors c l') h))
      by (apply in_flat_map; exists c; split; [exact Hc | rewrite E; left; reflexivity]).
    rewrite Hn in Hi; contradiction.
  - discriminate.
Qed.

Lemma recorded_nonempty h c l : In c h -> call_errors c l <> [] -> recorded h l <> [].
Proof.
  intros Hc Hne Hn. destruct (call_errors c l) as [|x xs] eqn:E; [contradiction|].
  assert (Hi : In x (recorded h l))
    by (apply in_flat_map; exists c; split; [exact Hc | rewrite E; left; reflexivity]).
  rewrite Hn in Hi; contradiction.
Qed.

Lemma blocking_recorded h l : blocking h l = true -> recorded h l <> [].
Proof.
  intros H; apply existsb_exists in H as [c [Hc Hb]]. eapply recorded_nonempty; [exact Hc|].
  apply call_blocks_recorded; exact Hb.
Qed.

Lemma blocking_entry h l : blocking h l = true -> entry_blocks h l.
Proof.
  intros H; apply existsb_exists in H as [c [Hc Hb]]. apply in_split in Hc as [h1 [h2 ->]].
  exists h1, c, h2; split; [reflexivity|]. destruct c as [e p l'|h' p|].
  - cbn in Hb. destruct p; [discriminate|]. destruct (loc_dec l' l) as [->|]; [|discriminate].
    split; reflexivity.
  - rewrite call_blocks_merge in Hb. destruct (loc_strip p l) as [l'|] eqn:E; [|discriminate].
    apply loc_strip_spec in E as ->. exists l'; split; [reflexivity | apply blocking_recorded; exact Hb].
  - discriminate.
Qed.

Lemma entry_recorded h l : entry_blocks h l -> recorded h l <> [].
Proof.
  intros [h1 [c [h2 [-> Hm]]]]. destruct c as [e p l'|h' p|].
  - destruct Hm as [-> ->]. eapply recorded_nonempty; [apply in_elt|]. cbn.
    destruct (loc_dec l l); [discriminate | contradiction].
  - destruct Hm as [l' [-> Hr]]. eapply recorded_nonempty; [apply in_elt|].
    rewrite call_errors_merge, loc_strip_app; exact Hr.
  - rewrite recorded_app. intros H; apply app_eq_nil in H as [H _]; contradiction.
Qed.

Lemma entry_blocking h l : merges_blocking h -> entry_blocks h l -> blocking h l = true.
Proof.
  intros Hmb [h1 [c [h2 [-> Hm]]]]. specialize (Hmb h1 c h2 eq_refl).
  unfold blocking; rewrite existsb_app; apply orb_true_iff. destruct c as [e p l'|h' p|].
  - right; cbn [existsb]. destruct Hm as [-> ->]. cbn.
    destruct (loc_dec l l); [reflexivity | contradiction].
  - right; cbn [existsb]; apply orb_true_iff; left. destruct Hm as [l' [-> Hr]].
    rewrite call_blocks_merge, loc_strip_app. apply Hmb; exact Hr.
  - left; apply Hmb; exact Hm.
Qed.

Lemma add_only_merges_blocking h : forallb is_add h = true -> merges_blocking h.
Proof.
  intros H h1 c h2 ->. rewrite forallb_app in H. apply andb_true_iff in H as [_ H].
  cbn in H. destruct c; [exact I|discriminate|discriminate].
Qed.
