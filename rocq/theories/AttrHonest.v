(** Rejected values are reported: lemmas for C20. *)
From Verif Require Import PyBase BaseFacts PyNum Issues IssuesSpec IssuesFacts AttrRep AttrRepSpec AttrRepFacts Value ValueFacts
  Container ContainerSpec ContainerFacts ContainerRW Types TypesSpec Attr AttrSpec AttrFacts.

Lemma untainted_atom v : atomic v -> v <> VInvalid -> untainted v.
Proof. intros Ha Hn l H. inversion H; subst; contradiction. Qed.
Lemma untainted_dict d k x : untainted (VDict d) -> In (KStr k, x) d -> untainted x.
Proof. intros H Hin p Hp. apply (H (LStr k :: p)). eapply ia_dict; eassumption. Qed.
Lemma untainted_list l : untainted (VList l) <-> Forall untainted l.
Proof.
  rewrite Forall_forall. split.
  - intros H x Hx p Hp. apply In_nth_error in Hx as [k Hk]. apply (H (LIdx k :: p)). eapply ia_item; eassumption.
  - intros H p Hp. inversion Hp as [|? k x p' Hk Hx| |]; subst. apply (H x) in Hx; [exact Hx|]. eapply nth_error_In; exact Hk.
Qed.
Lemma untainted_cont d m : untainted (VCont d m) <-> Forall (fun e => untainted (snd e)) d.
Proof.
  rewrite Forall_forall. split.
  - intros H [k x] Hx p Hp. apply (H (LStr k :: p)). eapply ia_key; eassumption.
  - intros H p Hp. inversion Hp as [| |? ? k x p' Hk Hx|]; subst. exact (H (k, x) Hk _ Hx).
Qed.
Lemma untainted_empty : untainted empty_cont.
Proof. apply untainted_cont. constructor. Qed.
Lemma untainted_sget d m k x : untainted (VCont d m) -> sget k d = Some x -> untainted x.
Proof. intros H E. apply untainted_cont in H. rewrite Forall_forall in H. apply (H (k, x)). apply sget_In; exact E. Qed.

Lemma untainted_load d : forall data l2o, Forall (fun e => untainted (snd e)) data ->
  Forall (fun e : dkey * value => match fst e with KStr _ => untainted (conv (snd e)) | KOther _ => True end) d ->
  untainted (load d data l2o).
Proof.
  induction d as [|[[k|n] x] t IH]; intros data l2o Hd Ht; cbn [load].
  - apply untainted_cont; exact Hd.
  - inversion Ht; subst. apply IH; [apply sset_Forall; assumption | assumption].
  - inversion Ht; subst. apply IH; assumption.
Qed.
Lemma untainted_conv v : untainted v -> untainted (conv v) /\ untainted (conv_item v).
Proof.
  induction v as [v Ha|l IH|d IH|data l2o IH] using value_ind2; intros H.
  - destruct v; try contradiction; split; exact H.
  - split; [|exact H]. cbn [conv]. apply untainted_list. apply untainted_list in H. rewrite Forall_forall in *.
    intros x Hx. apply in_map_iff in Hx as [y [<- Hy]]. apply IH; auto.
  - assert (G : untainted (mk_cont (VDict d))).
    { rewrite mk_cont_dict. apply untainted_load; [constructor|]. rewrite Forall_forall in *. intros [[k|n] x] Hx; [|exact I].
      cbn [fst snd]. apply (IH _ Hx). eapply untainted_dict; eassumption. }
    split; exact G.
  - split; exact H.
Qed.

Lemma untainted_get v : forall r x, untainted v -> get_item v r = Ok x -> untainted x.
Proof.
  assert (M : untainted VMissing) by (apply untainted_atom; [exact I | discriminate]).
  induction v as [v Ha|l IH|d IH|data l2o IH] using value_ind3; intros r x Hu H.
  - destruct v; try contradiction; discriminate.
  - discriminate.
  - discriminate.
  - rewrite Forall_forall in IH. rewrite get_item_eq in H.
    destruct (sget (lower (r_schema r)) l2o) as [ext|].
    + destruct (mk_rep [] (r_attr r) (r_sub r) false) as [r'|]; cbn [bind] in H; [|discriminate].
      destruct (sget ext data) as [y|] eqn:E; [|discriminate].
      exact (proj1 (IH _ (sget_In _ _ _ E)) _ _ (untainted_sget _ _ _ _ Hu E) H).
    + destruct (sget (lower (r_attr r)) l2o) as [a|]; [|injection H as <-; exact M].
      destruct (sget a data) as [y|] eqn:E; [|discriminate].
      pose proof (untainted_sget _ _ _ _ Hu E) as Hy. pose proof (IH _ (sget_In _ _ _ E)) as [IHy IHl]. cbn [snd] in *.
      unfold get_sub in H. destruct (r_sub r) as [|c s]; [injection H as <-; exact Hy|].
      destruct y; try (injection H as <-; exact M).
      * apply bind_ok in H as [vs [Hm H]]. injection H as <-. apply untainted_list.
        apply untainted_list in Hy. cbn [items_too] in IHl. rewrite Forall_forall in *.
        apply mapM_ok in Hm. intros z Hz. apply In_nth_error in Hz as [k Hk].
        destruct (Forall2_nth_r _ _ _ Hm _ _ Hk) as [y [Hy1 Hy2]]. cbn beta in Hy2.
        apply bind_ok in Hy2 as [r' [_ Hy2]]. apply nth_error_In in Hy1. exact (IHl y Hy1 _ _ (Hy y Hy1) Hy2).
      * apply bind_ok in H as [r' [_ H]]. exact (IHy _ _ Hy H).
Qed.

Lemma can_proceed_root i : can_proceed i [] = false <-> stops i [].
Proof.
  rewrite can_proceed_spec. split.
  - intros [l [a [[<-|[]] [[t Ht] Hs]]]]. symmetry in Ht. apply app_eq_nil in Ht as [-> _]. exact Hs.
  - intros H. exists [], []. split; [left; reflexivity|]. split; [exists []; reflexivity | exact H].
Qed.

Lemma root_stops i j : report i -> report j -> errs_at j [] <> [] -> stops (merge i j []) [].
Proof.
  intros Hi Hj H. apply report_wf in Hi as [Hi _]. pose proof (report_wf _ Hj) as Hw. destruct Hw as [Hd Hw].
  apply stops_merge; [exact Hi | exact Hd|]. right. exists []. split; [reflexivity|].
  destruct (in_dec loc_dec [] (map fst (i_errs j))) as [Hin|Hin]; [exact Hin|].
  exfalso; apply H. apply errs_at_nil_iff; [split; assumption | exact Hin].
Qed.

Lemma stops_merge_l i j p l : report i -> report j -> stops i l -> stops (merge i j p) l.
Proof.
  intros Hi Hj H. apply report_wf in Hi as [Hi _]. apply report_wf in Hj as [Hj _].
  apply stops_merge; [exact Hi | exact Hj | left; exact H].
Qed.

Lemma subs_errs_In outs n o l : In (n, o) outs -> errs_at (snd o) l <> [] -> subs_errs outs (LStr n :: l) <> [].
Proof.
  induction outs as [|[n' o'] t IH]; intros Hin He; [contradiction|]. cbn [subs_errs]. intros E.
  apply app_eq_nil in E as [E1 E2]. destruct Hin as [Heq|Hin].
  - injection Heq as -> ->. cbn [loc_strip] in E1. destruct (locpart_dec (LStr n) (LStr n)); congruence.
  - exact (IH Hin He E2).
Qed.

Lemma aset_In_cases {V} k (v : V) d k' v' : In (k', v') (sset k v d) -> (k' = k /\ v' = v) \/ In (k', v') d.
Proof.
  unfold sset. induction d as [|[a b] t IH]; cbn [aset]; intros H.
  - destruct H as [H|[]]. injection H as <- <-. left; split; reflexivity.
  - destruct (str_eqb_spec a k) as [->|Hne].
    + destruct H as [H|H]; [injection H as <- <-; left; split; reflexivity | right; right; exact H].
    + destruct H as [H|H]; [right; left; exact H|]. destruct (IH H) as [E|E]; [left; exact E | right; right; exact E].
Qed.

Lemma put_all_In outs : forall d m d' m' k x, put_all outs (VCont d m) = VCont d' m' -> In (k, x) d' ->
  In (k, x) d \/ exists iss, In (k, (x, iss)) outs.
Proof.
  induction outs as [|[n [y iss]] t IH]; intros d m d' m' k x H Hin.
  - injection H as <- <-. left; exact Hin.
  - cbn [put_all fold_left fst snd] in H. destruct (IH _ _ _ _ _ _ H Hin) as [Hd|[iss' Ht]].
    + apply aset_In_cases in Hd as [[-> ->]|Hd]; [right; exists iss; left; reflexivity | left; exact Hd].
    + right; exists iss'; right; exact Ht.
Qed.

Section Honest.
  Context {env : PyEnv}.
  Variable R : issues -> loc -> Prop.
  Hypothesis R_at : forall i l, errs_at i l <> [] -> R i l.
  Hypothesis R_mono : forall i j p l,
    (forall t, errs_at i (l ++ t) <> [] -> errs_at j (p ++ l ++ t) <> []) -> R i l -> R j (p ++ l).

  Lemma R_left i j p l : report i -> report j -> R i l -> R (merge i j p) l.
  Proof.
    intros Hi Hj H. apply (R_mono i (merge i j p) [] l); [|exact H]. intros t Ht. cbn [app].
    rewrite errs_merge by assumption. intros E. apply app_eq_nil in E as [E _]. contradiction.
  Qed.
  Lemma R_right i j l : report i -> report j -> R j l -> R (merge i j []) l.
  Proof.
    intros Hi Hj H. apply (R_mono j (merge i j []) [] l); [|exact H]. intros t Ht. cbn [app].
    rewrite errs_merge by assumption. cbn [loc_strip]. intros E. apply app_eq_nil in E as [_ E]. contradiction.
  Qed.

  Lemma honest_reporting p : honest R p -> reporting p.
  Proof. intros H v v' iss E. apply (H _ _ _ E). Qed.
  Lemma honest_attr_sound a : honest_attr R a -> sound_attr a.
  Proof.
    assert (F : forall ps, Forall (honest R) ps -> Forall reporting ps).
    { intros ps. apply Forall_impl. apply honest_reporting. }
    assert (F2 : forall ps, Forall (fun p => honest R p /\ wholesale p) ps -> Forall reporting ps).
    { intros ps. apply Forall_impl. intros p [H _]. apply honest_reporting; exact H. }
    induction a as [i|i subs cps cds IH] using attr_ind2; intros H; inversion H; subst.
    - constructor; auto.
    - constructor; auto. rewrite Forall_forall in *. auto.
  Qed.

  Lemma one_untainted m i x y iss : untainted x -> one m i x = Ok (y, iss) ->
    untainted y \/ (y = VInvalid /\ errs_at iss [] <> [] /\ stops iss []).
  Proof.
    intros Hu H. unfold one in H. apply bind_ok in H as [[x' iss'] [Ht Hc]]. injection Hc as Hc.
    pose proof (type_report _ _ _ _ _ Ht) as Hr.
    apply type_cases in Ht as [[e He]|[[w [He [Hn Hw]]]|[_ He]]]; injection He as -> ->.
    - right. unfold canon_step in Hc. replace (is_canonical i VInvalid) with true in Hc by (destruct (a_canon i); reflexivity).
      injection Hc as <- <-. split; [reflexivity|]. split; [discriminate | left; reflexivity].
    - assert (Hw' : untainted w) by (destruct Hw as [Hw| ->]; [apply untainted_atom; assumption | exact Hu]).
      unfold canon_step in Hc. destruct (is_canonical i w); [injection Hc as <- <-; left; exact Hw'|].
      destruct (a_validate i); injection Hc as <- <-; [|left; exact Hw'].
      right. split; [reflexivity|]. split; [discriminate | left; reflexivity].
    - unfold canon_step in Hc. destruct (is_canonical i x); [injection Hc as <- <-; left; exact Hu|].
      destruct (a_validate i); injection Hc as <- <-; [|left; exact Hu].
      right. split; [reflexivity|]. split; [discriminate | left; reflexivity].
  Qed.

  (** Values whose items may be Invalid, with the report to go with it. *)
  Lemma core_honest m i v w iss : untainted v -> base_core m i v = Ok (w, iss) ->
    (forall l, invalid_at w l -> R iss l) /\ (has_issues iss [] = false -> untainted w)
    /\ (a_multi i = false -> untainted w \/ (w = VInvalid /\ stops iss []))
    /\ (a_multi i = true -> is_list v = true -> exists ws, w = VList ws /\ Forall (fun x => untainted x \/ x = VInvalid) ws).
  Proof.
    intros Hu H. pose proof (base_core_report _ _ _ _ _ H) as Hr.
    assert (S : one m i v = Ok (w, iss) ->
      (forall l, invalid_at w l -> R iss l) /\ (has_issues iss [] = false -> untainted w)
      /\ (a_multi i = false -> untainted w \/ (w = VInvalid /\ stops iss []))).
    { clear H. intros H. destruct (one_untainted _ _ _ _ _ Hu H) as [Hw|[-> [He Hs]]].
      - split; [intros l Hl; destruct (Hw _ Hl)|]. split; [intros _; exact Hw | intros _; left; exact Hw].
      - split; [intros l Hl; inversion Hl; subst; apply R_at; exact He|].
        split; [intros Hf; exfalso; apply He; apply no_has_issues; assumption | intros _; right; split; [reflexivity | exact Hs]]. }
    unfold base_core in H. destruct (a_multi i) eqn:Em.
    - destruct v; try (destruct (S H) as [S1 [S2 S3]]; split; [exact S1|]; split; [exact S2|]; split; [discriminate | intros _ Hd; discriminate]).
      clear S. pose proof (items_closed m i l 0 [] no_issues report_empty) as Hc. unfold enumerate in H.
      destruct (mapM (one m i) l) as [outs|e] eqn:Em'; [|rewrite Hc in H; discriminate].
      destruct Hc as [iss' [H1 [H2 H3]]]. rewrite H1 in H. cbn [bind app] in H. injection H as <- <-.
      apply untainted_list in Hu. apply mapM_ok in Em'.
      assert (Hout : forall k o, nth_error outs k = Some o -> untainted (fst o) \/ (fst o = VInvalid /\ errs_at (snd o) [] <> [])).
      { intros k [y iss] Hk. destruct (Forall2_nth_r _ _ _ Em' _ _ Hk) as [x [Hx Hone]]. cbn [fst snd].
        rewrite Forall_forall in Hu. destruct (one_untainted _ _ _ _ _ (Hu x (nth_error_In _ _ Hx)) Hone) as [Hy|[Hy [He _]]];
          [left; exact Hy | right; split; assumption]. }
      assert (Hinv : forall k p, invalid_at (VList (map fst outs)) (LIdx k :: p) -> errs_at iss' (LIdx k :: p) <> []).
      { intros k p Hp. inversion Hp as [|? ? x ? Hk Hx| |]; subst. apply nth_map in Hk as [o [Ek <-]].
        destruct (Hout _ _ Ek) as [Ho|[Ho He]]; [destruct (Ho _ Hx)|]. rewrite Ho in Hx. inversion Hx; subst.
        rewrite H3. cbn [errs_at no_issues app]. change (LIdx k) with (LIdx (0 + k)). rewrite items_errs_nth. unfold outcome in *. rewrite Ek. exact He. }
      split; [|split; [|split]].
      + intros p Hp. inversion Hp; subst. apply R_at. apply Hinv. exact Hp.
      + intros Hf p Hp. inversion Hp; subst. apply (Hinv _ _ Hp). apply no_has_issues; assumption.
      + discriminate.
      + intros _ _. eexists; split; [reflexivity|]. apply Forall_forall. intros x Hx. apply In_nth_error in Hx as [k Hk].
        apply nth_map in Hk as [o [Ek <-]].
        destruct (Hout _ _ Ek) as [Ho|[Ho _]]; [left | right]; exact Ho.
    - destruct (S H) as [S1 [S2 S3]]. split; [exact S1|]. split; [exact S2|]. split; [exact S3 | discriminate].
  Qed.

  Lemma procs_honest ps v iss v' iss' : Forall (honest R) ps -> report iss ->
    (forall l, invalid_at v l -> R iss l) -> run_procs ps v iss = Ok (v', iss') ->
    report iss' /\ forall l, invalid_at v' l -> R iss' l.
  Proof.
    intros Hf Hr Hv H.
    refine (run_procs_inv (fun x i => report i /\ forall l, invalid_at x l -> R i l) ps v iss v' iss' _ (conj Hr Hv) H).
    revert Hf; apply Forall_impl. intros p Hp x y j i [Hi Hx] He. destruct (Hp _ _ _ He) as [Hj Hy].
    split; [apply report_merge; assumption|]. intros l Hl. destruct (Hy l Hl) as [H1|H1].
    - apply R_right; assumption.
    - apply R_left; auto.
  Qed.

  Lemma procs_wholesale ps v iss v' iss' : Forall (fun p => honest R p /\ wholesale p) ps -> report iss ->
    untainted v -> run_procs ps v iss = Ok (v', iss') -> untainted v' \/ stops iss' [].
  Proof.
    intros Hf Hr Hv H.
    cut (report iss' /\ (untainted v' \/ stops iss' [])); [intros [_ G]; exact G|].
    refine (run_procs_inv (fun x i => report i /\ (untainted x \/ stops i [])) ps v iss v' iss' _ (conj Hr (or_introl Hv)) H).
    revert Hf; apply Forall_impl. intros p [Hp Hw] x y j i [Hi Hx] He. destruct (Hp _ _ _ He) as [Hj Hy].
    split; [apply report_merge; assumption|]. destruct Hx as [Hx|Hx].
    - destruct (Hw _ _ _ He Hx) as [G|G]; [left; exact G | right; apply root_stops; assumption].
    - right. apply stops_merge_l; assumption.
  Qed.

  (** base_process of honest attributes. *)
  Lemma base_honest m i v w iss : Forall (honest R) (a_parsers i) -> Forall (honest R) (a_dumpers i) ->
    untainted v -> base_process m i v = Ok (w, iss) -> forall l, invalid_at w l -> R iss l.
  Proof.
    intros H1 H2 Hu H. rewrite base_process_eq in H.
    assert (G : (if a_multi i && negb (is_list v) then Ok (fail (e_bad_type ($"list") (scim_type_of v)))
           else let! (parsed, iss) := base_core m i v in
                if has_issues iss [] then Ok (parsed, iss) else run_procs (procs_of m i) parsed iss) = Ok (w, iss) ->
           forall l, invalid_at w l -> R iss l).
    { clear H. intros H l Hl. destruct (a_multi i && negb (is_list v)).
      - injection H as <- <-. inversion Hl; subst. apply R_at. discriminate.
      - apply bind_ok in H as [[p iss1] [Hc H]]. pose proof (base_core_report _ _ _ _ _ Hc) as Hr.
        destruct (core_honest _ _ _ _ _ Hu Hc) as [C1 _].
        destruct (has_issues iss1 []); [injection H as <- <-; apply C1; exact Hl|].
        refine (proj2 (procs_honest _ _ _ _ _ _ Hr C1 H) l Hl). apply procs_of_Forall; assumption. }
    destruct v; try exact (G H). injection H as <- <-. intros l Hl. inversion Hl.
  Qed.

  (** What the complex part sees. *)
  Lemma base_complex m i v w iss :
    Forall (fun p => honest R p /\ wholesale p) (a_parsers i) -> Forall (fun p => honest R p /\ wholesale p) (a_dumpers i) ->
    untainted v -> base_process m i v = Ok (w, iss) ->
    stops iss [] \/ untainted w \/ (a_multi i = true /\ exists ws, w = VList ws /\ Forall (fun x => untainted x \/ x = VInvalid) ws).
  Proof.
    intros H1 H2 Hu H. rewrite base_process_eq in H.
    assert (G : (if a_multi i && negb (is_list v) then Ok (fail (e_bad_type ($"list") (scim_type_of v)))
           else let! (parsed, iss) := base_core m i v in
                if has_issues iss [] then Ok (parsed, iss) else run_procs (procs_of m i) parsed iss) = Ok (w, iss) ->
       stops iss [] \/ untainted w \/ (a_multi i = true /\ exists ws, w = VList ws /\ Forall (fun x => untainted x \/ x = VInvalid) ws)).
    { clear H. intros H. destruct (a_multi i && negb (is_list v)) eqn:El.
      - injection H as <- <-. left. left. reflexivity.
      - apply bind_ok in H as [[p iss1] [Hc H]]. pose proof (base_core_report _ _ _ _ _ Hc) as Hr.
        destruct (core_honest _ _ _ _ _ Hu Hc) as [_ [C2 [C3 C4]]].
        destruct (has_issues iss1 []) eqn:Eh.
        + injection H as <- <-. destruct (a_multi i); [right; right; split; [reflexivity|] | destruct (C3 eq_refl) as [C|[_ C]]; [right; left; exact C | left; exact C]].
          apply C4; [reflexivity|]. cbn [andb] in El. destruct (is_list v); [reflexivity | discriminate].
        + destruct (procs_wholesale (procs_of m i) _ _ _ _ (procs_of_Forall _ _ _ H1 H2) Hr (C2 eq_refl) H) as [G|G];
            [right; left; exact G | left; exact G]. }
    destruct v; try exact (G H). injection H as <- <-. right; left. apply untainted_atom; [exact I | discriminate].
  Qed.

  Lemma untainted_mk_cont x : untainted x \/ x = VInvalid -> untainted (mk_cont x).
  Proof.
    intros [H| ->]; [|apply untainted_empty]. destruct x; try apply untainted_empty; [|exact H].
    apply untainted_conv in H as [H _]. exact H.
  Qed.
  Lemma iter_untainted v l : untainted v -> iter_value v = Ok l -> Forall untainted l.
  Proof.
    intros Hu H. destruct v; try discriminate; injection H as <-.
    - apply Forall_forall. intros x Hx. apply in_map_iff in Hx as [c [<- _]]. apply untainted_atom; [exact I | discriminate].
    - apply untainted_list; exact Hu.
    - apply Forall_forall. intros x Hx. apply in_map_iff in Hx as [[[k|n] y] [<- _]]; (apply untainted_atom; [exact I | discriminate]).
  Qed.

  Lemma gather_In m c subs : forall outs n o, gather m c subs = Ok outs -> In (n, o) outs ->
    exists s x, In s subs /\ n = r_attr (arep s) /\ get_item c (arep s) = Ok x /\ x <> VMissing /\ process s m x = Ok o.
  Proof.
    induction subs as [|s t IH]; intros outs n o H Hin; cbn [gather] in H; [injection H as <-; contradiction|].
    apply bind_ok in H as [x [Hx H]].
    assert (G : x <> VMissing -> (let! o := process s m x in let! rest := gather m c t in Ok ((r_attr (arep s), o) :: rest)) = Ok outs ->
      exists s0 x, In s0 (s :: t) /\ n = r_attr (arep s0) /\ get_item c (arep s0) = Ok x /\ x <> VMissing /\ process s0 m x = Ok o).
    { clear H. intros Hm H. apply bind_ok in H as [o' [H1 H]]. apply bind_ok in H as [rest [H2 H]]. injection H as <-.
      destruct Hin as [Hin|Hin].
      - injection Hin as <- <-. exists s, x. repeat (split; [first [left; reflexivity | reflexivity | assumption]|]). exact H1.
      - destruct (IH _ _ _ H2 Hin) as [s' [x' [Hs' Hr]]]. exists s', x'. split; [right; exact Hs' | exact Hr]. }
    destruct x; try (apply G; [discriminate | exact H]).
    destruct (IH _ _ _ H Hin) as [s' [x' [Hs' Hr]]]. exists s', x'. split; [right; exact Hs' | exact Hr].
  Qed.

  Lemma walk_honest m c subs p iss outs :
    Forall (fun s => forall v w j, untainted v -> process s m v = Ok (w, j) -> forall l, invalid_at w l -> R j l) subs ->
    Forall (fun e => report (snd (snd e))) outs ->
    untainted c -> report iss -> gather m c subs = Ok outs ->
    forall l, invalid_at (put_all outs empty_cont) l -> R (merge_all p outs iss) (p ++ l).
  Proof.
    intros Hs Hrep Hc Hr Hg l Hl.
    destruct (put_all outs empty_cont) as [| | | | | | | | | |d' m'| | | | | |] eqn:Ep;
      try (pose proof (put_all_cont outs empty_cont eq_refl) as Hcont; rewrite Ep in Hcont; discriminate).
    inversion Hl as [| |? ? n y l' Hin Hy|]; subst.
    destruct (put_all_In _ _ _ _ _ _ _ Ep Hin) as [[]|[j Hj]].
    destruct (gather_In _ _ _ _ _ _ Hg Hj) as [s [x [Hin' [Hn [Hx [_ Hp]]]]]].
    rewrite Forall_forall in Hs. pose proof (Hs s Hin' x y j (untainted_get _ _ _ Hc Hx) Hp _ Hy) as HR.
    destruct (merge_all_errs p outs Hrep iss Hr) as [_ He].
    change (LStr n :: l') with ([LStr n] ++ l'). rewrite app_assoc.
    apply (R_mono j _ (p ++ [LStr n]) l'); [|exact HR]. intros t Ht. rewrite He, <- app_assoc, loc_strip_app.
    intros E. apply app_eq_nil in E as [_ E]. revert E. cbn [app]. eapply subs_errs_In; [exact Hj | exact Ht].
  Qed.

  Lemma process_honest a : honest_attr R a -> forall m v w iss, untainted v -> process a m v = Ok (w, iss) ->
    forall l, invalid_at w l -> R iss l.
  Proof.
    induction a as [i|i subs cps cds IH] using attr_ind2; intros Ha m v w iss Hu H.
    - inversion Ha; subst. cbn [process] in H. eapply base_honest; eassumption.
    - pose proof (honest_attr_sound _ Ha) as Hsnd.
      inversion Hsnd as [|? ? ? ? _ Hq1 Hq2 _ _ _ Hss]; subst.
      inversion Ha as [|? ? ? ? Ht Hp1 Hp2 Hc1 Hc2 Hpl Hs]; subst. rewrite process_complex in H.
      apply bind_ok in H as [[v' iss1] [Hb H]]. pose proof (base_report _ _ _ _ _ Hq1 Hq2 Hb) as Hr1.
      assert (Hbase : forall l, invalid_at v' l -> R iss1 l).
      { eapply base_honest; [| |exact Hu | exact Hb]; [revert Hp1 | revert Hp2]; apply Forall_impl; intros q [Hq _]; exact Hq. }
      destruct (negb (can_proceed iss1 []) || match v' with VNone => true | _ => false end) eqn:Eg.
      { injection H as <- <-. exact Hbase. }
      apply orb_false_iff in Eg as [Eg _]. apply negb_false_iff in Eg.
      assert (Hns : ~ stops iss1 []) by (rewrite <- can_proceed_root; congruence).
      destruct (base_complex _ _ _ _ _ Hp1 Hp2 Hu Hb) as [Hst|Hshape]; [contradiction|].
      apply bind_ok in H as [[parsed iss2] [Hc H]].
      assert (Hsub : Forall (fun s => forall v w j, untainted v -> process s m v = Ok (w, j) -> forall l, invalid_at w l -> R j l) subs).
      { rewrite Forall_forall in *. intros s Hin v0 w0 j0. apply IH; auto. }
      assert (Hg : forall c outs, gather m c subs = Ok outs -> Forall (fun e => report (snd (snd e))) outs).
      { intros c. apply gather_report. rewrite Forall_forall in *. intros s Hin v0 w0 iss0. apply process_report; auto. }
      assert (Hr : report iss2 /\ forall l, invalid_at parsed l -> R iss2 l).
      { unfold complex_part in Hc. destruct (a_multi i) eqn:Em.
        - apply bind_ok in Hc as [l [Hit Hc]]. apply bind_ok in Hc as [[items iss3] [Hf Hc]]. injection Hc as <- <-.
          pose proof (complex_items_closed m subs Hpl Hg l 0 [] iss1 Hr1) as Hcl. unfold enumerate in Hf.
          destruct (mapM _ l) as [outs|e] eqn:Emap; [|congruence]. destruct Hcl as [iss' [H1 [H2 H3]]]. rewrite H1 in Hf.
          cbn [app] in Hf. injection Hf as <- <-. split; [exact H2|].
          intros q Hq. inversion Hq as [|? k y q' Hk Hy| |]; subst. apply nth_map in Hk as [o [Ek <-]].
          apply mapM_ok in Emap. destruct (Forall2_nth_r _ _ _ Emap _ _ Ek) as [x [Hx Ho]]. cbn beta in Ho.
          apply bind_ok in Ho as [go [Hgo Ho]]. injection Ho as <-. cbn [fst snd] in *.
          assert (Hux : untainted (mk_cont x)).
          { apply untainted_mk_cont. apply nth_error_In in Hx. destruct Hshape as [Hv'|[_ [ws [-> Hws]]]].
            - left. pose proof (iter_untainted _ _ Hv' Hit) as Hall. rewrite Forall_forall in Hall. auto.
            - injection Hit as <-. rewrite Forall_forall in Hws. auto. }
          pose proof (walk_honest m (mk_cont x) subs [] no_issues go Hsub (Hg _ _ Hgo) Hux report_empty Hgo _ Hy) as HR.
          cbn [app] in HR. change (LIdx k :: q') with ([LIdx k] ++ q'). eapply R_mono; [|exact HR].
          intros t Hne. rewrite H3. cbn [app]. change (LIdx k) with (LIdx (0 + k)). rewrite items_errs_nth. unfold outcome in *. rewrite Ek. cbn [snd].
          intros E. apply app_eq_nil in E as [_ E]. contradiction.
        - rewrite walk_closed in Hc by (exact Hpl || reflexivity). apply bind_ok in Hc as [outs [Hgo Hc]].
          injection Hc as <- <-. destruct (merge_all_errs [] outs (Hg _ _ Hgo) iss1 Hr1) as [Hr2 _]. split; [exact Hr2|].
          intros l Hl. refine (walk_honest m (mk_cont v') subs [] iss1 outs Hsub (Hg _ _ Hgo) _ Hr1 Hgo l Hl).
          apply untainted_mk_cont. destruct Hshape as [Hv'|[Hd _]]; [left; exact Hv' | discriminate]. }
      destruct (has_issues iss2 []); [injection H as <- <-; apply Hr|].
      eapply procs_honest; [|apply Hr|apply Hr|exact H]. destruct m; assumption.
  Qed.
End Honest.
