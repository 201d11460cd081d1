(** Lemmas for crash freedom (C27). *)
From Verif Require Import PyBase BaseFacts PyNum NumFacts NumSpec NumRound Issues IssuesSpec IssuesFacts AttrRep AttrRepSpec AttrRepFacts Value ValueFacts
  Container ContainerSpec ContainerFacts ContainerRW Base64 Types TypesSpec Attr Schema AttrSpec AttrFacts AttrHonest AttrItems PropAttr
  SchemaSpec SchemaFacts SchemaBuild TotalSpec.

Lemma tame_get data k v : Forall (fun e : str * value => tame (snd e)) data -> sget k data = Some v -> tame v.
Proof.
  intros H G. apply sget_In in G. rewrite Forall_forall in H. exact (H _ G).
Qed.
Lemma tame_load d : forall data l2o, tame (VCont data l2o) -> Forall (fun e => fst e <> KStr []) d -> Forall (fun e => tame (conv (snd e))) d ->
  tame (load d data l2o).
Proof.
  induction d as [|[[k|n] x] t IH]; intros data l2o Hg Hk Hd; cbn [load]; [exact Hg| |];
    inversion Hd as [|? ? Hx Ht]; subst; inversion Hk as [|? ? Hk1 Hk2]; subst; apply IH; try assumption.
  inversion Hg as [| | | | | | |? ? Hi He Hf]; subst. constructor.
  - apply index_ok_sset. exact Hi.
  - rewrite sget_sset_other; [exact He|]. intros E. apply (proj1 (lower_nil _)) in E. apply Hk1. cbn [fst]. congruence.
  - cbn [snd fst] in *. revert Hf Hx. clear. intros Hf Hx. apply Forall_forall. intros [k' v'] Hin. cbn [snd].
    induction data as [|[k0 v0] t IH]; cbn [aset sset] in Hin.
    + destruct Hin as [E|[]]. injection E as <- <-. exact Hx.
    + inversion Hf as [|? ? F1 F2]; subst. unfold sset in *. cbn [aset] in Hin. destruct (str_eqb k0 k).
      * destruct Hin as [E|Hin]; [injection E as <- <-; exact Hx|]. rewrite Forall_forall in F2. exact (F2 _ Hin).
      * destruct Hin as [E|Hin]; [injection E as <- <-; exact F1|]. exact (IH F2 Hin).
Qed.
Lemma tame_empty : tame empty_cont.
Proof. constructor; [intros lk k H; discriminate | reflexivity | constructor]. Qed.
Lemma tame_conv v : tame v -> tame (conv v) /\ tame (conv_item v).
Proof.
  induction v as [v Ha|l IH|d IH|data l2o IH] using value_ind2; intros Hj.
  - destruct v; try contradiction; split; exact Hj.
  - split; [|exact Hj]. inversion Hj as [| | | | |l' Hl| |]; subst. cbn [conv]. constructor. apply Forall_map.
    rewrite Forall_forall in *. intros x Hx. apply (IH x Hx), Hl, Hx.
  - assert (E : tame (mk_cont (VDict d))).
    { rewrite mk_cont_dict. inversion Hj as [| | | | | |d' Hk Hv|]; subst. apply tame_load; [apply tame_empty | exact Hk|].
      rewrite Forall_forall in *. intros e He. apply (IH e He), Hv, He. }
    split; exact E.
  - split; exact Hj.
Qed.
Lemma tame_mk_cont v : tame v -> tame (mk_cont v).
Proof.
  intros H. destruct v; try exact tame_empty; try exact H. exact (proj1 (tame_conv _ H)).
Qed.

Section Env.
  Context {env : PyEnv}.

  Lemma type_total m t v : tame v -> exists o, type_proc m t v = Ok o.
  Proof.
    intros H. destruct t; cbn [type_proc]; try (eexists; reflexivity).
    - unfold decimal_proc. destruct (is_int v) eqn:E; [|eexists; reflexivity].
      destruct v; try discriminate; cbn [integer_proc type_check is_int pass bind to_float].
      + destruct b; eexists; reflexivity.
      + inversion H as [| |? Hz| | | | |]; subst. destruct (float_of_int_spec z) as [[G _]|[_ [f [-> _]]]]; [contradiction|]. eexists; reflexivity.
    - unfold integer_proc. destruct v; try (eexists; reflexivity). inversion H; subst. cbn [int_of_float bind].
      destruct (feqb _ _); eexists; reflexivity.
    - unfold binary_proc. destruct v; try (eexists; reflexivity). inversion H as [| | | |? Hs| | |]; subst. unfold validate_encoding. rewrite Hs.
      destruct (b64decode s); [|eexists; reflexivity]. destruct (str_eqb _ s); eexists; reflexivity.
  Qed.

  Lemma type_typed m t v w : type_proc m t v = Ok (w, no_issues) -> of_type t w.
  Proof.
    assert (C : forall ok name, Ok (type_check ok name v) = Ok (w, no_issues) -> ok = true /\ w = v).
    { intros ok name E. unfold type_check in E. destruct ok; [|discriminate]. injection E as <-. auto. }
    intros H. destruct t; cbn [type_proc of_type] in *.
    - exact I.
    - apply C in H as [H ->]. destruct v; try discriminate. eexists; reflexivity.
    - unfold decimal_proc in H. destruct (is_int v) eqn:E.
      + destruct v; try discriminate; cbn [integer_proc type_check is_int pass bind to_float] in H;
          apply bind_ok in H as [w0 [Hw H]]; apply bind_ok in Hw as [f [_ Hw]]; injection Hw as <-; injection H as <-; eexists; reflexivity.
      + apply C in H as [H ->]. destruct v; try discriminate. eexists; reflexivity.
    - unfold integer_proc in H. destruct v; try (apply C in H as [H ->]; exact H).
      apply bind_ok in H as [z [_ H]]. destruct (feqb (fint z) f); [injection H as <-; reflexivity | apply C in H as [H _]; discriminate].
    - apply C in H as [H ->]. destruct v; try discriminate. eexists; reflexivity.
    - unfold binary_proc in H. destruct v; try (apply C in H as [H _]; discriminate).
      apply bind_ok in H as [[e|] [_ H]]; [discriminate|]. injection H as <-. eexists; reflexivity.
    - unfold external_proc in H. destruct v; try (apply C in H as [H _]; discriminate).
      destruct (env_abs_url s); [|discriminate]. injection H as <-. eexists; reflexivity.
    - apply C in H as [H ->]. destruct v; try discriminate. eexists; reflexivity.
    - apply C in H as [H ->]. destruct v; try discriminate. eexists; reflexivity.
    - destruct m.
      + unfold datetime_parse in H. destruct v; try (apply C in H as [H _]; discriminate).
        destruct (env_fromiso s); [|discriminate]. injection H as <-. left. eexists; reflexivity.
      + unfold datetime_dump in H. destruct v; try (apply C in H as [H _]; discriminate). injection H as <-. right; eexists; reflexivity.
    - apply C in H as [H ->]. exact H.
  Qed.

  Lemma one_total m i x : tame x -> exists o, one m i x = Ok o.
  Proof. intros H. destruct (type_total m (a_type i) x H) as [[y j] E]. unfold one. rewrite E. cbn [bind]. eexists; reflexivity. Qed.

  Lemma one_typed m i x y j : one m i x = Ok (y, j) -> (forall l, errs_at j l = []) -> of_type (a_type i) y.
  Proof.
    intros H He. unfold one in H. apply bind_ok in H as [[x' j'] [Ht H]]. injection H as H.
    pose proof (type_cases _ _ _ _ Ht) as Hc. unfold canon_step in H.
    assert (Hno : j' = no_issues).
    { destruct Hc as [[e Ef]|[[w [Ef _]]|[_ Ef]]]; injection Ef as -> ->; try reflexivity. exfalso.
      assert (G : errs_at j [] <> []); [|apply G; apply He].
      destruct (is_canonical i VInvalid); [|destruct (a_validate i)]; injection H as _ <-; vm_compute; discriminate. }
    subst j'. destruct (is_canonical i x'); [injection H as <- _; eapply type_typed; exact Ht|].
    destruct (a_validate i); [|injection H as <- _; eapply type_typed; exact Ht].
    injection H as _ <-. specialize (He []). vm_compute in He. discriminate.
  Qed.

  Lemma base_core_total m i v : tame v -> (a_multi i = true -> is_list v = true) ->
    exists w j, base_core m i v = Ok (w, j) /\ report j /\ ((forall l, errs_at j l = []) -> typed i w)
    /\ (a_type i = TComplex -> if a_multi i then exists xs ys, v = VList xs /\ w = VList ys /\ Forall (fun y => y = VInvalid \/ tame y) ys
                               else w = VInvalid \/ tame w).
  Proof.
    intros Hv Hm. unfold base_core, typed. destruct (a_multi i).
    - destruct v; try (specialize (Hm eq_refl); discriminate). inversion Hv as [| | | | |? Hl| |]; subst.
      destruct (mapM_total (one m i) l) as [outs Ho].
      { intros x Hx. apply one_total. rewrite Forall_forall in Hl. auto. }
      pose proof (items_closed m i l 0 [] no_issues report_empty) as Hc. rewrite Ho in Hc. destruct Hc as [iss' [Hf [Hr He]]].
      unfold enumerate. rewrite Hf. cbn [bind app]. eexists _, _. split; [reflexivity|]. split; [exact Hr|]. apply mapM_ok in Ho. split.
      + intros Hno. eexists. split; [reflexivity|]. apply Forall_forall. intros y Hy. apply in_map_iff in Hy as [[y' j'] [<- Hy]].
        apply In_nth_error in Hy as [k Hk]. destruct (Forall2_nth_r _ _ _ Ho _ _ Hk) as [x [_ Hx]]. cbn [fst]. eapply one_typed; [exact Hx|].
        intros l'. specialize (He (LIdx k :: l')). rewrite Hno in He. change (errs_at no_issues (LIdx k :: l')) with (@nil error) in He. cbn [app] in He.
        change (LIdx k) with (LIdx (0 + k)) in He. rewrite items_errs_nth in He. unfold outcome in *. rewrite Hk in He. cbn [snd] in He. symmetry. exact He.
      + intros Ht. exists l, (map fst outs). split; [reflexivity|]. split; [reflexivity|]. apply Forall_forall. intros y Hy.
        apply in_map_iff in Hy as [[y' j'] [<- Hy]]. apply In_nth_error in Hy as [k Hk]. destruct (Forall2_nth_r _ _ _ Ho _ _ Hk) as [x [Hx1 Hx]].
        unfold one in Hx. rewrite Ht in Hx. apply bind_ok in Hx as [[x' jj] [G Hx]]. injection Hx as Hx. cbn [fst].
        apply nth_error_In in Hx1. rewrite Forall_forall in Hl. specialize (Hl _ Hx1).
        assert (Hx' : x' = VInvalid \/ x' = x) by (apply type_complex in G as [[e [G _]]|[G _]]; injection G as -> _; auto).
        unfold canon_step in Hx. destruct (is_canonical i x'); [injection Hx as <- _|destruct (a_validate i); injection Hx as <- _];
          try (left; reflexivity); destruct Hx' as [->| ->]; auto.
    - assert (E : match v with VList l => one m i v | _ => one m i v end = one m i v) by (destruct v; reflexivity).
      destruct (one_total m i v Hv) as [[w j] Ho]. exists w, j. split; [destruct v; exact Ho|]. split; [eapply one_report; exact Ho|].
      split; [eapply one_typed; exact Ho|]. intros Ht. unfold one in Ho. rewrite Ht in Ho. apply bind_ok in Ho as [[x' jj] [G Hx]]. injection Hx as Hx.
      assert (Hx' : x' = VInvalid \/ x' = v) by (apply type_complex in G as [[e [G _]]|[G _]]; injection G as -> _; auto).
      unfold canon_step in Hx. destruct (is_canonical i x'); [injection Hx as <- _|destruct (a_validate i); injection Hx as <- _];
        try (left; reflexivity); destruct Hx' as [->| ->]; auto.
  Qed.

  Lemma quiet_run (ok : value -> Prop) ps v iss : quiet ok ps -> ok v -> exists o, run_procs ps v iss = Ok o.
  Proof.
    intros [->|[p [-> H]]] Hv; [eexists; reflexivity|]. destruct (H v Hv) as [[w j] E]. unfold run_procs. cbn [foldM fst snd]. rewrite E.
    cbn [bind]. eexists; reflexivity.
  Qed.

  Lemma gather_total m subs c : tame c -> is_cont c = true -> Forall (fun s => plain_rep (arep s)) subs ->
    Forall (fun s => forall v, tame v -> exists o, process s m v = Ok o) subs -> exists outs, gather m c subs = Ok outs.
  Proof.
    intros Hc Hi Hp H. destruct c; try discriminate. inversion Hc as [| | | | | | |? ? Hix He Hf]; subst.
    induction H as [|s t Hs Ht IH]; cbn [gather]; [eexists; reflexivity|]. inversion Hp as [|? ? [P1 [P2 [P3 P4]]] Hp']; subst.
    destruct (IH Hp') as [outs Ho].
    assert (G : exists x, get_item (VCont data l2o) (arep s) = Ok x /\ (x = VMissing \/ tame x)).
    { rewrite get_item_eq, P1. change (lower []) with (@nil ascii). rewrite He, P2.
      destruct (sget (lower (r_attr (arep s))) l2o) as [k|] eqn:E; [|exists VMissing; auto].
      destruct (Hix _ _ E) as [_ Hin]. apply sget_Some_key in Hin as [x Hx]. rewrite Hx. exists x. split; [reflexivity|].
      right. eapply tame_get; eassumption. }
    destruct G as [x [-> Hx]]. cbn [bind]. rewrite Ho. destruct Hx as [->|Hx]; [eexists; reflexivity|].
    destruct (Hs x Hx) as [o E]. destruct x; rewrite ?E; cbn [bind]; eexists; reflexivity.
  Qed.

  Lemma gather_tidy m c subs outs : distinct_names subs -> Forall (fun s => plain_rep (arep s)) subs -> gather m c subs = Ok outs ->
    tidy (put_all outs empty_cont).
  Proof. intros H1 H2 H3. exact (proj2 (put_all_tidy m c subs outs H1 H2 H3)). Qed.

  Lemma process_total a : sound_attr a -> calm_attr a -> forall m v, tame v -> exists o, process a m v = Ok o.
  Proof.
    induction a as [i|i subs cps cds IH] using attr_ind2; intros Ha Hq m v Hv.
    - inversion Hq as [? Q1 Q2|]; subst. cbn [process]. rewrite base_process_eq. destruct v; try (eexists; reflexivity).
      all: match goal with |- exists o, (if a_multi ?i && negb (is_list ?v) then _ else _) = Ok o =>
             destruct (a_multi i && negb (is_list v)) eqn:Em; [eexists; reflexivity|];
             destruct (base_core_total m i v Hv) as [w [j [E [Hr [Ht _]]]]];
               [intros G; rewrite G in Em; apply negb_false_iff in Em; exact Em|];
             rewrite E; cbn [bind]; destruct (has_issues j []) eqn:Eh; [eexists; reflexivity|];
             apply (quiet_run (typed i)); [destruct m; assumption | apply Ht; apply no_has_issues; assumption] end.
    - inversion Hq as [|? ? ? ? Q1 Q2 Q3 Q4 Q5 Q6]; subst. inversion Ha as [|? ? ? ? Ht Hp1 Hp2 Hc1 Hc2 Hpl Hs]; subst.
      rewrite process_complex, base_process_eq.
      assert (Hpr : procs_of m i = []) by (destruct m; assumption). rewrite Hpr.
      assert (Hsub : Forall (fun s => forall v, tame v -> exists o, process s m v = Ok o) subs).
      { rewrite Forall_forall in *. intros s Hin. apply IH; auto. }
      assert (Hgm : forall y, y = VInvalid \/ tame y -> exists outs, gather m (mk_cont y) subs = Ok outs).
      { intros y Hy. apply gather_total; [|apply mk_cont_is_cont|exact Hpl|exact Hsub]. destruct Hy as [->|Hy]; [exact tame_empty | apply tame_mk_cont; exact Hy]. }
      assert (Hgr : forall c outs, gather m c subs = Ok outs -> Forall (fun e => report (snd (snd e))) outs).
      { intros c outs. exact (gather_reports m _ Ha c outs). }
      assert (Hfin : forall o iss, assembled_value (a_multi i) o ->
        exists r, (if has_issues iss [] then Ok (o, iss) else run_procs (match m with MParse => cps | MDump => cds end) o iss) = Ok r).
      { intros o iss Ho. destruct (has_issues iss []); [eexists; reflexivity|]. apply (quiet_run (assembled_value (a_multi i))); [destruct m; assumption | exact Ho]. }
      destruct v; try (eexists; reflexivity).
      all: match goal with |- exists o, (let! _ := (if a_multi ?i && negb (is_list ?v) then _ else _) in _) = Ok o =>
             destruct (a_multi i && negb (is_list v)) eqn:Em;
             [ cbn [bind fail]; eexists; reflexivity |];
             destruct (base_core_total m i v Hv) as [w [j [E [Hr [_ Hcx]]]]];
               [intros G; rewrite G in Em; apply negb_false_iff in Em; exact Em|];
             rewrite E; cbn [bind]; specialize (Hcx Ht) end.
      all: match goal with |- exists o, (let! (v', iss) := (if ?b then _ else _) in _) = Ok o =>
             assert (Ee : (if b then Ok (w, j) else run_procs [] w j) = Ok (w, j)) by (destruct b; reflexivity); rewrite Ee; clear Ee; cbn [bind] end.
      all: match goal with |- exists o, (if ?b then _ else _) = Ok o => destruct b; [eexists; reflexivity|] end.
      all: unfold complex_part; destruct (a_multi i) eqn:Emm.
      all: try (destruct Hcx as [xs [ys [_ [-> Hys]]]]; cbn [iter_value bind];
        destruct (mapM_total (fun c => let! outs := gather m (mk_cont c) subs in Ok (put_all outs empty_cont, merge_all [] outs no_issues)) ys) as [outs Ho];
          [intros y Hy; rewrite Forall_forall in Hys; destruct (Hgm y (Hys y Hy)) as [g Hg]; rewrite Hg; eexists; reflexivity|];
        pose proof (complex_items_closed m subs Hpl Hgr ys 0 [] j Hr) as Hc; rewrite Ho in Hc; destruct Hc as [iss' [Hf _]];
        unfold enumerate; rewrite Hf; cbn [bind app]; apply Hfin; eexists; split; [reflexivity|]; apply Forall_forall;
        intros y Hy; apply in_map_iff in Hy as [[y' j'] [<- Hy]]; apply mapM_ok in Ho; apply In_nth_error in Hy as [k Hk];
        destruct (Forall2_nth_r _ _ _ Ho _ _ Hk) as [x [_ Hx]]; apply bind_ok in Hx as [g [Hg Hx]]; injection Hx as <- _; cbn [fst];
        eapply gather_tidy; eassumption).
      all: destruct (Hgm w Hcx) as [outs Hg]; rewrite walk_closed by (exact Hpl || reflexivity); rewrite Hg; cbn [bind]; apply Hfin;
        cbn [assembled_value]; eapply gather_tidy; eassumption.
  Qed.
End Env.
