(** Lemmas about requests that are always answered (C82). *)
From Verif Require Import PyBase BaseFacts PyNum Issues IssuesSpec IssuesFacts AttrRep AttrRepSpec AttrRepFacts Value ValueFacts
  Container ContainerSpec ContainerFacts ContainerRW Types TypesSpec Attr Schema AttrSpec AttrFacts AttrHonest AttrItems PropAttr
  SchemaSpec SchemaFacts SchemaBuild PropSchema TotalSpec TotalFacts Presence PresenceSpec PresenceFacts Requests PatchFacts RequestSpec RequestFacts BodyFacts PutFacts AnswerSpec.

(** A container whose index and data agree. *)
Definition solid (c : value) : Prop :=
  exists d l, c = VCont d l /\ idx l /\ NoDup (map fst l) /\ sget [] l = None /\ forall lk k, sget lk l = Some k -> sget k d <> None.
(** What a complex attribute can leave. *)
Definition fine_value (a : attribute) (x : value) : Prop :=
  match a with
  | MkAttr _ None => True
  | MkAttr i (Some _) => x = VInvalid \/ x = VNone \/ if a_multi i then exists l, x = VList l /\ Forall solid l else solid x
  end.

Lemma tidy_solid y : tidy y -> solid y.
Proof.
  intros H. destruct (tidy_leafy y H) as [d [l [E [H1 [H2 H3]]]]]. exists d, l. split; [exact E|]. split; [exact H1|]. split; [exact H2|]. split; [exact H3|].
  destruct H as [d' [E' _]]. rewrite E in E'. injection E' as <- ->. intros lk k G. clear - G. unfold sget in *. induction d as [|[n v] t IH]; cbn [map fst aget] in *; [discriminate|].
  destruct (str_eqb (lower n) lk); [injection G as <-; rewrite str_eqb_refl; discriminate|]. destruct (str_eqb n k); [discriminate | exact (IH G)].
Qed.

Lemma solid_get c n : solid c -> exists x, get_item c (leaf n) = Ok x.
Proof.
  intros [d [l [-> [_ [_ [H H1]]]]]]. rewrite leaf_get by exact H. destruct (sget (lower n) l) as [k|] eqn:E; [|eexists; reflexivity].
  destruct (sget k d) as [x|] eqn:E2; [eexists; reflexivity | exfalso; exact (H1 _ _ E E2)].
Qed.
Lemma solid_del c n : solid c -> exists c', del_item c (leaf n) = Ok c' /\ solid c'.
Proof.
  intros [d [l [-> [Hi [Hn [He Ht]]]]]]. rewrite del_item_eq. cbn [leaf r_schema r_attr r_sub]. change (lower []) with (@nil ascii). rewrite He.
  destruct (sget (lower n) l) as [k|] eqn:Ek; [|eexists; split; [reflexivity|]; exists d, l; auto].
  destruct (sget k d) as [x|] eqn:Ed; [|exfalso; exact (Ht _ _ Ek Ed)]. eexists. split; [reflexivity|]. eexists _, _. split; [reflexivity|].
  split; [apply idx_sdel; assumption|]. split; [apply NoDup_sdel; exact Hn|]. split.
  - destruct (str_dec [] (lower n)) as [E|E]; [rewrite <- E; apply sget_sdel_same; exact Hn|]. rewrite sget_sdel_other by exact E. exact He.
  - intros lk k2 G. destruct (str_dec lk (lower n)) as [->|N]; [rewrite sget_sdel_same in G by exact Hn; discriminate|]. rewrite sget_sdel_other in G by exact N.
    pose proof (Hi _ _ Ek). pose proof (Hi _ _ G). rewrite sget_sdel_other by congruence. exact (Ht _ _ G).
Qed.

Section Env.
  Context {env : PyEnv}.

  Lemma process_fine a v v' iss : sound_attr a -> distinct_names (sub_attrs a) -> calm_attr a -> standard a -> process a MParse v = Ok (v', iss) -> fine_value a v'.
  Proof.
    intros Ha Hd Hq Hst H. destruct a as [i [[[subs cps] cds]|]]; [|exact I]. cbn [sub_attrs standard fine_value] in *.
    pose proof (subs_plain _ Ha) as Hpl. cbn [sub_attrs] in Hpl. inversion Hq as [|? ? ? ? Q1 Q2 Q3 Q4 Q5 Q6]; subst. inversion Ha as [|? ? ? ? Ht Hp1 Hp2 Hc1 Hc2 Hpl' Hs]; subst.
    rewrite process_complex in H. apply bind_ok in H as [[x js] [Hb H]]. rewrite base_process_eq in Hb. cbn [procs_of] in Hb. rewrite Q1 in Hb.
    assert (B : x = VNone \/ x = VInvalid /\ can_proceed js [] = false \/ (can_proceed js [] = true /\ (a_multi i = true -> exists ys, x = VList ys)) \/ (a_multi i = false /\ x = VInvalid)).
    { assert (D : v = VNone \/ (if a_multi i && negb (is_list v) then Ok (fail (e_bad_type ($"list") (scim_type_of v))) else let! (parsed, iss) := base_core MParse i v in if has_issues iss [] then Ok (parsed, iss) else run_procs [] parsed iss) = Ok (x, js)) by (destruct v; auto).
      destruct D as [->|D]; [injection Hb as <- _; left; reflexivity|]. clear Hb. right. destruct (a_multi i && negb (is_list v)) eqn:Em; [injection D as <- <-; left; split; reflexivity|].
      apply bind_ok in D as [[w j] [Hw D]]. assert (E : w = x /\ j = js) by (destruct (has_issues j []); injection D as <- <-; auto). destruct E as [-> ->]. clear D.
      destruct (a_multi i) eqn:Emm.
      - cbn [andb] in Em. destruct v; try discriminate Em. unfold base_core in Hw. rewrite Emm in Hw. apply bind_ok in Hw as [[items k] [Hf Hw]]. injection Hw as <- <-. right. left.
        split; [|intros _; eexists; reflexivity]. destruct (can_proceed k []) eqn:E; [reflexivity|]. apply can_proceed_root in E. exfalso. revert E. eapply items_no_stop; [apply report_empty| |exact Hf]. intros [].
      - assert (Ho : one MParse i v = Ok (x, js)) by (unfold base_core in Hw; rewrite Emm in Hw; destruct v; exact Hw). unfold one in Ho. rewrite Ht in Ho. apply bind_ok in Ho as [[x' jj] [G Hx]]. injection Hx as Hx.
        unfold canon_step in Hx. apply type_complex in G as [[e [G _]]|[G _]]; injection G as -> ->.
        + right. right. split; [reflexivity|]. cbn [is_canonical] in Hx. injection Hx as <- _. reflexivity.
        + destruct (is_canonical i v); [injection Hx as <- <-|destruct (a_validate i); injection Hx as <- <-].
          * right. left. rewrite merge_nil. split; [reflexivity | discriminate].
          * right. right. split; reflexivity.
          * right. left. rewrite merge_nil. split; [reflexivity | discriminate]. }
    destruct (negb (can_proceed js []) || match x with VNone => true | _ => false end) eqn:Eg.
    { injection H as <- _. destruct B as [->|[[-> _]|[[B1 B2]|[_ ->]]]]; auto. rewrite B1 in Eg. cbn [negb orb] in Eg. destruct x; try discriminate Eg. auto. }
    right. right. apply orb_false_iff in Eg as [Eg1 Eg2]. apply negb_false_iff in Eg1.
    apply bind_ok in H as [[parsed ks] [Hc H]].
    assert (Hwalk : forall c p j y k, walk MParse c p subs empty_cont j = Ok (y, k) -> solid y).
    { intros c p j y k E. rewrite walk_closed in E by (exact Hpl || reflexivity). apply bind_ok in E as [outs [Hg E]]. injection E as <- _.
      apply tidy_solid. exact (proj2 (put_all_tidy _ _ _ _ Hd Hpl Hg)). }
    unfold complex_part in Hc. destruct (a_multi i) eqn:Emm.
    - apply bind_ok in Hc as [l [_ Hc]]. apply bind_ok in Hc as [[items ks'] [Hf Hc]]. injection Hc as <- _.
      assert (Q : Forall solid items).
      { change ((fun st : list value * issues => Forall solid (fst st)) (items, ks')). revert Hf.
        apply (foldM_inv _ (fun st : list value * issues => Forall solid (fst st))); [|constructor].
        intros [acc j] e [acc' j'] _ Hacc E. unfold complex_items in E. apply bind_ok in E as [[y k] [E1 E]]. injection E as <- _. cbn [fst snd] in *.
        apply Forall_app. split; [exact Hacc|]. constructor; [|constructor]. exact (Hwalk _ _ _ _ _ E1). }
      exists items. split; [|exact Q]. destruct (has_issues ks []); [injection H as <- _; reflexivity|]. destruct Hst as [->|[_ ->]]; cbn [run_procs foldM] in H.
      + injection H as <- _. reflexivity.
      + apply bind_ok in H as [[w k2] [H1 H]]. injection H as <- _. apply bind_ok in H1 as [[w' k3] [H1 H2]]. injection H2 as <- _.
        unfold single_primary in H1. cbn [fst] in H1. apply bind_ok in H1 as [l1 [Hl H1]]. apply bind_ok in H1 as [ps [_ H1]]. injection Hl as <-. injection H1 as <- _. reflexivity.
    - apply Hwalk in Hc. destruct (has_issues ks []); [injection H as <- _; exact Hc|]. destruct Hst as [->|[Hst _]]; [|discriminate Hst]. injection H as <- _. exact Hc.
  Qed.
End Env.

(** ** Bodies as the parser leaves them *)

Section Whole.
  Variables (main : str) (uris : list str) (tops : list attribute) (fine : attribute -> value -> Prop).

  Definition fits_with (lk : str) (x : value) : Prop := forall a, In a tops -> lower (r_attr (arep a)) = lk -> fine a x.
  Definition shelved_with (c : value) : Prop :=
    exists d l, c = VCont d l /\ idx l /\ NoDup (map fst l) /\ sget [] l = None
    /\ forall lk k, sget lk l = Some k -> exists x, sget k d = Some x /\ fits_with lk x.
  Definition whole_with (c : value) : Prop :=
    exists d l, c = VCont d l /\ idx l /\ NoDup (map fst l) /\ sget (lower main) l = None
    /\ (forall u, In u uris -> sget (lower u) l = None \/ sget (lower u) l = Some u /\ exists sub, sget u d = Some sub /\ shelved_with sub)
    /\ (forall lk k, sget lk l = Some k -> ~ In lk (map lower uris) -> exists x, sget k d = Some x /\ fits_with lk x).

  Lemma shelved_set d l n v : shelved_with (VCont d l) -> attr_ok n -> fits_with (lower n) v -> shelved_with (set_plain d l n v).
  Proof.
    intros [d0 [l0 [E [H1 [H2 [H3 H4]]]]]] Hn Hv. injection E as <- <-. eexists _, _. split; [reflexivity|]. split; [apply idx_sset; exact H1|].
    split; [apply sset_NoDup; exact H2|]. split.
    - rewrite sget_sset_other; [exact H3|]. intros G. apply (attr_ok_nonempty _ Hn). destruct n; [reflexivity | discriminate].
    - intros lk k. rewrite !sget_sset. destruct (str_eqb (lower n) lk) eqn:E; intros G1.
      + injection G1 as <-. rewrite str_eqb_refl. exists v. split; [reflexivity|]. apply str_eqb_eq in E as <-. exact Hv.
      + destruct (str_eqb n k) eqn:E2; [|exact (H4 _ _ G1)]. apply str_eqb_eq in E2 as <-. apply H1 in G1. rewrite G1, str_eqb_refl in E. discriminate.
  Qed.

  Lemma put_top_whole c r v : NoDup (map lower uris) -> ~ In (lower main) (map lower uris) -> whole_with c -> placed main uris r ->
    lower (r_attr r) <> lower main -> fits_with (lower (r_attr r)) v -> whole_with (put_top c r v).
  Proof.
    intros Hnd Hmu [d [l [-> [Hi [Hn [Hm [Hu Hs]]]]]]] [[Ha _] [He Hno]] Hna Hv. unfold put_top.
    assert (Huri : forall u, In u uris -> lower u <> lower (r_attr r)) by (intros u G N; apply Hno; rewrite <- N; apply in_map; exact G).
    destruct (r_ext r) eqn:Ex.
    - set (w := r_schema r) in *.
      assert (Hwm : lower w <> lower main) by (intros G; apply Hmu; rewrite <- G; apply in_map; exact He).
      assert (Hkey : forall lk k, sget lk l = Some k -> ~ In lk (map lower uris) -> k <> w).
      { intros lk k G1 G2 ->. apply G2. rewrite <- (Hi _ _ G1). apply in_map. exact He. }
      destruct (Hu w He) as [E|[E [sub [E2 E3]]]]; rewrite E.
      + rewrite sget_sset_same. unfold empty_cont. eexists _, _. split; [reflexivity|]. split; [apply idx_sset; exact Hi|]. split; [apply sset_NoDup; exact Hn|].
        split; [rewrite sget_sset_other by congruence; exact Hm|]. split.
        * intros u Hin. destruct (str_dec w u) as [<-|N].
          -- right. split; [apply sget_sset_same|]. eexists. split; [apply sget_sset_same|]. apply shelved_set; [|exact Ha | exact Hv].
             eexists _, _. split; [reflexivity|]. split; [intros ? ? ?; discriminate|]. split; [constructor|]. split; [reflexivity | intros ? ? ?; discriminate].
          -- assert (Hl : lower w <> lower u) by (intros G; apply N; exact (NoDup_map_eq _ _ _ _ Hnd He Hin G)).
             destruct (Hu u Hin) as [G|[G [sub [G2 G3]]]]; [left; rewrite sget_sset_other by congruence; exact G|].
             right. rewrite sget_sset_other by congruence. split; [exact G|]. exists sub. rewrite !sget_sset_other by congruence. split; assumption.
        * intros lk k G1 G2. assert (lk <> lower w) by (intros ->; apply G2; apply in_map; exact He).
          rewrite sget_sset_other in G1 by congruence. pose proof (Hkey _ _ G1 G2). rewrite !sget_sset_other by congruence. exact (Hs _ _ G1 G2).
      + rewrite E2. pose proof E3 as [d2 [l2 [-> _]]]. eexists _, _. split; [reflexivity|]. split; [exact Hi|]. split; [exact Hn|]. split; [exact Hm|]. split.
        * intros u Hin. destruct (str_dec w u) as [<-|N].
          -- right. split; [exact E|]. eexists. split; [apply sget_sset_same|]. apply shelved_set; assumption.
          -- destruct (Hu u Hin) as [G|[G [sub [G2 G3]]]]; [left; exact G|]. right. split; [exact G|]. exists sub. rewrite sget_sset_other by congruence. split; assumption.
        * intros lk k G1 G2. pose proof (Hkey _ _ G1 G2). rewrite sget_sset_other by congruence. exact (Hs _ _ G1 G2).
    - set (n := r_attr r) in *. eexists _, _. split; [reflexivity|]. split; [apply idx_sset; exact Hi|]. split; [apply sset_NoDup; exact Hn|].
      split; [rewrite sget_sset_other by congruence; exact Hm|]. split.
      + intros u Hin. pose proof (Huri u Hin). destruct (Hu u Hin) as [G|[G [sub [G2 G3]]]]; [left; rewrite sget_sset_other by congruence; exact G|].
        right. rewrite sget_sset_other by congruence. split; [exact G|]. exists sub. rewrite sget_sset_other by congruence. split; assumption.
      + intros lk k G1 G2. rewrite sget_sset in G1. rewrite sget_sset. destruct (str_eqb (lower n) lk) eqn:E.
        * injection G1 as <-. rewrite str_eqb_refl. exists v. split; [reflexivity|]. apply str_eqb_eq in E as <-. exact Hv.
        * destruct (str_eqb n k) eqn:E2; [|exact (Hs _ _ G1 G2)]. apply str_eqb_eq in E2 as <-. apply Hi in G1. rewrite G1, str_eqb_refl in E. discriminate.
  Qed.
  Lemma put_tops_whole outs : NoDup (map lower uris) -> ~ In (lower main) (map lower uris) ->
    Forall (fun e : attribute * outcome => placed main uris (arep (fst e)) /\ lower (r_attr (arep (fst e))) <> lower main /\ fits_with (lower (r_attr (arep (fst e)))) (fst (snd e))) outs ->
    forall c, whole_with c -> whole_with (put_tops outs c).
  Proof.
    intros Hnd Hmu. induction 1 as [|[a [v j]] t [H1 [H2 H3]] Ht IH]; intros c Hc; cbn [put_tops fold_left]; [exact Hc|].
    apply IH. apply put_top_whole; assumption.
  Qed.
  Lemma whole_empty : whole_with empty_cont.
  Proof.
    eexists _, _. split; [reflexivity|]. split; [intros ? ? ?; discriminate|]. split; [constructor|]. split; [reflexivity|]. split; [intros u _; left; reflexivity | intros ? ? ?; discriminate].
  Qed.

  (** Where a name is looked for, and what is found. *)
  Lemma whole_get c r : whole_with c -> placed main uris r ->
    (get_item c r = Ok VMissing) \/ exists x, fits_with (lower (r_attr r)) x /\ get_item c r = get_sub x (r_sub r).
  Proof.
    intros [d [l [-> [Hi [Hn [Hm [Hu Hs]]]]]]] [[Ha Hb] [He Hno]].
    assert (G : sget (lower (r_schema r)) l = None \/ In (r_schema r) uris /\ sget (lower (r_schema r)) l = Some (r_schema r)
      /\ exists sub, sget (r_schema r) d = Some sub /\ shelved_with sub).
    { destruct (r_ext r); [|left; rewrite He; exact Hm]. destruct (Hu _ He) as [G|G]; auto. }
    rewrite get_item_eq. destruct G as [->|[G1 [-> [sub [-> G4]]]]].
    - destruct (sget (lower (r_attr r)) l) as [k|] eqn:E; [|left; reflexivity]. destruct (Hs _ _ E Hno) as [x [-> F]]. right. exists x. auto.
    - rewrite mk_rep_plain by exact Ha. cbn [bind]. destruct G4 as [d2 [l2 [-> [_ [_ [E2 G]]]]]]. rewrite get_item_eq. cbn [r_schema r_attr r_sub]. change (lower []) with (@nil ascii). rewrite E2.
      destruct (sget (lower (r_attr r)) l2) as [k|] eqn:E; [|left; reflexivity]. destruct (G _ _ E) as [x [-> F]]. right. exists x. auto.
  Qed.
End Whole.

Section Deleting.
  Variables (main : str) (uris : list str) (tops : list attribute).
  Notation fits_name := (fits_with tops fine_value).
  Notation shelved := (shelved_with tops fine_value).
  Notation whole := (whole_with main uris tops fine_value).

  (** Deleting. *)
  Definition deletable (r : attr_rep) : Prop := r_sub r = [] \/ exists t, In t tops /\ lower (r_attr (arep t)) = lower (r_attr r) /\ is_complex t = true.
  Hypothesis distinct : distinct_names tops.

  Lemma fine_del t x n : is_complex t = true -> attr_ok n -> fine_value t x -> exists x', del_sub x n = Ok x' /\ fine_value t x'.
  Proof.
    intros Hc Hn H. rewrite del_sub_eq by exact Hn. destruct t as [i [sub|]]; [|discriminate Hc]. cbn [fine_value] in *. destruct H as [->|[->|H]]; [eexists; split; [reflexivity|]; auto | eexists; split; [reflexivity|]; auto|].
    destruct (a_multi i).
    - destruct H as [l [-> H]]. assert (G : exists l', mapM (fun y => del_item y (leaf n)) l = Ok l' /\ Forall solid l').
      { induction H as [|y t Hy Ht IH]; cbn [mapM]; [eexists; split; [reflexivity | constructor]|]. destruct (solid_del y n Hy) as [y' [-> Y]], IH as [l' [-> L]]. eexists. split; [reflexivity|]. constructor; assumption. }
      destruct G as [l' [-> G]]. eexists. split; [reflexivity|]. right. right. exists l'. auto.
    - destruct (solid_del x n H) as [x' [E X]]. destruct H as [d [l [-> _]]]. exists x'. split; [exact E|]. auto.
  Qed.
  Lemma fits_del r x : rep_ok r -> r_sub r <> [] -> deletable r -> fits_name (lower (r_attr r)) x -> exists x', del_sub x (r_sub r) = Ok x' /\ fits_name (lower (r_attr r)) x'.
  Proof.
    intros [_ Hs] N [D|[t [Ht [E C]]]] F; [contradiction|]. destruct Hs as [Hs|Hs]; [contradiction|].
    destruct (fine_del t x (r_sub r) C Hs (F t Ht E)) as [x' [E' F']]. exists x'. split; [exact E'|]. intros a Ha Ea. replace a with t; [exact F'|]. apply (NoDup_map_eq _ _ _ _ distinct Ht Ha). congruence.
  Qed.

  (** Deleting a name in one container of values. *)
  Lemma spot_del d l r (bad : str -> Prop) : idx l -> NoDup (map fst l) -> rep_ok r -> deletable r -> ~ bad (lower (r_attr r)) ->
    (forall lk k, sget lk l = Some k -> ~ bad lk -> exists x, sget k d = Some x /\ fits_name lk x) ->
    sget (lower (r_schema r)) l = None ->
    exists d' l', del_item (VCont d l) r = Ok (VCont d' l') /\ idx l' /\ NoDup (map fst l')
    /\ (forall lk, lk <> lower (r_attr r) -> sget lk l' = sget lk l) /\ (forall k, lower k <> lower (r_attr r) -> sget k d' = sget k d)
    /\ (sget (lower (r_attr r)) l = None -> sget (lower (r_attr r)) l' = None)
    /\ (forall lk k, sget lk l' = Some k -> ~ bad lk -> exists x, sget k d' = Some x /\ fits_name lk x).
  Proof.
    intros Hi Hn Hr Hd Hb Hf Hsch. rewrite del_item_eq, Hsch. set (n := r_attr r) in *. destruct (sget (lower n) l) as [k|] eqn:Ek.
    2:{ exists d, l. repeat (split; [first [reflexivity | assumption | auto; fail]|]). exact Hf. }
    destruct (Hf _ _ Ek Hb) as [x [Ex Fx]]. pose proof (Hi _ _ Ek) as Hk. destruct (r_sub r) as [|c s] eqn:Es.
    - rewrite Ex. eexists _, _. split; [reflexivity|]. split; [apply idx_sdel; assumption|]. split; [apply NoDup_sdel; exact Hn|].
      split; [intros lk G; apply sget_sdel_other; exact G|]. split; [intros k' G; apply sget_sdel_other; congruence|]. split; [discriminate|].
      intros lk k' G Nb. destruct (str_dec lk (lower n)) as [->|N]; [rewrite sget_sdel_same in G by exact Hn; discriminate|]. rewrite sget_sdel_other in G by exact N.
      pose proof (Hi _ _ G). rewrite sget_sdel_other by congruence. exact (Hf _ _ G Nb).
    - destruct (fits_del r x Hr ltac:(congruence) Hd Fx) as [x' [Dx Fx']]. rewrite Es in Dx. fold n in Fx'.
      assert (U : exists d', aupd k (fun x => del_sub x (c :: s)) d = Ok d').
      { clear - Ex Dx. unfold sget in Ex. induction d as [|[k0 y] t IH]; cbn [aget aupd] in *; [discriminate|]. destruct (str_eqb k0 k); [injection Ex as ->; rewrite Dx; eexists; reflexivity|].
        destruct (IH Ex) as [d' ->]. eexists. reflexivity. }
      destruct U as [d' U]. rewrite U. cbn [bind]. destruct (aupd_get _ _ _ _ U) as [x0 [x1 [H1 [H2 [H3 H4]]]]]. rewrite Ex in H1. injection H1 as <-. rewrite Dx in H2. injection H2 as <-.
      exists d', l. split; [reflexivity|]. split; [exact Hi|]. split; [exact Hn|]. split; [reflexivity|]. split; [intros k' G; apply H4; congruence|]. split; [discriminate|].
      intros lk k' G Nb. destruct (str_dec k' k) as [->|N].
      + exists x'. split; [exact H3|]. rewrite <- (Hi _ _ G), Hk. exact Fx'.
      + rewrite (H4 _ N). exact (Hf _ _ G Nb).
  Qed.

  Lemma whole_del c r : whole c -> placed main uris r -> deletable r -> exists c', del_item c r = Ok c' /\ whole c'.
  Proof.
    intros [d [l [-> [Hi [Hn [Hm [Hu Hs]]]]]]] Hr Hd. pose proof Hr as [[Ha Hb] [He Hno]].
    assert (G : sget (lower (r_schema r)) l = None \/ In (r_schema r) uris /\ sget (lower (r_schema r)) l = Some (r_schema r)
      /\ exists sub, sget (r_schema r) d = Some sub /\ shelved sub).
    { destruct (r_ext r); [|left; rewrite He; exact Hm]. destruct (Hu _ He) as [G|G]; auto. }
    assert (Huri : forall u, In u uris -> lower u <> lower (r_attr r)) by (intros u G' N; apply Hno; rewrite <- N; apply in_map; exact G').
    destruct G as [E|[G1 [G2 [sub [G3 G4]]]]].
    - destruct (spot_del d l r (fun lk => In lk (map lower uris)) Hi Hn (proj1 Hr) Hd Hno Hs E) as [d' [l' [-> [I1 [I2 [I3 [I4 [I5 I6]]]]]]]]. eexists. split; [reflexivity|].
      exists d', l'. split; [reflexivity|]. split; [exact I1|]. split; [exact I2|]. split.
      + destruct (str_dec (lower main) (lower (r_attr r))) as [E1|E1]; [rewrite E1; apply I5; rewrite <- E1; exact Hm | rewrite I3 by exact E1; exact Hm].
      + split; [|exact I6]. intros u Hin. rewrite I3 by (apply Huri; exact Hin). destruct (Hu u Hin) as [G|[G [sub [G' G'']]]]; [left; exact G|]. right. split; [exact G|]. exists sub. rewrite I4 by (apply Huri; exact Hin). auto.
    - rewrite del_item_eq, G2, mk_rep_plain by exact Ha. cbn [bind]. destruct G4 as [d2 [l2 [-> [J1 [J2 [J3 J4]]]]]].
      set (r' := {| r_schema := []; r_attr := r_attr r; r_sub := r_sub r; r_ext := false |}).
      assert (S : exists d' l', del_item (VCont d2 l2) r' = Ok (VCont d' l') /\ shelved (VCont d' l')).
      { destruct (spot_del d2 l2 r' (fun _ => False) J1 J2) as [d' [l' [X [I1 [I2 [I3 [I4 [I5 I6]]]]]]]]; [split; assumption | exact Hd | auto | intros lk k G _; exact (J4 _ _ G) | exact J3|].
        exists d', l'. split; [exact X|]. exists d', l'. split; [reflexivity|]. split; [exact I1|]. split; [exact I2|]. split.
        - rewrite I3; [exact J3|]. intros N. apply (attr_ok_nonempty _ Ha). cbn [r' r_attr] in N. destruct (r_attr r); [reflexivity | discriminate N].
        - intros lk k G. exact (I6 _ _ G (fun f => f)). }
      destruct S as [d' [l' [X S]]].
      assert (U : exists d3, aupd (r_schema r) (fun x => del_item x r') d = Ok d3).
      { clear - G3 X. unfold sget in G3. induction d as [|[k0 y] t IH]; cbn [aget aupd] in *; [discriminate|]. destruct (str_eqb k0 (r_schema r)); [injection G3 as ->; rewrite X; eexists; reflexivity|].
        destruct (IH G3) as [d3 ->]. eexists. reflexivity. }
      destruct U as [d3 U]. rewrite U. cbn [bind]. destruct (aupd_get _ _ _ _ U) as [x0 [x1 [H1 [H2 [H3 H4]]]]]. rewrite G3 in H1. injection H1 as <-. rewrite X in H2. injection H2 as <-.
      eexists. split; [reflexivity|]. exists d3, l. split; [reflexivity|]. split; [exact Hi|]. split; [exact Hn|]. split; [exact Hm|]. split.
      + intros u Hin. destruct (str_dec u (r_schema r)) as [->|N]; [right; split; [exact G2|]; eexists; split; [exact H3 | exact S]|].
        destruct (Hu u Hin) as [G|[G [sub [G' G'']]]]; [left; exact G|]. right. split; [exact G|]. exists sub. rewrite (H4 _ N). auto.
      + intros lk k G Nb. rewrite H4; [exact (Hs _ _ G Nb)|]. intros ->. apply Nb. rewrite <- (Hi _ _ G). apply in_map. exact G1.
  Qed.

  Lemma strip_whole l : Forall (fun a => placed main uris (arep a) /\ deletable (arep a)) l -> forall c, whole c -> exists c', strip_read_only l c = Ok c'.
  Proof.
    unfold strip_read_only. induction 1 as [|a t [H1 H2] Ht IH]; intros c Hc; cbn [foldM]; [eexists; reflexivity|].
    destruct (is_read_only (a_mut (info a))); [destruct (whole_del c (arep a) Hc H1 H2) as [c' [-> C]]; cbn [bind]; exact (IH c' C) | cbn [bind]; exact (IH c Hc)].
  Qed.
End Deleting.
Notation whole main uris tops := (whole_with main uris tops fine_value).

(** ** Sub-attributes and the attributes they belong to *)

Definition kin (l : list attribute) : Prop :=
  forall b, In b l -> r_sub (arep b) <> [] -> exists t, In t l /\ r_sub (arep t) = [] /\ r_schema (arep t) = r_schema (arep b)
    /\ r_ext (arep t) = r_ext (arep b) /\ r_attr (arep t) = r_attr (arep b) /\ is_complex t = true.
Lemma bound_is_kin uri ext l : kin (flat_map (bound_all uri ext) l).
Proof.
  intros b Hb N. apply in_flat_map in Hb as [a [Ha Hb]]. destruct Hb as [<-|Hb]; [rewrite bound_rep in N; contradiction|].
  apply in_map_iff in Hb as [s [<- Hs]]. exists (bound_attr (mkRep uri (r_attr (arep a)) [] ext) a). split; [apply in_flat_map; exists a; split; [exact Ha | left; reflexivity]|].
  rewrite !bound_rep. cbn [r_schema r_ext r_attr r_sub]. repeat (split; [reflexivity|]). destruct a as [i [[[subs cps] cds]|]]; [reflexivity | destruct Hs].
Qed.
Lemma made_kin s : made s -> kin (at_all (sc_attrs s)).
Proof.
  induction 1 as [uri l Hu Hn Hf|uri l name descr plural oi oe om get l' Hu Hn Hf|s e req s' Hs IH Hu Hn Hl Hf H].
  - cbn [base_schema sc_attrs mk_attrs at_all]. rewrite dedup_id by (apply bound_keys; exact Hn). apply bound_is_kin.
  - cbn [resource_schema base_schema sc_attrs mk_attrs at_all]. rewrite dedup_id by (apply bound_keys; exact Hn). apply bound_is_kin.
  - destruct (made_assembled s Hs) as [As _]. destruct (extension_all s e req s' As Hn Hu Hl H) as [-> _].
    intros b Hb N. apply in_app_or in Hb as [Hb|Hb]; [destruct (IH b Hb N) as [t [Ht G]] | destruct (bound_is_kin _ _ _ b Hb N) as [t [Ht G]]]; exists t; (split; [apply in_or_app; auto | exact G]).
Qed.

Lemma solid_items c d a k l iss : attr_ok (r_sub (arep a)) -> Forall solid l -> exists i, check_items c d a k l iss = Ok i.
Proof.
  intros Hs H. revert k iss. induction H as [|x t Hx Ht IH]; intros k iss; cbn [check_items]; [eexists; reflexivity|].
  unfold rep_attr. rewrite (mk_leaf _ Hs). cbn [bind]. destruct (solid_get x (r_sub (arep a)) Hx) as [v ->]. cbn [bind]. destruct (is_invalid v); apply IH.
Qed.

Section Env2.
  Context {env : PyEnv}.

  Lemma parsed_whole s doc y iss : made s -> own_names s -> distinct_names (at_top (sc_attrs s)) -> Forall calm_attr (at_top (sc_attrs s)) -> Forall standard (at_top (sc_attrs s)) ->
    is_object doc -> base_parse MParse s doc = Ok (y, iss) -> whole (sc_uri s) (map fst (sc_exts s)) (at_top (sc_attrs s)) y.
  Proof.
    intros Hm Hown Hdn Hq Hst Hobj H. pose proof (made_wf s Hm) as Hw.
    destruct (parse_shape s MParse doc y iss Hw Hobj H) as [outs [iss2 [Hg [-> _]]]]. destruct (tops_fit s Hw) as [Hnd Hf].
    assert (Hno' : forall a, In a (at_top (sc_attrs s)) -> ~ listed (r_attr (arep a)) (map fst (sc_exts s))).
    { intros a Ha G. apply (Hown a Ha). right. exact G. }
    destruct (made_placed s Hm Hno') as [_ Hpl]. apply put_tops_whole; [exact Hnd | | | apply whole_empty].
    - destruct Hw as [[W _] _ _ _]. unfold sc_schemas in W. cbn [map] in W. inversion W; subst. assumption.
    - apply Forall_forall. intros [a [v j]] Hin. cbn [fst snd]. destruct (gather_top_In _ _ _ _ _ _ Hg Hin) as [Ha [x [_ [_ Hx]]]].
      destruct (Hpl a Ha) as [P1 P2]. split; [exact P1|]. split; [intros G; apply (Hown a Ha); left; symmetry; exact G|].
      intros b Hb E. replace b with a by (symmetry; exact (NoDup_map_eq _ _ _ _ Hdn Hb Ha E)).
      pose proof (ws_attrs s Hw) as W2. rewrite Forall_forall in W2, Hq, Hst. exact (process_fine a x v j (proj1 (W2 a Ha)) P2 (Hq a Ha) (Hst a Ha) Hx).
  Qed.

  Lemma whole_presence s c d y : made s -> own_names s -> whole (sc_uri s) (map fst (sc_exts s)) (at_top (sc_attrs s)) y -> exists i, presence c y (at_all (sc_attrs s)) d = Ok i.
  Proof.
    intros Hm Hown Hy. unfold presence. destruct (foldM_total (check_attr c y (at_all (sc_attrs s)) d) (fun _ => True) (at_all (sc_attrs s)) no_issues) as [i [E _]]; [exact I| | exists i; exact E].
    assert (Hno' : forall a, In a (at_top (sc_attrs s)) -> ~ listed (r_attr (arep a)) (map fst (sc_exts s))).
    { intros a Ha G. apply (Hown a Ha). right. exact G. }
    destruct (made_placed s Hm Hno') as [Hpl _]. pose proof (made_kin s Hm) as Hk. destruct (made_assembled s Hm) as [As _]. pose proof As as [_ [_ [Et _]]]. rewrite Forall_forall in Hpl.
    intros iss a Ha _. cut (exists i, check_attr c y (at_all (sc_attrs s)) d iss a = Ok i); [intros [i E]; exists i; auto|]. unfold check_attr. pose proof (Hpl a Ha) as P. pose proof P as [[Pa Ps] _].
    rewrite mk_rep_ok by (first [apply attr_ok_spec; exact Pa | discriminate]). cbn [bind]. fold (top_name (arep a)).
    assert (Own : r_sub (arep a) = [] -> exists i, (let! v := get_item y (arep a) in if is_invalid v then Ok iss else Ok (merge iss (check_presence c v d (info a) (arep a)) (presence_loc (arep a)))) = Ok i).
    { intros E. destruct (whole_get _ _ _ _ y (arep a) Hy P) as [->|[x [_ ->]]]; [|rewrite E; cbn [get_sub]]; cbn [bind]; [|destruct (is_invalid x)]; eexists; reflexivity. }
    destruct (r_sub (arep a)) as [|ch sub] eqn:Es; cbn [nonempty]; [exact (Own eq_refl)|]. clear Own. rewrite <- Es in *.
    assert (N : r_sub (arep a) <> []) by (rewrite Es; discriminate).
    destruct (Hk a Ha N) as [t [Ht [T1 [T2 [T3 [T4 T5]]]]]].
    assert (F : find_attr (at_all (sc_attrs s)) (top_name (arep a)) = Some t).
    { destruct (find_attr (at_all (sc_attrs s)) (top_name (arep a))) as [t'|] eqn:E.
      - destruct (parent_find s a t' As Ha E) as [I1 I2]. f_equal. apply (parent_unique s a t' t As I1 Ht I2). split; [exact T1|]. unfold same_text. rewrite T2, T4. auto.
      - exfalso. apply (find_none _ _ E) in Ht. assert (R : rep_eqb (arep t) (top_name (arep a)) = true) by (apply rep_eqb_iff; cbn [top_name r_schema r_attr r_sub]; unfold same_text; rewrite T1, T2, T4; auto). congruence. }
    rewrite F. cbn [bind].
    assert (Tt : In t (at_top (sc_attrs s))) by (rewrite Et; apply filter_In; split; [exact Ht|]; unfold no_sub; rewrite T1; reflexivity).
    assert (Sub : attr_ok (r_sub (arep a))) by (destruct Ps as [Ps|Ps]; [contradiction | exact Ps]).
    assert (El : lower (r_attr (arep t)) = lower (r_attr (arep a))) by congruence.
    destruct t as [i [sb|]]; [|discriminate T5]. cbn [info]. destruct (a_multi i) eqn:Em.
    - assert (G : get_item y (top_name (arep a)) = get_item y (arep (MkAttr i (Some sb)))).
      { destruct Hy as [d0 [l0 [-> _]]]. rewrite !get_item_eq. cbn [top_name r_schema r_attr r_sub]. rewrite T1, T2, T4. reflexivity. }
      rewrite G. destruct (whole_get _ _ _ _ y _ Hy (Hpl _ Ht)) as [->|[x [Fx ->]]]; [eexists; reflexivity|]. rewrite T1. cbn [get_sub bind].
      specialize (Fx _ Tt eq_refl). cbn [fine_value] in Fx. rewrite Em in Fx. destruct Fx as [->|[->|[l [-> L]]]]; try (eexists; reflexivity). cbn [iter_value bind]. apply solid_items; assumption.
    - assert (G : exists v, get_item y (arep a) = Ok v).
      { destruct (whole_get _ _ _ _ y _ Hy P) as [->|[x [Fx ->]]]; [eexists; reflexivity|]. specialize (Fx _ Tt El). cbn [fine_value] in Fx. rewrite Em in Fx. rewrite get_sub_eq by exact Sub.
        destruct Fx as [->|[->|Fx]]; try (eexists; reflexivity). destruct (solid_get x (r_sub (arep a)) Fx) as [v E]. destruct Fx as [d0 [l0 [-> _]]]. exists v. exact E. }
      destruct G as [v ->]. cbn [bind]. destruct (is_invalid v); eexists; reflexivity.
  Qed.

  Lemma names_parse l b : Forall (fun x => exists s, x = VStr s) l -> exists o, parse_checker l b = Ok o.
  Proof.
    intros H. unfold parse_checker. destruct (foldM_total parse_name_step (fun _ => True) l ([], true, no_issues)) as [[[reps b0] iss] [E _]]; [exact I| | rewrite E; eexists; reflexivity].
    intros [[reps b0] iss] x Hx _. rewrite Forall_forall in H. destruct (H x Hx) as [t ->]. unfold parse_name_step. destruct (parse_rep t); [destruct (can_proceed _ _)|]; eexists; (split; [reflexivity | exact I]).
  Qed.
  Lemma query_answered q : textual_query q -> exists q' iss, query_step q = Ok (q', iss).
  Proof.
    intros H. unfold query_step. destruct q as [| | | | | | | | |d| | | | | | |]; try (eexists; eexists; reflexivity).
    assert (T : forall k, match names_of (qget d k (VList [])) with VList l => Forall (fun x => exists s, x = VStr s) l | _ => True end).
    { intros k. unfold names_of, qget. destruct (aget dkey_eqb (KStr k) d) as [v|] eqn:E; [|constructor]. destruct v as [| | | | | |[|c s]| |l| | | | | | | |]; try exact I.
      - apply Forall_forall. intros x Hx. apply in_map_iff in Hx as [t [<- _]]. eexists. reflexivity.
      - assert (G : In (KStr k, VList l) d \/ exists k', In (k', VList l) d); [|destruct G as [G|[k' G]]; exact (H _ _ _ eq_refl G)].
        right. clear - E. induction d as [|[k0 x] t IH]; cbn [aget] in E; [discriminate|]. destruct (dkey_eqb k0 (KStr k)); [injection E as ->; exists k0; left; reflexivity|]. destruct (IH E) as [k' G]. exists k'. right. exact G. }
    cut (exists c iss, requested_attributes d = Ok (c, iss)); [intros [c [iss ->]]; eexists; eexists; reflexivity|].
    unfold requested_attributes. pose proof (T ($"attributes")) as T1. pose proof (T ($"excludeAttributes")) as T2.
    destruct (names_of (qget d ($"attributes") (VList []))); try (eexists; eexists; reflexivity). destruct (names_of (qget d ($"excludeAttributes") (VList []))); try (eexists; eexists; reflexivity).
    destruct (negb _); [eexists; eexists; reflexivity|]. destruct (_ && _); [eexists; eexists; reflexivity|].
    match goal with |- context[parse_checker ?l ?b] => destruct (names_parse l b) as [[c iss] ->] end; [destruct (truthy _); assumption|]. eexists; eexists; reflexivity.
  Qed.
End Env2.
