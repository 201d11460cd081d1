(** Lemmas about filter evaluation: the comparison operators. *)
From Verif Require Import PyBase BaseFacts PyNum NumFacts Issues AttrRep AttrRepSpec Value Container ContainerSpec ContainerEq Types Attr Match MatchSpec MatchFacts.

(** ** Texts *)

Lemma code_inj c d : code c = code d -> c = d.
Proof. unfold code. intros H. rewrite <- (ascii_N_embedding c), <- (ascii_N_embedding d), H. reflexivity. Qed.
Lemma str_cmp_eq s : forall t, str_cmp s t = Eq <-> s = t.
Proof.
  induction s as [|c s IH]; intros [|d t]; cbn [str_cmp]; try (split; congruence). destruct (N.compare (code c) (code d)) eqn:E.
  - apply N.compare_eq in E. apply code_inj in E as ->. rewrite IH. split; congruence.
  - split; [discriminate|]. intros H. injection H as -> ->. rewrite N.compare_refl in E. discriminate.
  - split; [discriminate|]. intros H. injection H as -> ->. rewrite N.compare_refl in E. discriminate.
Qed.
Lemma str_cmp_lt s : forall t, str_cmp s t = Lt <-> text_lt s t.
Proof.
  induction s as [|c s IH]; intros [|d t]; cbn [str_cmp].
  - split; [discriminate | intros H; inversion H].
  - split; [intros _; constructor | reflexivity].
  - split; [discriminate | intros H; inversion H].
  - destruct (N.compare (code c) (code d)) eqn:E.
    + apply N.compare_eq in E. apply code_inj in E as ->. rewrite IH. split; [apply tl_next|]. intros H. inversion H; subst; [exfalso; lia | assumption].
    + split; [|reflexivity]. intros _. apply tl_first. apply N.compare_lt_iff. exact E.
    + split; [discriminate|]. intros H. apply N.compare_gt_iff in E. inversion H; subst; lia.
Qed.
Lemma str_cmp_sym s : forall t, str_cmp t s = CompOpp (str_cmp s t).
Proof.
  induction s as [|c s IH]; intros [|d t]; cbn [str_cmp]; try reflexivity. rewrite (N.compare_antisym (code c) (code d)).
  destruct (N.compare (code c) (code d)); cbn [CompOpp]; [apply IH | reflexivity..].
Qed.
Lemma str_cmp_gt s t : str_cmp s t = Gt <-> text_lt t s.
Proof. rewrite <- str_cmp_lt, (str_cmp_sym s t). destruct (str_cmp s t); cbn; split; congruence. Qed.

Lemma starts_with_spec p : forall s, starts_with s p = true <-> exists q, s = p ++ q.
Proof.
  induction p as [|c p IH]; intros s; cbn [starts_with app]; [split; [intros _; exists s; reflexivity | reflexivity]|].
  destruct s as [|d s]; [split; [discriminate | intros [q H]; discriminate]|]. rewrite andb_true_iff, chr_eqb_eq, IH. split.
  - intros [-> [q ->]]. exists q. reflexivity.
  - intros [q H]. injection H as -> ->. split; [reflexivity | exists q; reflexivity].
Qed.
Lemma ends_with_spec s p : ends_with s p = true <-> exists q, s = q ++ p.
Proof.
  unfold ends_with. rewrite starts_with_spec. split.
  - intros [q H]. exists (rev q). rewrite <- (rev_involutive s), H, rev_app_distr, rev_involutive. reflexivity.
  - intros [q ->]. exists (rev q). apply rev_app_distr.
Qed.
Lemma contains_spec p : forall s, contains s p = true <-> exists a b, s = a ++ p ++ b.
Proof.
  induction s as [|c s IH]; cbn [contains]; rewrite orb_true_iff, starts_with_spec.
  - split; [intros [[q H]|H]; [exists [], q; exact H | discriminate]|]. intros [a [b H]]. destruct a; [|discriminate]. left. exists b. exact H.
  - rewrite IH. split.
    + intros [[q H]|[a [b ->]]]; [exists [], q; exact H | exists (c :: a), b; reflexivity].
    + intros [[|d a] [b H]]; [left; exists b; exact H|]. injection H as -> ->. right. exists a, b. reflexivity.
Qed.

Lemma apply_text b s t : exists e, apply_op b (VStr s) (VStr t) = Ok e /\ (e = true <-> text_rel b s t).
Proof.
  assert (V : veq (VStr s) (VStr t) = Ok (str_eqb s t)) by reflexivity.
  destruct b; cbn [apply_op text_rel order]; rewrite ?V; cbn [bind cmp_holds];
    try (eexists; split; [reflexivity|]).
  - apply str_eqb_eq.
  - rewrite negb_true_iff. apply str_eqb_neq.
  - apply contains_spec.
  - apply starts_with_spec.
  - apply ends_with_spec.
  - rewrite <- str_cmp_gt. destruct (str_cmp s t); split; congruence.
  - rewrite <- str_cmp_gt, <- str_cmp_eq. destruct (str_cmp s t); intuition congruence.
  - rewrite <- str_cmp_lt. destruct (str_cmp s t); split; congruence.
  - rewrite <- str_cmp_lt, <- str_cmp_eq. destruct (str_cmp s t); intuition congruence.
Qed.

(** ** Numbers *)

Lemma num_less_iff a b : num_less a b <-> fcmp a b = Some Lt.
Proof.
  destruct a as [m e|x|], b as [m' e'|y|]; cbn [num_less]; try (cbn; (split; [intros [] | discriminate]); fail).
  - split.
    + intros [k [H1 [H2 H3]]]. rewrite (fcmp_fin _ _ _ _ k H1 H2). f_equal. apply Z.compare_lt_iff. exact H3.
    + destruct (exists_scale e e' e) as [k [H1 [H2 _]]]. rewrite (fcmp_fin _ _ _ _ k H1 H2). intros H; injection H as H. apply Z.compare_lt_iff in H. exists k. auto.
  - cbn. destruct y; split; congruence.
  - cbn. destruct x; split; congruence.
  - cbn. destruct x, y; intuition congruence.
Qed.
Lemma num_greater_iff a b : num_less b a <-> fcmp a b = Some Gt.
Proof. rewrite num_less_iff, (fcmp_sym a b). destruct (fcmp a b) as [[]|]; cbn; split; congruence. Qed.
Lemma same_number_cmp a b : same_number a b <-> fcmp a b = Some Eq.
Proof. rewrite same_number_iff. apply feqb_iff. Qed.

Lemma veq_num v w x y : number v = Some x -> number w = Some y -> veq v w = Ok (feqb x y).
Proof.
  rewrite !number_num. intros Hv Hw. unfold veq. destruct v; try discriminate; destruct w; try discriminate;
    cbn in Hv, Hw; injection Hv as <-; injection Hw as <-; reflexivity.
Qed.
Lemma order_num v w x y : number v = Some x -> number w = Some y -> order v w = Some (fcmp x y).
Proof.
  rewrite !number_num. intros Hv Hw. unfold order. destruct v; try discriminate; rewrite Hv, Hw; reflexivity.
Qed.
Lemma apply_num b v w x y : ~ substring b -> number v = Some x -> number w = Some y -> exists e, apply_op b v w = Ok e /\ (e = true <-> num_rel b x y).
Proof.
  intros Hb Hv Hw. assert (V := veq_num _ _ _ _ Hv Hw). assert (O := order_num _ _ _ _ Hv Hw).
  destruct b; try (exfalso; apply Hb; unfold substring; tauto); cbn [apply_op num_rel]; rewrite ?V, ?O; cbn [bind]; (eexists; split; [reflexivity|]).
  - rewrite same_number_iff. reflexivity.
  - rewrite same_number_iff, negb_true_iff. destruct (feqb x y); split; congruence.
  - rewrite num_greater_iff. unfold cmp_holds. destruct (fcmp x y) as [[]|]; split; congruence.
  - rewrite num_greater_iff, same_number_cmp. unfold cmp_holds. destruct (fcmp x y) as [[]|]; intuition congruence.
  - rewrite num_less_iff. unfold cmp_holds. destruct (fcmp x y) as [[]|]; split; congruence.
  - rewrite num_less_iff, same_number_cmp. unfold cmp_holds. destruct (fcmp x y) as [[]|]; intuition congruence.
Qed.

(** ** Moments *)

Lemma dt_cmp_kind x y : same_kind x y -> dt_cmp x y = Some (Z.compare (moment x) (moment y)).
Proof. unfold same_kind, dt_cmp, moment. destruct (dt_off x), (dt_off y); intros H; try reflexivity; exfalso; destruct H as [H1 H2]; [specialize (H2 eq_refl) | specialize (H1 eq_refl)]; discriminate. Qed.
Lemma dt_cmp_other x y : ~ same_kind x y -> dt_cmp x y = None.
Proof. unfold same_kind, dt_cmp. destruct (dt_off x), (dt_off y); intros H; try reflexivity; exfalso; apply H; split; congruence. Qed.
Lemma same_kind_dec x y : same_kind x y \/ ~ same_kind x y.
Proof. unfold same_kind. destruct (dt_off x), (dt_off y); [left; split; congruence | right | right | left; split; congruence]; intros [H1 H2]; [specialize (H2 eq_refl) | specialize (H1 eq_refl)]; discriminate. Qed.

Lemma apply_date b x y : ~ substring b -> (ordering b -> same_kind x y) -> exists e, apply_op b (VDate x) (VDate y) = Ok e /\ (e = true <-> date_rel b x y).
Proof.
  intros Hb Hk. assert (V : veq (VDate x) (VDate y) = Ok (match dt_cmp x y with Some Eq => true | _ => false end)) by reflexivity.
  assert (E : (match dt_cmp x y with Some Eq => true | _ => false end = true) <-> same_kind x y /\ moment x = moment y).
  { destruct (same_kind_dec x y) as [K|K]; [rewrite (dt_cmp_kind _ _ K) | rewrite (dt_cmp_other _ _ K)]; [|split; [discriminate | tauto]].
    rewrite <- Z.compare_eq_iff. destruct (Z.compare _ _); intuition congruence. }
  destruct b; try (exfalso; apply Hb; unfold substring; tauto); cbn [apply_op date_rel order]; rewrite ?V; cbn [bind].
  - eexists. split; [reflexivity | exact E].
  - eexists. split; [reflexivity|]. rewrite negb_true_iff, <- E. destruct (match dt_cmp x y with Some Eq => true | _ => false end); split; congruence.
  - rewrite (dt_cmp_kind _ _ (Hk ltac:(unfold ordering; tauto))). eexists; split; [reflexivity|]. unfold cmp_holds. destruct (Z.compare_spec (moment x) (moment y)); split; (lia || congruence || auto).
  - rewrite (dt_cmp_kind _ _ (Hk ltac:(unfold ordering; tauto))). eexists; split; [reflexivity|]. unfold cmp_holds. destruct (Z.compare_spec (moment x) (moment y)); split; (lia || congruence || auto).
  - rewrite (dt_cmp_kind _ _ (Hk ltac:(unfold ordering; tauto))). eexists; split; [reflexivity|]. unfold cmp_holds. destruct (Z.compare_spec (moment x) (moment y)); split; (lia || congruence || auto).
  - rewrite (dt_cmp_kind _ _ (Hk ltac:(unfold ordering; tauto))). eexists; split; [reflexivity|]. unfold cmp_holds. destruct (Z.compare_spec (moment x) (moment y)); split; (lia || congruence || auto).
Qed.

(** ** The whole comparison *)

Lemma any_pair_spec b (P : value * value -> Prop) l : Forall (fun p => exists e, apply_op b (fst p) (snd p) = Ok e /\ (e = true <-> P p)) l ->
  exists e, any_pair b l = Ok e /\ (e = true <-> Exists P l).
Proof.
  induction l as [|[x y] t IH]; intros H; cbn [any_pair].
  - exists false. split; [reflexivity|]. split; [discriminate | intros G; inversion G].
  - inversion H as [|? ? [e [E1 E2]] Ht]; subst. cbn [fst snd] in E1. rewrite E1. cbn [bind]. destruct e.
    + exists true. split; [reflexivity|]. split; [intros _; left; apply E2; reflexivity | reflexivity].
    + destruct (IH Ht) as [e [E3 E4]]. exists e. split; [exact E3|]. rewrite E4. split; [right; assumption|].
      intros G; inversion G; subst; [apply E2 in H1; discriminate | assumption].
Qed.

Section Env.
  Context {env : PyEnv}.

  Lemma supported_iff b t name : scim_name t = Ok name -> (type_supported b name = true <-> defined_for b t).
  Proof.
    intros H. unfold defined_for, substring, ordering.
    destruct t; cbn in H; try discriminate; injection H as <-; destruct b; cbn; (split; [intros G|intros [G1 [G2 G3]]]);
      try discriminate G; try reflexivity; try (split; [discriminate|]; split; intuition (discriminate || auto)); exfalso;
      first [ (assert (K : False \/ True) by tauto; specialize (G2 ltac:(tauto)); intuition discriminate) | specialize (G3 ltac:(tauto)); intuition discriminate ].
  Qed.
  Lemma scim_name_ok t : t <> TUnknown -> exists name, scim_name t = Ok name /\ (str_eqb name ($"dateTime") = atype_eqb t TDateTime).
  Proof. destruct t; intros H; try contradiction; eexists; split; reflexivity. Qed.

  (** The pairs compared for items of a kind the operator can compare. *)
  Definition pair_of (a : attribute) (lt : lit) (x : value) : value * value :=
    match lt, a_case_exact (info a), x with
    | LitStr t, false, VStr s => (VStr (lower s), VStr (lower t))
    | _, _, _ => (x, v_of_lit lt)
    end.
  Lemma pairs_comparable b a lt items : Forall (fun x => comparable b a x lt) items ->
    match lt, a_case_exact (info a) with
    | LitStr t, false => flat_map (fun x => match x with VStr s => [(VStr (lower s), VStr (lower t))] | _ => [] end) items
    | _, _ => map (fun x => (x, v_of_lit lt)) items
    end = map (pair_of a lt) items.
  Proof.
    intros H. destruct lt; try (apply map_ext; intros x; reflexivity). destruct (a_case_exact (info a)) eqn:Ec.
    - apply map_ext. intros x. unfold pair_of. rewrite Ec. reflexivity.
    - induction H as [|x t Hx _ IH]; [reflexivity|]. cbn [flat_map map]. rewrite IH. unfold pair_of at 2. rewrite Ec.
      destruct x; try reflexivity; exfalso; cbn in Hx; destruct Hx as [_ [_ [_ [y Hy]]]]; discriminate.
  Qed.
  Lemma pair_decides b a lt x : a_type (info a) <> TDateTime -> comparable b a x lt ->
    exists e, apply_op b (fst (pair_of a lt x)) (snd (pair_of a lt x)) = Ok e /\ (e = true <-> satisfies b a x lt).
  Proof.
    intros Ht Hc. assert (Num : (~ substring b) -> forall u w, number x = Some u -> number (v_of_lit lt) = Some w -> pair_of a lt x = (x, v_of_lit lt) ->
      satisfies b a x lt = num_rel b u w -> exists e, apply_op b (fst (pair_of a lt x)) (snd (pair_of a lt x)) = Ok e /\ (e = true <-> satisfies b a x lt)).
    { intros Hb u w Hu Hw -> ->. apply apply_num; assumption. }
    assert (Str : forall s t, x = VStr s -> lt = LitStr t -> exists e, apply_op b (fst (pair_of a lt x)) (snd (pair_of a lt x)) = Ok e /\ (e = true <-> satisfies b a x lt)).
    { intros s t -> ->. unfold satisfies, pair_of, folded. assert (Hd : atype_eqb (a_type (info a)) TDateTime = false) by (destruct (a_type (info a)); try reflexivity; contradiction).
      rewrite Hd. destruct (a_case_exact (info a)); apply apply_text. }
    destruct x as [| | |xb|xz|xf|xs| | | | | | | | | |]; try (cbn in Hc; destruct Hc as [_ [_ [[u Hu] _]]]; discriminate);
      destruct lt as [|lb|lz|lf|ls]; try (cbn in Hc; destruct Hc as [_ [_ [[u Hu] [w Hw]]]]; discriminate);
      try (eapply Str; reflexivity).
    all: unfold comparable in Hc; destruct Hc as [_ [Hb [[u Hu] [w Hw]]]]; try discriminate Hw; apply (Num Hb u w Hu Hw); [unfold pair_of; reflexivity|];
      match goal with |- satisfies _ _ ?x ?l = _ => change (match number x, number (v_of_lit l) with Some p, Some q => num_rel b p q | _, _ => False end = num_rel b u w) end;
      rewrite Hu, Hw; reflexivity.
  Qed.

  Lemma value_rep : parse_rep ($"value") = Some (simple_name ($"value")).
  Proof. vm_compute. reflexivity. Qed.
  Lemma get_value x : get_item_str x ($"value") = get_item x (simple_name ($"value")).
  Proof. unfold get_item_str. destruct x; reflexivity. Qed.

  Lemma compare_spec b r lt data l a v items strict : find_attr l r = Some a -> get_item data r = Ok v ->
    v <> VNone -> v <> VMissing -> v <> VInvalid -> a_type (info a) <> TUnknown ->
    subjects a v items -> Forall (fun x => comparable b a x lt) items ->
    exists st, filter_apply (OBin b r lt) data l strict = Ok st /\ (st = Passed \/ st = Failed)
      /\ (st = Passed <-> defined_for b (a_type (info a)) /\ Exists (fun x => satisfies b a x lt) items).
  Proof.
    intros Ha Hg N1 N2 N3 Ht Hs Hc. rewrite (apply_leaf _ r) by reflexivity. rewrite Hg. cbn [bind matches]. unfold binary_match. rewrite Ha.
    assert (G : exists vals, comparison_values b lt v a = Ok vals /\
       match vals with
       | None => ~ (defined_for b (a_type (info a)) /\ Exists (fun x => satisfies b a x lt) items)
       | Some ps => exists e, any_pair b ps = Ok e /\ (e = true <-> defined_for b (a_type (info a)) /\ Exists (fun x => satisfies b a x lt) items)
       end).
    { unfold comparison_values. destruct (scim_name_ok _ Ht) as [name [Hn Hdate]]. rewrite Hn. cbn [bind].
      pose proof (supported_iff b _ name Hn) as Hsup. destruct (type_supported b name) eqn:Es; cbn [negb].
      2:{ eexists; split; [reflexivity|]. cbn beta iota. intros [D _]. apply Hsup in D. discriminate. }
      assert (HD : defined_for b (a_type (info a))) by (apply Hsup; reflexivity).
      rewrite Hdate.
      assert (Plain : a_type (info a) <> TDateTime -> forall w, (match w with VList l => l | _ => [w] end) = items ->
        exists vals, match lt, a_case_exact (info a) with
            | LitStr t, false => Ok (Some (flat_map (fun x => match x with VStr s => [(VStr (lower s), VStr (lower t))] | _ => [] end) (match w with VList l => l | _ => [w] end)))
            | _, _ => Ok (Some (map (fun x => (x, v_of_lit lt)) (match w with VList l => l | _ => [w] end)))
            end = Ok vals /\ match vals with
            | None => ~ (defined_for b (a_type (info a)) /\ Exists (fun x => satisfies b a x lt) items)
            | Some ps => exists e, any_pair b ps = Ok e /\ (e = true <-> defined_for b (a_type (info a)) /\ Exists (fun x => satisfies b a x lt) items)
            end).
      { intros Hnd w ->. exists (Some (map (pair_of a lt) items)). split.
        - rewrite <- (pairs_comparable b a lt items Hc). destruct lt; try reflexivity. destruct (a_case_exact (info a)); reflexivity.
        - destruct (any_pair_spec b (fun p => exists x, In x items /\ p = pair_of a lt x /\ satisfies b a x lt) (map (pair_of a lt) items)) as [e [E1 E2]].
          + apply Forall_forall. intros p Hp. apply in_map_iff in Hp as [x [<- Hx]]. rewrite Forall_forall in Hc.
            destruct (pair_decides b a lt x Hnd (Hc x Hx)) as [e [E1 E2]]. exists e. split; [exact E1|]. split.
            * intros He. exists x. split; [exact Hx|]. split; [reflexivity | apply E2; exact He].
            * intros [x' [Hx' [Hp Hs']]]. destruct (pair_decides b a lt x' Hnd (Hc x' Hx')) as [e' [E1' E2']]. rewrite <- Hp, E1 in E1'.
              injection E1' as ->. apply E2'. exact Hs'.
          + exists e. split; [exact E1|]. rewrite E2. rewrite !Exists_exists. split.
            * intros [p [_ [x [Hx [_ Hs']]]]]. split; [exact HD|]. exists x. auto.
            * intros [_ [x [Hx Hs']]]. exists (pair_of a lt x). split; [apply in_map; exact Hx|]. exists x. auto. }
      destruct Hs as [Hcx Hl|ls Hcx -> Hnd|ls vs Hcx Htc Hm Hv -> HF].
      - rewrite Hcx. cbn [bind]. destruct (atype_eqb (a_type (info a)) TDateTime) eqn:Ed.
        + assert (Td : a_type (info a) = TDateTime) by (destruct (a_type (info a)); try discriminate; reflexivity).
          assert (Hsub : ~ substring b) by (intros S; destruct HD as [_ [HD _]]; specialize (HD S); rewrite Td in HD; cbn in HD; intuition discriminate).
          inversion Hc as [|? ? Hc1 _]; subst. unfold comparable in Hc1.
          destruct v as [| | |xb|xz|xf|xs| | | | | | | | | |]; try (destruct Hc1 as [Q _]; contradiction).
          destruct lt as [|lb|lz|lf|t]; try (destruct Hc1 as [Q _]; contradiction).
          assert (Sat : satisfies b a (VStr xs) (LitStr t) <-> exists x y, env_fromiso xs = Some x /\ env_fromiso t = Some y /\ date_rel b x y)
            by (unfold satisfies; rewrite Ed; reflexivity).
          assert (SatE : Exists (fun x => satisfies b a x (LitStr t)) [VStr xs] <-> satisfies b a (VStr xs) (LitStr t)).
          { split; [intros G; inversion G as [? ? G1|? ? G1]; subst; [exact G1 | inversion G1] | intros G; left; exact G]. }
          destruct (env_fromiso xs) as [x|] eqn:Ex.
          * destruct (env_fromiso t) as [y|] eqn:Ey.
            -- eexists; split; [reflexivity|]. cbn beta iota. cbn [any_pair].
               destruct (apply_date b x y Hsub (fun O => Hc1 Td O x y eq_refl eq_refl)) as [e [E1 E2]]. rewrite E1. cbn [bind].
               exists e. split; [destruct e; reflexivity|]. rewrite E2, SatE, Sat. split.
               ++ intros Hr. split; [exact HD|]. exists x, y. auto.
               ++ intros [_ [x' [y' [Q1 [Q2 Q3]]]]]. congruence.
            -- eexists; split; [reflexivity|]. cbn beta iota. rewrite SatE, Sat. intros [_ [x' [y' [Q1 [Q2 Q3]]]]]. discriminate.
          * eexists; split; [reflexivity|]. cbn beta iota. rewrite SatE, Sat. intros [_ [x' [y' [Q1 [Q2 Q3]]]]]. discriminate.
        + apply Plain; [intros Td; rewrite Td in Ed; discriminate|]. destruct v; try reflexivity. discriminate.
      - rewrite Hcx. cbn [bind]. assert (Ed : atype_eqb (a_type (info a)) TDateTime = false) by (destruct (a_type (info a)); try reflexivity; contradiction).
        rewrite Ed. exact (Plain Hnd (VList ls) eq_refl).
      - rewrite Hcx. assert (Ev : existsb (fun s => str_eqb (r_attr (arep s)) ($"value")) (sub_attrs a) = true).
        { apply existsb_exists. destruct Hv as [s [Hs1 Hs2]]. exists s. split; [exact Hs1|]. apply str_eqb_eq. exact Hs2. }
        rewrite Ev, Hm. cbn [andb iter_value bind].
        assert (HM : mapM (fun x => get_item_str x ($"value")) ls = Ok vs).
        { clear - HF. induction HF as [|x y ls vs Hxy _ IH]; [reflexivity|]. cbn [mapM]. rewrite get_value, Hxy. cbn [bind]. rewrite IH. reflexivity. }
        rewrite HM. cbn [bind]. rewrite Htc. cbn [atype_eqb]. rewrite <- Htc. refine (Plain _ (VList vs) eq_refl). rewrite Htc; discriminate. }
    destruct G as [vals [Hv HG]].
    assert (E : exists st, (match v with VNone | VMissing => Ok (if strict then MissingData else Passed) | VInvalid => Ok Failed
        | _ => let! vals := comparison_values b lt v a in match vals with None => Ok Failed | Some ps => let! e := any_pair b ps in Ok (status_of e) end end) = Ok st
        /\ (let! vals := comparison_values b lt v a in match vals with None => Ok Failed | Some ps => let! e := any_pair b ps in Ok (status_of e) end) = Ok st
        /\ (st = Passed \/ st = Failed) /\ (st = Passed <-> defined_for b (a_type (info a)) /\ Exists (fun x => satisfies b a x lt) items)).
    { rewrite Hv. cbn [bind]. destruct vals as [ps|].
      - destruct HG as [e [E1 E2]]. rewrite E1. cbn [bind]. exists (status_of e). split; [destruct v; try reflexivity; contradiction|]. split; [reflexivity|].
        split; [destruct e; auto|]. rewrite <- E2. destruct e; cbn; split; congruence.
      - exists Failed. split; [destruct v; try reflexivity; contradiction|]. split; [reflexivity|]. split; [auto|]. split; [discriminate | intros Q; contradiction]. }
    destruct E as [st [E1 [_ E2]]]. exists st. split; [exact E1 | exact E2].
  Qed.
End Env.
