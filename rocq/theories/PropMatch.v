(** Properties of filter evaluation (C32-C38). *)
From Verif Require Import PyBase BaseFacts PyNum NumFacts Issues AttrRep AttrRepSpec Value Container ContainerSpec ContainerEq Types Attr PropAttr PropSchema Match
  MatchSpec MatchFacts MatchCompare.
From Coq Require Import Sorting.Permutation.

(** A small schema and resource for the examples. *)
Definition mx_emails : attribute := mk_complex (with_multi (plain ($"emails") TComplex)) [mk_simple (plain ($"value") TString); mk_simple (plain ($"type") TString)] [] [].
Definition mx_name : attribute := mk_complex (plain ($"name") TComplex) [mk_simple (plain ($"familyName") TString)] [] [].
Definition mx_attrs : list attribute :=
  [mk_simple (plain ($"userName") TString); mk_simple (with_case_exact (plain ($"id") TString)); mk_simple (plain ($"age") TInteger); mk_simple (plain ($"score") TDecimal);
   mk_simple (plain ($"born") TDateTime); mx_emails; mx_name; mk_simple (with_multi (plain ($"tags") TString)); mk_simple (plain ($"nick") TString)].
Definition mx_doc : value := mk_cont (dict_of
  [($"userName", VStr ($"Bjensen")); ($"id", VStr ($"Ab")); ($"age", VInt 40); ($"score", VFloat FNan); ($"born", VStr ($"1980"));
   ($"emails", VList [dict_of [($"value", VStr ($"a@x")); ($"type", VStr ($"work"))]; dict_of [($"value", VStr ($"b@y")); ($"type", VStr ($"home"))]]);
   ($"name", dict_of [($"familyName", VStr ($"Jensen"))]); ($"tags", VList [VStr ($"Red"); VStr ($"blue")])]).
Definition mx_eq (n t : str) : oper := OBin OpEq (simple_name n) (LitStr t).
(** present on a multi-valued complex attribute raises AttributeError *)
Definition mx_raise : oper := OPresent (simple_name ($"emails")).
Definition mx_pass : oper := mx_eq ($"userName") ($"BJENSEN").
Definition mx_fail : oper := mx_eq ($"id") ($"ab").
Definition mx_missing : oper := mx_eq ($"nick") ($"B").
Definition mx_unknown : oper := mx_eq ($"nope") ($"B").

Section Env.
  Context {env : PyEnv}.

  (** ** C32: the operands of and, or can be permuted and regrouped *)

  Theorem C32_order_partial : forall subs subs' data l strict st st', Permutation subs subs' ->
    (gives (OAnd subs) data l strict st -> gives (OAnd subs') data l strict st' -> st = st')
    /\ (gives (OOr subs) data l strict st -> gives (OOr subs') data l strict st' -> st = st').
  Proof.
    intros subs subs' data l strict st st' P. unfold gives. rewrite !apply_and, !apply_or. split; [apply and_run_perm | apply or_run_perm]; exact P.
  Qed.

  (** When no operand raises, every order gives a result, and the same one. *)
  Theorem C32_calm_partial : forall subs subs' data l strict, is_cont data = true -> Forall (fun s => returns s data l strict) subs -> Permutation subs subs' ->
    (exists st, gives (OAnd subs) data l strict st /\ gives (OAnd subs') data l strict st)
    /\ (exists st, gives (OOr subs) data l strict st /\ gives (OOr subs') data l strict st).
  Proof.
    intros subs subs' data l strict Hc H P. rewrite Forall_forall in H. unfold gives, returns in *.
    assert (H' : forall s, In s subs' -> exists st, filter_apply s data l strict = Ok st) by (intros s Hs; apply H; revert Hs; apply Permutation_in, Permutation_sym; exact P).
    split.
    - rewrite !apply_and, or_empty_cont by exact Hc. destruct (and_run_total _ subs H false) as [st E]. destruct (and_run_total _ subs' H' false) as [st' E'].
      exists st. split; [exact E|]. rewrite (and_run_perm _ _ _ _ _ P E E'). exact E'.
    - rewrite !apply_or, or_empty_cont by exact Hc. destruct (or_run_total _ subs H false) as [st E]. destruct (or_run_total _ subs' H' false) as [st' E'].
      exists st. split; [exact E|]. rewrite (or_run_perm _ _ _ _ _ P E E'). exact E'.
  Qed.

  (** Nested forms behave exactly as the flat ones, exceptions included. *)
  Theorem C32_nesting : forall xs ys zs data l strict,
    filter_apply (OAnd (xs ++ OAnd ys :: zs)) data l strict = filter_apply (OAnd (xs ++ ys ++ zs)) data l strict
    /\ filter_apply (OOr (xs ++ OOr ys :: zs)) data l strict = filter_apply (OOr (xs ++ ys ++ zs)) data l strict.
  Proof.
    intros xs ys zs data l strict. split.
    - rewrite !apply_and, !and_run_app. apply bind_ext. intros m.
      assert (G : forall missing, and_run (fun s => filter_apply s (or_empty data) l strict) (OAnd ys :: zs) missing
                   = and_run (fun s => filter_apply s (or_empty data) l strict) (ys ++ zs) missing).
      { intros missing. cbn [and_run]. rewrite and_run_app. rewrite apply_and, or_empty_idem. destruct missing.
        - rewrite (and_run_missing _ ys), bind_assoc. destruct (and_run _ ys false) as [m'|e] eqn:E; [|reflexivity]. cbn [bind]. destruct m'; reflexivity.
        - destruct (and_run _ ys false) as [m'|e] eqn:E; [|reflexivity]. cbn [bind]. destruct m'; reflexivity. }
      rewrite !G. destruct m; rewrite ?and_run_app; reflexivity.
    - rewrite !apply_or, !or_run_app. apply bind_ext. intros m.
      assert (G : forall missing, or_run (fun s => filter_apply s (or_empty data) l strict) (OOr ys :: zs) missing
                   = or_run (fun s => filter_apply s (or_empty data) l strict) (ys ++ zs) missing).
      { intros missing. cbn [or_run]. rewrite or_run_app. rewrite apply_or, or_empty_idem. destruct missing.
        - rewrite (or_run_missing _ ys), bind_assoc. destruct (or_run _ ys false) as [m'|e] eqn:E; [|reflexivity]. cbn [bind]. destruct m'; reflexivity.
        - destruct (or_run _ ys false) as [m'|e] eqn:E; [|reflexivity]. cbn [bind]. destruct m'; reflexivity. }
      rewrite !G. destruct m; rewrite ?or_run_app; reflexivity.
  Qed.

  (** ** C33: truth tables *)

  (** A settled filter matches or fails, in both modes alike. *)
  Theorem C33_two_valued : forall o data l, settled o data l -> is_cont data = true ->
    (forall strict st, gives o data l strict st -> st = Passed \/ st = Failed) /\ (matching o data l true <-> matching o data l false).
  Proof.
    intros o data l H Hc. destruct (settled_spec o data l H Hc) as [H1 H2]. split; [exact H1|]. unfold matching, gives. rewrite H2. reflexivity.
  Qed.
  Theorem C33_and : forall subs data l strict, is_cont data = true -> Forall (fun s => settled s data l) subs ->
    (matching (OAnd subs) data l strict <-> Forall (fun s => matching s data l strict) subs).
  Proof.
    intros subs data l strict Hc Hs. rewrite Forall_forall in Hs. unfold matching, gives. rewrite apply_and, or_empty_cont by exact Hc. split.
    - intros H. apply Forall_forall. intros s Hin. apply and_run_ok in H as [[G _]|[A [[G _]|[_ [_ B]]]]]; try discriminate.
      destruct (A s Hin) as [m [Em Hm]]. destruct (proj1 (settled_spec s data l (Hs s Hin) Hc) _ _ Em) as [->| ->]; [exact Em | contradiction].
    - intros H. rewrite Forall_forall in H. destruct (and_run_total (fun s => filter_apply s data l strict) subs (fun s Hin => ex_intro _ Passed (H s Hin)) false) as [st E].
      rewrite E. apply and_run_ok in E as [[_ [s [Hin G]]]|[A [[_ [G|[s [Hin G]]]]|[-> _]]]]; try discriminate; [rewrite (H s Hin) in G; discriminate.. | reflexivity].
  Qed.
  Theorem C33_or_partial : forall subs data l strict, is_cont data = true -> Forall (fun s => returns s data l strict) subs ->
    (matching (OOr subs) data l strict <-> Exists (fun s => matching s data l strict) subs).
  Proof.
    intros subs data l strict Hc Hr. rewrite Forall_forall in Hr. unfold matching, gives. rewrite apply_or, or_empty_cont by exact Hc. rewrite Exists_exists. split.
    - intros H. apply or_run_ok in H as [[_ G]|[_ [[G _]|[G _]]]]; [exact G | discriminate..].
    - intros [s [Hin E]]. destruct (or_run_total (fun s => filter_apply s data l strict) subs Hr false) as [st Est]. rewrite Est.
      apply or_run_ok in Est as [[-> _]|[A _]]; [reflexivity|]. destruct (A s Hin) as [m [Em Hm]]. congruence.
  Qed.
  (** Without the condition, one direction remains. *)
  Theorem C33_or_sound : forall subs data l strict, is_cont data = true -> matching (OOr subs) data l strict ->
    exists s, In s subs /\ matching s data l strict.
  Proof.
    intros subs data l strict Hc H. unfold matching, gives in *. rewrite apply_or, or_empty_cont in H by exact Hc.
    apply or_run_ok in H as [[_ G]|[_ [[G _]|[G _]]]]; [exact G | discriminate..].
  Qed.
  Theorem C33_not_partial : forall s data l strict, is_cont data = true -> settled s data l -> returns s data l strict ->
    (matching (ONot s) data l strict <-> ~ matching s data l strict).
  Proof.
    intros s data l strict Hc Hs [st Hr]. destruct (settled_spec s data l Hs Hc) as [H1 H2]. unfold matching, gives in *. rewrite apply_not, or_empty_cont by exact Hc.
    assert (E : filter_apply s data l true = Ok st) by (destruct strict; [exact Hr | rewrite H2; exact Hr]).
    rewrite E, Hr. cbn [bind]. destruct (H1 _ _ Hr) as [->| ->]; split; try congruence; intros H; exfalso; apply H; reflexivity.
  Qed.

  (** ** C34: undeclared attributes *)

  (** A condition on an undeclared attribute, its negation, and disjunctions of
      such never match. *)
  Theorem C34_never_match_partial : forall l o data strict, unknown l o -> ~ matching o data l strict.
  Proof.
    intros l o. induction o as [r|b r lt|subs IH|subs IH|s IH|r s IH|] using oper_ind2; intros data strict H; inversion H; subst; unfold matching, gives.
    - rewrite (apply_leaf _ r) by reflexivity. intros G. apply bind_ok in G as [v [_ G]]. cbn [matches] in G. unfold present_match in G. rewrite H1 in G. discriminate.
    - rewrite (apply_leaf _ r) by reflexivity. intros G. apply bind_ok in G as [v [_ G]]. cbn [matches] in G. unfold binary_match in G. rewrite H1 in G. discriminate.
    - rewrite apply_or. intros G. apply or_run_ok in G as [[_ [s [Hin E]]]|[_ [[G _]|[G _]]]]; try discriminate.
      rewrite Forall_forall in IH. match goal with F : Forall (unknown l) subs |- _ => rewrite Forall_forall in F; exact (IH s Hin _ strict (F s Hin) E) end.
    - match goal with F : oper_rep s = Some ?q, G : find_attr l ?q = None |- _ => rename F into Hr; rename G into Hn; rename q into sr end.
      rewrite apply_not. intros G. apply bind_ok in G as [m [G1 G2]]. rewrite (apply_leaf _ sr) in G1 by exact Hr. apply bind_ok in G1 as [v [_ G1]].
      assert (m = FailedNoAttr).
      { destruct s; try discriminate; cbn in Hr; injection Hr as ->; [cbn [matches] in G1; unfold present_match in G1 | cbn [matches] in G1; unfold binary_match in G1 | rewrite matches_complex in G1];
          rewrite Hn in G1; injection G1 as <-; reflexivity. }
      subst m. discriminate.
    - rewrite (apply_leaf _ r) by reflexivity. intros G. apply bind_ok in G as [v [_ G]]. rewrite matches_complex in G. rewrite H1 in G. discriminate.
  Qed.

  (** What happens inside a conjunction: the condition is ignored. *)
  Theorem C34_and_ignores : forall l data xs o r ys strict, is_cont data = true -> oper_rep o = Some r -> find_attr l r = None -> (exists v, get_item data r = Ok v) ->
    filter_apply (OAnd (xs ++ o :: ys)) data l strict = filter_apply (OAnd (xs ++ ys)) data l strict.
  Proof.
    intros l data xs o r ys strict Hc Hr Hn [v Hg]. rewrite !apply_and, or_empty_cont by exact Hc. rewrite !and_run_app. apply bind_ext. intros m.
    assert (E : filter_apply o data l strict = Ok FailedNoAttr).
    { rewrite (apply_leaf _ r) by exact Hr. rewrite Hg. cbn [bind]. destruct o; try discriminate; cbn in Hr; injection Hr as ->;
        [cbn [matches]; unfold present_match | cbn [matches]; unfold binary_match | rewrite matches_complex]; rewrite Hn; reflexivity. }
    destruct m; cbn [and_run]; rewrite ?E; reflexivity.
  Qed.

  (** ** C35: lenient mode is weaker *)

  Theorem C35_lenient_partial : forall o data l st, matching o data l true -> gives o data l false st -> st = Passed.
  Proof. intros o data l st H H'. exact (apply_modes o data l Passed st H H'). Qed.
  (** More precisely, a resource that fails in lenient mode fails in strict mode, and lenient mode never reports missing data. *)
  Theorem C35_lenient_modes : forall o data l st st', gives o data l true st -> gives o data l false st' ->
    st' <> MissingData /\ (st' = Failed -> st = Failed) /\ (st = MissingData -> st' = Passed) /\ (st = FailedNoAttr <-> st' = FailedNoAttr).
  Proof.
    intros o data l st st' H H'. pose proof (apply_modes o data l st st' H H') as W. split; [intros ->; exact (lenient_apply _ _ _ H')|].
    destruct st; cbn in W; try (subst st'; repeat split; congruence). destruct W as [->| ->]; repeat split; congruence.
  Qed.
  (** A condition on an attribute, and its negation, raise in one mode iff in the other. *)
  Theorem C35_leaf : forall o r data l, oper_rep o = Some r -> is_attr_op o = true -> matching o data l true ->
    matching o data l false.
  Proof.
    intros o r data l Hr Ho H. unfold matching, gives in *. rewrite (apply_leaf _ r) in * by exact Hr. apply bind_ok in H as [v [Hv H]]. rewrite Hv. cbn [bind].
    destruct o; try discriminate; [exact H|]. cbn [matches] in *. destruct (binary_returns _ _ _ _ _ _ H) as [st' E]. rewrite E.
    f_equal. exact (matches_modes (OBin b r0 l0) v l Passed st' H E).
  Qed.

  (** ** C36: comparisons *)

  Theorem C36_compare_partial : forall b r lt data l a v items strict, find_attr l r = Some a -> get_item data r = Ok v ->
    v <> VNone -> v <> VMissing -> v <> VInvalid -> a_type (info a) <> TUnknown ->
    subjects a v items -> Forall (fun x => comparable b a x lt) items ->
    (exists st, gives (OBin b r lt) data l strict st /\ (st = Passed \/ st = Failed))
    /\ (matching (OBin b r lt) data l strict <-> defined_for b (a_type (info a)) /\ Exists (fun x => satisfies b a x lt) items).
  Proof.
    intros b r lt data l a v items strict H1 H2 H3 H4 H5 H6 H7 H8. destruct (compare_spec b r lt data l a v items strict H1 H2 H3 H4 H5 H6 H7 H8) as [st [E [S I]]].
    unfold gives, matching, gives. split; [exists st; auto|]. rewrite E, <- I. split; congruence.
  Qed.
  (** Complex attributes that are not multi-valued, or have no "value", never
      match a comparison. *)
  Theorem C36_complex_partial : forall b r lt data l a v strict, find_attr l r = Some a -> get_item data r = Ok v ->
    v <> VNone -> v <> VMissing -> is_complex a = true -> a_type (info a) <> TUnknown ->
    (a_multi (info a) = false \/ forall s, In s (sub_attrs a) -> r_attr (arep s) <> $"value") ->
    gives (OBin b r lt) data l strict Failed.
  Proof.
    intros b r lt data l a v strict Ha Hg N1 N2 Hcx Ht Hn. unfold gives. rewrite (apply_leaf _ r) by reflexivity. rewrite Hg. cbn [bind matches]. unfold binary_match. rewrite Ha.
    assert (E : comparison_values b lt v a = Ok None).
    { unfold comparison_values. destruct (scim_name_ok _ Ht) as [name [Hnm _]]. rewrite Hnm. cbn [bind]. destruct (type_supported b name); [|reflexivity]. cbn [negb]. rewrite Hcx.
      assert (C : existsb (fun s => str_eqb (r_attr (arep s)) ($"value")) (sub_attrs a) && a_multi (info a) = false).
      { destruct Hn as [->|Hn]; [apply andb_false_r|]. apply andb_false_iff. left. apply not_true_iff_false. intros G. apply existsb_exists in G as [s [Hs G]].
        apply str_eqb_eq in G. exact (Hn s Hs G). }
      rewrite C. reflexivity. }
    rewrite E. destruct v; try contradiction; reflexivity.
  Qed.

  (** ** C37: the order operators are consistent *)

  Definition exactly_one (P Q R : Prop) : Prop := (P /\ ~ Q /\ ~ R) \/ (~ P /\ Q /\ ~ R) \/ (~ P /\ ~ Q /\ R).
  (** The value and the literal are two texts, two numbers (not NaN) or two
      moments of one kind. *)
  Definition orderable (a : attribute) (v : value) (lt : lit) : Prop :=
    match v, lt with
    | VStr s, LitStr t => a_type (info a) = TString \/ (a_type (info a) = TDateTime /\ exists x y, env_fromiso s = Some x /\ env_fromiso t = Some y /\ same_kind x y)
    | _, _ => In (a_type (info a)) [TInteger; TDecimal] /\ (exists x, number v = Some x /\ x <> FNan) /\ exists y, number (v_of_lit lt) = Some y /\ y <> FNan
    end.


  Lemma orderable_cases a v lt : orderable a v lt ->
    (forall b, ~ substring b -> defined_for b (a_type (info a)) /\ comparable b a v lt) /\ is_list v = false /\ v <> VNone /\ v <> VMissing /\ v <> VInvalid
    /\ a_type (info a) <> TUnknown
    /\ exists c, (forall b, ~ substring b -> (satisfies b a v lt <-> match b with OpEq => c = Eq | OpNe => c <> Eq | OpGt => c = Gt | OpGe => c <> Lt | OpLt => c = Lt | OpLe => c <> Gt | _ => False end)).
  Proof.
    intros H.
    assert (D : forall t, In t [TString; TDateTime; TInteger; TDecimal] -> forall b, ~ substring b -> defined_for b t).
    { intros t Ht b S. unfold defined_for. cbn in Ht. destruct Ht as [<-|[<-|[<-|[<-|[]]]]]; (split; [discriminate|]); split; try contradiction; intros _; cbn; tauto. }
    assert (Num : In (a_type (info a)) [TInteger; TDecimal] -> forall x y, number v = Some x -> number (v_of_lit lt) = Some y -> x <> FNan -> y <> FNan ->
      (forall b, ~ substring b -> defined_for b (a_type (info a)) /\ comparable b a v lt) /\ is_list v = false /\ v <> VNone /\ v <> VMissing /\ v <> VInvalid
      /\ a_type (info a) <> TUnknown
      /\ exists c, (forall b, ~ substring b -> (satisfies b a v lt <-> match b with OpEq => c = Eq | OpNe => c <> Eq | OpGt => c = Gt | OpGe => c <> Lt | OpLt => c = Lt | OpLe => c <> Gt | _ => False end))).
    { intros Ht x y Hx Hy Nx Ny.
      assert (Hc : forall b, ~ substring b -> comparable b a v lt /\ (satisfies b a v lt <-> num_rel b x y)).
      { intros b S. assert (T : a_type (info a) <> TDateTime) by (cbn in Ht; intros G; rewrite G in Ht; intuition discriminate).
        unfold comparable, satisfies. destruct v; try discriminate; cbn [number] in *; rewrite ?Hx, ?Hy; (split; [repeat split; eauto | try reflexivity]).
        all: injection Hx as ->; reflexivity. }
      split; [intros b S; split; [apply D; [cbn in Ht |- *; tauto | exact S] | apply Hc; exact S]|].
      split; [destruct v; try discriminate; reflexivity|]. repeat (split; [intros ->; discriminate|]). split; [cbn in Ht; intros G; rewrite G in Ht; intuition discriminate|].
      destruct (fcmp_some x y Nx Ny) as [c E]. exists c. intros b S. rewrite (proj2 (Hc b S)).
      destruct b; cbn [num_rel]; try (exfalso; apply S; unfold substring; tauto); rewrite ?same_number_cmp, ?num_less_iff, ?(fcmp_sym x y), ?E; cbn [option_map]; destruct c; cbn [CompOpp]; intuition congruence. }
    destruct v as [| | |vb|vz|vf|s| | | | | | | | | |]; try (destruct H as [_ [[x [Hx _]] _]]; discriminate Hx);
      try (destruct H as [Ht [[x [Hx Nx]] [y [Hy Ny]]]]; exact (Num Ht x y Hx Hy Nx Ny)).
    destruct lt as [|lb|lz|lf|t]; try (destruct H as [_ [[x [Hx _]] _]]; discriminate Hx). cbn [orderable] in H. destruct H as [Ht|[Ht [x [y [Ex [Ey K]]]]]].
    - split; [intros b S; split; [apply D; [rewrite Ht; cbn; tauto | exact S] | cbn; rewrite Ht; discriminate]|]. repeat (split; [first [reflexivity | discriminate]|]).
      split; [rewrite Ht; discriminate|]. set (f := folded (a_case_exact (info a))). exists (str_cmp (f s) (f t)). intros b S. unfold satisfies. rewrite Ht. cbn [atype_eqb]. fold f.
      destruct b; cbn [text_rel]; try (exfalso; apply S; unfold substring; tauto); rewrite <- ?str_cmp_eq, <- ?str_cmp_gt, <- ?str_cmp_lt, ?(str_cmp_sym (f s) (f t)); destruct (str_cmp (f s) (f t)); cbn [CompOpp]; intuition congruence.
    - split; [intros b S; split; [apply D; [rewrite Ht; cbn; tauto | exact S]|]|].
      { cbn. intros _ _ x' y' Ex' Ey'. congruence. }
      repeat (split; [first [reflexivity | discriminate]|]). split; [rewrite Ht; discriminate|]. exists (Z.compare (moment x) (moment y)). intros b S. unfold satisfies. rewrite Ht. cbn [atype_eqb].
      assert (R : (exists x0 y0, env_fromiso s = Some x0 /\ env_fromiso t = Some y0 /\ date_rel b x0 y0) <-> date_rel b x y).
      { split; [intros [x' [y' [Q1 [Q2 Q3]]]]; congruence | intros Q; exists x, y; auto]. }
      rewrite R. destruct b; cbn [date_rel]; try (exfalso; apply S; unfold substring; tauto); destruct (Z.compare_spec (moment x) (moment y)); intuition (try congruence; try lia).
  Qed.

  Theorem C37_consistent_partial : forall r lt data l a v strict, find_attr l r = Some a -> is_complex a = false -> get_item data r = Ok v -> orderable a v lt ->
    let holds b := matching (OBin b r lt) data l strict in
    exactly_one (holds OpLt) (holds OpEq) (holds OpGt)
    /\ (holds OpGe <-> holds OpGt \/ holds OpEq) /\ (holds OpLe <-> holds OpLt \/ holds OpEq) /\ (holds OpNe <-> ~ holds OpEq).
  Proof.
    intros r lt data l a v strict Ha Hcx Hg Ho holds. destruct (orderable_cases a v lt Ho) as [H1 [H2 [H3 [H4 [H5 [H6 [c H7]]]]]]].
    assert (E : forall b, ~ substring b -> (holds b <-> match b with OpEq => c = Eq | OpNe => c <> Eq | OpGt => c = Gt | OpGe => c <> Lt | OpLt => c = Lt | OpLe => c <> Gt | _ => False end)).
    { intros b S. rewrite <- (H7 b S). destruct (H1 b S) as [D C].
      destruct (C36_compare_partial b r lt data l a v [v] strict Ha Hg H3 H4 H5 H6 (sj_single a v Hcx H2)) as [_ I]; [constructor; [exact C | constructor]|].
      unfold holds. rewrite I. split; [intros [_ G]; inversion G as [? ? G1|? ? G1]; subst; [exact G1 | inversion G1] | intros G; split; [exact D | left; exact G]]. }
    assert (S : ~ substring OpEq /\ ~ substring OpNe /\ ~ substring OpLt /\ ~ substring OpLe /\ ~ substring OpGt /\ ~ substring OpGe)
      by (unfold substring; repeat split; intros [G|[G|G]]; discriminate).
    destruct S as [S1 [S2 [S3 [S4 [S5 S6]]]]]. unfold exactly_one. rewrite !E by assumption. destruct c; intuition congruence.
  Qed.

  (** ** C38: complex filters *)

  Lemma complex_equation r s data l a v strict : find_attr l r = Some a -> is_complex a = true -> get_item data r = Ok v -> is_list v = a_multi (info a) ->
    (is_list v = true \/ is_cont v = true) ->
    filter_apply (OComplex r s) data l strict =
    if is_attr_op s then attr_run (item_eval s (sub_attrs a) strict) strict (items_of v) false
    else other_run (fun x => matches s x (sub_attrs a) strict) strict (items_of v) false.
  Proof.
    intros Ha Hcx Hg Hm Hv. rewrite (apply_leaf _ r) by reflexivity. rewrite Hg. cbn [bind]. rewrite matches_complex, Ha, Hcx. cbn [negb].
    assert (Em : (a_multi (info a) && negb (is_list v)) || (negb (a_multi (info a)) && is_list v) = false) by (rewrite Hm; destruct (a_multi (info a)); reflexivity).
    rewrite Em. assert (Ex : complex_items a v = items_of v); [|rewrite Ex; reflexivity]. unfold complex_items. destruct v; try (destruct Hv; discriminate); [|reflexivity].
    cbn [truthy]. destruct l0; [|reflexivity]. cbn in Hm. rewrite <- Hm. reflexivity.
  Qed.
  Lemma item_eval_ok s l strict x iv m sr : oper_rep s = Some sr -> (item_eval s l strict x = Ok (iv, m) <-> get_item x sr = Ok iv /\ matches s iv l strict = Ok m).
  Proof.
    intros Hr. unfold item_eval. rewrite Hr. split.
    - intros H. apply bind_ok in H as [y [E H]]. apply bind_ok in H as [m' [E' H]]. injection H as <- <-. auto.
    - intros [-> E]. cbn [bind]. rewrite E. reflexivity.
  Qed.
  Lemma apply_item s l strict x m sr : oper_rep s = Some sr -> (filter_apply s x l strict = Ok m <-> exists iv, item_eval s l strict x = Ok (iv, m)).
  Proof.
    intros Hr. rewrite (apply_leaf _ sr) by exact Hr. split.
    - intros H. apply bind_ok in H as [iv [E H]]. exists iv. apply (item_eval_ok _ _ _ _ _ _ _ Hr). auto.
    - intros [iv H]. apply (item_eval_ok _ _ _ _ _ _ _ Hr) in H as [E H]. rewrite E. exact H.
  Qed.

  (** In strict mode the filter matches only if some one item satisfies it, and
      does so if evaluation raises for no item. *)
  Theorem C38_same_item : forall r s data l a v, find_attr l r = Some a -> is_complex a = true -> get_item data r = Ok v -> is_list v = a_multi (info a) ->
    (is_list v = true \/ is_cont v = true) -> (is_logical s = true \/ is_attr_op s = true) ->
    (matching (OComplex r s) data l true -> exists x, In x (items_of v) /\ matching s x (sub_attrs a) true)
    /\ (Forall (fun x => returns s x (sub_attrs a) true) (items_of v) ->
        (exists x, In x (items_of v) /\ matching s x (sub_attrs a) true) -> matching (OComplex r s) data l true).
  Proof.
    intros r s data l a v Ha Hcx Hg Hm Hv Hs. unfold matching, returns, gives. rewrite (complex_equation r s data l a v true Ha Hcx Hg Hm Hv). destruct (is_attr_op s) eqn:Eo.
    - destruct (oper_rep s) as [sr|] eqn:Er; [|destruct s; discriminate]. split.
      + intros H. apply attr_run_ok in H as [[_ [x [iv [Hx E]]]]|[_ G]]; [|rewrite andb_false_r in G; discriminate]. exists x. split; [exact Hx|].
        apply (apply_item _ _ _ _ _ _ Er). exists iv. exact E.
      + intros Hr [x [Hx E]]. rewrite Forall_forall in Hr.
        assert (T : forall items has, (forall y, In y items -> In y (items_of v)) -> In x items -> attr_run (item_eval s (sub_attrs a) true) true items has = Ok Passed).
        { induction items as [|y t IH]; intros has Hin Hx'; [contradiction|]. cbn [attr_run]. destruct (Hr y (Hin y (or_introl eq_refl))) as [st Hst].
          apply (apply_item _ _ _ _ _ _ Er) in Hst as [iv Hst]. rewrite Hst. cbn [bind]. destruct Hx' as [->|Hx'].
          - apply (apply_item _ _ _ _ _ _ Er) in E as [iv' E]. rewrite E in Hst. injection Hst as _ <-. reflexivity.
          - destruct st; try reflexivity; apply IH; auto; intros; apply Hin; right; assumption. }
        apply T; auto.
    - destruct Hs as [Hlog|G]; [|discriminate]. split.
      + intros H. apply other_run_ok in H as [[_ [x [Hx E]]]|[_ G]]; [|rewrite andb_false_r in G; discriminate]. exists x. split; [exact Hx|]. rewrite apply_logical by exact Hlog. exact E.
      + intros Hr [x [Hx E]]. rewrite Forall_forall in Hr.
        assert (T : forall items missing, (forall y, In y items -> In y (items_of v)) -> In x items -> other_run (fun x => matches s x (sub_attrs a) true) true items missing = Ok Passed).
        { induction items as [|y t IH]; intros missing Hin Hx'; [contradiction|]. cbn [other_run]. destruct (Hr y (Hin y (or_introl eq_refl))) as [st Hst].
          rewrite apply_logical in Hst by exact Hlog. rewrite Hst. cbn [bind]. destruct Hx' as [->|Hx'].
          - rewrite apply_logical in E by exact Hlog. rewrite E in Hst. injection Hst as <-. reflexivity.
          - destruct st; try reflexivity; apply IH; auto; intros; apply Hin; right; assumption. }
        apply T; auto.
  Qed.

  (** In lenient mode a condition on one attribute also matches when no item has
      a value for it. *)
  Theorem C38_lenient_partial : forall r s data l a v st, find_attr l r = Some a -> is_complex a = true -> get_item data r = Ok v -> is_list v = a_multi (info a) ->
    (is_list v = true \/ is_cont v = true) -> gives (OComplex r s) data l false st ->
    (is_logical s = true -> (st = Passed <-> exists x, In x (items_of v) /\ matching s x (sub_attrs a) false))
    /\ (is_attr_op s = true -> forall sr, oper_rep s = Some sr ->
        (st = Passed <-> (exists x, In x (items_of v) /\ matching s x (sub_attrs a) false)
           \/ (forall x, In x (items_of v) -> get_item x sr = Ok VNone \/ get_item x sr = Ok VMissing))).
  Proof.
    intros r s data l a v st Ha Hcx Hg Hm Hv H. unfold matching, gives in *. rewrite (complex_equation r s data l a v false Ha Hcx Hg Hm Hv) in H. split.
    - intros Hlog. assert (Eo : is_attr_op s = false) by (destruct s; try discriminate; reflexivity). rewrite Eo in H.
      apply other_run_ok in H as [[-> [x [Hx E]]]|[A ->]].
      + split; [|reflexivity]. intros _. exists x. split; [exact Hx|]. rewrite apply_logical by exact Hlog. exact E.
      + assert (N : existsb (fun x => match matches s x (sub_attrs a) false with Ok MissingData => true | _ => false end) (items_of v) = false).
        { apply not_true_iff_false. intros G. apply existsb_exists in G as [x [Hx G]]. pose proof (lenient_known s x (sub_attrs a)) as K.
          destruct (matches s x (sub_attrs a) false) as [[]|]; try discriminate. apply K. reflexivity. }
        rewrite N. cbn. split; [discriminate|]. intros [x [Hx E]]. destruct (A x Hx) as [m [Em Nm]]. rewrite apply_logical in E by exact Hlog. congruence.
    - intros Eo sr Er. rewrite Eo in H. apply attr_run_ok in H as [[-> [x [iv [Hx E]]]]|[A ->]].
      + split; [|reflexivity]. intros _. left. exists x. split; [exact Hx|]. apply (apply_item _ _ _ _ _ _ Er). exists iv. exact E.
      + rewrite andb_true_r. cbn [orb]. destruct (existsb _ (items_of v)) eqn:Ex; cbn [negb].
        * split; [discriminate|]. apply existsb_exists in Ex as [x [Hx Ex]]. intros [[y [Hy E]]|Hn].
          -- destruct (A y Hy) as [iv [m [Em Nm]]]. apply (apply_item _ _ _ _ _ _ Er) in E as [iv' E]. congruence.
          -- exfalso. destruct (A x Hx) as [iv [m [Em Nm]]]. rewrite Em in Ex. apply (item_eval_ok _ _ _ _ _ _ _ Er) in Em as [Em _].
             destruct (Hn x Hx) as [G|G]; rewrite G in Em; injection Em as <-; discriminate.
        * split; [|reflexivity]. intros _. right. intros x Hx. destruct (A x Hx) as [iv [m [Em Nm]]].
          assert (G : negb (is_none_or_missing iv) = false).
          { destruct (negb (is_none_or_missing iv)) eqn:G; [|reflexivity]. rewrite <- Ex. symmetry. apply existsb_exists. exists x. split; [exact Hx|]. rewrite Em. exact G. }
          apply (item_eval_ok _ _ _ _ _ _ _ Er) in Em as [Em _]. rewrite Em. destruct iv; try discriminate; auto.
  Qed.
End Env.

(** ** Where the statements fail *)

(** C32: exceptions depend on the order. *)
Theorem C32_order_refuted : exists (env : PyEnv) subs subs' data l strict, is_cont data = true /\ Permutation subs subs'
  /\ matching (OOr subs) data l strict /\ ~ matching (OOr subs') data l strict.
Proof.
  exists no_env, [mx_pass; mx_raise], [mx_raise; mx_pass], mx_doc, mx_attrs, true. split; [reflexivity|]. split; [apply perm_swap|].
  split; [vm_compute; reflexivity|]. unfold matching, gives. vm_compute. discriminate.
Qed.
(** C33: an exception hides the second operand of or; and not of an exception is one. *)
Theorem C33_truth_refuted : exists (env : PyEnv) x y data l strict, is_cont data = true /\ settled x data l /\ settled y data l
  /\ matching y data l strict /\ ~ matching (OOr [x; y]) data l strict
  /\ ~ matching x data l strict /\ ~ matching (ONot x) data l strict.
Proof.
  exists no_env, mx_raise, mx_pass, mx_doc, mx_attrs, true. split; [reflexivity|].
  split; [apply st_present; exists mx_emails; reflexivity|].
  split; [apply (st_bin _ _ _ _ _ (VStr ($"Bjensen"))); [eexists; reflexivity | vm_compute; reflexivity | discriminate..]|].
  unfold matching, gives. split; [vm_compute; reflexivity|]. repeat (split; [vm_compute; discriminate|]). vm_compute; discriminate.
Qed.
(** C34: combined by "and" with a condition that matches, the whole matches; so
    does the negation of a disjunction. *)
Theorem C34_never_match_refuted : exists (env : PyEnv) r lt o data l strict, is_cont data = true /\ find_attr l r = None
  /\ matching (OAnd [OBin OpEq r lt; o]) data l strict /\ matching (OAnd [OBin OpEq r lt]) data l strict
  /\ matching (ONot (OOr [OBin OpEq r lt; OPresent r])) data l strict.
Proof.
  exists no_env, (simple_name ($"nope")), (LitStr ($"B")), mx_pass, mx_doc, mx_attrs, true. split; [reflexivity|].
  split; [vm_compute; reflexivity|]. unfold matching, gives. repeat (split; [vm_compute; reflexivity|]). vm_compute; reflexivity.
Qed.
(** C35: in lenient mode evaluation goes on where it stopped in strict mode, and
    may meet an operand that raises. *)
Theorem C35_lenient_refuted : exists (env : PyEnv) o data l, is_cont data = true /\ matching o data l true /\ ~ matching o data l false.
Proof.
  exists no_env, (OOr [OAnd [ONot mx_missing; mx_raise]; mx_pass]), mx_doc, mx_attrs. split; [reflexivity|]. unfold matching, gives. split; [vm_compute; reflexivity|]. vm_compute. discriminate.
Qed.
(** C36: values and literals of different kinds raise under the order operators
    (and the name of a type decides, not the value). *)
Theorem C36_compare_refuted : exists (env : PyEnv) data l a, is_cont data = true /\ find_attr l (simple_name ($"id")) = Some a /\ a_type (info a) = TString
  /\ defined_for OpGt (a_type (info a)) /\ filter_apply (OBin OpGt (simple_name ($"id")) (LitInt 1)) data l true = Raise TypeErr.
Proof.
  exists no_env, mx_doc, mx_attrs. eexists. split; [reflexivity|]. split; [reflexivity|]. split; [reflexivity|]. split; [|vm_compute; reflexivity].
  split; [discriminate|]. split; [intros [G|[G|G]]; discriminate | intros _; cbn; tauto].
Qed.
(** C37: NaN is neither less than, equal to nor greater than a number. *)
Theorem C37_consistent_refuted : exists (env : PyEnv) r lt data l a, is_cont data = true /\ find_attr l r = Some a /\ a_type (info a) = TDecimal
  /\ forall b, b = OpLt \/ b = OpEq \/ b = OpGt -> ~ matching (OBin b r lt) data l true.
Proof.
  exists no_env, (simple_name ($"score")), (LitInt 1), mx_doc, mx_attrs. eexists. split; [reflexivity|]. split; [reflexivity|]. split; [reflexivity|].
  unfold matching, gives. intros b [->|[->| ->]]; vm_compute; discriminate.
Qed.
(** C38: in lenient mode the empty list matches. *)
Theorem C38_lenient_refuted : exists (env : PyEnv) r s data l, is_cont data = true /\ get_item data r = Ok (VList []) /\ matching (OComplex r s) data l false.
Proof.
  exists no_env, (simple_name ($"emails")), (mx_eq ($"value") ($"a")), (mk_cont (dict_of [($"emails", VList [])])), mx_attrs. split; [reflexivity|]. split; vm_compute; reflexivity.
Qed.

(** ** Examples *)

Example ex_C32 : is_cont mx_doc = true /\ Forall (fun s => @returns no_env s mx_doc mx_attrs true) [mx_pass; mx_missing; mx_unknown; mx_fail]
  /\ @gives no_env (OAnd [mx_pass; mx_missing; mx_unknown]) mx_doc mx_attrs true MissingData /\ @gives no_env (OOr [mx_fail; mx_missing; mx_unknown]) mx_doc mx_attrs true MissingData
  /\ @gives no_env (OAnd [mx_missing; mx_fail]) mx_doc mx_attrs true Failed.
Proof. split; [reflexivity|]. split; [repeat constructor; eexists; vm_compute; reflexivity|]. repeat split; vm_compute; reflexivity. Qed.

Example ex_C33 : settled (ONot (OComplex (simple_name ($"emails")) (OAnd [mx_eq ($"value") ($"a@x"); mx_eq ($"type") ($"home")]))) mx_doc mx_attrs
  /\ @matching no_env (ONot (OComplex (simple_name ($"emails")) (OAnd [mx_eq ($"value") ($"a@x"); mx_eq ($"type") ($"home")]))) mx_doc mx_attrs true
  /\ @matching no_env (OComplex (simple_name ($"emails")) (OAnd [mx_eq ($"value") ($"a@x"); mx_eq ($"type") ($"work")])) mx_doc mx_attrs true.
Proof.
  assert (L : forall n v t data l, (exists a, find_attr l (simple_name n) = Some a) -> get_item data (simple_name n) = Ok (VStr v) -> settled (mx_eq n t) data l).
  { intros n v t data l H1 H2. eapply (st_bin _ _ _ _ _ (VStr v)); [exact H1 | exact H2 | discriminate..]. }
  split; [|split; vm_compute; reflexivity].
  constructor. eapply st_complex with (a := mx_emails); [reflexivity | reflexivity | vm_compute; reflexivity | left; reflexivity | intros r' G; discriminate | reflexivity | discriminate|].
  constructor; [split; [reflexivity|]|constructor; [split; [reflexivity|]|constructor]]; constructor; constructor;
    [eapply L; [eexists; reflexivity | vm_compute; reflexivity] | constructor; [|constructor]; eapply L; [eexists; reflexivity | vm_compute; reflexivity]
     | eapply L; [eexists; reflexivity | vm_compute; reflexivity] | constructor; [|constructor]; eapply L; [eexists; reflexivity | vm_compute; reflexivity]].
Qed.
Example ex_C34 : unknown mx_attrs (OOr [mx_unknown; ONot mx_unknown]) /\ exists v, get_item mx_doc (simple_name ($"nope")) = Ok v.
Proof.
  split; [|eexists; vm_compute; reflexivity]. constructor. constructor; [constructor; vm_compute; reflexivity|]. constructor; [|constructor].
  eapply un_not; [reflexivity | vm_compute; reflexivity].
Qed.
Example ex_C35 : @matching no_env (OOr [mx_fail; mx_pass]) mx_doc mx_attrs true /\ @gives no_env mx_missing mx_doc mx_attrs true MissingData /\ @gives no_env mx_missing mx_doc mx_attrs false Passed.
Proof. repeat split; vm_compute; reflexivity. Qed.
Example ex_C36_emails : exists v, get_item mx_doc (simple_name ($"emails")) = Ok v /\ subjects mx_emails v [VStr ($"a@x"); VStr ($"b@y")]
  /\ Forall (fun x => @comparable no_env OpSw mx_emails x (LitStr ($"B@"))) [VStr ($"a@x"); VStr ($"b@y")]
  /\ @matching no_env (OBin OpSw (simple_name ($"emails")) (LitStr ($"B@"))) mx_doc mx_attrs true
  /\ @matching no_env (OBin OpCo (simple_name ($"tags")) (LitStr ($"LU"))) mx_doc mx_attrs true
  /\ ~ @matching no_env (OBin OpEq (simple_name ($"id")) (LitStr ($"ab"))) mx_doc mx_attrs true
  /\ @matching no_env (OBin OpGe (simple_name ($"age")) (LitFloat (FFin 799 (-5)))) mx_doc mx_attrs true.
Proof.
  eexists. split; [vm_compute; reflexivity|]. split.
  - eapply sj_complex; try reflexivity; [eexists; split; [left; reflexivity | reflexivity]|]. repeat (constructor; [vm_compute; reflexivity|]). constructor.
  - split; [repeat constructor; intros G; discriminate|]. unfold matching, gives. repeat (split; [vm_compute; (reflexivity || discriminate)|]). vm_compute. reflexivity.
Qed.
Example ex_C37 : exists a b, find_attr mx_attrs (simple_name ($"userName")) = Some a /\ @orderable no_env a (VStr ($"Bjensen")) (LitStr ($"bk"))
  /\ find_attr mx_attrs (simple_name ($"age")) = Some b /\ @orderable no_env b (VInt 40) (LitFloat (FFin 799 (-5))).
Proof.
  do 2 eexists. split; [reflexivity|]. split; [left; reflexivity|]. split; [reflexivity|]. split; [left; reflexivity|].
  split; eexists; (split; [reflexivity | discriminate]).
Qed.
Example ex_C38 : find_attr mx_attrs (simple_name ($"emails")) = Some mx_emails
  /\ ~ @matching no_env (OComplex (simple_name ($"emails")) (OAnd [mx_eq ($"value") ($"a@x"); mx_eq ($"type") ($"home")])) mx_doc mx_attrs true
  /\ @matching no_env (OAnd [OComplex (simple_name ($"emails")) (mx_eq ($"value") ($"a@x")); OComplex (simple_name ($"emails")) (mx_eq ($"type") ($"home"))]) mx_doc mx_attrs true.
Proof. split; [reflexivity|]. unfold matching, gives. split; vm_compute; [discriminate | reflexivity]. Qed.

Print Assumptions C32_order_partial.
Print Assumptions C32_calm_partial.
Print Assumptions C32_nesting.
Print Assumptions C33_two_valued.
Print Assumptions C33_and.
Print Assumptions C33_or_partial.
Print Assumptions C33_or_sound.
Print Assumptions C33_not_partial.
Print Assumptions C34_never_match_partial.
Print Assumptions C34_and_ignores.
Print Assumptions C35_lenient_partial.
Print Assumptions C35_lenient_modes.
Print Assumptions C35_leaf.
Print Assumptions C36_compare_partial.
Print Assumptions C36_complex_partial.
Print Assumptions C37_consistent_partial.
Print Assumptions C38_same_item.
Print Assumptions C38_lenient_partial.
Print Assumptions C32_order_refuted.
Print Assumptions C33_truth_refuted.
Print Assumptions C34_never_match_refuted.
Print Assumptions C35_lenient_refuted.
Print Assumptions C36_compare_refuted.
Print Assumptions C37_consistent_refuted.
Print Assumptions C38_lenient_refuted.
