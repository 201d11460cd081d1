(** Property C79: constructing attributes and comparing them
    (src/data/attributes.py 59-111, 172-192, 286-325). *)
From Verif Require Import PyBase BaseFacts PyNum NumFacts Issues IssuesSpec IssuesFacts AttrRep AttrRepSpec AttrRepFacts Value ValueFacts
  Container Types Attr AttrFacts PropAttr Making MakingSpec.

(** ** Which declarations are accepted *)

Lemma refs_made t l : suits t l -> exists l', ref_types t l = Ok l'.
Proof.
  intros [E U]. destruct l as [|x l]; [destruct t; eexists; reflexivity|]. destruct t; try (eexists; reflexivity).
  - destruct (E eq_refl) as [H|H]; [discriminate H|]. rewrite H. eexists; reflexivity.
  - destruct (U eq_refl) as [H|H]; [discriminate H|]. rewrite H. eexists; reflexivity.
Qed.

Lemma texts_same a b : ctx_eqb a b = true -> a = b.
Proof.
  revert b; induction a as [|x a IH]; intros [|y b]; cbn [ctx_eqb]; try discriminate; [reflexivity|].
  intros H. apply andb_true_iff in H as [H1 H2]. apply str_eqb_eq in H1 as ->. rewrite (IH _ H2). reflexivity.
Qed.

Lemma refs_suit t l l' : ref_types t l = Ok l' -> suits t l.
Proof.
  unfold ref_types. intros H. split; intros ->; destruct l as [|x l]; auto; right;
    (destruct (ctx_eqb (x :: l) _) eqn:E in H; [apply texts_same in E; exact E | discriminate H]).
Qed.

Lemma refs_value t l e : ref_types t l = Raise e -> e = ValueErr.
Proof. unfold ref_types. destruct l, t; try discriminate; destruct (ctx_eqb _ _); congruence. Qed.

(** An attribute can be declared exactly when its name, if given as text, is a
    name and its reference types suit its type; otherwise ValueError. *)
Theorem C79_declared : forall g,
  ((exists d, make_attr g = Ok d) <->
   (forall s, g_name g = inl s -> nameable s) /\ suits (g_type g) (or_empty (g_refs g)))
  /\ (forall e, make_attr g = Raise e -> e = ValueErr).
Proof.
  intros g. unfold make_attr. split; [split|].
  - intros [d H]. apply bind_ok in H as [r [Hr H]]. apply bind_ok in H as [l [Hl _]]. split.
    + intros s Es. rewrite Es in Hr. cbn [given_rep] in Hr. apply mk_rep_iff in Hr as [Hr _]. unfold nameable. rewrite <- attr_name_ok_spec. exact Hr.
    + exact (refs_suit _ _ _ Hl).
  - intros [Hn Hs]. destruct (refs_made _ _ Hs) as [l El].
    assert (Er : exists r, given_rep (g_name g) = Ok r).
    { destruct (g_name g) as [s|r]; [|exists r; reflexivity]. eexists. apply mk_rep_ok; [|discriminate]. apply attr_name_ok_spec. exact (Hn s eq_refl). }
    destruct Er as [r Er]. rewrite Er. cbn [bind]. rewrite El. eexists; reflexivity.
  - intros e H. destruct (given_rep (g_name g)) as [r|e'] eqn:Er; cbn [bind] in H.
    + destruct (ref_types _ _) as [l|e'] eqn:El; cbn [bind] in H; [discriminate|]. injection H as <-. exact (refs_value _ _ _ El).
    + injection H as <-. destruct (g_name g); [exact (mk_rep_raise _ _ _ _ _ Er) | discriminate].
Qed.

(** ** Declared values *)

Section Env.
  Context {env : PyEnv}.

  Lemma found_text s l : existsb (lit_eqb (VStr s)) l = true <-> In (LitStr s) l.
  Proof.
    rewrite existsb_exists. split.
    - intros [x [Hx E]]. destruct x; try discriminate. cbn [lit_eqb] in E. apply str_eqb_eq in E as ->. exact Hx.
    - intros H. eexists; split; [exact H|]. apply str_eqb_eq. reflexivity.
  Qed.

  Lemma found_lower s l : existsb (lit_eqb (VStr (lower s))) (map lower_lit l) = true <-> exists t, In (LitStr t) l /\ same_text s t.
  Proof.
    rewrite found_text, in_map_iff. unfold same_text. split.
    - intros [x [E Hx]]. destruct x; try discriminate. injection E as E. exists s0. split; [exact Hx | symmetry; exact E].
    - intros [t [Ht E]]. exists (LitStr t). split; [cbn [lower_lit]; rewrite E; reflexivity | exact Ht].
  Qed.

  (** A text attribute with declared values that are to be checked accepts
      exactly these, in any letter case unless it is case exact, and reports
      every other text; without the check, or without declared values, it
      accepts every text. *)
  Theorem C79_values : forall fn g d m s,
    make_attr g = Ok d -> g_type g = TString -> g_multi g = false -> no_callbacks g ->
    (process (behave fn d) m (VStr s) = Ok (VStr s, no_issues)
     <-> g_validate g = false \/ g_canon g = None \/ exists l, g_canon g = Some l /\ declared (g_case g) s l)
    /\ (process (behave fn d) m (VStr s) = Ok (VStr s, no_issues)
        \/ exists iss, process (behave fn d) m (VStr s) = Ok (VInvalid, iss) /\ errs_at iss [] = [e_must_be_one_of]).
  Proof.
    intros fn g d m s H Ht Hm [Hp Hd]. unfold make_attr in H. apply bind_ok in H as [r [_ H]]. apply bind_ok in H as [rs [_ H]]. injection H as <-.
    unfold behave. cbn [d_info d_parsers d_dumpers d_complex]. rewrite Hp, Hd. cbn [map].
    set (i := with_procs _ _ _).
    assert (P : process (MkAttr i None) m (VStr s) =
                let (y, iss) := canon_step i (VStr s) no_issues [] in if has_issues iss [] then Ok (y, iss) else Ok (y, iss)).
    { cbn [process]. unfold base_process. replace (a_multi i) with false by (symmetry; exact Hm). replace (a_type i) with TString by (symmetry; exact Ht). cbn [andb type_proc type_check is_str pass bind].
      change (merge no_issues no_issues []) with no_issues. destruct (canon_step i (VStr s) no_issues []) as [y iss]. cbn [bind].
      replace (procs_of m i) with (@nil proc) by (destruct m; reflexivity). destruct (has_issues iss []); reflexivity. }
    rewrite P. unfold canon_step. change (a_validate i) with (g_validate g).
    assert (C : is_canonical i (VStr s) = true <-> g_canon g = None \/ exists l, g_canon g = Some l /\ declared (g_case g) s l).
    { unfold is_canonical. change (a_canon i) with (norm_canon (g_case g) (g_canon g)). change (a_case_exact i) with (g_case g). unfold declared.
      destruct (g_canon g) as [l|]; cbn [norm_canon]; [|split; auto].
      destruct (g_case g).
      - rewrite found_text. split; [intros Hl; right; exists l; split; [reflexivity | exists s; auto] | intros [Hl|[l' [El [t [Hl ->]]]]]; [discriminate | injection El as <-; exact Hl]].
      - rewrite found_lower. split; [intros Hl; right; exists l; split; [reflexivity | exact Hl] | intros [Hl|[l' [El Hl]]]; [discriminate | injection El as <-; exact Hl]]. }
    destruct (is_canonical i (VStr s)) eqn:Ec.
    - split; [split; [intros _; right; apply C; reflexivity | intros _; reflexivity] | left; reflexivity].
    - destruct (g_validate g).
      + split.
        * split; [intros X; vm_compute in X; discriminate X | intros [X|X]; [discriminate | apply C in X; discriminate]].
        * right. eexists; split; [reflexivity | reflexivity].
      + split; [split; [auto | intros _; reflexivity] | left; reflexivity].
  Qed.
End Env.

(** ** Comparing *)

Lemma callback_eqb a b : cb_eqb a b = true <-> a = b.
Proof.
  destruct a, b; cbn [cb_eqb]; split; try discriminate; try reflexivity.
  - intros H. apply PeanoNat.Nat.eqb_eq in H as ->. reflexivity.
  - intros H. injection H as ->. apply PeanoNat.Nat.eqb_refl.
Qed.

Lemma lists_same {A} (eqb : A -> A -> bool) : (forall a b, eqb a b = true <-> a = b) -> forall l k, list_eqb eqb l k = true <-> l = k.
Proof.
  intros E l. induction l as [|x l IH]; intros [|y k]; cbn [list_eqb]; split; try discriminate; try reflexivity.
  - intros H. apply andb_true_iff in H as [H1 H2]. apply E in H1 as ->. apply IH in H2 as ->. reflexivity.
  - intros H. injection H as -> ->. apply andb_true_iff. split; [apply E; reflexivity | apply IH; reflexivity].
Qed.

Lemma types_same a b : atype_eqb a b = true <-> a = b.
Proof. destruct a, b; cbn; split; congruence. Qed.
Lemma muts_same a b : str_eqb (mut_str a) (mut_str b) = true <-> a = b.
Proof. destruct a, b; cbn; split; congruence. Qed.
Lemma rets_same a b : str_eqb (ret_str a) (ret_str b) = true <-> a = b.
Proof. destruct a, b; cbn; split; congruence. Qed.
Lemma uniqs_same a b : str_eqb (uniq_str a) (uniq_str b) = true <-> a = b.
Proof. destruct a, b; cbn; split; congruence. Qed.

(** The fields two equal attributes agree on. *)
Lemma eqb_fields a b : attr_eqb a b = true <->
  rep_eqb (a_rep (d_info a)) (a_rep (d_info b)) = true /\ a_type (d_info a) = a_type (d_info b)
  /\ a_reftypes (d_info a) = a_reftypes (d_info b) /\ a_required (d_info a) = a_required (d_info b)
  /\ a_case_exact (d_info a) = a_case_exact (d_info b) /\ canon_eqb (a_canon (d_info a)) (a_canon (d_info b)) = true
  /\ a_multi (d_info a) = a_multi (d_info b) /\ a_mut (d_info a) = a_mut (d_info b) /\ a_ret (d_info a) = a_ret (d_info b)
  /\ a_uniq (d_info a) = a_uniq (d_info b) /\ d_parsers a = d_parsers b /\ d_dumpers a = d_dumpers b
  /\ a_validate (d_info a) = a_validate (d_info b).
Proof.
  unfold attr_eqb. cbn [forallb]. rewrite !andb_true_iff, types_same, muts_same, rets_same, uniqs_same, !Bool.eqb_true_iff,
    (lists_same str_eqb str_eqb_eq), !(lists_same cb_eqb callback_eqb). tauto.
Qed.

Lemma lit_eqb_swap v a b : lit_same a b = true -> lit_eqb v a = lit_eqb v b.
Proof.
  unfold lit_same. intros H. apply eq_true_iff_eq.
  assert (G : forall x y, lit_eqb (v_of_lit x) y = true -> lit_eqb v x = true -> lit_eqb v y = true).
  { intros x y Hxy Hv. destruct v, x; cbn [lit_eqb v_of_lit num_of] in Hv; try discriminate Hv; destruct y; cbn [lit_eqb v_of_lit num_of] in Hxy |- *; try discriminate Hxy; try reflexivity;
      try (eapply feqb_trans; eassumption).
    apply str_eqb_eq in Hv as ->. exact Hxy. }
  split; apply G; [exact H|]. destruct a, b; cbn [lit_eqb v_of_lit num_of] in H |- *; try discriminate H; try reflexivity; try (rewrite feqb_sym; exact H).
  apply str_eqb_eq in H as ->. apply str_eqb_eq. reflexivity.
Qed.

Lemma lits_swap v l : forall k, list_eqb lit_same l k = true -> existsb (lit_eqb v) l = existsb (lit_eqb v) k.
Proof.
  induction l as [|x l IH]; intros [|y k]; cbn [list_eqb existsb]; try discriminate; [reflexivity|].
  intros H. apply andb_true_iff in H as [H1 H2]. rewrite (lit_eqb_swap v _ _ H1), (IH _ H2). reflexivity.
Qed.

Lemma canonical_swap i j v : a_case_exact i = a_case_exact j -> canon_eqb (a_canon i) (a_canon j) = true -> is_canonical i v = is_canonical j v.
Proof.
  intros Ec H. unfold is_canonical. rewrite Ec. destruct (a_canon i) as [l|], (a_canon j) as [k|]; try discriminate H; [|destruct v; reflexivity].
  cbn [canon_eqb] in H. destruct v; try reflexivity; rewrite (lits_swap _ _ _ H); reflexivity.
Qed.

Lemma foldM_swap {A B} (f g : B -> A -> res B) : (forall b a, f b a = g b a) -> forall l b, foldM f l b = foldM g l b.
Proof. intros E l. induction l as [|x l IH]; intros b; cbn [foldM]; [reflexivity|]. rewrite E. destruct (g b x); cbn [bind]; [apply IH | reflexivity]. Qed.

Section Same.
  Context {env : PyEnv}.

  Lemma base_swap m i j v :
    a_type i = a_type j -> a_multi i = a_multi j -> a_case_exact i = a_case_exact j -> a_validate i = a_validate j ->
    canon_eqb (a_canon i) (a_canon j) = true -> procs_of m i = procs_of m j -> base_process m i v = base_process m j v.
  Proof.
    intros Et Em Ec Ev En Ep.
    assert (S : forall x iss l, canon_step i x iss l = canon_step j x iss l).
    { intros x iss l. unfold canon_step. rewrite (canonical_swap i j x Ec En), Ev. reflexivity. }
    assert (F : forall l st, foldM (item_step m i) l st = foldM (item_step m j) l st).
    { apply foldM_swap. intros st [k x]. unfold item_step. rewrite Et. destruct (type_proc m (a_type j) x) as [[x' iss]|]; cbn [bind]; [|reflexivity]. rewrite S. reflexivity. }
    unfold base_process. rewrite Em, Et, Ep. destruct v; try reflexivity;
      (destruct (a_multi j && negb _); [reflexivity|]; destruct (a_multi j); [try rewrite F; try (destruct (type_proc m (a_type j) _) as [[x' iss]|]; cbn [bind]; [rewrite S|]); reflexivity
        | destruct (type_proc m (a_type j) _) as [[x' iss]|]; cbn [bind]; [rewrite S|]; reflexivity]).
  Qed.

  (** Two plain attributes that compare equal process every value alike. *)
  Theorem C79_equal_partial : forall fn a b m v,
    attr_eqb a b = true -> d_complex a = None -> d_complex b = None ->
    process (behave fn a) m v = process (behave fn b) m v.
  Proof.
    intros fn a b m v H Ha Hb. apply eqb_fields in H as (_ & Et & _ & _ & Ec & En & Em & _ & _ & _ & Ep & Ed & Ev).
    unfold behave. rewrite Ha, Hb. cbn [process]. apply base_swap; cbn [with_procs a_type a_multi a_case_exact a_validate a_canon]; try assumption.
    destruct m; cbn [procs_of with_procs a_parsers a_dumpers]; [rewrite Ep | rewrite Ed]; reflexivity.
  Qed.
End Same.

(** They also agree on what a schema document tells about them, but for the
    description, the writing of names and numbers, and who issues the value. *)
Theorem C79_equal_document : forall a b,
  attr_eqb a b = true ->
  a_type (d_info a) = a_type (d_info b) /\ a_multi (d_info a) = a_multi (d_info b) /\ a_required (d_info a) = a_required (d_info b)
  /\ a_case_exact (d_info a) = a_case_exact (d_info b) /\ a_mut (d_info a) = a_mut (d_info b) /\ a_ret (d_info a) = a_ret (d_info b)
  /\ a_uniq (d_info a) = a_uniq (d_info b) /\ a_reftypes (d_info a) = a_reftypes (d_info b)
  /\ same_text (r_attr (a_rep (d_info a))) (r_attr (a_rep (d_info b))).
Proof.
  intros a b H. apply eqb_fields in H as (Hr & Et & Ef & Eq & Ec & _ & Em & E1 & E2 & E3 & _). apply rep_eqb_iff in Hr as [_ [Hr _]].
  split; [exact Et|]. split; [exact Em|]. split; [exact Eq|]. split; [exact Ec|]. split; [exact E1|]. split; [exact E2|]. split; [exact E3|]. split; [exact Ef | exact Hr].
Qed.

Lemma lit_same_refl l : equals_itself l -> lit_same l l = true.
Proof. intros H. destruct l; unfold lit_same; cbn [lit_eqb v_of_lit num_of]; try reflexivity; [apply feqb_refl; discriminate | apply feqb_refl; discriminate | apply feqb_refl; exact (H _ eq_refl) | apply str_eqb_eq; reflexivity]. Qed.
Lemma lit_same_sym a b : lit_same a b = lit_same b a.
Proof.
  destruct a, b; unfold lit_same; cbn [lit_eqb v_of_lit num_of]; try reflexivity; try apply feqb_sym. apply eq_true_iff_eq. rewrite !str_eqb_eq. split; congruence.
Qed.
Lemma lits_refl l : Forall equals_itself l -> list_eqb lit_same l l = true.
Proof. induction 1 as [|x l Hx _ IH]; cbn [list_eqb]; [reflexivity|]. rewrite (lit_same_refl x Hx), IH. reflexivity. Qed.
Lemma lits_sym l : forall k, list_eqb lit_same l k = list_eqb lit_same k l.
Proof. induction l as [|x l IH]; intros [|y k]; cbn [list_eqb]; try reflexivity. rewrite lit_same_sym, IH. reflexivity. Qed.

(** An attribute equals itself, and equality goes both ways. *)
Theorem C79_equal_self : forall a,
  (forall l, a_canon (d_info a) = Some l -> Forall equals_itself l) -> attr_eqb a a = true.
Proof.
  intros a H. apply eqb_fields. split; [apply rep_eqb_iff; unfold same_text; auto|].
  assert (C : canon_eqb (a_canon (d_info a)) (a_canon (d_info a)) = true).
  { destruct (a_canon (d_info a)) as [l|] eqn:E; [|reflexivity]. apply lits_refl. exact (H l eq_refl). }
  rewrite C. tauto.
Qed.
Theorem C79_equal_both : forall a b, attr_eqb a b = attr_eqb b a.
Proof.
  intros a b. apply eq_true_iff_eq. rewrite !eqb_fields, !rep_eqb_iff. unfold same_text.
  assert (C : canon_eqb (a_canon (d_info a)) (a_canon (d_info b)) = canon_eqb (a_canon (d_info b)) (a_canon (d_info a))).
  { destruct (a_canon (d_info a)), (a_canon (d_info b)); try reflexivity. apply lits_sym. }
  rewrite C. intuition congruence.
Qed.

(** ** The check for a single primary item *)

Lemma times_app c a b : times c (a ++ b) = times c a + times c b.
Proof. induction a as [|x a IH]; cbn [app times]; [reflexivity|]. rewrite IH. apply PeanoNat.Nat.add_assoc. Qed.
Lemma times_found c l : existsb (cb_eqb c) l = true <-> 1 <= times c l.
Proof.
  induction l as [|x l IH]; cbn [existsb times]; [split; [discriminate | intros H; inversion H]|].
  destruct (cb_eqb c x); cbn [orb]; [split; [intros _; apply le_n_S, PeanoNat.Nat.le_0_l | reflexivity] | exact IH].
Qed.
Lemma added l : 1 <= times CPrimary (add_primary l) /\ (times CPrimary l <= 1 -> times CPrimary (add_primary l) = 1)
  /\ exists t, add_primary l = l ++ t /\ (t = [] \/ t = [CPrimary]).
Proof.
  unfold add_primary. destruct (existsb (cb_eqb CPrimary) l) eqn:E.
  - apply times_found in E. split; [exact E|]. split; [intros H; apply PeanoNat.Nat.le_antisymm; assumption|]. exists []. rewrite app_nil_r. auto.
  - assert (Z : times CPrimary l = 0).
    { destruct (times CPrimary l) eqn:T; [reflexivity|]. exfalso. assert (X : existsb (cb_eqb CPrimary) l = true) by (apply times_found; rewrite T; apply le_n_S, PeanoNat.Nat.le_0_l). rewrite X in E. discriminate. }
    rewrite times_app, Z. split; [apply le_n|]. split; [reflexivity|]. exists [CPrimary]. auto.
Qed.

(** A multi-valued complex attribute checks for a single primary item once in
    each direction, after the callbacks it was given; a single-valued one has
    just the callbacks it was given. *)
Theorem C79_primary : forall g subs cps cds d cps' cds',
  make_complex g subs cps cds = Ok (d, cps', cds') ->
  exists ps ds, d_complex d = Some (dedup_attrs subs, ps, ds)
    /\ (g_multi g = false -> ps = or_empty cps /\ ds = or_empty cds)
    /\ (g_multi g = true ->
        (exists t, ps = or_empty cps ++ t /\ (t = [] \/ t = [CPrimary])) /\ (exists t, ds = or_empty cds ++ t /\ (t = [] \/ t = [CPrimary]))
        /\ 1 <= times CPrimary ps /\ 1 <= times CPrimary ds
        /\ (times CPrimary (or_empty cps) <= 1 -> times CPrimary ps = 1) /\ (times CPrimary (or_empty cds) <= 1 -> times CPrimary ds = 1)).
Proof.
  intros g subs cps cds d cps' cds' H. unfold make_complex in H. apply bind_ok in H as [d0 [_ H]]. injection H as <- _ _.
  cbn [d_complex]. eexists; eexists; split; [reflexivity|]. split; intros E; rewrite E; [split; reflexivity|].
  pose proof (added (or_empty cps)) as [A1 [A2 A3]]. pose proof (added (or_empty cds)) as [B1 [B2 B3]]. tauto.
Qed.

(** Constructing leaves the lists the caller passed as they were, if these are
    left out or empty, or have the check already, or the attribute is
    single-valued. *)
Theorem C79_lists_partial : forall g subs cps cds d cps' cds',
  make_complex g subs cps cds = Ok (d, cps', cds') ->
  g_multi g = false \/ (forall l, cps = Some l \/ cds = Some l -> l = [] \/ In CPrimary l) ->
  cps' = cps /\ cds' = cds.
Proof.
  intros g subs cps cds d cps' cds' H Hk. unfold make_complex in H. apply bind_ok in H as [d0 [_ H]]. injection H as _ <- <-.
  assert (G : forall q, (g_multi g = false \/ forall l, q = Some l -> l = [] \/ In CPrimary l) -> caller_list (g_multi g) q = q).
  { intros [[|c t]|] Hq; try reflexivity. unfold caller_list. destruct (g_multi g); [|reflexivity]. destruct Hq as [Hq|Hq]; [discriminate|].
    destruct (Hq _ eq_refl) as [Hl|Hl]; [discriminate|]. unfold add_primary. replace (existsb (cb_eqb CPrimary) (c :: t)) with true; [reflexivity|].
    symmetry. apply existsb_exists. exists CPrimary. split; [exact Hl | reflexivity]. }
  split; apply G; (destruct Hk as [Hk|Hk]; [left; exact Hk | right; intros l Hl; apply Hk; auto]).
Qed.

(** The objects built this way are those the rest of the model speaks of. *)
Theorem C79_modelled : forall fn g subs cps cds d cps' cds',
  make_complex g subs cps cds = Ok (d, cps', cds') -> ~ In CPrimary (or_empty cps) -> ~ In CPrimary (or_empty cds) ->
  exists i, behave fn d = mk_complex i subs (map (act fn) (or_empty cps)) (map (act fn) (or_empty cds)) /\ a_type i = TComplex /\ a_multi i = g_multi g.
Proof.
  intros fn g subs cps cds d cps' cds' H Hp Hd. unfold make_complex in H. apply bind_ok in H as [d0 [H0 H]]. injection H as <- _ _.
  unfold make_attr in H0. apply bind_ok in H0 as [r [_ H0]]. apply bind_ok in H0 as [rs [_ H0]]. injection H0 as <-.
  assert (G : forall l, ~ In CPrimary l -> map (act fn) (if g_multi g then add_primary l else l) = map (act fn) l ++ (if g_multi g then [single_primary] else [])).
  { intros l Hl. destruct (g_multi g); [|rewrite app_nil_r; reflexivity]. unfold add_primary. destruct (existsb (cb_eqb CPrimary) l) eqn:E; [|rewrite map_app; reflexivity].
    exfalso. apply existsb_exists in E as [c [Hc E]]. apply callback_eqb in E as <-. exact (Hl Hc). }
  exists (with_procs (map (act fn) (or_empty (g_parsers g))) (map (act fn) (or_empty (g_dumpers g)))
    (mkInfo r TComplex (g_descr g) rs (g_issuer g) (g_required g) false (g_multi g) None false (g_mut g) (g_ret g) (g_uniq g) [] [])). split; [|split; [|]].
  - unfold behave, mk_complex. cbn [d_info d_parsers d_dumpers d_complex]. rewrite !G by assumption. reflexivity.
  - reflexivity.
  - reflexivity.
Qed.

(** ** Cases *)

#[local] Existing Instance no_env.

(** Attribute("kind", String, canonical_values=["Work", "Home"], validate_canonical_values=True). *)
Definition ex_kind (l : list lit) : args :=
  mkArgs (inl ($"kind")) TString [] None IssNotSpecified false false false (Some l) true ReadWrite RetDefault UniqNone None None.
Definition ex_fn : nat -> proc := fun _ v => Ok (v, no_issues).

Example ex_C79_declared :
  (exists d, make_attr (ex_kind [LitStr ($"Work")]) = Ok d)
  /\ make_attr (mkArgs (inl ($"a b")) TString [] None IssNotSpecified false false false None false ReadWrite RetDefault UniqNone None None) = Raise ValueErr
  /\ make_attr (mkArgs (inl ($"link")) TUriRef [] (Some [$"User"]) IssNotSpecified false false false None false ReadWrite RetDefault UniqNone None None) = Raise ValueErr.
Proof. split; [eexists; reflexivity | split; reflexivity]. Qed.

Example ex_C79_values : forall d, make_attr (ex_kind [LitStr ($"Work"); LitStr ($"Home")]) = Ok d ->
  process (behave ex_fn d) MParse (VStr ($"wORK")) = Ok (VStr ($"wORK"), no_issues)
  /\ exists iss, process (behave ex_fn d) MParse (VStr ($"other")) = Ok (VInvalid, iss).
Proof.
  intros d H. destruct (C79_values ex_fn _ d MParse ($"wORK") H eq_refl eq_refl (conj eq_refl eq_refl)) as [[_ W] _].
  destruct (C79_values ex_fn _ d MParse ($"other") H eq_refl eq_refl (conj eq_refl eq_refl)) as [[O _] [X|[iss [X _]]]].
  - exfalso. destruct (O X) as [E|[E|[l [E [t [Ht S]]]]]]; try discriminate E. injection E as <-.
    destruct Ht as [Ht|[Ht|[]]]; injection Ht as <-; vm_compute in S; discriminate S.
  - split; [|exists iss; exact X]. apply W. right. right. eexists. split; [reflexivity|]. exists ($"Work"). split; [left; reflexivity | reflexivity].
Qed.

(** A list of declared values that is empty is not as good as none: no text is
    accepted then. *)
Example ex_C79_no_values : forall d s, make_attr (ex_kind []) = Ok d -> process (behave ex_fn d) MParse (VStr s) <> Ok (VStr s, no_issues).
Proof.
  intros d s H X. destruct (C79_values ex_fn _ d MParse s H eq_refl eq_refl (conj eq_refl eq_refl)) as [[O _] _].
  destruct (O X) as [E|[E|[l [E [t [Ht _]]]]]]; try discriminate E. injection E as <-. destruct Ht.
Qed.

(** Equal attributes that are not written alike. *)
Example ex_C79_equal : exists a b,
  make_attr (ex_kind [LitStr ($"Work"); LitInt 1]) = Ok a
  /\ make_attr (mkArgs (inr (mkRep ($"urn:s") ($"KIND") [] false)) TString ($"said") None IssServer false false false
                       (Some [LitStr ($"work"); LitBool true]) true ReadWrite RetDefault UniqNone None None) = Ok b
  /\ attr_eqb a b = true /\ a <> b.
Proof. eexists; eexists. split; [reflexivity|]. split; [reflexivity|]. split; [reflexivity | discriminate]. Qed.

(** The full claim would be that equal attributes of any class process every
    value alike. Sub-attributes and complex callbacks are not compared, so
    complex attributes with different sub-attributes are equal. *)
Definition ex_outer (multi : bool) : args :=
  mkArgs (inl ($"name")) TComplex [] None IssNotSpecified false false multi None false ReadWrite RetDefault UniqNone None None.
Definition ex_subs (n : str) (t : atype) : list attribute := [mk_simple (plain n t)].
Theorem C79_equal_refuted : ~ (forall fn a b m v, attr_eqb a b = true -> process (behave fn a) m v = process (behave fn b) m v).
Proof.
  intros H.
  destruct (make_complex (ex_outer false) (ex_subs ($"given") TString) None None) as [[[a a1] a2]|] eqn:Ea; [|discriminate Ea].
  destruct (make_complex (ex_outer false) (ex_subs ($"given") TInteger) None None) as [[[b b1] b2]|] eqn:Eb; [|discriminate Eb].
  specialize (H ex_fn a b MParse (mk_cont (VDict [(KStr ($"given"), VStr ($"x"))]))).
  vm_compute in Ea, Eb. injection Ea as <- _ _. injection Eb as <- _ _. specialize (H eq_refl). vm_compute in H. discriminate H.
Qed.

(** Nor can equality be passed on: an attribute of no schema equals its
    namesakes of two schemas, which differ from each other. *)
Definition ex_of (schema : str) : args :=
  mkArgs (inr (mkRep schema ($"kind") [] false)) TString [] None IssNotSpecified false false false None false ReadWrite RetDefault UniqNone None None.
Theorem C79_transitive_refuted : exists a b c,
  make_attr (ex_of ($"urn:a")) = Ok a /\ make_attr (ex_of []) = Ok b /\ make_attr (ex_of ($"urn:b")) = Ok c
  /\ attr_eqb a b = true /\ attr_eqb b c = true /\ attr_eqb a c = false.
Proof. eexists; eexists; eexists. split; [reflexivity|]. split; [reflexivity|]. split; [reflexivity|]. split; [reflexivity|]. split; reflexivity. Qed.

Example ex_C79_primary : exists d,
  make_complex (ex_outer true) (ex_subs ($"value") TString) (Some [COther 1]) None = Ok (d, Some [COther 1; CPrimary], None)
  /\ d_complex d = Some (dedup_attrs (ex_subs ($"value") TString), [COther 1; CPrimary], [CPrimary]).
Proof. eexists; split; reflexivity. Qed.

(** The full claim would be that constructing an attribute leaves the lists it
    is given alone. A list with callbacks is appended to in place; a
    single-valued attribute that is given the same list next then checks for a
    single primary item, and raises on a document it should accept. *)
Theorem C79_lists_refuted :
  ~ (forall g subs cps cds d cps' cds', make_complex g subs cps cds = Ok (d, cps', cds') -> cps' = cps /\ cds' = cds)
  /\ (forall shared,
       (exists d ds, make_complex (ex_outer true) (ex_subs ($"given") TString) (Some [COther 0]) None = Ok (d, shared, ds)) ->
       exists second x y, make_complex (ex_outer false) (ex_subs ($"given") TString) shared None = Ok (second, x, y)
         /\ process (behave ex_fn second) MParse (mk_cont (VDict [(KStr ($"given"), VStr ($"x"))])) = Raise AttributeErr)
  /\ exists second x y, make_complex (ex_outer false) (ex_subs ($"given") TString) (Some [COther 0]) None = Ok (second, x, y)
       /\ exists w, process (behave ex_fn second) MParse (mk_cont (VDict [(KStr ($"given"), VStr ($"x"))])) = Ok (w, no_issues).
Proof.
  split; [|split].
  - intros H. destruct (H (ex_outer true) [] (Some [COther 0]) None _ _ _ eq_refl) as [X _]. discriminate X.
  - intros shared [d [ds E]]. vm_compute in E. injection E as _ <- _. eexists; eexists; eexists. split; [reflexivity|]. reflexivity.
  - eexists; eexists; eexists. split; [reflexivity|]. eexists. reflexivity.
Qed.

Print Assumptions C79_declared.
Print Assumptions C79_values.
Print Assumptions C79_equal_partial.
Print Assumptions C79_equal_document.
Print Assumptions C79_equal_self.
Print Assumptions C79_equal_both.
Print Assumptions C79_primary.
Print Assumptions C79_lists_partial.
Print Assumptions C79_modelled.
Print Assumptions C79_equal_refuted.
Print Assumptions C79_transitive_refuted.
Print Assumptions C79_lists_refuted.
