(** Filter parsing returns, and what it returns (C39, C40). *)
From Verif Require Import PyBase BaseFacts PyNum Issues IssuesSpec IssuesFacts AttrRep AttrRepSpec AttrRepFacts Value Container Types Attr Match FilterParse FilterSpec FilterText.

(** The computation returns a result with the property, or raises OverflowError. *)
Definition ends {A} (P : A -> Prop) (r : res A) : Prop :=
  match r with Ok a => P a | Raise e => e = OverflowErr end.
Lemma ends_bind {A B} (P : A -> Prop) (Q : B -> Prop) (m : res A) (k : A -> res B) :
  ends P m -> (forall a, P a -> ends Q (k a)) -> ends Q (bind m k).
Proof. destruct m as [a|e]; intros H K; [apply K; exact H | exact H]. Qed.
Lemma ends_weaken {A} (P Q : A -> Prop) m : (forall a, P a -> Q a) -> ends P m -> ends Q m.
Proof. intros H. destruct m; [apply H | auto]. Qed.
Lemma ends_foldM {A B} (I : A -> Prop) (f : A -> B -> res A) l : (forall a b, In b l -> I a -> ends I (f a b)) -> forall a, I a -> ends I (foldM f l a).
Proof.
  induction l as [|b l IH]; intros H a Ha; [exact Ha|]. cbn [foldM]. apply (ends_bind I); [apply H; [left; reflexivity | exact Ha]|].
  intros a' Ha'. apply IH; [|exact Ha']. intros x y Hy. apply H. right. exact Hy.
Qed.

(** An operator without errors is complete. *)
Definition sound (p : pres) : Prop := snd p = [] -> complete (fst p).
Definition sound_dict (d : idict pres) : Prop := Forall (fun e => sound (snd e)) d.
Lemma iget_In {V} i (d : idict V) v : iget i d = Some v -> In (i, v) d.
Proof.
  unfold iget. induction d as [|[k x] d IH]; [discriminate|]. cbn [aget]. destruct (Nat.eqb_spec k i) as [->|]; [intros E; injection E as ->; left; reflexivity|].
  intros E. right. apply IH. exact E.
Qed.
Lemma sound_get d i p : sound_dict d -> iget i d = Some p -> sound p.
Proof. intros H E. apply iget_In in E. unfold sound_dict in H. rewrite Forall_forall in H. exact (H _ E). Qed.
Lemma sound_set d i p : sound_dict d -> sound p -> sound_dict (iset i p d).
Proof.
  unfold sound_dict, iset. intros H Hp. induction d as [|[k x] d IH]; cbn [aset]; [constructor; [exact Hp | constructor]|].
  inversion H; subst. destruct (Nat.eqb k i); constructor; auto.
Qed.
Lemma sound_err es o : es <> [] -> sound (o, es).
Proof. intros H E. contradiction. Qed.

Lemma comparison_ends s : match parse_comparison_value s with Ok l => finite_lit l | Raise e => e = OverflowErr \/ e = ValueErr end.
Proof.
  unfold parse_comparison_value. assert (F : forall b, finite_lit (LitBool b)) by (intros b f E; discriminate).
  destruct (_ || _); [intros f E; discriminate|]. destruct (str_eqb s _); [apply F|]. destruct (str_eqb s _); [apply F|]. destruct (str_eqb s _); [intros f E; discriminate|].
  destruct (parse_float s) as [f|]; [|auto]. destruct f as [m e|b|]; cbn [int_of_float bind]; [|auto|auto].
  destruct (feqb _ _); [intros f E; discriminate|]. intros f E. injection E as <-. eauto.
Qed.

Lemma wrap_sub_ends name r mk : parse_rep name = Some r -> (forall r', plain_rep r' -> complete (mk r')) ->
  ends complete (wrap_sub r mk).
Proof.
  intros H Hm. apply parse_rep_iff in H as [segs [H [Hs He]]]. pose proof H as [Hsegs [Hn [Hsub Et]]]. unfold wrap_sub.
  assert (P : forall r', r_sub r' = [] -> r_ext r' = false -> r_schema r' = joined segs -> r_attr r' = r_attr r -> plain_rep r').
  { intros r' H1 H2 H3 H4. split; [exact H1|]. split; [exact H2|]. exists (terminated segs ++ r_attr r), segs. rewrite H4. split; [|exact H3].
    split; [exact Hsegs|]. split; [exact Hn|]. split; [left; reflexivity|]. rewrite app_nil_r. reflexivity. }
  destruct (r_sub r) as [|c s] eqn:Es.
  - cbn [ends]. apply Hm. apply P; auto.
  - destruct Hsub as [Hsub|Hsub]; [discriminate|].
    assert (A : attr_name_ok (r_attr r) = true) by (apply attr_name_ok_spec; exact Hn). assert (B : attr_name_ok (c :: s) = true) by (apply attr_name_ok_spec; left; exact Hsub).
    rewrite mk_rep_ok by (exact A || discriminate). cbn [bind]. rewrite mk_rep_ok by (exact B || discriminate). cbn [bind ends]. constructor; [apply P; auto|].
    apply Hm. split; [reflexivity|]. split; [reflexivity|]. exists (c :: s), []. split; [|reflexivity]. repeat split; auto. cbn [terminated map concat r_attr app]. rewrite app_nil_r. reflexivity.
Qed.
Lemma lit_allowed_iff b l : lit_allowed b l = true <-> suits b l.
Proof.
  destruct b, l; cbn; split; intros H; try reflexivity; try exact I; try discriminate; eauto 6;
    repeat match goal with H : _ \/ _ |- _ => destruct H | H : exists _, _ |- _ => destruct H end; discriminate.
Qed.
Lemma finish_ends name r b errs v : r = parse_rep name -> finite_lit v -> (errs = [] -> exists x, r = Some x) -> (errs = [] -> exists x, b = Some x) ->
  ends sound (finish_binary r b errs v).
Proof.
  intros Hr Hv H1 H2. unfold finish_binary. destruct errs as [|e es]; [|apply sound_err; discriminate].
  destruct (H1 eq_refl) as [x ->]. destruct (H2 eq_refl) as [y ->]. destruct (lit_allowed y v) eqn:E; [|apply sound_err; discriminate].
  apply (ends_bind complete); [|intros o Ho _; exact Ho]. apply (wrap_sub_ends name); [auto|]. intros r' Hr'. constructor; [exact Hr' | apply lit_allowed_iff; exact E | exact Hv].
Qed.

Lemma attr_exp_ends exp strings groups complexes : sound_dict groups -> sound_dict complexes -> ends sound (parse_attr_exp exp strings groups complexes).
Proof.
  intros Hg Hc. unfold parse_attr_exp. set (x := strip exp). clearbody x. clear exp.
  match goal with |- context [match ?f with Some p => Ok p | None => _ end] => destruct f as [p|] eqn:Ef end.
  - cbn [ends]. destruct (parse_placeholder x) as [i|]; [|discriminate]. destruct (iget i groups) eqn:Eg.
    + injection Ef as <-. apply (sound_get _ _ _ Hg Eg).
    + apply (sound_get _ _ _ Hc Ef).
  - clear Ef. destruct (split_ws x false []) as [|name [|o [|val [|]]]]; try (apply sound_err; discriminate).
    + destruct (parse_rep name) as [r|] eqn:Er.
      * match goal with |- context [match ?l with [] => _ | _ :: _ => _ end] => destruct l eqn:El end; [|apply sound_err; discriminate].
        apply (ends_bind complete); [|intros o' Ho _; exact Ho]. apply (wrap_sub_ends name); [exact Er|]. intros; constructor; assumption.
      * apply sound_err. destruct (str_eqb _ _); [discriminate|]. destruct (binop_of _); discriminate.
    + pose proof (comparison_ends (encode_strings val strings)) as C.
      assert (L : forall es, match binop_of (lower o) with Some _ => [] | None => [e_unknown_operator] end ++ match parse_rep name with Some _ => [] | None => [e_bad_name] end ++ es = [] ->
                  (exists x, parse_rep name = Some x) /\ exists x, binop_of (lower o) = Some x).
      { intros es. destruct (binop_of (lower o)), (parse_rep name); try discriminate. eauto. }
      destruct (parse_comparison_value (encode_strings val strings)) as [v|e].
      * apply (finish_ends name); auto; intros E; destruct (L []); rewrite ?app_nil_r; auto.
      * destruct C as [->| ->]; [reflexivity|]. apply (finish_ends name); auto; try (intros f E; discriminate); intros E; rewrite <- app_assoc in E; destruct (L _ E); auto.
Qed.
Lemma not_exp_ends exp strings groups complexes : sound_dict groups -> sound_dict complexes -> ends sound (parse_not_exp exp strings groups complexes).
Proof.
  intros Hg Hc. unfold parse_not_exp. destruct (match_kw ($"not") None exp) as [[m rest]|]; [|apply attr_exp_ends; assumption].
  destruct rest as [|c t]; [apply sound_err; discriminate|]. apply (ends_bind sound); [apply attr_exp_ends; assumption|].
  intros [o es] Hs E. cbn in *. constructor. apply Hs. exact E.
Qed.
Lemma operands_ends (f : str -> res pres) l : (forall x, In x l -> ends sound (f x)) ->
  ends (fun p => length (fst p) = length l /\ (snd p = [] -> Forall complete (fst p))) (parse_operands f l).
Proof.
  induction l as [|x t IH]; intros H; [cbn; auto|]. cbn [parse_operands]. apply (ends_bind sound); [apply H; left; reflexivity|]. intros [o es] Hs.
  eapply ends_bind; [apply IH; intros y Hy; apply H; right; exact Hy|]. intros [os es'] [Hl Hc]. cbn in *. split; [lia|]. intros E. apply app_eq_nil in E as [-> ->]. constructor; [apply Hs; reflexivity | apply Hc; reflexivity].
Qed.
Lemma combine_sound (mk : list oper -> oper) es0 os es : (forall l, 2 <= length l -> Forall complete l -> complete (mk l)) -> (os = [] -> es0 <> []) ->
  (es = [] -> Forall complete os) -> sound (combine mk es0 os es).
Proof.
  intros Hmk Hne Hc. unfold combine, sound. destruct (es0 ++ es) as [|e l] eqn:E.
  - apply app_eq_nil in E as [-> ->]. specialize (Hc eq_refl). destruct os as [|o [|o' os]].
    + exfalso. apply Hne; reflexivity.
    + intros _. inversion Hc; subst. assumption.
    + intros _. apply Hmk; [cbn; lia | exact Hc].
  - discriminate.
Qed.
(** Empty pieces around a keyword are reported. *)
Lemma split_kw_nonempty kw : forall s prev k acc, split_kw kw prev s k acc <> [].
Proof.
  induction s as [|c t IH]; intros prev k acc; [discriminate|]. cbn [split_kw]. destruct k; [|apply IH]. destruct (match_kw kw prev (c :: t)) as [[? ?]|]; [discriminate | apply IH].
Qed.
Lemma split_single kw : forall s prev acc x, split_kw kw prev s 0 acc = [x] -> x = rev acc ++ s.
Proof.
  induction s as [|c t IH]; intros prev acc x; cbn [split_kw]; [intros E; injection E as <-; rewrite app_nil_r; reflexivity|].
  destruct (match_kw kw prev (c :: t)) as [[? rest]|].
  - intros E. injection E as _ E. exfalso. revert E. apply split_kw_nonempty.
  - intros E. apply IH in E. subst x. cbn [rev]. rewrite <- app_assoc. reflexivity.
Qed.
Lemma operands_some kw exp : exp <> [] -> fst (split_operands kw exp) = [] -> snd (split_operands kw exp) <> [].
Proof.
  intros Hx. unfold split_operands. cbn [fst snd]. pose proof (split_kw_nonempty kw exp None 0 []) as N. pose proof (split_single kw exp None []) as S.
  destruct (split_kw kw None exp 0 []) as [|a [|b t]]; [contradiction| |].
  - specialize (S a eq_refl). cbn in S. subst a. destruct exp; [contradiction|]. discriminate.
  - intros E. cbn [filter] in E. destruct a; cbn [nonempty] in E; [|discriminate]. cbn [operand_errors nonempty andb app]. discriminate.
Qed.
Lemma operand_nonempty kw exp x : In x (fst (split_operands kw exp)) -> x <> [].
Proof. unfold split_operands. cbn [fst]. intros H. apply filter_In in H as [_ H]. destruct x; [discriminate | discriminate]. Qed.
Lemma and_exp_ends strings groups complexes exp : exp <> [] -> sound_dict groups -> sound_dict complexes -> ends sound (parse_and_exp strings groups complexes exp).
Proof.
  intros Hx Hg Hc. unfold parse_and_exp. pose proof (operands_some ($"and") exp Hx) as N. destruct (split_operands ($"and") exp) as [ops es0]. cbn [fst snd] in N.
  eapply ends_bind; [apply operands_ends; intros x _; apply not_exp_ends; assumption|]. intros [os es] [Hl Ho]. cbn [fst snd ends] in *.
  apply combine_sound; [intros; constructor; assumption | | exact Ho]. intros ->. apply N. destruct ops; [reflexivity | discriminate].
Qed.
Lemma or_exp_ends strings groups complexes exp : exp <> [] -> sound_dict groups -> sound_dict complexes -> ends sound (parse_or_exp strings groups complexes exp).
Proof.
  intros Hx Hg Hc. unfold parse_or_exp. pose proof (operands_some ($"or") exp Hx) as N. pose proof (fun x => operand_nonempty ($"or") exp x) as M. destruct (split_operands ($"or") exp) as [ops es0]. cbn [fst snd] in N, M.
  eapply ends_bind; [apply operands_ends; intros x Hi; apply and_exp_ends; auto|]. intros [os es] [Hl Ho]. cbn [fst snd ends] in *.
  apply combine_sound; [intros; constructor; assumption | | exact Ho]. intros ->. apply N. destruct ops; [reflexivity | discriminate].
Qed.

Lemma enum_from_lt {A} (l : list A) : forall n i x, In (i, x) (enum_from n l) -> i < n + length l.
Proof. induction l as [|a l IH]; intros n i x H; [contradiction|]. cbn in *. destruct H as [E|H]; [injection E as <- _; lia|]. apply IH in H. lia. Qed.
Lemma slice_length a b s : length (slice a b s) <= b - a.
Proof. unfold slice. rewrite firstn_length. lia. Qed.
Lemma operator_ends fuel strings complexes : sound_dict complexes -> forall exp, length exp < fuel -> ends sound (parse_operator fuel strings complexes exp).
Proof.
  intros Hc. induction fuel as [|f IH]; intros exp Hl; [lia|]. cbn [parse_operator].
  apply (ends_bind (fun g => sound_dict (g_ops g))).
  - apply ends_foldM; [|constructor]. intros st [i c] Hin Hs. apply enum_from_lt in Hin. unfold group_step.
    set (ign := if chr_eqb c dquote then _ else _). destruct ign; [exact Hs|].
    destruct (if chr_eqb c lpar then _ else _) as [[op cnt] errs].
    destruct op as [o|]; [|exact Hs]. destruct (Nat.eqb cnt 0); [|exact Hs].
    apply (ends_bind sound); [|intros p Hp; cbn; apply sound_set; assumption]. apply IH. pose proof (slice_length (S o) i exp). lia.
  - intros g Hg. match goal with |- context [match ?l with [] => parse_or_exp _ _ _ _ | _ => _ end] => destruct l eqn:El end; [|apply sound_err; discriminate].
    apply or_exp_ends; [|exact Hg|exact Hc]. intros E. rewrite E in El. destruct (g_errs g), (g_open g); discriminate.
Qed.
Lemma complex_ends strings name sub : ends sound (parse_complex strings name sub).
Proof.
  unfold parse_complex.
  match goal with |- context [match ?l with [] => match parse_rep name with _ => _ end | _ => _ end] => destruct l eqn:El end; [|apply sound_err; discriminate].
  destruct (parse_rep name) as [r|] eqn:Er; [|destruct (strip sub); discriminate]. apply (ends_bind sound); [apply operator_ends; [constructor | lia]|].
  intros [o es] Hs. destruct es; [|apply sound_err; discriminate]. cbn [ends]. intros _. cbn [fst]. constructor; [|apply Hs; reflexivity].
  apply parse_rep_iff in Er as [segs [H [Hj He]]].
  assert (Esub : r_sub r = []) by (destruct (strip sub), (r_sub r); try reflexivity; discriminate). rewrite Esub in H. split; [exact Esub|]. split; [exact He|]. eauto.
Qed.
Theorem core_ends s : ends sound (parse_filter_core s).
Proof.
  unfold parse_filter_core. destruct (mask_strings s) as [txt strings]. apply (ends_bind (fun st => sound_dict (c_ops st))).
  - apply ends_foldM; [|constructor]. intros st [i c] _ Hs. unfold complex_step. destruct (c_break st); [exact Hs|].
    set (ign := if chr_eqb c dquote then _ else _). destruct ign; [exact Hs|]. destruct (c_open st) as [o|].
    + destruct (chr_eqb c lbrk); [exact Hs|]. destruct (chr_eqb c rbrk); [|exact Hs]. apply (ends_bind sound); [apply complex_ends|].
      intros p Hp. cbn. apply sound_set; assumption.
    + destruct (_ || _); [exact Hs|]. destruct (chr_eqb c lbrk); [exact Hs|]. destruct (chr_eqb c rbrk); exact Hs.
  - intros st Hs. destruct (match c_errs st with [] => _ | _ => _ end) as [|e es]; [|apply sound_err; discriminate]. apply operator_ends; [exact Hs | lia].
Qed.
