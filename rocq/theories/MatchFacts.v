(** Lemmas about filter evaluation: the connectives. *)
From Verif Require Import PyBase BaseFacts PyNum Issues AttrRep AttrRepSpec Value Container ContainerSpec Types Attr Match MatchSpec.
From Coq Require Import Sorting.Permutation.

Lemma oper_ind2 (P : oper -> Prop) :
  (forall r, P (OPresent r)) -> (forall b r l, P (OBin b r l)) ->
  (forall l, Forall P l -> P (OAnd l)) -> (forall l, Forall P l -> P (OOr l)) ->
  (forall o, P o -> P (ONot o)) -> (forall r o, P o -> P (OComplex r o)) -> P ONone -> forall o, P o.
Proof.
  intros H1 H2 H3 H4 H5 H6 H7. fix IH 1. intros [r|b r l|l|l|o|r o|].
  - apply H1.
  - apply H2.
  - apply H3. induction l as [|x t IHl]; constructor; [apply IH | exact IHl].
  - apply H4. induction l as [|x t IHl]; constructor; [apply IH | exact IHl].
  - apply H5, IH.
  - apply H6, IH.
  - exact H7.
Qed.

(** The loops as functions of the operands' results. *)
Fixpoint and_run (E : oper -> res status) (subs : list oper) (missing : bool) : res status :=
  match subs with
  | [] => Ok (if missing then MissingData else Passed)
  | s :: t => let! m := E s in
              match m with Failed => Ok Failed | MissingData => and_run E t true | _ => and_run E t missing end
  end.
Fixpoint or_run (E : oper -> res status) (subs : list oper) (missing : bool) : res status :=
  match subs with
  | [] => Ok (if missing then MissingData else Failed)
  | s :: t => let! m := E s in
              match m with Passed => Ok Passed | MissingData => or_run E t true | _ => or_run E t missing end
  end.
Fixpoint attr_run (E : value -> res (value * status)) (strict : bool) (items : list value) (has_value : bool) : res status :=
  match items with
  | [] => Ok (if negb has_value && negb strict then Passed else Failed)
  | x :: t => let! (iv, m) := E x in
              match m with Passed => Ok Passed | _ => attr_run E strict t (has_value || negb (is_none_or_missing iv)) end
  end.
Fixpoint other_run (E : value -> res status) (strict : bool) (items : list value) (missing : bool) : res status :=
  match items with
  | [] => Ok (if missing && negb strict then Passed else Failed)
  | x :: t => let! m := E x in
              match m with Passed => Ok Passed | MissingData => other_run E strict t true | _ => other_run E strict t missing end
  end.

Section Env.
  Context {env : PyEnv}.

  Lemma apply_and subs data l strict :
    filter_apply (OAnd subs) data l strict = and_run (fun s => filter_apply s (or_empty data) l strict) subs false.
  Proof.
    unfold filter_apply at 1. cbn [operand is_logical bind matches]. generalize (or_empty data) as v. intros v. generalize false.
    induction subs as [|s t IH]; intros missing; [reflexivity|]. cbn [and_run]. unfold filter_apply at 1. destruct (operand s v) as [x|e]; [|reflexivity].
    cbn [bind]. destruct (matches s x l strict) as [m|e]; [|reflexivity]. cbn [bind]. destruct m; try reflexivity; apply IH.
  Qed.
  Lemma apply_or subs data l strict :
    filter_apply (OOr subs) data l strict = or_run (fun s => filter_apply s (or_empty data) l strict) subs false.
  Proof.
    unfold filter_apply at 1. cbn [operand is_logical bind matches]. generalize (or_empty data) as v. intros v. generalize false.
    induction subs as [|s t IH]; intros missing; [reflexivity|]. cbn [or_run]. unfold filter_apply at 1. destruct (operand s v) as [x|e]; [|reflexivity].
    cbn [bind]. destruct (matches s x l strict) as [m|e]; [|reflexivity]. cbn [bind]. destruct m; try reflexivity; apply IH.
  Qed.
  Lemma apply_not s data l strict :
    filter_apply (ONot s) data l strict =
    let! m := filter_apply s (or_empty data) l true in
    Ok (match m with Failed => Passed | MissingData => if strict then Failed else Passed | _ => Failed end).
  Proof.
    unfold filter_apply. cbn [operand is_logical bind matches]. destruct (operand s (or_empty data)) as [x|e]; [|reflexivity]. cbn [bind].
    destruct (matches s x l true) as [m|e]; [|reflexivity]. cbn [bind]. destruct (is_logical s), m; try reflexivity; destruct strict; reflexivity.
  Qed.
  Definition complex_items (a : attribute) (v : value) : list value :=
    let v := if truthy v then v else if a_multi (info a) then VList [] else empty_cont in items_of v.
  Definition item_eval (s : oper) (l : list attribute) (strict : bool) (x : value) : res (value * status) :=
    match oper_rep s with
    | None => Raise AttributeErr
    | Some r => let! iv := get_item x r in let! m := matches s iv l strict in Ok (iv, m)
    end.
  Lemma matches_complex r s v l strict :
    matches (OComplex r s) v l strict =
    match find_attr l r with
    | None => Ok FailedNoAttr
    | Some a =>
        if negb (is_complex a) then Ok FailedNoAttr
        else if (a_multi (info a) && negb (is_list v)) || (negb (a_multi (info a)) && is_list v) then Ok Failed
        else if is_attr_op s then attr_run (item_eval s (sub_attrs a) strict) strict (complex_items a v) false
        else other_run (fun x => matches s x (sub_attrs a) strict) strict (complex_items a v) false
    end.
  Proof.
    cbn [matches].
    destruct (find_attr l r) as [a|]; [|reflexivity]. destruct (negb (is_complex a)); [reflexivity|].
    destruct (_ || _); [reflexivity|]. unfold complex_items. fold (items_of (if truthy v then v else if a_multi (info a) then VList [] else empty_cont)).
    generalize (items_of (if truthy v then v else if a_multi (info a) then VList [] else empty_cont)) as items.
    destruct (is_attr_op s).
    - generalize false. intros has items. revert has. induction items as [|x t IH]; intros has; [reflexivity|]. cbn [attr_run]. unfold item_eval at 1.
      destruct (oper_rep s) as [sr|]; [|reflexivity]. destruct (get_item x sr) as [iv|e]; [|reflexivity]. cbn [bind].
      destruct (matches s iv (sub_attrs a) strict) as [m|e]; [|reflexivity]. cbn [bind]. destruct m; try reflexivity; apply IH.
    - generalize false. intros has items. revert has. induction items as [|x t IH]; intros has; [reflexivity|]. cbn [other_run].
      destruct (matches s x (sub_attrs a) strict) as [m|e]; [|reflexivity]. cbn [bind]. destruct m; try reflexivity; apply IH.
  Qed.
  Lemma apply_leaf o r data l strict : oper_rep o = Some r -> filter_apply o data l strict = let! v := get_item data r in matches o v l strict.
  Proof. intros H. unfold filter_apply, operand. destruct o; try discriminate; injection H as ->; reflexivity. Qed.
  Lemma apply_logical o data l strict : is_logical o = true -> filter_apply o data l strict = matches o data l strict.
  Proof. intros H. unfold filter_apply, operand. rewrite H. reflexivity. Qed.

  Lemma or_empty_idem v : or_empty (or_empty v) = or_empty v.
  Proof. unfold or_empty. destruct (truthy v) eqn:E; [rewrite E; reflexivity | reflexivity]. Qed.
  Lemma or_empty_cont v : is_cont v = true -> or_empty v = v.
  Proof. destruct v; try discriminate. reflexivity. Qed.
  (** Logical operators see through [value or {}]. *)
  Lemma apply_or_empty o data l strict : is_logical o = true -> filter_apply o (or_empty data) l strict = filter_apply o data l strict.
  Proof.
    destruct o; try discriminate; intros _.
    - rewrite !apply_and, or_empty_idem. reflexivity.
    - rewrite !apply_or, or_empty_idem. reflexivity.
    - rewrite !apply_not, or_empty_idem. reflexivity.
  Qed.

  (** ** and, or *)

  Definition weight (m : status) : bool := is_missing_data m.
  Lemma and_run_ok E subs : forall missing st, and_run E subs missing = Ok st ->
    (st = Failed /\ exists s, In s subs /\ E s = Ok Failed)
    \/ ((forall s, In s subs -> exists m, E s = Ok m /\ m <> Failed)
        /\ ((st = MissingData /\ (missing = true \/ exists s, In s subs /\ E s = Ok MissingData))
            \/ (st = Passed /\ missing = false /\ forall s, In s subs -> E s <> Ok MissingData))).
  Proof.
    induction subs as [|s t IH]; intros missing st; cbn [and_run].
    - intros H; injection H as <-. right. split; [intros s []|]. destruct missing; [left; auto | right; auto].
    - destruct (E s) as [m|e] eqn:Em; [|discriminate]. cbn [bind]. intros H.
      assert (Step : forall missing', m <> Failed -> (m = MissingData -> missing' = true) -> (m <> MissingData -> missing' = missing) ->
        and_run E t missing' = Ok st -> (st = Failed /\ (exists s0, In s0 (s :: t) /\ E s0 = Ok Failed)) \/
        ((forall s0, In s0 (s :: t) -> exists m0, E s0 = Ok m0 /\ m0 <> Failed) /\
         ((st = MissingData /\ (missing = true \/ exists s0, In s0 (s :: t) /\ E s0 = Ok MissingData))
          \/ (st = Passed /\ missing = false /\ forall s0, In s0 (s :: t) -> E s0 <> Ok MissingData)))).
      { intros missing' Hm1 Hm2 Hm3 Hr. apply IH in Hr as [[-> [s0 [Hs0 E0]]]|[Hall Hr]].
        - left. split; [reflexivity|]. exists s0. split; [right; exact Hs0 | exact E0].
        - right. split; [intros s0 [<-|Hs0]; [exists m; auto | apply Hall; exact Hs0]|].
          destruct Hr as [[-> Hr]|[-> [-> Hr]]].
          + left. split; [reflexivity|]. destruct Hr as [->|[s0 [Hs0 E0]]].
            * destruct (is_missing_data m) eqn:Ed.
              -- right. exists s. split; [left; reflexivity|]. destruct m; try discriminate. exact Em.
              -- left. symmetry. apply Hm3. intros ->. discriminate.
            * right. exists s0. split; [right; exact Hs0 | exact E0].
          + right. split; [reflexivity|]. assert (Hd : m <> MissingData) by (intros ->; specialize (Hm2 eq_refl); discriminate). split; [symmetry; apply Hm3; exact Hd|].
            intros s0 [<-|Hs0]; [rewrite Em; congruence | apply Hr; exact Hs0]. }
      destruct m; [apply (Step missing); auto; discriminate| |apply (Step missing); auto; discriminate|apply (Step true); auto; try discriminate; congruence].
      injection H as <-. left. split; [reflexivity|]. exists s. split; [left; reflexivity | exact Em].
  Qed.
  Lemma or_run_ok E subs : forall missing st, or_run E subs missing = Ok st ->
    (st = Passed /\ exists s, In s subs /\ E s = Ok Passed)
    \/ ((forall s, In s subs -> exists m, E s = Ok m /\ m <> Passed)
        /\ ((st = MissingData /\ (missing = true \/ exists s, In s subs /\ E s = Ok MissingData))
            \/ (st = Failed /\ missing = false /\ forall s, In s subs -> E s <> Ok MissingData))).
  Proof.
    induction subs as [|s t IH]; intros missing st; cbn [or_run].
    - intros H; injection H as <-. right. split; [intros s []|]. destruct missing; [left; auto | right; auto].
    - destruct (E s) as [m|e] eqn:Em; [|discriminate]. cbn [bind]. intros H.
      assert (Step : forall missing', m <> Passed -> (m = MissingData -> missing' = true) -> (m <> MissingData -> missing' = missing) ->
        or_run E t missing' = Ok st -> (st = Passed /\ (exists s0, In s0 (s :: t) /\ E s0 = Ok Passed)) \/
        ((forall s0, In s0 (s :: t) -> exists m0, E s0 = Ok m0 /\ m0 <> Passed) /\
         ((st = MissingData /\ (missing = true \/ exists s0, In s0 (s :: t) /\ E s0 = Ok MissingData))
          \/ (st = Failed /\ missing = false /\ forall s0, In s0 (s :: t) -> E s0 <> Ok MissingData)))).
      { intros missing' Hm1 Hm2 Hm3 Hr. apply IH in Hr as [[-> [s0 [Hs0 E0]]]|[Hall Hr]].
        - left. split; [reflexivity|]. exists s0. split; [right; exact Hs0 | exact E0].
        - right. split; [intros s0 [<-|Hs0]; [exists m; auto | apply Hall; exact Hs0]|].
          destruct Hr as [[-> Hr]|[-> [-> Hr]]].
          + left. split; [reflexivity|]. destruct Hr as [->|[s0 [Hs0 E0]]].
            * destruct (is_missing_data m) eqn:Ed.
              -- right. exists s. split; [left; reflexivity|]. destruct m; try discriminate. exact Em.
              -- left. symmetry. apply Hm3. intros ->. discriminate.
            * right. exists s0. split; [right; exact Hs0 | exact E0].
          + right. split; [reflexivity|]. assert (Hd : m <> MissingData) by (intros ->; specialize (Hm2 eq_refl); discriminate). split; [symmetry; apply Hm3; exact Hd|].
            intros s0 [<-|Hs0]; [rewrite Em; congruence | apply Hr; exact Hs0]. }
      destruct m; [|apply (Step missing); auto; discriminate|apply (Step missing); auto; discriminate|apply (Step true); auto; try discriminate; congruence].
      injection H as <-. left. split; [reflexivity|]. exists s. split; [left; reflexivity | exact Em].
  Qed.

  Lemma and_run_total E subs : (forall s, In s subs -> exists m, E s = Ok m) -> forall missing, exists st, and_run E subs missing = Ok st.
  Proof.
    induction subs as [|s t IH]; intros H missing; cbn [and_run]; [eauto|]. destruct (H s (or_introl eq_refl)) as [m ->]. cbn [bind].
    assert (Ht : forall s, In s t -> exists m, E s = Ok m) by (intros; apply H; right; assumption).
    destruct m; eauto.
  Qed.
  Lemma or_run_total E subs : (forall s, In s subs -> exists m, E s = Ok m) -> forall missing, exists st, or_run E subs missing = Ok st.
  Proof.
    induction subs as [|s t IH]; intros H missing; cbn [or_run]; [eauto|]. destruct (H s (or_introl eq_refl)) as [m ->]. cbn [bind].
    assert (Ht : forall s, In s t -> exists m, E s = Ok m) by (intros; apply H; right; assumption).
    destruct m; eauto.
  Qed.

  Lemma and_run_perm E subs subs' st st' : Permutation subs subs' -> and_run E subs false = Ok st -> and_run E subs' false = Ok st' -> st = st'.
  Proof.
    intros P H H'. assert (P' : forall s, In s subs <-> In s subs') by (intros s; split; apply Permutation_in; [exact P | apply Permutation_sym; exact P]).
    apply and_run_ok in H as [[-> [s [Hs E1]]]|[A1 H]]; apply and_run_ok in H' as [[-> [s' [Hs' E2]]]|[A2 H']]; try reflexivity.
    - apply P' in Hs. destruct (A2 s Hs) as [m [E3 Hm]]. congruence.
    - apply P' in Hs'. destruct (A1 s' Hs') as [m [E3 Hm]]. congruence.
    - destruct H as [[-> [G|[s [Hs E1]]]]|[-> [_ H]]]; destruct H' as [[-> [G'|[s' [Hs' E2]]]]|[-> [_ H']]]; try discriminate; try reflexivity.
      + exfalso. apply (H' s); [apply P'; exact Hs | exact E1].
      + exfalso. apply (H s'); [apply P'; exact Hs' | exact E2].
  Qed.
  Lemma or_run_perm E subs subs' st st' : Permutation subs subs' -> or_run E subs false = Ok st -> or_run E subs' false = Ok st' -> st = st'.
  Proof.
    intros P H H'. assert (P' : forall s, In s subs <-> In s subs') by (intros s; split; apply Permutation_in; [exact P | apply Permutation_sym; exact P]).
    apply or_run_ok in H as [[-> [s [Hs E1]]]|[A1 H]]; apply or_run_ok in H' as [[-> [s' [Hs' E2]]]|[A2 H']]; try reflexivity.
    - apply P' in Hs. destruct (A2 s Hs) as [m [E3 Hm]]. congruence.
    - apply P' in Hs'. destruct (A1 s' Hs') as [m [E3 Hm]]. congruence.
    - destruct H as [[-> [G|[s [Hs E1]]]]|[-> [_ H]]]; destruct H' as [[-> [G'|[s' [Hs' E2]]]]|[-> [_ H']]]; try discriminate; try reflexivity.
      + exfalso. apply (H' s); [apply P'; exact Hs | exact E1].
      + exfalso. apply (H s'); [apply P'; exact Hs' | exact E2].
  Qed.

  (** Nesting. *)
  Lemma and_run_app E xs ys : forall missing,
    and_run E (xs ++ ys) missing =
    let! m := and_run E xs missing in match m with Failed => Ok Failed | MissingData => and_run E ys true | _ => and_run E ys false end.
  Proof.
    induction xs as [|s t IH]; intros missing; cbn [app and_run].
    - cbn [bind]. destruct missing; reflexivity.
    - destruct (E s) as [m|e]; [|reflexivity]. cbn [bind]. destruct m; try apply IH. reflexivity.
  Qed.
  Lemma or_run_app E xs ys : forall missing,
    or_run E (xs ++ ys) missing =
    let! m := or_run E xs missing in match m with Passed => Ok Passed | MissingData => or_run E ys true | _ => or_run E ys false end.
  Proof.
    induction xs as [|s t IH]; intros missing; cbn [app or_run].
    - cbn [bind]. destruct missing; reflexivity.
    - destruct (E s) as [m|e]; [|reflexivity]. cbn [bind]. destruct m; try apply IH. reflexivity.
  Qed.
  Lemma and_run_missing E xs :
    and_run E xs true = let! m := and_run E xs false in Ok (match m with Failed => Failed | _ => MissingData end).
  Proof.
    induction xs as [|s t IH]; cbn [and_run]; [reflexivity|]. destruct (E s) as [m|e]; [|reflexivity]. cbn [bind].
    destruct m; try exact IH; [reflexivity|]. rewrite IH, bind_assoc. apply bind_ext. intros m. cbn [bind]. destruct m; reflexivity.
  Qed.
  Lemma or_run_missing E xs :
    or_run E xs true = let! m := or_run E xs false in Ok (match m with Passed => Passed | _ => MissingData end).
  Proof.
    induction xs as [|s t IH]; cbn [or_run]; [reflexivity|]. destruct (E s) as [m|e]; [|reflexivity]. cbn [bind].
    destruct m; try exact IH; [reflexivity|]. rewrite IH, bind_assoc. apply bind_ext. intros m. cbn [bind]. destruct m; reflexivity.
  Qed.

  Lemma and_status E subs st : and_run E subs false = Ok st -> st <> FailedNoAttr.
  Proof. intros H. apply and_run_ok in H as [[-> _]|[_ [[-> _]|[-> _]]]]; discriminate. Qed.
  Lemma or_status E subs st : or_run E subs false = Ok st -> st <> FailedNoAttr.
  Proof. intros H. apply or_run_ok in H as [[-> _]|[_ [[-> _]|[-> _]]]]; discriminate. Qed.

  (** ** Leaves *)

  Lemma present_status r v l st : present_match r v l = Ok st -> (find_attr l r = None /\ st = FailedNoAttr) \/ (declared l r /\ (st = Passed \/ st = Failed)).
  Proof.
    unfold present_match, declared. destruct (find_attr l r) as [a|]; [|intros H; injection H as <-; auto]. intros H. right. split; [eauto|].
    assert (S : forall b, status_of b = Passed \/ status_of b = Failed) by (intros []; auto).
    destruct (is_complex a).
    - destruct v; try (injection H as <-; auto; fail). apply bind_ok in H as [bs [_ H]]. injection H as <-. apply S.
    - destruct v; injection H as <-; auto; try apply S.
  Qed.
  Lemma binary_status b r lt v l strict st : binary_match b r lt v l strict = Ok st ->
    (find_attr l r = None /\ st = FailedNoAttr)
    \/ (declared l r /\ (((v = VNone \/ v = VMissing) /\ st = (if strict then MissingData else Passed)) \/ (v <> VNone /\ v <> VMissing /\ (st = Passed \/ st = Failed)))).
  Proof.
    unfold binary_match, declared. destruct (find_attr l r) as [a|]; [|intros H; injection H as <-; auto]. intros H. right. split; [eauto|].
    assert (S : forall b, status_of b = Passed \/ status_of b = Failed) by (intros []; auto).
    destruct v; try (injection H as <-; auto; fail); try (injection H as <-; right; split; [discriminate|]; split; [discriminate | auto]; fail);
      (right; split; [discriminate|]; split; [discriminate|]; apply bind_ok in H as [vals [_ H]]; destruct vals as [ps|]; [|injection H as <-; auto];
       apply bind_ok in H as [e [_ H]]; injection H as <-; apply S).
  Qed.
  Lemma binary_modes b r lt v l : v <> VNone -> v <> VMissing -> binary_match b r lt v l true = binary_match b r lt v l false.
  Proof. intros H1 H2. unfold binary_match. destruct (find_attr l r); [|reflexivity]. destruct v; try reflexivity; contradiction. Qed.
  Lemma binary_returns b r lt v l st : binary_match b r lt v l true = Ok st -> exists st', binary_match b r lt v l false = Ok st'.
  Proof.
    unfold binary_match. destruct (find_attr l r); [|eauto]. destruct v; eauto.
  Qed.

  Lemma attr_run_ok E strict items : forall has st, attr_run E strict items has = Ok st ->
    (st = Passed /\ exists x iv, In x items /\ E x = Ok (iv, Passed))
    \/ ((forall x, In x items -> exists iv m, E x = Ok (iv, m) /\ m <> Passed)
        /\ st = if negb (has || existsb (fun x => match E x with Ok (iv, _) => negb (is_none_or_missing iv) | _ => false end) items) && negb strict then Passed else Failed).
  Proof.
    induction items as [|x t IH]; intros has st; cbn [attr_run existsb].
    - intros H; injection H as <-. right. split; [intros x []|]. rewrite orb_false_r. reflexivity.
    - destruct (E x) as [[iv m]|e] eqn:Em; [|discriminate]. cbn [bind]. intros H.
      assert (Step : m <> Passed -> attr_run E strict t (has || negb (is_none_or_missing iv)) = Ok st ->
        (st = Passed /\ (exists x0 iv0, In x0 (x :: t) /\ E x0 = Ok (iv0, Passed))) \/
        ((forall x0, In x0 (x :: t) -> exists iv0 m0, E x0 = Ok (iv0, m0) /\ m0 <> Passed)
         /\ st = if negb (has || (negb (is_none_or_missing iv) || existsb (fun x => match E x with Ok (iv, _) => negb (is_none_or_missing iv) | _ => false end) t)) && negb strict then Passed else Failed)).
      { intros Hm Hr. apply IH in Hr as [[-> [x0 [iv0 [Hx0 E0]]]]|[Hall Hr]].
        - left. split; [reflexivity|]. exists x0, iv0. split; [right; exact Hx0 | exact E0].
        - right. split; [intros x0 [<-|Hx0]; [exists iv, m; auto | apply Hall; exact Hx0]|]. rewrite orb_assoc. exact Hr. }
      destruct m; [|apply Step; [discriminate | exact H]..]. injection H as <-. left. split; [reflexivity|]. exists x, iv. split; [left; reflexivity | exact Em].
  Qed.
  Lemma other_run_ok E strict items : forall missing st, other_run E strict items missing = Ok st ->
    (st = Passed /\ exists x, In x items /\ E x = Ok Passed)
    \/ ((forall x, In x items -> exists m, E x = Ok m /\ m <> Passed)
        /\ st = if (missing || existsb (fun x => match E x with Ok MissingData => true | _ => false end) items) && negb strict then Passed else Failed).
  Proof.
    induction items as [|x t IH]; intros missing st; cbn [other_run existsb].
    - intros H; injection H as <-. right. split; [intros x []|]. rewrite orb_false_r. reflexivity.
    - destruct (E x) as [m|e] eqn:Em; [|discriminate]. cbn [bind]. intros H.
      assert (Step : forall missing', m <> Passed -> missing' = missing || is_missing_data m -> other_run E strict t missing' = Ok st ->
        (st = Passed /\ (exists x0, In x0 (x :: t) /\ E x0 = Ok Passed)) \/
        ((forall x0, In x0 (x :: t) -> exists m0, E x0 = Ok m0 /\ m0 <> Passed)
         /\ st = if (missing || (is_missing_data m || existsb (fun x => match E x with Ok MissingData => true | _ => false end) t)) && negb strict then Passed else Failed)).
      { intros missing' Hm -> Hr. apply IH in Hr as [[-> [x0 [Hx0 E0]]]|[Hall Hr]].
        - left. split; [reflexivity|]. exists x0. split; [right; exact Hx0 | exact E0].
        - right. split; [intros x0 [<-|Hx0]; [exists m; auto | apply Hall; exact Hx0]|]. rewrite orb_assoc. exact Hr. }
      destruct m; [|apply (Step missing); [discriminate | rewrite orb_false_r; reflexivity | exact H]..|apply (Step true); [discriminate | rewrite orb_true_r; reflexivity | exact H]].
      injection H as <-. left. split; [reflexivity|]. exists x. split; [left; reflexivity | exact Em].
  Qed.

  (** ** Strict and lenient *)

  Definition weaker (st st' : status) : Prop :=
    match st with
    | Passed => st' = Passed
    | FailedNoAttr => st' = FailedNoAttr
    | MissingData => st' = Passed
    | Failed => st' = Passed \/ st' = Failed
    end.
  Lemma lenient_known o : forall v l, matches o v l false <> Ok MissingData.
  Proof.
    assert (Apply : forall o v l, is_logical o = true -> forall strict, matches o v l strict = filter_apply o v l strict) by (intros; symmetry; apply apply_logical; assumption).
    assert (Sub : forall o, (forall v l, matches o v l false <> Ok MissingData) -> forall v l, filter_apply o v l false <> Ok MissingData).
    { intros o0 IH v l. unfold filter_apply. destruct (operand o0 v) as [x|e]; [|discriminate]. cbn [bind]. apply IH. }
    induction o as [r|b r lt|subs IH|subs IH|s IH|r s IH|] using oper_ind2; intros v l H.
    - cbn [matches] in H. apply present_status in H as [[_ G]|[_ [G|G]]]; discriminate.
    - cbn [matches] in H. apply binary_status in H as [[_ G]|[_ [[_ G]|[_ [_ [G|G]]]]]]; discriminate.
    - rewrite Apply, apply_and in H by reflexivity. rewrite Forall_forall in IH.
      apply and_run_ok in H as [[G _]|[_ [[_ [G|[s [Hs E]]]]|[G _]]]]; try discriminate. exact (Sub s (IH s Hs) _ _ E).
    - rewrite Apply, apply_or in H by reflexivity. rewrite Forall_forall in IH.
      apply or_run_ok in H as [[G _]|[_ [[_ [G|[s [Hs E]]]]|[G _]]]]; try discriminate. exact (Sub s (IH s Hs) _ _ E).
    - rewrite Apply, apply_not in H by reflexivity. apply bind_ok in H as [m [_ H]]. destruct m; discriminate.
    - rewrite matches_complex in H. destruct (find_attr l r) as [a|]; [|discriminate]. destruct (negb (is_complex a)); [discriminate|].
      destruct (_ || _); [discriminate|]. destruct (is_attr_op s).
      + apply attr_run_ok in H as [[G _]|[_ G]]; [discriminate|]. destruct (_ && _); discriminate.
      + apply other_run_ok in H as [[G _]|[_ G]]; [discriminate|]. destruct (_ && _); discriminate.
    - discriminate.
  Qed.
  Lemma lenient_apply o v l : filter_apply o v l false <> Ok MissingData.
  Proof. unfold filter_apply. destruct (operand o v) as [x|e]; [|discriminate]. cbn [bind]. apply lenient_known. Qed.

  Lemma matches_modes o : forall v l st st', matches o v l true = Ok st -> matches o v l false = Ok st' -> weaker st st'.
  Proof.
    assert (Apply : forall o v l, is_logical o = true -> forall strict, matches o v l strict = filter_apply o v l strict) by (intros; symmetry; apply apply_logical; assumption).
    assert (Sub : forall o, (forall v l st st', matches o v l true = Ok st -> matches o v l false = Ok st' -> weaker st st') ->
       forall v l st st', filter_apply o v l true = Ok st -> filter_apply o v l false = Ok st' -> weaker st st').
    { intros o0 IH v l st st'. unfold filter_apply. destruct (operand o0 v) as [x|e]; [|discriminate]. cbn [bind]. apply IH. }
    induction o as [r|b r lt|subs IH|subs IH|s IH|r s IH|] using oper_ind2; intros v l st st' H H'.
    - cbn [matches] in *. assert (st = st') by congruence. subst st'. apply present_status in H as [[_ ->]|[_ [->| ->]]]; cbn; auto.
    - cbn [matches] in *. apply binary_status in H as K. apply binary_status in H' as K'.
      destruct K as [[K1 ->]|[[a K1] K]]; destruct K' as [[K1' ->]|[[a' K1'] K']]; try (exfalso; congruence); [reflexivity|].
      destruct K as [[K2 ->]|[K2 [K3 K4]]]; destruct K' as [[K2' ->]|[K2' [K3' K4']]]; try (exfalso; intuition congruence); [reflexivity|].
      rewrite (binary_modes _ _ _ _ _ K2 K3) in H. assert (st = st') by congruence. subst st'. destruct K4 as [->| ->]; cbn; auto.
    - rewrite Apply, apply_and in H, H' by reflexivity. rewrite Forall_forall in IH.
      apply and_run_ok in H' as K'. destruct K' as [[-> [s' [Hs' E']]]|[A' K']].
      + apply and_run_ok in H as [[-> _]|[A K]]; [cbn; auto|]. exfalso. destruct (A s' Hs') as [m [Em Hm]].
        specialize (Sub s' (IH s' Hs') _ _ _ _ Em E'). destruct m; cbn in Sub; try discriminate. contradiction.
      + assert (NM : st' = Passed).
        { destruct K' as [[-> [G|[s' [Hs' E']]]]|[-> _]]; [discriminate| |reflexivity]. exfalso. exact (lenient_apply _ _ _ E'). }
        subst st'. apply and_run_ok in H as [[-> _]|[_ [[-> _]|[-> _]]]]; cbn; auto.
    - rewrite Apply, apply_or in H, H' by reflexivity. rewrite Forall_forall in IH.
      apply or_run_ok in H' as K'. destruct K' as [[-> [s' [Hs' E']]]|[A' K']].
      + apply or_run_ok in H as [[-> _]|[A [[-> _]|[-> _]]]]; cbn; auto.
      + assert (NM : st' = Failed).
        { destruct K' as [[-> [G|[s' [Hs' E']]]]|[-> _]]; [discriminate| |reflexivity]. exfalso. exact (lenient_apply _ _ _ E'). }
        subst st'. assert (No : forall s0 m, In s0 subs -> filter_apply s0 (or_empty v) l true = Ok m -> m = Passed \/ m = MissingData -> False).
        { intros s0 m Hs0 E0 Hm. destruct (A' s0 Hs0) as [m' [Em' Hm']]. specialize (Sub s0 (IH s0 Hs0) _ _ _ _ E0 Em').
          destruct Hm as [->| ->]; cbn in Sub; contradiction. }
        apply or_run_ok in H as [[-> [s0 [Hs0 E0]]]|[_ [[-> [G|[s0 [Hs0 E0]]]]|[-> _]]]]; cbn; auto; exfalso; try discriminate; eapply No; eauto.
    - rewrite Apply, apply_not in H, H' by reflexivity. destruct (filter_apply s (or_empty v) l true) as [m|e]; [|discriminate]. cbn [bind] in *.
      injection H as <-. injection H' as <-. destruct m; cbn; auto.
    - rewrite matches_complex in H, H'. destruct (find_attr l r) as [a|]; [|injection H as <-; injection H' as <-; reflexivity].
      destruct (negb (is_complex a)); [injection H as <-; injection H' as <-; reflexivity|].
      destruct (_ || _); [injection H as <-; injection H' as <-; cbn; auto|]. destruct (is_attr_op s).
      + apply attr_run_ok in H as [[-> [x [iv [Hx E]]]]|[A ->]]; apply attr_run_ok in H' as [[-> [x' [iv' [Hx' E']]]]|[A' ->]]; cbn; auto.
        * exfalso. destruct (A' x Hx) as [iv' [m' [E' Hm']]]. unfold item_eval in E, E'. destruct (oper_rep s) as [sr|]; [|discriminate].
          apply bind_ok in E as [y [Ey E]]. apply bind_ok in E as [m [Em E]]. injection E as <- ->.
          apply bind_ok in E' as [y' [Ey' E']]. apply bind_ok in E' as [m2 [Em2 E']]. injection E' as <- ->. assert (y' = y) by congruence. subst y'.
          specialize (IH _ _ _ _ Em Em2). cbn in IH. contradiction.
        * rewrite andb_false_r. cbn. auto.
        * rewrite andb_false_r. cbn. destruct (_ && _); auto.
      + apply other_run_ok in H as [[-> [x [Hx E]]]|[A ->]]; apply other_run_ok in H' as [[-> [x' [Hx' E']]]|[A' ->]]; cbn; auto.
        * exfalso. destruct (A' x Hx) as [m' [E' Hm']]. specialize (IH _ _ _ _ E E'). cbn in IH. contradiction.
        * rewrite andb_false_r. cbn. auto.
        * rewrite andb_false_r. cbn. destruct (_ && _); auto.
    - discriminate.
  Qed.
  Lemma apply_modes o v l st st' : filter_apply o v l true = Ok st -> filter_apply o v l false = Ok st' -> weaker st st'.
  Proof. unfold filter_apply. destruct (operand o v) as [x|e]; [|discriminate]. cbn [bind]. apply matches_modes. Qed.

  (** ** Settled filters *)

  Lemma complex_items_settled a v : is_list v = a_multi (info a) -> items_of v <> [] -> Forall (fun x => is_cont x = true) (items_of v) ->
    complex_items a v = items_of v.
  Proof.
    intros H1 H2 H3. unfold complex_items. destruct (is_list v) eqn:E.
    - destruct v; try discriminate. cbn [truthy items_of] in *. destruct l; [contradiction|]. reflexivity.
    - assert (Hv : items_of v = [v]) by (destruct v; try discriminate; reflexivity). rewrite Hv in H3. inversion H3 as [|? ? Hc _]; subst.
      destruct v; try discriminate. reflexivity.
  Qed.

  Lemma attr_run_modes s l items sr : oper_rep s = Some sr ->
    (forall x, In x items -> item_eval s l true x = item_eval s l false x) -> forall has,
    (has = true \/ exists x y, In x items /\ get_item x sr = Ok y /\ y <> VNone /\ y <> VMissing) ->
    attr_run (item_eval s l true) true items has = attr_run (item_eval s l false) false items has.
  Proof.
    intros Hr. induction items as [|x t IH]; intros Heq has Hw; cbn [attr_run].
    - destruct Hw as [->|[x [y [[] _]]]]. reflexivity.
    - rewrite <- (Heq x (or_introl eq_refl)). destruct (item_eval s l true x) as [[iv m]|e] eqn:E; [|reflexivity]. cbn [bind].
      assert (T : attr_run (item_eval s l true) true t (has || negb (is_none_or_missing iv)) = attr_run (item_eval s l false) false t (has || negb (is_none_or_missing iv))).
      { apply IH; [intros; apply Heq; right; assumption|]. destruct Hw as [->|[x0 [y [[<-|Hin] [Hy Hn]]]]]; [left; reflexivity| |right; eauto].
        left. unfold item_eval in E. rewrite Hr in E. apply bind_ok in E as [iv' [E1 E]]. apply bind_ok in E as [m' [_ E]]. injection E as <- _.
        assert (iv' = y) by congruence. subst. destruct Hn as [Hn1 Hn2]. rewrite orb_comm. destruct y; try contradiction; reflexivity. }
      destruct m; auto.
  Qed.
  Lemma other_run_modes E E' items : (forall x, In x items -> E x = E' x) -> (forall x, In x items -> E x <> Ok MissingData) ->
    other_run E true items false = other_run E' false items false.
  Proof.
    induction items as [|x t IH]; intros H1 H2; cbn [other_run]; [reflexivity|]. rewrite <- (H1 x (or_introl eq_refl)).
    destruct (E x) as [m|e] eqn:Em; [|reflexivity]. cbn [bind].
    assert (T : other_run E true t false = other_run E' false t false) by (apply IH; intros; [apply H1 | apply H2]; right; assumption).
    destruct m; auto. exfalso. exact (H2 x (or_introl eq_refl) Em).
  Qed.
  Lemma item_eval_modes s l x : is_attr_op s = true -> filter_apply s x l true = filter_apply s x l false -> item_eval s l true x = item_eval s l false x.
  Proof.
    intros Ho H. unfold item_eval. destruct s; try discriminate; cbn [oper_rep]; rewrite !(apply_leaf _ r) in H by reflexivity;
      (destruct (get_item x r) as [y|e]; [|reflexivity]); cbn [bind] in *; rewrite H; reflexivity.
  Qed.

  Lemma settled_spec o : forall data l, settled o data l -> is_cont data = true ->
    (forall strict st, filter_apply o data l strict = Ok st -> st = Passed \/ st = Failed)
    /\ filter_apply o data l true = filter_apply o data l false.
  Proof.
    induction o as [r|b r lt|subs IH|subs IH|s IH|r s IH|] using oper_ind2; intros data l Hst Hc; inversion Hst; subst.
    - split.
      + intros strict st H. rewrite (apply_leaf _ r) in H by reflexivity. apply bind_ok in H as [v [_ H]]. cbn [matches] in H.
        apply present_status in H as [[G _]|[_ H]]; [|exact H]. match goal with D : declared _ _ |- _ => destruct D as [a Ha]; congruence end.
      + rewrite !(apply_leaf _ r) by reflexivity. reflexivity.
    - match goal with D : declared _ _, G : get_item data r = Ok _ |- _ => rename D into Hd; rename G into Hg end.
      rewrite !(apply_leaf _ r) by reflexivity. split.
      + intros strict st H. rewrite (apply_leaf _ r) in H by reflexivity. rewrite Hg in H. cbn [bind matches] in H.
        apply binary_status in H as [[G _]|[_ [[G _]|[_ [_ H]]]]]; [destruct Hd as [a Ha]; congruence | destruct G; contradiction | exact H].
      + rewrite Hg. cbn [bind matches]. apply binary_modes; assumption.
    - rewrite Forall_forall in IH. match goal with F : Forall _ subs |- _ => rewrite Forall_forall in F; rename F into Hs end. split.
      + intros strict st H. rewrite apply_and, or_empty_cont in H by exact Hc. apply and_run_ok in H as [[-> _]|[_ [[-> [G|[s [Hin E]]]]|[-> _]]]]; auto; [discriminate|].
        destruct (IH s Hin data l (Hs s Hin) Hc) as [K _]. destruct (K _ _ E); discriminate.
      + rewrite !apply_and, !or_empty_cont by exact Hc.
        assert (G : forall missing, and_run (fun s => filter_apply s data l true) subs missing = and_run (fun s => filter_apply s data l false) subs missing).
        { clear - IH Hs Hc. induction subs as [|s t IHt]; intros missing; [reflexivity|]. cbn [and_run].
          destruct (IH s (or_introl eq_refl) data l (Hs s (or_introl eq_refl)) Hc) as [_ ->].
          destruct (filter_apply s data l false) as [m|e]; [|reflexivity]. cbn [bind].
          assert (T : forall missing, and_run (fun s => filter_apply s data l true) t missing = and_run (fun s => filter_apply s data l false) t missing)
            by (apply IHt; intros; [apply IH | apply Hs]; try right; assumption).
          destruct m; auto. }
        apply G.
    - rewrite Forall_forall in IH. match goal with F : Forall _ subs |- _ => rewrite Forall_forall in F; rename F into Hs end. split.
      + intros strict st H. rewrite apply_or, or_empty_cont in H by exact Hc. apply or_run_ok in H as [[-> _]|[_ [[-> [G|[s [Hin E]]]]|[-> _]]]]; auto; [discriminate|].
        destruct (IH s Hin data l (Hs s Hin) Hc) as [K _]. destruct (K _ _ E); discriminate.
      + rewrite !apply_or, !or_empty_cont by exact Hc.
        assert (G : forall missing, or_run (fun s => filter_apply s data l true) subs missing = or_run (fun s => filter_apply s data l false) subs missing).
        { clear - IH Hs Hc. induction subs as [|s t IHt]; intros missing; [reflexivity|]. cbn [or_run].
          destruct (IH s (or_introl eq_refl) data l (Hs s (or_introl eq_refl)) Hc) as [_ ->].
          destruct (filter_apply s data l false) as [m|e]; [|reflexivity]. cbn [bind].
          assert (T : forall missing, or_run (fun s => filter_apply s data l true) t missing = or_run (fun s => filter_apply s data l false) t missing)
            by (apply IHt; intros; [apply IH | apply Hs]; try right; assumption).
          destruct m; auto. }
        apply G.
    - match goal with F : settled s data l |- _ => destruct (IH data l F Hc) as [K1 K2] end. split.
      + intros strict st H. rewrite apply_not, or_empty_cont in H by exact Hc. apply bind_ok in H as [m [Hm H]]. injection H as <-.
        destruct (K1 _ _ Hm) as [->| ->]; auto.
      + rewrite !apply_not, or_empty_cont by exact Hc. destruct (filter_apply s data l true) as [m|e] eqn:Em; [|reflexivity]. cbn [bind].
        destruct (K1 _ _ Em) as [->| ->]; reflexivity.
    - match goal with F : Forall _ (items_of v), G : get_item data r = Ok v, A : find_attr l r = Some a, B : is_complex a = true |- _ =>
        rename F into Hit; rename G into Hg; rename A into Ha; rename B into Hcx end.
      assert (Hit1 : Forall (fun x => is_cont x = true) (items_of v)) by (revert Hit; apply Forall_impl; intros x [Q _]; exact Q).
      assert (Ex : complex_items a v = items_of v) by (apply complex_items_settled; assumption).
      assert (Em : (a_multi (info a) && negb (is_list v)) || (negb (a_multi (info a)) && is_list v) = false).
      { match goal with F : is_list v = _ |- _ => rewrite F end. destruct (a_multi (info a)); reflexivity. }
      assert (Heq : forall strict, filter_apply (OComplex r s) data l strict =
        if is_attr_op s then attr_run (item_eval s (sub_attrs a) strict) strict (items_of v) false
        else other_run (fun x => matches s x (sub_attrs a) strict) strict (items_of v) false).
      { intros strict. rewrite (apply_leaf _ r) by reflexivity. rewrite Hg. cbn [bind]. rewrite matches_complex, Ha, Hcx. cbn [negb]. rewrite Em, Ex. reflexivity. }
      rewrite !Heq. rewrite Forall_forall in Hit. split.
      + intros strict st H. rewrite Heq in H. destruct (is_attr_op s).
        * apply attr_run_ok in H as [[-> _]|[_ ->]]; [auto|]. match goal with |- context [if ?c then Passed else _] => destruct c end; auto.
        * apply other_run_ok in H as [[-> _]|[_ ->]]; [auto|]. match goal with |- context [if ?c then Passed else _] => destruct c end; auto.
      + destruct (is_attr_op s) eqn:Eo.
        * match goal with F : forall r', s = OPresent r' -> _ |- _ => rename F into Hpr end.
          destruct (oper_rep s) as [sr|] eqn:Er; [|destruct s; discriminate]. apply (attr_run_modes s _ _ sr Er).
          -- intros x Hx. apply item_eval_modes; [exact Eo|]. destruct (Hit x Hx) as [Hcx' Hsx]. exact (proj2 (IH _ _ Hsx Hcx')).
          -- right. destruct s; try discriminate; cbn in Er; injection Er as ->; [apply Hpr; reflexivity|].
             match goal with F : items_of v <> [] |- _ => destruct (items_of v) as [|x t]; [contradiction|] end. destruct (Hit x (or_introl eq_refl)) as [_ Hsx]. inversion Hsx; subst.
             exists x, v0. split; [left; reflexivity|]. auto.
        * match goal with F : is_logical s = true \/ _ |- _ => destruct F as [Hlog|F]; [|congruence] end.
          apply other_run_modes; intros x Hx; destruct (Hit x Hx) as [Hcx' Hsx]; destruct (IH _ _ Hsx Hcx') as [K1 K2]; rewrite <- !apply_logical by exact Hlog.
          -- exact K2.
          -- intros G. destruct (K1 _ _ G); discriminate.
  Qed.
End Env.
