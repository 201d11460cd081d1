(** Lemmas about the exceptions that filters and sorting may raise (C87). *)
From Verif Require Import PyBase BaseFacts PyNum Issues AttrRep AttrRepSpec AttrRepFacts Value ValueFacts
  Container ContainerSpec ContainerFacts ContainerEq Types Attr Schema Match MatchFacts FilterParse Sort Patch ListResp Requests RequestFacts.

(** Not stopped by a number out of range or by a search that goes too deep. *)
Definition tidy {A} (m : res A) : Prop := match m with Raise OverflowErr | Raise OutOfFuel => False | _ => True end.

Lemma tidy_ok {A} (a : A) : tidy (Ok a).
Proof. exact I. Qed.
Lemma tidy_bind {A B} (m : res A) (f : A -> res B) : tidy m -> (forall a, m = Ok a -> tidy (f a)) -> tidy (let! x := m in f x).
Proof. intros H G. destruct m as [a|e]; [apply G; reflexivity | exact H]. Qed.
Lemma tidy_mapM {A B} (f : A -> res B) l : (forall x, In x l -> tidy (f x)) -> tidy (mapM f l).
Proof.
  induction l as [|x t IH]; intros H; cbn [mapM]; [exact I|]. apply tidy_bind; [apply H; left; reflexivity|]. intros y _.
  apply tidy_bind; [apply IH; intros z Hz; apply H; right; exact Hz | intros; exact I].
Qed.
Lemma tidy_rep s a sub b : tidy (mk_rep s a sub b).
Proof. unfold mk_rep. repeat match goal with |- tidy (if ?x then _ else _) => destruct x | |- tidy (match ?x with _ => _ end) => destruct x end; exact I. Qed.

(** ** Reading *)

Lemma tidy_get v : forall r, tidy (get_item v r).
Proof.
  induction v as [v Ha|l IH|d IH|data l2o IH] using value_ind3; intros r; try exact I.
  - destruct v; try exact I; destruct Ha.
  - rewrite get_item_eq. rewrite Forall_forall in IH.
    assert (K : forall k x, sget k data = Some x -> (forall r', tidy (get_item x r')) /\ items_too (fun y => forall r', tidy (get_item y r')) x) by (intros k x E; exact (IH _ (sget_In _ _ _ E))).
    destruct (sget (lower (r_schema r)) l2o) as [ext|].
    + apply tidy_bind; [apply tidy_rep|]. intros r' _. destruct (sget ext data) as [x|] eqn:E; [apply (K _ _ E) | exact I].
    + destruct (sget (lower (r_attr r)) l2o) as [k|]; [|exact I]. destruct (sget k data) as [x|] eqn:E; [|exact I]. destruct (K _ _ E) as [K1 K2].
      unfold get_sub. destruct (r_sub r) as [|c s]; [exact I|]. destruct x; try exact I.
      * apply tidy_bind; [|intros; exact I]. apply tidy_mapM. intros y Hy. apply tidy_bind; [apply tidy_rep|]. intros r' _. cbn [items_too] in K2. rewrite Forall_forall in K2. exact (K2 y Hy r').
      * apply tidy_bind; [apply tidy_rep | intros; apply K1].
Qed.
Lemma tidy_get_str v s : tidy (get_item_str v s).
Proof. destruct v; try exact I. cbn [get_item_str]. apply tidy_bind; [unfold to_rep; destruct (parse_rep s); exact I | intros; apply tidy_get]. Qed.
Lemma tidy_iter v : tidy (iter_value v).
Proof. destruct v; exact I. Qed.

(** ** Sizes *)

Lemma size_list l : vsize (VList l) = S (fold_right (fun x n => vsize x + n) 0 l).
Proof. reflexivity. Qed.
Lemma size_cont d m : vsize (VCont d m) = S (fold_right (fun e n => vsize (snd e) + n) 0 d).
Proof. cbn [vsize]. apply f_equal. induction d as [|[k x] t IH]; [reflexivity|]. cbn [fold_right snd]. rewrite <- IH. reflexivity. Qed.
Lemma size_dict d : vsize (VDict d) = S (fold_right (fun e n => vsize (snd e) + n) 0 d).
Proof. cbn [vsize]. apply f_equal. induction d as [|[k x] t IH]; [reflexivity|]. cbn [fold_right snd]. rewrite <- IH. reflexivity. Qed.

Lemma mapM_size f l : forall vs, mapM f l = Ok vs -> (forall y z, In y l -> f y = Ok z -> vsize z <= vsize y) -> fold_right (fun x n => vsize x + n) 0 vs <= fold_right (fun x n => vsize x + n) 0 l.
Proof.
  induction l as [|x t IH]; intros vs H G; cbn [mapM] in H; [injection H as <-; apply le_n|].
  apply bind_ok in H as [z [Hz H]]. apply bind_ok in H as [zs [Hs H]]. injection H as <-. cbn [fold_right].
  pose proof (G x z (or_introl eq_refl) Hz). pose proof (IH zs Hs (fun y w Hy => G y w (or_intror Hy))). lia.
Qed.
Lemma get_size v : forall r x, get_item v r = Ok x -> vsize x <= vsize v.
Proof.
  induction v as [v Ha|l IH|d IH|data l2o IH] using value_ind3; intros r y H; try discriminate H.
  - destruct v; try discriminate H; destruct Ha.
  - rewrite get_item_eq in H. rewrite Forall_forall in IH.
    assert (K : forall k x, sget k data = Some x -> vsize x < vsize (VCont data l2o) /\ (forall r' z, get_item x r' = Ok z -> vsize z <= vsize x) /\ items_too (fun y => forall r' z, get_item y r' = Ok z -> vsize z <= vsize y) x)
      by (intros k x E; split; [exact (vsize_cont_in data l2o k x (sget_In _ _ _ E)) | exact (IH _ (sget_In _ _ _ E))]).
    assert (M : vsize VMissing <= vsize (VCont data l2o)) by (cbn; lia).
    destruct (sget (lower (r_schema r)) l2o) as [ext|].
    + apply bind_ok in H as [r' [_ H]]. destruct (sget ext data) as [x|] eqn:E; [|discriminate H]. destruct (K _ _ E) as [K1 [K2 _]]. apply K2 in H. lia.
    + destruct (sget (lower (r_attr r)) l2o) as [k|]; [|injection H as <-; exact M]. destruct (sget k data) as [x|] eqn:E; [|discriminate H]. destruct (K _ _ E) as [K0 [K1 K2]].
      unfold get_sub in H. destruct (r_sub r) as [|c s]; [injection H as <-; lia|]. destruct x; try (injection H as <-; exact M).
      * apply bind_ok in H as [vs [Hv H]]. injection H as <-. enough (vsize (VList vs) <= vsize (VList l)) by lia. rewrite !size_list. apply le_n_S. refine (mapM_size _ _ _ Hv _).
        intros z w Hz Hw. apply bind_ok in Hw as [r' [_ Hw]]. cbn [items_too] in K2. rewrite Forall_forall in K2. exact (K2 z Hz r' w Hw).
      * apply bind_ok in H as [r' [_ H]]. apply K1 in H. lia.
Qed.
Lemma get_str_size v s x : get_item_str v s = Ok x -> vsize x <= vsize v.
Proof. destruct v; try discriminate. cbn [get_item_str]. intros H. apply bind_ok in H as [r [_ H]]. exact (get_size _ _ _ H). Qed.
Lemma sset_size k x d : fold_right (fun e n => vsize (snd e) + n) 0 (sset k x d) <= vsize x + fold_right (fun (e : str * value) n => vsize (snd e) + n) 0 d.
Proof.
  unfold sset. induction d as [|[q y] t IH]; cbn [aset fold_right snd]; [lia|]. destruct (str_eqb _ _); cbn [fold_right snd]; lia.
Qed.
Lemma load_size d : Forall (fun e => vsize (conv (snd e)) <= vsize (snd e)) d -> forall data l2o, vsize (load d data l2o) <= vsize (VDict d) + fold_right (fun e n => vsize (snd e) + n) 0 data.
Proof.
  induction 1 as [|[[k|n] x] t Hx _ IH]; intros data l2o; cbn [load]; rewrite ?size_cont, ?size_dict; cbn [fold_right snd] in *; [lia| |].
  - specialize (IH (sset k (conv x) data) (sset (lower k) k l2o)). rewrite size_dict in IH. pose proof (sset_size k (conv x) data). lia.
  - specialize (IH data l2o). rewrite size_dict in IH. lia.
Qed.
Lemma conv_size v : vsize (conv v) <= vsize v /\ vsize (conv_item v) <= vsize v.
Proof.
  induction v as [v Ha|l IH|d IH|data l2o IH] using value_ind3.
  - destruct v; try (split; apply le_n); destruct Ha.
  - split; [|apply le_n]. cbn [conv]. rewrite !size_list. apply le_n_S. induction IH as [|x t [_ Hx] _ IHt]; cbn [map fold_right]; lia.
  - assert (G : vsize (mk_cont (VDict d)) <= vsize (VDict d)).
    { rewrite mk_cont_dict. pose proof (load_size d) as H. specialize (H ltac:(revert IH; apply Forall_impl; intros e [E _]; exact E) [] []). cbn [fold_right] in H. lia. }
    split; exact G.
  - split; apply le_n.
Qed.
Lemma dict_size d : vsize (mk_cont (VDict d)) <= vsize (VDict d).
Proof. exact (proj1 (conv_size (VDict d))). Qed.
Lemma vsize_dict_in d (k : dkey) x : In (k, x) d -> vsize x < vsize (VDict d).
Proof. intros H. rewrite size_dict. apply le_n_S. induction d as [|e t IH]; [destruct H|]. cbn [fold_right]. destruct H as [->|H]; [cbn [snd]; lia | specialize (IH H); lia]. Qed.

(** ** Equality *)

Definition cont_loop (eq : value -> value -> res bool) (other : value) : list (str * value) -> res bool :=
  fix go (d : list (str * value)) : res bool :=
  match d with
  | [] => Ok true
  | (k, x) :: t => let! y := get_item_str other k in let! e := eq y x in if e then go t else Ok false
  end.
Lemma tidy_cont eq other d : (forall k x y, In (k, x) d -> get_item_str other k = Ok y -> tidy (eq y x)) -> tidy (cont_loop eq other d).
Proof.
  induction d as [|[k x] t IH]; intros H; [exact I|]. apply tidy_bind; [apply tidy_get_str|]. intros y Hy. apply tidy_bind; [apply (H k x y (or_introl eq_refl) Hy)|].
  intros e _. destruct e; [|exact I]. apply IH. intros k' x' y' Hi. apply H. right. exact Hi.
Qed.
Lemma tidy_eq f : forall a b, vsize a + vsize b < f -> tidy (py_eq f a b).
Proof.
  induction f as [|f IH]; intros a b Hs; [lia|].
  assert (C : forall data l2o other n, vsize (VCont data l2o) + vsize other <= n -> n <= f -> tidy (cont_loop (py_eq f) other data)).
  { intros data l2o other n H1 H2. apply tidy_cont. intros k x y Hi Hy. apply IH. apply get_str_size in Hy. apply (vsize_cont_in _ l2o) in Hi. lia. }
  destruct a, b; try exact I.
  - (* lists *) cbn [py_eq]. assert (G : forall x y, In x l -> In y l0 -> tidy (py_eq f x y)) by (intros x y Hx Hy; apply IH; apply vsize_list_in in Hx, Hy; lia).
    clear Hs C. revert l0 G. induction l as [|x t IHl]; intros [|y m] G; try exact I. apply tidy_bind; [apply G; left; reflexivity|]. intros e _. destruct e; [|exact I]. apply IHl. intros x' y' H1 H2. apply G; right; assumption.
  - (* dictionaries *) cbn [py_eq]. destruct (Nat.eqb _ _); [|exact I].
    assert (G : forall k x k' y, In (k, x) d -> In (k', y) d0 -> tidy (py_eq f x y)) by (intros k x k' y Hx Hy; apply IH; apply vsize_dict_in in Hx, Hy; lia).
    clear Hs C. induction d as [|[k x] t IHl]; [exact I|]. destruct (aget dkey_eqb k d0) as [y|] eqn:E; [|exact I].
    apply tidy_bind; [|intros e _; destruct e; [|exact I]; apply IHl; intros k1 x1 k2 y2 H1; apply (G k1); right; exact H1].
    assert (Hy : exists k', In (k', y) d0). { clear - E. induction d0 as [|[q z] t IH]; [discriminate E|]. cbn [aget] in E. destruct (dkey_eqb _ _); [injection E as <-; exists q; left; reflexivity | destruct (IH E) as [k' H]; exists k'; right; exact H]. }
    destruct Hy as [k' Hy]. exact (G k x k' y (or_introl eq_refl) Hy).
  - (* a dictionary and a container *) change (tidy (cont_loop (py_eq f) (mk_cont (VDict d)) data)). pose proof (dict_size d). apply (C data l2o _ f); lia.
  - change (tidy (cont_loop (py_eq f) (mk_cont (VDict d)) data)). pose proof (dict_size d). apply (C data l2o _ f); lia.
  - change (tidy (cont_loop (py_eq f) (VCont data0 l2o0) data)). apply (C data l2o _ f); lia.
Qed.
Lemma tidy_veq a b : tidy (veq a b).
Proof. apply tidy_eq. lia. Qed.

(** ** Sorting *)

Lemma tidy_lt a : forall b, tidy (py_lt a b).
Proof.
  induction a as [v Ha|l IH|d IH|data l2o IH] using value_ind3; intros b.
  - destruct v; try destruct Ha; destruct b; cbn [py_lt]; try exact I; destruct (order _ _); exact I.
  - destruct b; try exact I. cbn [py_lt]. revert l0. induction IH as [|x t Hx _ IHt]; intros [|y m]; try exact I. apply tidy_bind; [apply tidy_veq|]. intros e _. destruct e; [apply IHt | apply Hx].
  - destruct b; exact I.
  - destruct b; exact I.
Qed.
Lemma tidy_key_lt a b : tidy (key_lt a b).
Proof. destruct a, b; try exact I. apply tidy_lt. Qed.
Lemma tidy_insert {A} (x : skey * A) l : tidy (insert_key x l).
Proof. induction l as [|y t IH]; cbn [insert_key]; [exact I|]. apply tidy_bind; [apply tidy_key_lt|]. intros e _. destruct e; [|exact I]. apply tidy_bind; [exact IH | intros; exact I]. Qed.
Lemma tidy_sort {A} (l : list (skey * A)) : tidy (sort_keys l).
Proof. induction l as [|x t IH]; cbn [sort_keys]; [exact I|]. apply tidy_bind; [exact IH | intros; apply tidy_insert]. Qed.
Lemma tidy_primary a l : tidy (primary_value a l).
Proof.
  induction l as [|x t IH]; cbn [primary_value]; [exact I|]. apply tidy_bind; [apply tidy_get_str|]. intros p _. destruct p; try exact IH. destruct b; [|exact IH]. apply tidy_bind; [apply tidy_get_str | intros; exact I].
Qed.
Lemma tidy_attr_key r x s : tidy (attr_key r x s).
Proof.
  unfold attr_key. destruct (find_attr _ r) as [a|]; [|exact I]. apply tidy_bind; [apply tidy_get|]. intros iv _. destruct (_ && _); [|exact I]. destruct (is_complex a).
  - apply tidy_bind; [apply tidy_iter|]. intros l _. apply tidy_bind; [apply tidy_primary | intros [v a'] _; exact I].
  - apply tidy_bind; [|intros; exact I]. destruct iv as [| | | | | |[|]| |[|]| | | | | | | |]; exact I.
Qed.
Lemma tidy_any r l : tidy (any_value r l).
Proof. induction l as [|x t IH]; cbn [any_value]; [exact I|]. apply tidy_bind; [apply tidy_get|]. intros v _. destruct (truthy v); [exact I | exact IH]. Qed.
Lemma tidy_index l : forall i j x, tidy (index_of l i j x).
Proof. induction l as [|y t IH]; intros i j x; cbn [index_of]; [exact I|]. destruct (Nat.eqb i j); [exact I|]. apply tidy_bind; [apply tidy_veq|]. intros e _. destruct e; [exact I | apply IH]. Qed.
Lemma tidy_item_key r s l i x : tidy (item_key r s l i x).
Proof. destruct s as [s|ss]; cbn [item_key]; [apply tidy_attr_key|]. apply tidy_bind; [apply tidy_index|]. intros j _. destruct (nth_error ss j) as [[[n sc]|]|]; [apply tidy_attr_key | exact I | exact I]. Qed.
Lemma tidy_tagged so l s : tidy (sort_tagged so l s).
Proof.
  unfold sort_tagged. apply tidy_bind; [apply tidy_any|]. intros b _. destruct (negb b); [exact I|]. cbv zeta. apply tidy_bind.
  - apply tidy_mapM. intros e _. apply tidy_bind; [apply tidy_item_key | intros; exact I].
  - intros k _. unfold py_sorted. destruct (negb _); (apply tidy_bind; [apply tidy_sort | intros; exact I]).
Qed.
Lemma tidy_differs l : forall m, tidy (sorted_differs l m).
Proof. induction l as [|[i x] t IH]; intros [|[j y] m]; try exact I. cbn [sorted_differs]. destruct (Nat.eqb i j); [apply IH|]. apply tidy_bind; [apply tidy_veq|]. intros e _. destruct e; [apply IH | exact I]. Qed.

(** Only KeyError is left. *)
Definition keyed_only {A} (m : res A) : Prop := (exists a, m = Ok a) \/ m = Raise KeyErr.
Lemma skipped m : tidy m -> keyed_only (skip_if_bad_data m).
Proof. intros H. destruct m as [i|[]]; try destruct H; cbn [skip_if_bad_data]; solve [left; eexists; reflexivity | right; reflexivity]. Qed.
Lemma sorted_keyed so l ss : keyed_only (resources_sorted so l ss).
Proof. apply skipped. apply tidy_bind; [apply tidy_tagged|]. intros m _. apply tidy_bind; [apply tidy_differs | intros; exact I]. Qed.

(** ** Filters *)

Lemma tidy_op b x y : tidy (apply_op b x y).
Proof.
  destruct b; cbn [apply_op]; try apply tidy_veq; try (destruct (order x y); exact I).
  - apply tidy_bind; [apply tidy_veq | intros; exact I].
  - destruct x; try exact I; try (destruct y; exact I). induction l as [|z t IH]; [exact I|]. apply tidy_bind; [apply tidy_veq|]. intros e _. destruct e; [exact I | exact IH].
  - destruct x; try exact I. destruct y; exact I.
  - destruct x; try exact I. destruct y; exact I.
Qed.
Lemma tidy_pairs b l : tidy (any_pair b l).
Proof. induction l as [|[x y] t IH]; cbn [any_pair]; [exact I|]. apply tidy_bind; [apply tidy_op|]. intros e _. destruct e; [exact I | exact IH]. Qed.
Lemma tidy_present r v l : tidy (present_match r v l).
Proof.
  unfold present_match. destruct (find_attr l r) as [a|]; [|exact I]. destruct (is_complex a); destruct v; try exact I.
  apply tidy_bind; [|intros; exact I]. apply tidy_mapM. intros x _. destruct x; exact I.
Qed.

Section Env.
  Context {env : PyEnv}.

  Lemma tidy_values b lt v a : tidy (comparison_values b lt v a).
  Proof.
    unfold comparison_values. cbv zeta. apply tidy_bind; [destruct (a_type (info a)); exact I|]. intros n _. destruct (negb _); [exact I|]. apply tidy_bind.
    - destruct (is_complex a); [|exact I]. destruct (_ && _); [|exact I]. apply tidy_bind; [apply tidy_iter|]. intros l _. apply tidy_bind; [|intros; exact I]. apply tidy_mapM. intros; apply tidy_get_str.
    - intros [w|] _; [|exact I]. destruct (str_eqb n _).
      + destruct w; try exact I. destruct (env_fromiso s); [|exact I]. destruct lt; try exact I. destruct (env_fromiso _); exact I.
      + destruct lt, (a_case_exact (info a)); exact I.
  Qed.
  Lemma tidy_binary b r lt v l strict : tidy (binary_match b r lt v l strict).
  Proof.
    unfold binary_match. destruct (find_attr l r) as [a|]; [|exact I].
    assert (G : tidy (let! vals := comparison_values b lt v a in match vals with None => Ok Failed | Some ps => let! e := any_pair b ps in Ok (status_of e) end)).
    { apply tidy_bind; [apply tidy_values|]. intros [ps|] _; [|exact I]. apply tidy_bind; [apply tidy_pairs | intros; exact I]. }
    destruct v; try exact G; exact I.
  Qed.
  Lemma tidy_operand o v : tidy (operand o v).
  Proof. unfold operand. destruct (is_logical o); [exact I|]. destruct (oper_rep o); [apply tidy_get | exact I]. Qed.
  Lemma tidy_matches o : forall v l strict, tidy (matches o v l strict).
  Proof.
    assert (Sub : forall o, (forall v l strict, tidy (matches o v l strict)) -> forall v l strict, tidy (filter_apply o v l strict)).
    { intros o0 H v l strict. unfold filter_apply. apply tidy_bind; [apply tidy_operand | intros; apply H]. }
    induction o as [r|b r lt|subs IH|subs IH|s IH|r s IH|] using oper_ind2; intros v l strict.
    - apply tidy_present.
    - apply tidy_binary.
    - rewrite <- apply_logical, apply_and by reflexivity. generalize false. generalize (or_empty v) as w. intros w. induction IH as [|s t Hs _ IHt]; intros m; cbn [and_run]; [exact I|].
      apply tidy_bind; [apply Sub; exact Hs|]. intros x _. destruct x; try exact I; apply IHt.
    - rewrite <- apply_logical, apply_or by reflexivity. generalize false. generalize (or_empty v) as w. intros w. induction IH as [|s t Hs _ IHt]; intros m; cbn [or_run]; [exact I|].
      apply tidy_bind; [apply Sub; exact Hs|]. intros x _. destruct x; try exact I; apply IHt.
    - rewrite <- apply_logical, apply_not by reflexivity. apply tidy_bind; [apply Sub; exact IH | intros; exact I].
    - rewrite matches_complex. destruct (find_attr l r) as [a|]; [|exact I]. destruct (negb (is_complex a)); [exact I|]. destruct (_ || _); [exact I|]. generalize (complex_items a v) as xs. intros xs. destruct (is_attr_op s).
      + generalize false. induction xs as [|x t IHt]; intros h; cbn [attr_run]; [exact I|]. apply tidy_bind; [|intros [iv m] _; destruct m; try exact I; apply IHt].
        unfold item_eval. destruct (oper_rep s); [|exact I]. apply tidy_bind; [apply tidy_get|]. intros iv _. apply tidy_bind; [apply IH | intros; exact I].
      + generalize false. induction xs as [|x t IHt]; intros h; cbn [other_run]; [exact I|]. apply tidy_bind; [apply IH|]. intros m _. destruct m; try exact I; apply IHt.
    - exact I.
  Qed.
  Lemma filtered_keyed o l ss strict : keyed_only (resources_filtered o l ss strict).
  Proof.
    apply skipped. generalize no_issues, 0. revert ss. induction l as [|x t IH]; intros [|[[n s]|] ss] iss i; try exact I. cbn [filter_loop]. apply tidy_bind; [apply tidy_bind; [apply tidy_operand | intros; apply tidy_matches]|].
    intros m _. apply tidy_bind; [destruct m; exact I|]. intros b _. apply IH.
  Qed.
End Env.
