(** Properties C20-C24: attribute processing (src/data/attributes.py). *)
From Coq Require Import Sorting.Sorted.
From Verif Require Import PyBase BaseFacts PyNum Issues IssuesSpec IssuesFacts AttrRep AttrRepSpec AttrRepFacts Value ValueFacts
  Container ContainerSpec ContainerFacts ContainerRW ContainerEq Types TypesSpec Attr Schema AttrSpec AttrFacts AttrHonest AttrItems.

(** ** C20: every rejection is reported *)

Section Env.
  Context {env : PyEnv}.

  (** Attributes whose processors report at the very location of what they reject. *)
  Theorem C20_reported_there : forall a m v w iss l,
    honest_attr issue_at a -> untainted v -> process a m v = Ok (w, iss) -> invalid_at w l -> issue_at iss l.
  Proof.
    intros a m v w iss l Ha Hv H Hl. eapply process_honest; [| |exact Ha|exact Hv|exact H|exact Hl].
    - intros i l0 Hi. exact Hi.
    - intros i j p l0 Hmono Hi. unfold issue_at in *. rewrite <- (app_nil_r (p ++ l0)), <- app_assoc. apply Hmono.
      rewrite app_nil_r. exact Hi.
  Qed.

  (** Attributes whose processors report at or below what they reject. *)
  Theorem C20_reported_below : forall a m v w iss l,
    honest_attr issue_below a -> untainted v -> process a m v = Ok (w, iss) -> invalid_at w l -> issue_below iss l.
  Proof.
    intros a m v w iss l Ha Hv H Hl. eapply process_honest; [| |exact Ha|exact Hv|exact H|exact Hl].
    - intros i l0 Hi. exists []. rewrite app_nil_r. exact Hi.
    - intros i j p l0 Hmono [t Ht]. exists t. rewrite <- app_assoc. apply Hmono. exact Ht.
  Qed.

  (** No issue, no Invalid marker. *)
  Theorem C20_silent_is_clean : forall a m v w iss,
    honest_attr issue_below a -> untainted v -> process a m v = Ok (w, iss) ->
    (forall l, errs_at iss l = []) -> untainted w.
  Proof.
    intros a m v w iss Ha Hv H Hno l Hl. destruct (C20_reported_below _ _ _ _ _ _ Ha Hv H Hl) as [t Ht]. apply Ht. apply Hno.
  Qed.

  (** The built-in check for a single primary item is such a processor. *)
  Lemma single_primary_reporting : reporting single_primary.
  Proof.
    intros v v' iss H. unfold single_primary in H. apply bind_ok in H as [l [_ H]]. apply bind_ok in H as [ps [_ H]].
    injection H as _ <-. destruct (Nat.ltb 1 (length ps)); [apply report_add | ]; apply report_empty.
  Qed.
  Lemma single_primary_honest R : honest R single_primary.
  Proof.
    intros v v' iss H. split; [exact (single_primary_reporting _ _ _ H)|]. intros l Hl. right.
    unfold single_primary in H. apply bind_ok in H as [xs [Hi H]]. apply bind_ok in H as [ps [_ H]]. injection H as <- _.
    destruct v; try discriminate; injection Hi as <-; try exact Hl; exfalso; revert l Hl; apply untainted_list;
      apply Forall_forall; intros x Hx; apply in_map_iff in Hx as [e [<- _]]; try (destruct e as [[?|?] ?]);
      (apply untainted_atom; [exact I | discriminate]).
  Qed.

  (** Attributes without custom processors, as the library's own assets are built:
      C20 holds for all of them. *)
  Inductive builtin : attribute -> Prop :=
  | bi_simple i : a_parsers i = [] -> a_dumpers i = [] -> builtin (MkAttr i None)
  | bi_complex i subs cps cds : a_type i = TComplex -> a_parsers i = [] -> a_dumpers i = [] ->
      (forall p, In p cps -> p = single_primary) -> (forall p, In p cds -> p = single_primary) ->
      Forall (fun s => plain_rep (arep s)) subs -> Forall builtin subs -> builtin (MkAttr i (Some (subs, cps, cds))).
  Lemma builtin_honest R a : builtin a -> honest_attr R a.
  Proof.
    induction a as [i|i subs cps cds IH] using attr_ind2; intros H; inversion H as [? H1 H2|? ? ? ? Ht H1 H2 H3 H4 H5 H6]; subst.
    - constructor; [rewrite H1 | rewrite H2]; constructor.
    - constructor; [exact Ht | rewrite H1; constructor | rewrite H2; constructor | | | exact H5 |].
      + apply Forall_forall. intros p Hp. rewrite (H3 p Hp). apply single_primary_honest.
      + apply Forall_forall. intros p Hp. rewrite (H4 p Hp). apply single_primary_honest.
      + rewrite Forall_forall in *. intros s Hs. apply IH; [exact Hs | apply H6; exact Hs].
  Qed.
  Theorem C20_builtin : forall a m v w iss l, builtin a -> untainted v -> process a m v = Ok (w, iss) ->
    invalid_at w l -> issue_at iss l.
  Proof. intros a m v w iss l Ha. apply C20_reported_there. apply builtin_honest; exact Ha. Qed.

  (** ** C21: canonical values *)

  Definition canonical_of (case_exact : bool) (l : list lit) (x : value) : Prop := exists c, In c l /\ equals_lit case_exact x c.

  Lemma lit_eqb_spec (ce : bool) x c :
    lit_eqb (match x with VStr s => if ce then x else VStr (lower s) | _ => x end) (if ce then c else lower_lit c) = true
    <-> equals_lit ce x c.
  Proof.
    destruct x, ce, c; cbn [lit_eqb equals_lit lower_lit v_of_lit]; unfold same_text; rewrite ?str_eqb_eq, ?number_num;
      try (split; [discriminate | contradiction]); try (split; [intros; exact I | reflexivity]); try reflexivity;
      cbn [v_of_lit number num_of]; try (split; [discriminate | contradiction]);
      try (destruct b); try (destruct b0); rewrite ?same_number_iff; try reflexivity; try (split; [discriminate | contradiction]).
  Qed.

  Lemma is_canonical_spec i validate l x : x <> VInvalid ->
    (is_canonical (with_canon validate l i) x = true <-> canonical_of (a_case_exact i) l x).
  Proof.
    intros Hx.
    assert (E : is_canonical (with_canon validate l i) x =
                existsb (lit_eqb (match x with VStr s => if a_case_exact i then x else VStr (lower s) | _ => x end))
                        (if a_case_exact i then l else map lower_lit l)) by (destruct x; try reflexivity; congruence).
    rewrite E, existsb_exists. unfold canonical_of.
    split.
    - intros [c [Hin Hc]]. destruct (a_case_exact i) eqn:Ece.
      + exists c. split; [exact Hin|]. apply (lit_eqb_spec true). exact Hc.
      + apply in_map_iff in Hin as [c' [<- Hin]]. exists c'. split; [exact Hin|]. apply (lit_eqb_spec false). exact Hc.
    - intros [c [Hin Hc]]. destruct (a_case_exact i) eqn:Ece.
      + exists c. split; [exact Hin|]. apply (lit_eqb_spec true). exact Hc.
      + exists (lower_lit c). split; [apply in_map; exact Hin|]. apply (lit_eqb_spec false). exact Hc.
  Qed.

  (** Validation on: a value of the right type passes iff it is canonical. *)
  Theorem C21_enforced : forall m i l v x,
    a_multi i = false -> a_parsers i = [] -> a_dumpers i = [] -> v <> VNone ->
    type_proc m (a_type i) v = Ok (pass x) -> x <> VInvalid ->
    exists w iss, process (mk_simple (with_canon true l i)) m v = Ok (w, iss)
    /\ (canonical_of (a_case_exact i) l x -> w = x /\ forall l, errs_at iss l = [])
    /\ (~ canonical_of (a_case_exact i) l x -> w = VInvalid /\ errs_at iss [] = [err 14] /\ forall l, l <> [] -> errs_at iss l = []).
  Proof.
    intros m i l v x Hm Hp Hd Hv Ht Hx. unfold mk_simple. cbn [process]. rewrite base_process_eq. cbn [a_multi with_canon]. rewrite Hm.
    cbn [andb]. unfold base_core. cbn [a_multi with_canon]. rewrite Hm.
    assert (Hpr : procs_of m (with_canon true l i) = []) by (destruct m; assumption). rewrite Hpr.
    set (i' := with_canon true l i). unfold one. change (a_type i') with (a_type i). rewrite Ht. cbn [bind pass].
    rewrite merge_none_nil. unfold canon_step. change (a_validate i') with true.
    pose proof (is_canonical_spec i true l x Hx) as Hc. fold i' in Hc.
    assert (G : forall o : outcome, (if has_issues (snd o) [] then Ok o else run_procs [] (fst o) (snd o)) = Ok o).
    { intros [a b]. cbn [fst snd]. destruct (has_issues b []); reflexivity. }
    destruct (is_canonical i' x) eqn:Ec.
    - exists x, no_issues. split; [destruct v; try congruence; reflexivity|].
      split; [intros _; split; reflexivity | intros Hn; exfalso; apply Hn; apply Hc; reflexivity].
    - exists VInvalid, (add_issue no_issues e_must_be_one_of false []).
      split; [destruct v; try congruence; reflexivity|]. split; [intros H; apply Hc in H; discriminate|].
      intros _. split; [reflexivity|]. split; [reflexivity|]. intros l0 Hl. rewrite errs_at_add.
      destruct (loc_dec [] l0); [congruence | reflexivity].
  Qed.

  (** The same for one item of a multi-valued attribute (by C22 for each item). *)
  Theorem C21_enforced_item : forall m i l v x,
    a_multi i = true -> a_parsers i = [] -> a_dumpers i = [] ->
    type_proc m (a_type i) v = Ok (pass x) -> x <> VInvalid ->
    exists w iss, process (mk_simple (with_canon true l i)) m (VList [v]) = Ok (VList [w], iss)
    /\ (canonical_of (a_case_exact i) l x -> w = x /\ forall l, errs_at iss l = [])
    /\ (~ canonical_of (a_case_exact i) l x -> w = VInvalid /\ errs_at iss [LIdx 0] = [err 14]).
  Proof.
    intros m i l v x Hm Hp Hd Ht Hx. unfold mk_simple. cbn [process]. rewrite base_process_eq. cbn [a_multi with_canon]. rewrite Hm.
    cbn [andb is_list negb]. unfold base_core. cbn [a_multi with_canon]. rewrite Hm.
    assert (Hpr : procs_of m (with_canon true l i) = []) by (destruct m; assumption). rewrite Hpr.
    set (i' := with_canon true l i). cbn [enumerate enum_from foldM item_step]. change (a_type i') with (a_type i). rewrite Ht.
    cbn [bind pass fst snd app]. rewrite merge_nil. unfold canon_step. change (a_validate i') with true.
    pose proof (is_canonical_spec i true l x Hx) as Hc. fold i' in Hc.
    destruct (is_canonical i' x) eqn:Ec.
    - exists x, no_issues. split; [reflexivity|].
      split; [intros _; split; reflexivity | intros Hn; exfalso; apply Hn; apply Hc; reflexivity].
    - exists VInvalid, (add_issue no_issues e_must_be_one_of false [LIdx 0]).
      split; [reflexivity|]. split; [intros H; apply Hc in H; discriminate|].
      intros _. split; reflexivity.
  Qed.

  (** Validation off: processing is the same as with no canonical values at all. *)
  Definition forget_canon (i : ainfo) : ainfo :=
    mkInfo (a_rep i) (a_type i) (a_descr i) (a_reftypes i) (a_issuer i) (a_required i) (a_case_exact i)
           (a_multi i) None (a_validate i) (a_mut i) (a_ret i) (a_uniq i) (a_parsers i) (a_dumpers i).
  Theorem C21_ignored : forall m i l sub v,
    process (MkAttr (with_canon false l i) sub) m v = process (MkAttr (forget_canon i) sub) m v.
  Proof.
    intros m i l sub v.
    assert (Hstep : forall x iss p, canon_step (with_canon false l i) x iss p = canon_step (forget_canon i) x iss p).
    { intros x iss p. unfold canon_step. change (a_validate (with_canon false l i)) with false.
      replace (is_canonical (forget_canon i) x) with true by (destruct x; reflexivity).
      destruct (is_canonical (with_canon false l i) x); reflexivity. }
    assert (Hb : base_process m (with_canon false l i) v = base_process m (forget_canon i) v).
    { rewrite !base_process_eq. change (a_multi (with_canon false l i)) with (a_multi i). change (a_multi (forget_canon i)) with (a_multi i).
      replace (base_core m (with_canon false l i) v) with (base_core m (forget_canon i) v).
      { destruct m; reflexivity. }
      assert (H1 : one m (forget_canon i) v = one m (with_canon false l i) v).
      { unfold one. apply bind_ext. intros [x iss]. rewrite Hstep. reflexivity. }
      unfold base_core. change (a_multi (with_canon false l i)) with (a_multi i). change (a_multi (forget_canon i)) with (a_multi i).
      destruct (a_multi i); [|exact H1]. destruct v; try exact H1.
      rewrite (foldM_ext (item_step m (forget_canon i)) (item_step m (with_canon false l i))); [reflexivity|].
      intros s [k x] _. cbn [item_step]. apply bind_ext. intros [x' iss]. rewrite Hstep. reflexivity. }
    destruct sub as [[[subs cps] cds]|]; [|exact Hb]. rewrite !process_complex, Hb. reflexivity.
  Qed.

  (** ** C22: item by item *)

  Lemma final_cases m a : itemwise m a -> final_procs m a = [] \/ final_procs m a = [single_primary].
  Proof.
    destruct a as [i [[[subs cps] cds]|]]; intros [_ [_ H]]; cbn [final_procs]; [|left; reflexivity].
    destruct m; exact H.
  Qed.

  (** What processing a list gives, from what each item gives. *)
  Lemma items_outcome m a xs : sound_attr a -> distinct_names (sub_attrs a) -> itemwise m a ->
    (forall w iss, process a m (VList xs) = Ok (w, iss) ->
       exists outs, mapM (one_item m a) xs = Ok outs /\ w = VList (map fst outs)
       /\ (forall l, l <> [] -> errs_at iss l = items_errs 0 outs l)
       /\ (errs_at iss [] = [] \/ final_procs m a = [single_primary]
            /\ (forall l, items_errs 0 outs l = [])
            /\ exists ks, StronglySorted lt ks /\ 1 < length ks /\ errs_at iss [] = [e_multiple_primary ks]
               /\ (forall k, In k ks <-> exists y, nth_error (map fst outs) k = Some y /\ marked y))
       /\ (final_procs m a = [single_primary] -> (forall l, items_errs 0 outs l = []) -> errs_at iss [] = [] ->
           forall j k y z, nth_error (map fst outs) j = Some y -> nth_error (map fst outs) k = Some z ->
             marked y -> marked z -> j = k))
    /\ (forall outs, mapM (one_item m a) xs = Ok outs -> exists o, process a m (VList xs) = Ok o).
  Proof.
    intros Ha Hd Hi. rewrite (process_multi _ _ _ Hi). destruct (before_procs_spec m a xs Ha) as [Hb1 Hb2].
    (* the single-primary check on the items *)
    assert (Hsp : forall outs, mapM (one_item m a) xs = Ok outs -> final_procs m a = [single_primary] ->
              Forall tidy (map fst outs)).
    { intros outs Ho Hf. destruct a as [i [[[subs cps] cds]|]]; [|discriminate]. apply mapM_ok in Ho.
      apply Forall_forall. intros y Hy. apply in_map_iff in Hy as [o [<- Ho']]. apply In_nth_error in Ho' as [k Hk].
      destruct (Forall2_nth_r _ _ _ Ho _ _ Hk) as [x [_ Hx]]. eapply one_item_tidy; [exact Ha | exact Hd | exact Hx]. }
    assert (Hroot : forall outs : list outcome, items_errs 0 outs [] = []) by (intros; apply items_errs_other; intros; discriminate).
    split.
    - intros w iss H. apply bind_ok in H as [[ys iss0] [H1 H]]. destruct (Hb1 _ _ H1) as [outs [Ho [-> [Hr [_ He]]]]].
      exists outs. split; [exact Ho|].
      destruct (has_issues iss0 []) eqn:Eh.
      { injection H as <- <-. split; [reflexivity|]. split; [intros l _; apply He|].
        split; [left; rewrite He; apply Hroot|]. intros _ Hall. exfalso. apply has_issues_iff in Eh; [|exact Hr].
        destruct Eh as [l Hl]. apply Hl. rewrite He. apply Hall. }
      pose proof (no_has_issues _ Hr Eh) as Hno.
      assert (Hall : forall l, items_errs 0 outs l = []) by (intros l; rewrite <- He; apply Hno).
      destruct (final_cases _ _ Hi) as [Ef|Ef]; rewrite Ef in *.
      { cbn [run_procs foldM] in H. injection H as <- <-. split; [reflexivity|]. split; [intros l _; apply He|].
        split; [left; apply Hno|]. intros; discriminate. }
      destruct (single_primary_spec _ (Hsp _ Ho eq_refl)) as [ks [Hks [Hk Hs]]].
      unfold run_procs in H. cbn [foldM fst snd] in H. rewrite Hks in H. cbn [bind] in H. injection H as <- <-.
      split; [reflexivity|].
      assert (Hrp : report (if Nat.ltb 1 (length ks) then add_issue no_issues (e_multiple_primary ks) true [] else no_issues)).
      { destruct (Nat.ltb 1 (length ks)); [apply report_add|]; apply report_empty. }
      assert (Hm : forall l, errs_at (merge iss0 (if Nat.ltb 1 (length ks) then add_issue no_issues (e_multiple_primary ks) true [] else no_issues) []) l
                   = if Nat.ltb 1 (length ks) then if loc_dec [] l then [e_multiple_primary ks] else [] else []).
      { intros l. rewrite errs_merge by assumption. rewrite Hno. cbn [loc_strip app].
        destruct (Nat.ltb 1 (length ks)); [rewrite errs_at_add|]; rewrite ?errs_at_none; reflexivity. }
      split; [|split].
      + intros l Hl. rewrite Hm, Hall. destruct (Nat.ltb 1 (length ks)); [|reflexivity]. destruct (loc_dec [] l); [congruence | reflexivity].
      + rewrite Hm. destruct (Nat.ltb_spec 1 (length ks)) as [Hlt|Hle]; [|left; reflexivity]. right.
        split; [reflexivity|]. split; [exact Hall|]. exists ks. split; [exact Hs|]. split; [exact Hlt|].
        split; [destruct (loc_dec [] []); [reflexivity | congruence] | exact Hk].
      + intros _ _ H0 j k y z Hy Hz My Mz. rewrite Hm in H0. destruct (Nat.ltb_spec 1 (length ks)) as [Hlt|Hle].
        { destruct (loc_dec [] []); [discriminate | congruence]. }
        destruct (Nat.eq_dec j k) as [E|E]; [exact E|]. exfalso.
        assert (Hlt : 1 < length ks); [|lia]. apply (two_marked _ Hs). exists j, k. split; [exact E|].
        split; apply Hk; [exists y | exists z]; split; assumption.
    - intros outs Ho. destruct (Hb2 _ Ho) as [[ys iss0] Hb]. rewrite Hb. cbn [bind].
      destruct (Hb1 _ _ Hb) as [outs' [Ho' [-> _]]]. destruct (has_issues iss0 []); [eexists; reflexivity|].
      destruct (final_cases _ _ Hi) as [Ef|Ef]; rewrite Ef; [eexists; reflexivity|].
      destruct (single_primary_spec _ (Hsp _ Ho' Ef)) as [ks [Hks _]].
      unfold run_procs. cbn [foldM fst snd]. rewrite Hks. cbn [bind]. eexists; reflexivity.
  Qed.

  Lemma single_outcome m a x w iss : sound_attr a -> distinct_names (sub_attrs a) -> itemwise m a ->
    process a m (VList [x]) = Ok (w, iss) ->
    exists y j, one_item m a x = Ok (y, j) /\ w = VList [y] /\ forall l, errs_at iss (LIdx 0 :: l) = errs_at j l.
  Proof.
    intros Ha Hd Hi H. destruct (proj1 (items_outcome m a [x] Ha Hd Hi) _ _ H) as [outs [Ho [-> [He _]]]].
    apply mapM_ok in Ho. inversion Ho as [|? [y j] ? ? Hx Ht]; subst. inversion Ht; subst.
    exists y, j. split; [exact Hx|]. split; [reflexivity|]. intros l. rewrite He by discriminate.
    exact (items_errs_nth 0 [(y, j)] 0 l).
  Qed.

  Theorem C22_items : forall m a xs w iss,
    sound_attr a -> distinct_names (sub_attrs a) -> itemwise m a -> process a m (VList xs) = Ok (w, iss) ->
    exists ys, w = VList ys /\ length ys = length xs
    /\ (forall k x, nth_error xs k = Some x -> exists y iss_k,
          nth_error ys k = Some y /\ process a m (VList [x]) = Ok (VList [y], iss_k)
          /\ forall l, errs_at iss (LIdx k :: l) = errs_at iss_k (LIdx 0 :: l))
    /\ (forall l, errs_at iss l <> [] -> l = [] \/ exists k l', l = LIdx k :: l' /\ k < length xs).
  Proof.
    intros m a xs w iss Ha Hd Hi H. destruct (proj1 (items_outcome m a xs Ha Hd Hi) _ _ H) as [outs [Ho [-> [He _]]]].
    pose proof (mapM_length _ _ _ Ho) as Hlen. apply mapM_ok in Ho.
    exists (map fst outs). split; [reflexivity|]. split; [rewrite map_length; exact Hlen|]. split.
    - intros k x Hk. destruct (Forall2_nth_l _ _ _ Ho _ _ Hk) as [[y j] [Hy Hx]]. exists y.
      destruct (proj2 (items_outcome m a [x] Ha Hd Hi) [(y, j)]) as [[w' iss'] Hw].
      { apply mapM_ok. constructor; [exact Hx | constructor]. }
      destruct (single_outcome _ _ _ _ _ Ha Hd Hi Hw) as [y' [j' [Hx' [-> Hj]]]].
      rewrite Hx in Hx'. injection Hx' as <- <-. exists iss'.
      split; [exact (map_nth_error fst _ _ Hy)|]. split; [exact Hw|]. intros l. rewrite Hj, He by discriminate.
      pose proof (items_errs_nth 0 outs k l) as En. cbn [Nat.add] in En. rewrite En. unfold outcome in *. rewrite Hy. reflexivity.
    - intros l Hl. destruct l as [|[s|k] l]; [left; reflexivity | |].
      + exfalso. apply Hl. rewrite He by discriminate. apply items_errs_other. intros; discriminate.
      + right. exists k, l. split; [reflexivity|]. rewrite He in Hl by discriminate.
        pose proof (items_errs_nth 0 outs k l) as En. cbn [Nat.add] in En. rewrite En in Hl.
        rewrite <- Hlen. apply nth_error_Some. intros E. unfold outcome in *. rewrite E in Hl. congruence.
  Qed.

  (** A list is processed without an exception iff each of its items is. *)
  Theorem C22_total : forall m a xs,
    sound_attr a -> distinct_names (sub_attrs a) -> itemwise m a ->
    ((exists o, process a m (VList xs) = Ok o) <-> forall x, In x xs -> exists o, process a m (VList [x]) = Ok o).
  Proof.
    intros m a xs Ha Hd Hi. split.
    - intros [[w iss] H] x Hx. apply In_nth_error in Hx as [k Hk].
      destruct (C22_items _ _ _ _ _ Ha Hd Hi H) as [ys [_ [_ [G _]]]]. destruct (G _ _ Hk) as [y [j [_ [Hp _]]]].
      eexists; exact Hp.
    - intros H. destruct (mapM_total (one_item m a) xs) as [outs Ho].
      { intros x Hx. destruct (H x Hx) as [[w iss] Hp]. destruct (single_outcome _ _ _ _ _ Ha Hd Hi Hp) as [y [j [Hy _]]].
        eexists; exact Hy. }
      exact (proj2 (items_outcome m a xs Ha Hd Hi) _ Ho).
  Qed.

  (** ** C23: at most one primary item *)

  Definition checks_primary (m : method) (a : attribute) : Prop :=
    match a with
    | MkAttr _ (Some (_, cps, cds)) => match m with MParse => cps | MDump => cds end = [single_primary]
    | _ => False
    end.

  Theorem C23_single_primary : forall m a xs ys iss,
    sound_attr a -> distinct_names (sub_attrs a) -> itemwise m a -> checks_primary m a ->
    process a m (VList xs) = Ok (VList ys, iss) ->
    (forall k l, errs_at iss (LIdx k :: l) = []) ->
    ((exists j k y z, j <> k /\ nth_error ys j = Some y /\ nth_error ys k = Some z /\ marked y /\ marked z)
       -> exists ks, errs_at iss [] = [mkErr 9 (map dec_of_nat ks)] /\ StronglySorted lt ks
                     /\ forall k, In k ks <-> exists y, nth_error ys k = Some y /\ marked y)
    /\ (~ (exists j k y z, j <> k /\ nth_error ys j = Some y /\ nth_error ys k = Some z /\ marked y /\ marked z)
       -> forall l, errs_at iss l = []).
  Proof.
    intros m a xs ys iss Ha Hd Hi Hc H Hclean.
    assert (Ef : final_procs m a = [single_primary]) by (destruct a as [i [[[subs cps] cds]|]]; [exact Hc | contradiction]).
    destruct (proj1 (items_outcome m a xs Ha Hd Hi) _ _ H) as [outs [Ho [E [He [Hor Huniq]]]]]. injection E as ->.
    assert (Hall : forall l, items_errs 0 outs l = []).
    { intros [|[s|k] l]; [apply items_errs_other; intros; discriminate | apply items_errs_other; intros; discriminate |].
      rewrite <- He by discriminate. apply Hclean. }
    split.
    - intros [j [k [y [z [Hjk [Hy [Hz [My Mz]]]]]]]]. destruct Hor as [H0|[_ [_ [ks [Hs [Hlt [H0 Hk]]]]]]].
      + exfalso. apply Hjk. eapply (Huniq Ef Hall H0); eassumption.
      + exists ks. split; [exact H0|]. split; [exact Hs | exact Hk].
    - intros Hn l. destruct l as [|p l]; [|rewrite He by discriminate; apply Hall].
      destruct Hor as [H0|[_ [_ [ks [Hs [Hlt [H0 Hk]]]]]]]; [exact H0|]. exfalso. apply Hn.
      apply (two_marked _ Hs) in Hlt as [j [k [Hjk [Hj Hk']]]]. apply Hk in Hj as [y [Hy My]]. apply Hk in Hk' as [z [Hz Mz]].
      exists j, k, y, z. auto.
  Qed.

  (** ** C24: complex attributes *)

  (** [y] and the issues [j] keep of [c] exactly the declared sub-attributes,
      each processed on its own. *)
  Definition keeps (m : method) (subs : list attribute) (c y : value) (j : issues) : Prop :=
    (forall s x, In s subs -> holds c (r_attr (arep s)) x -> x <> VMissing -> exists v js, process s m x = Ok (v, js))
    /\ (exists data l2o, y = VCont data l2o /\ NoDup (map (fun e => lower (fst e)) data)
        /\ forall n v, In (n, v) data <-> exists s x js, In s subs /\ n = r_attr (arep s) /\ holds c n x /\ x <> VMissing
                                                       /\ process s m x = Ok (v, js))
    /\ (forall s x v js l, In s subs -> holds c (r_attr (arep s)) x -> x <> VMissing -> process s m x = Ok (v, js) ->
          errs_at j (LStr (r_attr (arep s)) :: l) = errs_at js l)
    /\ (forall l, errs_at j l <> [] -> exists s x l', In s subs /\ holds c (r_attr (arep s)) x /\ l = LStr (r_attr (arep s)) :: l').

  Lemma subs_errs_one outs n o l : NoDup (map fst outs) -> In (n, o) outs -> subs_errs outs (LStr n :: l) = errs_at (snd o) l.
  Proof.
    induction outs as [|[n' o'] t IH]; intros Hn Hin; [contradiction|]. cbn [map fst] in Hn. inversion Hn as [|? ? H1 H2]; subst.
    cbn [subs_errs loc_strip].
    assert (Hno : forall n0, ~ In n0 (map fst t) -> subs_errs t (LStr n0 :: l) = []).
    { clear. intros n0 H. induction t as [|[a b] t IH]; [reflexivity|]. cbn [subs_errs loc_strip map fst] in *.
      destruct (locpart_dec (LStr a) (LStr n0)) as [E|_]; [exfalso; apply H; left; congruence|]. apply IH. intros G. apply H; right; exact G. }
    destruct Hin as [E|Hin].
    - injection E as -> ->. destruct (locpart_dec (LStr n) (LStr n)) as [_|E]; [|congruence].
      rewrite (Hno n H1), app_nil_r. reflexivity.
    - destruct (locpart_dec (LStr n') (LStr n)) as [E|_]; [|exact (IH H2 Hin)].
      injection E as ->. exfalso. apply H1. apply in_map_iff. exists (n, o). split; [reflexivity | exact Hin].
  Qed.
  Lemma subs_errs_src outs l : subs_errs outs l <> [] -> exists n o l', In (n, o) outs /\ l = LStr n :: l'.
  Proof.
    induction outs as [|[n o] t IH]; cbn [subs_errs]; intros H; [congruence|].
    destruct (loc_strip [LStr n] l) as [l'|] eqn:E.
    - apply loc_strip_spec in E. exists n, o, l'. split; [left; reflexivity | exact E].
    - destruct (IH H) as [n' [o' [l' [Hin Hl]]]]. exists n', o', l'. split; [right; exact Hin | exact Hl].
  Qed.
  Lemma gather_all m c subs : forall outs s x, gather m c subs = Ok outs -> In s subs -> get_item c (arep s) = Ok x -> x <> VMissing ->
    exists o, process s m x = Ok o /\ In (r_attr (arep s), o) outs.
  Proof.
    induction subs as [|s0 t IH]; intros outs s x H Hin Hx Hm; [contradiction|]. cbn [gather] in H.
    apply bind_ok in H as [x0 [Hx0 H]].
    assert (G : x0 <> VMissing -> (let! o := process s0 m x0 in let! rest := gather m c t in Ok ((r_attr (arep s0), o) :: rest)) = Ok outs ->
      exists o, process s m x = Ok o /\ In (r_attr (arep s), o) outs).
    { clear H. intros Hm0 H. apply bind_ok in H as [o' [H1 H]]. apply bind_ok in H as [rest [H2 H]]. injection H as <-.
      destruct Hin as [<-|Hin].
      - rewrite Hx in Hx0. injection Hx0 as <-. exists o'. split; [exact H1 | left; reflexivity].
      - destruct (IH _ _ _ H2 Hin Hx Hm) as [o [G1 G2]]. exists o. split; [exact G1 | right; exact G2]. }
    destruct x0; try (apply G; [discriminate | exact H]).
    destruct Hin as [<-|Hin]; [congruence|]. exact (IH _ _ _ H Hin Hx Hm).
  Qed.

  Lemma get_holds data l2o s x : plain_rep (arep s) -> ~ has_key (VCont data l2o) [] -> x <> VMissing ->
    (get_item (VCont data l2o) (arep s) = Ok x <-> holds (VCont data l2o) (r_attr (arep s)) x).
  Proof.
    intros [P1 [P2 [P3 P4]]] Hk Hm. destruct (arep s) as [sch n sub ext]. cbn [r_schema r_sub r_ext r_attr] in *. subst. rewrite get_plain.
    - unfold holds. split.
      + destruct (sget (lower n) l2o) as [k|] eqn:E1; [|intros H; congruence].
        destruct (sget k data) as [x'|] eqn:E2; [|discriminate]. intros H; injection H as ->.
        exists data, l2o, k. auto.
      + intros [d [l2 [k [E [H1 H2]]]]]. injection E as <- <-. rewrite H1, H2. reflexivity.
    - destruct (sget [] l2o) as [k|] eqn:E; [|reflexivity]. exfalso. apply Hk. cbn [has_key]. exists k. exact E.
  Qed.

  Lemma gather_keeps m i subs cps cds c outs : sound_attr (MkAttr i (Some (subs, cps, cds))) -> distinct_names subs ->
    is_cont c = true -> ~ has_key c [] -> gather m c subs = Ok outs ->
    keeps m subs c (put_all outs empty_cont) (merge_all [] outs no_issues).
  Proof.
    intros Ha Hd Hc Hk Hg. pose proof (sound_plain _ _ _ _ Ha) as Hpl. pose proof (gather_reports m _ Ha _ _ Hg) as Hrep.
    destruct c as [| | | | | | | | | |data l2o| | | | | |]; try discriminate. rewrite Forall_forall in Hpl.
    destruct (gather_names _ _ _ Hd _ Hg) as [Hnd _].
    assert (Hnd' : NoDup (map fst outs)).
    { rewrite <- map_map in Hnd. eapply NoDup_map_inv; exact Hnd. }
    destruct (merge_all_errs [] outs Hrep no_issues report_empty) as [_ He].
    assert (He' : forall l, errs_at (merge_all [] outs no_issues) l = subs_errs outs l) by (intros l; rewrite He; reflexivity).
    split; [|split; [|split]].
    - intros s x Hs Hx Hm. apply (get_holds _ _ _ _ (Hpl s Hs) Hk Hm) in Hx.
      destruct (gather_all _ _ _ _ _ _ Hg Hs Hx Hm) as [[v js] [H _]]. exists v, js. exact H.
    - assert (Hpl' : Forall (fun s => plain_rep (arep s)) subs) by (apply Forall_forall; exact Hpl).
      destruct (put_all_tidy _ _ _ _ Hd Hpl' Hg) as [-> _]. eexists _, _. split; [reflexivity|].
      split; [rewrite map_map; exact Hnd|]. intros n v. split.
      + intros Hin. apply in_map_iff in Hin as [[n' [v' js]] [E Hin]]. cbn [fst snd] in E. injection E as -> ->.
        destruct (gather_In _ _ _ _ _ _ Hg Hin) as [s [x [Hs [-> [Hx [Hm Hp]]]]]].
        exists s, x, js. split; [exact Hs|]. split; [reflexivity|]. split; [apply (get_holds _ _ _ _ (Hpl s Hs) Hk Hm); exact Hx|].
        split; assumption.
      + intros [s [x [js [Hs [-> [Hx [Hm Hp]]]]]]]. apply (get_holds _ _ _ _ (Hpl s Hs) Hk Hm) in Hx.
        destruct (gather_all _ _ _ _ _ _ Hg Hs Hx Hm) as [o [H1 H2]]. rewrite Hp in H1. injection H1 as <-.
        apply in_map_iff. exists (r_attr (arep s), (v, js)). split; [reflexivity | exact H2].
    - intros s x v js l Hs Hx Hm Hp. apply (get_holds _ _ _ _ (Hpl s Hs) Hk Hm) in Hx.
      destruct (gather_all _ _ _ _ _ _ Hg Hs Hx Hm) as [o [H1 H2]]. rewrite Hp in H1. injection H1 as <-.
      rewrite He'. apply (subs_errs_one _ _ (v, js)); assumption.
    - intros l Hl. rewrite He' in Hl. apply subs_errs_src in Hl as [n [o [l' [Hin ->]]]].
      destruct (gather_In _ _ _ _ _ _ Hg Hin) as [s [x [Hs [-> [Hx [Hm _]]]]]]. exists s, x, l'.
      split; [exact Hs|]. split; [apply (get_holds _ _ _ _ (Hpl s Hs) Hk Hm); exact Hx | reflexivity].
  Qed.

  (** Single-valued complex attributes without processors for [m]. *)
  Theorem C24_declared_only_partial : forall m i subs cps cds c w iss,
    sound_attr (MkAttr i (Some (subs, cps, cds))) -> distinct_names subs ->
    a_multi i = false -> a_canon i = None -> procs_of m i = [] -> match m with MParse => cps | MDump => cds end = [] ->
    is_cont c = true -> ~ has_key c [] ->
    process (MkAttr i (Some (subs, cps, cds))) m c = Ok (w, iss) -> keeps m subs c w iss.
  Proof.
    intros m i subs cps cds c w iss Ha Hd Hm Hcn Hp Hq Hc Hk H.
    assert (Ht : a_type i = TComplex) by (inversion Ha; assumption).
    assert (Hbase : base_process m i c = Ok (c, no_issues)).
    { rewrite base_process_eq, Hm. cbn [andb]. unfold base_core. rewrite Hm.
      assert (H1 : one m i c = Ok (c, no_issues)).
      { unfold one. rewrite Ht. destruct c; try discriminate. unfold type_proc, type_check; destruct m; cbn [is_cont bind pass];
          rewrite merge_none_nil; unfold canon_step, is_canonical; rewrite Hcn; reflexivity. }
      destruct c; try discriminate. rewrite H1, Hp. reflexivity. }
    rewrite process_complex, Hbase in H. cbn [bind] in H. rewrite Hm in H.
    replace (negb (can_proceed no_issues []) || match c with VNone => true | _ => false end) with false in H
      by (destruct c; try discriminate; reflexivity).
    unfold complex_part in H.
    rewrite walk_closed in H; [|eapply sound_plain; exact Ha | reflexivity].
    apply bind_ok in H as [[w' iss'] [Hw H]]. apply bind_ok in Hw as [outs [Hg Hw]]. injection Hw as <- <-.
    replace (mk_cont c) with c in Hg by (destruct c; try discriminate; reflexivity).
    assert (E : (w, iss) = (put_all outs empty_cont, merge_all [] outs no_issues)).
    { rewrite Hq in H. destruct (has_issues _ []) in H; cbn [run_procs foldM] in H; injection H as <- <-; reflexivity. }
    injection E as -> ->. eapply gather_keeps; eassumption.
  Qed.

  (** Each item of a multi-valued complex attribute. *)
  Theorem C24_items_partial : forall m i subs cps cds xs ys iss,
    sound_attr (MkAttr i (Some (subs, cps, cds))) -> distinct_names subs ->
    itemwise m (MkAttr i (Some (subs, cps, cds))) -> a_canon i = None ->
    process (MkAttr i (Some (subs, cps, cds))) m (VList xs) = Ok (VList ys, iss) ->
    forall k c, nth_error xs k = Some c -> is_cont c = true -> ~ has_key c [] ->
    exists y j, nth_error ys k = Some y /\ keeps m subs c y j /\ forall l, errs_at iss (LIdx k :: l) = errs_at j l.
  Proof.
    intros m i subs cps cds xs ys iss Ha Hd Hi Hcn H k c Hc Hcc Hk.
    assert (Ht : a_type i = TComplex) by (inversion Ha; assumption).
    destruct (proj1 (items_outcome m _ xs Ha Hd Hi) _ _ H) as [outs [Ho [E [He _]]]]. injection E as ->.
    apply mapM_ok in Ho. destruct (Forall2_nth_l _ _ _ Ho _ _ Hc) as [[y j] [Hy Hx]].
    cbn [one_item] in Hx. unfold outcome in *.
    assert (H1 : one m i c = Ok (c, no_issues)).
    { unfold one. rewrite Ht. destruct c; try discriminate. unfold type_proc, type_check; destruct m; cbn [is_cont bind pass];
        rewrite merge_none_nil; unfold canon_step, is_canonical; rewrite Hcn; reflexivity. }
    rewrite H1 in Hx. cbn [bind] in Hx. apply bind_ok in Hx as [go [Hg Hx]]. injection Hx as <- <-.
    replace (mk_cont c) with c in Hg by (destruct c; try discriminate; reflexivity).
    eexists _, _. split; [exact (map_nth_error fst _ _ Hy)|]. split; [eapply gather_keeps; eassumption|].
    intros l. rewrite He by discriminate. pose proof (items_errs_nth 0 outs k l) as En. cbn [Nat.add] in En. rewrite En.
    unfold outcome in *. rewrite Hy. reflexivity.
  Qed.

  (** C23 in terms of the input: with a Boolean "primary" sub-attribute, the
      marked items are those whose input says [primary: true]. *)
  Theorem C23_marked_inputs : forall m i subs cps cds xs ys iss pi,
    sound_attr (MkAttr i (Some (subs, cps, cds))) -> distinct_names subs ->
    itemwise m (MkAttr i (Some (subs, cps, cds))) -> a_canon i = None ->
    process (MkAttr i (Some (subs, cps, cds))) m (VList xs) = Ok (VList ys, iss) ->
    In (MkAttr pi None) subs -> same_text (r_attr (a_rep pi)) ($"primary") ->
    a_type pi = TBoolean -> a_multi pi = false -> a_canon pi = None -> a_parsers pi = [] -> a_dumpers pi = [] ->
    forall k c y, nth_error xs k = Some c -> is_cont c = true -> ~ has_key c [] -> nth_error ys k = Some y ->
    (marked y <-> holds c ($"primary") (VBool true)).
  Proof.
    intros m i subs cps cds xs ys iss pi Ha Hd Hi Hcn H Hin Hname Ht Hm Hc Hp1 Hp2 k c y Hk Hcc Hnk Hy.
    destruct (C24_items_partial _ _ _ _ _ _ _ _ Ha Hd Hi Hcn H _ _ Hk Hcc Hnk) as [y' [j [Hy' [[_ [[data [l2o [Ey [Hnd Hdata]]]] _]] _]]]].
    rewrite Hy in Hy'. injection Hy' as <-.
    assert (Hproc : forall x v js, process (MkAttr pi None) m x = Ok (v, js) -> v = VBool true <-> x = VBool true).
    { intros x v js Hx. cbn [process] in Hx. rewrite base_process_eq, Hm in Hx. cbn [andb] in Hx. unfold base_core in Hx. rewrite Hm in Hx.
      assert (Hp : procs_of m pi = []) by (destruct m; assumption). rewrite Hp in Hx.
      destruct x; cbn [bind] in Hx; try (unfold one in Hx; rewrite Ht in Hx; unfold type_proc, type_check in Hx; destruct m; cbn in Hx;
        unfold canon_step, is_canonical in Hx; rewrite ?Hc in Hx; cbn in Hx; injection Hx as <- <-; split; intros; congruence).
      injection Hx as <- <-. split; discriminate. }
    assert (Hholds : forall n x, same_text n ($"primary") -> (holds c n x <-> holds c ($"primary") x)).
    { intros n x Hn. unfold holds, same_text in *. rewrite Hn. reflexivity. }
    assert (Hsub : forall s, In s subs -> same_text (r_attr (arep s)) ($"primary") -> s = MkAttr pi None).
    { intros s Hs Hsn. unfold distinct_names in Hd. clear - Hd Hin Hname Hs Hsn. unfold same_text in *.
      induction subs as [|a t IH]; [contradiction|]. cbn [map] in Hd. inversion Hd as [|? ? H1 H2]; subst.
      destruct Hin as [E1|G1], Hs as [E2|G2].
      - congruence.
      - exfalso. apply H1. apply in_map_iff. exists s. split; [|exact G2]. rewrite E1. transitivity (lower ($"primary")); [exact Hsn | symmetry; exact Hname].
      - exfalso. apply H1. apply in_map_iff. exists (MkAttr pi None). split; [|exact G1]. rewrite E2. transitivity (lower ($"primary")); [exact Hname | symmetry; exact Hsn].
      - apply IH; assumption. }
    subst y. unfold marked. split.
    - intros [d [l2 [n [E [Hn Hnn]]]]]. injection E as <- <-. apply Hdata in Hn as [s [x [js [Hs [En [Hx [_ Hp]]]]]]].
      rewrite <- (Hholds n) by exact Hnn. subst n. rewrite (Hsub s Hs Hnn) in Hp.
      assert (Ex : x = VBool true) by (apply (Hproc _ _ _ Hp); reflexivity). subst x. exact Hx.
    - intros Hx. exists data, l2o, (r_attr (a_rep pi)). split; [reflexivity|]. split; [|exact Hname].
      apply (Hholds (r_attr (a_rep pi)) _ Hname) in Hx.
      assert (Hp : process (MkAttr pi None) m (VBool true) = Ok (VBool true, no_issues)).
      { cbn [process]. rewrite base_process_eq, Hm. cbn [andb]. unfold base_core. rewrite Hm.
        assert (Hp : procs_of m pi = []) by (destruct m; assumption). rewrite Hp. unfold one. rewrite Ht.
        destruct m; cbn; unfold canon_step, is_canonical; rewrite Hc; reflexivity. }
      apply Hdata. exists (MkAttr pi None), (VBool true), no_issues. split; [exact Hin|]. split; [reflexivity|].
      split; [exact Hx|]. split; [discriminate | exact Hp].
  Qed.
End Env.

(** ** Refutations and examples *)

Definition no_env : PyEnv := {| env_fromiso := fun _ => None; env_isofmt := fun _ => []; env_abs_url := fun _ => true |}.

(** An attribute bound to a schema forgets that canonical values are validated
    (src/data/schemas.py 164-195): the value is accepted although not canonical. *)
Theorem C21_schema_bound_refuted :
  exists (env : PyEnv) i l r v, a_multi i = false /\ a_parsers i = [] /\ a_dumpers i = [] /\ l <> []
  /\ ~ canonical_of (a_case_exact i) l v
  /\ (exists iss, process (mk_simple (with_canon true l i)) MParse v = Ok (VInvalid, iss))
  /\ process (bound_attr r (mk_simple (with_canon true l i))) MParse v = Ok (v, no_issues).
Proof.
  exists no_env, (plain ($"type") TString), [LitStr ($"work"); LitStr ($"home")], (mkRep ($"urn:s") ($"type") [] false), (VStr ($"other")).
  repeat (split; [first [reflexivity | discriminate]|]). split.
  - intros [c [[<-|[<-|[]]] H]]; vm_compute in H; discriminate.
  - split; [eexists; vm_compute; reflexivity | vm_compute; reflexivity].
Qed.

Definition ex_primary : attribute := mk_simple (plain ($"primary") TBoolean).
Definition ex_value : attribute := mk_simple (with_canon true [LitStr ($"Work"); LitStr ($"Home")] (plain ($"value") TString)).
Definition ex_emails : attribute := mk_complex (with_multi (plain ($"emails") TComplex)) [ex_value; ex_primary] [] [].
Definition ex_name : attribute := mk_complex (plain ($"name") TComplex) [ex_value; ex_primary] [] [].
Definition ex_item (v : str) (p : value) : value :=
  mk_cont (VDict [(KStr ($"VALUE"), VStr v); (KStr ($"Primary"), p); (KStr ($"extra"), VInt 1)]).

Lemma ex_plain n : attr_name_ok n = true -> plain_rep (simple_name n).
Proof. intros H. split; [reflexivity|]. split; [reflexivity|]. split; [reflexivity|]. apply attr_ok_spec. exact H. Qed.

(** C24 fails for documents with the key "": its content is read in place of the
    document's own attributes. *)
Theorem C24_empty_key_refuted :
  exists (env : PyEnv) i subs c y iss data l2o, sound_attr (MkAttr i (Some (subs, [], []))) /\ distinct_names subs
  /\ a_multi i = false /\ is_cont c = true
  /\ process (MkAttr i (Some (subs, [], []))) MParse c = Ok (y, iss) /\ y = VCont data l2o
  /\ exists n v, In (n, v) data /\ ~ exists x, holds c n x.
Proof.
  exists no_env, (plain ($"name") TComplex), [ex_primary],
    (mk_cont (VDict [(KStr [], VDict [(KStr ($"primary"), VBool true)])])).
  do 4 eexists. split.
  { apply sa_complex; try reflexivity; try constructor; try (apply ex_plain; reflexivity); try constructor; constructor. }
  split; [repeat constructor; intros []|]. split; [reflexivity|]. split; [reflexivity|].
  split; [vm_compute; reflexivity|]. split; [reflexivity|].
  exists ($"primary"), (VBool true). split; [left; reflexivity|].
  intros [x [d [m [k [E [H _]]]]]]. vm_compute in E. injection E as <- <-. vm_compute in H. discriminate.
Qed.

Lemma ex_emails_sound : sound_attr ex_emails /\ distinct_names (sub_attrs ex_emails) /\ itemwise MParse ex_emails
  /\ checks_primary MParse ex_emails.
Proof.
  assert (Hs : forall i, a_parsers i = [] -> a_dumpers i = [] -> sound_attr (MkAttr i None)).
  { intros i H1 H2. constructor; [rewrite H1 | rewrite H2]; constructor. }
  split; [|split; [|split]].
  - apply sa_complex; try reflexivity; try constructor; try (constructor; fail);
      try (apply single_primary_reporting); try constructor; try (apply Hs; reflexivity);
      try (apply ex_plain; reflexivity); try constructor; try (apply Hs; reflexivity); try (apply ex_plain; reflexivity); constructor.
  - apply NoDup_cons; [|apply NoDup_cons; [intros []|constructor]]. intros [H|[]]. vm_compute in H. discriminate.
  - split; [reflexivity|]. split; [reflexivity|]. right. reflexivity.
  - reflexivity.
Qed.

(** C20-C24 on one list: a bad item, canonical values up to case, two primaries. *)
Example ex_C20 : exists w iss, @process no_env ex_emails MParse (VList [ex_item ($"work") (VBool true); ex_item ($"nowhere") (VInt 1)]) = Ok (w, iss)
  /\ invalid_at w [LIdx 1; LStr ($"value")] /\ errs_at iss [LIdx 1; LStr ($"value")] = [err 14]
  /\ errs_at iss [LIdx 1; LStr ($"primary")] <> [] /\ errs_at iss [LIdx 0; LStr ($"value")] = [].
Proof.
  do 2 eexists. split; [vm_compute; reflexivity|]. split; [|split; [reflexivity|split; [discriminate|reflexivity]]].
  eapply ia_item; [reflexivity|]. eapply ia_key; [left; reflexivity|]. constructor.
Qed.
Example ex_C20_builtin : builtin ex_emails /\ untainted (VList [ex_item ($"work") (VBool true)]).
Proof.
  split.
  - apply bi_complex; try reflexivity; try (intros p [<-|[]]; reflexivity).
    + constructor; [apply ex_plain; reflexivity|]. constructor; [apply ex_plain; reflexivity|]. constructor.
    + constructor; [constructor; reflexivity|]. constructor; [constructor; reflexivity|]. constructor.
  - vm_compute. apply untainted_list. constructor; [|constructor]. apply untainted_cont.
    repeat (constructor; [apply untainted_atom; [exact I | discriminate]|]). constructor.
Qed.
Example ex_C21 : canonical_of false [LitStr ($"Work"); LitStr ($"Home")] (VStr ($"hOmE"))
  /\ ~ canonical_of true [LitStr ($"Work"); LitStr ($"Home")] (VStr ($"hOmE"))
  /\ @type_proc no_env MParse TString (VStr ($"hOmE")) = Ok (pass (VStr ($"hOmE"))).
Proof.
  split; [|split].
  - exists (LitStr ($"Home")). split; [right; left; reflexivity | vm_compute; reflexivity].
  - intros [c [[<-|[<-|[]]] H]]; vm_compute in H; discriminate.
  - reflexivity.
Qed.
Example ex_C22 : exists ys iss, @process no_env ex_emails MParse (VList [ex_item ($"Work") VNone; VInt 3; ex_item ($"x") VNone]) = Ok (VList ys, iss)
  /\ length ys = 3 /\ errs_at iss [LIdx 1] <> [] /\ errs_at iss [LIdx 2; LStr ($"value")] <> [].
Proof. do 2 eexists. split; [vm_compute; reflexivity|]. split; [reflexivity|]. split; discriminate. Qed.
Example ex_C23 : exists ys iss,
  @process no_env ex_emails MParse (VList [ex_item ($"Work") (VBool true); ex_item ($"Home") VNone; ex_item ($"home") (VBool true)]) = Ok (VList ys, iss)
  /\ errs_at iss [] = [mkErr 9 [$"0"; $"2"]].
Proof. do 2 eexists. split; [vm_compute; reflexivity|]. reflexivity. Qed.
Example ex_C24 : exists data l2o, @process no_env ex_name MParse (ex_item ($"Work") (VBool false)) = Ok (VCont data l2o, no_issues)
  /\ data = [($"value", VStr ($"Work")); ($"primary", VBool false)] /\ ~ has_key (ex_item ($"Work") (VBool false)) [].
Proof. do 2 eexists. split; [vm_compute; reflexivity|]. split; [reflexivity|]. intros [k H]. vm_compute in H. discriminate. Qed.

Print Assumptions C20_reported_there.
Print Assumptions C20_reported_below.
Print Assumptions C20_silent_is_clean.
Print Assumptions C20_builtin.
Print Assumptions C21_enforced.
Print Assumptions C21_enforced_item.
Print Assumptions C21_ignored.
Print Assumptions C21_schema_bound_refuted.
Print Assumptions C22_items.
Print Assumptions C22_total.
Print Assumptions C23_single_primary.
Print Assumptions C23_marked_inputs.
Print Assumptions C24_declared_only_partial.
Print Assumptions C24_items_partial.
Print Assumptions C24_empty_key_refuted.
