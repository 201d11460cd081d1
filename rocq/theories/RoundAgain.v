(** What an attribute let through is let through again, and comes back. *)
From Verif Require Import PyBase BaseFacts PyNum Issues IssuesSpec IssuesFacts AttrRep AttrRepSpec AttrRepFacts Value ValueFacts
  Container ContainerSpec ContainerFacts ContainerRW Types TypesSpec Attr AttrSpec AttrFacts AttrItems PropAttr PatchFacts RequestFacts RoundSpec RoundFacts.

Section Env.
  Context {env : PyEnv}.

  Lemma type_some m t x y : type_proc m t x = Ok (pass y) -> x <> VNone -> y <> VNone.
  Proof.
    intros H Hx.
    assert (C : forall ok name, Ok (type_check ok name x) = Ok (pass y) -> y <> VNone).
    { intros ok name E. unfold type_check in E. destruct ok; [injection E as <-; exact Hx|]. pose proof (f_equal (fun r => match r with Ok o => snd o | _ => no_issues end) E) as X. discriminate X. }
    destruct t; cbn [type_proc] in H; try exact (C _ _ H).
    - injection H as <-. exact Hx.
    - unfold decimal_proc in H. destruct (is_int x); [|exact (C _ _ H)]. apply bind_ok in H as [[p js] [_ H]].
      assert (F : (let! f := to_float p in Ok (f, js)) = Ok (pass y) -> y <> VNone).
      { clear H. intros H. apply bind_ok in H as [f [Hf H]]. injection H as <- _. destruct p; try discriminate Hf; apply bind_ok in Hf as [g [_ Hf]]; injection Hf as <-; discriminate. }
      destruct p; try exact (F H). injection H as <- _. discriminate.
    - unfold integer_proc in H. destruct x; try exact (C _ _ H). apply bind_ok in H as [z [_ H]]. destruct (feqb _ _); [injection H as <-; discriminate | exact (C _ _ H)].
    - unfold binary_proc in H. destruct x; try exact (C _ _ H). apply bind_ok in H as [[e|] [_ H]]; injection H as <-; discriminate.
    - unfold external_proc in H. destruct x; try exact (C _ _ H). destruct (env_abs_url s); injection H as <-; discriminate.
    - destruct m.
      + unfold datetime_parse in H. destruct x; try exact (C _ _ H). destruct (env_fromiso s); injection H as <-; discriminate.
      + unfold datetime_dump in H. destruct x; try exact (C _ _ H). injection H as <-. discriminate.
  Qed.

  Lemma runs_present m a v w : steady a -> runs m a v w -> v <> VMissing -> w <> VMissing.
  Proof.
    intros St R Nv. destruct a as [i [[[subs cps] cds]|]].
    - assert (cds = cps) as -> by (inversion St; reflexivity). apply (process_runs _ _ _ _ _ _ St) in R. inversion R as [|? ? _ [_ [vs [_ ->]]]|]; subst; discriminate.
    - inversion St as [? J D _ _|]; subst. assert (R' : simple_runs m i v w). { apply base_runs; [destruct m; cbn [procs_of]; rewrite ?D; exact J | exact R]. }
      inversion R' as [|? ? _ _ [A _] _|]; subst; try discriminate. exact (type_gives _ _ _ _ _ Nv A).
  Qed.

  (** ** Containers *)

  Lemma mirrors_in c subs xs : mirrors c subs xs -> forall e, In e xs -> In (fst e) subs /\ snd e <> VMissing.
  Proof.
    induction 1 as [|s t vs H M IH|s t x vs H Nx M IH]; intros e I; [destruct I | |].
    - destruct (IH e I) as [I1 I2]. split; [right; exact I1 | exact I2].
    - destruct I as [<-|I]; [split; [left; reflexivity | exact Nx]|]. destruct (IH e I) as [I1 I2]. split; [right; exact I1 | exact I2].
  Qed.

  Lemma find_named vs n : NoDup (map (fun e : str * value => lower (fst e)) vs) -> forall v, In (n, v) vs -> find (fun e => str_eqb (lower (fst e)) (lower n)) vs = Some (n, v).
  Proof.
    induction vs as [|[k x] t IH]; intros N v I; [destruct I|]. cbn [find fst]. cbn [map fst] in N. inversion N as [|? ? Nk Nt]; subst. destruct I as [E|I].
    - injection E as -> ->. rewrite str_eqb_refl. reflexivity.
    - destruct (str_eqb (lower k) (lower n)) eqn:E; [|apply IH; assumption]. apply str_eqb_eq in E. exfalso. apply Nk. rewrite E. apply in_map_iff. exists (n, v). split; [reflexivity | exact I].
  Qed.

  Lemma box_get vs n : NoDup (map (fun e : str * value => lower (fst e)) (named vs)) -> Forall (fun e => fst e <> []) (named vs) ->
    get_item (box vs) (mkRep [] n [] false) = Ok (match find (fun e => str_eqb (lower (fst e)) (lower n)) (named vs) with Some e => snd e | None => VMissing end).
  Proof.
    intros N E. unfold box. replace (map (fun e : attribute * value => (lower (r_attr (arep (fst e))), r_attr (arep (fst e)))) vs) with (map (fun e : str * value => (lower (fst e), fst e)) (named vs)); [apply tidy_get; assumption|].
    unfold named. rewrite map_map. reflexivity.
  Qed.

  Lemma mirrors_names c subs xs : mirrors c subs xs -> forall e, In e (map (fun e => lower (fst e)) (named xs)) -> In e (map (fun s => lower (r_attr (arep s))) subs).
  Proof.
    intros M e I. unfold named in I. rewrite map_map in I. apply in_map_iff in I as [x [<- I]]. destruct (mirrors_in _ _ _ M x I) as [I1 _]. cbn [fst]. apply in_map_iff. exists (fst x). split; [reflexivity | exact I1].
  Qed.
  Lemma mirrors_NoDup c subs xs : mirrors c subs xs -> distinct_names subs -> NoDup (map (fun e => lower (fst e)) (named xs)).
  Proof.
    unfold distinct_names. induction 1 as [|s t vs H M IH|s t x vs H Nx M IH]; intros N; [constructor | |]; cbn [map] in N; inversion N as [|? ? Ns Nt]; subst; [exact (IH Nt)|].
    cbn [named map fst]. constructor; [|exact (IH Nt)]. intros I. apply Ns. exact (mirrors_names _ _ _ M _ I).
  Qed.

  Lemma mirrors_box c subs xs vs : mirrors c subs xs -> map fst xs = map fst vs -> Forall (fun e => snd e <> VMissing) vs -> distinct_names subs -> Forall (fun s => plain_rep (arep s)) subs ->
    mirrors (box vs) subs vs /\ NoDup (map (fun e => lower (fst e)) (named vs)).
  Proof.
    intros M E F N P.
    assert (EN : forall l1 l2 : list (attribute * value), map fst l1 = map fst l2 -> map (fun e => lower (fst e)) (named l1) = map (fun e => lower (fst e)) (named l2)).
    { intros l1 l2 X. unfold named. rewrite !map_map. cbn [fst]. rewrite <- (map_map fst (fun a => lower (r_attr (arep a)))), X, map_map. reflexivity. }
    assert (ND : NoDup (map (fun e => lower (fst e)) (named vs))). { rewrite <- (EN xs vs E). exact (mirrors_NoDup _ _ _ M N). } split; [|exact ND].
    assert (NE : Forall (fun e => fst e <> []) (named vs)).
    { apply Forall_forall. intros e I. unfold named in I. apply in_map_iff in I as [[a v] [<- I]]. cbn [fst]. assert (I1 : In a (map fst vs)) by (apply in_map_iff; exists (a, v); auto). rewrite <- E in I1. apply in_map_iff in I1 as [z [<- Iz]].
      destruct (mirrors_in _ _ _ M z Iz) as [Is _]. rewrite Forall_forall in P. destruct (P _ Is) as [_ [_ [_ Ha]]]. apply attr_ok_nonempty. exact Ha. }
    assert (G : forall s, In s subs -> get_item (box vs) (arep s) = Ok (match find (fun e => str_eqb (lower (fst e)) (lower (r_attr (arep s)))) (named vs) with Some e => snd e | None => VMissing end)).
    { intros s I. rewrite Forall_forall in P. destruct (P _ I) as [P1 [P2 [P3 _]]]. destruct (arep s) as [a b c0 d]. cbn [r_schema r_sub r_ext r_attr] in *. subst a c0 d. apply box_get; assumption. }
    assert (In_all : forall s, In s subs -> forall v, In (s, v) vs -> get_item (box vs) (arep s) = Ok v).
    { intros s I v Iv. rewrite (G s I), (find_named (named vs) _ ND v); [reflexivity|]. unfold named. apply in_map_iff. exists (s, v). split; [reflexivity | exact Iv]. }
    assert (Out_all : forall s, In s subs -> ~ In (lower (r_attr (arep s))) (map (fun e => lower (fst e)) (named vs)) -> get_item (box vs) (arep s) = Ok VMissing).
    { intros s I Ns. rewrite (G s I). destruct (find _ (named vs)) as [e|] eqn:Fe; [|reflexivity]. apply find_some in Fe as [Ie Ee]. apply str_eqb_eq in Ee. exfalso. apply Ns. rewrite <- Ee. apply (in_map (fun e => lower (fst e))). exact Ie. }
    clear G ND NE.
    assert (Main : forall ws, map fst xs = map fst ws -> Forall (fun e => snd e <> VMissing) ws -> (forall e, In e ws -> In e vs) ->
      (forall s, In s subs -> ~ In (lower (r_attr (arep s))) (map (fun e => lower (fst e)) (named ws)) -> ~ In (lower (r_attr (arep s))) (map (fun e => lower (fst e)) (named vs))) -> mirrors (box vs) subs ws);
      [|apply Main; auto].
    clear E F. induction M as [|s t xs H M IH|s t x xs H Nx M IH]; intros ws E F Sub Cov.
    - destruct ws; [constructor | discriminate E].
    - cbn [map] in N. unfold distinct_names in *. cbn [map] in N. inversion N as [|? ? Ns Nt]; subst. inversion P as [|? ? P1 P2]; subst. apply mi_skip.
      + apply Out_all; [left; reflexivity|]. apply Cov; [left; reflexivity|]. rewrite <- (EN xs ws E). intros I. apply Ns. exact (mirrors_names _ _ _ M _ I).
      + apply IH; try assumption; [intros s' I'; apply In_all; right; exact I' | intros s' I'; apply Out_all; right; exact I' | intros s' I'; apply Cov; right; exact I'].
    - destruct ws as [|[s' v] ws]; [discriminate E|]. cbn [map fst] in E. injection E as <- E. unfold distinct_names in *. cbn [map] in N. inversion N as [|? ? Ns Nt]; subst. inversion P as [|? ? P1 P2]; subst. inversion F as [|? ? F1 F2]; subst. cbn [snd] in F1.
      apply mi_take; [apply In_all; [left; reflexivity | apply Sub; left; reflexivity] | exact F1|].
      apply IH; try assumption; [intros s' I'; apply In_all; right; exact I' | intros s' I'; apply Out_all; right; exact I' | intros e I; apply Sub; right; exact I|].
      intros s' I' X. apply Cov; [right; exact I'|]. cbn [named map fst]. intros [Y|Y]; [|exact (X Y)]. apply Ns. rewrite Y. apply (in_map (fun s => lower (r_attr (arep s)))). exact I'.
  Qed.

  (** ** The same in both directions *)

  Section Two.
    Variables (m1 m2 : method) (D : value -> Prop).
    Hypothesis D_list : forall l x, D (VList l) -> In x l -> D x.
    Hypothesis D_cont : forall d l2o k x, D (VCont d l2o) -> In (k, x) d -> D x.
    Hypothesis again_type : forall t x y, type_proc m1 t x = Ok (pass y) -> D y ->
      exists z, type_proc m2 t y = Ok (pass z) /\ type_proc m1 t z = Ok (pass y) /\ restated y z /\ (t <> TDateTime -> z = y).

    Lemma again_one i x y : (a_type i = TDateTime -> a_canon i = None) -> accepts m1 i x y -> D y ->
      exists z, accepts m2 i y z /\ accepts m1 i z y /\ restated y z /\ (a_type i <> TDateTime -> z = y).
    Proof.
      intros Dt [A C] Dy. destruct (again_type _ _ _ A Dy) as [z [H1 [H2 [H3 H4]]]]. exists z. split; [|split; [split; assumption | split; assumption]]. split; [exact H1|].
      destruct (a_type i) eqn:T; try (rewrite H4 by discriminate; exact C). left. unfold is_canonical. rewrite (Dt eq_refl). destruct z; reflexivity.
    Qed.
    Lemma again_items i xs ys : (a_type i = TDateTime -> a_canon i = None) -> Forall2 (accepts m1 i) xs ys -> D (VList ys) ->
      exists zs, Forall2 (accepts m2 i) ys zs /\ Forall2 (accepts m1 i) zs ys /\ Forall2 restated ys zs /\ (a_type i <> TDateTime -> zs = ys).
    Proof.
      intros Dt F Dy. assert (Dl : forall y, In y ys -> D y) by (intros y I; exact (D_list _ _ Dy I)). clear Dy. induction F as [|x y xs ys A F IH]; [exists []; repeat split; constructor|].
      destruct (again_one i x y Dt A (Dl y (or_introl eq_refl))) as [z [H1 [H2 [H3 H4]]]]. destruct IH as [zs [G1 [G2 [G3 G4]]]]; [intros y' I; apply Dl; right; exact I|].
      exists (z :: zs). repeat split; try (constructor; assumption). intros X. rewrite H4, G4 by exact X. reflexivity.
    Qed.

    Lemma again_simple i v w : steady (MkAttr i None) -> simple_runs m1 i v w -> D w -> exists u, restated w u /\ simple_runs m2 i w u /\ simple_runs m1 i u w.
    Proof.
      intros St R Dw. inversion St as [? J E T Dt|]; subst. assert (Pm : forall m, procs_of m i = a_parsers i) by (intros []; [reflexivity | exact E]).
      inversion R as [|? ? Mu Nv A L|xs ys Mu A L]; subst; try rewrite Pm in L.
      - exists VNone. split; [apply re_same|]. split; constructor.
      - destruct (again_one i v w (fun X => proj2 (Dt X)) A Dw) as [z [H1 [H2 [H3 H4]]]]. pose proof (type_some _ _ _ _ (proj1 A) Nv) as Nw. pose proof (type_some _ _ _ _ (proj1 H1) Nw) as Nz.
        exists z. split; [exact H3|]. split; [apply sr_one; [exact Mu | exact Nw | exact H1 | rewrite Pm] | apply sr_one; [exact Mu | exact Nz | exact H2 | rewrite Pm; exact L]].
        destruct (a_type i) eqn:Ty; try (rewrite H4 by discriminate; exact L). rewrite (proj1 (Dt eq_refl)). constructor.
      - destruct (again_items i xs ys (fun X => proj2 (Dt X)) A Dw) as [zs [H1 [H2 [H3 H4]]]]. exists (VList zs). split; [apply re_list; exact H3|].
        split; [apply sr_many; [exact Mu | exact H1 | rewrite Pm] | apply sr_many; [exact Mu | exact H2 | rewrite Pm; exact L]].
        destruct (a_type i) eqn:Ty; try (rewrite H4 by discriminate; exact L). rewrite (proj1 (Dt eq_refl)). constructor.
    Qed.

    Definition again (a : attribute) : Prop := forall v w, runs m1 a v w -> D w -> exists u, restated w u /\ runs m2 a w u /\ runs m1 a u w.

    Lemma each_again xs vs : each (runs m1) xs vs -> Forall (fun e => again (fst e)) xs -> (forall e, In e vs -> D (snd e)) ->
      exists us, each (runs m2) vs us /\ each (runs m1) us vs /\ each (fun _ => restated) vs us.
    Proof.
      intros E A. revert A. induction E as [|[a x] [a' v] xs vs [E1 R] E IH]; intros A Dv; [exists []; repeat split; constructor|]. cbn [fst snd] in *. subst a'. inversion A as [|? ? Ax At]; subst. cbn [fst] in Ax.
      destruct (Ax _ _ R (Dv (a, v) (or_introl eq_refl))) as [u [H1 [H2 H3]]]. destruct (IH At (fun e I => Dv e (or_intror I))) as [us [G1 [G2 G3]]].
      exists ((a, u) :: us). repeat split; constructor; try assumption; cbn [fst snd]; (split; [reflexivity | assumption]).
    Qed.
    Lemma each_fst Q xs vs : each Q xs vs -> map fst xs = map fst vs.
    Proof. induction 1 as [|e e' xs vs [E _] F IH]; [reflexivity|]. cbn [map]. rewrite E, IH. reflexivity. Qed.
    Lemma each_present m xs vs : each (runs m) xs vs -> Forall (fun e => steady (fst e)) xs -> Forall (fun e => snd e <> VMissing) xs -> Forall (fun e => snd e <> VMissing) vs.
    Proof.
      induction 1 as [|e e' xs vs [E R] F IH]; intros S N; [constructor|]. inversion S; subst. inversion N; subst. constructor; [|apply IH; assumption]. eapply runs_present; [|exact R|]; assumption.
    Qed.
    Lemma box_restated vs us : each (fun _ => restated) vs us -> restated (box vs) (box us).
    Proof.
      intros E. unfold box. replace (map (fun e : attribute * value => (lower (r_attr (arep (fst e))), r_attr (arep (fst e)))) us) with (map (fun e : attribute * value => (lower (r_attr (arep (fst e))), r_attr (arep (fst e)))) vs).
      - apply re_cont. unfold named. induction E as [|e e' vs us [E1 R] F IH]; cbn [map]; constructor; [|exact IH]. cbn [fst snd]. rewrite E1. split; [reflexivity | exact R].
      - apply each_fst in E. rewrite <- !(map_map fst (fun a => (lower (r_attr (arep a)), r_attr (arep a)))). rewrite E. reflexivity.
    Qed.

    Lemma again_item subs x y : Forall steady subs -> Forall again subs -> Forall (fun s => plain_rep (arep s)) subs -> distinct_names subs -> item_runs m1 subs x y -> D y ->
      exists vs us, y = box vs /\ each (fun _ => restated) vs us /\ item_runs m2 subs y (box us) /\ item_runs m1 subs (box us) y /\ tidy (box vs) /\ tidy (box us).
    Proof.
      intros St Ag Pl N [Ic [vs [[xs [M E]] ->]]] Dy. pose proof (mirrors_in _ _ _ M) as Min. rewrite Forall_forall in St, Ag.
      assert (Dv : forall e, In e vs -> D (snd e)). { intros e I. unfold box in Dy. apply (D_cont _ _ (r_attr (arep (fst e))) _ Dy). unfold named. apply in_map_iff. exists e. split; [reflexivity | exact I]. }
      assert (Sx : Forall (fun e => steady (fst e)) xs) by (apply Forall_forall; intros e I; apply St, (Min e I)). assert (Nx : Forall (fun e => snd e <> VMissing) xs) by (apply Forall_forall; intros e I; apply (Min e I)).
      destruct (each_again xs vs E) as [us [E2 [E3 E4]]]; [apply Forall_forall; intros e I; apply Ag, (Min e I) | exact Dv|].
      pose proof (each_present _ _ _ E Sx Nx) as Nv. pose proof (each_fst _ _ _ E) as F1. pose proof (each_fst _ _ _ E2) as F2.
      assert (Sv : Forall (fun e => steady (fst e)) vs). { apply Forall_forall. intros e I. assert (I' : In (fst e) (map fst vs)) by (apply in_map; exact I). rewrite <- F1 in I'. apply in_map_iff in I' as [e' [<- I']]. apply St, (Min e' I'). }
      pose proof (each_present _ _ _ E2 Sv Nv) as Nu.
      destruct (mirrors_box _ _ _ vs M F1 Nv N Pl) as [Mv NDv]. destruct (mirrors_box _ _ _ us M (eq_trans F1 F2) Nu N Pl) as [Mu NDu].
      assert (T : forall l : list (attribute * value), (forall e, In e l -> In (fst e) subs) -> NoDup (map (fun e => lower (fst e)) (named l)) -> tidy (box l)).
      { intros l Il Nl. exists (named l). split; [|split; [exact Nl|]]. { unfold box. f_equal. unfold named. rewrite map_map. reflexivity. }
        apply Forall_forall. intros e I. unfold named in I. apply in_map_iff in I as [e' [<- I]]. cbn [fst]. rewrite Forall_forall in Pl. destruct (Pl _ (Il _ I)) as [_ [_ [_ Ha]]]. apply attr_ok_nonempty. exact Ha. }
      exists vs, us. split; [reflexivity|]. split; [exact E4|]. split; [split; [reflexivity|]; exists us; split; [exists vs; split; assumption | reflexivity]|].
      split; [split; [reflexivity|]; exists vs; split; [exists us; split; assumption | reflexivity]|]. split; apply T; try assumption.
      + intros e I. apply (mirrors_in _ _ _ Mv e I).
      + intros e I. apply (mirrors_in _ _ _ Mu e I).
    Qed.

    (** Marks stay where they are. *)
    Lemma marked_restated vs us : each (fun _ => restated) vs us -> (marked (box vs) <-> marked (box us)).
    Proof.
      intros E. unfold marked, box. assert (G : forall k, In (k, VBool true) (named vs) <-> In (k, VBool true) (named us)).
      { unfold named. induction E as [|e e' vs us [E1 R] F IH]; intros k; [reflexivity|]. cbn [map In]. rewrite (IH k), E1. split; (intros [X|X]; [left|right; exact X]); pose proof (f_equal fst X) as X1; pose proof (f_equal snd X) as X2; cbn [fst snd] in X1, X2.
        - subst k. rewrite X2 in R. inversion R; subst; congruence.
        - subst k. rewrite X2 in R. inversion R as [v Ev1 Ev2| | |]; subst; congruence. }
      split; intros [data [l2o [k [X [I S]]]]]; pose proof (f_equal (fun v => match v with VCont d _ => d | _ => [] end) X) as X1; cbn in X1; subst data; eexists _, _, k; (split; [reflexivity|]; split; [apply G; exact I | exact S]).
    Qed.

    Lemma primary_again cps (vss uss : list (list (attribute * value))) : only_primary cps -> Forall2 (each (fun _ => restated)) vss uss ->
      Forall tidy (map box vss) -> Forall tidy (map box uss) -> let_through cps (VList (map box vss)) -> let_through cps (VList (map box uss)).
    Proof.
      intros [->| ->] E Tv Tu L; [constructor|]. inversion L as [|? ? [j [H Q]] _]; subst. destruct (single_primary_spec _ Tv) as [ks [Hv [Kv Sv]]]. destruct (single_primary_spec _ Tu) as [ks' [Hu [Ku Su]]].
      constructor; [|constructor]. rewrite Hv in H. destruct (Nat.ltb 1 (length ks)) eqn:B; [exfalso; pose proof (f_equal (fun r => match r with Ok o => snd o | _ => no_issues end) H) as X; cbn [snd] in X; subst j; specialize (Q []); cbn in Q; discriminate Q|].
      assert (B' : Nat.ltb 1 (length ks') = false).
      { destruct (Nat.ltb 1 (length ks')) eqn:B'; [|reflexivity]. apply Nat.ltb_lt in B'. apply (two_marked _ Su) in B' as [a [b [Nab [Ia Ib]]]]. exfalso. apply Bool.not_true_iff_false in B. apply B. apply Nat.ltb_lt, (two_marked _ Sv). exists a, b. split; [exact Nab|].
        assert (G : forall k, In k ks' -> In k ks).
        { intros k Ik. apply Ku in Ik as [y [Ny My]]. apply Kv. clear -E Ny My. revert k Ny. induction E as [|vs us vss uss E1 E IH]; intros k Ny; [destruct k; discriminate Ny|]. destruct k as [|k]; cbn [map nth_error] in *.
          - injection Ny as <-. exists (box vs). split; [reflexivity|]. apply (marked_restated _ _ E1), My.
          - exact (IH k Ny). }
        split; apply G; assumption. }
      rewrite B' in Hu. exists no_issues. split; [exact Hu | exact silent_none].
    Qed.

    Theorem again_all a : steady a -> again a.
    Proof.
      induction a as [i|i subs cps cds IH] using attr_ind2; intros St v w R Dw.
      - inversion St as [? J E _ _|]; subst. assert (Jm : forall m, Forall judge (procs_of m i)) by (intros []; cbn [procs_of]; rewrite ?E; exact J).
        apply base_runs in R; [|apply Jm]. destruct (again_simple i v w St R Dw) as [u [H1 [H2 H3]]]. exists u. split; [exact H1|]. split; (apply base_runs; [apply Jm | assumption]).
      - assert (cds = cps) as -> by (inversion St; reflexivity). apply (process_runs _ _ _ _ _ _ St) in R. inversion St as [|? ? ? T P Dm C Cp Pl N S]; subst.
        assert (Ag : Forall again subs). { rewrite Forall_forall in IH, S |- *. intros s I. exact (IH s I (S s I)). }
        inversion R as [|? ? Mu It|xs ys Mu It L]; subst.
        + exists VNone. split; [apply re_same|]. split; apply (process_runs _ _ _ _ _ _ St); constructor.
        + destruct (again_item subs v w S Ag Pl N It Dw) as [vs [us [-> [E [I2 [I1 _]]]]]]. exists (box us). split; [apply box_restated; exact E|].
          split; apply (process_runs _ _ _ _ _ _ St); apply cr_one; assumption.
        + assert (G : exists vss uss, ys = map box vss /\ Forall2 (each (fun _ => restated)) vss uss /\ Forall2 (item_runs m2 subs) ys (map box uss) /\ Forall2 (item_runs m1 subs) (map box uss) ys /\ Forall tidy (map box vss) /\ Forall tidy (map box uss)).
          { assert (Dl : forall y, In y ys -> D y) by (intros y I; exact (D_list _ _ Dw I)). clear -It Dl S Ag Pl N D_cont. induction It as [|x y xs ys H It IHt]; [exists [], []; repeat split; constructor|].
            destruct (again_item subs x y S Ag Pl N H (Dl y (or_introl eq_refl))) as [vs [us [Ey [E [I2 [I1 [T1 T2]]]]]]]. destruct IHt as [vss [uss [Eys [F1 [F2 [F3 [F4 F5]]]]]]]; [intros y' I; apply Dl; right; exact I|].
            exists (vs :: vss), (us :: uss). cbn [map]. split; [rewrite Ey, Eys; reflexivity|]. repeat split; constructor; try assumption. }
          destruct G as [vss [uss [Ey [F1 [F2 [F3 [F4 F5]]]]]]]. assert (Op : only_primary cps) by (destruct Cp as [->|[_ ->]]; [left | right]; reflexivity).
          exists (VList (map box uss)). split; [|split; apply (process_runs _ _ _ _ _ _ St); apply cr_many; try assumption].
          * apply re_list. rewrite Ey. clear -F1. induction F1 as [|vs us vss uss E F IH]; cbn [map]; constructor; [apply box_restated; exact E | exact IH].
          * apply (primary_again cps vss uss); try assumption. rewrite <- Ey. exact L.
    Qed.
  End Two.
End Env.
