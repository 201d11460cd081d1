(** Lemmas about presence checks. *)
From Verif Require Import PyBase BaseFacts PyNum Issues IssuesSpec IssuesFacts AttrRep AttrRepSpec AttrRepFacts Value
  Container ContainerSpec ContainerFacts ContainerRW Types Attr Schema Presence AttrSpec AttrFacts SchemaSpec SchemaFacts SchemaBuild PresenceSpec.

Lemma same_rep_iff a b : rep_eqb a b = true <-> same_rep a b.
Proof. apply rep_eqb_iff. Qed.
Lemma same_schema_sym a b : same_schema a b -> same_schema b a.
Proof. unfold same_schema, same_text. intuition. Qed.
Lemma same_rep_sym a b : same_rep a b -> same_rep b a.
Proof. unfold same_rep, same_text. intros [H1 [H2 H3]]. apply same_schema_sym in H1. auto. Qed.

Lemma rep_in_iff r l : rep_in r l = true <-> listed_rep l r.
Proof.
  unfold rep_in, listed_rep. rewrite existsb_exists. split; intros [x [H1 H2]]; exists x; split; try assumption; apply same_rep_iff; exact H2.
Qed.

(** "schema:attr" texts are equal iff their parts are. *)
Lemma colon_split (s a s' a' : str) :
  forallb (fun c => negb (chr_eqb c colon)) a = true -> forallb (fun c => negb (chr_eqb c colon)) a' = true ->
  s ++ colon :: a = s' ++ colon :: a' -> s = s' /\ a = a'.
Proof.
  intros Ha Ha' E. apply (f_equal (@rev ascii)) in E. rewrite !rev_app_distr in E. cbn [rev] in E. rewrite <- !app_assoc in E. cbn [app] in E.
  assert (S1 : span (fun c => negb (chr_eqb c colon)) (rev a ++ colon :: rev s) = (rev a, colon :: rev s)).
  { apply span_app; [rewrite forallb_rev; exact Ha | rewrite chr_eqb_refl; reflexivity]. }
  assert (S2 : span (fun c => negb (chr_eqb c colon)) (rev a' ++ colon :: rev s') = (rev a', colon :: rev s')).
  { apply span_app; [rewrite forallb_rev; exact Ha' | rewrite chr_eqb_refl; reflexivity]. }
  rewrite E, S2 in S1. injection S1 as E1 E2. split; apply (f_equal (@rev ascii)) in E1, E2; rewrite !rev_involutive in *; congruence.
Qed.

Lemma lower_no_colon a : forallb (fun c => negb (chr_eqb c colon)) a = true -> forallb (fun c => negb (chr_eqb c colon)) (lower a) = true.
Proof.
  unfold lower. induction a as [|c t IH]; cbn [map forallb]; [reflexivity|]. intros H. apply andb_true_iff in H as [H1 H2]. rewrite (IH H2), andb_true_r.
  revert c H1. apply implb_chars. vm_compute. reflexivity.
Qed.
Lemma proper_no_colon r : proper r -> forallb (fun c => negb (chr_eqb c colon)) (lower (r_attr r)) = true.
Proof. intros H. apply lower_no_colon, name_no_colon. apply attr_name_ok_spec. exact H. Qed.

Lemma top_level_iff a b : proper a -> proper b ->
  (top_level_equals a b = true <-> same_schema a b /\ same_text (r_attr a) (r_attr b)).
Proof.
  intros Ha Hb. unfold top_level_equals, same_schema, attr_with_schema. destruct (r_schema a) as [|c s] eqn:Ea; cbn [nonempty andb].
  { rewrite str_eqb_eq. unfold same_text. tauto. }
  destruct (r_schema b) as [|c' s'] eqn:Eb; cbn [nonempty andb].
  { rewrite str_eqb_eq. unfold same_text. tauto. }
  rewrite str_eqb_eq. rewrite <- Ea, <- Eb. unfold same_text.
  assert (Hne : r_schema a <> [] /\ r_schema b <> []) by (rewrite Ea, Eb; split; discriminate). clear Ea Eb.
  unfold lower at 1 2. rewrite !map_app. cbn [map]. fold (lower (r_schema a)). fold (lower (r_schema b)). fold (lower (r_attr a)). fold (lower (r_attr b)).
  change (lower_chr colon) with colon. split.
  - intros E. apply colon_split in E as [E1 E2]; [|apply proper_no_colon; assumption|apply proper_no_colon; assumption]. auto.
  - intros [[H|[H|E]] E2]; try rewrite E, E2; [destruct Hne; contradiction | destruct Hne; contradiction | reflexivity].
Qed.

Lemma related_iff r l : proper r -> Forall proper l -> (related_in r l = true <-> exists x, In x l /\ kin r x).
Proof.
  intros Hr Hl. rewrite Forall_forall in Hl. unfold related_in, kin. rewrite existsb_exists. split; intros [x [Hx H]]; exists x; (split; [exact Hx|]).
  - apply orb_true_iff in H as [H|H].
    + apply andb_true_iff in H as [H1 H2]. apply (top_level_iff r x Hr (Hl x Hx)) in H2 as [H2 H3]. split; [exact H2|]. split; [exact H3|].
      left. destruct (r_sub r); [reflexivity | discriminate].
    + apply andb_true_iff in H as [H1 H2]. apply andb_true_iff in H1 as [_ H1]. apply (top_level_iff r x Hr (Hl x Hx)) in H2 as [H2 H3].
      split; [exact H2|]. split; [exact H3|]. right. destruct (r_sub x); [reflexivity | discriminate].
  - destruct H as [H1 [H2 H3]]. assert (T : top_level_equals r x = true) by (apply top_level_iff; auto). rewrite T, !andb_true_r.
    destruct (r_sub r); [reflexivity|]. destruct H3 as [H3|H3]; [discriminate|]. rewrite H3. reflexivity.
Qed.

(** ** One check *)

Lemma is_blank_iff v : is_blank v = true <-> empty_value v.
Proof.
  unfold empty_value. split.
  - destruct v; cbn [is_blank]; try discriminate; auto; match goal with x : list _ |- _ => destruct x; [auto|discriminate] | x : str |- _ => destruct x; [auto|discriminate] end.
  - intros [->|[->|[->| ->]]]; reflexivity.
Qed.

Lemma include_is_iff c b : include_is c b = true <-> ck_include c = Some b.
Proof.
  unfold include_is. destruct (ck_include c) as [x|]; [|split; discriminate]. destruct x, b; cbn; split; intros H; congruence.
Qed.

Lemma withheld_iff c a : proper (arep a) -> Forall proper (ck_reps c) ->
  (match a_ret (info a) with
   | RetNever => true
   | RetAlways => false
   | _ => (rep_in (arep a) (ck_reps c) && include_is c false)
          || (negb (rep_in (arep a) (ck_reps c)) && negb (related_in (arep a) (ck_reps c)) && include_is c true)
   end = true <-> withheld c a).
Proof.
  intros Ha Hc. unfold withheld.
  assert (D : ((rep_in (arep a) (ck_reps c) && include_is c false)
      || (negb (rep_in (arep a) (ck_reps c)) && negb (related_in (arep a) (ck_reps c)) && include_is c true)) = true <->
      match ck_include c with
      | Some true => ~ listed_rep (ck_reps c) (arep a) /\ (~ exists x, In x (ck_reps c) /\ kin (arep a) x)
      | Some false => listed_rep (ck_reps c) (arep a)
      | None => False end).
  { rewrite orb_true_iff, !andb_true_iff, !negb_true_iff, !include_is_iff.
    pose proof (rep_in_iff (arep a) (ck_reps c)) as R1. pose proof (related_iff _ _ Ha Hc) as R2.
    destruct (ck_include c) as [[|]|].
    - rewrite <- !not_true_iff_false, R1, R2. split; [intros [[_ G]|[H _]]; [discriminate | exact H] | intros H; right; split; [exact H | reflexivity]].
    - rewrite R1. split; [intros [[H _]|[_ G]]; [exact H | discriminate] | intros H; left; split; [exact H | reflexivity]].
    - split; [intros [[_ G]|[_ G]]; discriminate | intros []]. }
  destruct (a_ret (info a)); first [exact D | split; [discriminate | intros []] | split; auto].
Qed.

Lemma needed_iff c d a :
  (a_required (info a) && negb (rep_in (arep a) (ck_ignore c))
   && (negb (include_is c true) || (rep_in (arep a) (ck_reps c) && include_is c true)
       || (is_response d && match a_ret (info a) with RetAlways => true | _ => false end)) = true <-> needed c d a).
Proof.
  unfold needed. rewrite !andb_true_iff, !orb_true_iff, !negb_true_iff, andb_true_iff. rewrite <- !rep_in_iff, include_is_iff.
  rewrite <- (not_true_iff_false (rep_in (arep a) (ck_ignore c))), <- (not_true_iff_false (include_is c true)), include_is_iff.
  assert (R : is_response d && match a_ret (info a) with RetAlways => true | _ => false end = true <-> d = Response /\ a_ret (info a) = RetAlways).
  { rewrite andb_true_iff. destruct d, (a_ret (info a)); cbn; intuition discriminate. }
  rewrite R. destruct (ck_include c) as [[|]|]; intuition (try congruence).
Qed.

Definition complaint (c : checker) (d : direction) (a : attribute) (v : value) (e : error) : Prop :=
  (e = e_not_requested /\ d = Response /\ ~ empty_value v /\ withheld c a)
  \/ (e = e_missing /\ empty_value v /\ needed c d a).

Lemma check_presence_report c v d i r : report (check_presence c v d i r).
Proof.
  unfold check_presence. destruct (negb (is_blank v)).
  - destruct (negb (is_response d)); [constructor|]. destruct (a_ret i); try constructor; try (constructor; fail); destruct (_ || _); repeat constructor.
  - destruct (_ && _ && _); repeat constructor.
Qed.
Lemma check_presence_iff c v d a l e : proper (arep a) -> Forall proper (ck_reps c) ->
  (In e (errs_at (check_presence c v d (info a) (arep a)) l) <-> l = [] /\ complaint c d a v e).
Proof.
  intros Ha Hc. unfold check_presence, complaint.
  assert (One : forall e0 p, In e (errs_at (add_issue no_issues e0 p []) l) <-> l = [] /\ e = e0).
  { intros e0 p. rewrite errs_at_add. destruct (loc_dec [] l) as [<-|Hne].
    - cbn. intuition.
    - cbn. intuition congruence. }
  assert (Zero : In e (errs_at no_issues l) <-> False) by (cbn; tauto).
  rewrite <- is_blank_iff. pose proof (withheld_iff c a Ha Hc) as W. pose proof (needed_iff c d a) as Nd.
  destruct (is_blank v); cbn [negb].
  - match type of Nd with ?b = true <-> _ => destruct b end.
    + rewrite One. assert (needed c d a) by (apply Nd; reflexivity). intuition discriminate.
    + rewrite Zero. assert (~ needed c d a) by (intros G; apply Nd in G; discriminate). intuition discriminate.
  - destruct d; cbn [is_response negb].
    + rewrite Zero. intuition discriminate.
    + destruct (a_ret (info a)); match type of W with true = true <-> _ => idtac | false = true <-> _ => idtac | ?b = true <-> _ => destruct b end;
        first [rewrite One; assert (withheld c a) by (apply W; reflexivity) | rewrite Zero; assert (~ withheld c a) by (intros G; apply W in G; discriminate)];
        intuition discriminate.
Qed.

Lemma merge_check iss c v d a p l e : report iss -> proper (arep a) -> Forall proper (ck_reps c) ->
  (In e (errs_at (merge iss (check_presence c v d (info a) (arep a)) p) l)
   <-> In e (errs_at iss l) \/ (l = p /\ complaint c d a v e)).
Proof.
  intros Hi Ha Hc. rewrite errs_merge by (assumption || apply check_presence_report). rewrite in_app_iff.
  destruct (loc_strip p l) as [l'|] eqn:E.
  - apply loc_strip_spec in E as ->. rewrite check_presence_iff by assumption. split; intros [H|[H1 H2]]; auto.
    + subst l'. rewrite app_nil_r. auto.
    + right. split; [|exact H2]. rewrite <- (app_nil_r p) in H1 at 2. apply app_inv_head in H1. exact H1.
  - rewrite loc_strip_none in E. split; [intros [H|[]]; auto|]. intros [H|[-> _]]; [auto|]. exfalso. apply (E []). rewrite app_nil_r. reflexivity.
Qed.

(** ** Items of a multi-valued attribute *)

Lemma check_items_inv c d a : proper (arep a) -> Forall proper (ck_reps c) -> forall l k iss iss', report iss ->
  check_items c d a k l iss = Ok iss' ->
  report iss' /\ forall p e, In e (errs_at iss' p) <-> In e (errs_at iss p)
    \/ exists j x v, nth_error l j = Some x /\ get_item x (mkRep [] (r_sub (arep a)) [] false) = Ok v /\ v <> VInvalid
                     /\ p = [LStr (r_attr (arep a)); LIdx (k + j); LStr (r_sub (arep a))] /\ complaint c d a v e.
Proof.
  intros Ha Hc. induction l as [|x t IH]; intros k iss iss' Hi H; cbn [check_items] in H.
  { injection H as <-. split; [exact Hi|]. intros p e. split; [auto|]. intros [G|[j [x [v [G _]]]]]; [exact G|]. destruct j; discriminate. }
  apply bind_ok in H as [rs [Hr H]]. apply mk_rep_iff in Hr as [_ [_ ->]]. apply bind_ok in H as [v [Hv H]].
  destruct (is_invalid v) eqn:Ev.
  - apply IH in H as [H1 H2]; [|exact Hi]. split; [exact H1|]. intros p e. rewrite H2. split; (intros [G|[j [y [w [G1 [G2 [G3 [G4 G5]]]]]]]]; [auto|right]).
    + exists (S j), y, w. rewrite Nat.add_succ_r. cbn [nth_error]. auto.
    + destruct j as [|j]; cbn [nth_error] in G1.
      * injection G1 as <-. assert (v = w) by congruence. subst w. destruct v; try discriminate. contradiction.
      * exists j, y, w. rewrite Nat.add_succ_r in G4. auto.
  - assert (Hv' : v <> VInvalid) by (intros ->; discriminate).
    apply IH in H as [H1 H2]; [|constructor; [exact Hi | apply check_presence_report]]. split; [exact H1|]. intros p e.
    rewrite H2, merge_check by assumption. split.
    + intros [[G|[G1 G2]]|[j [y [w [G1 [G2 [G3 [G4 G5]]]]]]]]; [auto|right|right].
      * exists 0, x, v. rewrite Nat.add_0_r. cbn [nth_error]. auto.
      * exists (S j), y, w. rewrite Nat.add_succ_r. cbn [nth_error]. auto.
    + intros [G|[j [y [w [G1 [G2 [G3 [G4 G5]]]]]]]]; [auto|]. destruct j as [|j]; cbn [nth_error] in G1.
      * injection G1 as <-. assert (v = w) by congruence. subst w. left. right. rewrite Nat.add_0_r in G4. auto.
      * right. exists j, y, w. rewrite Nat.add_succ_r in G4. auto.
Qed.

(** Only lists have items that can be looked into. *)
Lemma items_of_list c d a v l iss iss' k : iter_value v = Ok l -> check_items c d a k l iss = Ok iss' -> l = [] \/ v = VList l.
Proof.
  intros H H2. destruct l as [|x t]; [auto|]. right.
  assert (Hx : exists w, get_item x (mkRep [] (r_sub (arep a)) [] false) = Ok w).
  { cbn [check_items] in H2. apply bind_ok in H2 as [rs [Hr H2]]. apply mk_rep_iff in Hr as [_ [_ ->]]. apply bind_ok in H2 as [w [Hw _]]. eauto. }
  destruct Hx as [w Hx]. destruct v; try discriminate; unfold iter_value in H.
  - exfalso. injection H as H. destruct s; [discriminate|]. injection H as <- _. discriminate.
  - injection H as ->. reflexivity.
  - exfalso. injection H as H. match goal with d0 : list (dkey * value) |- _ => destruct d0 as [|q d1]; [discriminate|] end. injection H as <- _. destruct (fst q); discriminate.
Qed.

(** ** The whole check *)

(** In an assembled schema the attribute found under a top-level name is the parent. *)
Lemma schema_nonempty s a : assembled s -> In a (at_all (sc_attrs s)) -> r_schema (arep a) <> [].
Proof.
  intros [W [_ [_ F]]] Ha E. rewrite Forall_forall in F. specialize (F a Ha). destruct (ws_uris _ W) as [_ U]. apply U. unfold sc_schemas.
  rewrite E in F. destruct (r_ext (arep a)); [right; exact F | left; congruence].
Qed.
Lemma parent_find s a t : assembled s -> In a (at_all (sc_attrs s)) ->
  find_attr (at_all (sc_attrs s)) (top_name (arep a)) = Some t -> In t (at_all (sc_attrs s)) /\ parent_of t a.
Proof.
  intros Hs Ha H. apply find_some in H as [H1 H2]. split; [exact H1|]. apply rep_eqb_iff in H2 as [E1 [E2 E3]]. cbn [top_name r_schema r_attr r_sub] in *.
  split; [apply (proj1 (lower_nil _)); exact E3|]. split; [|exact E2].
  destruct E1 as [E1|[E1|E1]]; [exfalso; exact (schema_nonempty s t Hs H1 E1) | exfalso; exact (schema_nonempty s a Hs Ha E1) | exact E1].
Qed.
Lemma parent_unique s a t t' : assembled s -> In t (at_all (sc_attrs s)) -> In t' (at_all (sc_attrs s)) -> parent_of t a -> parent_of t' a -> t = t'.
Proof.
  intros [W [_ [E _]]] H1 H2 [P1 [P2 P3]] [Q1 [Q2 Q3]]. pose proof (ws_distinct _ W) as D. rewrite E in D.
  apply (NoDup_map_eq _ _ _ _ D).
  - apply filter_In. unfold no_sub. rewrite P1. auto.
  - apply filter_In. unfold no_sub. rewrite Q1. auto.
  - unfold same_text in *. congruence.
Qed.

Lemma check_attr_inv s c data d iss a iss' : assembled s -> In a (at_all (sc_attrs s)) -> Forall proper (ck_reps c) -> report iss ->
  check_attr c data (at_all (sc_attrs s)) d iss a = Ok iss' ->
  report iss' /\ forall p e, In e (errs_at iss' p) <-> In e (errs_at iss p) \/ exists v, found (at_all (sc_attrs s)) data a v p /\ complaint c d a v e.
Proof.
  intros Hs Hin Hc Hi H. unfold check_attr in H. apply bind_ok in H as [tr [Htr H]]. apply mk_rep_iff in Htr as [Hok [_ ->]].
  fold (top_name (arep a)) in H. assert (Ha : proper (arep a)) by (apply attr_name_ok_spec; exact Hok).
  apply bind_ok in H as [pi [Hpi H]].
  assert (Pi : (r_sub (arep a) = [] /\ pi = false) \/ (r_sub (arep a) <> [] /\ exists t, In t (at_all (sc_attrs s)) /\ parent_of t a /\ a_multi (info t) = pi)).
  { destruct (r_sub (arep a)) as [|ch sub]; cbn [nonempty] in Hpi; [injection Hpi as <-; auto|]. right. split; [discriminate|].
    destruct (find_attr _ _) as [t|] eqn:Ef; [|discriminate]. injection Hpi as <-. exists t. apply parent_find in Ef; try assumption. tauto. }
  clear Hpi. destruct pi.
  - destruct Pi as [[_ Pi]|[Hsub [t [Ht [Hp Hm]]]]]; [discriminate|]. apply bind_ok in H as [v [Hv H]].
    assert (Only : forall w p, found (at_all (sc_attrs s)) data a w p ->
       (v = VNone /\ w = VNone /\ p = [LStr (r_attr (arep a)); LStr (r_sub (arep a))])
       \/ exists items k x, v = VList items /\ nth_error items k = Some x /\ get_item x (mkRep [] (r_sub (arep a)) [] false) = Ok w /\ w <> VInvalid
          /\ p = [LStr (r_attr (arep a)); LIdx k; LStr (r_sub (arep a))]).
    { intros w p F. destruct F as [w G1 G2 G3|t' w G1 G2 G3 G4 G5 G6|t' G1 G2 G3 G4 G5|t' items k x w G1 G2 G3 G4 G5 G6 G7 G8].
      - contradiction.
      - rewrite (parent_unique s a t' t Hs G2 Ht G3 Hp) in G4. congruence.
      - left. split; [congruence | auto].
      - right. exists items, k, x. split; [congruence | auto]. }
    assert (None_ : (forall items, v <> VList items) -> v <> VNone -> iss' = iss ->
      report iss' /\ forall p e, In e (errs_at iss' p) <-> In e (errs_at iss p) \/ exists v, found (at_all (sc_attrs s)) data a v p /\ complaint c d a v e).
    { intros N1 N2 ->. split; [exact Hi|]. intros p e. split; [auto|]. intros [G|[w [F _]]]; [exact G|].
      apply Only in F as [[F _]|[items [k [x [F _]]]]]; [contradiction | exfalso; exact (N1 _ F)]. }
    assert (Iter : v <> VNone -> (let! l := iter_value v in check_items c d a 0 l iss) = Ok iss' ->
      report iss' /\ forall p e, In e (errs_at iss' p) <-> In e (errs_at iss p) \/ exists v, found (at_all (sc_attrs s)) data a v p /\ complaint c d a v e).
    { intros N2 H'. apply bind_ok in H' as [l [Hl H']]. destruct (items_of_list _ _ _ _ _ _ _ _ Hl H') as [->|E].
      - cbn [check_items] in H'. injection H' as <-. split; [exact Hi|]. intros p e. split; [auto|]. intros [G|[w [F _]]]; [exact G|].
        apply Only in F as [[F _]|[items [k [x [F [F2 _]]]]]]; [contradiction|]. rewrite F in Hl. cbn [iter_value] in Hl. injection Hl as ->.
        destruct k; discriminate.
      - pose proof (check_items_inv c d a Ha Hc _ _ _ _ Hi H') as [R1 R2]. split; [exact R1|]. intros p e. rewrite R2. cbn [Nat.add].
        split; (intros [G|G]; [auto|right]).
        + destruct G as [j [x [w [G1 [G2 [G3 [-> G5]]]]]]]. exists w. split; [|exact G5]. rewrite E in Hv. eapply found_item; eassumption.
        + destruct G as [w [F G]]. apply Only in F as [[F _]|[items [k [x [F [F2 [F3 [F4 F5]]]]]]]]; [congruence|].
          exists k, x, w. assert (items = l) by congruence. subst items. auto. }
    destruct v; try (apply Iter; [discriminate | exact H]); try (injection H as H; apply None_; [intros; discriminate | discriminate | congruence]).
    injection H as <-. split; [constructor; [exact Hi | apply check_presence_report]|]. intros p e. rewrite merge_check by assumption.
    assert (El : presence_loc (arep a) = [LStr (r_attr (arep a)); LStr (r_sub (arep a))]).
    { unfold presence_loc. destruct (r_sub (arep a)); [contradiction | reflexivity]. }
    rewrite El. split; (intros [G|G]; [auto|right]).
    + destruct G as [-> G]. exists VNone. split; [|exact G]. eapply found_null; eassumption.
    + destruct G as [w [F G]]. apply Only in F as [[_ [-> F]]|[items [k [x [F _]]]]]; [auto | discriminate].
  - apply bind_ok in H as [v [Hv H]].
    assert (Only : forall w p, found (at_all (sc_attrs s)) data a w p -> w = v /\ w <> VInvalid /\ p = presence_loc (arep a)).
    { assert (NP : forall t', In t' (at_all (sc_attrs s)) -> parent_of t' a -> r_sub (arep a) <> [] -> a_multi (info t') = true -> False).
      { intros t' T1 T2 T3 T4. destruct Pi as [[Pi _]|[_ [t [Ht [Hp Hm]]]]]; [contradiction|].
        rewrite (parent_unique s a t' t Hs T1 Ht T2 Hp) in T4. congruence. }
      intros w p F. unfold presence_loc. destruct F as [w G1 G2 G3|t' w G1 G2 G3 G4 G5 G6|t' G1 G2 G3 G4 G5|t' items k x w G1 G2 G3 G4 G5 G6 G7 G8].
      - rewrite G1. split; [congruence | auto].
      - split; [congruence|]. split; [exact G6|]. destruct (r_sub (arep a)); [contradiction | reflexivity].
      - exfalso. exact (NP t' G2 G3 G1 G4).
      - exfalso. exact (NP t' G2 G3 G1 G4). }
    destruct (is_invalid v) eqn:Ev.
    + injection H as <-. split; [exact Hi|]. intros p e. split; [auto|]. intros [G|[w [F _]]]; [exact G|]. apply Only in F as [-> [F _]].
      destruct v; try discriminate. contradiction.
    + injection H as <-. split; [constructor; [exact Hi | apply check_presence_report]|]. intros p e. rewrite merge_check by assumption.
      assert (Hv' : v <> VInvalid) by (intros ->; discriminate).
      split; (intros [G|G]; [auto|right]).
      * destruct G as [-> G]. exists v. split; [|exact G]. unfold presence_loc. destruct (r_sub (arep a)) as [|ch sub] eqn:Es.
        -- apply found_top; assumption.
        -- rewrite <- Es. destruct Pi as [[Pi _]|[Hsub [t [Ht [Hp Hm]]]]]; [discriminate|]. eapply found_sub; try eassumption. rewrite Es. discriminate.
      * destruct G as [w [F G]]. apply Only in F as [-> [_ ->]]. auto.
Qed.

Lemma presence_inv s c data d iss : assembled s -> Forall proper (ck_reps c) ->
  presence c data (at_all (sc_attrs s)) d = Ok iss ->
  report iss /\ forall p e, In e (errs_at iss p) <-> exists a v, In a (at_all (sc_attrs s)) /\ found (at_all (sc_attrs s)) data a v p /\ complaint c d a v e.
Proof.
  intros Hs Hc. unfold presence.
  assert (G : forall l i0, report i0 -> (forall a, In a l -> In a (at_all (sc_attrs s))) -> foldM (check_attr c data (at_all (sc_attrs s)) d) l i0 = Ok iss ->
     report iss /\ forall p e, In e (errs_at iss p) <-> In e (errs_at i0 p) \/ exists a v, In a l /\ found (at_all (sc_attrs s)) data a v p /\ complaint c d a v e).
  { induction l as [|a t IH]; intros i0 Hi Hl H; cbn [foldM] in H.
    - injection H as <-. split; [exact Hi|]. intros p e. split; [auto|]. intros [G|[a [v [[] _]]]]. exact G.
    - apply bind_ok in H as [i1 [H1 H]]. apply (check_attr_inv s) in H1 as [R1 R2]; try assumption; [|apply Hl; left; reflexivity].
      apply IH in H as [R3 R4]; [|exact R1|intros; apply Hl; right; assumption]. split; [exact R3|]. intros p e. rewrite R4, R2. split.
      + intros [[G|[v G]]|[a' [v [G1 G2]]]]; [auto|right|right].
        * exists a, v. split; [left; reflexivity | exact G].
        * exists a', v. split; [right; exact G1 | exact G2].
      + intros [G|[a' [v [[->|G1] G2]]]]; [auto|left; right; exists v; exact G2|right; exists a', v; auto]. }
  intros H. apply G in H as [R1 R2]; [|constructor|auto]. split; [exact R1|]. intros p e. rewrite R2. split; [intros [[]|G2]; exact G2 | auto].
Qed.
