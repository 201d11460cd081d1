(** Property C81: equal patch paths (src/data/path.py 149-157). *)
From Verif Require Import PyBase BaseFacts PyNum NumSpec Issues IssuesSpec AttrRep AttrRepSpec AttrRepFacts Value Container ContainerSpec Types Attr Match MatchSpec PropAttr
  FilterParse FilterSpec FilterSame PropFilter Path PathSpec PathFacts PropPath PathEq PathEqSpec.

Lemma opt_reps a b : opt_rep_eqb a b = true <-> both same_name a b.
Proof.
  unfold both. destruct a as [x|], b as [y|]; cbn [opt_rep_eqb].
  - rewrite rep_eqb_iff. split; [intros H; right; exists x, y; split; [reflexivity|]; split; [reflexivity | exact H] | intros [[H _]|[x' [y' [E1 [E2 H]]]]]; [discriminate|]; injection E1 as <-; injection E2 as <-; exact H].
  - split; [discriminate | intros [[H _]|[x' [y' [_ [H _]]]]]; discriminate H].
  - split; [discriminate | intros [[_ H]|[x' [y' [H _]]]]; discriminate H].
  - split; [intros _; left; split; reflexivity | reflexivity].
Qed.

Lemma whole_regular p f : whole_path p -> p_filter p = Some f -> regular f.
Proof. unfold whole_path. intros H E. rewrite E in H. destruct H as [o [_ [C _]]]. exact (complete_regular _ C). Qed.

(** Comparing two parsed paths never raises, and they are equal exactly when
    they name the same attribute and sub-attribute and have the same filter. *)
Theorem C81_decides : forall s t p q iss jss, parse_path s = Ok (VPath p, iss) -> parse_path t = Ok (VPath q, jss) ->
  exists r, path_eq p q = Ok r /\ (r = true <-> same_path p q).
Proof.
  intros s t p q iss jss Hp Hq.
  assert (W : forall s p iss, parse_path s = Ok (VPath p, iss) -> whole_path p).
  { intros s' p' iss' H. pose proof (C49_result s') as R. rewrite H in R. destruct R as [[p0 [E [_ R]]]|[E _]]; [injection E as <-; exact R | discriminate E]. }
  apply W in Hp, Hq. clear W. unfold path_eq, same_path. fold (same_name (p_rep p) (p_rep q)).
  destruct (rep_eqb (p_rep p) (p_rep q)) eqn:E.
  2:{ eexists; split; [reflexivity|]. split; [discriminate|]. intros [H _]. apply rep_eqb_iff in H. congruence. }
  apply rep_eqb_iff in E. fold (same_name (p_rep p) (p_rep q)) in E.
  assert (F : exists r, match p_filter p, p_filter q with None, None => Ok true | Some a, Some b => filter_eq a b | _, _ => Ok false end = Ok r /\ (r = true <-> both same_filter (p_filter p) (p_filter q))).
  { unfold both. destruct (p_filter p) as [a|] eqn:Ea, (p_filter q) as [b|] eqn:Eb.
    - destruct (filter_eq_spec a b (whole_regular p a Hp Ea) (whole_regular q b Hq Eb)) as [r [-> H]]. exists r. split; [reflexivity|]. rewrite H. split.
      + intros X. right. exists a, b. auto.
      + intros [[X _]|[x [y [E1 [E2 X]]]]]; [discriminate|]. injection E1 as <-. injection E2 as <-. exact X.
    - exists false. split; [reflexivity|]. split; [discriminate | intros [[H _]|[x [y [_ [H _]]]]]; discriminate H].
    - exists false. split; [reflexivity|]. split; [discriminate | intros [[_ H]|[x [y [H _]]]]; discriminate H].
    - exists true. split; [reflexivity|]. split; [intros _; left; split; reflexivity | reflexivity]. }
  destruct F as [r [-> F]]. cbn [bind]. eexists. split; [reflexivity|]. rewrite andb_true_iff, F, opt_reps. tauto.
Qed.

Lemma same_name_sym a b : same_name a b -> same_name b a.
Proof. unfold same_name, same_text. intuition congruence. Qed.
Lemma both_sym {A} (R : A -> A -> Prop) : (forall x y, R x y -> R y x) -> forall a b, both R a b -> both R b a.
Proof. intros S a b [[-> ->]|[x [y [-> [-> H]]]]]; [left; auto | right; exists y, x; auto]. Qed.

(** A parsed path equals itself, also when the same text is parsed twice, and
    equality goes both ways. *)
Theorem C81_self : forall s p q iss jss, parse_path s = Ok (VPath p, iss) -> parse_path s = Ok (VPath q, jss) -> path_eq p q = Ok true.
Proof.
  intros s p q iss jss Hp Hq. assert (E : p = q) by congruence. subst q. destruct (C81_decides s s p p iss iss Hp Hp) as [r [Er H]]. rewrite Er. f_equal. apply H.
  assert (N : forall a, same_name a a) by (intros a; unfold same_name, same_text; auto).
  split; [apply N|]. split.
  - unfold both. pose proof (C49_result s) as R. rewrite Hp in R. destruct R as [[p0 [E [_ R]]]|[E _]]; [injection E as <- | discriminate E].
    destruct (p_filter p) as [f|] eqn:Ef; [|left; auto]. right. exists f, f. split; [reflexivity|]. split; [reflexivity|]. apply same_filter_refl. exact (whole_regular p f R Ef).
  - unfold both. destruct (p_sub p) as [x|]; [right; exists x, x; auto | left; auto].
Qed.
Theorem C81_both_ways : forall s t p q iss jss, parse_path s = Ok (VPath p, iss) -> parse_path t = Ok (VPath q, jss) -> path_eq p q = path_eq q p.
Proof.
  intros s t p q iss jss Hp Hq. destruct (C81_decides s t p q iss jss Hp Hq) as [r [-> H]], (C81_decides t s q p jss iss Hq Hp) as [r' [-> H']]. f_equal.
  assert (S : forall a b, same_path a b -> same_path b a) by (intros a b [H1 [H2 H3]]; split; [apply same_name_sym; exact H1 | split; [apply (both_sym _ same_filter_sym); exact H2 | apply (both_sym _ same_name_sym); exact H3]]).
  destruct r, r'; try reflexivity; [symmetry; apply H', S, H; reflexivity | apply H, S, H'; reflexivity].
Qed.

Lemma find_same l a b : same_name a b -> as_specific a b -> find_attr l a = find_attr l b.
Proof.
  intros [H1 [H2 H3]] S. unfold find_attr. induction l as [|x l IH]; cbn [find]; [reflexivity|].
  assert (E : rep_eqb (arep x) a = rep_eqb (arep x) b).
  { apply eq_true_iff_eq. rewrite !rep_eqb_iff. unfold same_text, as_specific in *. destruct H1 as [H1|[H1|H1]]; [pose proof (proj1 S H1) as H1' | pose proof (proj2 S H1) as H1'|]; intuition congruence. }
  rewrite E. destruct (rep_eqb (arep x) b); [reflexivity | exact IH].
Qed.

Lemma same_filter_name a b : same_filter a b -> oper_rep a = oper_rep b.
Proof. intros H. inversion H; reflexivity. Qed.

(** Equal paths whose names both have a schema, or both have none, find the same
    attribute in every list of attributes, and their filters select alike.

    Full claim: this for all equal paths; it fails for names with and without
    schema, C81_schema_refuted. *)
Theorem C81_meaning_partial : forall s t p q iss jss, parse_path s = Ok (VPath p, iss) -> parse_path t = Ok (VPath q, jss) ->
  path_eq p q = Ok true -> paths_as_specific p q ->
  (forall l, get_by_path l p = get_by_path l q)
  /\ forall (env : PyEnv) a b data l strict, p_filter p = Some a -> p_filter q = Some b -> filter_apply a data l strict = filter_apply b data l strict.
Proof.
  intros s t p q iss jss Hp Hq H [S1 S2]. destruct (C81_decides s t p q iss jss Hp Hq) as [r [Er D]]. rewrite H in Er. injection Er as <-. destruct (proj1 D eq_refl) as [N [F U]]. split.
  - intros l. unfold get_by_path.
    assert (B : match p_filter p with None => Ok false | Some o => match oper_rep o with None => Raise AttributeErr | Some r => Ok (match find_attr l r with None => true | Some _ => false end) end end
              = match p_filter q with None => Ok false | Some o => match oper_rep o with None => Raise AttributeErr | Some r => Ok (match find_attr l r with None => true | Some _ => false end) end end).
    { destruct F as [[-> ->]|[x [y [-> [-> F]]]]]; [reflexivity|]. rewrite (same_filter_name _ _ F). reflexivity. }
    rewrite B. rewrite (find_same l _ _ N S1). destruct U as [[-> ->]|[x [y [Ex [Ey U]]]]]; [reflexivity|]. rewrite Ex, Ey. rewrite (find_same l x y U (S2 x y Ex Ey)). reflexivity.
  - intros env a b data l strict Ea Eb. destruct F as [[X _]|[x [y [Ex [Ey F]]]]]; [congruence|]. rewrite Ex in Ea. rewrite Ey in Eb. injection Ea as ->. injection Eb as ->. apply same_apply. exact F.
Qed.

(** ** Cases *)

Example ex_C81 : exists p q iss jss, parse_path ($"emails[type eq 1].value") = Ok (VPath p, iss) /\ parse_path ($"emails[type eq 1.0].VALUE") = Ok (VPath q, jss)
  /\ path_eq p q = Ok true /\ p <> q /\ paths_as_specific p q.
Proof.
  eexists; eexists; eexists; eexists. split; [vm_compute; reflexivity|]. split; [vm_compute; reflexivity|]. split; [vm_compute; reflexivity|]. split; [discriminate|].
  split; [split; reflexivity|]. intros s t Es Et. injection Es as <-. injection Et as <-. split; reflexivity.
Qed.
Example ex_C81_different : exists p q iss jss, parse_path ($"emails[type eq 1].value") = Ok (VPath p, iss) /\ parse_path ($"emails[type eq 2].value") = Ok (VPath q, jss) /\ path_eq p q = Ok false.
Proof. eexists; eexists; eexists; eexists. split; [vm_compute; reflexivity|]. split; [vm_compute; reflexivity|]. vm_compute; reflexivity. Qed.

(** A path without schema equals one with a schema, and finds another attribute
    in a list where a namesake comes first. *)
Theorem C81_schema_refuted : exists p q iss jss l,
  parse_path ($"note") = Ok (VPath p, iss) /\ parse_path ($"urn:e:note") = Ok (VPath q, jss) /\ path_eq p q = Ok true /\ get_by_path l p <> get_by_path l q.
Proof.
  eexists; eexists; eexists; eexists. exists [mk_simple (with_rep (mkRep ($"urn:c") ($"note") [] false) (plain [] TString)); mk_simple (with_rep (mkRep ($"urn:e") ($"note") [] false) (plain [] TInteger))].
  split; [vm_compute; reflexivity|]. split; [vm_compute; reflexivity|]. split; [vm_compute; reflexivity|]. vm_compute. discriminate.
Qed.

Print Assumptions C81_decides.
Print Assumptions C81_self.
Print Assumptions C81_both_ways.
Print Assumptions C81_meaning_partial.
Print Assumptions C81_schema_refuted.
