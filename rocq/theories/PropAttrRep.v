(** C07-C09: attribute names (src/data/container.py 1-91). *)
From Verif Require Import PyBase BaseFacts AttrRep AttrRepSpec AttrRepFacts.

(** ** C07 *)

Theorem C07_parse_exact : forall s r,
  parse_rep s = Some r <->
  exists segs, names_attr s segs (r_attr r) (r_sub r) /\ r_schema r = joined segs /\ r_ext r = false.
Proof. exact parse_rep_iff. Qed.
Print Assumptions C07_parse_exact.

Theorem C07_parse_accepts : forall s,
  parse_rep s <> None <-> exists segs attr sub, names_attr s segs attr sub.
Proof.
  intros s. split.
  - destruct (parse_rep s) as [r|] eqn:E; [|contradiction]. intros _.
    apply parse_rep_iff in E as [segs [H _]]. exists segs, (r_attr r), (r_sub r). exact H.
  - intros [segs [attr [sub H]]].
    assert (E : parse_rep s = Some (mkRep (joined segs) attr sub false))
      by (apply parse_rep_iff; exists segs; repeat split; apply H).
    rewrite E; discriminate.
Qed.
Print Assumptions C07_parse_accepts.

Theorem C07_split_unique : forall s segs attr sub segs' attr' sub',
  names_attr s segs attr sub -> names_attr s segs' attr' sub' ->
  joined segs = joined segs' /\ attr = attr' /\ sub = sub'.
Proof.
  intros s segs attr sub segs' attr' sub' H H'.
  apply match_attr_rep_complete in H. apply match_attr_rep_complete in H'. rewrite H in H'.
  injection H' as -> -> ->. repeat split.
Qed.
Print Assumptions C07_split_unique.

(** The constructor only checks the attribute name and, for extension
    attributes, that a schema is given. *)
Theorem C07_constructor : forall schema attr sub ext r,
  mk_rep schema attr sub ext = Ok r <->
  (word attr \/ attr = $"$ref") /\ (ext = true -> schema <> []) /\ r = mkRep schema attr sub ext.
Proof. intros. rewrite mk_rep_iff, attr_name_ok_spec. reflexivity. Qed.
Print Assumptions C07_constructor.

Example C07_example :
  parse_rep ($"urn:ietf:params:scim:schemas:core:2.0:User:name.givenName")
  = Some (mkRep ($"urn:ietf:params:scim:schemas:core:2.0:User") ($"name") ($"givenName") false)
  /\ parse_rep ($"members.$ref") = None /\ parse_rep ($"a:b:") = None /\ parse_rep ($"a..b") = None.
Proof. vm_compute. repeat split; reflexivity. Qed.
Example C07_example_names :
  names_attr ($"a:b-1.0:name.sub") [$"a"; $"b-1.0"] ($"name") ($"sub").
Proof.
  split; [|split; [|split]].
  - repeat constructor; apply segment_spec; vm_compute; split; (discriminate || reflexivity).
  - left; split; [discriminate | repeat constructor].
  - right; split; [discriminate | repeat constructor].
  - reflexivity.
Qed.

(** ** C08 *)

Theorem C08_parse_then_print : forall s r, parse_rep s = Some r -> rep_repr r = s.
Proof. exact parse_rep_repr. Qed.
Print Assumptions C08_parse_then_print.

Theorem C08_print_then_parse : forall r segs,
  Forall segment segs -> r_schema r = joined segs ->
  (word (r_attr r) \/ r_attr r = $"$ref") -> (r_sub r = [] \/ word (r_sub r)) ->
  parse_rep (rep_repr r) = Some (mkRep (r_schema r) (r_attr r) (r_sub r) false).
Proof.
  intros r segs Hs Hj Ha Hb. apply parse_rep_iff. exists segs.
  split; [|split; [exact Hj | reflexivity]]. cbn [r_attr r_sub].
  set (s := terminated segs ++ r_attr r ++ match r_sub r with [] => [] | _ => "."%char :: r_sub r end).
  assert (H : names_attr s segs (r_attr r) (r_sub r)) by (repeat split; assumption).
  rewrite (rep_repr_names s segs r H Hj). exact H.
Qed.
Print Assumptions C08_print_then_parse.

(** A representation with an unchecked sub-attribute can be built but its text
    is not accepted. *)
Theorem C08_constructor_round_trip_refuted :
  exists r, mk_rep [] ($"members") ($"$ref") false = Ok r /\ parse_rep (rep_repr r) = None.
Proof. eexists. split; [vm_compute; reflexivity | vm_compute; reflexivity]. Qed.
Print Assumptions C08_constructor_round_trip_refuted.

Example C08_example :
  exists r, parse_rep ($"urn:x:2.0:User:emails.value") = Some r /\ rep_repr r = $"urn:x:2.0:User:emails.value".
Proof. eexists. split; vm_compute; reflexivity. Qed.

(** ** C09 *)

Theorem C09_equality_exact : forall a b,
  rep_eqb a b = true <->
  (r_schema a = [] \/ r_schema b = [] \/ same_text (r_schema a) (r_schema b))
  /\ same_text (r_attr a) (r_attr b) /\ same_text (r_sub a) (r_sub b).
Proof. exact rep_eqb_iff. Qed.
Print Assumptions C09_equality_exact.

Theorem C09_equality_refl : forall a, rep_eqb a a = true.
Proof. intros a. apply rep_eqb_iff. unfold same_text. auto. Qed.
Print Assumptions C09_equality_refl.

Theorem C09_equality_sym : forall a b, rep_eqb a b = rep_eqb b a.
Proof.
  intros a b. apply eq_true_iff_eq. rewrite !rep_eqb_iff. unfold same_text. intuition congruence.
Qed.
Print Assumptions C09_equality_sym.

(** Letter case is ignored on both sides. *)
Theorem C09_equality_case : forall a b,
  rep_eqb (mkRep (lower (r_schema a)) (lower (r_attr a)) (lower (r_sub a)) (r_ext a)) b = rep_eqb a b.
Proof.
  intros a b. apply eq_true_iff_eq. rewrite !rep_eqb_iff. cbn [r_schema r_attr r_sub]. unfold same_text.
  rewrite !lower_idem, lower_nil. reflexivity.
Qed.
Print Assumptions C09_equality_case.

(** Not transitive: a name without schema equals the same name of any schema. *)
Theorem C09_equality_trans_refuted : exists a b c,
  rep_eqb a b = true /\ rep_eqb b c = true /\ rep_eqb a c = false.
Proof.
  exists (mkRep ($"urn:a") ($"id") [] false), (mkRep [] ($"id") [] false), (mkRep ($"urn:b") ($"id") [] false).
  vm_compute. repeat split.
Qed.
Print Assumptions C09_equality_trans_refuted.

Theorem C09_equality_trans_partial : forall a b c,
  (r_schema b = [] -> r_schema a = [] \/ r_schema c = []) ->
  rep_eqb a b = true -> rep_eqb b c = true -> rep_eqb a c = true.
Proof.
  intros a b c Hb. rewrite !rep_eqb_iff. unfold same_text. intros [H1 [H2 H3]] [H4 [H5 H6]].
  split; [|split; congruence].
  destruct (r_schema a) as [|x sa]; [left; reflexivity|]. right.
  destruct (r_schema c) as [|y sc]; [left; reflexivity|]. right.
  destruct (r_schema b) as [|z sb]; [destruct (Hb eq_refl); discriminate|].
  destruct H1 as [H1|[H1|H1]]; try discriminate. destruct H4 as [H4|[H4|H4]]; try discriminate. congruence.
Qed.
Print Assumptions C09_equality_trans_partial.

(** top_level_equals ignores the sub-attributes and otherwise agrees. *)
Theorem C09_top_level : forall a b,
  same_text (r_sub a) (r_sub b) ->
  (rep_eqb a b = true -> top_level_equals a b = true)
  /\ (r_schema a = [] \/ r_schema b = [] -> top_level_equals a b = rep_eqb a b).
Proof.
  intros a b Hs. unfold top_level_equals. split.
  - rewrite rep_eqb_iff. unfold same_text. intros [H1 [H2 H3]]. unfold attr_with_schema.
    destruct (r_schema a) as [|x sa] eqn:Ea, (r_schema b) as [|y sb] eqn:Eb; cbn [nonempty andb];
      try (apply str_eqb_eq; exact H2).
    destruct H1 as [H1|[H1|H1]]; try discriminate. apply str_eqb_eq.
    rewrite !lower_app, H1. f_equal. unfold lower in *; cbn [map]. f_equal. exact H2.
  - intros He. apply eq_true_iff_eq. rewrite rep_eqb_iff. unfold same_text in *.
    destruct He as [->| ->]; cbn [nonempty andb]; rewrite ?andb_false_r; rewrite str_eqb_eq; tauto.
Qed.
Print Assumptions C09_top_level.

Example C09_example :
  rep_eqb (mkRep ($"urn:A") ($"userName") [] false) (mkRep ($"URN:a") ($"USERname") [] true) = true
  /\ rep_eqb (mkRep [] ($"name") ($"givenName") false) (mkRep [] ($"name") [] false) = false.
Proof. vm_compute. split; reflexivity. Qed.
