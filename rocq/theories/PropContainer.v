(** Properties C10-C15: data containers (src/data/container.py). *)
From Verif Require Import PyBase BaseFacts PyNum AttrRep AttrRepSpec AttrRepFacts Value Container ValueFacts
  ContainerSpec ContainerFacts ContainerRW ContainerEq.

(** ** C10: loading and dumping is lossless *)

Theorem C10_load_dump : forall d, json (VDict d) -> to_dict (mk_cont (VDict d)) = VDict d.
Proof. intros d H. rewrite <- (proj1 (unconv_cont _ (mk_cont_is_cont (VDict d)))). apply (proj1 (unconv_conv (VDict d) H)). Qed.
Print Assumptions C10_load_dump.

(** Loading is also injective: different documents give different containers. *)
Theorem C10_load_injective : forall d d', json (VDict d) -> json (VDict d') ->
  mk_cont (VDict d) = mk_cont (VDict d') -> d = d'.
Proof.
  intros d d' H H' E. pose proof (C10_load_dump d H) as E1. rewrite E, (C10_load_dump d' H') in E1.
  injection E1 as ->. reflexivity.
Qed.
Print Assumptions C10_load_injective.

Definition doc1 : list (dkey * value) :=
  [(KStr ($"userName"), VStr ($"bjensen"));
   (KStr ($"name"), VDict [(KStr ($"formatted"), VStr ($"Ms. B")); (KStr ($"x"), VNone)]);
   (KStr ($"emails"), VList [VDict [(KStr ($"value"), VStr ($"a@b")); (KStr ($"primary"), VBool true)];
                             VDict [(KStr ($"value"), VStr ($"c@d")); (KStr ($"tags"), VList [VInt 1; VDict []])]])].
Fixpoint nodupb {A} (eqb : A -> A -> bool) (l : list A) : bool :=
  match l with [] => true | x :: t => negb (existsb (eqb x) t) && nodupb eqb t end.
Lemma nodupb_ok {A} (eqb : A -> A -> bool) (refl : forall x, eqb x x = true) l : nodupb eqb l = true -> NoDup l.
Proof.
  induction l as [|x t IH]; cbn; intros H; constructor; apply andb_prop in H as [H1 H2].
  - intros Hin. apply negb_true_iff in H1. assert (E : existsb (eqb x) t = true) by (apply existsb_exists; exists x; auto).
    congruence.
  - apply IH; exact H2.
Qed.
Lemma dkey_eqb_refl k : dkey_eqb k k = true.
Proof. destruct k; cbn; [apply str_eqb_refl | apply N.eqb_refl]. Qed.
Ltac nodup_tac :=
  first [ apply (nodupb_ok dkey_eqb dkey_eqb_refl); reflexivity | apply (nodupb_ok str_eqb str_eqb_refl); reflexivity ].
Ltac json_tac :=
  repeat first [ apply json_none | apply json_bool | apply json_int | apply json_float | apply json_str
               | apply json_list | apply json_dict | apply Forall_cons | apply Forall_nil
               | (eexists; reflexivity)
               | nodup_tac ].
Example C10_example : json (VDict doc1) /\ to_dict (mk_cont (VDict doc1)) = VDict doc1.
Proof. split; [unfold doc1; json_tac | reflexivity]. Qed.

(** ** C11: read after write *)

(** Reads ignore the letter case of schema, attribute and sub-attribute. *)
Theorem C11_case_insensitive : forall c r r',
  rep_ok r -> rep_ok r' -> same_name r r' -> get_item c r = get_item c r'.
Proof. intros c r r' H H' Hs. apply get_case; assumption. Qed.
Print Assumptions C11_case_insensitive.

(** Full claim: forall c r x c', reach c -> rep_ok r -> set_item c r x = Ok c' ->
    get_item c' r = Ok x.  It fails when the schema of a name without extension
    flag is also a stored key. *)
Theorem C11_read_after_write_refuted : exists c r x c',
  reach c /\ rep_ok r /\ to_rep ($"urn:x:foo") = Ok r
  /\ set_item c r x = Ok c' /\ get_item c' r = Ok VMissing /\ x <> VMissing.
Proof.
  exists (mk_cont (VDict [(KStr ($"urn:x"), VDict [])])), (mkRep ($"urn:x") ($"foo") [] false), (VInt 1).
  eexists. split; [apply reach_load; json_tac|].
  split; [split; [left; split; [discriminate | repeat constructor] | left; reflexivity]|].
  split; [reflexivity|]. split; [reflexivity|]. split; [reflexivity | discriminate].
Qed.
Print Assumptions C11_read_after_write_refuted.

(** A plain attribute write always succeeds and is read back. *)
Theorem C11_plain_partial : forall c r x,
  is_cont c = true -> r_ext r = false -> r_sub r = [] ->
  ~ has_key c (r_schema r) -> ~ same_text (r_schema r) (r_attr r) ->
  exists c', set_item c r x = Ok c' /\ get_item c' r = Ok x.
Proof.
  intros c r x Hc He Hs Hk Hne. destruct c; try discriminate. apply not_has_key in Hk. unfold same_text in Hne.
  cbn [set_item]. rewrite He, Hs. cbn [set_noext]. eexists; split; [reflexivity|].
  unfold set_plain. rewrite get_item_eq, Hs. rewrite sget_sset_other by congruence.
  rewrite Hk, !sget_sset_same. reflexivity.
Qed.
Print Assumptions C11_plain_partial.

(** A sub-attribute write (of anything but a list) is read back. *)
Theorem C11_sub_partial : forall c r x c',
  named c -> r_ext r = false ->
  ~ has_key c (r_schema r) -> ~ same_text (r_schema r) (r_attr r) -> (r_sub r <> [] -> is_list x = false) ->
  set_item c r x = Ok c' -> get_item c' r = Ok x.
Proof.
  intros c r x c' Hn He Hk Hne Hx H. destruct c; try discriminate. cbn [set_item] in H. rewrite He in H.
  eapply read_noext; eassumption.
Qed.
Print Assumptions C11_sub_partial.

(** Writing a list to a sub-attribute of a multi-valued attribute writes item by
    item; Missing items and surplus items keep their old value. *)
Theorem C11_list_overlay : forall c r xs c' old,
  named c -> attr_ok (r_sub r) -> r_ext r = false ->
  ~ has_key c (r_schema r) -> ~ same_text (r_schema r) (r_attr r) ->
  (get_item c r = Ok (VList old) \/ (get_item c r = Ok VMissing /\ old = [])) ->
  set_item c r (VList xs) = Ok c' -> get_item c' r = Ok (VList (overlay xs old)).
Proof.
  intros c r xs c' old Hn Hs He Hk Hne Hold H. destruct c; try discriminate. cbn [set_item] in H. rewrite He in H.
  eapply read_list; eassumption.
Qed.
Print Assumptions C11_list_overlay.

(** An extension attribute write is read back when the extension is stored
    under the spelling used for writing, or not yet stored. *)
Theorem C11_extension_partial : forall c r x c',
  named c -> spelled c (r_schema r) -> r_schema r <> [] -> r_ext r = true -> (r_sub r <> [] -> is_list x = false) ->
  set_item c r x = Ok c' -> get_item c' r = Ok x.
Proof.
  intros c r x c' Hn Hsp Hs He Hx H. destruct c; try discriminate. eapply read_ext; eassumption.
Qed.
Print Assumptions C11_extension_partial.

(** The spelling matters: with another letter case the write raises KeyError. *)
Theorem C11_extension_spelling_refuted : exists c r x,
  reach c /\ rep_ok r /\ r_ext r = true /\ named c /\ set_item c r x = Raise KeyErr.
Proof.
  exists (mk_cont (VDict [(KStr ($"urn:x"), VDict [])])), (mkRep ($"URN:x") ($"foo") [] true), (VInt 1).
  split; [apply reach_load; json_tac|].
  split; [split; [left; split; [discriminate | repeat constructor] | left; reflexivity]|].
  split; [reflexivity|]. split; [|reflexivity].
  cbn. apply named_cont; [intros [k H]; discriminate|]. constructor; [|constructor].
  apply named_cont; [intros [k H]; discriminate | constructor].
Qed.
Print Assumptions C11_extension_spelling_refuted.

Definition cont1 : value := mk_cont (VDict doc1).
Lemma cont1_named : named cont1.
Proof.
  unfold cont1, doc1; cbn.
  repeat (first [ apply named_cont; [intros [? H]; discriminate H|] | apply named_list | (apply named_atom; exact I)
                | apply Forall_cons | apply Forall_nil | progress cbn [snd] ]).
Qed.
Lemma cont1_reach : reach cont1.
Proof. apply reach_load. exact (proj1 C10_example). Qed.
Lemma cont1_no_missing : no_missing cont1.
Proof.
  unfold cont1, doc1; cbn.
  repeat (first [ apply nm_cont | apply nm_list | (apply nm_atom; exact I)
                | apply Forall_cons | apply Forall_nil | progress cbn [snd] | (split; [discriminate|]) ]).
Qed.
Example C11_example :
  (exists c, set_item cont1 (mkRep [] ($"NAME") ($"formatted") false) (VStr ($"B")) = Ok c
             /\ get_item c (mkRep [] ($"name") ($"Formatted") false) = Ok (VStr ($"B")))
  /\ (exists c, set_item cont1 (mkRep [] ($"emails") ($"type") false) (VList [VMissing; VStr ($"w"); VStr ($"z")]) = Ok c
                /\ get_item c (mkRep [] ($"emails") ($"type") false) = Ok (VList [VMissing; VStr ($"w"); VStr ($"z")])
                /\ get_item c (mkRep [] ($"emails") ($"value") false) = Ok (VList [VStr ($"a@b"); VStr ($"c@d"); VMissing]))
  /\ (exists c, set_item cont1 (mkRep ($"urn:e:2.0:User") ($"manager") ($"value") true) (VInt 4) = Ok c
                /\ get_item c (mkRep ($"URN:E:2.0:user") ($"MANAGER") ($"value") false) = Ok (VInt 4)).
Proof. split; [|split]; eexists; (split; [vm_compute; reflexivity|]); repeat split. Qed.

(** ** C12: a write changes nothing else *)

(** Full claim: after a successful write, every name that differs up to letter
    case reads as before.  Reads of a name with a schema fall back to the
    top-level attribute while the extension does not exist, so creating the
    extension changes them. *)
Theorem C12_frame_refuted : exists c r x c' r2,
  reach c /\ rep_ok r /\ rep_ok r2 /\ ~ same_name r r2 /\ r_ext r = true /\ r_ext r2 = true
  /\ set_item c r x = Ok c' /\ get_item c r2 = Ok (VInt 1) /\ get_item c' r2 = Ok VMissing.
Proof.
  exists (mk_cont (VDict [(KStr ($"foo"), VInt 1)])), (mkRep ($"urn:x") ($"bar") [] true), (VInt 2).
  eexists. exists (mkRep ($"urn:x") ($"foo") [] true).
  split; [apply reach_load; json_tac|].
  split; [split; [left; split; [discriminate | repeat constructor] | left; reflexivity]|].
  split; [split; [left; split; [discriminate | repeat constructor] | left; reflexivity]|].
  split; [intros [_ [H _]]; discriminate|]. repeat split.
Qed.
Print Assumptions C12_frame_refuted.

(** Writes without extension flag (plain or sub-attribute, any value) do not
    affect reads of another attribute, of any schema. *)
Theorem C12_other_attribute_partial : forall c r x c' r2,
  reach c -> r_ext r = false -> set_item c r x = Ok c' ->
  ~ same_text (r_schema r2) (r_attr r) -> ~ same_text (r_attr r2) (r_attr r) ->
  get_item c' r2 = get_item c r2.
Proof.
  intros c r x c' r2 Hc He H Hs Ha. apply reach_good in Hc. destruct c; try discriminate.
  cbn [set_item] in H. rewrite He in H. eapply frame_noext; eassumption.
Qed.
Print Assumptions C12_other_attribute_partial.

(** Nor of another sub-attribute of the same attribute. *)
Theorem C12_other_sub_attribute_partial : forall c r x c' r2,
  reach c -> named c -> r_ext r = false -> r_sub r <> [] -> is_list x = false -> set_item c r x = Ok c' ->
  ~ has_key c (r_schema r2) -> ~ same_text (r_schema r2) (r_attr r) ->
  same_text (r_attr r2) (r_attr r) -> attr_ok (r_sub r2) -> ~ same_text (r_sub r2) (r_sub r) ->
  get_item c' r2 = get_item c r2.
Proof.
  intros c r x c' r2 Hc Hn He Hs Hx H. apply reach_good in Hc. destruct c; try discriminate.
  cbn [set_item] in H. rewrite He in H. intros. eapply frame_noext_sub; eassumption.
Qed.
Print Assumptions C12_other_sub_attribute_partial.

(** Writes to an extension affect neither other schemas nor the top level. *)
Theorem C12_other_schema_partial : forall c r x c' r2,
  reach c -> r_ext r = true -> set_item c r x = Ok c' ->
  ~ same_text (r_schema r2) (r_schema r) -> ~ same_text (r_attr r2) (r_schema r) ->
  get_item c' r2 = get_item c r2.
Proof.
  intros c r x c' r2 Hc He H Hs Ha. apply reach_good in Hc. destruct c; try discriminate.
  eapply frame_ext; eassumption.
Qed.
Print Assumptions C12_other_schema_partial.

(** Nor other attributes of the same extension, unless the write creates the
    extension and the top level has an attribute of that name. *)
Theorem C12_same_schema_partial : forall c r x c' r2,
  reach c -> named c -> spelled c (r_schema r) -> r_ext r = true -> r_schema r <> [] -> set_item c r x = Ok c' ->
  same_text (r_schema r2) (r_schema r) -> attr_ok (r_attr r2) -> ~ same_text (r_attr r2) (r_attr r) ->
  (has_key c (r_schema r) \/ ~ has_key c (r_attr r2)) ->
  get_item c' r2 = get_item c r2.
Proof.
  intros c r x c' r2 Hc Hn Hsp He Hs H. apply reach_good in Hc. destruct c; try (intros; discriminate).
  intros. eapply frame_ext_same; eassumption.
Qed.
Print Assumptions C12_same_schema_partial.

Example C12_example : exists c,
  set_item cont1 (mkRep ($"urn:e:2.0:User") ($"manager") ($"value") true) (VInt 4) = Ok c
  /\ get_item c (mkRep ($"urn:e:2.0:User") ($"costCenter") [] true) = Ok VMissing
  /\ get_item cont1 (mkRep ($"urn:e:2.0:User") ($"costCenter") [] true) = Ok VMissing
  /\ get_item c (mkRep [] ($"userNAME") [] false) = Ok (VStr ($"bjensen"))
  /\ ~ has_key cont1 ($"costCenter") /\ spelled cont1 ($"urn:e:2.0:User") /\ reach cont1 /\ named cont1.
Proof.
  eexists. split; [reflexivity|]. split; [reflexivity|]. split; [reflexivity|]. split; [reflexivity|].
  split; [intros [k H]; discriminate|]. split; [intros k H; discriminate|].
  split; [exact cont1_reach | exact cont1_named].
Qed.

(** ** C13: delete removes exactly one attribute *)

Theorem C13_deleted_reads_nothing : forall c r c',
  reach c -> named c -> rep_ok r -> del_item c r = Ok c' ->
  exists y, get_item c' r = Ok y /\ nothing y.
Proof. intros c r c' Hc Hn Hr H. eapply del_read; try eassumption. apply reach_good; exact Hc. Qed.
Print Assumptions C13_deleted_reads_nothing.

(** For a plain attribute the read gives Missing. *)
Theorem C13_deleted_is_missing : forall c r c',
  reach c -> ~ has_key c (r_schema r) -> r_sub r = [] -> del_item c r = Ok c' -> get_item c' r = Ok VMissing.
Proof.
  intros c r c' Hc Hk Hs H. destruct c; try discriminate. eapply del_plain; try eassumption.
  apply reach_good; exact Hc.
Qed.
Print Assumptions C13_deleted_is_missing.

Theorem C13_absent : forall c r y,
  named c -> no_missing c -> rep_ok r -> get_item c r = Ok y ->
  y = VMissing \/ (exists n, y = VList (repeat VMissing (S n))) -> del_item c r = Ok c.
Proof. intros c r y Hn Hm Hr H Hy. eapply del_absent; eassumption. Qed.
Print Assumptions C13_absent.

(** Every other attribute is unchanged: names of another attribute ... *)
Theorem C13_other_attribute : forall c r c' r2,
  reach c -> ~ has_key c (r_schema r) -> del_item c r = Ok c' ->
  ~ same_text (r_schema r2) (r_attr r) -> ~ same_text (r_attr r2) (r_attr r) ->
  get_item c' r2 = get_item c r2.
Proof.
  intros c r c' r2 Hc. apply reach_good in Hc. destruct c; try (intros; discriminate). 
  intros Hk Hd Hs Ha. exact (del_frame _ _ _ _ _ Hc Hk Hd Hs Ha).
Qed.
Print Assumptions C13_other_attribute.

(** ... other sub-attributes of the same attribute ... *)
Theorem C13_other_sub_attribute : forall c r c' r2,
  reach c -> named c -> ~ has_key c (r_schema r) -> attr_ok (r_sub r) -> del_item c r = Ok c' ->
  ~ has_key c (r_schema r2) -> same_text (r_attr r2) (r_attr r) ->
  attr_ok (r_sub r2) -> ~ same_text (r_sub r2) (r_sub r) ->
  get_item c' r2 = get_item c r2.
Proof.
  intros c r c' r2 Hc. apply reach_good in Hc. destruct c; try (intros; discriminate). 
  intros Hn Hk Hs Hd Hk2 Ha Ho Hne. exact (del_frame_sub _ _ _ _ _ Hc Hn Hk Hs Hd Hk2 Ha Ho Hne).
Qed.
Print Assumptions C13_other_sub_attribute.

(** ... other schemas and the top level, when the name is in an extension ... *)
Theorem C13_other_schema : forall c r c' r2,
  reach c -> has_key c (r_schema r) -> del_item c r = Ok c' ->
  ~ same_text (r_schema r2) (r_schema r) -> ~ same_text (r_attr r2) (r_schema r) ->
  get_item c' r2 = get_item c r2.
Proof.
  intros c r c' r2 Hc. apply reach_good in Hc. destruct c; try (intros; discriminate). 
  intros Hk Hd Hs Ha. exact (del_frame_ext _ _ _ _ _ Hc Hk Hd Hs Ha).
Qed.
Print Assumptions C13_other_schema.

(** ... and other attributes of the same extension. *)
Theorem C13_same_schema : forall c r c' r2,
  reach c -> named c -> has_key c (r_schema r) -> del_item c r = Ok c' -> attr_ok (r_attr r) -> attr_ok (r_attr r2) ->
  same_text (r_schema r2) (r_schema r) -> ~ same_text (r_attr r2) (r_attr r) ->
  get_item c' r2 = get_item c r2.
Proof.
  intros c r c' r2 Hc. apply reach_good in Hc. destruct c; try (intros; discriminate). 
  intros Hn Hk Hd Ha1 Ha2 Hs Ha. exact (del_frame_ext_same _ _ _ _ _ Hc Hn Hk Hd Ha1 Ha2 Hs Ha).
Qed.
Print Assumptions C13_same_schema.

Example C13_example :
  (exists c, del_item cont1 (mkRep [] ($"EMAILS") ($"value") false) = Ok c
             /\ get_item c (mkRep [] ($"emails") ($"value") false) = Ok (VList [VMissing; VMissing])
             /\ get_item c (mkRep [] ($"emails") ($"primary") false) = Ok (VList [VBool true; VMissing]))
  /\ (exists c, del_item cont1 (mkRep [] ($"username") [] false) = Ok c
                /\ get_item c (mkRep [] ($"userName") [] false) = Ok VMissing
                /\ get_item c (mkRep [] ($"name") ($"x") false) = Ok VNone)
  /\ del_item cont1 (mkRep [] ($"name") ($"y") false) = Ok cont1
  /\ no_missing cont1.
Proof.
  split; [eexists; (split; [vm_compute; reflexivity|]); repeat split|].
  split; [eexists; (split; [vm_compute; reflexivity|]); repeat split|].
  split; [vm_compute; reflexivity | exact cont1_no_missing].
Qed.

(** ** C14: no operation corrupts the key index *)

Theorem C14_reads_find_their_data : forall c r, reach c -> get_item c r <> Raise KeyErr.
Proof. intros c r H. apply get_not_key. apply reach_good; exact H. Qed.
Print Assumptions C14_reads_find_their_data.

Theorem C14_deletions_find_their_data : forall c r, reach c -> del_item c r <> Raise KeyErr.
Proof. intros c r H. apply del_not_key. apply reach_good; exact H. Qed.
Print Assumptions C14_deletions_find_their_data.

Theorem C14_index_points_at_data : forall data l2o lk k,
  reach (VCont data l2o) -> sget lk l2o = Some k -> lower k = lk /\ In k (map fst data).
Proof.
  intros data l2o lk k H E. apply reach_good in H. destruct (good_index _ _ _ _ H E) as [H1 [x [H2 _]]].
  split; [exact H1|]. apply sget_Some_key. exists x; exact H2.
Qed.
Print Assumptions C14_index_points_at_data.

Example C14_example : exists c1 c2,
  set_item cont1 (mkRep [] ($"USERNAME") [] false) (VStr ($"x")) = Ok c1
  /\ del_item c1 (mkRep [] ($"userName") [] false) = Ok c2
  /\ reach c2 /\ get_item c2 (mkRep [] ($"userName") [] false) = Ok VMissing.
Proof.
  eexists _, _. split; [reflexivity|]. split; [reflexivity|]. split; [|reflexivity].
  eapply reach_del with (r := mkRep [] ($"userName") [] false);
    [eapply reach_set with (c := cont1) (x := VStr ($"x")) (r := mkRep [] ($"USERNAME") [] false);
     [exact cont1_reach | apply reach_json; constructor | reflexivity] | reflexivity].
Qed.

(** The converse fails: stored data can become unreachable (an orphan), because
    writing with another letter case adds a second entry. *)
Theorem C14_data_reachable_refuted : exists data l2o k x,
  reach (VCont data l2o) /\ In (k, x) data /\ x <> VMissing
  /\ get_item (VCont data l2o) (mkRep [] k [] false) = Ok VMissing.
Proof.
  destruct C14_example as [c1 [c2 [H1 [H2 [H3 H4]]]]].
  vm_compute in H1. injection H1 as <-. vm_compute in H2. injection H2 as <-.
  eexists _, _, ($"userName"), (VStr ($"bjensen")). split; [exact H3|].
  split; [left; reflexivity|]. split; [discriminate | reflexivity].
Qed.
Print Assumptions C14_data_reachable_refuted.

(** ** C15: equality *)

(** Not reflexive: a resource with an extension differs from itself. *)
Theorem C15_reflexive_refuted : exists c, reach c /\ veq c c = Ok false.
Proof.
  exists (mk_cont (VDict [(KStr ($"urn:x:2.0:User"), VDict [(KStr ($"a"), VInt 1)])])).
  split; [apply reach_load; json_tac | vm_compute; reflexivity].
Qed.
Print Assumptions C15_reflexive_refuted.

(** Not symmetric. *)
Theorem C15_symmetric_refuted : exists c d, reach c /\ reach d /\ veq c d = Ok true /\ veq d c = Ok false.
Proof.
  exists (mk_cont (VDict [])), (mk_cont (VDict [(KStr ($"a"), VInt 1)])).
  split; [apply reach_load; json_tac|]. split; [apply reach_load; json_tac|]. vm_compute; split; reflexivity.
Qed.
Print Assumptions C15_symmetric_refuted.

(** Can raise. *)
Theorem C15_total_refuted : exists c, reach c /\ veq c c = Raise ValueErr.
Proof.
  exists (mk_cont (VDict [(KStr ($"a b"), VInt 1)])).
  split; [apply reach_load; json_tac | vm_compute; reflexivity].
Qed.
Print Assumptions C15_total_refuted.

(** On clean documents [==] never raises and decides [covered]. *)
Theorem C15_exact_partial : forall a b, clean a -> clean b ->
  exists r, veq a b = Ok r /\ (r = true <-> covered a b).
Proof. intros a b Ha Hb. unfold veq. apply py_eq_decides; [lia | exact Ha | exact Hb]. Qed.
Print Assumptions C15_exact_partial.

Theorem C15_both_ways_partial : forall a b, clean a -> clean b ->
  (veq a b = Ok true /\ veq b a = Ok true <-> doc_eq a b).
Proof.
  intros a b Ha Hb. destruct (C15_exact_partial a b Ha Hb) as [r [-> Hr]].
  destruct (C15_exact_partial b a Hb Ha) as [r' [-> Hr']].
  rewrite <- (doc_eq_covered (S (vsize a + vsize b))) by (lia || assumption).
  rewrite <- Hr, <- Hr'. split; intros [H1 H2]; [injection H1 as ->; injection H2 as -> | subst]; split; reflexivity.
Qed.
Print Assumptions C15_both_ways_partial.

Theorem C15_reflexive_partial : forall a, clean a -> veq a a = Ok true.
Proof.
  intros a Ha. destruct (C15_exact_partial a a Ha Ha) as [r [-> Hr]]. f_equal. apply Hr.
  apply (covered_refl (S (vsize a))); [lia | exact Ha].
Qed.
Print Assumptions C15_reflexive_partial.

Lemma index_tac_lemma (l2o : list (str * str)) (ks : list str) :
  map snd l2o = ks -> map fst l2o = map lower ks -> NoDup (map lower ks) ->
  forall lk k, sget lk l2o = Some k <-> In k ks /\ lower k = lk.
Proof.
  intros <- Hf Hnd lk k. rewrite <- Hf in Hnd. rewrite map_map in Hf.
  assert (Hp : forall e, In e l2o -> fst e = lower (snd e)).
  { clear Hnd. induction l2o as [|e t IH]; intros e' He; [contradiction|]. cbn in Hf. injection Hf as H1 H2.
    destruct He as [<-|He]; [exact H1 | apply IH; assumption]. }
  split.
  - intros H. apply sget_In in H. split; [apply in_map_iff; exists (lk, k); split; [reflexivity | exact H]|].
    specialize (Hp _ H). symmetry; exact Hp.
  - intros [H <-]. apply in_map_iff in H as [[lk k'] [Hk Hin]]. cbn in Hk; subst k'.
    apply sget_NoDup; [exact Hnd|]. specialize (Hp _ Hin). cbn in Hp. subst lk. exact Hin.
Qed.
Example C15_example :
  exists a b, a = mk_cont (VDict [(KStr ($"userName"), VInt 1); (KStr ($"name"), VDict [(KStr ($"x"), VStr ($"y"))])])
  /\ b = mk_cont (VDict [(KStr ($"NAME"), VDict [(KStr ($"X"), VStr ($"y"))]); (KStr ($"username"), VBool true)])
  /\ clean a /\ clean b /\ veq a b = Ok true /\ veq b a = Ok true.
Proof.
  eexists _, _. split; [reflexivity|]. split; [reflexivity|].
  assert (W : forall a, attr_name_ok a = true -> attr_ok a) by (intros a H; apply attr_ok_spec; exact H).
  split; [|split; [|vm_compute; split; reflexivity]]; vm_compute mk_cont;
    repeat first [ (apply clean_scalar; exact I) | apply Forall_nil | apply Forall_cons | progress cbn [fst snd]
                 | (apply W; reflexivity)
                 | apply clean_cont; [| |apply index_tac_lemma; [reflexivity | reflexivity|]|]
                 | nodup_tac ].
Qed.
