(** Properties of presence checks (C29-C31). *)
From Verif Require Import PyBase BaseFacts PyNum Issues IssuesSpec IssuesFacts AttrRep AttrRepSpec AttrRepFacts Value ValueFacts
  Container ContainerSpec ContainerFacts ContainerRW Types TypesSpec Attr Schema Assets Presence AttrSpec AttrFacts PropAttr
  SchemaSpec SchemaFacts SchemaBuild PropSchema PresenceSpec PresenceFacts.

(** ** C29: only what was asked for is returned *)

Theorem C29_only_requested : forall s c data d iss p, made s -> Forall proper (ck_reps c) ->
  presence c data (at_all (sc_attrs s)) d = Ok iss ->
  (In e_not_requested (errs_at iss p) <->
   d = Response /\ exists a v, In a (at_all (sc_attrs s)) /\ found (at_all (sc_attrs s)) data a v p /\ ~ empty_value v /\ withheld c a).
Proof.
  intros s c data d iss p Hm Hc H. apply made_assembled in Hm as [Hs _]. apply presence_inv in H as [_ H]; try assumption. rewrite H. unfold complaint. split.
  - intros [a [v [H1 [H2 [[_ [H3 [H4 H5]]]|[G _]]]]]]; [|discriminate]. split; [exact H3|]. exists a, v. auto.
  - intros [-> [a [v [H1 [H2 [H3 H4]]]]]]. exists a, v. split; [exact H1|]. split; [exact H2|]. left. auto.
Qed.

Lemma found_top_inv all data a v n : found all data a v [LStr n] ->
  n = r_attr (arep a) /\ r_sub (arep a) = [] /\ get_item data (arep a) = Ok v /\ v <> VInvalid.
Proof. intros H. inversion H; subst; auto. Qed.

(** For top-level attributes, in terms of what the document holds. *)
Lemma presence_reads s c data d iss a : assembled s -> Forall proper (ck_reps c) -> presence c data (at_all (sc_attrs s)) d = Ok iss ->
  In a (at_top (sc_attrs s)) -> exists v, get_item data (arep a) = Ok v.
Proof.
  intros Hs Hc H Ha. assert (Hin : In a (at_all (sc_attrs s)) /\ r_sub (arep a) = []).
  { destruct Hs as [_ [_ [E _]]]. rewrite E in Ha. apply filter_In in Ha as [Ha E2]. split; [exact Ha|]. unfold no_sub in E2. destruct (r_sub (arep a)); [reflexivity | discriminate]. }
  destruct Hin as [Hin Hsub]. unfold presence in H. revert H. generalize no_issues.
  assert (G : forall l, In a l -> forall i0, foldM (check_attr c data (at_all (sc_attrs s)) d) l i0 = Ok iss -> exists v, get_item data (arep a) = Ok v).
  { induction l as [|b t IH]; intros Hb i0 H; [contradiction|]. cbn [foldM] in H. apply bind_ok in H as [i1 [H1 H]]. destruct Hb as [->|Hb]; [|eapply IH; eauto].
    unfold check_attr in H1. apply bind_ok in H1 as [tr [_ H1]]. rewrite Hsub in H1. cbn [nonempty bind] in H1. apply bind_ok in H1 as [v [Hv _]]. eauto. }
  intros i0. apply G. exact Hin.
Qed.

Theorem C29_top_level : forall s c data iss n, made s -> Forall proper (ck_reps c) -> regular s data ->
  presence c data (at_all (sc_attrs s)) Response = Ok iss ->
  (In e_not_requested (errs_at iss [LStr n]) <->
   exists a v, In a (at_top (sc_attrs s)) /\ r_attr (arep a) = n /\ doc_holds data (arep a) v /\ v <> VInvalid /\ ~ empty_value v /\ withheld c a).
Proof.
  intros s c data iss n Hm Hc Hr H. rewrite (C29_only_requested _ _ _ _ _ _ Hm Hc H). pose proof (made_wf _ Hm) as W. apply made_assembled in Hm as [Hs _].
  assert (Top : forall a, In a (at_top (sc_attrs s)) <-> In a (at_all (sc_attrs s)) /\ r_sub (arep a) = []).
  { intros a. destruct Hs as [_ [_ [E _]]]. rewrite E, filter_In. unfold no_sub. destruct (r_sub (arep a)); intuition discriminate. }
  split.
  - intros [_ [a [v [H1 [H2 [H3 H4]]]]]]. apply found_top_inv in H2 as [-> [G1 [G2 G3]]].
    exists a, v. assert (Ha : In a (at_top (sc_attrs s))) by (apply Top; auto). split; [exact Ha|]. split; [reflexivity|]. split.
    + apply (read_doc s); try assumption. intros ->. apply H3. left; reflexivity.
    + auto.
  - intros [a [v [H1 [<- [H3 [H4 [H5 H6]]]]]]]. split; [reflexivity|]. exists a, v. apply Top in H1 as H1'. destruct H1' as [H1' Hs'].
    split; [exact H1'|]. split; [|auto]. apply found_top; [exact Hs'| |exact H4]. apply (read_doc s); try assumption. intros ->. apply H5. left; reflexivity.
Qed.

(** ** C30: required attributes *)

Theorem C30_missing_iff : forall s c data d iss p, made s -> Forall proper (ck_reps c) ->
  presence c data (at_all (sc_attrs s)) d = Ok iss ->
  (In e_missing (errs_at iss p) <->
   exists a v, In a (at_all (sc_attrs s)) /\ found (at_all (sc_attrs s)) data a v p /\ empty_value v /\ needed c d a).
Proof.
  intros s c data d iss p Hm Hc H. apply made_assembled in Hm as [Hs _]. apply presence_inv in H as [_ H]; try assumption. rewrite H. unfold complaint. split.
  - intros [a [v [H1 [H2 [[G _]|[_ [H3 H4]]]]]]]; [discriminate|]. exists a, v. auto.
  - intros [a [v [H1 [H2 [H3 H4]]]]]. exists a, v. split; [exact H1|]. split; [exact H2|]. right. auto.
Qed.

Theorem C30_nothing_else : forall s c data d iss p e, made s -> Forall proper (ck_reps c) ->
  presence c data (at_all (sc_attrs s)) d = Ok iss -> In e (errs_at iss p) -> e = e_missing \/ (e = e_not_requested /\ d = Response).
Proof.
  intros s c data d iss p e Hm Hc H He. apply made_assembled in Hm as [Hs _]. apply presence_inv in H as [_ H]; try assumption. apply H in He.
  destruct He as [a [v [_ [_ [[-> [-> _]]|[-> _]]]]]]; auto.
Qed.

Theorem C30_top_level : forall s c data d iss n, made s -> Forall proper (ck_reps c) -> regular s data ->
  presence c data (at_all (sc_attrs s)) d = Ok iss ->
  (In e_missing (errs_at iss [LStr n]) <->
   exists a, In a (at_top (sc_attrs s)) /\ r_attr (arep a) = n /\ needed c d a /\ forall v, doc_holds data (arep a) v -> empty_value v).
Proof.
  intros s c data d iss n Hm Hc Hr H. rewrite (C30_missing_iff _ _ _ _ _ _ Hm Hc H). pose proof (made_wf _ Hm) as W. apply made_assembled in Hm as [Hs _].
  assert (Top : forall a, In a (at_top (sc_attrs s)) <-> In a (at_all (sc_attrs s)) /\ r_sub (arep a) = []).
  { intros a. destruct Hs as [_ [_ [E _]]]. rewrite E, filter_In. unfold no_sub. destruct (r_sub (arep a)); intuition discriminate. }
  split.
  - intros [a [v [H1 [H2 [H3 H4]]]]]. apply found_top_inv in H2 as [-> [G1 [G2 G3]]].
    exists a. assert (Ha : In a (at_top (sc_attrs s))) by (apply Top; auto). split; [exact Ha|]. split; [reflexivity|]. split; [exact H4|].
    intros w Hw. destruct (is_missing w) eqn:Em; [destruct w; try discriminate; left; reflexivity|].
    assert (Hnm : w <> VMissing) by (intros ->; discriminate). apply (read_doc s data a w W Hr Ha Hnm) in Hw. assert (w = v) by congruence. subst. exact H3.
  - intros [a [Ha [<- [Hn Hv]]]]. destruct (presence_reads _ _ _ _ _ _ Hs Hc H Ha) as [v Hg]. exists a, v. apply Top in Ha as Ha'. destruct Ha' as [Ha' Hs'].
    assert (Hev : empty_value v).
    { destruct (is_missing v) eqn:Em; [destruct v; try discriminate; left; reflexivity|]. apply Hv. apply (read_doc s); try assumption. intros ->; discriminate. }
    split; [exact Ha'|]. split; [|auto]. apply found_top; [exact Hs' | exact Hg|]. intros ->. destruct Hev as [E|[E|[E|E]]]; discriminate.
Qed.

(** ** C31: parsing a selection *)

(** [r] is what the text [s] names. *)
Definition reads_as (s : str) (r : attr_rep) : Prop :=
  exists segs, names_attr s segs (r_attr r) (r_sub r) /\ r_schema r = joined segs /\ r_ext r = false.
Definition valid_name (s : str) : Prop := exists segs attr sub, names_attr s segs attr sub.

Lemma reads_parse s r : parse_rep s = Some r <-> reads_as s r.
Proof. apply parse_rep_iff. Qed.
Lemma invalid_parse s : parse_rep s = None <-> ~ valid_name s.
Proof.
  split.
  - intros H [segs [a [b G]]]. assert (P : parse_rep s = Some (mkRep (joined segs) a b false)) by (apply parse_rep_iff; exists segs; cbn; auto). congruence.
  - intros H. destruct (parse_rep s) as [r|] eqn:E; [|reflexivity]. exfalso. apply parse_rep_iff in E as [segs [E _]]. apply H. exists segs, (r_attr r), (r_sub r). exact E.
Qed.
Lemma attr_valid a : attr_ok a -> valid_name a.
Proof. intros H. exists [], a, []. split; [constructor|]. split; [exact H|]. split; [left; reflexivity|]. rewrite app_nil_r. reflexivity. Qed.

Definition blames (done : list str) (iss : issues) : Prop :=
  (forall p e, In e (errs_at iss p) <-> exists s, In s done /\ ~ valid_name s /\ p = [LStr s] /\ e = e_bad_attr_name s)
  /\ (forall p, stops iss p -> exists s, In s done /\ ~ valid_name s /\ p = [LStr s]).

Lemma parse_names l : forall done reps ok iss, blames done iss -> (ok = true <-> Forall valid_name done) ->
  (ok = true -> Forall2 reads_as done reps) ->
  exists reps' ok' iss', foldM parse_name_step (map VStr l) (reps, ok, iss) = Ok (reps', ok', iss') /\ blames (done ++ l) iss'
    /\ (ok' = true <-> Forall valid_name (done ++ l)) /\ (ok' = true -> Forall2 reads_as (done ++ l) reps').
Proof.
  induction l as [|s t IH]; intros done reps ok iss Hb Hok Hreps; cbn [map foldM].
  { exists reps, ok, iss. rewrite app_nil_r. auto. }
  assert (E : done ++ s :: t = (done ++ [s]) ++ t) by (rewrite <- app_assoc; reflexivity). rewrite E. unfold parse_name_step at 1.
  destruct (parse_rep s) as [r|] eqn:Ep.
  - assert (Hr : reads_as s r) by (apply reads_parse; exact Ep).
    assert (Hv : valid_name s) by (destruct Hr as [segs [Hr _]]; exists segs, (r_attr r), (r_sub r); exact Hr).
    assert (Hcan : can_proceed iss [presence_loc r] = true).
    { destruct (can_proceed iss [presence_loc r]) eqn:Ec; [reflexivity|]. exfalso. apply can_proceed_spec in Ec as [l0 [a [[<-|[]] [[tl Ha] Hin]]]].
      destruct Hb as [_ Hb]. destruct (Hb a Hin) as [s0 [_ [Hs0 ->]]]. unfold presence_loc in Ha. cbn [app] in Ha. injection Ha as Ha _. apply Hs0. rewrite <- Ha.
      apply attr_valid. destruct Hr as [segs [[_ [Hr _]] _]]. exact Hr. }
    rewrite Hcan. cbn [bind]. apply IH.
    + destruct Hb as [B1 B2]. split.
      * intros p e. rewrite B1. split; intros [s0 [G1 G2]]; exists s0; (split; [|exact G2]); [apply in_or_app; auto|].
        apply in_app_iff in G1 as [G1|[<-|[]]]; [exact G1|]. destruct G2 as [G2 _]. contradiction.
      * intros p Hp. destruct (B2 p Hp) as [s0 [G1 G2]]. exists s0. split; [apply in_or_app; auto | exact G2].
    + rewrite Hok, Forall_app. split; [intros H; split; [exact H | repeat constructor; exact Hv] | intros [H _]; exact H].
    + intros H. apply Forall2_app; [apply Hreps; exact H | repeat constructor; exact Hr].
  - assert (Hv : ~ valid_name s) by (apply invalid_parse; exact Ep). cbn [bind]. apply IH.
    + destruct Hb as [B1 B2]. split.
      * intros p e. rewrite errs_at_add, in_app_iff, B1. split.
        -- intros [[s0 [G1 G2]]|G]; [exists s0; split; [apply in_or_app; auto | exact G2]|]. destruct (loc_dec [LStr s] p) as [<-|Hne]; [|contradiction].
           destruct G as [<-|[]]. exists s. split; [apply in_or_app; right; left; reflexivity | auto].
        -- intros [s0 [G1 G2]]. apply in_app_iff in G1 as [G1|[<-|[]]]; [left; exists s0; auto|]. right. destruct G2 as [_ [-> ->]].
           destruct (loc_dec [LStr s] [LStr s]) as [_|Hne]; [left; reflexivity | contradiction].
      * intros p Hp. apply stops_add in Hp as [Hp|[_ ->]]; [destruct (B2 p Hp) as [s0 [G1 G2]]; exists s0; split; [apply in_or_app; auto | exact G2]|].
        exists s. split; [apply in_or_app; right; left; reflexivity | auto].
    + rewrite Forall_app. split; [discriminate|]. intros [_ H]. inversion H; contradiction.
    + discriminate.
Qed.

Theorem C31_selection : forall names include, exists v iss, parse_checker (map VStr names) include = Ok (v, iss)
  /\ (forall p e, In e (errs_at iss p) <-> exists s, In s names /\ ~ valid_name s /\ p = [LStr s] /\ e = e_bad_attr_name s)
  /\ (Forall valid_name names -> exists reps, v = VChecker (mkChecker reps include []) /\ Forall2 reads_as names reps)
  /\ (~ Forall valid_name names -> v = VInvalid).
Proof.
  intros names include. destruct (parse_names names [] [] true no_issues) as [reps [ok [iss [E [[B1 B2] [H1 H2]]]]]].
  - split; [intros p e; split; [intros [] | intros [s [[] _]]] | intros p []].
  - split; [constructor | reflexivity].
  - constructor.
  - unfold parse_checker. rewrite E. cbn [bind app] in *. exists (if ok then VChecker (mkChecker reps include []) else VInvalid), iss.
    split; [reflexivity|]. split; [exact B1|]. split.
    + intros H. apply H1 in H. subst ok. exists reps. split; [reflexivity | apply H2; reflexivity].
    + intros H. destruct ok; [exfalso; apply H, H1; reflexivity | reflexivity].
Qed.

(** ** Examples *)

Definition absent (c : value) (n : str) : bool := match c with VCont _ m => match sget (lower n) m with None => true | Some _ => false end | _ => true end.
Lemma absent_ok c n : absent c n = true -> ~ has_key c n.
Proof. unfold absent, has_key. destruct c; auto. intros H [k E]. rewrite E in H. discriminate. Qed.
Lemma regular_check s c : is_cont c && absent c (sc_uri s)
  && forallb (fun a => negb (r_ext (arep a)) || (absent c (r_schema (arep a)) && absent c (r_attr (arep a)))) (at_top (sc_attrs s)) = true -> regular s c.
Proof.
  intros H. apply andb_true_iff in H as [H H3]. apply andb_true_iff in H as [H1 H2]. split; [exact H1|]. split; [apply absent_ok; exact H2|].
  intros a Ha He. right. rewrite forallb_forall in H3. specialize (H3 a Ha). rewrite He in H3. cbn [negb orb] in H3. apply andb_true_iff in H3 as [H3 H4].
  split; apply absent_ok; assumption.
Qed.

(** A response with a password, a nickname that was not asked for and without a user name. *)
Definition ex_response : value := mk_cont (dict_of [($"schemas", VList [VStr user_uri]); ($"password", VStr ($"x")); ($"nickName", VStr ($"B")); ($"id", VStr ($"1"));
  ($"emails", VList [dict_of [($"value", VStr ($"a@b"))]])]).
Definition ex_selection : checker := mkChecker [mkRep [] ($"USERNAME") [] false; mkRep user_uri ($"emails") ($"value") false] (Some true) [].
Example ex_C29 : made user_schema /\ Forall proper (ck_reps ex_selection) /\ regular user_schema ex_response
  /\ exists iss, presence ex_selection ex_response (at_all (sc_attrs user_schema)) Response = Ok iss
     /\ In e_not_requested (errs_at iss [LStr ($"nickName")]) /\ In e_not_requested (errs_at iss [LStr ($"password")])
     /\ errs_at iss [LStr ($"id")] = [] /\ errs_at iss [LStr ($"emails")] = [] /\ In e_missing (errs_at iss [LStr ($"userName")]).
Proof.
  split; [exact user_made|]. split; [repeat (apply Forall_cons; [apply attr_name_ok_spec; reflexivity|]); apply Forall_nil|].
  split; [apply regular_check; vm_compute; reflexivity|].
  eexists. split; [vm_compute; reflexivity|]. repeat split; try reflexivity; left; reflexivity.
Qed.
Example ex_C30_item : exists iss, presence (mkChecker [] None []) (mk_cont (dict_of [($"schemas", VList [VStr group_uri]); ($"displayName", VStr []); ($"members", VList [dict_of [($"display", VStr ($"a"))]])]))
   (at_all (sc_attrs group_schema)) Request = Ok iss /\ errs_at iss [LStr ($"displayName")] = [e_missing] /\ errs_at iss [LStr ($"id")] = [e_missing].
Proof. eexists. split; [vm_compute; reflexivity|]. split; reflexivity. Qed.
Example ex_C31 : exists iss, parse_checker (map VStr [$"userName"; $"a b"; $"name.familyName"; $"x:"]) (Some true) = Ok (VInvalid, iss)
  /\ errs_at iss [LStr ($"a b")] = [e_bad_attr_name ($"a b")] /\ errs_at iss [LStr ($"userName")] = [].
Proof. eexists. split; [vm_compute; reflexivity|]. split; reflexivity. Qed.
Example ex_C31_valid : Forall valid_name [$"userName"; $"urn:x:emails.value"].
Proof.
  constructor; [apply attr_valid, attr_name_ok_spec; reflexivity|]. constructor; [|constructor]. destruct (parse_rep ($"urn:x:emails.value")) as [r|] eqn:E; [|vm_compute in E; discriminate].
  apply reads_parse in E as [segs [E _]]. exists segs, (r_attr r), (r_sub r). exact E.
Qed.

Print Assumptions C29_only_requested.
Print Assumptions C29_top_level.
Print Assumptions C30_missing_iff.
Print Assumptions C30_nothing_else.
Print Assumptions C30_top_level.
Print Assumptions C31_selection.
