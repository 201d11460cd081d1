(** Properties C70 and C71: what was accepted is accepted again and comes back. *)
From Verif Require Import PyBase BaseFacts PyNum Issues IssuesSpec IssuesFacts AttrRep AttrRepSpec Value ValueFacts Container ContainerSpec ContainerFacts
  Types TypesSpec Attr AttrSpec AttrFacts AttrItems Schema SchemaSpec SchemaFacts SchemaBuild Assets PropAttr PropSchema PatchFacts RequestFacts PropRequest
  RoundSpec RoundFacts RoundAgain RoundSchema.

Section Env.
  Context {env : PyEnv}.

  (** ** Types *)

  Lemma again_plain m1 m2 t x y : t <> TDateTime -> type_proc m1 t x = Ok (pass y) -> type_proc m2 t y = Ok (pass y).
  Proof.
    intros Nt H.
    assert (C : forall ok name, Ok (type_check ok name x) = Ok (pass y) -> ok = true /\ x = y).
    { intros ok name E. unfold type_check in E. destruct ok; [injection E as ->; auto|]. pose proof (f_equal (fun r => match r with Ok o => snd o | _ => no_issues end) E) as X. discriminate X. }
    destruct t; cbn [type_proc] in *; try (apply C in H as [H <-]; rewrite H; reflexivity); try congruence.
    - unfold decimal_proc in H. destruct (is_int x) eqn:Ei; [|apply C in H as [H <-]; unfold decimal_proc; rewrite Ei, H; reflexivity].
      destruct x; try discriminate Ei; cbn [integer_proc is_int type_check pass bind to_float] in H; apply bind_ok in H as [f [Hf H]]; apply bind_ok in Hf as [g [_ Hf]]; injection Hf as <-; injection H as <-; reflexivity.
    - unfold integer_proc in H. destruct x; try (apply C in H as [H <-]; try discriminate H; reflexivity). apply bind_ok in H as [z [_ H]]. destruct (feqb _ _); [injection H as <-; reflexivity | apply C in H as [H _]; discriminate H].
    - unfold binary_proc in H. destruct x; try (apply C in H as [H _]; discriminate H). apply bind_ok in H as [[e|] [He H]].
      + pose proof (f_equal (fun r => match r with Ok o => snd o | _ => no_issues end) H) as X. discriminate X.
      + injection H as <-. cbn [binary_proc]. rewrite He. reflexivity.
    - unfold external_proc in H. destruct x; try (apply C in H as [H _]; discriminate H). destruct (env_abs_url s) eqn:Eu.
      + injection H as <-. cbn [external_proc]. rewrite Eu. reflexivity.
      + pose proof (f_equal (fun r => match r with Ok o => snd o | _ => no_issues end) H) as X. discriminate X.
  Qed.
  Lemma date_read x y : type_proc MParse TDateTime x = Ok (pass y) -> exists s d, x = VStr s /\ env_fromiso s = Some d /\ y = VDate d.
  Proof.
    intros H. cbn [type_proc] in H. unfold datetime_parse in H.
    assert (C : forall o, Ok (fail o) = Ok (pass y) -> False) by (intros o E; pose proof (f_equal (fun r => match r with Ok o => snd o | _ => no_issues end) E) as X; discriminate X).
    destruct x; try (exfalso; exact (C _ H)). destruct (env_fromiso s) as [d|] eqn:E; [|exfalso; exact (C _ H)]. injection H as <-. exists s, d. auto.
  Qed.
  Lemma type_dec (t u : atype) : {t = u} + {t <> u}.
  Proof. decide equality. Qed.

  Lemma twice_type t x y : type_proc MParse t x = Ok (pass y) -> ~ dated y ->
    exists z, type_proc MParse t y = Ok (pass z) /\ type_proc MParse t z = Ok (pass y) /\ restated y z /\ (t <> TDateTime -> z = y).
  Proof.
    intros H D. destruct (type_dec t TDateTime) as [->|N].
    - apply date_read in H as [s [d [_ [_ ->]]]]. exfalso. apply D. constructor.
    - exists y. pose proof (again_plain MParse MParse t x y N H) as A. repeat split; try exact A. apply re_same.
  Qed.
  Lemma back_type : faithful_dates env -> forall t x y, type_proc MParse t x = Ok (pass y) -> True ->
    exists z, type_proc MDump t y = Ok (pass z) /\ type_proc MParse t z = Ok (pass y) /\ restated y z /\ (t <> TDateTime -> z = y).
  Proof.
    intros Fd t x y H _. destruct (type_dec t TDateTime) as [->|N].
    - apply date_read in H as [s [d [_ [E ->]]]]. exists (VStr (env_isofmt d)). split; [reflexivity|]. split; [|split; [apply re_date | congruence]].
      cbn [type_proc datetime_parse]. rewrite (Fd _ _ E). reflexivity.
    - exists y. split; [exact (again_plain MParse MDump t x y N H)|]. split; [exact (again_plain MParse MParse t x y N H)|]. split; [apply re_same | auto].
  Qed.
  Lemma dated_list l x : ~ dated (VList l) -> In x l -> ~ dated x.
  Proof. intros H I D. apply H. exact (dated_item l x I D). Qed.
  Lemma dated_cont d l2o k x : ~ dated (VCont d l2o) -> In (k, x) d -> ~ dated x.
  Proof. intros H I D. apply H. exact (dated_key d k x l2o I D). Qed.

  Fixpoint restated_dateless w {struct w} : forall u, restated w u -> ~ dated w -> u = w.
  Proof.
    destruct w as [| | | | | | |dt|l| |d l2o| | | | | | ]; intros u H D; try (inversion H; subst; reflexivity); try (exfalso; apply D; constructor; fail).
    all: inversion H as [v| |? l' F|? d' ? F]; subst; [reflexivity|]; clear H; f_equal.
    - revert l' F D. induction l as [|x t IH]; intros l' F D; inversion F as [|? y ? t' R F']; subst; [reflexivity|]. f_equal.
      + apply (restated_dateless x y R). intros X. apply D. exact (dated_item (x :: t) x (or_introl eq_refl) X).
      + apply (IH t' F'). intros X. apply D. inversion X as [|? z I Dz|]; subst. exact (dated_item (x :: t) z (or_intror I) Dz).
    - revert d' F D. induction d as [|[k x] t IH]; intros d' F D; inversion F as [|? [k' y] ? t' [K R] F']; subst; [reflexivity|]. cbn [fst snd] in *. subst k'. f_equal.
      + f_equal. apply (restated_dateless x y R). intros X. apply D. exact (dated_key ((k, x) :: t) k x l2o (or_introl eq_refl) X).
      + apply (IH t' F'). intros X. apply D. inversion X as [| |? k0 z ? I Dz]; subst. exact (dated_key ((k, x) :: t) k0 z l2o (or_intror I) Dz).
  Qed.

  (** ** C70: reading twice *)

  (** What an attribute whose processors only judge let through without a report is
      let through unchanged when it is read again, unless it has a date in it. *)
  Theorem C70_attr_partial : forall a v w iss, steady a -> process a MParse v = Ok (w, iss) -> silent iss -> ~ dated w ->
    exists iss', process a MParse w = Ok (w, iss') /\ silent iss'.
  Proof.
    intros a v w iss St H Q D. destruct (again_all MParse MParse (fun x => ~ dated x) dated_list dated_cont twice_type a St v w) as [u [R [R1 _]]]; [exists iss; auto | exact D|].
    rewrite (restated_dateless w u R D) in R1. exact R1.
  Qed.

  (** A document without dates that a schema parsed without a report is parsed to
      itself, again without a report. *)
  Theorem C70_schema_partial : forall s doc y iss, made s -> Forall steady (at_top (sc_attrs s)) -> unshared s -> is_object doc ->
    schema_parse s doc = Ok (y, iss) -> silent iss -> ~ dated y ->
    exists iss', schema_parse s y = Ok (y, iss') /\ silent iss'.
  Proof.
    intros s doc y iss Mk St Un Ho H Q D. destruct (again_doc MParse MParse (fun x => ~ dated x) dated_list dated_cont twice_type s doc y Mk St Un Ho) as [u [R [R1 _]]]; [exists iss; auto | exact D|].
    rewrite (restated_dateless y u R D) in R1. exact R1.
  Qed.

  (** ** C71: there and back *)

  (** What an attribute let through is dumped without a report, dates as their
      texts, and the dumped value is read as the same value. *)
  Theorem C71_attr : faithful_dates env -> forall a v w iss, steady a -> process a MParse v = Ok (w, iss) -> silent iss ->
    exists u iss1 iss2, restated w u /\ process a MDump w = Ok (u, iss1) /\ silent iss1 /\ process a MParse u = Ok (w, iss2) /\ silent iss2.
  Proof.
    intros Fd a v w iss St H Q. destruct (again_all MParse MDump (fun _ => True) (fun _ _ _ _ => I) (fun _ _ _ _ _ _ => I) (back_type Fd) a St v w) as [u [R [[i1 [R1 Q1]] [i2 [R2 Q2]]]]]; [exists iss; auto | exact I|].
    exists u, i1, i2. auto.
  Qed.

  (** The same for the documents of a schema. *)
  Theorem C71_schema_partial : faithful_dates env -> forall s doc y iss, made s -> Forall steady (at_top (sc_attrs s)) -> unshared s -> is_object doc ->
    schema_parse s doc = Ok (y, iss) -> silent iss ->
    exists u iss1 iss2, restated y u /\ base_parse MDump s y = Ok (u, iss1) /\ silent iss1 /\ schema_parse s u = Ok (y, iss2) /\ silent iss2.
  Proof.
    intros Fd s doc y iss Mk St Un Ho H Q. destruct (again_doc MParse MDump (fun _ => True) (fun _ _ _ _ => I) (fun _ _ _ _ _ _ => I) (back_type Fd) s doc y Mk St Un Ho) as [u [R [[i1 [R1 Q1]] [i2 [R2 Q2]]]]]; [exists iss; auto | exact I|].
    exists u, i1, i2. auto.
  Qed.

  (** A resource that was read is dumped with at most one report, that its type is
      another one. *)
  Theorem C71_resource_partial : faithful_dates env -> forall s doc y iss u j, made s -> Forall steady (at_top (sc_attrs s)) -> unshared s -> is_object doc ->
    schema_parse s doc = Ok (y, iss) -> silent iss -> schema_dump s y = Ok (u, j) ->
    restated y u /\ (forall l, errs_at j l = [] \/ l = [LStr ($"meta"); LStr ($"resourceType")] /\ errs_at j l = [e_resource_type_mismatch])
    /\ exists iss', schema_parse s u = Ok (y, iss') /\ silent iss'.
  Proof.
    intros Fd s doc y iss u j Mk St Un Ho H Q Hd. destruct (C71_schema_partial Fd s doc y iss Mk St Un Ho H Q) as [u' [i1 [i2 [R [H1 [Q1 [H2 Q2]]]]]]].
    unfold schema_dump in Hd. rewrite H1 in Hd. cbn [bind] in Hd.
    assert (K : u = u' /\ (forall l, errs_at j l = [] \/ l = [LStr ($"meta"); LStr ($"resourceType")] /\ errs_at j l = [e_resource_type_mismatch])).
    { destruct (negb (can_proceed i1 [])); [injection Hd as <- <-; split; [reflexivity | intros l; left; apply Q1]|]. destruct (can_proceed i1 _); [|injection Hd as <- <-; split; [reflexivity | intros l; left; apply Q1]].
      destruct (attr_named2 _ _ _) as [a|]; [|discriminate Hd]. apply bind_ok in Hd as [rt [_ Hd]]. destruct (is_missing rt); injection Hd as <- <-; [split; [reflexivity | intros l; left; apply Q1]|]. split; [reflexivity|]. intros l.
      assert (X : resource_type_issues rt (sc_name s) = no_issues \/ resource_type_issues rt (sc_name s) = add_issue no_issues e_resource_type_mismatch true meta_type_loc).
      { unfold resource_type_issues. destruct rt; auto. destruct (str_eqb _ _); auto. }
      assert (W : report i1). { apply (base_wf _ _ _ _ _ (Forall_impl _ steady_sound St) H1). }
      destruct X as [->| ->]; rewrite errs_merge_wf, (Q1 l); try apply report_wf; try exact W; try apply report_add; try apply report_empty; cbn [loc_strip app]; [left; reflexivity|].
      rewrite errs_at_add. destruct (loc_dec _ _) as [<-|]; [right; split; reflexivity | left; reflexivity]. }
    destruct K as [-> K]. split; [exact R|]. split; [exact K|]. exists i2. auto.
  Qed.
End Env.

(** ** The shipped schemas qualify *)

Lemma bulk_id_judge : judge bulk_id_validator.
Proof.
  split; [exact bulk_id_reporting|]. intros v v' iss H Q. destruct v; try discriminate. cbn [bulk_id_validator] in H. destruct (contains s ($"bulkId")).
  - injection H as _ <-. specialize (Q []). discriminate Q.
  - injection H as <- _. reflexivity.
Qed.
Lemma steady_bound r a : steady a -> steady (bound_attr r a).
Proof.
  intros H. pose proof (steady_sound a H) as Hs. inversion H as [i J D T Dt|i subs cps T P D C Cp Pl N S]; subst; cbn [bound_attr].
  - apply steady_simple; cbn [a_parsers a_dumpers a_type a_canon]; try assumption. intros X. destruct (Dt X) as [X1 X2]. split; [exact X1|]. rewrite X2. reflexivity.
  - pose proof (bound_subs r _ Hs N) as E. cbn [bound_attr sub_attrs] in E. rewrite E. apply steady_complex; first [assumption | reflexivity].
Qed.
Lemma steady_plain i : a_parsers i = [] -> a_dumpers i = [] -> a_canon i = None -> a_type i <> TComplex -> steady (mk_simple i).
Proof. intros H1 H2 H3 H4. apply steady_simple; [rewrite H1; constructor | congruence | exact H4 | auto]. Qed.
Lemma steady_canon i : a_parsers i = [] -> a_dumpers i = [] -> a_type i = TString -> steady (mk_simple i).
Proof. intros H1 H2 H3. apply steady_simple; [rewrite H1; constructor | congruence | congruence | congruence]. Qed.
Lemma steady_mk_complex i subs : a_type i = TComplex -> a_parsers i = [] -> a_dumpers i = [] -> a_canon i = None -> neat subs -> Forall steady subs -> steady (mk_complex i subs [] []).
Proof.
  intros H0 H1 H2 H3 [H4 H5] H6. assert (P : Forall (fun s => plain_rep (arep s)) subs) by (revert H4; apply Forall_impl; intros a [_ [H _]]; exact H). unfold mk_complex. rewrite dedup_names by assumption.
  cbn [app]. apply steady_complex; try assumption. destruct (a_multi i); auto.
Qed.
Lemma steady_id : steady id_attr.
Proof. apply steady_simple; [apply Forall_cons; [exact bulk_id_judge | apply Forall_nil] | reflexivity | discriminate | discriminate]. Qed.
Ltac steady_sub := first [apply steady_plain; [reflexivity | reflexivity | reflexivity | discriminate] | apply steady_canon; reflexivity].
Ltac steady_one := first [exact steady_id | steady_sub
  | apply steady_mk_complex; [reflexivity | reflexivity | reflexivity | reflexivity | neat_list | repeat (apply Forall_cons; [steady_sub|]); apply Forall_nil]].
Ltac steady_list := repeat (apply Forall_cons; [steady_one|]); apply Forall_nil.
Lemma top_steady uri ext l : Forall steady l -> Forall steady (map (fun a => bound_attr (mkRep uri (r_attr (arep a)) [] ext) a) l).
Proof. intros H. apply Forall_map. revert H. apply Forall_impl. intros a. apply steady_bound. Qed.

Lemma group_steady : Forall steady (at_top (sc_attrs group_schema)).
Proof.
  unfold group_schema, resource_schema. cbn [sc_attrs base_schema mk_attrs at_top]. change (fun a => negb (nonempty (r_sub (arep a)))) with no_sub. set (L := (_ :: _ :: _ : list attribute)).
  assert (N : neat L). { subst L. unfold immutable, schemas_attr, external_id_attr, meta_attr, server_ro. cbv zeta. neat_attrs. }
  rewrite bound_tops by (apply neat_sound; exact N). apply top_steady. subst L. unfold immutable, schemas_attr, external_id_attr, meta_attr, server_ro. cbv zeta. steady_list.
Qed.
Lemma core_user_steady : Forall steady (at_top (sc_attrs core_user)).
Proof.
  unfold core_user, resource_schema. cbn [sc_attrs base_schema mk_attrs at_top]. change (fun a => negb (nonempty (r_sub (arep a)))) with no_sub.
  set (L := (_ :: _ :: _ : list attribute)).
  assert (N : neat L). { subst L. unfold user_name_attr, name_attr, password_attr, emails_attr, phone_numbers_attr, ims_attr, photos_attr, addresses_attr, groups_attr,
    entitlements_attr, roles_attr, x509_attr, plural_attr, sattr, schemas_attr, external_id_attr, meta_attr, server_ro, canon. cbv zeta. cbn [map app]. neat_attrs. }
  rewrite bound_tops by (apply neat_sound; exact N). apply top_steady. subst L.
  unfold user_name_attr, name_attr, password_attr, emails_attr, phone_numbers_attr, ims_attr, photos_attr, addresses_attr, groups_attr,
    entitlements_attr, roles_attr, x509_attr, plural_attr, sattr, schemas_attr, external_id_attr, meta_attr, server_ro, canon. cbv zeta. cbn [map app]. steady_list.
Qed.
Lemma user_steady : Forall steady (at_top (sc_attrs user_schema)).
Proof.
  destruct (with_extension core_user enterprise_ext false) as [s|x] eqn:E.
  - assert (Es : user_schema = s) by (unfold user_schema; rewrite E; reflexivity). rewrite Es.
    destruct (extension_assembled core_user enterprise_ext false s) as [_ [_ [E2 _]]]; [exact (proj1 (made_assembled _ core_user_made)) | exact enterprise_neat
      | discriminate | exact enterprise_new | | exact E |].
    + intros a Ha He. assert (F : fresh_names (ex_uri enterprise_ext) (filter (fun a => negb (r_ext (arep a))) (at_top (sc_attrs core_user)))).
      { apply fresh_check. vm_compute. reflexivity. }
      unfold fresh_names in F. rewrite Forall_forall in F. apply F. apply filter_In. rewrite He. auto.
    + rewrite E2. apply Forall_app. split; [exact core_user_steady|]. apply top_steady.
      unfold enterprise_ext, mk_extension. cbn [ex_attrs mk_attrs at_all].
      assert (N : neat [sattr ($"employeeNumber") TString; sattr ($"costCenter") TString; sattr ($"division") TString;
         sattr ($"department") TString; sattr ($"organization") TString; manager_attr]).
      { unfold sattr, manager_attr, sattr. neat_attrs. }
      rewrite dedup_names; [|exact (proj2 N)|destruct N as [N _]; revert N; apply Forall_impl; intros a [_ [H _]]; exact H].
      unfold sattr, manager_attr, sattr. steady_list.
  - unfold user_schema. rewrite E. exact core_user_steady.
Qed.
Lemma unshared_check s : (let tops := map arep (at_top (sc_attrs s)) in
    forallb (fun a => negb (r_ext a) || forallb (fun b => negb (str_eqb (lower (r_attr a)) (lower (if r_ext b then r_schema b else r_attr b)))) tops) tops) = true -> unshared s.
Proof.
  intros H a b Ha Hb Ea E. cbv zeta in H. rewrite forallb_forall in H. specialize (H _ (in_map arep _ _ Ha)). rewrite Ea in H. cbn [negb orb] in H.
  rewrite forallb_forall in H. specialize (H _ (in_map arep _ _ Hb)). rewrite E, str_eqb_refl in H. discriminate H.
Qed.
Lemma user_unshared : unshared user_schema.
Proof. apply unshared_check. vm_compute. reflexivity. Qed.
Lemma group_unshared : unshared group_schema.
Proof. apply unshared_check. vm_compute. reflexivity. Qed.

(** ** Concrete cases *)

(** Dates written as strokes, one for each microsecond. *)
Definition ex_dates : PyEnv :=
  {| env_fromiso := fun s => if forallb (Ascii.eqb "|"%char) s then Some (mkDT (Z.of_nat (length s)) None) else None;
     env_isofmt := fun d => repeat "|"%char (Z.to_nat (dt_local d)); env_abs_url := fun _ => true |}.
Lemma strokes_faithful : faithful_dates ex_dates.
Proof.
  intros s d H. cbn [env_fromiso env_isofmt ex_dates] in *. destruct (forallb _ s); [|discriminate H]. injection H as <-. cbn [dt_local]. rewrite Nat2Z.id.
  assert (F : forall n, forallb (Ascii.eqb "|"%char) (repeat "|"%char n) = true) by (induction n; [reflexivity | exact IHn]). rewrite F, repeat_length. reflexivity.
Qed.

(** A user with an address list and a manager. *)
Definition ex_full : value := ex_user [VStr user_uri; VStr enterprise_uri]
  [($"emails", VList [dict_of [($"value", VStr ($"a@x")); ($"PRIMARY", VBool true)]; dict_of [($"value", VStr ($"b@x"))]]);
   (enterprise_uri, dict_of [($"division", VStr ($"Tour")); ($"manager", dict_of [($"displayName", VStr ($"Jo"))])])].
Definition ex_dated : value := dict_of
  [($"schemas", VList [VStr group_uri]); ($"meta", dict_of [($"resourceType", VStr ($"Group")); ($"created", VStr ($"|||"))]); ($"displayName", VStr ($"guides"))].
Fixpoint undated (v : value) : bool :=
  match v with
  | VDate _ => false
  | VList l => (fix go l := match l with [] => true | x :: t => undated x && go t end) l
  | VCont d _ => (fix go (d : list (str * value)) := match d with [] => true | (_, x) :: t => undated x && go t end) d
  | _ => true
  end.
Lemma undated_spec v : undated v = true -> ~ dated v.
Proof.
  intros H D. revert H. induction D as [d|l x I D IH|d k x l2o I D IH]; cbn [undated]; [discriminate | |].
  - induction l as [|y t IHl]; [destruct I|]. intros H. apply andb_prop in H as [H1 H2]. destruct I as [->|I]; [exact (IH H1) | exact (IHl I H2)].
  - induction d as [|[k' y] t IHl]; [destruct I|]. intros H. apply andb_prop in H as [H1 H2]. destruct I as [E|I]; [pose proof (f_equal snd E) as E'; cbn [snd] in E'; rewrite E' in H1; exact (IH H1) | exact (IHl I H2)].
Qed.
Example ex_C70 : made user_schema /\ Forall steady (at_top (sc_attrs user_schema)) /\ unshared user_schema /\ is_object ex_full
  /\ outcome_is (@schema_parse no_env user_schema ex_full) (fun y iss => iss = no_issues /\ ~ dated y /\ get_item_str y ($"emails.value") = Ok (VList [VStr ($"a@x"); VStr ($"b@x")])).
Proof. split; [exact user_made|]. split; [exact user_steady|]. split; [exact user_unshared|]. split; [exact I|]. vm_compute. split; [reflexivity|]. split; [apply undated_spec; reflexivity | reflexivity]. Qed.
Example ex_C71 : faithful_dates ex_dates /\ made group_schema /\ Forall steady (at_top (sc_attrs group_schema)) /\ unshared group_schema /\ is_object ex_dated
  /\ outcome_is (@schema_parse ex_dates group_schema ex_dated) (fun y iss => iss = no_issues /\ get_item_str y ($"meta.created") = Ok (VDate (mkDT 3 None))
       /\ outcome_is (@schema_dump ex_dates group_schema y) (fun u j => j = no_issues /\ to_dict u = ex_dated)).
Proof. split; [exact strokes_faithful|]. split; [exact group_made|]. split; [exact group_steady|]. split; [exact group_unshared|]. split; [exact I|]. vm_compute. repeat split; reflexivity. Qed.

(** The full claims, without the conditions about dates and shared names, are
    false: a date that was read is no text, and is reported when it is read
    again, ... *)
Theorem C70_dates_refuted : exists env s doc y z iss, made s /\ Forall steady (at_top (sc_attrs s)) /\ unshared s /\ is_object doc
  /\ @schema_parse env s doc = Ok (y, no_issues) /\ @schema_parse env s y = Ok (z, iss) /\ errs_at iss [LStr ($"meta"); LStr ($"created")] <> [].
Proof.
  assert (G : outcome_is (@schema_parse ex_dates group_schema ex_dated) (fun y iss => iss = no_issues /\ outcome_is (@schema_parse ex_dates group_schema y) (fun z j => errs_at j [LStr ($"meta"); LStr ($"created")] <> []))).
  { vm_compute. split; [reflexivity | discriminate]. }
  destruct (@schema_parse ex_dates group_schema ex_dated) as [[y iss]|x] eqn:E; [|contradiction]. destruct G as [-> G].
  destruct (@schema_parse ex_dates group_schema y) as [[z j]|x] eqn:E2; [|contradiction]. exists ex_dates, group_schema, ex_dated, y, z, j.
  split; [exact group_made|]. split; [exact group_steady|]. split; [exact group_unshared|]. split; [exact I|]. auto.
Qed.

(** ... and when an extension has an attribute named like a core attribute, the
    value of the one is read as the other's once the extension's object, empty in
    the document, is gone. *)
Definition twin_core : schema := resource_schema ($"urn:d") [sattr ($"note") TString] ($"D") [] None None None None.
Definition twin_ext : extension := mk_extension ($"urn:e") [sattr ($"note") TString] ($"E") [].
Definition twin_schema : schema := match with_extension twin_core twin_ext false with Ok s => s | Raise _ => twin_core end.
Definition ex_twin : value := dict_of [($"schemas", VList [VStr ($"urn:d"); VStr ($"urn:e")]); ($"note", VStr ($"hi")); ($"urn:e", dict_of [])].
Lemma twin_made : made twin_schema.
Proof.
  apply (made_ext twin_core twin_ext false).
  - unfold twin_core. apply made_resource; [discriminate | | apply fresh_check; vm_compute; reflexivity].
    unfold sattr, schemas_attr, external_id_attr, meta_attr, server_ro. cbv zeta. neat_attrs.
  - discriminate.
  - unfold twin_ext, mk_extension. cbn [ex_attrs mk_attrs at_all].
    assert (N : neat [sattr ($"note") TString]) by (unfold sattr; neat_attrs).
    rewrite dedup_names; [exact N | exact (proj2 N) | destruct N as [N _]; revert N; apply Forall_impl; intros a [_ [H _]]; exact H].
  - vm_compute. intuition discriminate.
  - apply fresh_check. vm_compute. reflexivity.
  - reflexivity.
Qed.
Theorem C70_shared_refuted : exists env s doc y z iss, made s /\ is_object doc /\ @schema_parse env s doc = Ok (y, no_issues) /\ ~ dated y
  /\ @schema_parse env s y = Ok (z, iss) /\ z <> y.
Proof.
  assert (G : outcome_is (@schema_parse no_env twin_schema ex_twin) (fun y iss => iss = no_issues /\ undated y = true /\ outcome_is (@schema_parse no_env twin_schema y) (fun z j => get_item_str z ($"urn:e:note") = Ok (VStr ($"hi")) /\ cont_keys z <> cont_keys y))).
  { vm_compute. split; [reflexivity|]. split; [reflexivity|]. split; [reflexivity | discriminate]. }
  destruct (@schema_parse no_env twin_schema ex_twin) as [[y iss]|x] eqn:E; [|contradiction]. destruct G as [-> [G1 G]].
  destruct (@schema_parse no_env twin_schema y) as [[z j]|x] eqn:E2; [|contradiction]. exists no_env, twin_schema, ex_twin, y, z, j.
  split; [exact twin_made|]. split; [exact I|]. split; [exact E|]. split; [apply undated_spec; exact G1|]. split; [exact E2|]. intros ->. apply (proj2 G). reflexivity.
Qed.

Print Assumptions C70_attr_partial.
Print Assumptions C70_schema_partial.
Print Assumptions C71_attr.
Print Assumptions C71_schema_partial.
Print Assumptions C71_resource_partial.
Print Assumptions ex_C70.
Print Assumptions ex_C71.
Print Assumptions C70_dates_refuted.
Print Assumptions C70_shared_refuted.
