(** Properties of requests and responses (C53-C55). *)
From Coq Require Import Lia.
From Verif Require Import PyBase BaseFacts PyNum Issues IssuesSpec IssuesFacts AttrRep AttrRepSpec Value Container ContainerSpec ContainerFacts ContainerRW AttrRepFacts ValueFacts
  Types Attr Schema Assets Presence Match FilterParse Path Sort Patch ListResp Search Bulk Requests
  AttrSpec AttrFacts AttrItems SchemaSpec SchemaFacts SchemaBuild PropSchema PresenceSpec PresenceFacts PropPresence PatchSpec PatchFacts PropAttr JsonCheck RequestSpec RequestFacts MsgFacts BodyFacts.

Lemma made_tops s : made s -> sound_tops s.
Proof. intros H. apply made_sound in H. apply H. Qed.

Lemma entry_get d k v : entry (VDict d) k v -> qget d k VNone = v /\ amem dkey_eqb (KStr k) d = true.
Proof.
  intros [l1 [l2 [E N]]]. injection E as ->. unfold qget, amem.
  assert (G : aget dkey_eqb (KStr k) (l1 ++ (KStr k, v) :: l2) = Some v); [|rewrite G; auto].
  induction l1 as [|[k1 v1] t IH]; cbn [aget app]; [cbn [dkey_eqb]; rewrite (proj2 (str_eqb_eq k k) eq_refl); reflexivity|].
  destruct (dkey_eqb k1 (KStr k)) eqn:E; [|apply IH; intros G; apply N; right; exact G].
  exfalso. apply N. left. cbn [fst]. destruct k1; [|discriminate]. apply str_eqb_eq in E. congruence.
Qed.
Lemma no_entry_get d k : no_entry (VDict d) k -> amem dkey_eqb (KStr k) d = false /\ aget dkey_eqb (KStr k) d = None.
Proof.
  intros H. specialize (H d eq_refl). unfold amem.
  assert (G : aget dkey_eqb (KStr k) d = None); [|rewrite G; auto].
  induction d as [|[k1 v1] t IH]; cbn [aget]; [reflexivity|].
  destruct (dkey_eqb k1 (KStr k)) eqn:E; [|apply IH; intros G; apply H; right; exact G].
  exfalso. apply H. left. cbn [fst]. destruct k1; [|discriminate]. apply str_eqb_eq in E. congruence.
Qed.
Lemma location_rep s r : the_location s r -> named_rep2 s ($"meta") ($"location") = Ok r.
Proof.
  intros [pre [a [post [E [Hp [[H1 H2] [Hr _]]]]]]]. unfold named_rep2, attr_named2. rewrite E.
  assert (G : forall l, Forall (fun b => ~ is_location b) l -> find (fun a => str_eqb (lower (r_attr (arep a))) (lower ($"meta")) && str_eqb (lower (r_sub (arep a))) (lower ($"location"))) (l ++ a :: post) = Some a).
  { induction l as [|b l IH]; intros Hl; cbn [app find].
    - change (lower ($"meta")) with ($"meta"). change (lower ($"location")) with ($"location"). rewrite H1, H2, !str_eqb_refl. reflexivity.
    - inversion Hl as [|? ? Hb Hl']; subst. destruct (_ && _) eqn:F; [|exact (IH Hl')]. exfalso. apply Hb. apply andb_true_iff in F as [F1 F2]. apply str_eqb_eq in F1, F2. split; assumption. }
  rewrite (G pre Hp), Hr. reflexivity.
Qed.

Section Env.
  Context {env : PyEnv}.

  (** ** Status codes *)

  (** The status is checked: it is reported, once, unless [good]. *)
  Definition status_checked (iss : issues) (good : Prop) : Prop :=
    (good -> errs_at iss at_status = []) /\ (~ good -> errs_at iss at_status = [e_bad_status]).

  Lemma resource_status s req ex st body h c rs iss : sound_tops s -> dump_resource s req ex st body h c = Ok (rs, iss) -> status_checked iss (st = ex).
  Proof.
    intros Hs H. apply dump_resource_spec in H as (y & js & ps & d & i0 & r & _ & _ & _ & _ & _ & R0 & _ & E & _ & _ & _ & _ & _ & _ & _ & H); [|exact Hs].
    assert (G : errs_at iss at_status = if (ex =? st)%Z then [] else [e_bad_status]).
    { rewrite <- E. destruct (_ && _); [|subst; reflexivity]. destruct H as [v [b [_ [_ ->]]]]. rewrite errs_merge by (try assumption; destruct b; repeat constructor).
      destruct b; cbn [loc_strip]; [apply app_nil_r|]. rewrite !errs_at_add. cbn. apply app_nil_r. }
    split; intros X; rewrite G; destruct (Z.eqb_spec ex st); congruence.
  Qed.

  (** C55: the status of a response is reported exactly when it is not the one
      the endpoint answers with. *)
  Theorem C55_status : forall s st body h c rs iss, made s ->
    (truthy body = true -> post_dump s st body h c = Ok (rs, iss) -> status_checked iss (st = 201%Z))
    /\ (get_dump s st body h c = Ok (rs, iss) -> status_checked iss (st = 200%Z))
    /\ (put_dump s st body h c = Ok (rs, iss) -> status_checked iss (st = 200%Z))
    /\ (patch_dump s st body h c = Ok (rs, iss) -> status_checked iss (st = 200%Z \/ st = 204%Z /\ forall k, c = Some k -> ck_reps k = []))
    /\ (delete_dump st h = (rs, iss) -> status_checked iss (st = 204%Z)).
  Proof.
    intros s st body h c rs iss Hm. apply made_tops in Hm. split; [|split; [|split; [|split]]].
    - intros Ht H. unfold post_dump in H. rewrite Ht in H. cbn [negb] in H. exact (resource_status _ _ _ _ _ _ _ _ _ Hm H).
    - apply resource_status. exact Hm.
    - apply resource_status. exact Hm.
    - intros H. unfold patch_dump in H. destruct (Z.eqb_spec st 204) as [->|N].
      + injection H as _ <-. unfold status_checked. destruct c as [k|]; [|split; [reflexivity|]].
        * destruct (ck_reps k) eqn:Ek; cbn [add_if].
          -- split; [reflexivity|]. intros G. exfalso. apply G. right. split; [reflexivity|]. intros k' [= <-]. exact Ek.
          -- split; [|reflexivity]. intros [G|[_ G]]; [discriminate G|]. specialize (G k eq_refl). congruence.
        * intros G. exfalso. apply G. right. split; [reflexivity | discriminate].
      + apply resource_status in H; [|exact Hm]. destruct H as [H1 H2]. split; [intros [G|[G _]]; [auto | congruence]|]. intros G. apply H2. intros E. apply G. auto.
    - intros [= _ <-]. unfold status_checked. destruct (Z.eqb_spec st 204); cbn [negb add_if]; split; intros G; try reflexivity; congruence.
  Qed.

  (** ** Location headers *)

  Inductive endpoint := EPost | EGet | EPut | EPatch.
  Definition respond (e : endpoint) : schema -> Z -> value -> value -> option checker -> res (response * issues) :=
    match e with EPost => post_dump | EGet => get_dump | EPut => put_dump | EPatch => patch_dump end.
  (** The response carries a resource. *)
  Definition carries (e : endpoint) (st : Z) (body : value) : Prop :=
    match e with EPost => truthy body = true | EPatch => st <> 204%Z | _ => True end.
  Lemma respond_dump e s st body h c : carries e st body ->
    respond e s st body h c = dump_resource s (match e with EPost => true | _ => false end) (match e with EPost => 201 | _ => 200 end)%Z st body h c.
  Proof.
    destruct e; cbn [respond carries]; intros H; try reflexivity.
    - unfold post_dump. rewrite H. reflexivity.
    - unfold patch_dump. destruct (Z.eqb_spec st 204); [congruence | reflexivity].
  Qed.

  Definition mismatch_header : error := mkErr 11 [$"'meta.location'"].
  Definition mismatch_body : error := mkErr 11 [$"'Location' header"].

  (** C55: with a Location header, the header is reported only for a resource
      whose meta.location is another value, then once; and such a resource is
      reported, at the header and at meta.location, when meta.location is
      otherwise in order. *)
  Theorem C55_location : forall e s st body h c rs iss u r, made s -> carries e st body -> respond e s st body h c = Ok (rs, iss) ->
    entry h ($"Location") (VStr u) -> the_location s r ->
    (errs_at iss at_header <> [] ->
       errs_at iss at_header = [mismatch_header] /\ In mismatch_body (errs_at iss (at_body at_meta_location))
       /\ exists y js v, schema_dump s body = Ok (y, js) /\ get_item y r = Ok v /\ v <> VStr u)
    /\ (forall y js v, schema_dump s body = Ok (y, js) -> get_item y r = Ok v -> v <> VStr u -> clear_above js at_meta_location ->
          (forall ps, presence (match c with Some k => k | None => mkChecker [] None [] end) y (at_all (sc_attrs s)) Response = Ok ps -> clear_above ps at_meta_location) ->
          errs_at iss at_header = [mismatch_header] /\ errs_at iss (at_body at_meta_location) = [mismatch_body]).
  Proof.
    intros e s st body h c rs iss u r Hm Hc H He Hr. apply made_tops in Hm. rewrite respond_dump in H by exact Hc.
    apply dump_resource_spec in H as (y & js & ps & d & i0 & r' & Hd & Rj & Rp & Hg & _ & R0 & Eb & _ & _ & Eh & Ee & Hps & Hr' & _ & _ & H); [|exact Hm].
    rewrite (location_rep _ _ Hr) in Hr'. injection Hr' as <-.
    assert (Eh' : h = VDict d).
    { unfold given_headers in Hg. destruct (truthy h) eqn:Et; [exact Hg|]. exfalso. destruct He as [l1 [l2 [-> _]]]. cbn in Et. destruct l1; discriminate Et. }
    subst h. destruct (entry_get _ _ _ He) as [Q A]. rewrite Q in H.
    assert (E0 : errs_at i0 at_header = []) by (unfold at_header; rewrite Eh, A, andb_false_r; reflexivity).
    destruct Hr as [_ [_ [_ [_ [_ [_ [_ [Ra Rs]]]]]]]]. destruct (can_proceed i0 _ && true) eqn:Ec.
    - destruct H as [v [b [Hv [Hb ->]]]]. apply veq_str in Hb. 
      assert (Es : forall l, errs_at (merge i0 (if b then no_issues else add_issue (add_issue no_issues (e_must_equal ($"'Location' header")) true (body_loc ++ meta_location_loc)) (e_must_equal ($"'meta.location'")) true header_location_loc) []) l
                 = errs_at i0 l ++ (if b then [] else (if loc_dec (at_body at_meta_location) l then [mismatch_body] else []) ++ (if loc_dec at_header l then [mismatch_header] else []))).
      { intros l. rewrite errs_merge by (try assumption; destruct b; repeat constructor). destruct b; [reflexivity|]. cbn [loc_strip]. rewrite !errs_at_add. reflexivity. }
      rewrite !Es, E0. split.
      + destruct b; [intros N; contradiction N; reflexivity|]. intros _. split; [reflexivity|]. split; [apply in_or_app; right; left; reflexivity|].
        exists y, js, v. split; [exact Hd|]. split; [exact Hv|]. intros E. apply Hb in E. discriminate.
      + intros y' js' v' Hd' Hv' N Cj Cp. rewrite Hd in Hd'. injection Hd' as <- <-. rewrite Hv in Hv'. injection Hv' as <-.
        assert (b = false) as -> by (destruct b; [contradiction N; apply Hb; reflexivity | reflexivity]). split; [reflexivity|].
        rewrite Eb, (Cj at_meta_location) by (exists []; reflexivity). rewrite (Cp ps); [reflexivity| |exists []; reflexivity]. apply Hps.
        apply clear_proceeds; [apply report_merge; [constructor | exact Rj]|]. intros l [<-|[]] a Ha. rewrite errs_merge by (try assumption; constructor). change (errs_at no_issues a) with (@nil error).
        destruct (loc_strip body_loc a) as [l'|] eqn:El; [|reflexivity]. apply loc_strip_spec in El. destruct Ha as [t Ha]. rewrite El in Ha. destruct l'; [|discriminate Ha]. apply (Cj []). exists at_meta_location. reflexivity.
    - subst iss. split; [intros N; contradiction N; exact E0|]. intros y' js' v' Hd' Hv' N Cj Cp. rewrite Hd in Hd'. injection Hd' as <- <-. exfalso.
      rewrite andb_true_r in Ec. assert (Z : can_proceed i0 [body_loc ++ presence_loc r; header_location_loc] = true); [|congruence].
      assert (Hp : clear_above ps at_meta_location).
      { apply Cp. apply Hps. apply clear_proceeds; [apply report_merge; [constructor | exact Rj]|]. intros l [<-|[]] a Ha. rewrite errs_merge by (try assumption; constructor). change (errs_at no_issues a) with (@nil error).
        destruct (loc_strip body_loc a) as [l'|] eqn:El; [|reflexivity]. apply loc_strip_spec in El. destruct Ha as [t Ha]. rewrite El in Ha. destruct l'; [|discriminate Ha]. apply (Cj []). exists at_meta_location. reflexivity. }
      apply clear_proceeds; [exact R0|]. unfold presence_loc. rewrite Ra, Rs. intros l [<-|[<-|[]]] a [t Ha].
      + destruct a as [|x a]; [exact Ee|]. cbn [app body_loc] in Ha. injection Ha as <- Ha. change (errs_at i0 (at_body a) = []). rewrite Eb, (Cj a), (Hp a); [reflexivity| |]; exists t; exact Ha.
      + destruct a as [|x a]; [exact Ee|]. unfold header_location_loc in Ha. injection Ha as <- Ha. change (errs_at i0 (LStr ($"headers") :: a) = []). rewrite Eh, A, andb_false_r. reflexivity.
  Qed.

  (** C55: without the header, it is reported as missing for creations only. *)
  Theorem C55_header_missing : forall e s st body h c rs iss, made s -> carries e st body -> respond e s st body h c = Ok (rs, iss) ->
    (truthy h = true -> no_entry h ($"Location")) ->
    errs_at iss at_header = match e with EPost => [mkErr 10 [$"Location"]] | _ => [] end.
  Proof.
    intros e s st body h c rs iss Hm Hc H He. apply made_tops in Hm. rewrite respond_dump in H by exact Hc.
    apply dump_resource_spec in H as (y & js & ps & d & i0 & r' & Hd & Rj & Rp & Hg & _ & R0 & Eb & _ & _ & Eh & Ee & Hps & Hr' & _ & _ & H); [|exact Hm].
    assert (A : amem dkey_eqb (KStr ($"Location")) d = false /\ aget dkey_eqb (KStr ($"Location")) d = None).
    { unfold given_headers in Hg. destruct (truthy h) eqn:Et; [subst h; exact (no_entry_get _ _ (He eq_refl)) | injection Hg as <-; split; reflexivity]. }
    destruct A as [A1 A2]. unfold qget in H. rewrite A2, andb_false_r in H. subst iss. unfold at_header. rewrite Eh, A1, andb_true_r. destruct e; reflexivity.
  Qed.

  (** ** Error responses *)

  Definition status_attr : attribute := nth 1 (at_top (sc_attrs error_schema)) schemas_attr.
  Lemma status_in : In status_attr (at_top (sc_attrs error_schema)).
  Proof. right; left; reflexivity. Qed.
  Lemma status_process t : process status_attr MDump (VStr t) = Ok (VStr t, no_issues).
  Proof. reflexivity. Qed.

  (** The status a document has is in order, so nothing is said about its presence. *)
  Lemma status_present y ps t : get_item y error_status_rep = Ok (VStr t) -> t <> [] ->
    presence default_checker y (at_all (sc_attrs error_schema)) Response = Ok ps -> errs_at ps [LStr ($"status")] = [] /\ errs_at ps [] = [].
  Proof.
    intros Hy Ht Hp. assert (no_reps : Forall proper (ck_reps default_checker)) by constructor.
    assert (G : forall p e, In e (errs_at ps p) -> p <> [LStr ($"status")] /\ p <> []).
    { intros p e He. assert (F : exists a v, In a (at_all (sc_attrs error_schema)) /\ found (at_all (sc_attrs error_schema)) y a v p /\ (~ empty_value v /\ withheld default_checker a \/ empty_value v)).
      { destruct (C30_nothing_else _ _ _ _ _ _ _ error_made no_reps Hp He) as [->|[-> _]].
        - apply (C30_missing_iff _ _ _ _ _ p error_made no_reps Hp) in He as [a [v [H1 [H2 [H3 _]]]]]. exists a, v. auto.
        - apply (C29_only_requested _ _ _ _ _ p error_made no_reps Hp) in He as [_ [a [v [H1 [H2 [H3 H4]]]]]]. exists a, v. auto. }
      destruct F as [a [v [Fa [Ff Fv]]]]. split; intros ->; [|inversion Ff].
      apply found_top_inv in Ff as [E [Fs [Fg _]]].
      assert (a = status_attr) as -> by (apply (top_unique error_schema); [exact error_made | reflexivity | exact Fa | exact Fs | exact status_in | rewrite <- E; reflexivity]).
      change (arep status_attr) with error_status_rep in Fg. rewrite Hy in Fg. injection Fg as <-. destruct Fv as [[_ []]|[Fv|[Fv|[Fv|Fv]]]]; congruence. }
    split.
    - destruct (errs_at ps [LStr ($"status")]) as [|e t'] eqn:E; [reflexivity|]. exfalso. destruct (G [LStr ($"status")] e) as [N _]; [rewrite E; left; reflexivity | congruence].
    - destruct (errs_at ps []) as [|e t'] eqn:E; [reflexivity|]. exfalso. destruct (G [] e) as [_ N]; [rewrite E; left; reflexivity | congruence].
  Qed.

  (** C55: the report on an error response whose body has a status: the status is
      reported when it is not the numeral of the response's status code, and when
      the code is not in the range 200 to 599.  (The range the specification of
      errors needs is 300 to 599.) *)
  Theorem C55_error_partial : forall st body h rs iss t, error_dump st body h = Ok (rs, iss) -> message error_schema body ->
    holds (mk_cont body) ($"status") (VStr t) -> t <> [] ->
    exists mm bad, errs_at iss at_status = mm ++ bad /\ errs_at iss (at_body [LStr ($"status")]) = mm
    /\ (numeral_z st t -> mm = []) /\ (~ numeral_z st t -> mm = [mkErr 13 []])
    /\ ((200 <= st < 600)%Z -> bad = []) /\ (~ (200 <= st < 600)%Z -> bad = [e_bad_error_status]).
  Proof.
    intros st body h rs iss t H Hd Hh Ht.
    apply error_dump_spec in H as (y & js & ps & i0 & Hb & Rj & Rp & R0 & B & O & P & _ & _ & _ & H); [|exact (made_tops _ error_made)].
    destruct (message_field error_schema MDump body y js error_made eq_refl Hd Hb status_attr (VStr t) (VStr t) no_issues status_in) as [G1 G2];
      [discriminate | exact Hh | discriminate | apply status_process | discriminate|].
    pose proof (message_clear error_schema MDump body y js error_made eq_refl Hd Hb) as G0. change (arep status_attr) with error_status_rep in G1, G2. cbn [r_attr error_status_rep] in G2.
    assert (Hp : presence default_checker y (at_all (sc_attrs error_schema)) Response = Ok ps).
    { apply P. apply clear_proceeds; [apply report_merge; [constructor | exact Rj]|]. intros l [<-|[]] a [x Ha]. rewrite errs_merge by (try assumption; constructor). change (errs_at no_issues a) with (@nil error).
      destruct (loc_strip body_loc a) as [l'|] eqn:El; [|reflexivity]. apply loc_strip_spec in El. rewrite El in Ha. destruct l'; [exact G0 | discriminate Ha]. }
    destruct (status_present _ _ _ G1 Ht Hp) as [Q1 Q2].
    assert (C : can_proceed i0 [at_body [LStr ($"status")]] = true).
    { apply clear_proceeds; [exact R0|]. intros l [<-|[]] a [x Ha]. destruct a as [|k a]; [apply O; discriminate|]. injection Ha as <- Ha. change (errs_at i0 (at_body a) = []). rewrite B.
      destruct a as [|k a]; [rewrite G0, Q2; reflexivity|].
      pose proof (f_equal (hd (LIdx 0)) Ha) as Hk. pose proof (f_equal (@tl _) Ha) as Ht'. cbn [hd tl app] in Hk, Ht'. subst k. apply eq_sym, app_eq_nil in Ht' as [-> _]. change (errs_at js [LStr ($"status")] ++ errs_at ps [LStr ($"status")] = []). rewrite G2, Q1. reflexivity. }
    rewrite C in H. destruct H as [v [Hv ->]]. rewrite G1 in Hv. injection Hv as <-.
    assert (Rc : report (error_status_code st)) by (unfold error_status_code; destruct (_ && _); repeat constructor).
    assert (Rm : report (error_status_consistency ($"status") (VStr t) st)) by (unfold error_status_consistency; destruct (str_is _ _); repeat constructor).
    exists (if str_is (VStr t) (dec_of_Z st) then [] else [e_status_mismatch]), (if ((200 <=? st) && (st <? 600))%Z then [] else [e_bad_error_status]).
    assert (E0 : errs_at i0 at_status = []) by (apply O; discriminate). assert (E1 : errs_at i0 (at_body [LStr ($"status")]) = []) by (rewrite B, G2, Q1; reflexivity).
    split; [|split; [|split; [|split; [|split]]]].
    - rewrite !errs_merge by (repeat apply report_merge; assumption). cbn [loc_strip]. rewrite E0. unfold error_status_consistency, error_status_code. destruct (str_is _ _), (_ && _); rewrite ?errs_at_add; reflexivity.
    - rewrite !errs_merge by (repeat apply report_merge; assumption). cbn [loc_strip]. rewrite E1. unfold error_status_consistency, error_status_code. destruct (str_is _ _), (_ && _); rewrite ?errs_at_add; reflexivity.
    - intros N. destruct (str_is _ _) eqn:E; [reflexivity|]. exfalso. assert (X : str_is (VStr t) (dec_of_Z st) = true) by (apply str_is_numeral; eauto). congruence.
    - intros N. destruct (str_is _ _) eqn:E; [|reflexivity]. exfalso. apply N. apply str_is_numeral in E as [t' [[= <-] E]]. exact E.
    - intros N. destruct (Z.leb_spec 200 st), (Z.ltb_spec st 600); try lia. reflexivity.
    - intros N. destruct (Z.leb_spec 200 st), (Z.ltb_spec st 600); try reflexivity. lia.
  Qed.

  (** C55: the range is checked whatever the body is. *)
  Theorem C55_error_range_partial : forall st body h rs iss, error_dump st body h = Ok (rs, iss) ->
    (In e_bad_error_status (errs_at iss at_status) <-> ~ (200 <= st < 600)%Z).
  Proof.
    intros st body h rs iss H. apply error_dump_spec in H as (y & js & ps & i0 & Hb & Rj & Rp & R0 & B & O & P & _ & _ & _ & H); [|exact (made_tops _ error_made)].
    assert (Rc : report (error_status_code st)) by (unfold error_status_code; destruct (_ && _); repeat constructor).
    assert (E : In e_bad_error_status (errs_at iss at_status) <-> In e_bad_error_status (errs_at (error_status_code st) at_status)).
    { assert (E0 : errs_at i0 at_status = []) by (apply O; discriminate). match type of H with context[can_proceed ?i ?l] => destruct (can_proceed i l) end.
      - destruct H as [v [_ ->]]. assert (Rm : report (error_status_consistency ($"status") v st)) by (unfold error_status_consistency; destruct (str_is _ _); repeat constructor).
        rewrite !errs_merge by (repeat apply report_merge; assumption). cbn [loc_strip]. rewrite E0, !in_app_iff. unfold error_status_consistency. destruct (str_is _ _); rewrite ?errs_at_add; cbn; intuition discriminate.
      - subst iss. rewrite errs_merge by assumption. rewrite E0. reflexivity. }
    rewrite E. unfold error_status_code. destruct (Z.leb_spec 200 st), (Z.ltb_spec st 600); cbn [andb]; rewrite ?errs_at_add; cbn; intuition lia.
  Qed.

  (** ** Bodies *)

  (** What validators of requests and responses that have a body return: the body
      and the report. *)
  Inductive answer : value -> issues -> Prop :=
  | an_post s b h q rq iss : made s -> post_parse s b h q = Ok (rq, iss) -> answer (rq_body rq) iss
  | an_put s b h q rq iss : made s -> put_parse s b h q = Ok (rq, iss) -> answer (rq_body rq) iss
  | an_patch s b h q rq iss : made s -> patch_parse_request s b h q = Ok (rq, iss) -> answer (rq_body rq) iss
  | an_search b h q rq iss : search_parse_request b h q = Ok (rq, iss) -> answer (rq_body rq) iss
  | an_bulk ss mx b h q rq iss : Forall made ss -> bulk_parse_request ss mx b h q = Ok (rq, iss) -> answer (rq_body rq) iss
  | an_response e s st b h c rs iss : made s -> carries e st b -> respond e s st b h c = Ok (rs, iss) -> answer (rs_body rs) iss
  | an_error st b h rs iss : error_dump st b h = Ok (rs, iss) -> answer (rs_body rs) iss
  | an_list ss st b h si n f so c rs iss : Forall made ss -> list_dump_response ss st b h si n f so c = Ok (rs, iss) -> answer (rs_body rs) iss
  | an_bulk_response ss st b h f rs iss : Forall made ss -> bulk_dump_response ss st b h f = Ok (rs, iss) -> answer (rs_body rs) iss.

  (** C53: a validator returns no body exactly when it reports something.  (GET
      requests, which have no body, are left out: see C53_get_refuted.) *)
  Theorem C53_body_partial : forall b iss, answer b iss -> (b = VNone <-> reported iss).
  Proof.
    assert (M : forall l, Forall made l -> Forall sound l) by (intros l; apply Forall_impl; exact made_sound).
    intros b iss H. destruct H as [s b h q rq iss Hm H|s b h q rq iss Hm H|s b h q rq iss Hm H|b h q rq iss H|ss mx b h q rq iss Hm H|e s st b h c rs iss Hm Hc H|st b h rs iss H|ss st b h si n f so c rs iss Hm H|ss st b h f rs iss Hm H].
    - exact (proj2 (post_dropped _ _ _ _ _ _ (made_sound _ Hm) H)).
    - exact (proj2 (put_dropped _ _ _ _ _ _ (made_sound _ Hm) H)).
    - exact (proj2 (patch_dropped _ _ _ _ _ _ (made_sound _ Hm) H)).
    - exact (search_dropped _ _ _ _ _ H).
    - exact (bulk_request_dropped _ _ _ _ _ _ _ (M _ Hm) H).
    - rewrite respond_dump in H by exact Hc. exact (proj2 (dump_resource_wf _ _ _ _ _ _ _ _ _ (made_sound _ Hm) H)).
    - exact (proj2 (error_dump_wf _ _ _ _ _ H)).
    - exact (list_dropped _ _ _ _ _ _ _ _ _ _ _ (M _ Hm) H).
    - exact (bulk_response_dropped _ _ _ _ _ _ _ (M _ Hm) H).
  Qed.

  (** C53: responses without a body never get one. *)
  Theorem C53_no_body : forall s st h c rs iss,
    (forall b, truthy b = false -> post_dump s st b h c = Ok (rs, iss) -> rs_body rs = VNone)
    /\ (forall b, patch_dump s 204 b h c = Ok (rs, iss) -> rs_body rs = VNone)
    /\ (delete_dump st h = (rs, iss) -> rs_body rs = VNone).
  Proof.
    intros s st h c rs iss. split; [|split].
    - intros b Hb H. unfold post_dump in H. rewrite Hb in H. injection H as <- _. reflexivity.
    - intros b H. injection H as <- _. reflexivity.
    - intros [= <- _]. reflexivity.
  Qed.
End Env.

(** C53: the full statement fails for GET requests: a body that came with a
    faulty query is returned. *)
Theorem C53_get_refuted : exists b h q rq iss,
  get_parse b h q = Ok (rq, iss) /\ reported iss /\ rq_body rq = b /\ b <> VNone.
Proof.
  exists (VDict []), VNone, (dict_of [($"attributes", VStr ($"a")); ($"excludeAttributes", VStr ($"b"))]).
  eexists _, _. split; [reflexivity|]. split; [|split; [reflexivity | discriminate]].
  exists [LStr ($"query_string"); LStr ($"attributes")]. discriminate.
Qed.

(** C55: the full statement fails for the range: an error response with a status
    below 300 is accepted. *)
Definition ex_error (status : str) : value := dict_of [($"schemas", VList [VStr ($"urn:ietf:params:scim:api:messages:2.0:Error")]); ($"status", VStr status); ($"detail", VStr ($"no"))].
Theorem C55_error_range_refuted : exists env st body h rs, ~ (300 <= st < 600)%Z /\ @error_dump env st body h = Ok (rs, no_issues).
Proof.
  exists no_env, 250%Z, (ex_error ($"250")), VNone. eexists. split; [lia|]. vm_compute. reflexivity.
Qed.
(** C55: a creation response without a body is accepted whatever its status and
    headers are. *)
Theorem C55_empty_body_refuted : exists env s st body h rs, made s /\ st <> 201%Z /\ @post_dump env s st body h None = Ok (rs, no_issues).
Proof.
  exists no_env, user_schema, 500%Z, (VDict []), VNone. eexists. split; [exact user_made|]. split; [discriminate | reflexivity].
Qed.

(** ** Concrete cases *)

Lemma location_by s r : option_map arep (find (fun a => str_eqb (lower (r_attr (arep a))) ($"meta") && str_eqb (lower (r_sub (arep a))) ($"location")) (at_all (sc_attrs s))) = Some r ->
  r_attr r = $"meta" -> r_sub r = $"location" -> the_location s r.
Proof.
  intros H Ha Hs. unfold the_location.
  assert (G : forall l, option_map arep (find (fun a => str_eqb (lower (r_attr (arep a))) ($"meta") && str_eqb (lower (r_sub (arep a))) ($"location")) l) = Some r ->
    exists pre a post, l = pre ++ a :: post /\ Forall (fun b => ~ is_location b) pre /\ is_location a /\ arep a = r).
  { clear H. induction l as [|b l IH]; cbn [find]; intros H; [discriminate|].
    destruct (str_eqb_spec (lower (r_attr (arep b))) ($"meta")) as [E1|E1], (str_eqb_spec (lower (r_sub (arep b))) ($"location")) as [E2|E2]; cbn [andb] in H.
    - injection H as <-. exists [], b, l. split; [reflexivity|]. split; [constructor|]. split; [split; assumption | reflexivity].
    - destruct (IH H) as [pre [a [post [-> [X Y]]]]]. exists (b :: pre), a, post. split; [reflexivity|]. split; [constructor; [intros [_ F]; exact (E2 F) | exact X] | exact Y].
    - destruct (IH H) as [pre [a [post [-> [X Y]]]]]. exists (b :: pre), a, post. split; [reflexivity|]. split; [constructor; [intros [F _]; exact (E1 F) | exact X] | exact Y].
    - destruct (IH H) as [pre [a [post [-> [X Y]]]]]. exists (b :: pre), a, post. split; [reflexivity|]. split; [constructor; [intros [F _]; exact (E1 F) | exact X] | exact Y]. }
  destruct (G _ H) as [pre [a [post [E [X [Y Z]]]]]]. exists pre, a, post. repeat (split; [assumption|]). assumption.
Qed.

Definition ex_a_group (schemas : list value) (rest : list (str * value)) : value :=
  dict_of (($"schemas", VList schemas) :: ($"DISPLAYNAME", VStr ($"tour guides")) :: rest).
Definition ex_created : value :=
  ex_a_group [VStr group_uri] [($"id", VStr ($"1")); ($"meta", dict_of [($"resourceType", VStr ($"Group")); ($"location", VStr ($"https://x/Groups/1"))])].
Definition ex_headers (u : str) : value := dict_of [($"Location", VStr u)].
Definition ex_location : attr_rep := mkRep group_uri ($"meta") ($"location") false.
Definition outcome_is {A} (m : res (A * issues)) (P : A -> issues -> Prop) : Prop := match m with Ok (a, iss) => P a iss | Raise _ => False end.

(** A creation answered with the wrong status and a location that differs from the
    header, and one in order. *)
Example ex_C55_created : made group_schema /\ carries EPost 200 ex_created /\ the_location group_schema ex_location /\ entry (ex_headers ($"https://x/Groups/2")) ($"Location") (VStr ($"https://x/Groups/2"))
  /\ outcome_is (@respond no_env EPost group_schema 200 ex_created (ex_headers ($"https://x/Groups/2")) None) (fun rs iss =>
       errs_at iss at_status = [e_bad_status] /\ errs_at iss at_header = [mismatch_header] /\ errs_at iss (at_body at_meta_location) = [mismatch_body] /\ rs_body rs = VNone)
  /\ outcome_is (@respond no_env EPost group_schema 201 ex_created (ex_headers ($"https://x/Groups/1")) None) (fun rs iss => iss = no_issues)
  /\ outcome_is (@respond no_env EPost group_schema 201 ex_created VNone None) (fun rs iss => errs_at iss at_header = [mkErr 10 [$"Location"]]).
Proof.
  split; [exact group_made|]. split; [reflexivity|]. split; [apply location_by; [vm_compute; reflexivity | reflexivity | reflexivity]|].
  split; [exists [], []; split; [reflexivity | intros []]|]. split; [|split].
  - vm_compute. repeat split; reflexivity.
  - vm_compute. reflexivity.
  - vm_compute. reflexivity.
Qed.
Example ex_C55_error : message error_schema (ex_error ($"404")) /\ holds (mk_cont (ex_error ($"404"))) ($"status") (VStr ($"404"))
  /\ outcome_is (@error_dump no_env 404 (ex_error ($"404")) VNone) (fun rs iss => iss = no_issues)
  /\ outcome_is (@error_dump no_env 600 (ex_error ($"404")) VNone) (fun rs iss => errs_at iss at_status = [mkErr 13 []; e_bad_error_status]).
Proof.
  split; [split; [exact I | intros [k H]; vm_compute in H; discriminate]|]. split; [eexists _, _, _; split; [reflexivity|]; split; vm_compute; reflexivity|].
  split; vm_compute; reflexivity.
Qed.

(** Bodies kept and dropped. *)
Example ex_C53 : outcome_is (@post_parse no_env group_schema (ex_a_group [VStr group_uri] []) VNone VNone) (fun rq iss => @answer no_env (rq_body rq) iss /\ iss = no_issues)
  /\ outcome_is (@post_parse no_env group_schema (ex_a_group [VStr ($"urn:x")] []) VNone VNone) (fun rq iss => @answer no_env (rq_body rq) iss /\ reported iss /\ rq_body rq = VNone).
Proof.
  split.
  - assert (G : outcome_is (@post_parse no_env group_schema (ex_a_group [VStr group_uri] []) VNone VNone) (fun rq iss => iss = no_issues)) by (vm_compute; reflexivity).
    destruct (@post_parse no_env group_schema (ex_a_group [VStr group_uri] []) VNone VNone) as [[rq iss]|x] eqn:E; [|contradiction]. split; [exact (@an_post no_env _ _ _ _ _ _ group_made E) | exact G].
  - assert (G : outcome_is (@post_parse no_env group_schema (ex_a_group [VStr ($"urn:x")] []) VNone VNone) (fun rq iss => rq_body rq = VNone)) by (vm_compute; reflexivity).
    destruct (@post_parse no_env group_schema (ex_a_group [VStr ($"urn:x")] []) VNone VNone) as [[rq iss]|x] eqn:E; [|contradiction]. cbn [outcome_is] in *.
    pose proof (@an_post no_env _ _ _ _ _ _ group_made E) as A. split; [exact A|]. split; [apply (@C53_body_partial no_env _ _ A); exact G | exact G].
Qed.

Print Assumptions C55_status.
Print Assumptions C55_location.
Print Assumptions C55_header_missing.
Print Assumptions C55_error_partial.
Print Assumptions C55_error_range_partial.
Print Assumptions C55_error_range_refuted.
Print Assumptions C55_empty_body_refuted.
Print Assumptions C53_body_partial.
Print Assumptions C53_no_body.
Print Assumptions C53_get_refuted.
