(** Property C80: error responses (src/request_validators.py 49-79,
    src/assets/schemas/error.py, src/assets/scim_error.py). *)
From Coq Require Import Lia.
From Verif Require Import PyBase BaseFacts PyNum Issues IssuesSpec IssuesFacts AttrRep AttrRepSpec Value ValueFacts Container ContainerSpec ContainerFacts ContainerRW
  Types Attr AttrSpec AttrFacts AttrItems Schema Assets Presence Match FilterParse Path Sort Patch ListResp Search Bulk Requests SchemaSpec SchemaFacts SchemaBuild PropSchema PatchFacts
  RequestSpec RequestFacts FileSpec FileFacts SelfSpec SelfFacts SelfDump Config CatalogSpec CatalogFacts ServedSpec ServedFacts PropAttr ScimErrors FaultSpec.

(** A numeral names one number. *)
Definition number_of (s : str) : nat := fold_left (fun n c => 10 * n + (nat_of_ascii c - 48)) s 0.
Lemma numeral_number n s : numeral n s -> n = number_of s.
Proof.
  assert (E : forall d, d < 10 -> nat_of_ascii (ascii_of_nat (48 + d)) - 48 = d) by (intros d Hd; rewrite nat_ascii_embedding by lia; lia).
  induction 1 as [d Hd|n d s Hn Hd _ IH]; unfold number_of in *.
  - cbn [fold_left]. rewrite E by exact Hd. lia.
  - rewrite fold_left_app. cbn [fold_left]. rewrite E by exact Hd. rewrite <- IH. reflexivity.
Qed.
Lemma numeral_400 z : numeral_z z ($"400") -> z = 400%Z.
Proof. intros [[Hz H]|[_ [u [E _]]]]; [|discriminate E]. apply numeral_number in H. change (number_of ($"400")) with 400 in H. lia. Qed.

Section Env.
  Context {env : PyEnv}.

  Definition fault_list : list attribute :=
    [schemas_attr; mk_simple (with_procs [parse_error_status] [] (with_ret RetAlways (with_required (plain ($"status") TString))));
     mk_simple (with_ret RetAlways (with_canon true (canon ["invalidFilter"; "tooMany"; "uniqueness"; "mutability"; "invalidSyntax"; "invalidPath"; "noTarget"; "invalidValue"; "invalidVers"; "sensitive"]%string) (plain ($"scimType") TString)));
     mk_simple (with_ret RetAlways (plain ($"detail") TString))].
  Lemma fault_tops : at_top (sc_attrs error_schema) = map (fun a => bound_attr (mkRep fault_uri (r_attr (arep a)) [] false) a) fault_list.
  Proof. reflexivity. Qed.
  Lemma fault_all : at_all (sc_attrs error_schema) = flat_map (bound_all fault_uri false) fault_list.
  Proof.
    change (dedup_attrs (flat_map (bound_all fault_uri false) fault_list) = flat_map (bound_all fault_uri false) fault_list).
    apply dedup_id. apply (NoDup_map_inv (fun k => match k with (a, b, c) => b ++ $"." ++ c end)). apply nodupb_ok. vm_compute. reflexivity.
  Qed.
  Definition kind_attr : attribute := nth 2 (at_top (sc_attrs error_schema)) schemas_attr.
  Lemma kind_dumped k : process kind_attr MDump (VStr k) = Ok (VStr k, no_issues).
  Proof.
    assert (E : exists i, kind_attr = MkAttr i None /\ a_type i = TString /\ a_multi i = false /\ a_validate i = false /\ a_dumpers i = []) by (eexists; repeat split; reflexivity).
    destruct E as (i & -> & H1 & H2 & H3 & H4). cbn [process]. unfold base_process. rewrite H1, H2. cbn [is_list andb negb type_proc type_check is_str]. unfold pass. cbn [bind]. rewrite merge_nil.
    unfold canon_step. rewrite H3. destruct (is_canonical _ _); change (has_issues no_issues []) with false; cbn [procs_of]; rewrite H4; reflexivity.
  Qed.

  Definition fault_page (t : str) (f : fault) : value := tabled (($"schemas", VList [VStr fault_uri]) :: fault_fields t f).
  Lemma fault_loaded t f d : fault_doc (fault_fields t f) = VDict d -> mk_cont (VDict d) = fault_page t f.
  Proof.
    intros <-. destruct f as [k e]. unfold fault_doc, fault_page, fault_fields, dict_of. cbn [ft_kind ft_detail]. destruct k, e; cbn [unless_empty app]; rewrite mk_cont_dict; reflexivity.
  Qed.
  Lemma fault_dumped t f d : fault_doc (fault_fields t f) = VDict d -> base_parse MDump error_schema (VDict d) = Ok (fault_page t f, no_issues).
  Proof.
    intros E. pose proof (fault_loaded t f d E) as L. clear E. destruct f as [k e].
    assert (P : process_data MDump error_schema (VDict d) = Ok (fault_page t {| ft_kind := k; ft_detail := e |}, no_issues)).
    { unfold process_data. rewrite L. pose proof (kind_dumped k) as Pk. unfold kind_attr in Pk. rewrite fault_tops in *. clear L. unfold fault_list in *. cbn [map nth] in *.
      set (a3 := bound_attr _ (mk_simple (with_ret RetAlways (with_canon true _ _)))) in *. assert (A3 : arep a3 = mkRep fault_uri ($"scimType") [] false) by reflexivity. clearbody a3.
      unfold fault_page, fault_fields. cbn [ft_kind ft_detail].
      destruct k as [|k0 k], e as [|e0 e]; cbn [unless_empty app];
      do 2 (erewrite attrs_write; [|reflexivity | reflexivity | reflexivity | discriminate]);
      [rewrite attrs_skip by (rewrite A3; reflexivity); rewrite attrs_skip by reflexivity
      |rewrite attrs_skip by (rewrite A3; reflexivity); erewrite attrs_write; [|reflexivity | reflexivity | reflexivity | discriminate]
      |erewrite attrs_write; [|rewrite A3; reflexivity | exact Pk | rewrite A3; reflexivity | discriminate]; rewrite attrs_skip by reflexivity
      |erewrite attrs_write; [|rewrite A3; reflexivity | exact Pk | rewrite A3; reflexivity | discriminate]; erewrite attrs_write; [|reflexivity | reflexivity | reflexivity | discriminate]]; reflexivity. }
    unfold base_parse. rewrite P. clear P L. cbn [bind]. unfold fault_page, fault_fields. cbn [ft_kind ft_detail]. destruct k, e; cbn [unless_empty app]; vm_compute; reflexivity.
  Qed.
  Lemma fault_present t f : t <> [] -> presence default_checker (fault_page t f) (at_all (sc_attrs error_schema)) Response = Ok no_issues.
  Proof.
    intros N. apply all_fine. rewrite fault_all. generalize (flat_map (bound_all fault_uri false) fault_list) at 2. intros all b Hb. apply text_there in N. destruct f as [k e]. unfold fault_page, fault_fields. cbn [ft_kind ft_detail].
    destruct k as [|k0 k], e as [|e0 e]; cbn [unless_empty app];
    (repeat (destruct Hb as [<-|Hb];
      [eapply top_fine; [reflexivity | reflexivity | reflexivity | first [apply optional_fine; [reflexivity | discriminate] | apply there_fine; [first [reflexivity | exact N] | discriminate]]]|])); destruct Hb.
  Qed.
  Lemma fault_filed t f : filed json_scalar (fault_page t f).
  Proof.
    destruct f as [k e]. unfold fault_page, fault_fields. cbn [ft_kind ft_detail].
    destruct k, e; cbn [unless_empty app]; (apply tabled_filed; [apply nodupb_ok; reflexivity|]); repeat apply Forall_cons; try apply Forall_nil; cbn [snd];
      try (apply filed_scalar; split; exact I); apply filed_list; repeat constructor.
  Qed.

  (** Every error, whatever its kind and detail, is served under a status of 300
      to 599 as it is, and whoever reads the body finds it. *)
  Theorem C80_served : forall f st t h, (300 <= st < 600)%Z -> numeral_z st t ->
    exists body, error_dump st (fault_doc (fault_fields t f)) h = Ok (mkResp h body, no_issues) /\ tells_fault t f (mk_cont body).
  Proof.
    intros f st t h Hs Ht. assert (Nt : t <> []).
    { intros ->. destruct Ht as [[_ X]|[_ [u [X _]]]]; [|discriminate X]. inversion X; subst. match goal with E : ?s ++ _ = [] |- _ => destruct s; discriminate E end. }
    exists (to_dict (fault_page t f)). split.
    - unfold error_dump. assert (D : exists d, fault_doc (fault_fields t f) = VDict d) by (eexists; reflexivity). destruct D as [d D]. rewrite D, (fault_dumped t f d D). cbn [bind].
      rewrite merge_nil. change (can_proceed no_issues [body_loc]) with true. cbv iota. rewrite (fault_present t f Nt). cbn [bind]. rewrite merge_nil, error_rep. cbn [bind].
      change (can_proceed no_issues [body_loc ++ presence_loc error_status_rep]) with true. cbv iota.
      assert (G : get_item (fault_page t f) error_status_rep = Ok (VStr t)) by (destruct f as [k e]; unfold fault_page, fault_fields; cbn [ft_kind ft_detail]; destruct k, e; reflexivity).
      rewrite G. cbn [bind]. unfold error_status_consistency. replace (str_is (VStr t) (dec_of_Z st)) with true by (symmetry; apply str_is_numeral; eauto).
      unfold error_status_code. destruct (Z.leb_spec 200 st), (Z.ltb_spec st 600); try lia. cbn [andb]. rewrite !merge_nil. reflexivity.
    - rewrite filed_back; [|apply fault_filed | reflexivity]. destruct f as [k e]. unfold tells_fault, stated_text, fault_page, fault_fields. cbn [ft_kind ft_detail].
      destruct k, e; cbn [unless_empty app]; (split; [apply holds_look; reflexivity|]); (split; [apply holds_look; reflexivity|]); (split; intros w; rewrite holds_look;
        (split; [first [discriminate | intros X; injection X as <-; split; [reflexivity | discriminate]] | intros [-> X]; first [contradiction | reflexivity]])).
  Qed.

  (** The library's own errors, put into messages, are served under status 400,
      and reported under any other. *)
  Theorem C80_constants : forall c st h, In c scim_errors ->
    (st = 400%Z -> exists body, error_dump st (fault_doc c) h = Ok (mkResp h body, no_issues)
       /\ exists f, In (ft_kind f) rfc_kinds /\ tells_fault ($"400") f (mk_cont body))
    /\ (st <> 400%Z -> forall rs iss, error_dump st (fault_doc c) h = Ok (rs, iss) -> errs_at iss (at_body [LStr ($"status")]) = [mkErr 13 []]).
  Proof.
    intros c st h Hc. assert (N : numeral_z 400 ($"400")) by (exact (dec_Z_numeral 400)).
    assert (K : exists f, c = fault_fields ($"400") f /\ In (ft_kind f) rfc_kinds).
    { unfold scim_errors in Hc. repeat (destruct Hc as [<-|Hc]; [unfold scim_error; match goal with |- exists f, [_; (_, VStr ?k); (_, VStr ?d)] = _ /\ _ => exists {| ft_kind := k; ft_detail := d |} end; split; [reflexivity | cbn [ft_kind rfc_kinds In]; tauto]|]). destruct Hc. }
    destruct K as [f [-> Hk]]. split.
    - intros ->. destruct (C80_served f 400 ($"400") h ltac:(lia) N) as [b [H T]]. exists b. split; [exact H|]. exists f. split; assumption.
    - intros Hs rs iss H. unfold error_dump in H. assert (D : exists d, fault_doc (fault_fields ($"400") f) = VDict d) by (eexists; reflexivity). destruct D as [d D]. rewrite D, (fault_dumped ($"400") f d D) in H. cbn [bind] in H.
      rewrite merge_nil in H. change (can_proceed no_issues [body_loc]) with true in H. cbv iota in H. rewrite (fault_present ($"400") f ltac:(discriminate)) in H. cbn [bind] in H. rewrite merge_nil, error_rep in H. cbn [bind] in H.
      change (can_proceed no_issues [body_loc ++ presence_loc error_status_rep]) with true in H. cbv iota in H.
      assert (G : get_item (fault_page ($"400") f) error_status_rep = Ok (VStr ($"400"))) by (destruct f as [k e]; unfold fault_page, fault_fields; cbn [ft_kind ft_detail]; destruct k, e; reflexivity).
      rewrite G in H. cbn [bind] in H. unfold error_status_consistency in H.
      destruct (str_is (VStr ($"400")) (dec_of_Z st)) eqn:E.
      { exfalso. apply Hs. apply str_is_numeral in E as [u [Eu E]]. injection Eu as <-. exact (numeral_400 _ E). }
      apply bind_ok in H as [b [_ H]]. injection H as _ <-. unfold error_status_code. destruct (_ && _); reflexivity.
  Qed.
End Env.

#[local] Existing Instance no_env.

Example ex_C80 : (300 <= 404 < 600)%Z /\ numeral_z 404 ($"404")
  /\ fault_fields ($"404") {| ft_kind := []; ft_detail := $"Resource 2819c223 not found" |} = [($"status", VStr ($"404")); ($"detail", VStr ($"Resource 2819c223 not found"))].
Proof. split; [lia|]. split; [exact (dec_Z_numeral 404) | reflexivity]. Qed.
Example ex_C80_constants : In (scim_error ($"invalidPath") ($"The 'path' attribute was invalid or malformed.")) scim_errors.
Proof. cbn [scim_errors In]. tauto. Qed.

(** The claim would be that only kinds of RFC 7644 are served. The check of
    declared values is lost when attributes are bound to the schema, so any text
    passes. *)
Theorem C80_kinds_refuted : ~ (forall f st t h rs, error_dump st (fault_doc (fault_fields t f)) h = Ok (rs, no_issues) -> ft_kind f = [] \/ In (ft_kind f) rfc_kinds).
Proof.
  intros H. destruct (C80_served {| ft_kind := $"whatever"; ft_detail := [] |} 400 ($"400") VNone ltac:(lia) (dec_Z_numeral 400)) as [b [E _]].
  destruct (H _ _ _ _ _ E) as [X|X]; [discriminate X|]. cbn [ft_kind] in X. repeat (destruct X as [X|X]; [discriminate X|]). destruct X.
Qed.

(** The claim would be that the library's own errors are served as they are.
    They lack "schemas", and every one of them is refused. *)
Theorem C80_bare_refuted : forall c h, In c scim_errors ->
  exists iss, error_dump 400 (dict_of c) h = Ok (mkResp h VNone, iss) /\ errs_at iss (at_body [LStr ($"schemas")]) = [err 15].
Proof. intros c h Hc. unfold scim_errors in Hc. repeat (destruct Hc as [<-|Hc]; [eexists; split; [vm_compute; reflexivity | reflexivity]|]). destruct Hc. Qed.

Print Assumptions C80_served.
Print Assumptions C80_constants.
Print Assumptions C80_kinds_refuted.
Print Assumptions C80_bare_refuted.
