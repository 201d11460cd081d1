(** Properties C67 and C68: the resources of list responses. *)
From Coq Require Import Lia.
From Verif Require Import PyBase BaseFacts PyNum Issues IssuesSpec IssuesFacts AttrRep AttrRepSpec Value Container ContainerSpec ContainerFacts ContainerRW AttrRepFacts ValueFacts
  Types Attr Schema Assets Presence Match FilterParse Path Sort Patch ListResp Search Bulk Requests
  AttrSpec AttrFacts AttrItems SchemaSpec SchemaFacts SchemaBuild PropAttr PropSchema MatchSpec MatchFacts PresenceSpec PresenceFacts PropPresence PatchSpec PatchFacts RequestSpec ListSpec RequestFacts MsgFacts BodyFacts PropRequest ListFacts PropList
  ListItemSpec ListItemFacts.

Section Env.
  Context {env : PyEnv}.

  Section Listing.
    Variables (schemas : list schema) (doc : value) (count : option Z) (t : Z) (si ipp : option Z) (l : list value) (f : option oper) (c : option checker) (resp : response) (iss : issues).
    Hypothesis H : listing schemas doc count t si ipp l f c resp iss.

    Lemma reported_own ss xs jl i x e p : schemas_for schemas l = Ok ss ->
      (forall n x r, nth_error l n = Some x -> nth_error ss n = Some r -> exists x' j, nth_error xs n = Some x' /\ nth_error jl n = Some j /\ treated x r x' j) ->
      nth_error l i = Some x -> (In e (noted jl i p) <-> own schemas x e p).
    Proof.
      intros Hss T Hx. destruct (schemas_for_found _ _ _ _ _ (listing_ordinary _ _ _ _ _ _ _ _ _ _ _ H) Hss Hx) as [r [Hr F]]. destruct (T i x r Hx Hr) as (x' & j & _ & Hj & Tr).
      unfold noted. rewrite Hj. exact (own_iff _ _ _ _ _ _ _ F Tr).
    Qed.

    (** When a resource has something wrong with it by itself, or the numbers are
        wrong, the report says about each resource exactly what is wrong with it by
        itself. *)
    Theorem C67_own i x e p : ~ right_numbers count t ipp l \/ (exists y e' q, In y l /\ own schemas y e' q) -> nth_error l i = Some x ->
      (In e (errs_at iss (at_resource i p)) <-> own schemas x e p).
    Proof.
      intros B Hx. destruct (listing_stage _ _ _ _ _ _ _ _ _ _ _ H) as (y & js & ss & xs & jl & _ & _ & Hss & _ & _ & T & D).
      destruct D as [[_ [_ E]]|[R [Z _]]].
      - rewrite E. exact (reported_own ss xs jl i x e p Hss T Hx).
      - exfalso. destruct B as [B|[z [e' [q [Hz Ho]]]]]; [exact (B R)|]. apply In_nth_error in Hz as [n Hn]. apply (reported_own ss xs jl n z e' q Hss T Hn) in Ho. rewrite Z in Ho. exact Ho.
    Qed.

    (** Otherwise it says about each resource what it would say if the resource were
        returned alone, and perhaps that the resource does not match the filter. *)
    Theorem C67_like_alone i x s rs' iss' p : right_numbers count t ipp l -> (forall y e q, In y l -> ~ own schemas y e q) -> nth_error l i = Some x ->
      belongs schemas x s -> get_dump s 200 x VNone c = Ok (rs', iss') ->
      (p <> [] -> errs_at iss (at_resource i p) = errs_at iss' (at_body p)) /\ Forall (eq e_filter_mismatch) (errs_at iss (at_resource i [])).
    Proof.
      intros R N Hx B G. destruct (listing_stage _ _ _ _ _ _ _ _ _ _ _ H) as (y & js & ss & xs & jl & _ & _ & Hss & L1 & L2 & T & D).
      assert (Z : forall n q, noted jl n q = []).
      { intros n q. destruct (noted jl n q) as [|e es] eqn:E; [reflexivity|]. exfalso. destruct (nth_error jl n) as [j|] eqn:Hj; [|unfold noted in E; rewrite Hj in E; discriminate].
        destruct (nth_same jl l n j (eq_sym L2) Hj) as [z Hz]. apply (N z e q (nth_error_In _ _ Hz)). apply (reported_own ss xs jl n z e q Hss T Hz). rewrite E. left. reflexivity. }
      destruct D as [[[D|[n [q D]]] _]|[_ [_ [pl [_ [P [E [F _]]]]]]]]; [contradiction | contradiction (D (Z n q))|]. split; [|apply F]. intros Np. rewrite (E i p Np).
      destruct (schemas_for_found _ _ _ _ _ (listing_ordinary _ _ _ _ _ _ _ _ _ _ _ H) Hss Hx) as [r [Hr Fo]]. destruct (T i x r Hx Hr) as (x' & j & Hx' & Hj & Tr).
      destruct (P i x' r Hx' Hr) as (k & s0 & q & -> & Hq & Hp). inversion Tr as [|k' s' x2 j' Hd]; subst. destruct Fo as [_ U]. pose proof (U s B). subst s0.
      assert (Zj : forall u, errs_at j u = []) by (intros u; specialize (Z i u); unfold noted in Z; rewrite Hj in Z; exact Z).
      assert (Hm : made s).
      { pose proof (proj1 (listing_schemas _ _ _ _ _ _ _ _ _ _ _ H)) as M. rewrite Forall_forall in M. apply M. destruct B as [E1|uris l1 l2 _ _ E1 _ _]; rewrite E1; [left; reflexivity | apply in_or_app; right; left; reflexivity]. }
      destruct (single_response _ _ _ _ _ _ _ Hm Hd Zj G) as (q' & Hq' & _ & Eq & _). rewrite Hp in Hq'. injection Hq' as <-. rewrite Eq. change (at_body p) with (body_loc ++ p). rewrite loc_strip_app. unfold noted. rewrite Hq. reflexivity.
    Qed.

    (** Nothing else is reported about a resource. *)
    Theorem C67_only i x e p : nth_error l i = Some x -> In e (errs_at iss (at_resource i p)) ->
      own schemas x e p \/ p = [] /\ e = e_filter_mismatch \/ forall s rs' iss', belongs schemas x s -> get_dump s 200 x VNone c = Ok (rs', iss') -> In e (errs_at iss' (at_body p)).
    Proof.
      intros Hx He. destruct (listing_stage _ _ _ _ _ _ _ _ _ _ _ H) as (y & js & ss & xs & jl & _ & _ & Hss & L1 & L2 & T & D).
      destruct D as [[_ [_ E]]|[R [Z [pl [_ [_ [_ [F _]]]]]]]].
      - left. rewrite E in He. exact (proj1 (reported_own ss xs jl i x e p Hss T Hx) He).
      - right. destruct p as [|a p].
        + left. split; [reflexivity|]. specialize (F i). rewrite Forall_forall in F. symmetry. exact (F e He).
        + right. intros s rs' iss' B G.
          assert (N : forall z e q, In z l -> ~ own schemas z e q).
          { intros z e' q Hz Ho. apply In_nth_error in Hz as [n Hn]. apply (reported_own ss xs jl n z e' q Hss T Hn) in Ho. rewrite Z in Ho. exact Ho. }
          destruct (C67_like_alone i x s rs' iss' (a :: p) R N Hx B G) as [K _]. rewrite <- K by discriminate. exact He.
    Qed.

    (** When nothing is reported, the body keeps the numbers and holds the bodies
        that the resources would have if they were returned alone. *)
    Theorem C68_kept : (forall p, errs_at iss p = []) ->
      entry (rs_body resp) ($"totalResults") (VInt t) /\ (forall z, si = Some z -> entry (rs_body resp) ($"startIndex") (VInt z)) /\ (forall z, ipp = Some z -> entry (rs_body resp) ($"itemsPerPage") (VInt z))
      /\ exists bodies, entry (rs_body resp) ($"Resources") (VList bodies)
          /\ Forall2 (fun x b => exists s, belongs schemas x s /\ forall rs' iss', get_dump s 200 x VNone c = Ok (rs', iss') -> rs_body rs' = b /\ forall p, errs_at iss' p = []) l bodies.
    Proof.
      intros Cl. destruct (listing_stage _ _ _ _ _ _ _ _ _ _ _ H) as (y & js & ss & xs & jl & Hy & Hxs & Hss & L1 & L2 & T & D).
      destruct D as [[_ [[p Hp] _]]|[R [Z [pl [Lp [P [E [F Bd]]]]]]]]; [contradiction (Hp (Cl p))|].
      assert (B : rs_body resp = to_dict y).
      { destruct Bd as [[G _]|[G _]]; [|exact G]. exfalso. destruct H as [[Hm _] _ _ _ _ _ _ [st [h [req [so H0]]]]]. pose proof (proj1 (list_dropped _ _ _ _ _ _ _ _ _ _ _ (made_all _ Hm) H0) G) as [p Hp]. exact (Hp (Cl p)). }
      destruct H as [[Hm Hu] Hd Ht Hsi Hi Hr Ho [st [h [req [so H0]]]]].
      destruct (list_fields _ _ _ _ _ _ _ (Some l) (made_all _ Hm) Hd Ht Hsi Hi Hr Hy) as (Y1 & Y2 & Y3 & _).
      destruct (list_spelled _ _ _ _ _ _ _ _ (made_all _ Hm) Hd Ht Hsi Hi Hr Hy) as (data & l2o & Ey & Sp). rewrite B. subst y.
      split; [exact (entry_of data l2o _ _ (Sp _ _ (or_introl eq_refl) Y1 ltac:(discriminate)))|].
      split; [intros z ->; exact (entry_of data l2o _ _ (Sp _ _ (or_intror (or_introl eq_refl)) Y2 ltac:(discriminate)))|].
      split; [intros z ->; exact (entry_of data l2o _ _ (Sp _ _ (or_intror (or_intror (or_introl eq_refl))) Y3 ltac:(discriminate)))|].
      pose proof (entry_of data l2o _ _ (Sp _ _ (or_intror (or_intror (or_intror (or_introl eq_refl)))) Hxs ltac:(discriminate))) as Er. cbn [unconv] in Er.
      eexists. split; [exact Er|]. clear Er.
      assert (G : forall n x x', nth_error l n = Some x -> nth_error xs n = Some x' ->
        exists s, belongs schemas x s /\ forall rs' iss', get_dump s 200 x VNone c = Ok (rs', iss') -> rs_body rs' = unconv_item x' /\ forall p, errs_at iss' p = []).
      { intros n x x' Hx Hx'. destruct (schemas_for_found _ _ _ _ _ Ho Hss Hx) as [r [Hr' Fo]]. destruct (T n x r Hx Hr') as (x2 & j & Hx2 & Hj & Tr). rewrite Hx' in Hx2. injection Hx2 as <-.
        destruct (P n x' r Hx' Hr') as (k & s & q & -> & Hq & Hp). inversion Tr as [|k' s' x2 j' Hdx]; subst. destruct Fo as [Bx _]. exists s. split; [exact Bx|]. intros rs' iss' Hg.
        assert (Zj : forall u, errs_at j u = []) by (intros u; specialize (Z n u); unfold noted in Z; rewrite Hj in Z; exact Z).
        assert (Hms : made s).
        { rewrite Forall_forall in Hm. apply Hm. destruct Bx as [E1|uris l1 l2 _ _ E1 _ _]; rewrite E1; [left; reflexivity | apply in_or_app; right; left; reflexivity]. }
        destruct (single_response _ _ _ _ _ _ _ Hms Hdx Zj Hg) as (q' & Hq' & Wi & Eq & Db). rewrite Hp in Hq'. injection Hq' as <-.
        assert (N : forall p, errs_at iss' p = []).
        { intros p. rewrite Eq. destruct (loc_strip body_loc p) as [u|]; [|reflexivity]. destruct u as [|a u]; [exact (presence_root _ _ _ _ _ Hp)|].
          specialize (E n (a :: u) ltac:(discriminate)). unfold noted in E. rewrite Hq in E. rewrite <- E. apply Cl. }
        split; [|exact N]. unfold dump_body in Db. destruct (has_issues iss' []) eqn:Eh.
        { exfalso. apply has_issues_spec in Eh as [a [u [[<-|[]] Hin]]]. cbn [app] in Hin. apply (errs_at_nil_iff _ _ Wi) in Hin; [exact Hin | apply N]. }
        destruct x'; try discriminate. injection Db as <-. reflexivity. }
      clear - G L1. revert xs L1 G. induction l as [|x tl IH]; intros [|x' xs] L1 G; try discriminate; [constructor|]. cbn [map]. constructor; [exact (G 0 x x' eq_refl eq_refl)|].
      apply IH; [injection L1 as L1; exact L1|]. intros n. exact (G (S n)).
    Qed.
  End Listing.
End Env.

(** ** Examples *)

Definition ex_both : list schema := [user_schema; group_schema].
Lemma both_made : Forall made ex_both.
Proof. constructor; [exact user_made | constructor; [exact group_made | constructor]]. Qed.
Definition knows_not (s : schema) : bool := negb (smem (lower list_uri) (map lower (sc_schemas s))).
Lemma both_unlisted : Forall unlisted ex_both.
Proof.
  assert (G : forallb knows_not ex_both = true) by (vm_compute; reflexivity). apply Forall_forall. intros s Hs L. rewrite forallb_forall in G. specialize (G s Hs). unfold knows_not in G.
  unfold listed in L. apply smem_In in L. rewrite L in G. discriminate.
Qed.
Lemma belongs_in schemas x s : belongs schemas x s -> In s schemas.
Proof. intros [E|uris l1 l2 _ _ E _ _]; rewrite E; [left; reflexivity | apply in_or_app; right; left; reflexivity]. Qed.
(** Resources whose keys are not URIs. *)
Definition plain_keys (s : schema) (c : value) : bool :=
  is_cont c && absent c (sc_uri s) && forallb (fun a => negb (r_ext (arep a)) || (absent c (r_schema (arep a)) && absent c (r_attr (arep a)))) (at_top (sc_attrs s)).
Lemma both_ordinary l : forallb (fun x => absent x list_uri && forallb (fun s => plain_keys s x) ex_both) l = true -> Forall (ordinary ex_both) l.
Proof.
  intros H. apply Forall_forall. intros x Hx. rewrite forallb_forall in H. specialize (H x Hx). apply andb_prop in H as [H1 H2]. right. split.
  - intros K. unfold has_key in K. unfold absent in H1. destruct x; try (destruct K; fail). destruct K as [k K]. rewrite K in H1. discriminate.
  - intros s B. rewrite forallb_forall in H2. apply regular_check, H2. exact (belongs_in _ _ _ B).
Qed.
Lemma ex_listed doc count t si ipp l : is_object doc -> sget (lower list_uri) (match mk_cont doc with VCont _ l => l | _ => [] end) = None -> holds (mk_cont doc) ($"totalResults") (VInt t) ->
  given_int doc ($"startIndex") si -> given_int doc ($"itemsPerPage") ipp -> holds (mk_cont doc) ($"Resources") (VList l) ->
  forallb (fun x => absent x list_uri && forallb (fun s => plain_keys s x) ex_both) l = true ->
  forall P : response -> issues -> Prop, outcome_is (@list_dump_response no_env ex_both 200 doc VNone 1 count None None None) P ->
  exists resp iss, @listing no_env ex_both doc count t si ipp l None None resp iss /\ P resp iss.
Proof.
  intros H0 H1 H2 H3 H4 H5 H6 P H. apply outcome_inv in H as [rs [iss [E H]]]. exists rs, iss. split; [|exact H]. constructor; try assumption.
  - split; [exact both_made | exact both_unlisted].
  - split; [exact H0|]. intros K. unfold has_key in K. destruct (mk_cont doc); try (destruct K; fail). destruct K as [k K]. pose proof (eq_trans (eq_sym K) H1) as Z. discriminate Z.
  - apply both_ordinary. exact H6.
  - exists 200%Z, VNone, 1%Z, None. exact E.
Qed.
Ltac listed_by := apply ex_listed; [exact I | vm_compute; reflexivity | in_doc | in_doc | in_doc | in_doc | vm_compute; reflexivity | vm_compute].

(** A user, a group, something of an unknown kind, a user whose name is a number,
    and a user without a name. *)
Definition ex_group : value :=
  dict_of [($"schemas", VList [VStr ($"urn:ietf:params:scim:schemas:core:2.0:Group")]); ($"id", VStr ($"g")); ($"displayName", VStr ($"G"));
           ($"meta", dict_of [($"resourceType", VStr ($"Group")); ($"location", VStr ($"https://x/Groups/g"))])].
Definition ex_car : value := dict_of [($"schemas", VList [VStr ($"urn:car")])].
Definition ex_numbered : value :=
  dict_of [($"schemas", VList [VStr user_uri]); ($"id", VStr ($"n")); ($"userName", VInt 5); ($"meta", dict_of [($"resourceType", VStr ($"User")); ($"location", VStr ($"https://x/Users/n"))])].
Definition ex_nameless : value :=
  dict_of [($"schemas", VList [VStr user_uri]); ($"id", VStr ($"z")); ($"meta", dict_of [($"resourceType", VStr ($"User")); ($"location", VStr ($"https://x/Users/z"))])].
Definition ex_faulty : value := ex_list 5 [($"Resources", VList [ex_member ($"ann") []; ex_group; ex_car; ex_numbered; ex_nameless])].
Definition ex_lacking : value := ex_list 3 [($"itemsPerPage", VInt 3); ($"Resources", VList [ex_member ($"ann") []; ex_group; ex_nameless])].
Definition ex_orderly : value := ex_list 2 [($"startIndex", VInt 1); ($"itemsPerPage", VInt 2); ($"Resources", VList [ex_group; ex_member ($"ann") []])].

Example ex_C67 :
  (exists resp iss, @listing no_env ex_both ex_faulty None 5 None None (members_of ex_faulty) None None resp iss
     /\ (errs_at iss (at_resource 2 []) = [e_unknown_schema] /\ errs_at iss (at_resource 3 [LStr ($"userName")]) <> [] /\ errs_at iss (at_resource 4 [LStr ($"userName")]) = [] /\ rs_body resp = VNone))
  /\ (exists resp iss, @listing no_env ex_both ex_lacking None 3 None (Some 3%Z) (members_of ex_lacking) None None resp iss
     /\ (errs_at iss (at_resource 2 [LStr ($"userName")]) = [e_missing] /\ errs_at iss (at_resource 0 [LStr ($"userName")]) = [] /\ rs_body resp = VNone)).
Proof.
  split.
  - listed_by. split; [reflexivity|]. split; [discriminate|]. split; reflexivity.
  - listed_by. split; [reflexivity|]. split; reflexivity.
Qed.
Example ex_C67_alone : belongs ex_both (mk_cont ex_nameless) user_schema /\ (forall e p, ~ @own no_env ex_both (mk_cont ex_nameless) e p)
  /\ outcome_is (@get_dump no_env user_schema 200 (mk_cont ex_nameless) VNone None) (fun _ iss => errs_at iss (at_body [LStr ($"userName")]) = [e_missing]).
Proof.
  assert (B : belongs ex_both (mk_cont ex_nameless) user_schema).
  { apply (belongs_first ex_both (mk_cont ex_nameless) user_schema [user_uri] [] [group_schema]); [discriminate| |reflexivity| |constructor].
    - split; [discriminate|]. apply lookup_some. vm_compute. reflexivity.
    - constructor; [|constructor]. unfold listed. vm_compute. tauto. }
  split; [exact B|]. split; [|vm_compute; reflexivity].
  assert (D : outcome_is (@schema_dump no_env user_schema (mk_cont ex_nameless)) (fun _ j => j = no_issues)) by (vm_compute; reflexivity).
  apply outcome_inv in D as [x' [j [D ->]]]. intros e p O. apply (own_iff ex_both (mk_cont ex_nameless) (Some (0, user_schema)) x' no_issues e p) in O; [exact O| |constructor; exact D].
  split; [exact B|]. intros s' B'. apply (infer_found ex_both (mk_cont ex_nameless) (Some (0, user_schema))); [discriminate | | |exact B'].
  - intros [k K]. vm_compute in K. discriminate.
  - destruct (belongs_infer ex_both (mk_cont ex_nameless) user_schema ltac:(discriminate) ltac:(intros [k K]; vm_compute in K; discriminate) B) as [k Hk]. rewrite Hk. f_equal. f_equal. f_equal.
    assert (N : option_map fst (match infer_schema ex_both (mk_cont ex_nameless) with Ok r => r | Raise _ => None end) = Some 0) by (vm_compute; reflexivity). rewrite Hk in N. cbn [option_map fst] in N. injection N as ->. reflexivity.
Qed.
Example ex_C68 : exists resp iss, @listing no_env ex_both ex_orderly (Some 2%Z) 2 (Some 1%Z) (Some 2%Z) (members_of ex_orderly) None None resp iss
  /\ iss = no_issues /\ match rs_body resp with VDict d => aget dkey_eqb (KStr ($"itemsPerPage")) d = Some (VInt 2) | _ => False end.
Proof. listed_by. split; reflexivity. Qed.

(** What is missing for "exactly what it would say if each resource were returned
    alone": a fault of another resource hides that a required attribute is
    missing. *)
Theorem C67_hidden_refuted : exists env schemas doc count t si ipp l f c resp iss i x s rs' iss' e p, @listing env schemas doc count t si ipp l f c resp iss /\ right_numbers count t ipp l
  /\ nth_error l i = Some x /\ belongs schemas x s /\ @get_dump env s 200 x VNone c = Ok (rs', iss') /\ In e (errs_at iss' (at_body p)) /\ ~ In e (errs_at iss (at_resource i p)).
Proof.
  destruct (ex_listed ex_faulty None 5 None None (members_of ex_faulty)) with (P := fun (_ : response) iss => errs_at iss (at_resource 4 [LStr ($"userName")]) = []) as [resp [iss [H1 H2]]];
    [exact I | vm_compute; reflexivity | in_doc | in_doc | in_doc | in_doc | vm_compute; reflexivity | vm_compute; reflexivity|].
  destruct ex_C67_alone as [B [_ E]]. apply outcome_inv in E as [rs' [iss' [E1 E2]]].
  exists no_env, ex_both, ex_faulty, None, 5%Z, None, None, (members_of ex_faulty), None, None, resp, iss, 4, (mk_cont ex_nameless), user_schema, rs', iss', e_missing, [LStr ($"userName")].
  split; [exact H1|]. split; [apply right_numbers_iff; split; vm_compute; reflexivity|]. split; [vm_compute; reflexivity|]. split; [exact B|]. split; [exact E1|]. split; [rewrite E2; left; reflexivity | rewrite H2; intros []].
Qed.
(** Wrong numbers hide it as well. *)
Theorem C67_numbers_hide_refuted : exists env schemas doc count t si ipp l f c resp iss i x s rs' iss' e p, @listing env schemas doc count t si ipp l f c resp iss
  /\ (forall y e q, In y l -> ~ @own env schemas y e q)
  /\ nth_error l i = Some x /\ belongs schemas x s /\ @get_dump env s 200 x VNone c = Ok (rs', iss') /\ In e (errs_at iss' (at_body p)) /\ ~ In e (errs_at iss (at_resource i p)).
Proof.
  set (doc := ex_list 2 [($"Resources", VList [ex_nameless])]).
  destruct (ex_listed doc None 2 None None (members_of doc)) with (P := fun (_ : response) iss => errs_at iss (at_resource 0 [LStr ($"userName")]) = []) as [resp [iss [H1 H2]]];
    [exact I | vm_compute; reflexivity | in_doc | in_doc | in_doc | in_doc | vm_compute; reflexivity | vm_compute; reflexivity|].
  destruct ex_C67_alone as [B [N E]]. apply outcome_inv in E as [rs' [iss' [E1 E2]]]. assert (El : members_of doc = [mk_cont ex_nameless]) by (vm_compute; reflexivity).
  exists no_env, ex_both, doc, None, 2%Z, None, None, (members_of doc), None, None, resp, iss, 0, (mk_cont ex_nameless), user_schema, rs', iss', e_missing, [LStr ($"userName")].
  split; [exact H1|]. split; [rewrite El; intros y e q [<-|[]]; apply N|]. split; [rewrite El; reflexivity|]. split; [exact B|]. split; [exact E1|]. split; [rewrite E2; left; reflexivity | rewrite H2; intros []].
Qed.
(** With several schemas, a resource whose list of schemas contains an object ends
    the dumping with an exception. *)
Theorem C67_raises_refuted : exists env schemas doc, Forall made schemas /\ message list_schema doc /\ (forall st h req count f so c, @list_dump_response env schemas st doc h req count f so c = Raise TypeErr).
Proof.
  set (doc := ex_list 1 [($"Resources", VList [dict_of [($"schemas", VList [dict_of []])]])]). exists no_env, ex_both, doc. split; [exact both_made|]. split; [split; [exact I | intros [k K]; vm_compute in K; discriminate]|].
  intros st h req count f so c. unfold list_dump_response. assert (E : match @list_dump no_env ex_both doc with Raise TypeErr => True | _ => False end) by (vm_compute; exact I).
  destruct (@list_dump no_env ex_both doc) as [|[]]; try (destruct E; fail). reflexivity.
Qed.

Print Assumptions C67_own.
Print Assumptions C67_like_alone.
Print Assumptions C67_only.
Print Assumptions C67_hidden_refuted.
Print Assumptions C67_numbers_hide_refuted.
Print Assumptions C67_raises_refuted.
Print Assumptions C68_kept.
Print Assumptions ex_C67.
Print Assumptions ex_C67_alone.
Print Assumptions ex_C68.
