(** Lemmas about responses with several resources that are always served (C87). *)
From Verif Require Import PyBase BaseFacts PyNum Issues IssuesSpec IssuesFacts AttrRep AttrRepSpec AttrRepFacts Value ValueFacts
  Container ContainerSpec ContainerFacts ContainerRW Types TypesSpec Attr Schema AttrSpec AttrFacts AttrHonest AttrItems PropAttr
  SchemaSpec SchemaFacts SchemaBuild PropSchema TotalSpec TotalFacts Presence PresenceSpec PresenceFacts PropPresence Match FilterParse Sort Patch ListResp Requests PatchFacts RequestSpec RequestFacts BodyFacts PutFacts AnswerSpec AnswerFacts PatchAnswerFacts MsgFacts
  PropPut ListSpec ListFacts ReplySpec ReplyFacts AskFacts PageSpec.

(** ** Reports that only grow *)

Definition grows (i j : issues) : Prop := tight j /\ forall p, errs_at i p <> [] -> errs_at j p <> [].
Lemma grows_self i : tight i -> grows i i.
Proof. intros H. split; [exact H | auto]. Qed.
Lemma grows_merge i j k p : grows i j -> wf k -> grows i (merge j k p).
Proof.
  intros [T H] W. split; [apply tight_merge; assumption|]. intros q Hq. rewrite errs_merge_wf by (try exact W; apply T). specialize (H q Hq). destruct (errs_at j q); [contradiction H; reflexivity | discriminate].
Qed.
Lemma grows_stuck i j p ls : grows i j -> errs_at i p <> [] -> In p ls -> can_proceed j ls = true -> False.
Proof.
  intros [T H] He Hp Hc. apply (H p He). pose proof (proj1 (tight_proceeds _ _ T) Hc) as G. assert (A : asked ls = ls) by (destruct ls; [destruct Hp | reflexivity]).
  apply (G p); [rewrite A; exact Hp | exists []; symmetry; apply app_nil_r].
Qed.
Lemma in_body js p : wf js -> errs_at js p <> [] -> errs_at (merge no_issues js body_loc) (at_body p) <> [].
Proof.
  intros W H. rewrite errs_merge_wf by (try exact W; apply wf_no_issues). change (at_body p) with (body_loc ++ p). rewrite loc_strip_app. exact H.
Qed.

Section Env.
  Context {env : PyEnv}.

  (** ** The page *)

  Definition page_number (n : str) (req : bool) : attribute := bound_attr (list_rep n) (mk_simple ((if req then with_required else fun x => x) (plain n TInteger))).
  Definition page_resources : attribute := bound_attr (list_rep ($"Resources")) (mk_simple (plain ($"Resources") TUnknown)).
  Lemma page_tops : at_top (sc_attrs list_schema) =
    [bound_attr (list_rep ($"schemas")) schemas_attr; page_number ($"totalResults") true; page_number ($"startIndex") false; page_number ($"itemsPerPage") false; page_resources].
  Proof. reflexivity. Qed.
  Lemma page_all : at_all (sc_attrs list_schema) = at_top (sc_attrs list_schema).
  Proof. reflexivity. Qed.
  Lemma page_calm : Forall calm_attr (at_top (sc_attrs list_schema)).
  Proof.
    assert (P : forall i, a_parsers i = [] -> a_dumpers i = [] -> calm_attr (MkAttr i None)) by (intros i E1 E2; constructor; left; assumption).
    rewrite page_tops. repeat (apply Forall_cons; [apply P; reflexivity|]). apply Forall_nil.
  Qed.
  Lemma page_standard : Forall (standard_in MDump) (at_top (sc_attrs list_schema)).
  Proof. rewrite page_tops. repeat (apply Forall_cons; [exact I|]). apply Forall_nil. Qed.
  Lemma page_own : own_names list_schema.
  Proof. apply own_check. vm_compute. reflexivity. Qed.
  Lemma page_distinct : distinct_names (at_top (sc_attrs list_schema)).
  Proof. unfold distinct_names. apply nodupb_ok. vm_compute. reflexivity. Qed.
  Notation page := (whole list_uri [] (at_top (sc_attrs list_schema))).

  Lemma page_read y n : page y -> In n ($"schemas" :: counted) -> exists v, get_item y (list_rep n) = Ok v.
  Proof.
    intros W Hn. assert (A : exists a, In a (at_all (sc_attrs list_schema)) /\ arep a = list_rep n).
    { rewrite page_all, page_tops. destruct Hn as [<-|[<-|[<-|[<-|[<-|[]]]]]]; eexists; (split; [|apply bound_rep]); [left | do 1 right; left | do 2 right; left | do 3 right; left | do 4 right; left]; reflexivity. }
    destruct A as [a [Ha <-]]. exact (whole_read list_schema y a list_made page_own W Ha).
  Qed.
  Lemma page_write y v : page y -> exists y', set_item y (list_rep ($"Resources")) v = Ok y' /\ page y' /\ get_item y' (list_rep ($"Resources")) = Ok v
    /\ forall n, lower n <> lower ($"Resources") -> get_item y' (list_rep n) = get_item y (list_rep n).
  Proof.
    intros W. pose proof W as [d [l [E [Hi [_ [Hm _]]]]]]. assert (S : set_item y (list_rep ($"Resources")) v = Ok (put_top y (list_rep ($"Resources")) v)) by (subst y; reflexivity).
    eexists. split; [exact S|]. split.
    - apply put_top_whole; [constructor | intros [] | exact W | | vm_compute; discriminate|].
      + destruct (made_placed list_schema list_made (own_listed _ page_own)) as [Hpl _]. rewrite Forall_forall in Hpl. apply (Hpl page_resources). rewrite page_all, page_tops. do 4 right. left. reflexivity.
      + intros a Ha Hl. rewrite page_tops in Ha. destruct Ha as [<-|[<-|[<-|[<-|[<-|[]]]]]]; exact I.
    - subst y. apply (field_write d l list_uri ($"Resources") v); [exact Hi | intros [k G]; cbn [has_key] in G; rewrite Hm in G; discriminate G | vm_compute; discriminate | exact S].
  Qed.

  (** What becomes of a number. *)
  Definition number_or_error (y : value) (js : issues) (n : str) : Prop :=
    exists v, get_item y (list_rep n) = Ok v /\ (v = VMissing \/ v = VNone \/ is_int v = true \/ errs_at js [LStr n] <> []).
  Lemma number_processed n r x v k : process (page_number n r) MDump x = Ok (v, k) -> v <> VMissing /\ (v = VNone \/ is_int v = true \/ errs_at k [] <> []).
  Proof.
    set (bad := (VInvalid, add_issue no_issues (e_bad_type ($"integer") (scim_type_of x)) false []) : outcome).
    assert (P : process (page_number n r) MDump x = match x with VNone => Ok (VNone, no_issues) | VInt _ | VBool _ => Ok (x, no_issues)
      | VFloat f => let! z := int_of_float f in Ok (if feqb (fint z) f then (VInt z, no_issues) else bad) | _ => Ok bad end).
    { destruct x; try (destruct r; reflexivity). unfold page_number, mk_simple. destruct r; cbn [bound_attr process]; unfold base_process; simpl; destruct (int_of_float f) as [z|]; simpl; try reflexivity; destruct (feqb (fint z) f); reflexivity. }
    assert (B : fst bad <> VMissing /\ (fst bad = VNone \/ is_int (fst bad) = true \/ errs_at (snd bad) [] <> [])) by (split; [discriminate | right; right; discriminate]).
    rewrite P. intros H. clear P. clearbody bad.
    assert (G : (v, k) = bad \/ is_int v = true \/ v = VNone).
    { destruct x; try (injection H as <-; left; reflexivity); try (injection H as <- _; right; auto).
      apply bind_ok in H as [z [_ H]]. destruct (feqb _ f); [injection H as <- _; auto | injection H as H; left; symmetry; exact H]. }
    destruct G as [G|[G|G]].
    - rewrite <- G in B. exact B.
    - split; [intros ->; discriminate G | auto].
    - subst v. split; [discriminate | auto].
  Qed.
  Lemma holds_or_not doc n : (exists x, holds (mk_cont doc) n x) \/ forall x, ~ holds (mk_cont doc) n x.
  Proof.
    pose proof (mk_cont_is_cont doc) as G. destruct (mk_cont doc) as [| | | | | | | | | |d l| | | | | |]; try discriminate G. destruct (sget (lower n) l) as [k|] eqn:E1; [destruct (sget k d) as [x|] eqn:E2|].
    - left. exists x, d, l, k. auto.
    - right. intros x [d' [l' [k' [E [G1 G2]]]]]. injection E as <- <-. rewrite E1 in G1. injection G1 as <-. rewrite E2 in G2. discriminate G2.
    - right. intros x [d' [l' [k' [E [G1 G2]]]]]. injection E as <- <-. rewrite E1 in G1. discriminate G1.
  Qed.
  Lemma number_field doc y js n r : message list_schema doc -> tame doc -> base_parse MDump list_schema doc = Ok (y, js) -> In (page_number n r) (at_top (sc_attrs list_schema)) -> n <> $"schemas" -> number_or_error y js n.
  Proof.
    intros Hd Ht H Ha Hn. assert (Er : arep (page_number n r) = list_rep n) by apply bound_rep.
    assert (D : (exists x, holds (mk_cont doc) n x) \/ forall x, ~ holds (mk_cont doc) n x) by apply holds_or_not.
    destruct D as [[x Hx]|D].
    - assert (Tx : tame x).
      { pose proof (tame_mk_cont doc Ht) as Tc. destruct Hx as [d [l [k [E [G1 G2]]]]]. rewrite E in Tc. apply (tame_get_rep d l n x Tc). exists d, l, k. auto. }
      destruct (process_total (page_number n r)) with (m := MDump) (v := x) as [[v k] Ep]; [|pose proof page_calm as Q; rewrite Forall_forall in Q; apply Q; exact Ha | exact Tx|].
      { pose proof (ws_attrs _ (made_wf _ list_made)) as W2. rewrite Forall_forall in W2. exact (proj1 (W2 _ Ha)). }
      destruct (number_processed n r x v k Ep) as [Nv Cv].
      assert (Nx : x <> VMissing) by (intros ->; inversion Tx).
      destruct (message_field list_schema MDump doc y js list_made eq_refl Hd H (page_number n r) x v k Ha) as [F1 F2]; [rewrite Er; exact Hn | rewrite Er; exact Hx | exact Nx | exact Ep | exact Nv|].
      rewrite Er in F1, F2. exists v. split; [exact F1|]. cbn [list_rep r_attr] in F2. rewrite (F2 []). tauto.
    - destruct (message_absent list_schema MDump doc y js list_made eq_refl Hd H (page_number n r) Ha) as [F1 _]; [rewrite Er; exact Hn | rewrite Er; intros x Hx; destruct (D x Hx)|].
      rewrite Er in F1. exists VMissing. auto.
  Qed.
  Lemma int_compared v z : is_int v = true -> (exists b, num_gt v (VInt z) = Ok b) /\ exists b, num_lt v (VInt z) = Ok b.
  Proof. intros H. destruct v; try discriminate H; split; eexists; reflexivity. Qed.

  (** ** The resources *)

  Section One.
    Variable s : schema.
    Hypotheses (Hm : made s) (Hown : own_names s) (Hdn : distinct_names (at_top (sc_attrs s))) (Hq : Forall calm_attr (at_top (sc_attrs s))) (Hst : Forall (standard_in MDump) (at_top (sc_attrs s))) (Hr : has_sub s ($"meta") ($"resourceType")).
    Notation resource := (whole (sc_uri s) (map fst (sc_exts s)) (at_top (sc_attrs s))).

    Lemma dump_one x : tame x -> (is_object x -> well_placed s (mk_cont x)) -> exists y j, schema_dump s x = Ok (y, j) /\ wf j /\ (resource y \/ errs_at j [] <> []).
    Proof.
      intros Ht Hp. destruct (dump_total s Hm Hown Hdn Hq Hst x Hr Ht Hp) as [y [j [E C]]]. exists y, j. split; [exact E|]. split; [exact (report_wf _ (dump_report _ _ _ _ (proj2 (made_sound _ Hm)) E))|].
      destruct C as [C|[e ->]]; [left; exact C | right; discriminate].
    Qed.
    Lemma dump_each l : Forall (fun x => tame x /\ (is_object x -> well_placed s (mk_cont x))) l -> forall i acc iss, wf iss ->
      exists l' iss', dump_resources i l (map (fun _ => Some (0, s)) l) acc iss = Ok (acc ++ l', iss') /\ wf iss' /\ (forall p, errs_at iss p <> [] -> errs_at iss' p <> [])
        /\ ((exists p, errs_at iss' (LStr ($"Resources") :: p) <> []) \/ Forall resource l').
    Proof.
      induction 1 as [|x t [Hx1 Hx2] _ IH]; intros i acc iss W; cbn [map dump_resources].
      - exists [], iss. rewrite app_nil_r. split; [reflexivity|]. split; [exact W|]. split; [auto | right; constructor].
      - destruct (dump_one x Hx1 Hx2) as [y [j [-> [Wj C]]]]. cbn [bind]. destruct (IH (S i) (acc ++ [y]) (merge iss j (resource_loc i)) (wf_merge _ _ _ W Wj)) as [l' [iss' [E [W' [M R]]]]].
        rewrite E, <- app_assoc. exists (y :: l'), iss'. split; [reflexivity|]. split; [exact W'|]. split.
        + intros p Hp. apply M. rewrite errs_merge_wf by assumption. destruct (errs_at iss p); [contradiction Hp; reflexivity | discriminate].
        + destruct R as [R|R]; [left; exact R|]. destruct C as [C|C]; [right; constructor; assumption | left]. exists [LIdx i]. apply M. rewrite errs_merge_wf by assumption.
          change (LStr ($"Resources") :: [LIdx i]) with (resource_loc i). rewrite strip_self. destruct (errs_at j []); [contradiction C; reflexivity|]. destruct (errs_at iss _); discriminate.
    Qed.

    Lemma page_dumped doc : tame doc -> (is_object doc -> well_placed list_schema (mk_cont doc)) -> placed_resources s doc ->
      exists y js, list_dump [s] doc = Ok (y, js) /\ wf js
      /\ ((exists e, js = snd (fail e))
          \/ page y /\ number_or_error y js ($"totalResults") /\ number_or_error y js ($"startIndex")
             /\ exists rs, get_item y (list_rep ($"Resources")) = Ok rs
                /\ (rs = VMissing \/ errs_at js [LStr ($"Resources")] <> [] \/ exists l, rs = VList l /\ ((exists p, errs_at js (LStr ($"Resources") :: p) <> []) \/ Forall resource l))).
    Proof.
      intros Ht Hp Hpr. unfold list_dump. destruct (C27_never_raises_partial list_schema MDump doc list_made page_calm Ht Hp) as [y [js E]]. rewrite E. cbn [bind].
      pose proof (report_wf _ (base_wf _ _ _ _ _ (proj2 (made_sound _ list_made)) E)) as W.
      destruct (object_cases doc) as [Ho|Hn].
      2:{ assert (F : exists e, (y, js) = fail e) by (destruct doc; try (exfalso; apply Hn; exact I); cbn [base_parse] in E; injection E as <- <-; eexists; reflexivity).
          destruct F as [e F]. injection F as -> ->. eexists _, _. split; [reflexivity|]. split; [exact W|]. left. exists e. reflexivity. }
      pose proof (parsed_whole_in MDump list_schema doc y js list_made page_own page_distinct page_calm page_standard Ho E) as P. change (page y) in P.
      assert (Hd : message list_schema doc) by exact (conj Ho (proj1 (Hp Ho))).
      assert (N1 : number_or_error y js ($"totalResults")) by (apply (number_field doc y js _ true Hd Ht E); [rewrite page_tops; right; left; reflexivity | discriminate]).
      assert (N2 : number_or_error y js ($"startIndex")) by (apply (number_field doc y js _ false Hd Ht E); [rewrite page_tops; right; right; left; reflexivity | discriminate]).
      assert (N3 : number_or_error y js ($"itemsPerPage")) by (apply (number_field doc y js _ false Hd Ht E); [rewrite page_tops; right; right; right; left; reflexivity | discriminate]).
      destruct (page_read y ($"Resources") P) as [rs Er]; [do 4 right; left; reflexivity|].
      pose proof (message_clear list_schema MDump doc y js list_made eq_refl Hd E) as C0.
      assert (P0 : can_proceed js [] = true).
      { apply clear_proceeds; [exact (base_wf _ _ _ _ _ (proj2 (made_sound _ list_made)) E)|]. intros a [<-|[]] b [t Hb]. apply eq_sym, app_eq_nil in Hb as [-> _]. exact C0. }
      rewrite P0, Er. cbn [negb bind].
      assert (Bad : forall e, exists y0 js0, Ok (y, add_issue js e false [LStr ($"Resources")]) = Ok (y0, js0) /\ wf js0
        /\ ((exists e0, js0 = snd (fail e0)) \/ page y0 /\ number_or_error y0 js0 ($"totalResults") /\ number_or_error y0 js0 ($"startIndex")
             /\ exists rs, get_item y0 (list_rep ($"Resources")) = Ok rs
                /\ (rs = VMissing \/ errs_at js0 [LStr ($"Resources")] <> [] \/ exists l, rs = VList l /\ ((exists p, errs_at js0 (LStr ($"Resources") :: p) <> []) \/ Forall resource l)))).
      { intros e. eexists _, _. split; [reflexivity|]. split; [apply wf_add; exact W|]. right. split; [exact P|].
        assert (K : forall n, number_or_error y js n -> number_or_error y (add_issue js e false [LStr ($"Resources")]) n).
        { intros n [v [G1 G2]]. exists v. split; [exact G1|]. destruct G2 as [G2|[G2|[G2|G2]]]; auto. do 3 right. rewrite errs_at_add. destruct (errs_at js [LStr n]); [contradiction G2; reflexivity | discriminate]. }
        split; [apply K; exact N1|]. split; [apply K; exact N2|]. exists rs. split; [exact Er|]. right. left. rewrite errs_at_add. destruct (loc_dec _ _) as [_|N]; [intros G; apply app_eq_nil in G as [_ G]; discriminate G | contradiction N; reflexivity]. }
      destruct rs; try apply Bad; clear Bad.
      1:{ eexists _, _. split; [reflexivity|]. split; [exact W|]. right. split; [exact P|]. split; [exact N1|]. split; [exact N2|]. exists VMissing. auto. }
      assert (Hl : holds (mk_cont doc) ($"Resources") (VList l)).
      { assert (Ha : In page_resources (at_top (sc_attrs list_schema))) by (rewrite page_tops; do 4 right; left; reflexivity). assert (Ra : arep page_resources = list_rep ($"Resources")) by apply bound_rep.
        destruct (holds_or_not doc ($"Resources")) as [[x Hx]|N].
        - assert (Nx : x <> VMissing).
          { pose proof (tame_mk_cont doc Ht) as Tc. destruct Hx as [d0 [l0 [k [E0 [G1 G2]]]]]. rewrite E0 in Tc. assert (Tx : tame x) by (apply (tame_get_rep d0 l0 ($"Resources") x Tc); exists d0, l0, k; auto). intros ->. inversion Tx. }
          destruct (message_field list_schema MDump doc y js list_made eq_refl Hd E page_resources x x no_issues Ha) as [F1 _]; [rewrite Ra; discriminate | rewrite Ra; exact Hx | exact Nx | destruct x; reflexivity | exact Nx|].
          rewrite Ra, Er in F1. injection F1 as ->. exact Hx.
        - destruct (message_absent list_schema MDump doc y js list_made eq_refl Hd E page_resources Ha) as [F1 _]; [rewrite Ra; discriminate | rewrite Ra; intros x Hx; destruct (N x Hx)|]. rewrite Ra, Er in F1. discriminate F1. }
      assert (Hi : Forall (fun x => tame x /\ (is_object x -> well_placed s (mk_cont x))) l).
      { apply Forall_forall. intros x Hx. split; [|exact (Hpr l x Hl Hx)]. pose proof (tame_mk_cont doc Ht) as Tc. destruct Hl as [d0 [l0 [k [E0 [G1 G2]]]]]. rewrite E0 in Tc.
        assert (Tl : tame (VList l)) by (apply (tame_get_rep d0 l0 ($"Resources") _ Tc); exists d0, l0, k; auto). inversion Tl as [| | | | |? Fl| |]; subst. rewrite Forall_forall in Fl. exact (Fl x Hx). }
      assert (A : exists js1, (if can_proceed js [[LStr ($"itemsPerPage")]] then let! ipp := get_item y (list_rep ($"itemsPerPage")) in Ok (merge js (items_per_page_issues (length l) ipp) []) else Ok js) = Ok js1
        /\ wf js1 /\ forall p, errs_at js p <> [] -> errs_at js1 p <> []).
      { destruct (can_proceed js [[LStr ($"itemsPerPage")]]); [|exists js; auto]. destruct N3 as [v [-> _]]. cbn [bind]. eexists. split; [reflexivity|].
        assert (Wp : wf (items_per_page_issues (length l) v)) by (unfold items_per_page_issues; destruct v; try apply wf_no_issues; destruct (Z.eqb _ _); try apply wf_no_issues; do 2 apply wf_add; apply wf_no_issues).
        split; [apply wf_merge; assumption|]. intros p G. rewrite errs_merge_wf by assumption. destruct (errs_at js p); [contradiction G; reflexivity | discriminate]. }
      destruct A as [js1 [-> [W1 M1]]]. cbn [bind schemas_for]. destruct (dump_each l Hi 0 [] js1 W1) as [l' [js2 [-> [W2 [M2 R]]]]]. cbn [bind app].
      destruct (page_write y (VList l') P) as [y' [-> [P' [G1 G2]]]]. cbn [bind]. exists y', js2. split; [reflexivity|]. split; [exact W2|]. right. split; [exact P'|].
      assert (K : forall n, lower n <> lower ($"Resources") -> number_or_error y js n -> number_or_error y' js2 n).
      { intros n Nn [v [K1 K2]]. exists v. rewrite (G2 n Nn). split; [exact K1|]. destruct K2 as [K2|[K2|[K2|K2]]]; auto. do 3 right. apply M2, M1. exact K2. }
      split; [apply K; [vm_compute; discriminate | exact N1]|]. split; [apply K; [vm_compute; discriminate | exact N2]|]. exists (VList l'). split; [exact G1|]. right. right. exists l'. auto.
    Qed.

    (** ** The response *)

    Lemma presence_each c l : Forall resource l -> forall i iss, exists j, resources_presence c i l (map (fun _ => Some (0, s)) l) iss = Ok j.
    Proof.
      induction 1 as [|x t Hx _ IH]; intros i iss; cbn [map resources_presence]; [eexists; reflexivity|].
      destruct (whole_presence s c Response x Hm Hown Hx) as [p ->]. cbn [bind]. apply IH.
    Qed.
    Lemma resources_checked y h l c iss : (has_issues iss [resources_loc] = false -> Forall resource l) -> exists rs j, check_resources [s] y h l None None c iss = Ok (rs, j).
    Proof.
      intros H. unfold check_resources. destruct (has_issues iss [resources_loc]); [eexists _, _; reflexivity|]. cbn [schemas_for bind].
      destruct (presence_each (checker_or_default c) l (H eq_refl) 0 no_issues) as [p ->]. cbn [bind]. cbv zeta. destruct (has_issues _ []); eexists _, _; reflexivity.
    Qed.
    Lemma numbers_checked y l count i0 iss v : grows i0 iss -> get_item y (list_rep ($"totalResults")) = Ok v -> (can_proceed iss [total_results_loc] = true -> is_int v = true) ->
      page y -> exists j, check_numbers y l count iss = Ok j /\ grows i0 j.
    Proof.
      intros G Hv Hi P. unfold check_numbers. destruct (can_proceed iss [total_results_loc]); [|exists iss; auto]. specialize (Hi eq_refl). rewrite Hv. cbn [bind].
      destruct (int_compared v (zlen l) Hi) as [[b1 E1] [b2 E2]].
      assert (A : exists j, number_of_resources count v l = Ok j /\ wf j).
      { unfold number_of_resources. rewrite E2. cbn [bind]. cbv zeta. assert (Wi : wf (if b2 then add_issue no_issues e_total_mismatch true [] else no_issues)) by (destruct b2; [apply wf_add|]; apply wf_no_issues).
        destruct count as [c|]; [|rewrite E1; cbn [bind]]; eexists; (split; [reflexivity|]); match goal with |- wf (if ?b then _ else _) => destruct b end; try apply wf_add; exact Wi. }
      destruct A as [j [-> Wj]]. cbn [bind]. cbv zeta. pose proof (grows_merge _ _ _ resources_loc G Wj) as G1.
      destruct (can_proceed (merge iss j resources_loc) _); [|eexists; split; [reflexivity | exact G1]].
      destruct (page_read y ($"startIndex") P) as [si ->]; [do 2 right; left; reflexivity|]. destruct (page_read y ($"itemsPerPage") P) as [ip ->]; [do 3 right; left; reflexivity|]. cbn [bind].
      assert (B : exists k, pagination_info count v l si ip = Ok k /\ wf k).
      { unfold pagination_info. destruct (0 <? _)%Z; [rewrite E1|]; cbn [bind]; [destruct b1|]; (eexists; split; [reflexivity|]); try apply wf_no_issues.
        unfold add_if. destruct (is_none_or_missing ip), (is_none_or_missing si); repeat apply wf_add; apply wf_no_issues. }
      destruct B as [k [-> Wk]]. eexists. split; [reflexivity|]. apply grows_merge; assumption.
    Qed.

    Lemma page_served (P : res (response * issues) -> Prop) st doc h req count f so c : (forall r, P (Ok r)) ->
      (forall y l iss, (has_issues iss [resources_loc] = false -> Forall resource l) -> P (check_resources [s] y h l f so c iss)) ->
      tame doc -> (is_object doc -> well_placed list_schema (mk_cont doc)) -> placed_resources s doc -> P (list_dump_response [s] st doc h req count f so c).
    Proof.
      intros HP HC Ht Hp Hpr. unfold list_dump_response. destruct (page_dumped doc Ht Hp Hpr) as [y [js [-> [W C]]]]. cbn [bind]. cbv zeta.
      destruct C as [[e ->]|[Pg [N1 [N2 [rs [Er Cr]]]]]]; [apply HP|].
      pose proof (tight_merge _ _ body_loc tight_none W) as T0. assert (E0 : forall p, errs_at js p <> [] -> errs_at (merge no_issues js body_loc) (at_body p) <> []) by (intros p; apply in_body; exact W).
      set (i0 := merge no_issues js body_loc) in *. clearbody i0. destruct (negb (can_proceed i0 [body_loc])); [apply HP|].
      destruct (whole_presence list_schema default_checker Response y list_made page_own Pg) as [ps Eps]. rewrite Eps. cbn [bind].
      pose proof (report_wf _ (presence_report _ _ _ _ _ Eps)) as Wps.
      pose proof (grows_merge _ _ _ status_loc (grows_merge _ _ _ body_loc (grows_self _ T0) Wps) (status_code_wf 200 st)) as G1.
      assert (Tot : forall v, get_item y (list_rep ($"totalResults")) = Ok v -> is_int v = true \/ errs_at (merge i0 ps body_loc) total_results_loc <> []).
      { intros v Ev. destruct N1 as [v' [Ev' Cv]]. rewrite Ev in Ev'. injection Ev' as <-.
        assert (Em : v = VMissing \/ v = VNone -> errs_at (merge i0 ps body_loc) total_results_loc <> []).
        { intros Hv. rewrite errs_merge_wf by (try exact Wps; apply T0). unfold total_results_loc. rewrite loc_strip_app.
          assert (M : In e_missing (errs_at ps [LStr ($"totalResults")])).
          { apply (C30_missing_iff list_schema default_checker y Response ps [LStr ($"totalResults")] list_made ltac:(constructor) Eps). exists (page_number ($"totalResults") true), v.
            assert (Ra : arep (page_number ($"totalResults") true) = list_rep ($"totalResults")) by apply bound_rep.
            split; [rewrite page_all, page_tops; right; left; reflexivity|]. split; [|split; [unfold empty_value; tauto|]].
            - change [LStr ($"totalResults")] with [LStr (r_attr (arep (page_number ($"totalResults") true)))]. apply found_top; [reflexivity | rewrite Ra; exact Ev | destruct Hv as [->| ->]; discriminate].
            - split; [reflexivity|]. split; [intros G; vm_compute in G; destruct G as [? [[] _]] | discriminate]. }
          destruct (errs_at ps [LStr ($"totalResults")]); [destruct M|]. destruct (errs_at i0 _); discriminate. }
        destruct Cv as [Cv|[Cv|[Cv|Cv]]]; auto. right. rewrite errs_merge_wf by (try exact Wps; apply T0). apply E0 in Cv. change (at_body [LStr ($"totalResults")]) with total_results_loc in Cv. destruct (errs_at i0 total_results_loc); [contradiction Cv; reflexivity | discriminate]. }
      assert (G1' : grows (merge i0 ps body_loc) (merge (merge i0 ps body_loc) (status_code_issues 200 st) status_loc)) by (apply grows_merge; [apply grows_self, tight_merge; assumption | apply status_code_wf]).
      set (i1 := merge (merge i0 ps body_loc) (status_code_issues 200 st) status_loc) in *. clearbody i1.
      assert (A : exists i2, (if can_proceed i1 [start_index_loc] then let! si := get_item y (list_rep ($"startIndex")) in if truthy si then let! i := start_index_consistency req si in Ok (merge i1 i start_index_loc) else Ok i1 else Ok i1) = Ok i2
        /\ grows i0 i2 /\ grows (merge i0 ps body_loc) i2).
      { destruct (can_proceed i1 [start_index_loc]) eqn:Cs; [|exists i1; auto]. destruct N2 as [v [-> Cv]]. cbn [bind]. destruct (truthy v) eqn:Tv; [|exists i1; auto].
        assert (Iv : is_int v = true).
        { destruct Cv as [->|[->|[Cv|Cv]]]; try discriminate Tv; [exact Cv|]. exfalso. exact (grows_stuck _ _ start_index_loc [start_index_loc] G1 (E0 _ Cv) (or_introl eq_refl) Cs). }
        unfold start_index_consistency. destruct (int_compared v req Iv) as [[b ->] _]. cbn [bind]. eexists. split; [reflexivity|].
        assert (Wb : wf (if b then add_issue no_issues e_start_index true [] else no_issues)) by (destruct b; [apply wf_add|]; apply wf_no_issues). split; apply grows_merge; assumption. }
      destruct A as [i2 [-> [G2 G2']]]. cbn [bind]. destruct (can_proceed i2 [resources_loc]) eqn:Cr2; cbn [negb]; [|apply HP]. rewrite Er. cbn [bind].
      destruct N1 as [v [Ev _]]. assert (Iv : can_proceed i2 [total_results_loc] = true -> is_int v = true).
      { intros Ct. destruct (Tot v Ev) as [G|G]; [exact G|]. exfalso. exact (grows_stuck _ _ total_results_loc [total_results_loc] G2' G (or_introl eq_refl) Ct). }
      assert (Fin : forall l, (exists p, errs_at js (LStr ($"Resources") :: p) <> []) \/ Forall resource l -> P (let! iss := check_numbers y l count i2 in check_resources [s] y h l f so c iss)).
      { intros l Hl. destruct (numbers_checked y l count i0 i2 v G2 Ev Iv Pg) as [j [-> Gj]]. cbn [bind]. apply HC. intros Hn. destruct Hl as [[p Hl]|Hl]; [exfalso | exact Hl].
        apply E0 in Hl. apply (proj2 Gj) in Hl. assert (X : has_issues j [resources_loc] = true); [|congruence]. apply has_issues_spec. exists resources_loc, p. split; [left; reflexivity|].
        change (at_body (LStr ($"Resources") :: p)) with (resources_loc ++ p) in Hl. destruct (in_dec loc_dec (resources_loc ++ p) (map fst (i_errs j))) as [G|G]; [exact G|]. exfalso. apply Hl. apply errs_at_nil_iff; [apply Gj | exact G]. }
      destruct Cr as [->|[Cr|[l [-> Cr]]]].
      - apply Fin. right. constructor.
      - exfalso. exact (grows_stuck _ _ resources_loc [resources_loc] G2 (E0 _ Cr) (or_introl eq_refl) Cr2).
      - apply Fin. exact Cr.
    Qed.
    Lemma page_total st doc h req count c : tame doc -> (is_object doc -> well_placed list_schema (mk_cont doc)) -> placed_resources s doc ->
      exists rs iss, list_dump_response [s] st doc h req count None None c = Ok (rs, iss).
    Proof.
      apply (page_served (fun m => exists rs iss, m = Ok (rs, iss))); [intros [rs iss]; eexists _, _; reflexivity|]. intros y l iss. apply resources_checked.
    Qed.
    Lemma asked_checked y h l f so c iss : (has_issues iss [resources_loc] = false -> Forall resource l) -> keyed_only (check_resources [s] y h l f so c iss).
    Proof.
      intros H. unfold check_resources. destruct (has_issues iss [resources_loc]); [left; eexists; reflexivity|]. cbn [schemas_for bind]. set (ss := map _ l).
      assert (Fin : forall i, keyed_only (let! p := resources_presence (checker_or_default c) 0 l ss no_issues in let iss := merge i p resources_loc in if has_issues iss [] then Ok (mkResp h VNone, iss) else Ok (mkResp h (to_dict y), iss))).
      { intros i. destruct (presence_each (checker_or_default c) l (H eq_refl) 0 no_issues) as [p E]. unfold ss. rewrite E. cbn [bind]. cbv zeta. left. destruct (has_issues _ []); eexists; reflexivity. }
      assert (Srt : forall i, keyed_only (let! i := match so with None => Ok i | Some so => let! j := resources_sorted so l ss in Ok (merge i j resources_loc) end in
        let! p := resources_presence (checker_or_default c) 0 l ss no_issues in let iss := merge i p resources_loc in if has_issues iss [] then Ok (mkResp h VNone, iss) else Ok (mkResp h (to_dict y), iss))).
      { intros i. destruct so as [so|]; [|apply Fin]. destruct (sorted_keyed so l ss) as [[j ->]| ->]; [apply Fin | right; reflexivity]. }
      destruct f as [o|]; [|apply Srt]. destruct (filtered_keyed o l ss false) as [[j ->]| ->]; [apply Srt | right; reflexivity].
    Qed.
    Lemma page_asked st doc h req count f so c : tame doc -> (is_object doc -> well_placed list_schema (mk_cont doc)) -> placed_resources s doc ->
      keyed_only (list_dump_response [s] st doc h req count f so c).
    Proof. apply page_served; [intros r; left; exists r; reflexivity|]. intros y l iss. apply asked_checked. Qed.
  End One.
End Env.
