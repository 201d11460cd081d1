(** Lemmas about list responses. *)
From Coq Require Import Lia.
From Verif Require Import PyBase BaseFacts PyNum Issues IssuesSpec IssuesFacts AttrRep AttrRepSpec Value Container ContainerSpec ContainerFacts ContainerRW AttrRepFacts ValueFacts
  Types Attr Schema Assets Presence Match FilterParse Path Sort Patch ListResp Search Bulk Requests
  AttrSpec AttrFacts AttrItems SchemaSpec SchemaFacts SchemaBuild PropSchema MatchSpec MatchFacts PresenceSpec PresenceFacts PropPresence PatchSpec PatchFacts RequestSpec ListSpec RequestFacts MsgFacts BodyFacts.

(** Reports that stop exactly where they have errors: those put together by
    merging. *)
Definition tight (i : issues) : Prop := wf i /\ forall l, stops i l <-> errs_at i l <> [].

Lemma tight_none : tight no_issues.
Proof. split; [apply wf_no_issues|]. intros l. split; [intros [] | intros H; contradiction H; reflexivity]. Qed.
Lemma tight_merge i j p : tight i -> wf j -> tight (merge i j p).
Proof.
  intros [W H] Wj. split; [apply wf_merge; assumption|]. intros x. rewrite (stops_merge i j p x) by (try apply W; apply Wj). rewrite errs_merge_wf by assumption. split.
  - intros [Hx|[l' [-> Hx]]].
    + apply H in Hx. destruct (errs_at i x); [congruence | discriminate].
    + rewrite loc_strip_app. intros E. apply app_eq_nil in E as [_ E]. apply (errs_at_nil_iff _ _ Wj) in E. exact (E Hx).
  - intros E. destruct (errs_at i x) eqn:Ei.
    + right. destruct (loc_strip p x) as [l'|] eqn:El; [|contradiction E; reflexivity]. apply loc_strip_spec in El. exists l'. split; [exact El|].
      destruct (in_dec loc_dec l' (map fst (i_errs j))) as [G|G]; [exact G|]. exfalso. apply E. apply (errs_at_nil_iff _ _ Wj) in G. rewrite G. reflexivity.
    + left. apply H. rewrite Ei. discriminate.
Qed.
Lemma tight_proceeds i ls : tight i -> (can_proceed i ls = true <-> forall l, In l (asked ls) -> clear_above i l).
Proof.
  intros [_ H]. split.
  - intros E l Hl a Ha. destruct (errs_at i a) eqn:Ea; [reflexivity|]. exfalso.
    assert (F : can_proceed i ls = false) by (apply can_proceed_spec; exists l, a; repeat (split; [assumption|]); apply H; rewrite Ea; discriminate). congruence.
  - intros G. destruct (can_proceed i ls) eqn:E; [reflexivity|]. exfalso. apply can_proceed_spec in E as [l [a [H1 [H2 H3]]]]. apply H in H3. exact (H3 (G l H1 a H2)).
Qed.
(** A field of the body can be looked at when there is nothing wrong with it, the
    body and the whole. *)
Lemma clear_field i n : clear_above i (at_body [LStr n]) <-> errs_at i [] = [] /\ errs_at i [LStr ($"body")] = [] /\ errs_at i (at_body [LStr n]) = [].
Proof.
  split.
  - intros H. split; [|split]; apply H; [exists (at_body [LStr n]) | exists [LStr n] | exists []]; reflexivity.
  - intros [H1 [H2 H3]] a [t Ha]. destruct a as [|x a]; [exact H1|]. injection Ha as <- Ha. destruct a as [|y a]; [exact H2|].
    pose proof (f_equal (hd (LIdx 0)) Ha) as Hk. pose proof (f_equal (@tl _) Ha) as Ht. cbn [hd tl app] in Hk, Ht. subst y. apply eq_sym, app_eq_nil in Ht as [-> _]. exact H3.
Qed.
Lemma strip_self p : loc_strip p p = Some [].
Proof. rewrite <- (app_nil_r p) at 2. apply loc_strip_app. Qed.
Lemma wf_if' (b : bool) i j : wf i -> wf j -> wf (if b then i else j).
Proof. destruct b; auto. Qed.

(** ** The fields of a list response *)

Section Env.
  Context {env : PyEnv}.

  Definition list_attr (n : nat) : attribute := nth n (at_top (sc_attrs list_schema)) schemas_attr.
  Lemma list_attr_in n : n < 5 -> In (list_attr n) (at_top (sc_attrs list_schema)).
  Proof. intros H. apply nth_In. exact H. Qed.
  Lemma list_attrs_are : map (fun a => (arep a, a_required (info a), a_ret (info a))) (at_all (sc_attrs list_schema))
    = [(list_rep ($"schemas"), true, RetAlways); (list_rep ($"totalResults"), true, RetDefault); (list_rep ($"startIndex"), false, RetDefault);
       (list_rep ($"itemsPerPage"), false, RetDefault); (list_rep ($"Resources"), false, RetDefault)].
  Proof. vm_compute. reflexivity. Qed.

  Lemma list_presence y ps t : get_item y (list_rep ($"totalResults")) = Ok (VInt t) ->
    presence default_checker y (at_all (sc_attrs list_schema)) Response = Ok ps -> forall p, p <> [LStr ($"schemas")] -> errs_at ps p = [].
  Proof.
    intros Hy Hp p Np. destruct (errs_at ps p) as [|e es] eqn:E; [reflexivity|]. exfalso. assert (He : In e (errs_at ps p)) by (rewrite E; left; reflexivity).
    assert (no_reps : Forall proper (ck_reps default_checker)) by constructor.
    destruct (C30_nothing_else _ _ _ _ _ _ _ list_made no_reps Hp He) as [->|[-> _]].
    - apply (C30_missing_iff _ _ _ _ _ p list_made no_reps Hp) in He as [a [v [H1 [H2 [H3 [H4 _]]]]]].
      apply (in_map (fun a => (arep a, a_required (info a), a_ret (info a)))) in H1. rewrite list_attrs_are in H1.
      assert (K : r_sub (arep a) = [] /\ (arep a = list_rep ($"schemas") \/ arep a = list_rep ($"totalResults"))).
      { destruct H1 as [H1|[H1|[H1|[H1|[H1|[]]]]]]; injection H1 as R1 R2 R3; rewrite H4 in R2; try discriminate R2; rewrite <- R1; auto. }
      destruct K as [K1 K2]. assert (T : p = [LStr (r_attr (arep a))] /\ get_item y (arep a) = Ok v) by (destruct H2; [auto | contradiction..]). destruct T as [-> T].
      destruct K2 as [K2|K2]; rewrite K2 in *; [apply Np; reflexivity|]. rewrite Hy in T. injection T as <-. destruct H3 as [H3|[H3|[H3|H3]]]; discriminate.
    - apply (C29_only_requested _ _ _ _ _ p list_made no_reps Hp) in He as [_ [a [v [H1 [H2 [H3 H4]]]]]].
      apply (in_map (fun a => (arep a, a_required (info a), a_ret (info a)))) in H1. rewrite list_attrs_are in H1. unfold withheld in H4.
      destruct H1 as [H1|[H1|[H1|[H1|[H1|[]]]]]]; injection H1 as _ _ R3; rewrite <- R3 in H4; exact H4.
  Qed.

  (** Writing one field of a message and reading the fields afterwards. *)
  Lemma field_write d l u n x c : idx l -> ~ has_key (VCont d l) u -> lower u <> lower n -> set_item (VCont d l) (mkRep u n [] false) x = Ok c ->
    get_item c (mkRep u n [] false) = Ok x
    /\ forall n', lower n' <> lower n -> get_item c (mkRep u n' [] false) = get_item (VCont d l) (mkRep u n' [] false).
  Proof.
    intros Hi Hk Hu H. apply not_has_key in Hk. cbn [set_item r_ext r_attr r_sub set_noext] in H. injection H as <-. unfold set_plain. split.
    - rewrite get_item_eq. cbn [r_schema r_attr r_sub]. rewrite sget_sset_other by congruence. rewrite Hk, !sget_sset_same. reflexivity.
    - intros n' Hn. rewrite !get_item_eq. cbn [r_schema r_attr r_sub]. rewrite sget_sset_other by congruence. rewrite Hk. rewrite sget_sset_other by congruence.
      destruct (sget (lower n') l) as [k|] eqn:Ek; [|reflexivity]. rewrite sget_sset_other; [reflexivity|]. intros <-. apply Hi in Ek. congruence.
  Qed.

  Lemma dump_resources_spec l : forall i ss acc iss l' iss', (forall k s, In (Some (k, s)) ss -> sound s) -> length ss = length l -> wf iss -> dump_resources i l ss acc iss = Ok (l', iss') ->
    length l' = length acc + length l /\ wf iss' /\ forall p, (forall j t, p <> LStr ($"Resources") :: LIdx j :: t) -> errs_at iss' p = errs_at iss p.
  Proof.
    induction l as [|x t IH]; intros i ss acc iss l' iss' Hs Hl W H; cbn [dump_resources] in H.
    - injection H as <- <-. cbn [length]. rewrite Nat.add_0_r. auto.
    - destruct ss as [|s ss]; [discriminate|]. cbn [length] in Hl. injection Hl as Hl. assert (Hs' : forall k s, In (Some (k, s)) ss -> sound s) by (intros k s' G; apply (Hs k); right; exact G).
      destruct s as [[k s]|].
      + apply bind_ok in H as [[x' i'] [Hx H]]. apply dump_report in Hx; [|exact (proj2 (Hs k s (or_introl eq_refl)))]. apply report_wf in Hx.
        destruct (IH _ _ _ _ _ _ Hs' Hl (wf_merge _ _ _ W Hx) H) as [G1 [G2 G3]]. rewrite app_length in G1. cbn [length] in *. split; [lia|]. split; [exact G2|].
        intros p Hp. rewrite (G3 p Hp), errs_merge_wf by assumption. destruct (loc_strip (resource_loc i) p) as [q|] eqn:E; [|apply app_nil_r].
        apply loc_strip_spec in E. exfalso. exact (Hp _ _ E).
      + destruct (IH _ _ _ _ _ _ Hs' Hl (wf_add _ _ _ _ W) H) as [G1 [G2 G3]]. rewrite app_length in G1. cbn [length] in *. split; [lia|]. split; [exact G2|].
        intros p Hp. rewrite (G3 p Hp), errs_at_add. destruct (loc_dec _ _) as [E|_]; [exfalso; exact (Hp _ _ (eq_sym E)) | apply app_nil_r].
  Qed.
  Lemma schemas_for_length schemas l ss : schemas_for schemas l = Ok ss -> length ss = length l.
  Proof.
    unfold schemas_for. intros H. destruct schemas as [|s [|s' t]]; try (injection H as <-; apply map_length); apply mapM_ok in H; clear - H; induction H; cbn [length]; congruence.
  Qed.

  Definition opt_int (o : option Z) : value := match o with Some z => VInt z | None => VMissing end.

  Lemma list_int doc y js k o : message list_schema doc -> base_parse MDump list_schema doc = Ok (y, js) -> k = 1 \/ k = 2 \/ k = 3 ->
    given_int doc (r_attr (arep (list_attr k))) o -> get_item y (arep (list_attr k)) = Ok (opt_int o) /\ forall p, errs_at js (LStr (r_attr (arep (list_attr k))) :: p) = [].
  Proof.
    intros Hd H Hk Ho. assert (Hi : In (list_attr k) (at_top (sc_attrs list_schema))) by (apply list_attr_in; destruct Hk as [->|[->| ->]]; lia).
    assert (Hn : r_attr (arep (list_attr k)) <> $"schemas") by (destruct Hk as [->|[->| ->]]; discriminate).
    destruct o as [z|].
    - apply (message_field list_schema MDump doc y js list_made eq_refl Hd H _ (VInt z) (VInt z) no_issues Hi Hn Ho); try discriminate. destruct Hk as [->|[->| ->]]; reflexivity.
    - apply (message_absent list_schema MDump doc y js list_made eq_refl Hd H _ Hi Hn Ho).
  Qed.
  Lemma list_resources doc y js o : message list_schema doc -> base_parse MDump list_schema doc = Ok (y, js) ->
    given_list doc ($"Resources") o -> get_item y (list_rep ($"Resources")) = Ok (match o with Some l => VList l | None => VMissing end)
    /\ forall p, errs_at js (LStr ($"Resources") :: p) = [].
  Proof.
    intros Hd H Ho. assert (Hi : In (list_attr 4) (at_top (sc_attrs list_schema))) by (apply list_attr_in; lia).
    assert (Hn : r_attr (arep (list_attr 4)) <> $"schemas") by discriminate.
    destruct o as [l|].
    - apply (message_field list_schema MDump doc y js list_made eq_refl Hd H _ (VList l) (VList l) no_issues Hi Hn Ho); try discriminate. reflexivity.
    - apply (message_absent list_schema MDump doc y js list_made eq_refl Hd H _ Hi Hn Ho).
  Qed.

  (** The page size contradicts the number of resources. *)
  Definition miscounted (ipp : option Z) (rs : option (list value)) : bool :=
    match ipp, rs with Some p, Some l => negb (Z.eqb p (Z.of_nat (length l))) | _, _ => false end.
  Definition same_count (rs rs' : option (list value)) : Prop := option_map (@length _) rs = option_map (@length _) rs'.

  Lemma list_fields schemas doc y js t si ipp rs : Forall sound schemas -> message list_schema doc -> holds (mk_cont doc) ($"totalResults") (VInt t) ->
    given_int doc ($"startIndex") si -> given_int doc ($"itemsPerPage") ipp -> given_list doc ($"Resources") rs -> list_dump schemas doc = Ok (y, js) ->
    get_item y (list_rep ($"totalResults")) = Ok (VInt t) /\ get_item y (list_rep ($"startIndex")) = Ok (opt_int si)
    /\ get_item y (list_rep ($"itemsPerPage")) = Ok (opt_int ipp)
    /\ (exists rs', same_count rs rs' /\ get_item y (list_rep ($"Resources")) = Ok (match rs' with Some l => VList l | None => VMissing end))
    /\ errs_at js [] = [] /\ errs_at js [LStr ($"totalResults")] = [] /\ errs_at js [LStr ($"startIndex")] = []
    /\ errs_at js [LStr ($"itemsPerPage")] = (if miscounted ipp rs then [e_must_equal ($"number of resources")] else [])
    /\ errs_at js [LStr ($"Resources")] = (if miscounted ipp rs then [e_must_equal ($"itemsPerPage")] else []).
  Proof.
    intros Hs Hd Ht Hsi Hi Hr H. unfold list_dump in H. apply bind_ok in H as [[d i1] [H1 H]].
    destruct (list_int doc d i1 1 (Some t) Hd H1 (or_introl eq_refl) Ht) as [T1 T2].
    destruct (list_int doc d i1 2 si Hd H1 (or_intror (or_introl eq_refl)) Hsi) as [S1 S2].
    destruct (list_int doc d i1 3 ipp Hd H1 (or_intror (or_intror eq_refl)) Hi) as [P1 P2].
    destruct (list_resources doc d i1 rs Hd H1 Hr) as [R1 R2].
    pose proof (message_clear list_schema MDump doc d i1 list_made eq_refl Hd H1) as C.
    pose proof (base_wf _ _ _ _ _ (proj2 (made_sound _ list_made)) H1) as Rep.
    assert (Cp : can_proceed i1 [] = true).
    { apply clear_proceeds; [exact Rep|]. intros l [<-|[]] a [x Ha]. apply eq_sym, app_eq_nil in Ha as [-> _]. exact C. }
    rewrite Cp in H. cbn [negb] in H. rewrite R1 in H. cbn [bind] in H.
    change (arep (list_attr 1)) with (list_rep ($"totalResults")) in *. change (arep (list_attr 2)) with (list_rep ($"startIndex")) in *. change (arep (list_attr 3)) with (list_rep ($"itemsPerPage")) in *.
    cbn [list_rep r_attr] in T2, S2, P2.
    destruct rs as [l|].
    2:{ injection H as <- <-. unfold miscounted. destruct ipp; rewrite C, (T2 []), (S2 []), (P2 []), (R2 []); repeat (split; [first [assumption | reflexivity | exists None; split; [reflexivity|assumption]]|]); reflexivity. }
    assert (Cp2 : can_proceed i1 [[LStr ($"itemsPerPage")]] = true).
    { apply clear_proceeds; [exact Rep|]. intros q [<-|[]] a [x Ha]. destruct a as [|k a]; [exact C|]. injection Ha as <- Ha. apply eq_sym, app_eq_nil in Ha as [-> _]. apply P2. }
    rewrite Cp2, P1 in H. cbn [bind] in H. apply bind_ok in H as [ss [Hss H]]. apply bind_ok in H as [[l' i3] [H3 H]]. apply bind_ok in H as [d' [Hd' H]]. injection H as <- <-.
    set (k := items_per_page_issues (length l) (opt_int ipp)) in *.
    assert (K : wf k /\ errs_at k [] = [] /\ errs_at k [LStr ($"totalResults")] = [] /\ errs_at k [LStr ($"startIndex")] = []
      /\ errs_at k [LStr ($"itemsPerPage")] = (if miscounted ipp (Some l) then [e_must_equal ($"number of resources")] else [])
      /\ errs_at k [LStr ($"Resources")] = (if miscounted ipp (Some l) then [e_must_equal ($"itemsPerPage")] else [])).
    { unfold k, items_per_page_issues, miscounted, opt_int. destruct ipp as [p|]; [|split; [apply wf_no_issues | repeat split]].
      destruct (Z.eqb p _); cbn [negb]; [split; [apply wf_no_issues | repeat split]|]. split; [do 2 apply wf_add; apply wf_no_issues | repeat split]. }
    destruct K as (Kw & K0 & K1 & K2 & K3 & K4).
    pose proof (wf_merge _ _ [] (report_wf _ Rep) Kw) as W1.
    destruct (dump_resources_spec _ _ _ _ _ _ _ (schemas_for_sound _ _ _ Hs Hss) (schemas_for_length _ _ _ Hss) W1 H3) as [Len [_ E]]. cbn [length Nat.add] in Len.
    destruct (parsed_no_main list_schema MDump doc d i1 (made_wf _ list_made) (proj1 Hd) H1) as [[dd [ll [-> [Hidx _]]]] Hmain].
    destruct (field_write dd ll list_uri ($"Resources") (VList l') d' Hidx Hmain) as [F1 F2]; [vm_compute; discriminate | exact Hd'|].
    unfold list_rep in *. rewrite !F2 by (vm_compute; discriminate). rewrite T1, S1, P1, F1.
    repeat (split; [reflexivity|]). split; [exists (Some l'); split; [unfold same_count; cbn [option_map]; congruence | reflexivity]|].
    rewrite !E by (intros j q; discriminate). rewrite !errs_merge_wf by (first [exact (report_wf _ Rep) | exact Kw]). cbn [loc_strip]. rewrite C, (T2 []), (S2 []), (P2 []), (R2 []). cbn [app]. auto.
  Qed.

  (** ** Comparisons of whole numbers *)
  Lemma order_int a b : order (VInt a) (VInt b) = Some (Some (Z.compare a b)).
  Proof. cbn [order num_of fint fcmp]. unfold fint, fcmp. rewrite Z.min_id, Z.sub_diag, !Z.mul_1_r. reflexivity. Qed.
  Lemma int_lt a b : num_lt (VInt a) (VInt b) = Ok (Z.ltb a b).
  Proof. unfold num_lt. rewrite order_int. unfold Z.ltb. destruct (Z.compare a b); reflexivity. Qed.
  Lemma int_gt a b : num_gt (VInt a) (VInt b) = Ok (Z.ltb b a).
  Proof. unfold num_gt. rewrite order_int. rewrite Z.ltb_compare, (Z.compare_antisym b a). destruct (Z.compare b a); reflexivity. Qed.

  (** ** Checks on the resources *)
  Lemma filter_loop_root o st l : forall i ss iss j, wf iss -> filter_loop o st i l ss iss = Ok j -> forall p, (forall k, p <> [LIdx k]) -> errs_at j p = errs_at iss p.
  Proof.
    induction l as [|x t IH]; intros i ss iss j W H p Hp; cbn [filter_loop] in H; [injection H as <-; reflexivity|]. destruct ss as [|[[k s]|] ss]; [injection H as <-; reflexivity| |discriminate].
    apply bind_ok in H as [m [_ H]]. apply bind_ok in H as [b [_ H]]. rewrite (IH _ _ _ _ (wf_if _ _ _ _ _ W) H p Hp). unfold add_if. destruct (negb b); [|reflexivity].
    rewrite errs_at_add. destruct (loc_dec _ _) as [E|_]; [exfalso; exact (Hp _ (eq_sym E)) | apply app_nil_r].
  Qed.
  Lemma resources_presence_root c l : forall i ss iss j, wf iss -> resources_presence c i l ss iss = Ok j -> forall p, (forall k q, p <> LIdx k :: q) -> errs_at j p = errs_at iss p.
  Proof.
    induction l as [|x t IH]; intros i ss iss j W H p Hp; cbn [resources_presence] in H; [injection H as <-; reflexivity|]. destruct ss as [|[[k s]|] ss]; [injection H as <-; reflexivity| |discriminate].
    apply bind_ok in H as [ps [Hps H]]. apply presence_report, report_wf in Hps. rewrite (IH _ _ _ _ (wf_merge _ _ _ W Hps) H p Hp), errs_merge_wf by assumption.
    destruct (loc_strip [LIdx i] p) as [q|] eqn:E; [|apply app_nil_r]. apply loc_strip_spec in E. exfalso. exact (Hp _ _ E).
  Qed.
  Lemma skip_inv m i : skip_if_bad_data m = Ok i -> m = Ok i \/ i = no_issues.
  Proof. intros H. unfold skip_if_bad_data in H. destruct m as [j|[]]; try discriminate; injection H as <-; auto. Qed.

  Lemma check_resources_spec schemas y h l f so c iss rs iss' : wf iss -> check_resources schemas y h l f so c iss = Ok (rs, iss') ->
    (forall p, (forall q, p <> resources_loc ++ q) -> errs_at iss' p = errs_at iss p)
    /\ exists extra, errs_at iss' resources_loc = errs_at iss resources_loc ++ extra /\ Forall (eq e_not_sorted) extra /\ (errs_at iss resources_loc <> [] -> extra = []).
  Proof.
    intros W H. unfold check_resources in H. destruct (has_issues _ [resources_loc]) eqn:E.
    - injection H as <- <-. split; [reflexivity|]. exists []. rewrite app_nil_r. auto.
    - assert (Z : errs_at iss resources_loc = []).
      { destruct (errs_at iss resources_loc) eqn:Er; [reflexivity|]. exfalso. assert (G : has_issues iss [resources_loc] = true); [|congruence].
        apply has_issues_spec. exists resources_loc, []. split; [left; reflexivity|]. rewrite app_nil_r.
        destruct (in_dec loc_dec resources_loc (map fst (i_errs iss))) as [G|G]; [exact G|]. apply (errs_at_nil_iff _ _ W) in G. congruence. }
      apply bind_ok in H as [ss [_ H]]. apply bind_ok in H as [i1 [H1 H]].
      assert (S1 : wf i1 /\ errs_at i1 resources_loc = [] /\ forall p, (forall q, p <> resources_loc ++ q) -> errs_at i1 p = errs_at iss p).
      { destruct f as [o|]; [|injection H1 as <-; auto]. apply bind_ok in H1 as [i [Hi H1]]. injection H1 as <-.
        assert (Wi : wf i /\ errs_at i [] = []).
        { unfold resources_filtered in Hi. apply skip_inv in Hi as [Hi| ->]; [|split; [apply wf_no_issues | reflexivity]].
          split; [exact (filter_loop_wf _ _ _ _ _ _ _ wf_no_issues Hi)|]. apply (filter_loop_root _ _ _ _ _ _ _ wf_no_issues Hi). discriminate. }
        destruct Wi as [Wi Ri]. split; [apply wf_merge; assumption|]. split.
        - rewrite errs_merge_wf by assumption. rewrite Z. rewrite strip_self. exact Ri.
        - intros p Hp. rewrite errs_merge_wf by assumption. destruct (loc_strip resources_loc p) as [q|] eqn:Eq; [|apply app_nil_r]. apply loc_strip_spec in Eq. exfalso. exact (Hp _ Eq). }
      destruct S1 as [W1 [Z1 P1]]. apply bind_ok in H as [i2 [H2 H]].
      assert (S2 : wf i2 /\ Forall (eq e_not_sorted) (errs_at i2 resources_loc) /\ forall p, (forall q, p <> resources_loc ++ q) -> errs_at i2 p = errs_at iss p).
      { destruct so as [o|]; [|injection H2 as <-; rewrite Z1; auto]. apply bind_ok in H2 as [i [Hi H2]]. injection H2 as <-.
        assert (Wi : wf i /\ Forall (eq e_not_sorted) (errs_at i [])).
        { unfold resources_sorted in Hi. apply skip_inv in Hi as [Hi| ->]; [|split; [apply wf_no_issues | constructor]].
          apply bind_ok in Hi as [x [_ Hi]]. apply bind_ok in Hi as [d [_ Hi]]. injection Hi as <-. destruct d; [|split; [apply wf_no_issues | constructor]]. split; [apply wf_add, wf_no_issues | repeat constructor]. }
        destruct Wi as [Wi Ri]. split; [apply wf_merge; assumption|]. split.
        - rewrite errs_merge_wf by assumption. rewrite Z1. rewrite strip_self. exact Ri.
        - intros p Hp. rewrite errs_merge_wf by assumption. destruct (loc_strip resources_loc p) as [q|] eqn:Eq; [|rewrite app_nil_r; exact (P1 p Hp)]. apply loc_strip_spec in Eq. exfalso. exact (Hp _ Eq). }
      destruct S2 as [W2 [Z2 P2]]. apply bind_ok in H as [ps [Hp H]]. cbn zeta in H.
      pose proof (resources_presence_wf _ _ _ _ _ _ wf_no_issues Hp) as Wp.
      assert (Rp : errs_at ps [] = []) by (apply (resources_presence_root _ _ _ _ _ _ wf_no_issues Hp); discriminate).
      assert (G : iss' = merge i2 ps resources_loc) by (destruct (has_issues (merge i2 ps resources_loc) []); congruence). subst iss'. split.
      + intros p Hp'. rewrite errs_merge_wf by assumption. destruct (loc_strip resources_loc p) as [q|] eqn:Eq; [|rewrite app_nil_r; exact (P2 p Hp')]. apply loc_strip_spec in Eq. exfalso. exact (Hp' _ Eq).
      + exists (errs_at i2 resources_loc). rewrite errs_merge_wf by assumption. rewrite strip_self, Rp, app_nil_r, Z. split; [reflexivity|]. split; [exact Z2|]. intros N. contradiction N; reflexivity.
  Qed.

  (** ** Checks on the numbers *)
  Definition ahead (req : Z) (si : option Z) : bool := match si with Some s => negb (Z.eqb s 0) && Z.ltb req s | None => false end.
  Definition paged (count : option Z) (t n : Z) : bool := match count with Some c => Z.ltb 0 c && Z.ltb n t | None => false end.
  Definition number_errors (count : option Z) (t n : Z) : list error :=
    (if Z.ltb t n then [e_total_mismatch] else [])
    ++ match count with
       | None => if Z.ltb n t then [e_too_little_results] else []
       | Some c => if Z.ltb c n then [e_too_many_results] else []
       end.
  Definition is_some {A} (o : option A) : bool := match o with Some _ => true | None => false end.

  Lemma number_spec count t l i : number_of_resources count (VInt t) l = Ok i -> wf i /\ forall p, errs_at i p = if loc_dec [] p then number_errors count t (zlen l) else [].
  Proof.
    intros H. split; [exact (number_wf _ _ _ _ H)|]. unfold number_of_resources in H. rewrite int_lt in H. cbn [bind] in H. rewrite int_gt in H. cbn [bind] in H. intros p. unfold number_errors.
    destruct (Z.ltb t (zlen l)), count as [c|]; cbn [app];
      try (destruct (Z.ltb c (zlen l))); try (destruct (Z.ltb (zlen l) t)); injection H as <-; rewrite ?errs_at_add; change (errs_at no_issues p) with (@nil error); destruct (loc_dec [] p); reflexivity.
  Qed.
  Lemma opt_int_none o : is_none_or_missing (opt_int o) = negb (is_some o).
  Proof. destruct o; reflexivity. Qed.
  Lemma pagination_spec count t l si ipp i : pagination_info count (VInt t) l (opt_int si) (opt_int ipp) = Ok i -> wf i /\ forall p, errs_at i p =
    (if loc_dec [LStr ($"startIndex")] p then if paged count t (zlen l) && negb (is_some si) then [e_missing] else [] else [])
    ++ (if loc_dec [LStr ($"itemsPerPage")] p then if paged count t (zlen l) && negb (is_some ipp) then [e_missing] else [] else []).
  Proof.
    intros H. split; [exact (pagination_wf _ _ _ _ _ _ H)|]. unfold pagination_info in H. rewrite int_gt, !opt_int_none in H. intros p.
    assert (G : exists b : bool, (if (0 <? match count with Some c => c | None => 0 end)%Z then Ok (zlen l <? t)%Z else Ok false) = Ok b /\ b = paged count t (zlen l)).
    { unfold paged. destruct count as [c|]; [destruct (Z.ltb 0 c)|]; eexists; split; reflexivity. }
    destruct G as [b [G ->]]. rewrite G in H. cbn [bind] in H. destruct (paged count t (zlen l)); cbn [andb].
    - cbn [skip_if_bad_data] in H. injection H as <-. unfold add_if. destruct (negb (is_some ipp)), (negb (is_some si)); rewrite ?errs_at_add; change (errs_at no_issues p) with (@nil error); cbn [app];
        repeat match goal with |- context[loc_dec ?a p] => destruct (loc_dec a p) end; first [reflexivity | exfalso; subst p; first [discriminate | match goal with N : _ <> _ |- _ => apply N; reflexivity end]].
    - cbn [skip_if_bad_data] in H. injection H as <-. repeat match goal with |- context[loc_dec ?a p] => destruct (loc_dec a p) end; reflexivity.
  Qed.

  (** What is known about a list response when its resources are looked at. *)
  Definition errors_at (js : issues) (req : Z) (count : option Z) (t n : Z) (si ipp : option Z) (p : loc) : list error :=
    errs_at js p ++ (if loc_dec [LStr ($"startIndex")] p then if ahead req si then [e_start_index] else [] else [])
    ++ (if loc_dec [LStr ($"Resources")] p then number_errors count t n else [])
    ++ (if loc_dec [LStr ($"startIndex")] p then if paged count t n && negb (is_some si) then [e_missing] else [] else [])
    ++ (if loc_dec [LStr ($"itemsPerPage")] p then if negb (ahead req si) && (paged count t n && negb (is_some ipp)) then [e_missing] else [] else []).

  Lemma list_stage schemas st doc h req count f so c rs iss t si ipp l : Forall sound schemas -> message list_schema doc -> holds (mk_cont doc) ($"totalResults") (VInt t) ->
    given_int doc ($"startIndex") si -> given_int doc ($"itemsPerPage") ipp -> given_list doc ($"Resources") l -> list_dump_response schemas st doc h req count f so c = Ok (rs, iss) ->
    let n := match l with Some l => Z.of_nat (length l) | None => 0%Z end in
    exists y js l', list_dump schemas doc = Ok (y, js) /\ wf js /\ same_count l l' /\ get_item y (list_rep ($"Resources")) = Ok (match l' with Some l => VList l | None => VMissing end)
    /\ errs_at js [LStr ($"totalResults")] = [] /\ errs_at js [LStr ($"startIndex")] = []
    /\ errs_at js [LStr ($"itemsPerPage")] = (if miscounted ipp l then [e_must_equal ($"number of resources")] else [])
    /\ errs_at js [LStr ($"Resources")] = (if miscounted ipp l then [e_must_equal ($"itemsPerPage")] else [])
    /\ (miscounted ipp l = true
          /\ (forall p, p <> [LStr ($"schemas")] -> errs_at iss (at_body p) = errs_at js p ++ if loc_dec [LStr ($"startIndex")] p then if ahead req si then [e_start_index] else [] else [])
        \/ miscounted ipp l = false /\ exists i3, wf i3 /\ (forall p, p <> [LStr ($"schemas")] -> errs_at i3 (at_body p) = errors_at js req count t n si ipp p)
             /\ check_resources schemas y h (match l' with Some l => l | None => [] end) f so c i3 = Ok (rs, iss)).
  Proof.
    intros Hs Hd Ht Hsi Hi Hl H n. set (mis := miscounted ipp l). unfold list_dump_response in H. apply bind_ok in H as [[y js] [Hy H]]. pose proof (list_dump_orderly _ _ _ _ Hs Hy) as [[Wj _] _].
    destruct (list_fields _ _ _ _ _ _ _ _ Hs Hd Ht Hsi Hi Hl Hy) as (Y1 & Y2 & Y3 & [l' [Y4 Y5]] & J0 & J1 & J2 & J3 & J4). cbn zeta in H. fold mis in J3, J4.
    pose proof (tight_merge _ _ body_loc tight_none Wj) as T0. set (i0 := merge no_issues js body_loc) in *.
    assert (E0 : forall p, errs_at i0 (at_body p) = errs_at js p).
    { intros p. unfold i0. rewrite errs_merge_wf by (try exact Wj; apply wf_no_issues). change (at_body p) with (body_loc ++ p). rewrite loc_strip_app. reflexivity. }
    assert (O0 : errs_at i0 [] = []).
    { unfold i0. rewrite errs_merge_wf by (try exact Wj; apply wf_no_issues). reflexivity. }
    assert (Cp : can_proceed i0 [body_loc] = true).
    { apply (tight_proceeds _ _ T0). intros q [<-|[]] a [x Ha]. destruct a as [|k a]; [exact O0|]. unfold body_loc in Ha. injection Ha as <- Ha. apply eq_sym, app_eq_nil in Ha as [-> _]. change (errs_at i0 (at_body []) = []). rewrite E0. exact J0. }
    rewrite Cp in H. cbn [negb] in H. apply bind_ok in H as [ps [Hp H]]. pose proof (list_presence _ _ _ Y1 Hp) as Pp. apply presence_report, report_wf in Hp.
    pose proof (tight_merge _ _ status_loc (tight_merge _ _ body_loc T0 Hp) (status_code_wf 200 st)) as T1.
    set (i1 := merge (merge i0 ps body_loc) (status_code_issues 200 st) status_loc) in *.
    assert (E1 : forall p, p <> [LStr ($"schemas")] -> errs_at i1 (at_body p) = errs_at js p).
    { intros p Np. unfold i1. rewrite errs_merge_wf by (first [apply wf_merge; [apply T0 | exact Hp] | apply status_code_wf]). rewrite errs_merge_wf by (first [apply T0 | exact Hp]).
      rewrite E0. change (at_body p) with (body_loc ++ p). rewrite loc_strip_app, (Pp p Np), app_nil_r. apply app_nil_r. }
    assert (O1 : errs_at i1 [] = []).
    { unfold i1. rewrite errs_merge_wf by (first [apply wf_merge; [apply T0 | exact Hp] | apply status_code_wf]). rewrite errs_merge_wf by (first [apply T0 | exact Hp]). rewrite O0. reflexivity. }
    clearbody i1. clear Cp T0 E0 O0 i0 Pp Hp ps.
    apply bind_ok in H as [i2 [H2 H]].
    assert (S2 : tight i2 /\ errs_at i2 [] = [] /\ forall p, p <> [LStr ($"schemas")] -> errs_at i2 (at_body p) = errs_at js p ++ if loc_dec [LStr ($"startIndex")] p then if ahead req si then [e_start_index] else [] else []).
    { assert (C1 : can_proceed i1 [start_index_loc] = true).
      { apply (tight_proceeds _ _ T1). intros q [<-|[]]. apply clear_field. split; [exact O1|]. split; [change (errs_at i1 (at_body []) = []); rewrite E1 by discriminate; exact J0|]. rewrite E1 by discriminate. exact J2. }
      rewrite C1, Y2 in H2. cbn [bind] in H2.
      assert (Plain : i2 = i1 -> ahead req si = false -> tight i2 /\ errs_at i2 [] = [] /\ forall p, p <> [LStr ($"schemas")] -> errs_at i2 (at_body p) = errs_at js p ++ if loc_dec [LStr ($"startIndex")] p then if ahead req si then [e_start_index] else [] else []).
      { intros -> ->. split; [exact T1|]. split; [exact O1|]. intros p Np. rewrite (E1 p Np). destruct (loc_dec _ p); rewrite app_nil_r; reflexivity. }
      destruct si as [s|]; cbn [opt_int ahead] in *.
      - cbn [truthy] in H2. destruct (Z.eqb s 0); cbn [negb andb] in *; [apply Plain; [congruence | reflexivity]|].
        unfold start_index_consistency in H2. rewrite int_gt in H2. cbn [bind] in H2.
        assert (W : wf (if Z.ltb req s then add_issue no_issues e_start_index true [] else no_issues)) by (destruct (Z.ltb req s); [apply wf_add|]; apply wf_no_issues).
        injection H2 as <-. split; [apply tight_merge; [exact T1 | exact W]|].
        split; [rewrite errs_merge_wf by (first [apply T1 | exact W]); rewrite O1; reflexivity|].
        intros p Np. rewrite errs_merge_wf by (first [apply T1 | exact W]). rewrite (E1 p Np). f_equal. destruct (loc_dec [LStr ($"startIndex")] p) as [<-|N].
        + change (loc_strip start_index_loc (at_body [LStr ($"startIndex")])) with (Some (@nil locpart)). destruct (Z.ltb req s); reflexivity.
        + destruct (loc_strip start_index_loc (at_body p)) as [q|] eqn:Eq; [|reflexivity]. apply loc_strip_spec in Eq. unfold start_index_loc, body_loc in Eq. cbn [app] in Eq. injection Eq as ->.
          destruct (Z.ltb req s); [|reflexivity]. rewrite errs_at_add. change (errs_at no_issues q) with (@nil error). destruct (loc_dec [] q) as [<-|_]; [contradiction N; reflexivity | reflexivity].
      - apply Plain; [cbn [truthy] in H2; congruence | reflexivity]. }
    destruct S2 as [T2 [O2 E2]]. clear H2 O1 E1 T1 i1.
    assert (B2 : errs_at i2 [LStr ($"body")] = []) by (change (errs_at i2 (at_body []) = []); rewrite E2 by discriminate; rewrite J0; reflexivity).
    exists y, js, l'. repeat (split; [assumption|]). destruct (can_proceed i2 [resources_loc]) eqn:C2; cbn [negb] in H.
    2:{ (* the page size is wrong *)
      injection H as <- <-. assert (M : mis = true).
      { destruct mis eqn:M; [reflexivity|]. exfalso. assert (G : can_proceed i2 [resources_loc] = true); [|congruence]. apply (tight_proceeds _ _ T2). intros q [<-|[]]. apply clear_field. split; [exact O2|]. split; [exact B2|].
        rewrite E2 by discriminate. rewrite J4. reflexivity. }
      left. split; [exact M | exact E2]. }
    assert (M : mis = false).
    { pose proof (proj1 (tight_proceeds _ _ T2) C2 _ (or_introl eq_refl)) as C2'. apply clear_field in C2' as [_ [_ C2']]. rewrite E2 in C2' by discriminate. rewrite J4 in C2'. destruct mis; [discriminate C2' | reflexivity]. }
    right. split; [exact M|]. rewrite M in *. clear M. rewrite Y5 in H. cbn [bind] in H.
    set (lst := match l' with Some l => l | None => [] end) in *.
    assert (Hn : zlen lst = n).
    { unfold n, lst, zlen. unfold same_count in Y4. destruct l, l'; cbn [option_map] in Y4; first [reflexivity | injection Y4 as ->; reflexivity | discriminate]. }
    assert (H' : (let! iss := check_numbers y lst count i2 in check_resources schemas y h lst f so c iss) = Ok (rs, iss)) by (destruct l'; exact H).
    clear H. rename H' into H. apply bind_ok in H as [i3 [H3 H]].
    assert (S3 : wf i3 /\ forall p, p <> [LStr ($"schemas")] -> errs_at i3 (at_body p) = errs_at js p ++ (if loc_dec [LStr ($"startIndex")] p then if ahead req si then [e_start_index] else [] else [])
        ++ (if loc_dec [LStr ($"Resources")] p then number_errors count t n else [])
        ++ (if loc_dec [LStr ($"startIndex")] p then if paged count t n && negb (is_some si) then [e_missing] else [] else [])
        ++ (if loc_dec [LStr ($"itemsPerPage")] p then if negb (ahead req si) && (paged count t n && negb (is_some ipp)) then [e_missing] else [] else [])).
    { unfold check_numbers in H3.
      assert (C3 : can_proceed i2 [total_results_loc] = true).
      { apply (tight_proceeds _ _ T2). intros q [<-|[]]. apply clear_field. split; [exact O2|]. split; [exact B2|]. rewrite E2 by discriminate. rewrite J1. reflexivity. }
      rewrite C3, Y1 in H3. cbn [bind] in H3. apply bind_ok in H3 as [k [Hk H3]]. apply number_spec in Hk as [Wk Ek]. rewrite Hn in Ek.
      pose proof (tight_merge _ _ resources_loc T2 Wk) as T3. set (i2' := merge i2 k resources_loc) in *.
      assert (E3 : forall p, p <> [LStr ($"schemas")] -> errs_at i2' (at_body p) = errs_at js p ++ (if loc_dec [LStr ($"startIndex")] p then if ahead req si then [e_start_index] else [] else [])
        ++ (if loc_dec [LStr ($"Resources")] p then number_errors count t n else [])).
      { intros p Np. unfold i2'. rewrite errs_merge_wf by (first [apply T2 | exact Wk]). rewrite (E2 p Np), <- app_assoc. f_equal. f_equal. destruct (loc_dec [LStr ($"Resources")] p) as [<-|N].
        - change (loc_strip resources_loc (at_body [LStr ($"Resources")])) with (Some (@nil locpart)). apply Ek.
        - destruct (loc_strip resources_loc (at_body p)) as [q|] eqn:Eq; [|reflexivity]. apply loc_strip_spec in Eq. unfold resources_loc, body_loc in Eq. cbn [app] in Eq. injection Eq as ->.
          rewrite Ek. destruct (loc_dec [] q) as [<-|_]; [contradiction N; reflexivity | reflexivity]. }
      assert (O3 : errs_at i2' [] = []) by (unfold i2'; rewrite errs_merge_wf by (first [apply T2 | exact Wk]); rewrite O2; reflexivity).
      assert (B3 : errs_at i2' [LStr ($"body")] = []) by (change (errs_at i2' (at_body []) = []); rewrite E3 by discriminate; rewrite J0; reflexivity).
      cbn zeta in H3. destruct (can_proceed i2' [start_index_loc; items_per_page_loc]) eqn:C4.
      - assert (A : ahead req si = false).
        { pose proof (proj1 (tight_proceeds _ _ T3) C4 _ (or_introl eq_refl)) as C4'. apply clear_field in C4' as [_ [_ C4']]. rewrite E3 in C4' by discriminate. rewrite J2 in C4'. destruct (ahead req si); [discriminate C4' | reflexivity]. }
        rewrite Y2, Y3 in H3. cbn [bind] in H3. apply bind_ok in H3 as [k2 [Hk2 H3]]. injection H3 as <-. apply pagination_spec in Hk2 as [Wk2 Ek2]. rewrite Hn in Ek2.
        split; [apply wf_merge; [apply T3 | exact Wk2]|]. intros p Np. rewrite errs_merge_wf by (first [apply T3 | exact Wk2]). rewrite (E3 p Np). change (at_body p) with (body_loc ++ p). rewrite loc_strip_app, Ek2, A. cbn [negb andb]. rewrite <- !app_assoc. reflexivity.
      - assert (A : ahead req si = true).
        { destruct (ahead req si) eqn:A; [reflexivity|]. exfalso. assert (G : can_proceed i2' [start_index_loc; items_per_page_loc] = true); [|congruence]. apply (tight_proceeds _ _ T3).
          intros q [<-|[<-|[]]]; apply clear_field; (split; [exact O3|]; split; [exact B3|]); rewrite E3 by discriminate; [rewrite J2 | rewrite J3]; reflexivity. }
        injection H3 as <-. split; [apply T3|]. intros p Np. rewrite (E3 p Np), A. cbn [negb andb].
        assert (Sm : is_some si = true) by (destruct si; [reflexivity | discriminate A]). rewrite Sm. cbn [negb]. rewrite andb_false_r.
        repeat match goal with |- context[loc_dec ?a p] => destruct (loc_dec a p) end; rewrite ?app_nil_r; reflexivity. }
    destruct S3 as [W3 E3]. exists i3. split; [exact W3|]. split; [exact E3 | exact H].
  Qed.
  Lemma list_numbers schemas st doc h req count f so c rs iss t si ipp l : Forall sound schemas -> message list_schema doc -> holds (mk_cont doc) ($"totalResults") (VInt t) ->
    given_int doc ($"startIndex") si -> given_int doc ($"itemsPerPage") ipp -> given_list doc ($"Resources") l -> list_dump_response schemas st doc h req count f so c = Ok (rs, iss) ->
    let n := match l with Some l => Z.of_nat (length l) | None => 0%Z end in
    let mis := miscounted ipp l in
    errs_at iss (at_field ($"totalResults")) = []
    /\ errs_at iss (at_field ($"startIndex")) = (if ahead req si then [e_start_index] else []) ++ (if negb mis && (paged count t n && negb (is_some si)) then [e_missing] else [])
    /\ errs_at iss (at_field ($"itemsPerPage")) = (if mis then [e_must_equal ($"number of resources")] else [])
       ++ (if negb mis && negb (ahead req si) && (paged count t n && negb (is_some ipp)) then [e_missing] else [])
    /\ exists extra, errs_at iss (at_field ($"Resources")) = (if mis then [e_must_equal ($"itemsPerPage")] else number_errors count t n) ++ extra
       /\ Forall (eq e_not_sorted) extra /\ (mis = true \/ number_errors count t n <> [] -> extra = []).
  Proof.
    intros Hs Hd Ht Hsi Hi Hl H n mis. destruct (list_stage _ _ _ _ _ _ _ _ _ _ _ _ _ _ _ Hs Hd Ht Hsi Hi Hl H) as (y & js & l' & _ & _ & _ & _ & J1 & J2 & J3 & J4 & D).
    fold n in D. fold mis in J3, J4, D. unfold at_field. destruct D as [[M E2]|[M [i3 [W3 [E3 D]]]]].
    - rewrite !E2 by discriminate. rewrite J1, J2, J3, J4, M. cbn [negb andb]. split; [reflexivity|]. split; [destruct (ahead req si); reflexivity|]. split; [reflexivity|]. exists []. auto.
    - rewrite M in *. cbn [negb andb]. apply check_resources_spec in D as [F1 [extra [F2 [F3 F4]]]]; [|exact W3].
      rewrite !F1 by (intros q; discriminate). rewrite !E3 by discriminate. unfold errors_at. rewrite J1, J2, J3.
      split; [reflexivity|]. split; [destruct (ahead req si), (paged count t n), (is_some si); reflexivity|]. split; [destruct (ahead req si), (paged count t n), (is_some ipp); reflexivity|].
      change resources_loc with (at_body [LStr ($"Resources")]) in F2, F4. rewrite F2. exists extra. rewrite E3 in * by discriminate. unfold errors_at in *. rewrite J4 in *.
      split; [cbn; rewrite app_nil_r; reflexivity|]. split; [exact F3|]. intros [G|G]; [discriminate|]. apply F4. cbn. rewrite app_nil_r. exact G.
  Qed.

  (** ** Filtered resources *)

  (** Lenient evaluation never ends for lack of data. *)
  Lemma lenient_settles o : forall data l st, filter_apply o data l false = Ok st -> st <> MissingData.
  Proof.
    induction o as [r|b r lt|subs IH|subs IH|s IH|r s IH|] using oper_ind2; intros data l st H.
    - rewrite (apply_leaf _ r) in H by reflexivity. apply bind_ok in H as [v [_ H]]. cbn [matches] in H.
      intros ->. unfold present_match in H. destruct (find_attr l r) as [a|]; [|discriminate H].
      assert (N : forall b, status_of b <> MissingData) by (intros []; discriminate).
      destruct (is_complex a), v; try discriminate H; try (apply bind_ok in H as [bs [_ H]]); injection H as H; exact (N _ H).
    - rewrite (apply_leaf _ r) in H by reflexivity. apply bind_ok in H as [v [_ H]]. cbn [matches] in H. unfold binary_match in H.
      destruct (find_attr l r); [|injection H as <-; discriminate]. intros ->.
      destruct v; try discriminate H; apply bind_ok in H as [[ps|] [_ H]]; try discriminate H; apply bind_ok in H as [e [_ H]]; destruct e; discriminate H.
    - rewrite apply_and in H. revert st H. induction IH as [|s t Hs _ IHt]; intros st H; cbn [and_run] in H; [injection H as <-; discriminate|].
      apply bind_ok in H as [m [Hm H]]. apply Hs in Hm. destruct m; [exact (IHt _ H) | injection H as <-; discriminate | exact (IHt _ H) | contradiction].
    - rewrite apply_or in H. revert st H. induction IH as [|s t Hs _ IHt]; intros st H; cbn [or_run] in H; [injection H as <-; discriminate|].
      apply bind_ok in H as [m [Hm H]]. apply Hs in Hm. destruct m; [injection H as <-; discriminate | exact (IHt _ H) | exact (IHt _ H) | contradiction].
    - rewrite apply_not in H. apply bind_ok in H as [m [_ H]]. injection H as <-. destruct m; discriminate.
    - rewrite (apply_leaf _ r) in H by reflexivity. apply bind_ok in H as [v [_ H]]. rewrite matches_complex in H.
      destruct (find_attr l r) as [a|]; [|injection H as <-; discriminate]. destruct (negb (is_complex a)); [injection H as <-; discriminate|].
      destruct (_ || _); [injection H as <-; discriminate|]. destruct (is_attr_op s).
      + revert H. generalize false at 3. induction (complex_items a v) as [|x t IHt]; intros b H; cbn [attr_run] in H; [injection H as <-; destruct (_ && _); discriminate|].
        apply bind_ok in H as [[iv m] [_ H]]. destruct m; [injection H as <-; discriminate | exact (IHt _ H)..].
      + revert H. generalize false at 3. induction (complex_items a v) as [|x t IHt]; intros b H; cbn [other_run] in H; [injection H as <-; destruct (_ && _); discriminate|].
        apply bind_ok in H as [m [_ H]]. destruct m; [injection H as <-; discriminate | exact (IHt _ H)..].
    - unfold filter_apply in H. apply bind_ok in H as [v [H _]]. discriminate H.
  Qed.

  (** Presence says nothing about a resource as a whole. *)
  Lemma presence_root c data all d ps : presence c data all d = Ok ps -> errs_at ps [] = [].
  Proof.
    intros H. assert (G : wf ps /\ errs_at ps [] = []); [|apply G]. revert H. unfold presence. apply (foldM_inv _ (fun i => wf i /\ errs_at i [] = [])); [|split; [apply wf_no_issues | reflexivity]].
    intros s a s' _ [Ws Hs] H. assert (K : forall i l, l <> [] -> wf i -> errs_at i [] = [] -> forall v, wf (merge i (check_presence c v d (info a) (arep a)) l) /\ errs_at (merge i (check_presence c v d (info a) (arep a)) l) [] = []).
    { intros i l Nl Wi Hi v. pose proof (report_wf _ (check_presence_report c v d (info a) (arep a))) as Wc. split; [apply wf_merge; assumption|]. rewrite errs_merge_wf by assumption. rewrite Hi. destruct l; [contradiction Nl|]; reflexivity. }
    unfold check_attr in H. apply bind_ok in H as [r [_ H]]. apply bind_ok in H as [b [_ H]]. destruct b.
    - apply bind_ok in H as [v [_ H]].
      assert (G : forall l k i i', wf i -> errs_at i [] = [] -> check_items c d a k l i = Ok i' -> wf i' /\ errs_at i' [] = []).
      { induction l as [|x t IH]; intros k i i' Wi Hi E; cbn [check_items] in E; [injection E as <-; auto|].
        apply bind_ok in E as [rs [_ E]]. apply bind_ok in E as [w [_ E]]. destruct (is_invalid w); [exact (IH _ _ _ Wi Hi E)|].
        destruct (K i [LStr (r_attr (arep a)); LIdx k; LStr (r_sub (arep a))] ltac:(discriminate) Wi Hi w) as [K1 K2]. exact (IH _ _ _ K1 K2 E). }
      destruct v; try (injection H as <-; auto; fail); try (apply bind_ok in H as [its [_ H]]; exact (G _ _ _ _ Ws Hs H)).
      injection H as <-. apply K; [discriminate | assumption..].
    - apply bind_ok in H as [v [_ H]]. destruct (is_invalid v); injection H as <-; [auto|]. apply K; [discriminate | assumption..].
  Qed.
  Lemma resources_presence_item c l : forall i ss iss j, wf iss -> resources_presence c i l ss iss = Ok j -> forall k, errs_at j [LIdx k] = errs_at iss [LIdx k].
  Proof.
    induction l as [|x t IH]; intros i ss iss j W H k; cbn [resources_presence] in H; [injection H as <-; reflexivity|]. destruct ss as [|[[k' s]|] ss]; [injection H as <-; reflexivity| |discriminate].
    apply bind_ok in H as [ps [Hps H]]. pose proof (presence_root _ _ _ _ _ Hps) as R. apply presence_report, report_wf in Hps. rewrite (IH _ _ _ _ (wf_merge _ _ _ W Hps) H k), errs_merge_wf by assumption.
    destruct (loc_strip [LIdx i] [LIdx k]) as [q|] eqn:E; [|apply app_nil_r]. apply loc_strip_spec in E. cbn [app] in E. injection E as _ <-. rewrite R. apply app_nil_r.
  Qed.

  (** The loop over the resources reports those that do not match. *)
  Lemma filter_loop_items o st l : forall i ss iss j, wf iss -> filter_loop o st i l ss iss = Ok j -> forall k x s n, nth_error l k = Some x -> nth_error ss k = Some (Some (n, s)) ->
    exists m, filter_apply o x (at_all (sc_attrs s)) st = Ok m /\ m <> MissingData /\ errs_at j [LIdx (i + k)] = errs_at iss [LIdx (i + k)] ++ match m with Passed => [] | _ => [e_filter_mismatch] end.
  Proof.
    induction l as [|x t IH]; intros i ss iss j W H k x' s n Hx Hs; [destruct k; discriminate|]. cbn [filter_loop] in H. destruct ss as [|[[k' s']|] ss]; [destruct k; discriminate| |discriminate].
    apply bind_ok in H as [m [Hm H]]. apply bind_ok in H as [b [Hb H]]. pose proof (wf_if (negb b) e_filter_mismatch true [LIdx i] _ W) as W'.
    destruct k as [|k]; cbn [nth_error] in Hx, Hs.
    - injection Hx as <-. injection Hs as <- <-. exists m. split; [exact Hm|]. split; [intros ->; discriminate Hb|]. rewrite Nat.add_0_r.
      assert (T : forall i' ss' iss' j', wf iss' -> i < i' -> filter_loop o st i' t ss' iss' = Ok j' -> errs_at j' [LIdx i] = errs_at iss' [LIdx i]).
      { clear. induction t as [|x t IH]; intros i' ss' iss' j' W Hi H; cbn [filter_loop] in H; [injection H as <-; reflexivity|]. destruct ss' as [|[[k' s']|] ss']; [injection H as <-; reflexivity| |discriminate].
        apply bind_ok in H as [m [_ H]]. apply bind_ok in H as [b [_ H]]. rewrite (IH _ _ _ _ (wf_if _ _ _ _ _ W) (Nat.lt_lt_succ_r _ _ Hi) H). unfold add_if. destruct (negb b); [|reflexivity]. rewrite errs_at_add.
        destruct (loc_dec _ _) as [E|_]; [injection E as E; lia | apply app_nil_r]. }
      rewrite (T _ _ _ _ W' (Nat.lt_succ_diag_r i) H). unfold add_if. destruct m; try discriminate Hb; injection Hb as <-; cbn [negb]; rewrite ?app_nil_r; try reflexivity; rewrite errs_at_add; destruct (loc_dec [LIdx i] [LIdx i]) as [_|N]; try reflexivity; contradiction N; reflexivity.
    - destruct (IH _ _ _ _ W' H k x' s n Hx Hs) as [m' [G1 [G2 G3]]]. exists m'. split; [exact G1|]. split; [exact G2|]. rewrite Nat.add_succ_comm in G3. rewrite G3. f_equal.
      unfold add_if. destruct (negb b); [|reflexivity]. rewrite errs_at_add. destruct (loc_dec _ _) as [E|_]; [injection E as E; lia | apply app_nil_r].
  Qed.
  Lemma filter_loop_returns o l : forall i ss iss, length ss = length l -> (forall k x, nth_error l k = Some x -> exists n s, nth_error ss k = Some (Some (n, s)) /\ returns o x (at_all (sc_attrs s)) false) ->
    exists j, filter_loop o false i l ss iss = Ok j.
  Proof.
    induction l as [|x t IH]; intros i ss iss Hl H; [exists iss; reflexivity|]. destruct ss as [|s ss]; [discriminate|]. injection Hl as Hl.
    destruct (H 0 x eq_refl) as [n [s' [E [m Hm]]]]. cbn [nth_error] in E. injection E as ->. unfold MatchSpec.gives in Hm. cbn [filter_loop]. rewrite Hm. cbn [bind].
    pose proof (lenient_settles _ _ _ _ Hm) as Nm. destruct m; try contradiction; cbn [match_bool bind]; apply IH; try exact Hl; intros k y Hy; exact (H (S k) y Hy).
  Qed.

  (** Reports without errors below a location. *)
  Lemma no_issues_below i l : wf i -> (forall p, errs_at i (l ++ p) = []) -> has_issues i [l] = false.
  Proof.
    intros W H. destruct (has_issues i [l]) eqn:E; [|reflexivity]. exfalso. apply has_issues_spec in E as [l' [t [[<-|[]] Hin]]]. specialize (H t). apply (errs_at_nil_iff _ _ W) in H. exact (H Hin).
  Qed.

  Lemma check_filtered schemas y h l o so c iss rs iss' ss : wf iss -> (forall p, errs_at iss (resources_loc ++ p) = []) -> schemas_for schemas l = Ok ss ->
    check_resources schemas y h l (Some o) so c iss = Ok (rs, iss') ->
    exists fi, resources_filtered o l ss false = Ok fi /\ wf fi /\ forall k, errs_at iss' (resources_loc ++ [LIdx k]) = errs_at fi [LIdx k].
  Proof.
    intros W Z Hss H. unfold check_resources in H. destruct (has_issues _ [resources_loc]) eqn:E0; [exfalso; exact (Bool.diff_true_false (eq_trans (eq_sym E0) (no_issues_below _ _ W Z)))|]. rewrite Hss in H. cbn [bind] in H. apply bind_ok in H as [i1 [H1 H]]. apply bind_ok in H1 as [fi [Hf H1]]. injection H1 as <-.
    assert (Wf : wf fi).
    { pose proof Hf as Hf'. unfold resources_filtered in Hf'. apply skip_inv in Hf' as [Hf'| ->]; [exact (filter_loop_wf _ _ _ _ _ _ _ wf_no_issues Hf') | apply wf_no_issues]. }
    exists fi. split; [exact Hf|]. split; [exact Wf|]. apply bind_ok in H as [i2 [H2 H]].
    assert (S2 : wf i2 /\ forall k, errs_at i2 (resources_loc ++ [LIdx k]) = errs_at fi [LIdx k]).
    { assert (B : forall k, errs_at (merge iss fi resources_loc) (resources_loc ++ [LIdx k]) = errs_at fi [LIdx k]) by (intros k; rewrite errs_merge_wf by assumption; rewrite Z, loc_strip_app; reflexivity).
      destruct so as [so|]; [|injection H2 as <-; split; [apply wf_merge; assumption | exact B]]. apply bind_ok in H2 as [i [Hi H2]]. injection H2 as <-.
      assert (Wi : wf i /\ forall k, errs_at i [LIdx k] = []).
      { unfold resources_sorted in Hi. apply skip_inv in Hi as [Hi| ->]; [|split; [apply wf_no_issues | reflexivity]].
        apply bind_ok in Hi as [x [_ Hi]]. apply bind_ok in Hi as [d [_ Hi]]. injection Hi as <-. destruct d; [|split; [apply wf_no_issues | reflexivity]]. split; [apply wf_add, wf_no_issues | reflexivity]. }
      destruct Wi as [Wi Ri]. split; [apply wf_merge; [apply wf_merge|]; assumption|]. intros k. rewrite errs_merge_wf by (first [apply wf_merge; assumption | assumption]). rewrite B, loc_strip_app, Ri. apply app_nil_r. }
    destruct S2 as [W2 E2]. apply bind_ok in H as [ps [Hp H]]. cbn zeta in H. pose proof (resources_presence_wf _ _ _ _ _ _ wf_no_issues Hp) as Wp.
    assert (G : iss' = merge i2 ps resources_loc) by (destruct (has_issues (merge i2 ps resources_loc) []); congruence). subst iss'.
    intros k. rewrite errs_merge_wf by assumption. rewrite E2, loc_strip_app, (resources_presence_item _ _ _ _ _ _ wf_no_issues Hp k). apply app_nil_r.
  Qed.

  Lemma filter_exact schemas st doc h req count o so c resp iss t si ipp l rs ss : Forall sound schemas -> message list_schema doc -> holds (mk_cont doc) ($"totalResults") (VInt t) ->
    given_int doc ($"startIndex") si -> given_int doc ($"itemsPerPage") ipp -> holds (mk_cont doc) ($"Resources") (VList l) ->
    number_errors count t (Z.of_nat (length l)) = [] -> prepared schemas doc rs ss ->
    list_dump_response schemas st doc h req count (Some o) so c = Ok (resp, iss) ->
    exists fi, resources_filtered o rs ss false = Ok fi /\ wf fi /\ forall k, errs_at iss (at_field ($"Resources") ++ [LIdx k]) = errs_at fi [LIdx k].
  Proof.
    intros Hs Hd Ht Hsi Hi Hl Hn [y0 [js0 [P1 [P2 [P3 P4]]]]] H.
    destruct (list_stage _ _ _ _ _ _ _ _ _ _ _ _ _ _ (Some l) Hs Hd Ht Hsi Hi Hl H) as (y & js & l' & D1 & W & _ & D2 & _ & _ & _ & J4 & D).
    rewrite P1 in D1. injection D1 as <- <-. rewrite P2 in D2. destruct l' as [l'|]; [|discriminate D2]. injection D2 as <-.
    destruct D as [[M _]|[M [i3 [W3 [E3 D]]]]]; [rewrite M, (P4 []) in J4; discriminate J4|].
    apply (check_filtered _ _ _ _ _ _ _ _ _ _ _ W3) with (2 := P3) in D; [exact D|].
    intros p. change (resources_loc ++ p) with (at_body (LStr ($"Resources") :: p)). rewrite E3 by discriminate. unfold errors_at. rewrite P4.
    destruct (loc_dec [LStr ($"startIndex")] _) as [E|_]; [exfalso; discriminate E|]. destruct (loc_dec [LStr ($"itemsPerPage")] _) as [E|_]; [exfalso; discriminate E|].
    cbn [length] in *. rewrite Hn. destruct (loc_dec [LStr ($"Resources")] _); reflexivity.
  Qed.

  Lemma dump_resources_clean s l xs : sound s -> Forall2 (dumped s) l xs -> forall i acc iss, wf iss ->
    exists iss', dump_resources i l (map (fun _ => Some (0, s)) l) acc iss = Ok (acc ++ xs, iss') /\ forall p, errs_at iss' p = errs_at iss p.
  Proof.
    intros Hs H. induction H as [|x x' l xs [j [Hx Hj]] _ IH]; intros i acc iss W; cbn [map dump_resources]; [exists iss; rewrite app_nil_r; auto|].
    rewrite Hx. cbn [bind]. pose proof (report_wf _ (dump_report _ _ _ _ (proj2 Hs) Hx)) as Wj. destruct (IH (S i) (acc ++ [x']) _ (wf_merge _ _ (resource_loc i) W Wj)) as [iss' [G1 G2]].
    exists iss'. rewrite G1, <- app_assoc. split; [reflexivity|]. intros p. rewrite G2, errs_merge_wf by assumption. destruct (loc_strip _ p); [rewrite Hj|]; apply app_nil_r.
  Qed.
  Lemma prepared_single s doc t si ipp l rs : sound s -> message list_schema doc -> holds (mk_cont doc) ($"totalResults") (VInt t) ->
    given_int doc ($"startIndex") si -> given_int doc ($"itemsPerPage") ipp -> holds (mk_cont doc) ($"Resources") (VList l) -> miscounted ipp (Some l) = false ->
    Forall2 (dumped s) l rs -> (exists out, list_dump [s] doc = Ok out) -> prepared [s] doc rs (map (fun _ => Some (0, s)) rs).
  Proof.
    intros Hs Hd Ht Hsi Hi Hl Hm Hr [[y js] Hy]. pose proof Hy as H. unfold list_dump in H. apply bind_ok in H as [[d i1] [H1 H]].
    destruct (list_int doc d i1 3 ipp Hd H1 (or_intror (or_intror eq_refl)) Hi) as [P1 P2].
    destruct (list_resources doc d i1 (Some l) Hd H1 Hl) as [R1 R2].
    pose proof (message_clear list_schema MDump doc d i1 list_made eq_refl Hd H1) as C.
    pose proof (base_wf _ _ _ _ _ (proj2 (made_sound _ list_made)) H1) as Rep.
    assert (Cp : can_proceed i1 [] = true).
    { apply clear_proceeds; [exact Rep|]. intros q [<-|[]] a [x Ha]. apply eq_sym, app_eq_nil in Ha as [-> _]. exact C. }
    rewrite Cp in H. cbn [negb] in H. rewrite R1 in H. cbn [bind] in H.
    change (arep (list_attr 3)) with (list_rep ($"itemsPerPage")) in *. cbn [list_rep r_attr] in P2.
    assert (Cp2 : can_proceed i1 [[LStr ($"itemsPerPage")]] = true).
    { apply clear_proceeds; [exact Rep|]. intros q [<-|[]] a [x Ha]. destruct a as [|k a]; [exact C|]. injection Ha as <- Ha. apply eq_sym, app_eq_nil in Ha as [-> _]. apply P2. }
    rewrite Cp2, P1 in H. cbn [bind] in H.
    assert (K : items_per_page_issues (length l) (opt_int ipp) = no_issues).
    { unfold miscounted in Hm. destruct ipp as [p|]; [|reflexivity]. cbn [opt_int items_per_page_issues]. destruct (Z.eqb p _); [reflexivity | discriminate Hm]. }
    rewrite K in H. cbn [schemas_for bind] in H.
    pose proof (wf_merge _ _ [] (report_wf _ Rep) wf_no_issues) as W1. destruct (dump_resources_clean s l rs Hs Hr 0 [] _ W1) as [iss' [G1 G2]]. rewrite G1 in H. cbn [bind app] in H.
    apply bind_ok in H as [d' [Hd' H]]. injection H as <- <-.
    destruct (parsed_no_main list_schema MDump doc d i1 (made_wf _ list_made) (proj1 Hd) H1) as [[dd [ll [-> [Hidx _]]]] Hmain].
    destruct (field_write dd ll list_uri ($"Resources") (VList rs) d' Hidx Hmain) as [F1 _]; [vm_compute; discriminate | exact Hd'|].
    exists d', iss'. split; [exact Hy|]. split; [exact F1|]. split; [reflexivity|].
    intros p. rewrite G2, errs_merge_wf by (first [exact (report_wf _ Rep) | apply wf_no_issues]). rewrite R2. cbn [loc_strip]. reflexivity.
  Qed.
End Env.
