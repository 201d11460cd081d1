(** The loop over the operations of bulk responses. *)
From Coq Require Import Lia.
From Verif Require Import PyBase BaseFacts PyNum Issues IssuesSpec IssuesFacts AttrRep AttrRepSpec Value Container ContainerSpec ContainerFacts ContainerRW AttrRepFacts ValueFacts
  Types Attr Schema Assets Presence Match MatchCompare FilterParse Path Sort Patch ListResp Search Bulk Requests
  AttrSpec AttrFacts AttrItems SchemaSpec SchemaFacts SchemaBuild PropAttr PropSchema PresenceSpec PresenceFacts PropPresence PatchSpec PatchFacts PropPatch RequestSpec ListSpec RequestFacts MsgFacts BodyFacts ListFacts
  PatchShapeFacts BulkFacts BulkOpSpec BulkOpFacts BulkRespSpec BulkRespFacts.

Section Env.
  Context {env : PyEnv}.

  (** A report grows by what is wrong with the i-th operation. *)
  Definition grows (i : nat) (iss iss' : issues) (R : error -> loc -> Prop) : Prop :=
    wf iss' /\ forall e p, In e (errs_at iss' p) <-> In e (errs_at iss p) \/ exists x, p = at_bulk i ++ x /\ R e x.
  Lemma grows_none i iss : wf iss -> grows i iss iss (fun _ _ => False).
  Proof. intros W. split; [exact W|]. intros e p. split; [auto | intros [G|[x [_ []]]]; exact G]. Qed.
  Lemma grows_trans i a b c R R' : grows i a b R -> grows i b c R' -> grows i a c (fun e x => R e x \/ R' e x).
  Proof.
    intros [_ H1] [W H2]. split; [exact W|]. intros e p. rewrite H2, H1. split.
    - intros [[G|[x [G1 G2]]]|[x [G1 G2]]]; auto; right; exists x; auto.
    - intros [G|[x [G1 [G2|G2]]]]; auto; [left; right | right]; exists x; auto.
  Qed.
  Lemma grows_ext i a b R R' : (forall e x, R e x <-> R' e x) -> grows i a b R -> grows i a b R'.
  Proof. intros E [W H]. split; [exact W|]. intros e p. rewrite H. split; (intros [G|[x [G1 G2]]]; [auto | right; exists x; split; [exact G1 | apply E; exact G2]]). Qed.
  Lemma grows_add i iss e0 b n : wf iss -> grows i iss (add_issue iss e0 b (at_bulk i ++ n)) (fun e x => e = e0 /\ x = n).
  Proof.
    intros W. split; [apply wf_add; exact W|]. intros e p. rewrite add_part. split; (intros [G|G]; [auto | right]).
    - destruct G as [-> ->]. exists n. auto.
    - destruct G as [x [-> [-> ->]]]. auto.
  Qed.
  Lemma grows_merge i iss j p n i' : wf iss -> wf j -> merge_at iss (get_issues j p) (at_bulk i ++ n) = Ok i' ->
    grows i iss i' (fun e x => exists x', x = n ++ x' /\ In e (errs_at j (p ++ x'))).
  Proof.
    intros W Wj H. destruct (merge_part _ _ _ _ _ W Wj H) as [W' E]. split; [exact W'|]. intros e q. rewrite E. split; (intros [G|G]; [auto | right]).
    - destruct G as [x' [-> G]]. exists (n ++ x'). split; [symmetry; apply app_assoc | exists x'; auto].
    - destruct G as [x [-> [x' [-> G]]]]. exists x'. split; [apply app_assoc | exact G].
  Qed.

  (** The version. *)
  Lemma version_step i o rs js iss rb iss' : wf iss -> (rs_body rs <> VNone -> forall p, errs_at js p = []) ->
    bulk_version i (opt (option_map VStr (t_version o))) (rs_body rs) iss = Ok (rb, iss') -> rb = body_kept rs /\ grows i iss iss' (outdated o rs js).
  Proof.
    intros W Hc H.
    assert (Split : rs_body rs = VNone /\ bulk_version i (opt (option_map VStr (t_version o))) (rs_body rs) iss = Ok (VNone, iss)
      \/ rs_body rs <> VNone /\ body_kept rs = mk_cont (rs_body rs) /\ bulk_version i (opt (option_map VStr (t_version o))) (rs_body rs) iss =
        (let! rv := get_item_str (mk_cont (rs_body rs)) ($"meta.version") in
         let! differ := (if truthy (opt (option_map VStr (t_version o))) && truthy rv then let! e := veq (opt (option_map VStr (t_version o))) rv in Ok (negb e) else Ok false) in
         Ok (mk_cont (rs_body rs), if differ : bool then
                 add_issue (add_issue iss (e_must_equal ($"operation's version")) true
                              (op_field_loc i ($"response") ++ [LStr ($"meta"); LStr ($"version")]))
                           (e_must_equal ($"'response.meta.version'")) true (op_field_loc i ($"version"))
               else iss))).
    { unfold body_kept. destruct (rs_body rs); try (right; split; [discriminate | split; reflexivity]). left. split; reflexivity. }
    destruct Split as [[E1 E2]|[E1 [E2 E3]]].
    - rewrite E2 in H. injection H as <- <-. split; [unfold body_kept; rewrite E1; reflexivity|].
      apply (grows_ext i iss iss (fun _ _ => False)); [|apply grows_none; exact W]. intros e x. split; [intros []|].
      assert (N : forall v, get_item_str (mk_cont (rs_body rs)) ($"meta.version") = Ok v -> truthy v = true -> False).
      { rewrite E1. intros v G T. assert (G' : @Ok value VMissing = Ok v) by exact G. injection G' as <-. discriminate T. }
      intros [w v _ _ _ G T _|w v _ _ _ G T _]; exact (N v G T).
    - rewrite E3 in H. apply bind_ok in H as [rv [Hv H]]. apply bind_ok in H as [df [Hd H]]. injection H as <- <-. split; [symmetry; exact E2|].
      assert (D : df = true <-> exists w, t_version o = Some w /\ w <> [] /\ truthy rv = true /\ rv <> VStr w).
      { destruct (t_version o) as [w|]; cbn [option_map opt] in Hd.
        - destruct w as [|a w]; [cbn [truthy nonempty andb] in Hd; injection Hd as <-; split; [discriminate | intros [w [[= <-] [G _]]]; contradiction G; reflexivity]|].
          cbn [truthy nonempty andb] in Hd. fold (truthy rv) in Hd. destruct (truthy rv) eqn:T.
          + apply bind_ok in Hd as [b [Hb Hd]]. injection Hd as <-. apply veq_text in Hb. rewrite Bool.negb_true_iff, <- Bool.not_true_iff_false, Hb. split.
            * intros G. exists (a :: w). repeat split; try discriminate. exact G.
            * intros [w' [[= <-] [_ [_ G]]]]. exact G.
          + injection Hd as <-. split; [discriminate | intros [w' [_ [_ [G _]]]]; discriminate G].
        - injection Hd as <-. split; [discriminate | intros [w [G _]]; discriminate G]. }
      destruct df.
      + destruct (proj1 D eq_refl) as [w [D1 [D2 [D3 D4]]]]. 
        change (op_field_loc i ($"response") ++ [LStr ($"meta"); LStr ($"version")]) with (at_bulk i ++ in_response [LStr ($"meta"); LStr ($"version")]). change (op_field_loc i ($"version")) with (at_bulk i ++ [LStr ($"version")]).
        pose proof (grows_add i iss (e_must_equal ($"operation's version")) true (in_response [LStr ($"meta"); LStr ($"version")]) W) as G1.
        pose proof (grows_add i _ (e_must_equal ($"'response.meta.version'")) true [LStr ($"version")] (proj1 G1)) as G2.
        refine (grows_ext _ _ _ _ _ _ (grows_trans _ _ _ _ _ _ G1 G2)). intros e x. split.
        * intros [[-> ->]|[-> ->]]; [apply (outdated_body o rs js w rv) | apply (outdated_operation o rs js w rv)]; auto.
        * intros [? ? _ _ _ _ _ _|? ? _ _ _ _ _ _]; auto.
      + apply (grows_ext i iss iss (fun _ _ => False)); [|apply grows_none; exact W]. intros e x. split; [intros []|].
        intros [w v _ G1 G2 G3 G4 G5|w v _ G1 G2 G3 G4 G5]; assert (false = true) by (apply D; exists w; rewrite Hv in G3; injection G3 as <-; auto); discriminate.
  Qed.

  Lemma answer_step schemas xs i o iss n b' iss' n' : Forall sound schemas -> told_apart schemas -> well_put o -> wf iss -> nth_error xs i = Some (answer_left o) ->
    bulk_dump_operation (validators schemas) i (VStr (t_method o)) (opt (option_map VStr (t_status o))) (opt (answered o)) (opt (option_map VStr (t_location o)))
      (opt (option_map VStr (t_version o))) (answers_doc xs) iss n = Ok (b', iss', n') ->
    exists v R, replied schemas o v R /\ b' = answers_doc (set_nth i v xs) /\ grows i iss iss' R.
  Proof.
    intros Hs Hd Hw W Hx H. pose proof Hw as [Hm Hl Hst Hr]. unfold bulk_dump_operation in H. cbn zeta in H.
    assert (Mt : truthy (VStr (t_method o)) = true) by (destruct Hm as [<-|[<-|[<-|[<-|[<-|[]]]]]]; reflexivity). rewrite Mt in H. cbn [negb] in H.
    apply bind_ok in H as [[va i1] [H1 H]].
    assert (Loc : grows i iss i1 (astray schemas o) /\ (forall s, va = Some s <-> exists t, t_location o = Some t /\ judges schemas t s) /\ (va = None -> t_location o = None \/ schemas = [])).
    { destruct (t_location o) as [t|] eqn:Et; cbn [option_map opt] in H1.
      - destruct (Hl t eq_refl) as [Nt _]. assert (T : truthy (VStr t) = true) by (destruct t; [contradiction Nt; reflexivity | reflexivity]). rewrite T in H1.
        apply bind_ok in H1 as [bm [_ H1]]. cbn [bind] in H1. destruct (locate (validators schemas) t None) as [v f] eqn:El. injection H1 as <- <-.
        destruct (locate_judges schemas t v f Hd El) as [L1 [L2 L3]]. split; [|split].
        + change (op_field_loc i ($"location")) with (at_bulk i ++ [LStr ($"location")]). destruct f; cbn [negb add_if].
          * refine (grows_ext _ _ _ _ _ _ (grows_none i iss W)). intros e x. split; [intros [] | intros [t' G1 G2]]. rewrite Et in G1. injection G1 as <-. apply L1 in G2. discriminate G2.
          * refine (grows_ext _ _ _ _ _ _ (grows_add i iss _ _ _ W)). intros e x. split; [intros [-> ->]; apply (astray_at _ _ t Et), L1; reflexivity | intros [t' _ _]; auto].
        + intros s. rewrite L2. split; [intros G; exists t; auto | intros [t' [[= <-] G]]; exact G].
        + intros G. right. exact (L3 G).
      - injection H1 as <- <-. split; [|split; [|auto]].
        + refine (grows_ext _ _ _ _ _ _ (grows_none i iss W)). intros e x. split; [intros [] | intros [t G _]; congruence].
        + intros s. split; [discriminate | intros [t [G _]]; discriminate G]. }
    destruct Loc as [G1 [V1 V2]]. clear H1.
    assert (Stay : (forall z r, ends o z -> says o r -> (z < 300)%Z /\ (t_location o = None \/ schemas = [])) -> Ok (answers_doc xs, i1, n) = Ok (b', iss', n') ->
      exists v R, replied schemas o v R /\ b' = answers_doc (set_nth i v xs) /\ grows i iss iss' R).
    { intros Hq Q. injection Q as <- <- <-. exists (answer_left o), (astray schemas o). split; [apply replied_silent; exact Hq|]. split; [rewrite set_nth_same by exact Hx; reflexivity | exact G1]. }
    match type of H with (if negb (?a && ?b) then _ else _) = _ => destruct a eqn:Ea; [destruct b eqn:Eb|]; cbn [negb andb] in H end.
    2:{ apply Stay; [|exact H]. intros z r _ Sr. exfalso. assert (Q : truthy (opt (answered o)) = true) by (apply says_iff; exists r; exact Sr). congruence. }
    2:{ apply Stay; [|exact H]. intros z r [t [E1 E2]] _. exfalso. rewrite E1 in Ea. cbn [option_map opt] in Ea. rewrite (numeral_nonempty _ _ E2) in Ea. discriminate Ea. }
    apply says_iff in Eb as [r Sr]. destruct (says_opt o r Sr) as [v0 [Eo Ec]]. assert (Tr : truthy r = true) by (destruct Sr as [? [_ [_ Sr]]]; exact Sr). rewrite Eo in H.
    destruct (t_status o) as [t|] eqn:Et; [|discriminate Ea]. cbn [option_map opt] in H. apply bind_ok in H as [z [Hz H]]. assert (Ez : ends o z) by (exists t; auto).
    destruct (Z.leb_spec 300 z) as [Lz|Lz].
    - rewrite error_content, <- Ec in H. apply bind_ok in H as [[er js] [He H]]. pose proof (error_dump_wf _ _ _ _ _ He) as [We _].
      apply bind_ok in H as [i2 [H2 H]]. apply bind_ok in H as [i3 [H3 H]]. rewrite (set_answers_doc xs i o _ Hx) in H. cbn [bind] in H. injection H as <- <- <-.
      change (op_field_loc i ($"response")) with (at_bulk i ++ [LStr ($"response")]) in H2. change (op_field_loc i ($"status")) with (at_bulk i ++ [LStr ($"status")]) in H3.
      pose proof (grows_merge _ _ _ _ _ _ (proj1 G1) We H2) as G2. pose proof (grows_merge _ _ _ _ _ _ (proj1 G2) We H3) as G3.
      eexists _, _. split; [exact (replied_error schemas o z r er js Ez Sr Lz He)|]. split; [reflexivity|].
      refine (grows_ext _ _ _ _ _ _ (grows_trans _ _ _ _ _ _ G1 (grows_trans _ _ _ _ _ _ G2 G3))). intros e x. split; (intros [G|G]; [auto|right]).
      + destruct G as [[x' [-> G]]|[x' [-> G]]]; [exact (wrong_body js e x' G) | exact (wrong_status js e x' G)].
      + destruct G as [p G|p G]; [left | right]; exists p; auto.
    - destruct va as [s|]; [|apply Stay; [|exact H]; intros z' r' [t' [E1 E2]] _; rewrite Et in E1; injection E1 as <-; rewrite Hz in E2; injection E2 as <-; auto].
      destruct (proj1 (V1 s) eq_refl) as [u [Eu Ju]]. rewrite Eu in H. cbn [option_map opt] in H. destruct (Hl u Eu) as [Nu _].
      assert (T : truthy (VStr u) = true) by (destruct u; [contradiction Nu; reflexivity | reflexivity]). rewrite T in H. clear Stay.
      apply bind_ok in H as [bm [Hbm H]]. apply bind_ok in H as [[rd js] [Hi H]].
      assert (Tc : truthy (content v0) = true) by (rewrite <- Ec; exact Tr).
      pose proof (alone_dump s o z u v0 bm rd js Hw Hbm Tc Hi) as Al. rewrite <- Ec in Al.
      assert (Ss : sound s). { rewrite Forall_forall in Hs. apply Hs. destruct Ju as [l1 x l2 E _ _|l1 x E _]; rewrite E; apply in_or_app; right; left; reflexivity. }
      destruct (alone_wf s o z u r rd js Ss Tr Al) as [Wj Dj]. pose proof (alone_mismatch s o z u r rd js (proj2 Ss) Tr Al) as Mm.
      pose proof (popped_has js (body_loc ++ meta_location_loc) 11 Wj) as P1. pose proof (wf_pop js (body_loc ++ meta_location_loc) 11 Wj) as Wa.
      pose proof (pop_errs js (body_loc ++ meta_location_loc) 11) as Pe. pose proof (fun l' => pop_elsewhere js (body_loc ++ meta_location_loc) 11 l' Wj) as Pf.
      destruct (pop_issues js (body_loc ++ meta_location_loc) 11) as [mm ja]. cbn [fst snd] in *.
      pose proof (popped_has ja header_location_loc 11 Wa) as P2. pose proof (wf_pop ja header_location_loc 11 Wa) as Wb.
      pose proof (fun l' => pop_elsewhere ja header_location_loc 11 l' Wa) as Ph.
      destruct (pop_issues ja header_location_loc 11) as [hm jb]. cbn [fst snd] in *.
      apply bind_ok in H as [i2 [H2 H]]. cbn zeta in H. apply bind_ok in H as [[rb i3] [H3 H]]. rewrite (set_answers_doc xs i o _ Hx) in H. cbn [bind] in H. injection H as <- <- <-.
      change (op_field_loc i ($"response")) with (at_bulk i ++ [LStr ($"response")]) in H2.
      pose proof (grows_merge _ _ _ _ _ _ (proj1 G1) Wb H2) as G2.
      assert (Hh : has_issues mm [] && has_issues hm [] = true <-> errs_at js at_header <> []).
      { rewrite Bool.andb_true_iff, P1, P2. rewrite Pf by discriminate. change header_location_loc with at_header. split; [intros [_ G]; exact G|]. intros G. split; [exact (Mm G) | exact G]. }
      match type of H3 with bulk_version _ _ _ ?k = _ => assert (G3 : grows i i2 k (displaced js)) end.
      { destruct (has_issues mm [] && has_issues hm []).
        - assert (N : errs_at js at_header <> []) by (apply Hh; reflexivity). destruct (errs_at js at_header) as [|e0 es] eqn:E; [contradiction N; reflexivity|].
          assert (I : In e0 (errs_at js at_header)) by (rewrite E; left; reflexivity).
          change (op_field_loc i ($"response") ++ meta_location_loc) with (at_bulk i ++ in_response at_meta_location). change (op_field_loc i ($"location")) with (at_bulk i ++ [LStr ($"location")]).
          pose proof (grows_add i i2 (e_must_equal ($"operation's location")) true (in_response at_meta_location) (proj1 G2)) as A1.
          pose proof (grows_add i _ (e_must_equal ($"'response.meta.location'")) true [LStr ($"location")] (proj1 A1)) as A2.
          refine (grows_ext _ _ _ _ _ _ (grows_trans _ _ _ _ _ _ A1 A2)). intros e x. split.
          + intros [[-> ->]|[-> ->]]; [exact (displaced_body js e0 I) | exact (displaced_operation js e0 I)].
          + intros [e' _|e' _]; auto.
        - refine (grows_ext _ _ _ _ _ _ (grows_none i i2 (proj1 G2))). intros e x. split; [intros []|].
          assert (N : forall e', In e' (errs_at js at_header) -> False). { intros e' I. assert (Q : false = true) by (apply Hh; intros G; rewrite G in I; destruct I). discriminate Q. }
          intros [e' I|e' I]; exact (N e' I). }
      assert (Hc : rs_body rd <> VNone -> forall p, errs_at js p = []) by (intros N; destruct Dj as [Dj|[_ Dj]]; [exact (dropped_clear _ _ Dj N) | contradiction]).
      destruct (version_step i o rd js _ rb i3 (proj1 G3) Hc H3) as [-> G4].
      pose proof (grows_trans _ _ _ _ _ _ G1 (grows_trans _ _ _ _ _ _ G2 (grows_trans _ _ _ _ _ _ G3 G4))) as G5.
      eexists _, _. split; [|split; [reflexivity | exact G5]].
      apply (replied_resource schemas o z r u s rd js); try assumption. intros e x Hsp.
      match goal with |- _ \/ ?A \/ _ <-> _ => assert (B : A <-> passed_on js e x) end; [|rewrite B; reflexivity].
      assert (Q : forall p, errs_at jb (body_loc ++ p) = errs_at ja (body_loc ++ p)) by (intros p; apply Ph; discriminate).
      split.
      + intros [p [-> I]]. rewrite Q in I. change (body_loc ++ p) with (at_body p) in I. apply (passed js e p).
        * destruct (loc_dec at_meta_location p) as [<-|N].
          -- change (at_body at_meta_location) with (body_loc ++ meta_location_loc) in I. rewrite Pe in I by (try exact Wj; apply Hsp; reflexivity). destruct (loc_dec _ _) as [_|G]; [|contradiction G; reflexivity]. apply filter_In in I as [I _]. exact I.
          -- rewrite Pf in I; [exact I|]. intros G. apply N. injection G as <-. reflexivity.
        * intros [-> C]. change (at_body at_meta_location) with (body_loc ++ meta_location_loc) in I. rewrite Pe in I by (try exact Wj; apply Hsp; reflexivity). destruct (loc_dec _ _) as [_|G]; [|contradiction G; reflexivity]. apply filter_In in I as [_ I].
          unfold other_code in I. rewrite C in I. discriminate I.
      + intros G. clear G5. revert Hsp. destruct G as [p I N]. intros Hsp. exists p. split; [reflexivity|]. rewrite Q. change (body_loc ++ p) with (at_body p).
        destruct (loc_dec at_meta_location p) as [<-|Np].
        * change (at_body at_meta_location) with (body_loc ++ meta_location_loc). rewrite Pe by (try exact Wj; apply Hsp; reflexivity). destruct (loc_dec _ _) as [_|G]; [|contradiction G; reflexivity]. apply filter_In. split; [exact I|].
          unfold other_code. destruct (N.eqb_spec (e_code e) 11) as [C|C]; [|reflexivity]. exfalso. apply N. auto.
        * rewrite Pf; [exact I|]. intros G. apply Np. injection G as <-. reflexivity.
  Qed.

  Lemma answer_loop schemas l : Forall sound schemas -> told_apart schemas -> Forall well_put l -> forall i pre iss n b' iss' n', length pre = i -> wf iss ->
    bulk_dump_operations (validators schemas) i (map (fun o => VStr (t_method o)) l) (map (fun o => opt (option_map VStr (t_status o))) l) (map (fun o => opt (answered o)) l)
      (map (fun o => opt (option_map VStr (t_location o))) l) (map (fun o => opt (option_map VStr (t_version o))) l) (answers_doc (pre ++ map answer_left l)) iss n = Ok (b', iss', n') ->
    exists outs : list (value * (error -> loc -> Prop)), Forall2 (fun o out => replied schemas o (fst out) (snd out)) l outs /\ b' = answers_doc (pre ++ map fst outs) /\ wf iss'
    /\ forall e p, In e (errs_at iss' p) <-> In e (errs_at iss p) \/ exists j out x, nth_error outs j = Some out /\ p = at_bulk (i + j) ++ x /\ snd out e x.
  Proof.
    intros Hs Hd Hl. induction Hl as [|o l Ho Hl IH]; intros i pre iss n b' iss' n' Hi W H.
    - cbn [map bulk_dump_operations] in H. injection H as <- <- <-. exists []. split; [constructor|]. split; [reflexivity|]. split; [exact W|].
      intros e p. split; [auto|]. intros [G|[[|j] [out [x [G _]]]]]; [exact G | discriminate G | discriminate G].
    - cbn [map bulk_dump_operations] in H. apply bind_ok in H as [[[b1 i1] n1] [H1 H]].
      assert (Hx : nth_error (pre ++ answer_left o :: map answer_left l) i = Some (answer_left o)) by (rewrite nth_error_app2 by lia; rewrite Hi, Nat.sub_diag; reflexivity).
      destruct (answer_step schemas _ i o iss n b1 i1 n1 Hs Hd Ho W Hx H1) as [v [R [D [-> [W1 E1]]]]].
      assert (Sn : set_nth i v (pre ++ answer_left o :: map answer_left l) = (pre ++ [v]) ++ map answer_left l).
      { subst i. rewrite <- app_assoc. clear. induction pre as [|x pre IH]; [reflexivity|]. cbn [length set_nth app]. rewrite IH. reflexivity. }
      rewrite Sn in H. destruct (IH (S i) (pre ++ [v]) i1 n1 b' iss' n') as [outs [F [-> [W' A]]]]; [rewrite app_length; cbn [length]; lia | exact W1 | exact H |].
      exists ((v, R) :: outs). split; [constructor; [exact D | exact F]|]. split; [cbn [map fst]; rewrite <- app_assoc; reflexivity|]. split; [exact W'|].
      intros e p. rewrite A, E1. split.
      + intros [[G|[x [G1 G2]]]|[j [out [x [G1 [G2 G3]]]]]]; [auto| |].
        * right. exists 0, (v, R), x. rewrite Nat.add_0_r. auto.
        * right. exists (S j), out, x. split; [exact G1|]. split; [|exact G3]. replace (i + S j) with (S i + j) by lia. exact G2.
      + intros [G|[[|j] [out [x [G1 [G2 G3]]]]]]; [auto| |]; cbn [nth_error] in G1.
        * injection G1 as <-. rewrite Nat.add_0_r in G2. left. right. exists x. auto.
        * right. exists j, out, x. split; [exact G1|]. split; [|exact G3]. replace (S i + j) with (i + S j) by lia. exact G2.
  Qed.

  Lemma answer_column u l sub (g : bulk_answer -> value) : (forall o, get_item (answer_left o) (simple_name sub) = Ok (g o)) -> attr_ok sub -> sub <> [] ->
    (u = bulk_request_uri \/ u = bulk_response_uri) -> get_item (answers_doc (map answer_left l)) (ops_rep u sub) = Ok (VList (map g l)).
  Proof.
    intros H Hok Hne Hu. transitivity (get_sub (VList (map answer_left l)) sub); [unfold answers_doc, tabled; rewrite get_item_eq; destruct Hu as [-> | ->]; reflexivity|].
    unfold get_sub. destruct sub as [|c t]; [contradiction|].
    assert (E : mapM (fun y => let! r' := mk_rep [] (c :: t) [] false in get_item y r') (map answer_left l) = Ok (map g l)).
    { rewrite (mk_rep_plain (c :: t) [] Hok). cbn [bind]. induction l as [|o l IH]; [reflexivity|]. cbn [map mapM].
      unfold simple_name in H. rewrite H. cbn [bind]. rewrite IH. reflexivity. }
    rewrite E. reflexivity.
  Qed.

  (** A response with operations, taken apart. *)
  Lemma answer_result schemas st mx l h rs iss : Forall sound schemas -> told_apart schemas -> Forall well_put l -> l <> [] ->
    bulk_dump_response schemas st (answers_document l) h mx = Ok (rs, iss) ->
    exists outs : list (value * (error -> loc -> Prop)), Forall2 (fun o out => replied schemas o (fst out) (snd out)) l outs /\ rs_body rs = keep_body (answers_doc (map fst outs)) iss /\ wf iss
    /\ (forall i o out, nth_error l i = Some o -> nth_error outs i = Some out -> forall e q, In e (errs_at iss (at_bulk i ++ q)) <-> answer_fault o e q \/ snd out e q)
    /\ (forall e p, In e (errs_at iss p) -> (exists i o q, nth_error l i = Some o /\ p = at_bulk i ++ q) \/ e = e_too_many_errors /\ p = at_body [LStr ops_name] \/ e = e_bad_status /\ p = [LStr ($"status")] /\ st <> 200%Z).
  Proof.
    intros Hs Hd Hl Hn H. unfold bulk_dump_response in H. destruct (answer_read_all l Hl) as [js [J1 [J2 J3]]]. rewrite J1 in H. cbn [bind] in H.
    apply bind_ok in H as [ps [Hp H]]. pose proof (answer_presence l ps Hl Hn Hp) as Pp. apply presence_report in Hp. cbn zeta in H.
    set (i0 := merge (merge (merge no_issues js body_loc) ps body_loc) (status_code_issues 200 st) status_loc) in *.
    assert (T0 : tight i0) by (apply tight_merge; [apply tight_merge; [apply tight_merge; [apply tight_none|]|]|apply status_code_wf]; apply report_wf; assumption).
    assert (E0 : forall e p, In e (errs_at i0 p) <-> (exists q, p = body_loc ++ q /\ (In e (errs_at js q) \/ In e (errs_at ps q))) \/ e = e_bad_status /\ p = [LStr ($"status")] /\ st <> 200%Z).
    { intros e p. unfold i0. rewrite errs_merge_wf by (first [apply status_code_wf | apply wf_merge; [apply wf_merge; [apply wf_no_issues|]|]; apply report_wf; assumption]).
      rewrite errs_merge_wf by (try (apply wf_merge; [apply wf_no_issues|]); apply report_wf; assumption). rewrite errs_merge_wf by (first [apply wf_no_issues | apply report_wf; assumption]).
      rewrite !in_app_iff. assert (Z0 : In e (match loc_strip status_loc p with Some q => errs_at (status_code_issues 200 st) q | None => [] end) <-> e = e_bad_status /\ p = [LStr ($"status")] /\ st <> 200%Z).
      { unfold status_code_issues. destruct (Z.eqb_spec 200 st) as [<-|N].
        - split; [destruct (loc_strip _ _); intros [] | intros [_ [_ G]]; contradiction G; reflexivity].
        - destruct (loc_strip status_loc p) as [q|] eqn:L.
          + apply loc_strip_spec in L as ->. rewrite errs_at_add. split.
            * intros I. apply in_app_iff in I as [[]|I]. destruct (loc_dec [] q) as [<-|_]; [|destruct I]. destruct I as [<-|[]]. split; [reflexivity|]. split; [reflexivity|]. intros ->. apply N. reflexivity.
            * intros [-> [G _]]. assert (q = []) as -> by (destruct q; [reflexivity | discriminate G]). apply in_app_iff. right. destruct (loc_dec [] []) as [_|G']; [left; reflexivity | contradiction G'; reflexivity].
          + split; [intros [] | intros [_ [-> _]]]. rewrite loc_strip_none in L. exact (L [] eq_refl). }
      rewrite Z0. assert (N0 : In e (errs_at no_issues p) <-> False) by reflexivity. rewrite N0.
      destruct (loc_strip body_loc p) as [q|] eqn:L.
      - apply loc_strip_spec in L as ->. split.
        + intros [[[[]|G]|G]|G]; [left; exists q; auto | left; exists q; auto | auto].
        + intros [[q' [G1 G2]]|G]; [|auto]. apply app_inv_head in G1 as <-. destruct G2; auto.
      - split; [intros [[[[]|[]]|[]]|G]; auto|]. intros [[q [-> _]]|G]; [|auto]. rewrite loc_strip_app in L. discriminate L. }
    assert (F0 : forall i o, nth_error l i = Some o -> forall e q, In e (errs_at i0 (at_bulk i ++ q)) <-> answer_fault o e q).
    { intros i o Hi e q0. assert (Ho : well_put o) by (rewrite Forall_forall in Hl; apply Hl; exact (nth_error_In _ _ Hi)).
      rewrite E0, (answer_fault_iff o e q0 Ho). change (at_bulk i ++ q0) with (body_loc ++ [LStr ops_name] ++ LIdx i :: q0).
      assert (Ej : errs_at js ([LStr ops_name] ++ LIdx i :: q0) = ashape_errs o q0) by (rewrite J3; unfold under_ops; rewrite loc_strip_app; cbn [ashape_outs]; rewrite Hi; reflexivity).
      split.
      - intros [[q [G1 G2]]|[_ [G _]]]; [|discriminate G]. apply app_inv_head in G1 as <-. rewrite Ej, Pp in G2. destruct G2 as [G2|[-> [j [o' [G1 [G2 G3]]]]]]; [auto|]. right.
        cbn in G2. injection G2 as <- ->. rewrite Hi in G1. injection G1 as <-. auto.
      - intros G. left. eexists. split; [reflexivity|]. rewrite Ej, Pp. destruct G as [G|[-> [-> G]]]; [auto|]. right. split; [reflexivity|]. exists i, o. auto. }
    assert (L0 : forall e p, In e (errs_at i0 p) -> (exists j o x q, nth_error l j = Some o /\ p = at_bulk j ++ x :: q) \/ e = e_bad_status /\ p = [LStr ($"status")] /\ st <> 200%Z).
    { intros e p I. apply E0 in I as [[q [-> I]]|I]; [left | right; exact I]. destruct I as [I|I].
      - rewrite J3 in I. unfold under_ops in I. destruct (loc_strip [LStr ops_name] q) as [p2|] eqn:L; [|destruct I]. apply loc_strip_spec in L as ->.
        destruct p2 as [|[n|i] p2]; try destruct I. cbn [ashape_outs] in I. destruct (nth_error l i) as [o|] eqn:Hi; [|destruct I]. destruct p2 as [|x p2]; [|exists i, o, x, p2; auto].
        unfold ashape_errs in I. rewrite !in_app_iff, !in_one_err in I. decompose [or and] I; discriminate.
      - apply Pp in I as [_ [i [o [Hi [-> _]]]]]. exists i, o, (LStr ($"status")), []. auto. }
    assert (C : can_proceed i0 [body_loc ++ [LStr ops_name]] = true).
    { rewrite (tight_proceeds _ _ T0). intros q Hq a [t Ha]. destruct (errs_at i0 a) as [|e es] eqn:E; [reflexivity|]. exfalso. destruct Hq as [<-|[]].
      assert (I : In e (errs_at i0 a)) by (rewrite E; left; reflexivity). apply L0 in I as [[j [o [x [q [_ ->]]]]]|[_ [-> _]]]; discriminate Ha. }
    rewrite C in H. cbn [negb] in H.
    assert (K1 : attr_ok ($"status")) by (apply attr_name_ok_spec; reflexivity). assert (K2 : attr_ok ($"response")) by (apply attr_name_ok_spec; reflexivity). assert (K3 : attr_ok ($"location")) by (apply attr_name_ok_spec; reflexivity).
    assert (K4 : attr_ok ($"method")) by (apply attr_name_ok_spec; reflexivity). assert (K5 : attr_ok ($"version")) by (apply attr_name_ok_spec; reflexivity).
    rewrite (answer_column bulk_response_uri l ($"status") _ answer_get_status K1), (answer_column bulk_response_uri l ($"response") _ answer_get_response K2), (answer_column bulk_response_uri l ($"location") _ answer_get_location K3),
      (answer_column bulk_request_uri l ($"method") _ answer_get_method K4), (answer_column bulk_response_uri l ($"version") _ answer_get_version K5) in H by (first [discriminate | left; reflexivity | right; reflexivity]).
    cbn [bind iter_value] in H. apply bind_ok in H as [[[b2 i2] n] [Hb H]].
    change (answers_doc (map answer_left l)) with (answers_doc ([] ++ map answer_left l)) in Hb.
    destruct (answer_loop schemas l Hs Hd Hl 0 [] i0 0%Z b2 i2 n eq_refl (proj1 T0) Hb) as [outs [F [-> [W2 A]]]].
    change ([] ++ map fst outs) with (map fst outs) in H. injection H as <- <-.
    exists outs. split; [exact F|]. split; [reflexivity|]. cbn [rs_body].
    match goal with |- context [add_if ?b] => set (bb := b) end.
    split; [apply wf_if; exact W2|]. split.
    - intros i o out Hi Ho e q0. rewrite add_if_errs. match goal with |- context [if bb then ?t else []] => assert (Z0 : (if bb then t else []) = []) end.
      { destruct bb; [|reflexivity]. destruct (loc_dec _ _) as [G|_]; [discriminate G | reflexivity]. }
      rewrite Z0, app_nil_r, A, (F0 i o Hi). split; (intros [G|G]; [auto | right]).
      + destruct G as [j [out' [x [G1 [G2 G3]]]]]. cbn in G2. injection G2 as <- ->. rewrite Ho in G1. injection G1 as <-. exact G3.
      + exists i, out, q0. auto.
    - intros e p I. rewrite add_if_errs in I. apply in_app_iff in I as [I|I].
      + apply A in I as [I|[j [out [x [G1 [-> _]]]]]].
        * apply L0 in I as [[j [o [x [q [G ->]]]]]|G]; [left; exists j, o, (x :: q); auto | auto].
        * left. destruct (nth_error l j) as [o|] eqn:E; [exists j, o, x; auto|]. apply nth_error_None in E. assert (Q : j < length outs) by (apply nth_error_Some; rewrite G1; discriminate).
          assert (Le : length l = length outs) by (clear - F; induction F; cbn [length]; congruence). lia.
      + destruct bb; [|destruct I]. destruct (loc_dec _ _) as [<-|_]; [|destruct I]. destruct I as [<-|[]]. right. left. auto.
  Qed.
End Env.
