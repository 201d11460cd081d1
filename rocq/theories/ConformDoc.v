(** Lemmas for C76: documents that are accepted are those that conform. *)
From Coq Require Import Lia.
From Verif Require Import PyBase BaseFacts PyNum Issues IssuesSpec IssuesFacts AttrRep AttrRepSpec AttrRepFacts Value ValueFacts
  Container ContainerSpec ContainerFacts ContainerRW Types TypesSpec Attr AttrSpec AttrFacts AttrItems PropAttr Schema SchemaSpec SchemaFacts SchemaBuild PropSchema
  PatchFacts RequestFacts RoundSpec RoundFacts RoundAgain RoundSchema ConformSpec ConformFacts.

Lemma validate_silent y l main known : In main known -> exists iss, validate_schemas_field y (VList (map VStr l)) main known = Ok iss
  /\ (silent iss <-> (forall t, In t l -> listed t known) /\ listed main l /\ forall k, In k (cont_keys y) -> listed k known -> listed k l).
Proof.
  intros Im. unfold validate_schemas_field.
  change (lower_items (VList (map VStr l))) with (mapM (fun x => match x with VStr s => Ok (lower s) | _ => Raise AttributeErr end) (map VStr l)). rewrite mapM_lower. cbn [bind].
  pose proof (scan_incl (lower main) (map lower known) (map lower l) false no_issues) as S1. pose proof (scan_errs (lower main) (map lower known) (map lower l) false no_issues) as S2.
  destruct (scan_schemas (lower main) (map lower known) (map lower l) false no_issues) as [inc i]. cbn [fst snd] in S1, S2.
  destruct (flag_errs (fun k => smem (lower k) (map lower known) && negb (smem (lower k) (map lower l))) e_missing_extension (cont_keys y) (if inc then i else add_issue i e_missing_main_schema true schemas_loc)) as [_ F2].
  eexists. split; [reflexivity|]. unfold silent.
  assert (E1 : forall p, errs_at (if inc then i else add_issue i e_missing_main_schema true schemas_loc) p = errs_at i p ++ (if inc then [] else if loc_dec schemas_loc p then [e_missing_main_schema] else [])).
  { intros p. destruct inc; [rewrite app_nil_r; reflexivity|]. rewrite errs_at_add. destruct (loc_dec schemas_loc p) as [X|X]; [reflexivity | rewrite app_nil_r; reflexivity]. }
  assert (U : unknown_in (lower main) (map lower known) (map lower l) = false <-> forall t, In t l -> listed t known).
  { unfold unknown_in. split.
    - intros H t I. destruct (smem (lower t) (map lower known)) eqn:E; [apply smem_In; exact E|]. exfalso. assert (X : existsb (fun s => negb (str_eqb s (lower main)) && negb (smem s (map lower known))) (map lower l) = true); [|congruence].
      apply existsb_exists. exists (lower t). split; [apply in_map; exact I|]. rewrite E. cbn [negb]. rewrite andb_true_r. apply negb_true_iff. apply str_eqb_neq. intros X. rewrite X in E. assert (E2 : smem (lower main) (map lower known) = true) by (apply smem_In; apply in_map; exact Im). congruence.
    - intros H. destruct (existsb _ _) eqn:X; [|reflexivity]. apply existsb_exists in X as [x [I X]]. apply in_map_iff in I as [t [<- I]]. apply andb_prop in X as [_ X]. pose proof (H t I) as Lt. apply smem_In in Lt. rewrite Lt in X. discriminate X. }
  assert (K : filter (fun k => smem (lower k) (map lower known) && negb (smem (lower k) (map lower l))) (cont_keys y) = [] <-> forall k, In k (cont_keys y) -> listed k known -> listed k l).
  { split.
    - intros H k I Lk. destruct (smem (lower k) (map lower l)) eqn:E; [apply smem_In; exact E|]. exfalso. assert (X : In k (filter (fun k => smem (lower k) (map lower known) && negb (smem (lower k) (map lower l))) (cont_keys y))); [|rewrite H in X; exact X].
      apply filter_In. split; [exact I|]. rewrite E. apply smem_In in Lk. rewrite Lk. reflexivity.
    - intros H. destruct (filter _ _) as [|k t] eqn:E; [reflexivity|]. exfalso. assert (X : In k (k :: t)) by (left; reflexivity). rewrite <- E in X. apply filter_In in X as [I X]. apply andb_prop in X as [X1 X2].
      apply smem_In in X1. pose proof (H k I X1) as Lk. apply smem_In in Lk. rewrite Lk in X2. discriminate X2. }
  split.
  - intros Q. specialize (Q schemas_loc). rewrite F2, E1, S2 in Q. destruct (loc_dec schemas_loc schemas_loc) as [_|X]; [|congruence]. cbn [negb andb] in Q. apply app_eq_nil in Q as [Q1 Q2]. apply app_eq_nil in Q1 as [Q1 Q3]. apply app_eq_nil in Q1 as [_ Q1].
    split; [|split].
    + apply U. destruct (unknown_in _ _ _); [discriminate Q1 | reflexivity].
    + destruct inc; [|discriminate Q3]. apply smem_In. symmetry. exact S1.
    + apply K. destruct (filter _ _); [reflexivity | discriminate Q2].
  - intros [H1 [H2 H3]] p. rewrite F2, E1, S2. apply U in H1. apply K in H3. rewrite H1, H3. assert (inc = true) as -> by (rewrite S1; apply smem_In; exact H2). change (errs_at no_issues p) with (@nil error). destruct (loc_dec schemas_loc p); reflexivity.
Qed.

Section Env.
  Context {env : PyEnv}.

  Lemma get_doc s c a x : wf_schema s -> regular s c -> usual c -> In a (at_top (sc_attrs s)) -> get_item c (arep a) = Ok x ->
    (x = VMissing /\ forall y, ~ doc_holds c (arep a) y) \/ (x <> VMissing /\ usual x /\ doc_holds c (arep a) x).
  Proof.
    intros Hw Hr U Ia H. assert (UH : forall y, doc_holds c (arep a) y -> usual y).
    { intros y. unfold doc_holds. destruct (r_ext (arep a)); [intros [sub [H1 H2]]; exact (usual_holds _ _ _ (usual_holds _ _ _ U H1) H2) | intros H1; exact (usual_holds _ _ _ U H1)]. }
    assert (D : x = VMissing \/ x <> VMissing) by (destruct x; auto; right; discriminate). destruct D as [->|N].
    - left. split; [reflexivity|]. intros y Hy. pose proof (usual_missing _ (UH y Hy)) as Ny. pose proof (proj2 (read_doc s c a y Hw Hr Ia Ny) Hy) as X. congruence.
    - right. split; [exact N|]. pose proof (proj1 (read_doc s c a x Hw Hr Ia N) H) as X. split; [exact (UH x X) | exact X].
  Qed.
  Lemma doc_usual c r y : usual c -> doc_holds c r y -> usual y.
  Proof. intros U. unfold doc_holds. destruct (r_ext r); [intros [sub [H1 H2]]; exact (usual_holds _ _ _ (usual_holds _ _ _ U H1) H2) | intros H1; exact (usual_holds _ _ _ U H1)]. Qed.

  (** Looking an attribute up succeeds, if extensions are objects. *)
  Lemma get_total s c a : wf_schema s -> regular s c -> usual c -> In a (at_top (sc_attrs s)) ->
    (r_ext (arep a) = true -> forall x, holds c (r_schema (arep a)) x -> is_cont x = true) -> exists x, get_item c (arep a) = Ok x.
  Proof.
    intros Hw [Ic [Hm He]] U Ia Ho. destruct c as [| | | | | | | | | |data l2o| | | | | |]; try discriminate Ic. inversion U as [| | | | | | |? ? Hi Hn Hf]; subst.
    pose proof (ws_attrs _ Hw) as W. rewrite Forall_forall in W. destruct (W a Ia) as [_ [Hs [Hok Hsch]]]. rewrite get_item_eq, Hs.
    destruct (sget (lower (r_schema (arep a))) l2o) as [k|] eqn:E.
    - destruct (Hi _ _ E) as [_ Hin]. apply sget_Some_key in Hin as [x Hx]. rewrite Hx.
      assert (Ex : r_ext (arep a) = true). { destruct (r_ext (arep a)) eqn:X; [reflexivity|]. exfalso. apply Hm. rewrite <- Hsch. exists k. exact E. }
      assert (Hh : holds (VCont data l2o) (r_schema (arep a)) x) by (exists data, l2o, k; auto). pose proof (Ho Ex x Hh) as Icx. destruct x as [| | | | | | | | | |d2 l2| | | | | |]; try discriminate Icx.
      pose proof (usual_get _ _ _ Hf Hx) as Ux. inversion Ux as [| | | | | | |? ? Hi2 Hn2 Hf2]; subst. rewrite mk_rep_plain by exact Hok. cbn [bind]. rewrite get_item_eq. cbn [r_schema r_attr r_sub]. change (lower []) with (@nil ascii). rewrite Hn2.
      destruct (sget (lower (r_attr (arep a))) l2) as [k2|] eqn:E2; [|eexists; reflexivity]. destruct (Hi2 _ _ E2) as [_ Hin2]. apply sget_Some_key in Hin2 as [x2 Hx2]. rewrite Hx2. eexists. reflexivity.
    - destruct (sget (lower (r_attr (arep a))) l2o) as [k|] eqn:E2; [|eexists; reflexivity]. destruct (Hi _ _ E2) as [_ Hin]. apply sget_Some_key in Hin as [x Hx]. rewrite Hx. eexists. reflexivity.
  Qed.
End Env.

Section Env.
  Context {env : PyEnv}.

  Lemma mirrors_all c subs xs : mirrors c subs xs -> forall a x, In a subs -> get_item c (arep a) = Ok x -> x <> VMissing -> In (a, x) xs.
  Proof.
    induction 1 as [|s t xs Hx M IH|s t x0 xs Hx Nx M IH]; intros a x I G N; [contradiction| |].
    - destruct I as [<-|I]; [congruence | exact (IH a x I G N)].
    - destruct I as [<-|I]; [left; congruence | right; exact (IH a x I G N)].
  Qed.
  Lemma mirrors_get c subs xs : mirrors c subs xs -> forall a, In a subs -> exists x, get_item c (arep a) = Ok x.
  Proof.
    induction 1 as [|s t xs Hx M IH|s t x0 xs Hx Nx M IH]; intros a I; [contradiction| |]; (destruct I as [<-|I]; [eexists; exact Hx | exact (IH a I)]).
  Qed.
  Lemma mirrors_src c subs xs : mirrors c subs xs -> forall a x, In (a, x) xs -> In a subs /\ get_item c (arep a) = Ok x /\ x <> VMissing.
  Proof.
    induction 1 as [|s t xs Hx M IH|s t x0 xs Hx Nx M IH]; intros a x I; [contradiction| |].
    - destruct (IH a x I) as [H1 H2]. split; [right; exact H1 | exact H2].
    - destruct I as [E|I]; [injection E as <- <-; split; [left; reflexivity | split; assumption]|]. destruct (IH a x I) as [H1 H2]. split; [right; exact H1 | exact H2].
  Qed.
  Lemma each_fwd Q xs vs : each Q xs vs -> forall a x, In (a, x) xs -> exists w, In (a, w) vs /\ Q a x w.
  Proof.
    induction 1 as [|[b y] [b' w] xs vs [E H] F IH]; intros a x I; [contradiction|]. cbn [fst snd] in *. subst b'. destruct I as [X|I]; [injection X as <- <-; exists w; split; [left; reflexivity | exact H]|].
    destruct (IH a x I) as [w' [I' H']]. exists w'. split; [right; exact I' | exact H'].
  Qed.
  Lemma each_bwd Q xs vs : each Q xs vs -> forall a w, In (a, w) vs -> exists x, In (a, x) xs /\ Q a x w.
  Proof.
    induction 1 as [|[b y] [b' w0] xs vs [E H] F IH]; intros a w I; [contradiction|]. cbn [fst snd] in *. subst b'. destruct I as [X|I]; [injection X as <- <-; exists y; split; [left; reflexivity | exact H]|].
    destruct (IH a w I) as [x [I' H']]. exists x. split; [right; exact I' | exact H'].
  Qed.
  Lemma prod_eq_dec (p q : str * str) : {p = q} + {p <> q}.
  Proof. decide equality; apply str_dec. Qed.
  Lemma each_fst Q xs vs : each Q xs vs -> map fst xs = map fst vs.
  Proof. induction 1 as [|e e' xs vs [E _] F IH]; cbn [map]; congruence. Qed.
  Lemma takes_build m c l : Forall (fun a => exists x, get_item c (arep a) = Ok x /\ (x = VMissing \/ x <> VMissing /\ exists w, runs m a x w)) l -> exists vs, takes m c l vs.
  Proof.
    induction 1 as [|a t [x [G H]] F [vs [xs [M E]]]]; [exists [], []; split; constructor|]. destruct H as [->|[N [w R]]].
    - exists vs, xs. split; [apply mi_skip; assumption | exact E].
    - exists ((a, w) :: vs), ((a, x) :: xs). split; [apply mi_take; assumption|]. constructor; [split; [reflexivity | exact R] | exact E].
  Qed.

  Lemma page_keys s c xs vs : wf_schema s -> mirrors c (at_top (sc_attrs s)) xs -> map fst xs = map fst vs ->
    forall k, In k (cont_keys (page vs)) <-> exists e, In e vs /\ k = topkey (arep (fst e)).
  Proof.
    intros Hw M E k. destruct (tops_fit s Hw) as [Hnd Hf]. rewrite Forall_forall in Hf.
    assert (Iv : forall e, In e vs -> In (fst e) (at_top (sc_attrs s))).
    { intros e I. assert (I' : In (fst e) (map fst vs)) by (apply in_map; exact I). rewrite <- E in I'. apply in_map_iff in I' as [e' [<- I']]. apply (mirrors_in _ _ _ M e' I'). }
    assert (Hfo : Forall (fun e => fits (map fst (sc_exts s)) (arep (fst e))) (outs_of vs)).
    { apply Forall_forall. intros e I. unfold outs_of in I. apply in_map_iff in I as [e' [<- I]]. cbn [fst]. apply Hf, Iv, I. }
    destruct (put_tops_keys _ _ Hnd Hfo [] [] (shelf_empty _)) as [data [l2o [Ey [_ [K2 _]]]]]. change (VCont [] []) with empty_cont in Ey. fold (page vs) in Ey. rewrite Ey. cbn [cont_keys]. rewrite K2. split.
    - intros [[]|[e [I ->]]]. unfold outs_of in I. apply in_map_iff in I as [e' [<- I]]. exists e'. split; [exact I | reflexivity].
    - intros [e [I ->]]. right. exists (fst e, (snd e, no_issues)). split; [|reflexivity]. unfold outs_of. apply in_map_iff. exists e. split; [reflexivity | exact I].
  Qed.

  (** A core attribute is read back from the result. *)
  Lemma page_get s c xs vs a : wf_schema s -> mirrors c (at_top (sc_attrs s)) xs -> map fst xs = map fst vs -> In a (at_top (sc_attrs s)) -> r_ext (arep a) = false ->
    (forall v, In (a, v) vs -> get_item (page vs) (arep a) = Ok v) /\ ((forall v, ~ In (a, v) vs) -> get_item (page vs) (arep a) = Ok VMissing).
  Proof.
    intros Hw M E Ia Ea. destruct (page_facts s c xs vs Hw M E) as [St [K [H1 H2]]]. destruct (tops_fit s Hw) as [_ Hf]. rewrite Forall_forall in Hf.
    assert (Iv : forall e, In e vs -> In (fst e) (at_top (sc_attrs s))).
    { intros e I. assert (I' : In (fst e) (map fst vs)) by (apply in_map; exact I). rewrite <- E in I'. apply in_map_iff in I' as [e' [<- I']]. apply (mirrors_in _ _ _ M e' I'). }
    destruct (stocked_get (map fst (sc_exts s)) (page vs) (arep a) St (Hf a Ia)) as [G1 G2].
    { intros _ HK. apply K in HK as [e [Ie X]]. pose proof (ws_attrs _ Hw) as W. rewrite Forall_forall in W. destruct (W a Ia) as [_ [_ [_ Sa]]]. rewrite Ea in Sa. rewrite Sa in X. destruct (W _ (Iv e Ie)) as [_ [_ [_ Se]]]. unfold topkey in X.
      destruct (r_ext (arep (fst e))) eqn:Ee.
      + destruct (ws_uris _ Hw) as [U _]. unfold sc_schemas in U. cbn [map] in U. inversion U as [|? ? U1 _]; subst. apply U1. rewrite X. apply in_map. exact Se.
      + apply (ws_names _ Hw _ (Iv e Ie) Ee). rewrite <- X. unfold sc_schemas. left. reflexivity. }
    { congruence. }
    split.
    - intros v I. apply G1, (H1 a v I). reflexivity.
    - intros N. apply G2. apply H2; [exact Ia|]. intros I. apply in_map_iff in I as [e [X I]].
      assert (Q : fst e = a) by (apply (NoDup_map_eq tkey (at_top (sc_attrs s)) (fst e) a (ws_distinct _ Hw) (Iv e I) Ia X)). apply (N (snd e)). rewrite <- Q. destruct e; exact I.
  Qed.

  Definition schemas_of (s : schema) : attribute := bound_attr (mkRep (sc_uri s) ($"schemas") [] false) schemas_attr.
  Lemma schemas_texts s x w : reads (schemas_of s) x w -> x = VNone /\ w = VNone \/ exists l, x = VList (map VStr l) /\ w = VList (map VStr l).
  Proof.
    intros H. assert (E : exists i, schemas_of s = MkAttr i None /\ a_multi i = true /\ a_type i = TUriRef) by (eexists; repeat split). destruct E as [i [E [Mu T]]]. rewrite E in H.
    inversion H as [|? ? ? Mf|? xs ys _ F _| |]; subst; [left; auto | congruence|]. right. clear -F T. induction F as [|x y xs ys [R _] F [l [E1 E2]]]; [exists []; auto|]. rewrite T in R. inversion R; subst. injection E1 as ->. injection E2 as ->. exists (s :: l). auto.
  Qed.
  Lemma schemas_steady s : steady (schemas_of s).
  Proof. apply steady_simple; [constructor | reflexivity | discriminate | discriminate]. Qed.

  Lemma accepted_iff s doc : made s -> Forall steady (at_top (sc_attrs s)) -> is_object doc -> usual doc -> regular s (mk_cont doc) ->
    ((exists y, doc_runs MParse s doc y) <-> conforms s (mk_cont doc)).
  Proof.
    intros Mk St Ho Ud Rg. pose proof (made_wf s Mk) as Hw. pose proof (usual_mk_cont _ Ud) as U. set (c := mk_cont doc) in *. rewrite Forall_forall in St.
    destruct (made_schemas s Mk) as [Hsn Hsi]. fold (schemas_of s) in Hsn, Hsi. assert (Es : arep (schemas_of s) = mkRep (sc_uri s) ($"schemas") [] false) by apply bound_rep.
    assert (Rd : forall a x, In a (at_top (sc_attrs s)) -> doc_holds c (arep a) x -> get_item c (arep a) = Ok x /\ x <> VMissing /\ usual x).
    { intros a x Ia H. pose proof (doc_usual _ _ _ U H) as Ux. pose proof (usual_missing _ Ux) as N. split; [exact (proj2 (read_doc s c a x Hw Rg Ia N) H) | split; assumption]. }
    split.
    - intros [y D]. apply (doc_runs_iff MParse s doc y Hw Ho) in D as [vs [[xs [M E]] [-> Or]]]. fold c in M. pose proof (each_fst _ _ _ E) as Ef. split; [|split].
      + intros a x Ia H. destruct (Rd a x Ia H) as [G [N Ux]]. destruct (each_fwd _ _ _ E a x (mirrors_all _ _ _ M a x Ia G N)) as [w [_ R]]. exists w. apply runs_reads; [exact (St a Ia) | exact Ux | exact R].
      + intros a x Ia Ea [data [l2o [k [Ec [H1 H2]]]]]. destruct (is_cont x) eqn:Icx; [reflexivity|]. exfalso. destruct (mirrors_get _ _ _ M a Ia) as [z G]. rewrite Ec, get_item_eq, H1 in G. apply bind_ok in G as [r [_ G]]. rewrite H2, (get_item_notcont _ _ Icx) in G. discriminate G.
      + intros l Hl Nl. assert (Dh : doc_holds c (arep (schemas_of s)) (VList (map VStr l))) by (unfold doc_holds; rewrite Es; exact Hl). destruct (Rd _ _ Hsi Dh) as [G [N Ux]].
        destruct (each_fwd _ _ _ E _ _ (mirrors_all _ _ _ M _ _ Hsi G N)) as [w [Iw R]]. apply (runs_reads _ (schemas_steady s) _ _ Ux) in R. apply schemas_texts in R as [[X _]|[l' [X ->]]]; [discriminate X|].
        assert (l' = l) as ->. { clear -X. injection X as X. revert l' X. induction l as [|t l IH]; intros [|t' l'] X; try discriminate X; [reflexivity|]. cbn [map] in X. injection X as -> X. f_equal. exact (IH _ X). }
        assert (Gp : get_item (page vs) (arep (schemas_of s)) = Ok (VList (map VStr l))) by (apply (page_get s c xs vs _ Hw M Ef Hsi); [rewrite Es; reflexivity | exact Iw]).
        destruct Or as [a [sch [Ha [Hs V]]]]. rewrite Hsn in Ha. injection Ha as Ha. rewrite <- Ha, Gp in Hs. injection Hs as Hs. rewrite <- Hs in V. destruct V as [iss [V Q]]; [destruct l; [congruence | reflexivity]|].
        destruct (validate_silent (page vs) l (sc_uri s) (sc_schemas s)) as [iss' [V' H]]; [left; reflexivity|]. rewrite V in V'. injection V' as <-. apply H in Q as [Q1 [Q2 Q3]]. split; [exact Q1|]. split; [exact Q2|].
        intros b x Ib Eb Hx. destruct (Rd b x Ib Hx) as [Gb [Nb _]]. destruct (each_fwd _ _ _ E b x (mirrors_all _ _ _ M b x Ib Gb Nb)) as [wb [Iwb _]]. apply Q3.
        * apply (page_keys s c xs vs Hw M Ef). exists (b, wb). split; [exact Iwb|]. unfold topkey. cbn [fst]. rewrite Eb. reflexivity.
        * pose proof (ws_attrs _ Hw) as W. rewrite Forall_forall in W. destruct (W b Ib) as [_ [_ [_ Sb]]]. rewrite Eb in Sb. apply in_map. right. exact Sb.
    - intros [C1 [C2 C3]].
      assert (T : exists vs, takes MParse c (at_top (sc_attrs s)) vs).
      { apply takes_build. apply Forall_forall. intros a Ia. destruct (get_total s c a Hw Rg U Ia (fun Ea x => C2 a x Ia Ea)) as [x G]. exists x. split; [exact G|]. destruct (get_doc s c a x Hw Rg U Ia G) as [[-> _]|[N [Ux H]]]; [left; reflexivity|].
        right. split; [exact N|]. destruct (C1 a x Ia H) as [w R]. exists w. apply runs_reads; [exact (St a Ia) | exact Ux | exact R]. }
      destruct T as [vs T]. exists (page vs). apply (doc_runs_iff MParse s doc _ Hw Ho). exists vs. split; [exact T|]. split; [reflexivity|]. destruct T as [xs [M E]]. pose proof (each_fst _ _ _ E) as Ef.
      exists (schemas_of s). destruct (page_get s c xs vs (schemas_of s) Hw M Ef Hsi) as [P1 P2]; [rewrite Es; reflexivity|].
      destruct (get_total s c (schemas_of s) Hw Rg U Hsi) as [x G]; [rewrite Es; discriminate|]. destruct (get_doc s c _ x Hw Rg U Hsi G) as [[-> H]|[N [Ux H]]].
      + exists VMissing. split; [exact Hsn|]. split; [|discriminate]. apply P2. intros v I. destruct (each_bwd _ _ _ E _ _ I) as [x [I' _]]. destruct (mirrors_src _ _ _ M _ _ I') as [_ [G' N]]. congruence.
      + destruct (each_fwd _ _ _ E _ _ (mirrors_all _ _ _ M _ _ Hsi G N)) as [w [Iw R]]. exists w. split; [exact Hsn|]. split; [exact (P1 w Iw)|]. apply (runs_reads _ (schemas_steady s) _ _ Ux) in R.
        apply schemas_texts in R as [[_ ->]|[l [-> ->]]]; [discriminate|]. intros Tr. assert (Nl : l <> []) by (intros ->; discriminate Tr).
        unfold doc_holds in H. rewrite Es in H. cbn [r_ext r_attr] in H. destruct (C3 l H Nl) as [Q1 [Q2 Q3]]. destruct (validate_silent (page vs) l (sc_uri s) (sc_schemas s)) as [iss [V Hv]]; [left; reflexivity|]. exists iss. split; [exact V|]. apply Hv.
        split; [exact Q1|]. split; [exact Q2|]. intros k Ik Lk. apply (page_keys s c xs vs Hw M Ef) in Ik as [[b wb] [Ib ->]]. cbn [fst] in *. destruct (each_bwd _ _ _ E _ _ Ib) as [xb [Ixb _]]. destruct (mirrors_src _ _ _ M _ _ Ixb) as [Itop [Gb Nb]].
        unfold topkey in *. destruct (r_ext (arep b)) eqn:Eb; [|exfalso; exact (ws_names _ Hw b Itop Eb Lk)]. apply (Q3 b xb Itop Eb). exact (proj1 (read_doc s c b xb Hw Rg Itop Nb) Gb).
  Qed.

  Lemma result_reads s doc y : made s -> Forall steady (at_top (sc_attrs s)) -> is_object doc -> usual doc -> regular s (mk_cont doc) -> doc_runs MParse s doc y ->
    forall a w, In a (at_top (sc_attrs s)) -> (doc_holds y (arep a) w <-> exists x, doc_holds (mk_cont doc) (arep a) x /\ reads a x w).
  Proof.
    intros Mk St Ho Ud Rg D a w Ia. pose proof (made_wf s Mk) as Hw. pose proof (usual_mk_cont _ Ud) as U. set (c := mk_cont doc) in *. rewrite Forall_forall in St.
    apply (doc_runs_iff MParse s doc y Hw Ho) in D as [vs [[xs [M E]] [-> Or]]]. fold c in M. pose proof (each_fst _ _ _ E) as Ef. destruct (page_facts s c xs vs Hw M Ef) as [_ [_ [H1 H2]]]. split.
    - intros H. destruct (in_dec (prod_eq_dec) (tkey a) (map (fun e => tkey (fst e)) vs)) as [I|I]; [|exfalso; exact (H2 a Ia I w H)].
      apply in_map_iff in I as [[b v] [X I]]. cbn [fst] in X. destruct (each_bwd _ _ _ E _ _ I) as [x [I' R]]. destruct (mirrors_src _ _ _ M _ _ I') as [Ib [G N]].
      assert (b = a) as -> by (apply (NoDup_map_eq tkey (at_top (sc_attrs s)) b a (ws_distinct _ Hw) Ib Ia X)). apply (H1 a v I) in H as ->. pose proof (proj1 (read_doc s c a x Hw Rg Ia N) G) as Hx. exists x. split; [exact Hx|].
      apply runs_reads; [exact (St a Ia) | exact (doc_usual _ _ _ U Hx) | exact R].
    - intros [x [Hx R]]. pose proof (doc_usual _ _ _ U Hx) as Ux. pose proof (usual_missing _ Ux) as N. pose proof (proj2 (read_doc s c a x Hw Rg Ia N) Hx) as G.
      destruct (each_fwd _ _ _ E _ _ (mirrors_all _ _ _ M _ _ Ia G N)) as [w' [I' R']]. apply (runs_reads a (St a Ia) x w Ux) in R. destruct R as [i1 [R _]]. destruct R' as [i2 [R' _]]. rewrite R in R'. injection R' as -> _. apply (H1 a w' I'). reflexivity.
  Qed.
End Env.
