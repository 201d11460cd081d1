(** What a schema let through is let through again, and comes back. *)
From Verif Require Import PyBase BaseFacts PyNum Issues IssuesSpec IssuesFacts AttrRep AttrRepSpec AttrRepFacts Value ValueFacts
  Container ContainerSpec ContainerFacts ContainerRW Types TypesSpec Attr Schema AttrSpec AttrFacts AttrItems PropAttr SchemaSpec SchemaFacts SchemaBuild PropSchema
  PatchFacts RequestFacts RoundSpec RoundFacts RoundAgain.

(** ** Documents as the schema builds them *)

Definition indexed (data : list (str * value)) (l2o : list (str * str)) : Prop :=
  forall lk k, sget lk l2o = Some k -> lower k = lk /\ exists x, sget k data = Some x.
Definition stocked (uris : list str) (c : value) : Prop :=
  exists data l2o, c = VCont data l2o /\ indexed data l2o
  /\ forall u, In u uris -> sget (lower u) l2o = None \/
       sget (lower u) l2o = Some u /\ exists d2 l2, sget u data = Some (VCont d2 l2) /\ indexed d2 l2 /\ sget [] l2 = None.

Lemma indexed_set data l2o n v : indexed data l2o -> indexed (sset n v data) (sset (lower n) n l2o).
Proof.
  intros H lk k. rewrite sget_sset. destruct (str_eqb (lower n) lk) eqn:E; intros G.
  - injection G as <-. split; [apply str_eqb_eq; exact E|]. exists v. apply sget_sset_same.
  - destruct (H _ _ G) as [H1 [x H2]]. split; [exact H1|]. rewrite sget_sset. destruct (str_eqb n k); [exists v; reflexivity | exists x; exact H2].
Qed.
Lemma indexed_over data l2o n v : indexed data l2o -> indexed (sset n v data) l2o.
Proof.
  intros H lk k G. destruct (H _ _ G) as [H1 [x H2]]. split; [exact H1|]. rewrite sget_sset. destruct (str_eqb n k); [exists v; reflexivity | exists x; exact H2].
Qed.
Lemma stocked_empty uris : stocked uris empty_cont.
Proof. exists [], []. split; [reflexivity|]. split; [intros lk k H; discriminate|]. intros u _. left; reflexivity. Qed.

Lemma stocked_put uris c r v : NoDup (map lower uris) -> stocked uris c -> fits uris r -> stocked uris (put_top c r v).
Proof.
  intros Hnd [data [l2o [-> [Hi Hu]]]] [Hs [Ha He]]. destruct r as [sch n sub ext]. cbn [r_sub r_attr r_ext r_schema] in *. subst sub. unfold put_top. cbn [r_sub r_attr r_ext r_schema].
  assert (Hln : lower n <> []) by (apply lower_ne_nil; exact Ha).
  assert (NE : forall u, In u uris -> u <> sch -> In sch uris -> lower u <> lower sch). { intros u I1 N I2 E. apply N. exact (NoDup_map_eq lower uris u sch Hnd I1 I2 E). }
  assert (Sub : forall d2 l2, indexed d2 l2 -> sget [] l2 = None -> exists d3 l3, set_plain d2 l2 n v = VCont d3 l3 /\ indexed d3 l3 /\ sget [] l3 = None).
  { intros d2 l2 I2 N2. exists (sset n v d2), (sset (lower n) n l2). split; [reflexivity|]. split; [apply indexed_set; exact I2|]. rewrite sget_sset_other; [exact N2 | exact Hln]. }
  destruct ext.
  - destruct (Hu sch He) as [E|[E [d2 [l2 [E2 [I2 N2]]]]]]; rewrite E.
    + rewrite sget_sset_same. unfold empty_cont. eexists _, _. split; [reflexivity|]. split; [apply indexed_over, indexed_set; exact Hi|]. intros u Iu.
      destruct (str_dec u sch) as [->|N].
      * right. split; [apply sget_sset_same|]. destruct (Sub [] []) as [d3 [l3 [S1 S2]]]; [intros lk k H; discriminate | reflexivity|]. exists d3, l3. split; [rewrite sget_sset_same; f_equal; exact S1 | exact S2].
      * rewrite sget_sset_other by (intros X; apply (NE u Iu N He); congruence). destruct (Hu u Iu) as [G|[G [d3 [l3 [G2 G3]]]]]; [left; exact G | right]. split; [exact G|]. exists d3, l3. split; [|exact G3].
        rewrite !sget_sset_other by congruence. exact G2.
    + rewrite E2. eexists _, _. split; [reflexivity|]. split; [apply indexed_over; exact Hi|]. intros u Iu. destruct (str_dec u sch) as [->|N].
      * right. split; [exact E|]. destruct (Sub d2 l2 I2 N2) as [d3 [l3 [S1 S2]]]. exists d3, l3. split; [rewrite sget_sset_same; f_equal; exact S1 | exact S2].
      * destruct (Hu u Iu) as [G|[G [d3 [l3 [G2 G3]]]]]; [left; exact G | right]. split; [exact G|]. exists d3, l3. split; [|exact G3]. rewrite sget_sset_other by congruence. exact G2.
  - eexists _, _. split; [reflexivity|]. split; [apply indexed_set; exact Hi|]. intros u Iu. assert (Nu : lower n <> lower u). { intros X. apply He. rewrite X. apply in_map. exact Iu. }
    rewrite sget_sset_other by exact Nu. destruct (Hu u Iu) as [G|[G [d3 [l3 [G2 G3]]]]]; [left; exact G | right]. split; [exact G|]. exists d3, l3. split; [|exact G3]. rewrite sget_sset_other; [exact G2 | intros X; apply Nu; congruence].
Qed.
Lemma stocked_puts uris outs : NoDup (map lower uris) -> Forall (fun e => fits uris (arep (fst e))) outs -> forall c, stocked uris c -> stocked uris (put_tops outs c).
Proof.
  intros Hnd. induction 1 as [|e t He Ht IH]; intros c Hc; [exact Hc|]. cbn [put_tops fold_left]. apply IH, stocked_put; assumption.
Qed.

Lemma stocked_get uris c r : stocked uris c -> fits uris r -> (r_ext r = false -> ~ has_key c (r_schema r)) -> (r_ext r = true -> ~ has_key c (r_attr r)) ->
  (forall v, doc_holds c r v -> get_item c r = Ok v) /\ ((forall v, ~ doc_holds c r v) -> get_item c r = Ok VMissing).
Proof.
  intros [data [l2o [-> [Hi Hu]]]] [Hs [Ha He]] Hm Hx. destruct r as [sch n sub ext]. cbn [r_sub r_attr r_ext r_schema] in *. subst sub. unfold doc_holds. cbn [r_sub r_attr r_ext r_schema]. rewrite get_item_eq. cbn [r_sub r_attr r_ext r_schema].
  destruct ext.
  - destruct (Hu sch He) as [E|[E [d2 [l2 [E2 [I2 N2]]]]]]; rewrite E.
    + split.
      * intros v [s [[d [m [k [X [G _]]]]] _]]. injection X as <- <-. congruence.
      * intros _. destruct (sget (lower n) l2o) as [k|] eqn:Ek; [|reflexivity]. exfalso. apply (Hx eq_refl). exists k. exact Ek.
    + rewrite (mk_rep_plain n [] Ha). cbn [bind]. rewrite E2, get_item_eq. cbn [r_sub r_attr r_ext r_schema]. change (lower []) with (@nil ascii). rewrite N2. split.
      * intros v [s [[d [m [k [X [G1 G2]]]]] [d' [m' [k' [Y [G3 G4]]]]]]]. injection X as <- <-. rewrite E in G1. injection G1 as <-. rewrite E2 in G2. injection G2 as <-. injection Y as <- <-. rewrite G3, G4. reflexivity.
      * intros N. destruct (sget (lower n) l2) as [k|] eqn:Ek; [|reflexivity]. destruct (I2 _ _ Ek) as [_ [x Kx]]. exfalso. apply (N x). exists (VCont d2 l2). split; [exists data, l2o, sch; auto | exists d2, l2, k; auto].
  - assert (Nm : sget (lower sch) l2o = None). { destruct (sget (lower sch) l2o) as [k|] eqn:Ek; [|reflexivity]. exfalso. apply (Hm eq_refl). exists k. exact Ek. } rewrite Nm. split.
    + intros v [d [m [k [X [G1 G2]]]]]. injection X as <- <-. rewrite G1, G2. reflexivity.
    + intros N. destruct (sget (lower n) l2o) as [k|] eqn:Ek; [|reflexivity]. destruct (Hi _ _ Ek) as [_ [x Kx]]. exfalso. apply (N x). exists data, l2o, k. auto.
Qed.

Section Env.
  Context {env : PyEnv}.

  Lemma mirrors_gen {B} (key : attribute -> B) c subs xs vs y : mirrors c subs xs -> map fst xs = map fst vs -> Forall (fun e => snd e <> VMissing) vs -> NoDup (map key subs) ->
    (forall s v, In s subs -> In (s, v) vs -> get_item y (arep s) = Ok v) -> (forall s, In s subs -> ~ In (key s) (map (fun e => key (fst e)) vs) -> get_item y (arep s) = Ok VMissing) -> mirrors y subs vs.
  Proof.
    intros M E F N G1 G2.
    assert (Main : forall ws, map fst xs = map fst ws -> Forall (fun e => snd e <> VMissing) ws -> (forall e, In e ws -> In e vs) ->
      (forall s, In s subs -> ~ In (key s) (map (fun e => key (fst e)) ws) -> ~ In (key s) (map (fun e => key (fst e)) vs)) -> mirrors y subs ws); [|apply Main; auto].
    clear E F. induction M as [|s t xs H M IH|s t x xs H Nx M IH]; intros ws E F Sub Cov.
    - destruct ws; [constructor | discriminate E].
    - cbn [map] in N. inversion N as [|? ? Ns Nt]; subst. apply mi_skip.
      + apply G2; [left; reflexivity|]. apply Cov; [left; reflexivity|]. rewrite <- (map_map fst key), <- E, map_map. intros I. apply Ns. apply in_map_iff in I as [e [<- I]]. apply in_map. apply (mirrors_in _ _ _ M e I).
      + apply IH; try assumption; [intros s' v I'; apply G1; right; exact I' | intros s' I'; apply G2; right; exact I' | intros s' I'; apply Cov; right; exact I'].
    - destruct ws as [|[s' v] ws]; [discriminate E|]. cbn [map fst] in E. injection E as <- E. cbn [map] in N. inversion N as [|? ? Ns Nt]; subst. inversion F as [|? ? F1 F2]; subst. cbn [snd] in F1.
      apply mi_take; [apply G1; [left; reflexivity | apply Sub; left; reflexivity] | exact F1|].
      apply IH; try assumption; [intros s' v' I'; apply G1; right; exact I' | intros s' I'; apply G2; right; exact I' | intros e I; apply Sub; right; exact I|].
      intros s' I' X. apply Cov; [right; exact I'|]. cbn [map fst]. intros [Y|Y]; [|exact (X Y)]. apply Ns. rewrite Y. apply in_map. exact I'.
  Qed.

  (** The document made of the values of attributes. *)
  Definition outs_of (vs : list (attribute * value)) : list (attribute * outcome) := map (fun e => (fst e, (snd e, no_issues))) vs.
  Definition page (vs : list (attribute * value)) : value := put_tops (outs_of vs) empty_cont.

  Lemma put_tops_page outs vs : map (fun e => (fst e, fst (snd e))) outs = vs -> put_tops outs empty_cont = page vs.
  Proof.
    intros <-. unfold page, put_tops, outs_of. rewrite map_map. cbn [fst snd]. generalize empty_cont. induction outs as [|e t IH]; intros c; [reflexivity|]. cbn [map fold_left fst snd]. apply IH.
  Qed.

  Lemma gather_top_inv m c l : forall outs, gather_top m c l = Ok outs -> Forall (fun e => silent (snd (snd e))) outs -> takes m c l (map (fun e => (fst e, fst (snd e))) outs).
  Proof.
    induction l as [|s t IH]; intros outs H F; cbn [gather_top] in H.
    - injection H as <-. exists []. split; constructor.
    - apply bind_ok in H as [x [Hx H]].
      assert (G : x <> VMissing -> (let! o := process s m x in let! rest := gather_top m c t in Ok ((s, o) :: rest)) = Ok outs -> takes m c (s :: t) (map (fun e => (fst e, fst (snd e))) outs)).
      { clear H. intros Nx H. apply bind_ok in H as [[w iss] [Hp H]]. apply bind_ok in H as [rest [Hr H]]. injection H as <-. inversion F as [|? ? Q Fr]; subst. cbn [snd] in Q.
        destruct (IH _ Hr Fr) as [xs [M E]]. exists ((s, x) :: xs). cbn [map fst snd]. split; [apply mi_take; assumption|]. constructor; [|exact E]. cbn [fst snd]. split; [reflexivity|]. exists iss. split; assumption. }
      destruct x; try (apply G; [discriminate | exact H]). destruct (IH _ H F) as [xs [M E]]. exists xs. split; [apply mi_skip; assumption | exact E].
  Qed.
  Lemma gather_top_run m c l vs : takes m c l vs -> exists outs, gather_top m c l = Ok outs /\ Forall (fun e => silent (snd (snd e))) outs /\ map (fun e => (fst e, fst (snd e))) outs = vs.
  Proof.
    intros [xs [M E]]. revert vs E. induction M as [|s t xs Hx M IH|s t x xs Hx Nx M IH]; intros vs E.
    - inversion E; subst. exists []. repeat split. constructor.
    - destruct (IH _ E) as [outs [H1 [H2 H3]]]. exists outs. cbn [gather_top]. rewrite Hx. split; [exact H1|]. split; assumption.
    - inversion E as [|? [s' w] ? vs' [E1 [iss [Hp Q]]] E2]; subst. cbn [fst snd] in *. subst s'. destruct (IH _ E2) as [outs [H1 [H2 H3]]].
      exists ((s, (w, iss)) :: outs). cbn [gather_top]. rewrite Hx. cbn [bind]. split.
      + rewrite Hp, H1. cbn [bind]. destruct x; try reflexivity. congruence.
      + split; [constructor; assumption|]. cbn [map fst snd]. f_equal. exact H3.
  Qed.

  Lemma tops_silent s m c outs : wf_schema s -> gather_top m c (at_top (sc_attrs s)) = Ok outs ->
    (silent (merge_tops outs no_issues) <-> Forall (fun e => silent (snd (snd e))) outs).
  Proof.
    intros Hw Hg. destruct (tops_errs s m c outs Hw Hg) as [T1 T2]. split.
    - intros Q. apply Forall_forall. intros [a [v j]] I l. cbn [snd]. rewrite <- (T1 a v j l I). apply Q.
    - intros F l. destruct (errs_at (merge_tops outs no_issues) l) eqn:E; [reflexivity|]. destruct (T2 l) as [a [v [j [p' [I [_ X]]]]]]; [rewrite E; discriminate|]. exfalso. apply X. rewrite Forall_forall in F. apply (F _ I).
  Qed.

  (** What the schemas field says of the document is in order. *)
  Definition in_order (s : schema) (y : value) : Prop := exists a sch, attr_named (sc_attrs s) ($"schemas") = Some a /\ get_item y (arep a) = Ok sch
    /\ (truthy sch = true -> exists iss, validate_schemas_field y sch (sc_uri s) (sc_schemas s) = Ok iss /\ silent iss).
  Definition doc_runs (m : method) (s : schema) (doc y : value) : Prop := exists iss, base_parse m s doc = Ok (y, iss) /\ silent iss.

  Lemma doc_runs_iff m s doc y : wf_schema s -> is_object doc ->
    (doc_runs m s doc y <-> exists vs, takes m (mk_cont doc) (at_top (sc_attrs s)) vs /\ y = page vs /\ in_order s y).
  Proof.
    intros Hw Ho. split.
    - intros [iss [H Q]]. destruct (parse_shape s m doc y iss Hw Ho H) as [outs [iss2 [Hg [-> [R1 [R2 [E [a [sch [Ha [Hs V]]]]]]]]]]].
      assert (Q1 : silent (merge_tops outs no_issues)). { intros l. specialize (Q l). rewrite E in Q. apply app_eq_nil in Q. apply Q. }
      assert (Q2 : silent iss2). { intros l. specialize (Q l). rewrite E in Q. apply app_eq_nil in Q. apply Q. }
      pose proof (proj1 (tops_silent s m _ outs Hw Hg) Q1) as F. exists (map (fun e => (fst e, fst (snd e))) outs). split; [exact (gather_top_inv _ _ _ _ Hg F)|].
      rewrite (put_tops_page outs _ eq_refl) in *. split; [reflexivity|]. exists a, sch. split; [exact Ha|]. split; [exact Hs|]. intros T.
      rewrite T, (proceeds _ schemas_loc R1 (fun l _ => Q1 l)) in V. cbn [andb] in V. exists iss2. split; assumption.
    - intros [vs [T [-> [a [sch [Ha [Hs V]]]]]]]. destruct (gather_top_run _ _ _ _ T) as [outs [Hg [F E]]]. pose proof (proj2 (tops_silent s m _ outs Hw Hg) F) as Q.
      destruct (tops_fit s Hw) as [Hnd Hf].
      assert (Hr : report (merge_tops outs no_issues)).
      { apply merge_tops_errs; [|apply report_empty]. apply Forall_forall. intros [b [v j]] Hin. destruct (gather_top_In _ _ _ _ _ _ Hg Hin) as [Hb [x [_ [_ Hx]]]]. cbn [snd].
        destruct Hw as [_ W2 _ _]. rewrite Forall_forall in W2. destruct (W2 b Hb) as [Sb _]. exact (process_report b Sb _ _ _ _ Hx). }
      assert (Hp : process_data m s doc = Ok (page vs, merge_tops outs no_issues)).
      { unfold process_data. rewrite (process_attrs_closed _ _ _ _ Hnd Hf _ _ (shelf_empty _)), Hg. cbn [bind]. rewrite (put_tops_page outs vs E). reflexivity. }
      assert (G : exists iss, (let! (data', iss') := process_data m s doc in
        let iss := merge no_issues iss' [] in
        match attr_named (sc_attrs s) ($"schemas") with
        | None => Raise AttributeErr
        | Some a =>
            let! schemas_ := get_item data' (arep a) in
            if can_proceed iss [schemas_loc] && truthy schemas_ then
              let! iss2 := validate_schemas_field data' schemas_ (sc_uri s) (sc_schemas s) in
              Ok (data', merge iss iss2 [])
            else Ok (data', iss)
        end) = Ok (page vs, iss) /\ silent iss).
      { rewrite Hp. cbn [bind]. cbv zeta. rewrite Ha, Hs. cbn [bind]. rewrite (proceeds _ schemas_loc Hr (fun l _ => Q l)). cbn [andb].
        assert (Qm : silent (merge no_issues (merge_tops outs no_issues) [])) by (apply silent_merge; [constructor | exact Hr | split; [exact silent_none | exact Q]]).
        destruct (truthy sch).
        - destruct (V eq_refl) as [iss2 [Hv Q2]]. rewrite Hv. cbn [bind]. eexists. split; [reflexivity|]. apply silent_merge; [apply report_merge; [constructor | exact Hr] | apply (validate_report _ _ _ _ _ Hv) | split; assumption].
        - eexists. split; [reflexivity | exact Qm]. }
      destruct G as [iss [G Qi]]. exists iss. split; [|exact Qi]. destruct doc; try contradiction; exact G.
  Qed.

  (** ** Reading the document back *)

  Lemma pairs_same {B C} (R : attribute -> attribute -> Prop) (l1 : list (attribute * B)) : forall l2 : list (attribute * C), map fst l1 = map fst l2 ->
    ForallOrdPairs (fun e e' => R (fst e) (fst e')) l1 -> ForallOrdPairs (fun e e' => R (fst e) (fst e')) l2.
  Proof.
    induction l1 as [|e t IH]; intros [|e2 t2] E H; try discriminate E; [constructor|]. cbn [map] in E. injection E as E1 E2. inversion H as [|? ? H1 H2]; subst. constructor; [|exact (IH _ E2 H2)].
    apply Forall_forall. intros e' I. assert (I' : In (fst e') (map fst t2)) by (apply in_map; exact I). rewrite <- E2 in I'. apply in_map_iff in I' as [e'' [X I'']]. rewrite Forall_forall in H1. rewrite <- E1, <- X. exact (H1 e'' I'').
  Qed.

  Lemma outs_fst vs : map fst (outs_of vs) = map fst vs.
  Proof. unfold outs_of. rewrite map_map. reflexivity. Qed.

  Definition tkey (a : attribute) : str * str := (lower (r_schema (arep a)), lower (r_attr (arep a))).

  Lemma page_facts s c xs vs : wf_schema s -> mirrors c (at_top (sc_attrs s)) xs -> map fst xs = map fst vs ->
    stocked (map fst (sc_exts s)) (page vs)
    /\ (forall n, has_key (page vs) n -> exists e, In e vs /\ lower n = lower (topkey (arep (fst e))))
    /\ (forall a v, In (a, v) vs -> forall w, doc_holds (page vs) (arep a) w <-> w = v)
    /\ (forall a, In a (at_top (sc_attrs s)) -> ~ In (tkey a) (map (fun e => tkey (fst e)) vs) -> forall w, ~ doc_holds (page vs) (arep a) w).
  Proof.
    intros Hw M E. destruct (tops_fit s Hw) as [Hnd Hf]. rewrite Forall_forall in Hf.
    assert (Iv : forall e, In e vs -> In (fst e) (at_top (sc_attrs s))).
    { intros e I. assert (I' : In (fst e) (map fst vs)) by (apply in_map; exact I). rewrite <- E in I'. apply in_map_iff in I' as [e' [<- I']]. apply (mirrors_in _ _ _ M e' I'). }
    assert (Hfo : Forall (fun e => fits (map fst (sc_exts s)) (arep (fst e))) (outs_of vs)).
    { apply Forall_forall. intros e I. unfold outs_of in I. apply in_map_iff in I as [e' [<- I]]. cbn [fst]. apply Hf, Iv, I. }
    assert (Ap : forall a b, In a (at_top (sc_attrs s)) -> In b (at_top (sc_attrs s)) -> tkey a <> tkey b -> apart (arep a) (arep b)).
    { intros a b Ia Ib N. split; [exact N|]. intros Ea Eb. pose proof (ws_attrs _ Hw) as W. rewrite Forall_forall in W. destruct (W a Ia) as [_ [_ [_ Sa]]]. destruct (W b Ib) as [_ [_ [_ Sb]]]. rewrite Ea in Sa. rewrite Eb in Sb. congruence. }
    assert (Nx : NoDup (map (fun e => tkey (fst e)) vs)).
    { rewrite <- (map_map fst tkey), <- E. pose proof (ws_distinct _ Hw) as D. fold tkey in D. change (NoDup (map tkey (at_top (sc_attrs s)))) in D. clear -M D. induction M as [|a t xs H M IH|a t x xs H Nx M IH]; [constructor | |]; cbn [map] in D |- *; inversion D as [|? ? D1 D2]; subst; [exact (IH D2)|].
      constructor; [|exact (IH D2)]. cbn [fst]. intros I. apply D1. apply in_map_iff in I as [b [<- I]]. apply in_map. apply in_map_iff in I as [e [<- I]]. apply (mirrors_in _ _ _ M e I). }
    assert (FOP : ForallOrdPairs (fun e e' : attribute * outcome => apart (arep (fst e)) (arep (fst e')) /\ apart (arep (fst e')) (arep (fst e))) (outs_of vs)).
    { apply (pairs_same (fun a b => apart (arep a) (arep b) /\ apart (arep b) (arep a)) vs (outs_of vs) (eq_sym (outs_fst vs))). clear -Nx Ap Iv. induction vs as [|e t IH]; [constructor|]. cbn [map] in Nx. inversion Nx as [|? ? N1 N2]; subst.
      constructor; [|apply IH; [intros e' I; apply Iv; right; exact I | exact N2]]. apply Forall_forall. intros e' I.
      assert (N : tkey (fst e) <> tkey (fst e')). { intros X. apply N1. rewrite X. apply (in_map (fun e => tkey (fst e))). exact I. }
      split; apply Ap; try (apply Iv; (left; reflexivity) || (right; exact I)); congruence. }
    destruct (put_tops_read _ _ Hnd Hfo FOP empty_cont (shelf_empty _)) as [Sh [R1 R2]]. fold (page vs) in *.
    split; [apply stocked_puts; [exact Hnd | exact Hfo | apply stocked_empty]|]. split; [|split].
    - destruct (put_tops_keys _ _ Hnd Hfo [] [] (shelf_empty _)) as [data [l2o [Ey [K1 _]]]]. change (VCont [] []) with empty_cont in Ey. fold (page vs) in Ey. rewrite Ey in *. destruct Sh as [d' [m' [E' [Hidx _]]]]. injection E' as <- <-.
      intros n [k Hk]. destruct (K1 _ _ Hk) as [G|[[a o] [G1 G2]]]; [discriminate|]. pose proof (Hidx _ _ Hk) as Hlk. cbn [fst] in G2. unfold outs_of in G1. apply in_map_iff in G1 as [e [X I]]. pose proof (f_equal fst X) as X1. cbn [fst] in X1. exists e. split; [exact I|]. rewrite X1. congruence.
    - intros a v I w. apply (R2 a (v, no_issues)). unfold outs_of. apply in_map_iff. exists (a, v). split; [reflexivity | exact I].
    - intros a Ia N w H. apply R1 in H; [|apply Hf, Ia|].
      + unfold doc_holds in H. destruct (r_ext (arep a)); [destruct H as [sub [H _]]|]; exact (holds_empty _ _ H).
      + apply Forall_forall. intros e I. unfold outs_of in I. apply in_map_iff in I as [e' [<- I]]. cbn [fst]. apply Ap; [apply Iv, I | exact Ia|]. intros X. apply N. rewrite <- X. apply (in_map (fun e => tkey (fst e))). exact I.
  Qed.

  Lemma page_mirrors s c xs vs : wf_schema s -> unshared s -> mirrors c (at_top (sc_attrs s)) xs -> map fst xs = map fst vs -> Forall (fun e => snd e <> VMissing) vs -> mirrors (page vs) (at_top (sc_attrs s)) vs.
  Proof.
    intros Hw On M E F. destruct (page_facts s c xs vs Hw M E) as [St [K [H1 H2]]]. destruct (tops_fit s Hw) as [_ Hf]. rewrite Forall_forall in Hf.
    assert (Iv : forall e, In e vs -> In (fst e) (at_top (sc_attrs s))).
    { intros e I. assert (I' : In (fst e) (map fst vs)) by (apply in_map; exact I). rewrite <- E in I'. apply in_map_iff in I' as [e' [<- I']]. apply (mirrors_in _ _ _ M e' I'). }
    assert (G : forall a, In a (at_top (sc_attrs s)) -> (forall v, doc_holds (page vs) (arep a) v -> get_item (page vs) (arep a) = Ok v) /\ ((forall v, ~ doc_holds (page vs) (arep a) v) -> get_item (page vs) (arep a) = Ok VMissing)).
    { intros a Ia. apply (stocked_get (map fst (sc_exts s))); [exact St | exact (Hf a Ia) | |].
      - intros Ea HK. apply K in HK as [e [Ie X]]. pose proof (ws_attrs _ Hw) as W. rewrite Forall_forall in W. destruct (W a Ia) as [_ [_ [_ Sa]]]. rewrite Ea in Sa. rewrite Sa in X. destruct (W _ (Iv e Ie)) as [_ [_ [_ Se]]]. unfold topkey in X.
        destruct (r_ext (arep (fst e))) eqn:Ee.
        + destruct (ws_uris _ Hw) as [U _]. unfold sc_schemas in U. cbn [map] in U. inversion U as [|? ? U1 _]; subst. apply U1. rewrite X. apply in_map. exact Se.
        + apply (ws_names _ Hw _ (Iv e Ie) Ee). rewrite <- X. unfold sc_schemas. left. reflexivity.
      - intros Ea HK. apply K in HK as [e [Ie X]]. exact (On a (fst e) Ia (Iv e Ie) Ea X). }
    apply (mirrors_gen tkey c _ xs); try assumption; [exact (ws_distinct _ Hw) | |].
    - intros a v Ia I. apply (proj1 (G a Ia)), (H1 a v I). reflexivity.
    - intros a Ia N. apply (proj2 (G a Ia)). intros v. exact (H2 a Ia N v).
  Qed.

  (** ** The same shape *)

  Definition alike (d d' : list (str * value)) : Prop := Forall2 (fun e e' : str * value => fst e = fst e' /\ restated (snd e) (snd e')) d d'.
  Lemma alike_refl d : alike d d.
  Proof. induction d; constructor; [split; [reflexivity | apply re_same] | assumption]. Qed.
  Lemma alike_set k x x' d d' : alike d d' -> restated x x' -> alike (sset k x d) (sset k x' d').
  Proof.
    intros H R. unfold sset. induction H as [|[a v] [a' v'] t t' [E Q] H IH]; cbn [aset]; [repeat constructor; exact R|]. cbn [fst snd] in *. subst a'. destruct (str_eqb a k); constructor; try exact H; try exact IH; split; try reflexivity; assumption.
  Qed.
  Lemma alike_get k d d' : alike d d' -> match sget k d, sget k d' with Some x, Some x' => restated x x' | None, None => True | _, _ => False end.
  Proof.
    unfold sget. induction 1 as [|[a v] [a' v'] t t' [E Q] H IH]; cbn [aget]; [exact I|]. cbn [fst snd] in *. subst a'. destruct (str_eqb a k); [exact Q | exact IH].
  Qed.
  Lemma alike_keys d d' : alike d d' -> map fst d = map fst d'.
  Proof. induction 1 as [|e e' t t' [E _] H IH]; cbn [map]; [reflexivity | rewrite E, IH; reflexivity]. Qed.
  Lemma restated_cont d l2o w : restated (VCont d l2o) w -> exists d', w = VCont d' l2o /\ alike d d'.
  Proof. intros H. inversion H as [v| | |? d' ? F]; subst; [exists d; split; [reflexivity | apply alike_refl] | exists d'; split; [reflexivity | exact F]]. Qed.

  Lemma put_top_restated uris c c' r v v' : stocked uris c -> fits uris r -> restated c c' -> restated v v' -> restated (put_top c r v) (put_top c' r v').
  Proof.
    intros [d [l2o [-> [_ Hu]]]] [_ [_ He]] H R. apply restated_cont in H as [d' [-> A]]. unfold put_top, set_plain. destruct (r_ext r); [|apply re_cont, alike_set; assumption].
    destruct (Hu _ He) as [N|[N [d2 [l2 [E2 _]]]]]; rewrite N.
    - rewrite !sget_sset_same. unfold empty_cont. apply re_cont. apply alike_set; [apply alike_set; [exact A | apply re_same]|]. apply re_cont. repeat constructor. exact R.
    - pose proof (alike_get (r_schema r) _ _ A) as G. rewrite E2 in *. destruct (sget (r_schema r) d') as [x'|]; [|contradiction]. apply restated_cont in G as [d2' [-> A2]]. apply re_cont, alike_set; [exact A|]. apply re_cont, alike_set; assumption.
  Qed.
  Lemma page_restated s c xs vs us : wf_schema s -> mirrors c (at_top (sc_attrs s)) xs -> map fst xs = map fst vs -> each (fun _ => restated) vs us -> restated (page vs) (page us).
  Proof.
    intros Hw M E0 E. destruct (tops_fit s Hw) as [Hnd Hf]. rewrite Forall_forall in Hf.
    assert (Iv : forall e, In e vs -> fits (map fst (sc_exts s)) (arep (fst e))).
    { intros e I. assert (I' : In (fst e) (map fst vs)) by (apply in_map; exact I). rewrite <- E0 in I'. apply in_map_iff in I' as [e' [<- I']]. apply Hf, (mirrors_in _ _ _ M e' I'). }
    clear M E0 Hf. unfold page. pose proof (stocked_empty (map fst (sc_exts s))) as S0. assert (R0 : restated empty_cont empty_cont) by apply re_same. revert S0 R0. generalize empty_cont at 1 2 4. generalize empty_cont.
    induction E as [|[a v] [a' v'] vs us [E R] F IH]; intros c2 c1 S0 R0; [exact R0|]. cbn [fst snd] in *. subst a'. cbn [outs_of map put_tops fold_left fst snd]. apply IH.
    - intros e I. apply Iv. right. exact I.
    - apply stocked_put; [exact Hnd | exact S0 | exact (Iv (a, v) (or_introl eq_refl))].
    - eapply put_top_restated; [exact S0 | exact (Iv (a, v) (or_introl eq_refl)) | exact R0 | exact R].
  Qed.

  Lemma restated_texts l w : restated (VList (map VStr l)) w -> w = VList (map VStr l).
  Proof.
    intros H. inversion H as [v| |? l' F|]; subst; [reflexivity|]. f_equal. clear H. remember (map VStr l) as l0 eqn:E. revert l E. induction F as [|x y t t' R F IH]; intros l E; [reflexivity|]. destruct l as [|s l]; [discriminate E|]. cbn [map] in E. injection E as -> ->.
    inversion R; subst. f_equal. apply (IH l). reflexivity.
  Qed.
  Lemma texts_of l : forall ss, mapM (fun x => match x with VStr s => Ok (lower s) | _ => Raise AttributeErr end) l = Ok ss -> exists ts, l = map VStr ts.
  Proof.
    induction l as [|x t IH]; intros ss H; [exists []; reflexivity|]. cbn [mapM] in H. apply bind_ok in H as [a [Ha H]]. apply bind_ok in H as [b [Hb _]]. destruct x; try discriminate Ha. destruct (IH _ Hb) as [ts ->]. exists (s :: ts). reflexivity.
  Qed.
  Lemma restated_falsy v w : restated v w -> truthy v = false -> truthy w = false.
  Proof. intros H T. inversion H as [| |? l' F|? d' ? F]; subst; try assumption; try discriminate T; inversion F; subst; try reflexivity; discriminate T. Qed.

  Lemma validate_restated y y' sch sch' main known iss : restated y y' -> is_cont y = true -> restated sch sch' -> truthy sch = true -> validate_schemas_field y sch main known = Ok iss ->
    validate_schemas_field y' sch' main known = Ok iss.
  Proof.
    intros Ry Cy Rs T H. assert (sch' = sch) as ->.
    { unfold validate_schemas_field in H. apply bind_ok in H as [given [H _]]. unfold lower_items in H. apply bind_ok in H as [l [Hl H]]. destruct sch; try discriminate Hl; try (inversion Rs; subst; reflexivity).
      injection Hl as <-. apply texts_of in H as [ts ->]. apply restated_texts. exact Rs. }
    destruct y; try discriminate Cy. apply restated_cont in Ry as [d' [-> A]]. unfold validate_schemas_field in *. cbn [cont_keys] in *. rewrite <- (alike_keys _ _ A). exact H.
  Qed.

  Lemma same_get p1 p2 tops vs us a x : NoDup (map tkey tops) -> mirrors p1 tops vs -> mirrors p2 tops us -> each (fun _ => restated) vs us -> In a tops -> get_item p1 (arep a) = Ok x ->
    exists x', get_item p2 (arep a) = Ok x' /\ restated x x'.
  Proof.
    intros Nd M1. revert us Nd. induction M1 as [|b t vs G1 M1 IH|b t y vs G1 N1 M1 IH]; intros us Nd M2 E I H; [destruct I | |]; cbn [map] in Nd; inversion Nd as [|? ? D1 D2]; subst.
    - inversion M2 as [|? ? ? G2 M2'|? ? z us' G2 N2 M2']; subst.
      + destruct I as [->|I]; [|exact (IH us D2 M2' E I H)]. rewrite G1 in H. injection H as <-. exists VMissing. split; [exact G2 | apply re_same].
      + inversion E as [|e ? vs' ? [X _] E']; subst. exfalso. apply D1. cbn [fst] in X. rewrite <- X. apply in_map. apply (mirrors_in _ _ _ M1 e). left. reflexivity.
    - inversion M2 as [|? ? ? G2 M2'|? ? z us' G2 N2 M2']; subst.
      + inversion E as [|? e ? us' [X _] E']; subst. exfalso. apply D1. cbn [fst] in X. rewrite X. apply in_map. apply (mirrors_in _ _ _ M2' e). left. reflexivity.
      + inversion E as [|? ? ? ? [_ R] E']; subst. cbn [fst snd] in R. destruct I as [->|I]; [|exact (IH us' D2 M2' E' I H)]. rewrite G1 in H. injection H as <-. exists z. split; assumption.
  Qed.

  (** ** The schema *)

  Section Two.
    Variables (m1 m2 : method) (D : value -> Prop).
    Hypothesis D_list : forall l x, D (VList l) -> In x l -> D x.
    Hypothesis D_cont : forall d l2o k x, D (VCont d l2o) -> In (k, x) d -> D x.
    Hypothesis again_type : forall t x y, type_proc m1 t x = Ok (pass y) -> D y ->
      exists z, type_proc m2 t y = Ok (pass z) /\ type_proc m1 t z = Ok (pass y) /\ restated y z /\ (t <> TDateTime -> z = y).

    Theorem again_doc s doc y : made s -> Forall steady (at_top (sc_attrs s)) -> unshared s -> is_object doc -> doc_runs m1 s doc y -> D y ->
      exists u, restated y u /\ doc_runs m2 s y u /\ doc_runs m1 s u y.
    Proof.
      intros Mk St On Ho R Dy. pose proof (made_wf s Mk) as Hw. apply (doc_runs_iff _ _ _ _ Hw Ho) in R as [vs [[xs [M E]] [-> Or]]]. pose proof (mirrors_in _ _ _ M) as Min. rewrite Forall_forall in St.
      pose proof (each_fst _ _ _ E) as F1. destruct (page_facts s _ xs vs Hw M F1) as [Stv [_ [Hv _]]].
      assert (Dv : forall e, In e vs -> D (snd e)).
      { intros [a v] I. cbn [snd]. pose proof (proj2 (Hv a v I v) eq_refl) as H. unfold doc_holds in H. destruct (r_ext (arep a)).
        - destruct H as [sub [[d [q [k [E1 [_ G1]]]]] [d' [q' [k' [E2 [_ G2]]]]]]]. subst sub. rewrite E1 in Dy. apply sget_In in G1, G2. exact (D_cont _ _ _ _ (D_cont _ _ _ _ Dy G1) G2).
        - destruct H as [d [q [k [E1 [_ G1]]]]]. rewrite E1 in Dy. apply sget_In in G1. exact (D_cont _ _ _ _ Dy G1). }
      assert (Sx : Forall (fun e => steady (fst e)) xs) by (apply Forall_forall; intros e I; apply St, (Min e I)). assert (Nx : Forall (fun e => snd e <> VMissing) xs) by (apply Forall_forall; intros e I; apply (Min e I)).
      destruct (each_again m1 m2 D xs vs E) as [us [E2 [E3 E4]]].
      { apply Forall_forall. intros e I. apply (again_all m1 m2 D D_list D_cont again_type). apply St, (Min e I). }
      { exact Dv. }
      pose proof (each_present _ _ _ E Sx Nx) as Nv. pose proof (each_fst _ _ _ E2) as F2.
      assert (Sv : Forall (fun e => steady (fst e)) vs). { apply Forall_forall. intros e I. assert (I' : In (fst e) (map fst vs)) by (apply in_map; exact I). rewrite <- F1 in I'. apply in_map_iff in I' as [e' [<- I']]. apply St, (Min e' I'). }
      pose proof (each_present _ _ _ E2 Sv Nv) as Nu.
      pose proof (page_mirrors s _ xs vs Hw On M F1 Nv) as Mv. pose proof (page_mirrors s _ xs us Hw On M (eq_trans F1 F2) Nu) as Mu.
      pose proof (page_restated s _ xs vs us Hw M F1 E4) as Rp.
      assert (Cv : is_cont (page vs) = true) by (destruct Stv as [d [q [-> _]]]; reflexivity).
      assert (Cu : exists d q, page us = VCont d q). { destruct Stv as [d [q [X _]]]. rewrite X in Rp. apply restated_cont in Rp as [d' [-> _]]. exists d', q. reflexivity. }
      assert (Ou : in_order s (page us)).
      { destruct Or as [a [sch [Ha [Hs V]]]]. destruct (made_schemas s Mk) as [Hn Hin]. rewrite Hn in Ha. injection Ha as Ha. rewrite <- Ha in *. clear Ha a. set (a := bound_attr _ schemas_attr) in *. exists a.
        assert (G : exists sch', get_item (page us) (arep a) = Ok sch' /\ restated sch sch').
        { exact (same_get _ _ _ _ _ _ _ (ws_distinct _ Hw) Mv Mu E4 Hin Hs). }
        destruct G as [sch' [Hs' Rs]]. exists sch'. split; [exact Hn|]. split; [exact Hs'|]. intros T.
        assert (T0 : truthy sch = true). { destruct (truthy sch) eqn:X; [reflexivity|]. rewrite (restated_falsy _ _ Rs X) in T. discriminate T. }
        destruct (V T0) as [iss [Hval Q]]. exists iss. split; [|exact Q]. exact (validate_restated _ _ _ _ _ _ _ Rp Cv Rs T0 Hval). }
      exists (page us). split; [exact Rp|]. destruct Cu as [d [q Cu]]. split.
      - apply (doc_runs_iff m2 s _ _ Hw); [destruct (page vs); try discriminate Cv; exact I|]. exists us. rewrite (cont_same _ Cv). split; [exists vs; split; assumption|]. split; [reflexivity | exact Ou].
      - apply (doc_runs_iff m1 s _ _ Hw); [rewrite Cu; exact I|]. exists vs. rewrite cont_same by (rewrite Cu; reflexivity). split; [exists us; split; assumption|]. split; [reflexivity | exact Or].
    Qed.
  End Two.
End Env.
