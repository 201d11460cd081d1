(** Lemmas about schemas. *)
From Verif Require Import PyBase BaseFacts PyNum Issues IssuesSpec IssuesFacts AttrRep AttrRepSpec AttrRepFacts Value ValueFacts
  Container ContainerSpec ContainerFacts ContainerRW Types TypesSpec Attr Schema AttrSpec AttrFacts AttrHonest AttrItems PropAttr SchemaSpec.

(** ** Reading and writing names in a container *)

Lemma str_dec (a b : str) : {a = b} + {a <> b}.
Proof. destruct (str_eqb a b) eqn:E; [left; apply str_eqb_eq; exact E | right; apply str_eqb_neq; exact E]. Qed.

Definition idx (l2o : list (str * str)) : Prop := forall lk k, sget lk l2o = Some k -> lower k = lk.

Lemma idx_sset l2o n : idx l2o -> idx (sset (lower n) n l2o).
Proof.
  intros H lk k. rewrite sget_sset. destruct (str_eqb (lower n) lk) eqn:E; intros G.
  - injection G as <-. apply str_eqb_eq. exact E.
  - apply H. exact G.
Qed.

Lemma holds_set_same data l2o n v w : holds (set_plain data l2o n v) n w <-> w = v.
Proof.
  unfold holds, set_plain. split.
  - intros [d [m [k [E [H1 H2]]]]]. injection E as <- <-. rewrite sget_sset_same in H1. injection H1 as <-.
    rewrite sget_sset_same in H2. congruence.
  - intros ->. eexists _, _, n. split; [reflexivity|]. split; apply sget_sset_same.
Qed.
Lemma holds_set_other data l2o n n' v w : idx l2o -> lower n' <> lower n ->
  (holds (set_plain data l2o n v) n' w <-> holds (VCont data l2o) n' w).
Proof.
  intros Hi Hn. unfold holds, set_plain. split; intros [d [m [k [E [H1 H2]]]]]; injection E as <- <-; eexists _, _, k;
    (split; [reflexivity|]).
  - rewrite sget_sset_other in H1 by congruence. split; [exact H1|]. rewrite sget_sset_other in H2; [exact H2|].
    apply Hi in H1. congruence.
  - rewrite sget_sset_other by congruence. split; [exact H1|]. rewrite sget_sset_other; [exact H2|].
    apply Hi in H1. congruence.
Qed.
Lemma holds_empty n v : ~ holds empty_cont n v.
Proof. intros [d [m [k [E [H _]]]]]. injection E as <- <-. discriminate. Qed.
Lemma holds_fun c n v w : holds c n v -> holds c n w -> v = w.
Proof.
  intros [d [m [k [-> [H1 H2]]]]] [d' [m' [k' [E [H3 H4]]]]]. injection E as <- <-. rewrite H1 in H3. injection H3 as <-. congruence.
Qed.
Lemma holds_has_key c n v : holds c n v -> has_key c n.
Proof. intros [d [m [k [-> [H1 _]]]]]. exists k. exact H1. Qed.

(** Writing a top-level attribute of a schema. *)
Definition put_top (c : value) (r : attr_rep) (v : value) : value :=
  match c with
  | VCont data l2o =>
      if r_ext r then
        let (data, l2o) :=
          match sget (lower (r_schema r)) l2o with
          | None => (sset (r_schema r) empty_cont data, sset (lower (r_schema r)) (r_schema r) l2o)
          | Some _ => (data, l2o)
          end in
        match sget (r_schema r) data with
        | Some (VCont d2 l2) => VCont (sset (r_schema r) (set_plain d2 l2 (r_attr r) v) data) l2o
        | _ => c
        end
      else set_plain data l2o (r_attr r) v
  | _ => c
  end.

(** The keys [uris] lead to well-indexed containers and are stored under their
    own spelling. *)
Definition shelf (uris : list str) (c : value) : Prop :=
  exists data l2o, c = VCont data l2o /\ idx l2o
  /\ forall u, In u uris -> sget (lower u) l2o = None \/
       sget (lower u) l2o = Some u /\ exists d2 l2, sget u data = Some (VCont d2 l2) /\ idx l2.

Lemma shelf_empty uris : shelf uris empty_cont.
Proof. exists [], []. split; [reflexivity|]. split; [intros lk k H; discriminate|]. intros u _. left; reflexivity. Qed.

Lemma NoDup_map_eq {A B} (f : A -> B) l x y : NoDup (map f l) -> In x l -> In y l -> f x = f y -> x = y.
Proof.
  induction l as [|a t IH]; cbn [map]; intros Hn Hx Hy E; [contradiction|]. inversion Hn as [|? ? H1 H2]; subst.
  destruct Hx as [<-|Hx], Hy as [<-|Hy]; [reflexivity | | | exact (IH H2 Hx Hy E)].
  - exfalso. apply H1. rewrite E. apply in_map. exact Hy.
  - exfalso. apply H1. rewrite <- E. apply in_map. exact Hx.
Qed.

Section Shelf.
  Variables (uris : list str) (Hnd : NoDup (map lower uris)).

  (** The reps in play: plain names that are no URIs, or names inside a URI. *)
  Definition fits (r : attr_rep) : Prop :=
    r_sub r = [] /\ attr_ok (r_attr r)
    /\ if r_ext r then In (r_schema r) uris else ~ In (lower (r_attr r)) (map lower uris).

  Lemma uri_eq u u' : In u uris -> In u' uris -> lower u = lower u' -> u = u'.
  Proof. apply NoDup_map_eq; exact Hnd. Qed.

  Lemma put_top_set c r v : shelf uris c -> fits r -> set_item c r v = Ok (put_top c r v).
  Proof.
    intros [data [l2o [-> [Hi Hu]]]] [Hs [Ha He]]. destruct r as [sch n sub ext]. cbn [r_sub r_attr r_ext r_schema] in *. subst sub.
    unfold set_item, put_top. cbn [r_sub r_attr r_ext r_schema]. destruct ext; [|reflexivity].
    rewrite (mk_rep_plain n [] Ha). cbn [bind r_attr r_sub].
    destruct (Hu sch He) as [E|[E [d2 [l2 [E2 _]]]]]; rewrite E.
    - rewrite sget_sset_same. reflexivity.
    - rewrite E2. reflexivity.
  Qed.

  Lemma put_top_shelf c r v : shelf uris c -> fits r -> shelf uris (put_top c r v).
  Proof.
    intros [data [l2o [-> [Hi Hu]]]] [Hs [Ha He]]. destruct r as [sch n sub ext]. cbn [r_sub r_attr r_ext r_schema] in *. subst sub.
    unfold put_top. cbn [r_sub r_attr r_ext r_schema]. destruct ext.
    - destruct (Hu sch He) as [E|[E [d2 [l2 [E2 Hi2]]]]]; rewrite E.
      + rewrite sget_sset_same. unfold empty_cont. eexists _, _. split; [reflexivity|]. split; [apply idx_sset; exact Hi|].
        intros u Hin. destruct (str_dec sch u) as [<-|Hne].
        * right. split; [apply sget_sset_same|]. eexists _, _. split; [apply sget_sset_same|]. apply idx_sset. intros lk k H; discriminate.
        * assert (Hl : lower sch <> lower u) by (intros G; apply Hne; apply uri_eq; assumption).
          destruct (Hu u Hin) as [G|[G [d3 [l3 [G2 G3]]]]]; [left; rewrite sget_sset_other by congruence; exact G|].
          right. rewrite sget_sset_other by congruence. split; [exact G|]. exists d3, l3.
          rewrite !sget_sset_other by congruence. split; assumption.
      + rewrite E2. eexists _, _. split; [reflexivity|]. split; [exact Hi|].
        intros u Hin. destruct (str_dec sch u) as [<-|Hne].
        * right. split; [exact E|]. eexists _, _. split; [apply sget_sset_same|]. apply idx_sset. exact Hi2.
        * destruct (Hu u Hin) as [G|[G [d3 [l3 [G2 G3]]]]]; [left; exact G|].
          right. split; [exact G|]. exists d3, l3. rewrite sget_sset_other by congruence. split; assumption.
    - eexists _, _. split; [reflexivity|]. split; [apply idx_sset; exact Hi|]. intros u Hin.
      assert (Hl : lower n <> lower u) by (intros G; apply He; rewrite G; apply in_map; exact Hin).
      destruct (Hu u Hin) as [G|[G [d3 [l3 [G2 G3]]]]]; [left; rewrite sget_sset_other by congruence; exact G|].
      right. rewrite sget_sset_other by congruence. split; [exact G|]. exists d3, l3.
      rewrite sget_sset_other by congruence. split; assumption.
  Qed.

  Lemma put_top_same c r v : shelf uris c -> fits r -> forall w, doc_holds (put_top c r v) r w <-> w = v.
  Proof.
    intros [data [l2o [-> [Hi Hu]]]] [Hs [Ha He]] w. destruct r as [sch n sub ext]. unfold doc_holds, put_top.
    cbn [r_sub r_attr r_ext r_schema] in *. destruct ext; [|apply holds_set_same].
    assert (G : forall data l2o d2 l2, sget (lower sch) l2o = Some sch ->
      (exists s, holds (VCont (sset sch (set_plain d2 l2 n v) data) l2o) sch s /\ holds s n w) <-> w = v).
    { intros d m d2 l2 E. split.
      - intros [s [[d' [m' [k [E1 [E2 E3]]]]] Hs']]. injection E1 as <- <-. rewrite E in E2. injection E2 as <-.
        rewrite sget_sset_same in E3. injection E3 as <-. apply (proj1 (holds_set_same _ _ _ _ _)) in Hs'. exact Hs'.
      - intros ->. exists (set_plain d2 l2 n v). split; [|apply holds_set_same; reflexivity].
        eexists _, _, sch. split; [reflexivity|]. split; [exact E | apply sget_sset_same]. }
    destruct (Hu sch He) as [E|[E [d2 [l2 [E2 Hi2]]]]]; rewrite E.
    - rewrite sget_sset_same. unfold empty_cont at 1. apply G. apply sget_sset_same.
    - rewrite E2. apply G. exact E.
  Qed.

  Definition apart (r r' : attr_rep) : Prop := (lower (r_schema r), lower (r_attr r)) <> (lower (r_schema r'), lower (r_attr r')) /\
    (r_ext r = false -> r_ext r' = false -> r_schema r = r_schema r').

  Lemma put_top_other c r r' v : shelf uris c -> fits r -> fits r' -> apart r r' ->
    forall w, doc_holds (put_top c r v) r' w <-> doc_holds c r' w.
  Proof.
    intros [data [l2o [-> [Hi Hu]]]] [Hs [Ha He]] [Hs' [Ha' He']] [Hap Hsame] w.
    destruct r as [sch n sub ext], r' as [sch' n' sub' ext']. unfold doc_holds, put_top.
    cbn [r_sub r_attr r_ext r_schema] in *. subst sub sub'. destruct ext.
    - (* writing into an extension *)
      assert (Hframe : forall d m d2 l2 k, idx m -> lower k <> lower sch -> forall x,
                (holds (VCont (sset sch (set_plain d2 l2 n v) d) m) k x <-> holds (VCont d m) k x)).
      { intros d m d2 l2 k Hm Hk x. unfold holds. split; intros [d' [m' [k0 [E1 [E2 E3]]]]]; injection E1 as <- <-;
          eexists _, _, k0; (split; [reflexivity|]); (split; [exact E2|]).
        - rewrite sget_sset_other in E3; [exact E3|]. apply Hm in E2. congruence.
        - rewrite sget_sset_other; [exact E3|]. apply Hm in E2. congruence. }
      assert (Hfresh : forall k, lower k <> lower sch -> forall x,
                (holds (VCont (sset sch empty_cont data) (sset (lower sch) sch l2o)) k x <-> holds (VCont data l2o) k x)).
      { intros k Hk x. apply (holds_set_other data l2o sch k empty_cont x Hi). exact Hk. }
      assert (Hout : forall k, lower k <> lower sch -> forall x,
                holds (put_top (VCont data l2o) (mkRep sch n [] true) v) k x <-> holds (VCont data l2o) k x).
      { intros k Hk x. unfold put_top. cbn [r_sub r_attr r_ext r_schema].
        destruct (Hu sch He) as [E|[E [d2 [l2 [E2 Hi2]]]]]; rewrite E.
        - rewrite sget_sset_same. unfold empty_cont at 1.
          rewrite Hframe; [apply Hfresh; exact Hk | apply idx_sset; exact Hi | exact Hk].
        - rewrite E2. apply Hframe; assumption. }
      unfold put_top in Hout. cbn [r_sub r_attr r_ext r_schema] in Hout.
      destruct ext'.
      + destruct (str_dec sch sch') as [<-|Hne].
        * (* same extension, other name *)
          assert (Hn : lower n' <> lower n) by congruence.
          destruct (Hu sch He) as [E|[E [d2 [l2 [E2 Hi2]]]]]; rewrite E.
          -- rewrite sget_sset_same. unfold empty_cont at 1. split; intros [s [[d' [m' [k0 [F1 [F2 F3]]]]] F4]].
             ++ injection F1 as <- <-. rewrite sget_sset_same in F2. injection F2 as <-. rewrite sget_sset_same in F3. injection F3 as <-.
                apply holds_set_other in F4; [|intros ? ? ?; discriminate | exact Hn].
                exfalso. exact (holds_empty _ _ F4).
             ++ injection F1 as <- <-. congruence.
          -- rewrite E2. split; intros [s [[d' [m' [k0 [F1 [F2 F3]]]]] F4]]; injection F1 as <- <-; rewrite E in F2; injection F2 as <-.
             ++ rewrite sget_sset_same in F3. injection F3 as <-. exists (VCont d2 l2).
                split; [eexists _, _, sch; split; [reflexivity|]; split; [exact E | exact E2]|].
                apply (holds_set_other d2 l2 n n' v w Hi2 Hn). exact F4.
             ++ rewrite E2 in F3. injection F3 as <-. eexists. split; [eexists _, _, sch; split; [reflexivity|]; split; [exact E | apply sget_sset_same]|].
                apply holds_set_other; assumption.
        * assert (Hl : lower sch' <> lower sch) by (intros G; apply Hne; symmetry; apply uri_eq; assumption).
          split; intros [s [F1 F2]]; exists s; (split; [apply (Hout sch' Hl s); exact F1 | exact F2]).
      + apply Hout. intros G. apply He'. rewrite G. apply in_map. exact He.
    - (* writing a core attribute *)
      destruct ext'.
      + assert (Hl : lower sch' <> lower n) by (intros G; apply He; rewrite <- G; apply in_map; exact He').
        split; intros [s [F1 F2]]; exists s; (split; [apply (holds_set_other data l2o n sch' v s Hi Hl); exact F1 | exact F2]).
      + apply holds_set_other; [exact Hi|]. specialize (Hsame eq_refl eq_refl). congruence.
  Qed.
End Shelf.

Section Env.
  Context {env : PyEnv}.

  (** ** The loop over the top-level attributes *)

  Fixpoint gather_top (m : method) (c : value) (l : list attribute) : res (list (attribute * outcome)) :=
    match l with
    | [] => Ok []
    | a :: t =>
        let! x := get_item c (arep a) in
        match x with
        | VMissing => gather_top m c t
        | _ => let! o := process a m x in let! rest := gather_top m c t in Ok ((a, o) :: rest)
        end
    end.
  Definition put_tops (outs : list (attribute * outcome)) (c : value) : value :=
    fold_left (fun c e => put_top c (arep (fst e)) (fst (snd e))) outs c.
  Definition merge_tops (outs : list (attribute * outcome)) (iss : issues) : issues :=
    fold_left (fun i e => merge i (snd (snd e)) (place (arep (fst e)))) outs iss.

  Lemma place_loc a : attr_loc a = place (arep a).
  Proof. unfold attr_loc, place. destruct (r_ext (arep a)); reflexivity. Qed.

  Lemma process_attrs_closed uris m c l : NoDup (map lower uris) -> Forall (fun a => fits uris (arep a)) l ->
    forall processed iss, shelf uris processed ->
    process_attrs m l c processed iss =
    (let! outs := gather_top m c l in Ok (put_tops outs processed, merge_tops outs iss)).
  Proof.
    intros Hnd. induction 1 as [|a t Ha Ht IH]; intros processed iss Hp; cbn [process_attrs gather_top]; [reflexivity|].
    rewrite bind_assoc. apply bind_ext. intros x.
    assert (G : (let! (y, iss') := process a m x in
                 let! processed' := set_item processed (arep a) y in
                 process_attrs m t c processed' (merge iss iss' (attr_loc a))) =
                (let! outs := (let! o := process a m x in let! rest := gather_top m c t in Ok ((a, o) :: rest)) in
                 Ok (put_tops outs processed, merge_tops outs iss))).
    { rewrite bind_assoc. apply bind_ext. intros [y j]. rewrite (put_top_set uris _ _ _ Hp Ha). cbn [bind].
      rewrite IH by (apply put_top_shelf; assumption). rewrite bind_assoc. apply bind_ext. intros rest.
      rewrite place_loc. reflexivity. }
    destruct x; try exact G. apply IH. exact Hp.
  Qed.

  Lemma gather_top_In m c l : forall outs a o, gather_top m c l = Ok outs -> In (a, o) outs ->
    In a l /\ exists x, get_item c (arep a) = Ok x /\ x <> VMissing /\ process a m x = Ok o.
  Proof.
    induction l as [|b t IH]; intros outs a o H Hin; cbn [gather_top] in H; [injection H as <-; contradiction|].
    apply bind_ok in H as [x [Hx H]].
    assert (G : x <> VMissing -> (let! o := process b m x in let! rest := gather_top m c t in Ok ((b, o) :: rest)) = Ok outs ->
      In a (b :: t) /\ exists x, get_item c (arep a) = Ok x /\ x <> VMissing /\ process a m x = Ok o).
    { clear H. intros Hm H. apply bind_ok in H as [o' [H1 H]]. apply bind_ok in H as [rest [H2 H]]. injection H as <-.
      destruct Hin as [Hin|Hin].
      - injection Hin as <- <-. split; [left; reflexivity|]. exists x. auto.
      - destruct (IH _ _ _ H2 Hin) as [G1 G2]. split; [right; exact G1 | exact G2]. }
    destruct x; try (apply G; [discriminate | exact H]).
    destruct (IH _ _ _ H Hin) as [G1 G2]. split; [right; exact G1 | exact G2].
  Qed.
  Lemma gather_top_all m c l : forall outs a x, gather_top m c l = Ok outs -> In a l -> get_item c (arep a) = Ok x -> x <> VMissing ->
    exists o, process a m x = Ok o /\ In (a, o) outs.
  Proof.
    induction l as [|b t IH]; intros outs a x H Hin Hx Hm; [contradiction|]. cbn [gather_top] in H.
    apply bind_ok in H as [x0 [Hx0 H]].
    assert (G : x0 <> VMissing -> (let! o := process b m x0 in let! rest := gather_top m c t in Ok ((b, o) :: rest)) = Ok outs ->
      exists o, process a m x = Ok o /\ In (a, o) outs).
    { clear H. intros Hm0 H. apply bind_ok in H as [o' [H1 H]]. apply bind_ok in H as [rest [H2 H]]. injection H as <-.
      destruct Hin as [<-|Hin].
      - rewrite Hx in Hx0. injection Hx0 as <-. exists o'. split; [exact H1 | left; reflexivity].
      - destruct (IH _ _ _ H2 Hin Hx Hm) as [o [G1 G2]]. exists o. split; [exact G1 | right; exact G2]. }
    destruct x0; try (apply G; [discriminate | exact H]).
    destruct Hin as [<-|Hin]; [congruence|]. exact (IH _ _ _ H Hin Hx Hm).
  Qed.
  Lemma gather_top_NoDup {B} (f : attribute -> B) m c l : NoDup (map f l) -> forall outs, gather_top m c l = Ok outs ->
    NoDup (map (fun e => f (fst e)) outs).
  Proof.
    induction l as [|b t IH]; intros Hn outs H; cbn [gather_top] in H; [injection H as <-; constructor|].
    cbn [map] in Hn. inversion Hn as [|? ? H1 H2]; subst. apply bind_ok in H as [x [Hx H]].
    assert (G : (let! o := process b m x in let! rest := gather_top m c t in Ok ((b, o) :: rest)) = Ok outs ->
      NoDup (map (fun e => f (fst e)) outs)).
    { clear H. intros H. apply bind_ok in H as [o' [_ H]]. apply bind_ok in H as [rest [Hr H]]. injection H as <-.
      cbn [map fst]. constructor; [|exact (IH H2 _ Hr)]. intros Hin. apply H1. apply in_map_iff in Hin as [[a o] [E Hin]].
      destruct (gather_top_In _ _ _ _ _ _ Hr Hin) as [G _]. cbn [fst] in E. rewrite <- E. apply in_map. exact G. }
    destruct x; try exact (G H). exact (IH H2 _ H).
  Qed.

  (** What the loop's writes leave behind. *)
  Lemma put_tops_read uris outs : NoDup (map lower uris) -> Forall (fun e => fits uris (arep (fst e))) outs ->
    ForallOrdPairs (fun e e' => apart (arep (fst e)) (arep (fst e')) /\ apart (arep (fst e')) (arep (fst e))) outs ->
    forall c, shelf uris c -> shelf uris (put_tops outs c)
    /\ (forall r w, fits uris r -> Forall (fun e => apart (arep (fst e)) r) outs ->
        (doc_holds (put_tops outs c) r w <-> doc_holds c r w))
    /\ (forall a o, In (a, o) outs -> forall w, doc_holds (put_tops outs c) (arep a) w <-> w = fst o).
  Proof.
    intros Hnd. induction outs as [|[a o] t IH]; intros Hf Ho c Hc; cbn [put_tops fold_left fst snd].
    - split; [exact Hc|]. split; [intros; reflexivity | intros a o []].
    - inversion Hf as [|? ? Hfa Hft]; subst. inversion Ho as [|? ? Hoa Hot]; subst. cbn [fst] in *.
      pose proof (put_top_shelf uris Hnd c _ (fst o) Hc Hfa) as Hc'.
      destruct (IH Hft Hot _ Hc') as [I1 [I2 I3]]. change (fold_left _ t ?x) with (put_tops t x).
      split; [exact I1|]. split.
      + intros r w Hr Hap. inversion Hap as [|? ? Ha Ht]; subst. cbn [fst] in Ha. rewrite (I2 r w Hr Ht).
        apply (put_top_other uris Hnd); assumption.
      + intros b q [E|Hin] w; [|apply I3; exact Hin]. injection E as <- <-. rewrite (I2 (arep a) w Hfa).
        * apply (put_top_same uris); assumption.
        * revert Hoa. apply Forall_impl. intros e [_ G]. exact G.
  Qed.

  Lemma merge_tops_errs outs : Forall (fun e => report (snd (snd e))) outs -> forall iss, report iss ->
    report (merge_tops outs iss)
    /\ forall l, errs_at (merge_tops outs iss) l = errs_at iss l ++
         flat_map (fun e => match loc_strip (place (arep (fst e))) l with Some l' => errs_at (snd (snd e)) l' | None => [] end) outs.
  Proof.
    induction 1 as [|[a o] t Ho Ht IH]; intros iss Hi; cbn [merge_tops fold_left flat_map].
    - split; [exact Hi|]. intros l. rewrite app_nil_r. reflexivity.
    - cbn [fst snd] in *. destruct (IH (merge iss (snd o) (place (arep a)))) as [H1 H2]; [apply report_merge; assumption|].
      split; [exact H1|]. intros l. unfold merge_tops in H2. rewrite H2, errs_merge, <- app_assoc by assumption. reflexivity.
  Qed.

  (** Nothing undeclared is written. *)
  Definition all_from (P : attribute -> value -> Prop) (l : list attribute) (y : value) : Prop :=
    exists data l2o, y = VCont data l2o /\ forall n v, sget n data = Some v ->
      (exists a, In a l /\ r_ext (arep a) = false /\ n = r_attr (arep a) /\ P a v)
      \/ (exists d2 l2, v = VCont d2 l2 /\ d2 <> [] /\ forall n2 v2, sget n2 d2 = Some v2 ->
            exists a, In a l /\ r_ext (arep a) = true /\ n = r_schema (arep a) /\ n2 = r_attr (arep a) /\ P a v2).

  Lemma put_top_src (P : attribute -> value -> Prop) uris l a v c : NoDup (map lower uris) -> fits uris (arep a) -> shelf uris c -> In a l -> P a v ->
    (forall b, In b l -> fits uris (arep b)) ->
    all_from P l c -> all_from P l (put_top c (arep a) v).
  Proof.
    intros Hnd [Hs [Hok He]] [data0 [l2o0 [E0 [Hi Hu]]]] Ha HP Hall [data [l2o [-> Hsrc]]]. injection E0 as <- <-.
    unfold put_top, all_from. destruct (r_ext (arep a)) eqn:Ee.
    - assert (Hne : forall d2 l2 n, n = r_schema (arep a) -> (forall n2 v2, sget n2 d2 = Some v2 ->
                    exists a, In a l /\ r_ext (arep a) = true /\ n = r_schema (arep a) /\ n2 = r_attr (arep a) /\ P a v2) ->
                exists d' l', set_plain d2 l2 (r_attr (arep a)) v = VCont d' l' /\ d' <> []
                /\ forall n2 v2, sget n2 d' = Some v2 ->
                    exists a, In a l /\ r_ext (arep a) = true /\ n = r_schema (arep a) /\ n2 = r_attr (arep a) /\ P a v2).
      { intros d2 l2 n Hn Hd. eexists _, _. split; [reflexivity|]. split.
        - intros G. assert (Hin : In (r_attr (arep a)) (map fst (sset (r_attr (arep a)) v d2))) by (apply sset_In_key; left; reflexivity).
          rewrite G in Hin. contradiction.
        - intros n2 v2 Hin. rewrite sget_sset in Hin. destruct (str_eqb (r_attr (arep a)) n2) eqn:E; [|apply Hd; exact Hin].
          apply str_eqb_eq in E. injection Hin as <-. exists a. auto. }
      destruct (Hu _ He) as [E|[E [d2 [l2 [E2 Hi2]]]]]; rewrite E.
      + rewrite sget_sset_same. unfold empty_cont at 1. eexists _, _. split; [reflexivity|].
        intros n w Hin. rewrite !sget_sset in Hin. destruct (str_eqb (r_schema (arep a)) n) eqn:En; [|apply Hsrc; exact Hin].
        apply str_eqb_eq in En. injection Hin as <-. right. apply Hne; [symmetry; exact En | intros; discriminate].
      + rewrite E2. eexists _, _. split; [reflexivity|].
        intros n w Hin. rewrite sget_sset in Hin. destruct (str_eqb (r_schema (arep a)) n) eqn:En; [|apply Hsrc; exact Hin].
        apply str_eqb_eq in En. injection Hin as <-. right. apply Hne; [symmetry; exact En|]. rewrite <- En.
        destruct (Hsrc _ _ E2) as [[b [Hb [Hbe [Hbn _]]]]|[d3 [l3 [G [_ G2]]]]].
        * exfalso. destruct (Hall b Hb) as [_ [_ Hbf]]. rewrite Hbe in Hbf. apply Hbf. rewrite <- Hbn. apply in_map. exact He.
        * injection G as <- <-. exact G2.
    - eexists _, _. split; [reflexivity|]. intros n w Hin. rewrite sget_sset in Hin.
      destruct (str_eqb (r_attr (arep a)) n) eqn:En; [|apply Hsrc; exact Hin].
      apply str_eqb_eq in En. injection Hin as <-. left. exists a. auto.
  Qed.

  Lemma put_tops_src (P : attribute -> value -> Prop) uris l outs : NoDup (map lower uris) -> (forall b, In b l -> fits uris (arep b)) ->
    (forall a o, In (a, o) outs -> In a l /\ P a (fst o)) ->
    forall c, shelf uris c -> all_from P l c -> all_from P l (put_tops outs c).
  Proof.
    intros Hnd Hall. induction outs as [|[a o] t IH]; intros Ho c Hc Hs; cbn [put_tops fold_left fst snd]; [exact Hs|].
    destruct (Ho a o (or_introl eq_refl)) as [Ha HP]. apply IH.
    - intros b q Hin. apply Ho. right; exact Hin.
    - apply put_top_shelf; auto.
    - eapply put_top_src; eauto.
  Qed.

  (** ** Reading a document *)

  Lemma read_doc s c a x : wf_schema s -> regular s c -> In a (at_top (sc_attrs s)) -> x <> VMissing ->
    (get_item c (arep a) = Ok x -> doc_holds c (arep a) x)
    /\ (doc_holds c (arep a) x -> get_item c (arep a) = Ok x).
  Proof.
    intros [_ Hat _ _] [Hc [Hmain Hext]] Hin Hm. rewrite Forall_forall in Hat. specialize (Hat a Hin) as [_ [Hs [Hok Hsch]]].
    specialize (Hext a Hin). destruct (arep a) as [sch n sub ext]. unfold doc_holds. cbn [r_ext r_schema r_attr r_sub] in *. subst sub.
    destruct c as [| | | | | | | | | |data l2o| | | | | |]; try discriminate. rewrite get_item_eq. cbn [r_ext r_schema r_attr r_sub].
    assert (Hplain : sget (lower sch) l2o = None ->
      (match sget (lower n) l2o with None => Ok VMissing | Some k => match sget k data with None => Raise KeyErr | Some x0 => get_sub x0 [] end end = Ok x
       <-> holds (VCont data l2o) n x)).
    { intros E. unfold holds. split.
      - destruct (sget (lower n) l2o) as [k|] eqn:E1; [|intros H; congruence].
        destruct (sget k data) as [x'|] eqn:E2; [|discriminate]. cbn [get_sub]. intros H; injection H as ->. exists data, l2o, k. auto.
      - intros [d [l2 [k [F [H1 H2]]]]]. injection F as <- <-. rewrite H1, H2. reflexivity. }
    destruct ext.
    - destruct (Hext eq_refl) as [[sub [Hsub Hk]]|[Hno1 Hno2]].
      + destruct Hsub as [d [l2 [k [F [H1 H2]]]]]. injection F as <- <-. rewrite H1, (mk_rep_plain n [] Hok). cbn [bind]. rewrite H2.
        assert (Hsub : holds (VCont data l2o) sch sub) by (exists data, l2o, k; auto).
        destruct sub as [| | | | | | | | | |d2 m2| | | | | |];
          try (split; [intros G; discriminate G | intros [s' [G1 [? [? [? [G2 _]]]]]]; pose proof (holds_fun _ _ _ _ Hsub G1) as G3; rewrite G2 in G3; discriminate G3]).
        pose proof (get_holds d2 m2 (mk_simple (plain n TString)) x) as G. cbn in G.
        assert (Hp : plain_rep (simple_name n)) by (split; [reflexivity|]; split; [reflexivity|]; split; [reflexivity | exact Hok]).
        specialize (G Hp Hk Hm). unfold arep in G. cbn [mk_simple info a_rep plain simple_name] in G. split.
        * intros Hg. exists (VCont d2 m2). split; [exact Hsub|]. apply G. exact Hg.
        * intros [s' [G1 G2]]. pose proof (holds_fun _ _ _ _ Hsub G1) as <-. apply G. exact G2.
      + assert (E : sget (lower sch) l2o = None).
        { destruct (sget (lower sch) l2o) as [k|] eqn:E; [|reflexivity]. exfalso. apply Hno1. exists k. exact E. }
        rewrite E.
        assert (E' : sget (lower n) l2o = None).
        { destruct (sget (lower n) l2o) as [k|] eqn:E'; [|reflexivity]. exfalso. apply Hno2. exists k. exact E'. }
        rewrite E'. split; [intros G; congruence|]. intros [s' [G1 _]]. exfalso. apply Hno1. eapply holds_has_key. exact G1.
    - subst sch. assert (E : sget (lower (sc_uri s)) l2o = None).
      { destruct (sget (lower (sc_uri s)) l2o) as [k|] eqn:E; [|reflexivity]. exfalso. apply Hmain. exists k. exact E. }
      rewrite E. specialize (Hplain E). split; apply Hplain.
  Qed.
End Env.
