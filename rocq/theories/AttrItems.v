(** Item-wise processing of multi-valued attributes: lemmas for C22-C24. *)
From Coq Require Import Sorting.Sorted.
From Verif Require Import PyBase BaseFacts PyNum Issues IssuesSpec IssuesFacts AttrRep AttrRepSpec AttrRepFacts Value ValueFacts
  Container ContainerSpec ContainerFacts ContainerRW Types TypesSpec Attr AttrSpec AttrFacts AttrHonest.

Section Env.
  Context {env : PyEnv}.

  Definition one_item (m : method) (a : attribute) (x : value) : res outcome :=
    match a with
    | MkAttr i None => one m i x
    | MkAttr i (Some (subs, _, _)) =>
        let! (y, iss) := one m i x in
        let! outs := gather m (mk_cont y) subs in
        Ok (put_all outs empty_cont, merge_all [] outs iss)
    end.

  Definition before_procs (m : method) (a : attribute) (xs : list value) : res (list value * issues) :=
    match a with
    | MkAttr i None => foldM (item_step m i) (enumerate xs) ([], no_issues)
    | MkAttr i (Some (subs, _, _)) =>
        let! (items, iss) := foldM (item_step m i) (enumerate xs) ([], no_issues) in
        foldM (complex_items m subs) (enumerate items) ([], iss)
    end.

  Definition final_procs (m : method) (a : attribute) : list proc :=
    match a with
    | MkAttr _ None => []
    | MkAttr _ (Some (_, cps, cds)) => match m with MParse => cps | MDump => cds end
    end.

  Lemma items_no_stop m i xs : forall k acc iss ys iss', report iss -> ~ stops iss [] ->
    foldM (item_step m i) (enum_from k xs) (acc, iss) = Ok (ys, iss') -> ~ stops iss' [].
  Proof.
    induction xs as [|x t IH]; intros k acc iss ys iss' Hr Hs H; cbn [enum_from foldM] in H.
    - injection H as <- <-. exact Hs.
    - apply bind_ok in H as [[acc2 iss2] [H1 H]]. cbn [item_step fst snd] in H1.
      apply bind_ok in H1 as [[x' iss1] [Ht H1]]. pose proof (type_report _ _ _ _ _ Ht) as Hr1.
      destruct (canon_step i x' (merge iss iss1 [LIdx k]) [LIdx k]) as [x'' iss''] eqn:Ec. injection H1 as <- <-.
      assert (Hr'' : report iss'').
      { replace iss'' with (snd (x'', iss'')) by reflexivity. rewrite <- Ec. apply canon_report. apply report_merge; assumption. }
      eapply IH; [exact Hr''| |exact H].
      assert (Hm : ~ stops (merge iss iss1 [LIdx k]) []).
      { rewrite stops_merge by (apply report_wf; assumption). intros [G|[l' [G _]]]; [contradiction | discriminate]. }
      unfold canon_step in Ec. destruct (is_canonical i x'); [injection Ec as _ <-; exact Hm|].
      destruct (a_validate i); injection Ec as _ <-; [|exact Hm]. rewrite stops_add. intros [G|[_ G]]; [contradiction | discriminate].
  Qed.

  Lemma process_multi m a xs : itemwise m a ->
    process a m (VList xs) =
    let! (ys, iss) := before_procs m a xs in
    if has_issues iss [] then Ok (VList ys, iss) else run_procs (final_procs m a) (VList ys) iss.
  Proof.
    destruct a as [i [[[subs cps] cds]|]]; intros [Hm [Hp Hc]]; cbn [info] in *.
    - rewrite process_complex, base_process_eq, Hm. cbn [is_list negb andb]. unfold base_core. rewrite Hm.
      assert (Hp' : procs_of m i = []) by (destruct m; exact Hp). rewrite Hp'. cbn [before_procs final_procs].
      destruct (foldM (item_step m i) (enumerate xs) ([], no_issues)) as [[items iss]|e] eqn:Ef; cbn [bind]; [|reflexivity].
      assert (Hns : ~ stops iss []).
      { eapply items_no_stop; [apply report_empty| |exact Ef]. intros []. }
      assert (Hcp : can_proceed iss [] = true).
      { destruct (can_proceed iss []) eqn:E; [reflexivity|]. apply can_proceed_root in E. contradiction. }
      replace (if has_issues iss [] then Ok (VList items, iss) else run_procs [] (VList items) iss)
        with (@Ok outcome (VList items, iss)) by (destruct (has_issues iss []); reflexivity).
      cbn [bind]. rewrite Hcp. cbn [negb orb]. unfold complex_part. cbn [iter_value bind]. rewrite bind_assoc.
      destruct (foldM (complex_items m subs) (enumerate items) ([], iss)) as [[ys iss2]|e]; reflexivity.
    - cbn [process]. rewrite base_process_eq, Hm. cbn [is_list negb andb]. unfold base_core. rewrite Hm.
      assert (Hp' : procs_of m i = []) by (destruct m; exact Hp). rewrite Hp'. cbn [before_procs final_procs].
      rewrite bind_assoc. destruct (foldM _ _ _) as [[items iss]|e]; reflexivity.
  Qed.

  Lemma gather_reports m a : sound_attr a -> forall c outs, gather m c (sub_attrs a) = Ok outs ->
    Forall (fun e => report (snd (snd e))) outs.
  Proof.
    intros Ha c. apply gather_report. destruct a as [i [[[subs cps] cds]|]]; cbn [sub_attrs]; [|constructor].
    inversion Ha as [|? ? ? ? _ _ _ _ _ _ Hs]; subst. rewrite Forall_forall in *. intros s Hin v w iss.
    apply process_report. auto.
  Qed.

  Lemma sound_plain i subs cps cds : sound_attr (MkAttr i (Some (subs, cps, cds))) -> Forall (fun s => plain_rep (arep s)) subs.
  Proof. intros H. inversion H; assumption. Qed.

  Lemma before_procs_spec m a xs : sound_attr a ->
    (forall ys iss, before_procs m a xs = Ok (ys, iss) ->
      exists outs, mapM (one_item m a) xs = Ok outs /\ ys = map fst outs /\ report iss
      /\ Forall (fun o => report (snd o)) outs /\ forall l, errs_at iss l = items_errs 0 outs l)
    /\ (forall outs, mapM (one_item m a) xs = Ok outs -> exists r, before_procs m a xs = Ok r).
  Proof.
    intros Ha. destruct a as [i [[[subs cps] cds]|]].
    - pose proof (sound_plain _ _ _ _ Ha) as Hpl. pose proof (gather_reports m _ Ha) as Hg. cbn [sub_attrs] in Hg.
      pose proof (items_closed m i xs 0 [] no_issues report_empty) as Hc.
      cbn [before_procs one_item]. unfold enumerate.
      destruct (mapM (one m i) xs) as [outs1|e] eqn:E1.
      2:{ rewrite Hc. split; [intros; discriminate|]. intros outs Ho. exfalso.
          assert (Hall : exists o1, mapM (one m i) xs = Ok o1).
          { apply mapM_total. intros x Hx. apply mapM_ok in Ho. apply In_nth_error in Hx as [k Hk].
            destruct (Forall2_nth_l _ _ _ Ho _ _ Hk) as [o [_ Ho']]. apply bind_ok in Ho' as [q [Hq _]]. exists q; exact Hq. }
          destruct Hall as [o1 Ho1]. congruence. }
      destruct Hc as [iss1 [Hf [Hr1 He1]]]. rewrite Hf. cbn [bind app].
      pose proof (complex_items_closed m subs Hpl Hg (map fst outs1) 0 [] iss1 Hr1) as Hc2.
      apply mapM_ok in E1.
      assert (Hrep1 : Forall (fun o : outcome => report (snd o)) outs1).
      { apply Forall_forall. intros [y j] Hin. apply In_nth_error in Hin as [k Hk].
        destruct (Forall2_nth_r _ _ _ E1 _ _ Hk) as [x [_ Hx]]. eapply one_report; exact Hx. }
      (* the second stage, written item by item *)
      set (second := fun c => let! outs := gather m (mk_cont c) subs in
                         Ok (put_all outs empty_cont, merge_all [] outs no_issues)) in *.
      split.
      + intros ys iss H. destruct (mapM second (map fst outs1)) as [outs2|e] eqn:E2; [|congruence].
        destruct Hc2 as [iss2 [Hf2 [Hr2 He2]]]. rewrite Hf2 in H. cbn [app] in H. injection H as <- <-.
        apply mapM_ok in E2.
        assert (Hmain : forall xs outs1 outs2, Forall2 (fun x y => one m i x = Ok y) xs outs1 ->
                  Forall (fun o : outcome => report (snd o)) outs1 ->
                  Forall2 (fun x y => second x = Ok y) (map fst outs1) outs2 ->
                  exists outs, Forall2 (fun x y => (let! (y0, j) := one m i x in let! go := gather m (mk_cont y0) subs in
                                             Ok (put_all go empty_cont, merge_all [] go j)) = Ok y) xs outs
                  /\ map fst outs2 = map fst outs /\ Forall (fun o => report (snd o)) outs
                  /\ forall k l, (forall j p, l = LIdx j :: p -> True) -> items_errs k outs l =
                       match l with
                       | LIdx j :: p => items_errs k outs1 l ++ items_errs k outs2 l
                       | _ => [] end).
        { clear - Hg. induction xs as [|x t IH]; intros outs1 outs2 H1 Hr H2.
          - inversion H1; subst. inversion H2; subst. exists []. repeat split; try constructor.
            intros k l _. destruct l as [|[s|j] p]; reflexivity.
          - inversion H1 as [|? [y j] ? ot Hx Ht]; subst. cbn [map fst] in H2. inversion H2 as [|? o2 ? ot2 Hy Ht2]; subst.
            inversion Hr as [|? ? Hrj Hrt]; subst. cbn [snd] in Hrj.
            destruct (IH _ _ Ht Hrt Ht2) as [outs [G1 [G2 [G3 G4]]]].
            unfold second in Hy. apply bind_ok in Hy as [go [Hgo Hy]]. injection Hy as <-.
            destruct (merge_all_errs [] go (Hg _ _ Hgo) j Hrj) as [M1 M2].
            destruct (merge_all_errs [] go (Hg _ _ Hgo) no_issues report_empty) as [M3 M4].
            exists ((put_all go empty_cont, merge_all [] go j) :: outs). split; [|split; [|split]].
            + constructor; [|exact G1]. rewrite Hx. cbn [bind]. rewrite Hgo. reflexivity.
            + cbn [map fst]. f_equal. exact G2.
            + constructor; [exact M1 | exact G3].
            + intros k l _. cbn [items_errs snd]. rewrite (G4 (S k) l (fun _ _ _ => I)).
              destruct l as [|[s|q] p]; [destruct k; reflexivity | reflexivity |].
              cbn [loc_strip]. destruct (locpart_dec (LIdx k) (LIdx q)) as [E|_]; [|reflexivity].
              injection E as <-. rewrite M2, M4. cbn [loc_strip].
              rewrite !items_errs_low by lia. rewrite !app_nil_r. reflexivity. }
        destruct (Hmain _ _ _ E1 Hrep1 E2) as [outs [G1 [G2 [G3 G4]]]].
        exists outs. split; [apply mapM_ok; exact G1|]. split; [exact G2|]. split; [exact Hr2|]. split; [exact G3|].
        intros l. rewrite He2, He1, (G4 0 l (fun _ _ _ => I)). cbn [errs_at no_issues app].
        destruct l as [|[s|q] p]; [| |reflexivity]; rewrite !items_errs_other by discriminate; reflexivity.
      + intros outs Ho. apply mapM_ok in Ho.
        assert (Ht : exists o2, mapM second (map fst outs1) = Ok o2).
        { apply mapM_total. intros c Hin. apply in_map_iff in Hin as [[y j] [<- Hin]]. apply In_nth_error in Hin as [k Hk].
          destruct (Forall2_nth_r _ _ _ E1 _ _ Hk) as [x [Hx Hone]].
          destruct (Forall2_nth_l _ _ _ Ho _ _ Hx) as [o [_ Ho']]. cbv beta in Ho', Hone. unfold outcome in *.
          apply bind_ok in Ho' as [[y' j'] [Hone' Ho']]. rewrite Hone in Hone'. injection Hone' as <- <-.
          apply bind_ok in Ho' as [go [Hgo _]]. unfold second. cbn [fst]. rewrite Hgo. eexists; reflexivity. }
        destruct Ht as [o2 Ho2]. rewrite Ho2 in Hc2. destruct Hc2 as [iss2 [Hf2 _]]. rewrite Hf2. eexists; reflexivity.
    - cbn [before_procs one_item]. pose proof (items_closed m i xs 0 [] no_issues report_empty) as Hc. unfold enumerate.
      change (mapM (one_item m (MkAttr i None)) xs) with (mapM (one m i) xs).
      destruct (mapM (one m i) xs) as [outs|e] eqn:E1.
      + destruct Hc as [iss' [Hf [Hr He]]]. rewrite Hf. split; [|intros; eexists; reflexivity].
        intros ys iss H. cbn [app] in H. injection H as <- <-. exists outs. split; [reflexivity|]. split; [reflexivity|].
        split; [exact Hr|]. split; [|exact He]. apply Forall_forall. intros [y j] Hin. apply In_nth_error in Hin as [k Hk].
        apply mapM_ok in E1. destruct (Forall2_nth_r _ _ _ E1 _ _ Hk) as [x [_ Hx]]. eapply one_report; exact Hx.
      + rewrite Hc. split; intros; discriminate.
  Qed.

  (** ** The check for a single primary item *)

  Lemma gather_names m c subs : distinct_names subs -> forall outs, gather m c subs = Ok outs ->
    NoDup (map (fun e => lower (fst e)) outs)
    /\ forall n, In n (map fst outs) -> exists s, In s subs /\ n = r_attr (arep s).
  Proof.
    induction subs as [|s t IH]; intros Hd outs H; cbn [gather] in H.
    - injection H as <-. split; [constructor | intros n []].
    - inversion Hd as [|? ? Hs Ht]; subst. apply bind_ok in H as [x [Hx H]].
      assert (G : (let! o := process s m x in let! rest := gather m c t in Ok ((r_attr (arep s), o) :: rest)) = Ok outs ->
        NoDup (map (fun e => lower (fst e)) outs)
        /\ forall n, In n (map fst outs) -> exists s0, In s0 (s :: t) /\ n = r_attr (arep s0)).
      { clear H. intros H. apply bind_ok in H as [o' [H1 H]]. apply bind_ok in H as [rest [H2 H]]. injection H as <-.
        destruct (IH Ht _ H2) as [G1 G2]. cbn [map fst]. split.
        - constructor; [|exact G1]. intros Hin. apply Hs. apply in_map_iff in Hin as [[n o] [E Hin]].
          destruct (G2 n) as [s' [Hs' ->]]; [apply in_map_iff; exists (n, o); split; [reflexivity | exact Hin]|].
          cbn [fst] in E. rewrite <- E. apply in_map_iff. exists s'. split; [reflexivity | exact Hs'].
        - intros n [<-|Hn]; [exists s; split; [left; reflexivity | reflexivity]|].
          destruct (G2 n Hn) as [s' [Hs' E]]. exists s'. split; [right; exact Hs' | exact E]. }
      destruct x; try exact (G H). destruct (IH Ht _ H) as [G1 G2]. split; [exact G1|].
      intros n Hn. destruct (G2 n Hn) as [s' [Hs' E]]. exists s'. split; [right; exact Hs' | exact E].
  Qed.

  Lemma put_all_closed outs : forall d l2o,
    NoDup (map fst l2o ++ map (fun e => lower (fst e)) outs) ->
    (forall k, In k (map fst d) -> In (lower k) (map fst l2o)) ->
    put_all outs (VCont d l2o) =
    VCont (d ++ map (fun e => (fst e, fst (snd e))) outs) (l2o ++ map (fun e => (lower (fst e), fst e)) outs).
  Proof.
    induction outs as [|[n [y j]] t IH]; intros d l2o Hn Hk; cbn [put_all fold_left map fst snd].
    - rewrite !app_nil_r. reflexivity.
    - cbn [map fst] in Hn.
      assert (H1 : ~ In (lower n) (map fst l2o)).
      { apply NoDup_remove_2 in Hn. intros H. apply Hn. apply in_or_app. left; exact H. }
      assert (H2 : ~ In n (map fst d)) by (intros H; apply H1; apply Hk; exact H).
      unfold set_plain. rewrite (sset_absent _ _ _ H1), (sset_absent _ _ _ H2).
      change (fold_left _ t ?c) with (put_all t c). rewrite IH.
      + rewrite <- !app_assoc. reflexivity.
      + rewrite map_app. cbn [map fst]. rewrite <- app_assoc. exact Hn.
      + intros k. rewrite !map_app, !in_app_iff. cbn [map fst In]. intros [H|[<-|[]]]; [left; apply Hk; exact H | right; left; reflexivity].
  Qed.

  (** An item as the loop over sub-attributes leaves it. *)
  Definition tidy (y : value) : Prop :=
    exists d, y = VCont d (map (fun e => (lower (fst e), fst e)) d) /\ NoDup (map (fun e => lower (fst e)) d)
    /\ Forall (fun e => fst e <> []) d.

  Lemma put_all_tidy m c subs outs : distinct_names subs -> Forall (fun s => plain_rep (arep s)) subs ->
    gather m c subs = Ok outs ->
    put_all outs empty_cont = VCont (map (fun e => (fst e, fst (snd e))) outs) (map (fun e => (lower (fst e), fst e)) outs)
    /\ tidy (put_all outs empty_cont).
  Proof.
    intros Hd Hp Hg. destruct (gather_names _ _ _ Hd _ Hg) as [H1 H2].
    unfold empty_cont. rewrite put_all_closed; [|exact H1 | intros k []]. cbn [app]. split; [reflexivity|].
    eexists; split; [|split].
    - f_equal. rewrite map_map. reflexivity.
    - rewrite map_map. exact H1.
    - apply Forall_forall. intros e Hin. apply in_map_iff in Hin as [[n o] [<- Hin]]. cbn [fst].
      destruct (H2 n) as [s [Hs ->]]; [apply in_map_iff; eexists; split; [|exact Hin]; reflexivity|].
      rewrite Forall_forall in Hp. destruct (Hp s Hs) as [_ [_ [_ Ha]]]. apply attr_ok_nonempty; exact Ha.
  Qed.

  Lemma sget_index d n : sget (lower n) (map (fun e : str * value => (lower (fst e), fst e)) d)
    = match find (fun e => str_eqb (lower (fst e)) (lower n)) d with Some e => Some (fst e) | None => None end.
  Proof.
    unfold sget. induction d as [|[k x] t IH]; cbn [map aget find fst]; [reflexivity|].
    destruct (str_eqb (lower k) (lower n)); [reflexivity | exact IH].
  Qed.

  Lemma tidy_get d n : NoDup (map (fun e : str * value => lower (fst e)) d) -> Forall (fun e => fst e <> []) d ->
    get_item (VCont d (map (fun e => (lower (fst e), fst e)) d)) (mkRep [] n [] false) =
    Ok (match find (fun e => str_eqb (lower (fst e)) (lower n)) d with Some e => snd e | None => VMissing end).
  Proof.
    intros Hn He. rewrite get_plain.
    - rewrite sget_index. destruct (find _ d) as [[k x]|] eqn:E; [|reflexivity]. cbn [fst snd].
      apply find_some in E as [Hin _].
      assert (Hk : NoDup (map fst d)).
      { clear - Hn. induction d as [|[k' y'] t IH]; cbn [map fst] in *; [constructor|]. inversion Hn as [|? ? H1 H2]; subst.
        constructor; [|apply IH; exact H2]. intros H. apply H1. apply in_map_iff in H as [e [E H]]. apply in_map_iff.
        exists e. split; [rewrite E; reflexivity | exact H]. }
      rewrite (sget_NoDup _ _ _ Hk Hin). reflexivity.
    - change (@nil ascii) with (lower []) at 1. rewrite sget_index. destruct (find _ d) as [[k x]|] eqn:E; [|reflexivity].
      exfalso. apply find_some in E as [Hin E]. apply str_eqb_eq in E. cbn [fst] in E. change (lower []) with (@nil ascii) in E.
      apply (proj1 (lower_nil _)) in E. rewrite Forall_forall in He. exact (He _ Hin E).
  Qed.

  Lemma tidy_marked y : tidy y ->
    exists v, get_item_str y ($"primary") = Ok v /\ (marked y <-> v = VBool true).
  Proof.
    intros [d [-> [Hn He]]]. unfold get_item_str.
    replace (to_rep ($"primary")) with (Ok (mkRep [] ($"primary") [] false)) by (vm_compute; reflexivity). cbn [bind].
    rewrite (tidy_get _ _ Hn He). eexists; split; [reflexivity|]. unfold marked, same_text. split.
    - intros [data [l2o [k [E [Hin Hk]]]]]. injection E as <- _.
      destruct (find (fun e => str_eqb (lower (fst e)) (lower ($"primary"))) d) as [[k' x']|] eqn:Ef.
      + apply find_some in Ef as [Hin' Ef]. apply str_eqb_eq in Ef. cbn [fst snd] in *.
        assert (E : (k', x') = (k, VBool true)).
        { clear - Hn Hin Hin' Ef Hk. induction d as [|[a b] t IH]; [contradiction|]. cbn [map fst] in Hn.
          inversion Hn as [|? ? H1 H2]; subst. destruct Hin as [E1|H3], Hin' as [E2|H4].
          - congruence.
          - exfalso. apply H1. injection E1 as -> ->. rewrite Hk, <- Ef. apply in_map_iff. exists (k', x'). split; [reflexivity | exact H4].
          - exfalso. apply H1. injection E2 as -> ->. rewrite Ef, <- Hk. apply in_map_iff. exists (k, VBool true). split; [reflexivity | exact H3].
          - exact (IH H2 H3 H4). }
        injection E as _ ->. reflexivity.
      + exfalso. apply (find_none _ _ Ef) in Hin. cbn [fst] in Hin. rewrite Hk, str_eqb_refl in Hin. discriminate.
    - intros E. destruct (find (fun e => str_eqb (lower (fst e)) (lower ($"primary"))) d) as [[k' x']|] eqn:Ef; [|discriminate].
      cbn [snd] in E. subst x'. apply find_some in Ef as [Hin' Ef]. apply str_eqb_eq in Ef.
      eexists _, _, k'. split; [reflexivity|]. split; [exact Hin' | exact Ef].
  Qed.

  Lemma primary_spec ys : Forall tidy ys -> forall i, exists ks, primary_entries i ys = Ok ks
    /\ (forall k, In k ks <-> exists j y, k = i + j /\ nth_error ys j = Some y /\ marked y) /\ StronglySorted lt ks.
  Proof.
    induction 1 as [|y t Hy Ht IH]; intros i; cbn [primary_entries].
    - exists []. split; [reflexivity|]. split; [|constructor]. intros k. split; [intros [] | intros [j [y [_ [H _]]]]; destruct j; discriminate].
    - destruct (tidy_marked _ Hy) as [v [-> Hm]]. cbn [bind]. destruct (IH (S i)) as [ks [-> [Hk Hs]]]. cbn [bind].
      assert (Hshift : forall k, (exists j y0, k = S i + j /\ nth_error t j = Some y0 /\ marked y0) <-> In k ks) by (intros; symmetry; apply Hk).
      assert (Hno : ~ marked y -> exists ks0, Ok ks = Ok ks0 /\ (forall k, In k ks0 <-> exists j y0, k = i + j /\ nth_error (y :: t) j = Some y0 /\ marked y0) /\ StronglySorted lt ks0).
      { intros Hn. exists ks. split; [reflexivity|]. split; [|exact Hs]. intros k. rewrite <- Hshift. split.
        - intros [j [y0 [E [H1 H2]]]]. exists (S j), y0. split; [lia|]. split; assumption.
        - intros [[|j] [y0 [E [H1 H2]]]]; [cbn in H1; injection H1 as <-; contradiction|]. exists j, y0. split; [lia|]. split; assumption. }
      destruct v; try (apply Hno; rewrite Hm; discriminate). destruct b; [|apply Hno; rewrite Hm; discriminate].
      exists (i :: ks). split; [reflexivity|]. split.
      + intros k. cbn [In]. rewrite <- Hshift. split.
        * intros [<-|[j [y0 [E [H1 H2]]]]]; [exists 0, y; split; [lia|]; split; [reflexivity | apply Hm; reflexivity]|].
          exists (S j), y0. split; [lia|]. split; assumption.
        * intros [[|j] [y0 [E [H1 H2]]]]; [left; lia|]. right. exists j, y0. split; [lia|]. split; assumption.
      + constructor; [exact Hs|]. apply Forall_forall. intros k Hin. apply Hk in Hin as [j [_ [E _]]]. lia.
  Qed.

  Lemma single_primary_spec ys : Forall tidy ys -> exists ks, 
    single_primary (VList ys) = Ok (VList ys, if Nat.ltb 1 (length ks) then add_issue no_issues (e_multiple_primary ks) true [] else no_issues)
    /\ (forall k, In k ks <-> exists y, nth_error ys k = Some y /\ marked y) /\ StronglySorted lt ks.
  Proof.
    intros H. destruct (primary_spec _ H 0) as [ks [E [H1 H2]]]. exists ks. unfold single_primary. cbn [iter_value bind].
    rewrite E. cbn [bind]. split; [reflexivity|]. split; [|exact H2]. intros k. rewrite H1. split.
    - intros [j [y [-> Hy]]]. exists y. exact Hy.
    - intros [y Hy]. exists k, y. split; [reflexivity | exact Hy].
  Qed.

  Lemma two_marked (ks : list nat) : StronglySorted lt ks ->
    (1 < length ks <-> exists j k, j <> k /\ In j ks /\ In k ks).
  Proof.
    intros Hs. split.
    - destruct ks as [|a [|b t]]; cbn [length]; intros H; try lia. inversion Hs as [|? ? _ Hf]; subst.
      inversion Hf; subst. exists a, b. split; [lia|]. split; [left | right; left]; reflexivity.
    - destruct ks as [|a [|b t]]; intros [j [k [Hne [Hj Hk]]]]; cbn [length].
      + contradiction.
      + destruct Hj as [<-|[]], Hk as [<-|[]]. contradiction.
      + lia.
  Qed.

  Lemma one_item_tidy m i subs cps cds x o : sound_attr (MkAttr i (Some (subs, cps, cds))) -> distinct_names subs ->
    one_item m (MkAttr i (Some (subs, cps, cds))) x = Ok o -> tidy (fst o).
  Proof.
    intros Ha Hd H. cbn [one_item] in H. apply bind_ok in H as [[y iss] [_ H]]. apply bind_ok in H as [outs [Hg H]].
    injection H as <-. cbn [fst]. eapply put_all_tidy; [exact Hd | eapply sound_plain; exact Ha | exact Hg].
  Qed.
End Env.
