(** Equality of containers. *)
From Verif Require Import PyBase BaseFacts PyNum NumFacts AttrRep AttrRepSpec AttrRepFacts Value Container ValueFacts
  ContainerSpec ContainerFacts ContainerRW.

Lemma number_num v : number v = num_of v.
Proof. destruct v; try reflexivity. destruct b; reflexivity. Qed.

Lemma same_number_iff a b : same_number a b <-> feqb a b = true.
Proof.
  rewrite feqb_iff. destruct a as [m e|x|], b as [m' e'|y|]; cbn [same_number].
  1: split.
  - intros [k [H1 [H2 H3]]]. rewrite (fcmp_fin _ _ _ _ k H1 H2), H3, Z.compare_refl. reflexivity.
  - destruct (exists_scale e e' e) as [k [H1 [H2 _]]]. rewrite (fcmp_fin _ _ _ _ k H1 H2).
    intros H; injection H as H. apply Z.compare_eq in H. exists k. auto.
  - destruct y; split; (intros H; (contradiction H || discriminate H)).
  - split; (intros H; (contradiction H || discriminate H)).
  - destruct x; split; (intros H; (contradiction H || discriminate H)).
  - destruct x, y; split; intros H; (reflexivity || discriminate H).
  - split; (intros H; (contradiction H || discriminate H)).
  - split; (intros H; (contradiction H || discriminate H)).
  - split; (intros H; (contradiction H || discriminate H)).
  - split; (intros H; (contradiction H || discriminate H)).
Qed.

Lemma scalar_eq f a b : scalar a -> scalar b ->
  exists r, py_eq (S f) a b = Ok r /\ (r = true <-> same_scalar a b).
Proof.
  intros Ha Hb. unfold same_scalar.
  destruct a as [| | |ba|za|fa|sa| | | | | | | | | |]; try contradiction;
  destruct b as [| | |bb|zb|fb|sb| | | | | | | | | |]; try contradiction;
    cbn [py_eq num_of]; (eexists; split; [reflexivity|]);
    try destruct ba; try destruct bb; cbn [number]; rewrite ?same_number_iff;
    first [reflexivity | apply str_eqb_eq | (split; intros H; (discriminate H || contradiction H)) | tauto].
Qed.

Lemma get_clean data l2o k : clean (VCont data l2o) -> attr_ok k ->
  get_item_str (VCont data l2o) k =
  match sget (lower k) l2o with None => Ok VMissing | Some k' =>
    match sget k' data with None => Raise KeyErr | Some x => Ok x end end.
Proof.
  intros Hc Hk. cbn [get_item_str]. unfold to_rep.
  assert (E : parse_rep k = Some (mkRep [] k [] false)).
  { apply parse_rep_iff. exists []. cbn [r_attr r_sub r_schema r_ext joined].
    split; [|split; reflexivity]. split; [constructor|]. split; [exact Hk|]. split; [left; reflexivity|].
    cbn. rewrite app_nil_r. reflexivity. }
  rewrite E. cbn [bind]. apply get_plain. inversion Hc as [? Hs| |? ? Hn Hnd Hix Hd]; subst; [contradiction|].
  destruct (sget [] l2o) as [k'|] eqn:E'; [|reflexivity]. apply Hix in E' as [Hin Hl].
  apply (proj1 (lower_nil _)) in Hl as ->. apply in_map_iff in Hin as [[q x] [Hq Hin]]. cbn in Hq; subst q.
  rewrite Forall_forall in Hn. specialize (Hn _ Hin). exfalso. apply (attr_ok_nonempty _ Hn). reflexivity.
Qed.

Lemma NoDup_lower (data : list (str * value)) : NoDup (map (fun e => lower (fst e)) data) -> NoDup (map fst data).
Proof. intros H. rewrite <- map_map with (f := fst) in H. apply NoDup_map_inv in H. exact H. Qed.

Lemma get_clean_In data l2o k k' y : clean (VCont data l2o) -> attr_ok k ->
  In (k', y) data -> same_text k k' -> get_item_str (VCont data l2o) k = Ok y.
Proof.
  intros Hc Hk Hin Hs. rewrite get_clean by assumption. inversion Hc as [? Hsc| |? ? Hn Hnd Hix Hd]; subst; [contradiction|].
  assert (E : sget (lower k) l2o = Some k').
  { apply Hix. split; [apply in_map_iff; exists (k', y); split; [reflexivity | exact Hin] | symmetry; exact Hs]. }
  rewrite E. rewrite (sget_NoDup k' y); [reflexivity | apply NoDup_lower; exact Hnd | exact Hin].
Qed.
Lemma get_clean_absent data l2o k : clean (VCont data l2o) -> attr_ok k ->
  (forall k' y, In (k', y) data -> ~ same_text k k') -> get_item_str (VCont data l2o) k = Ok VMissing.
Proof.
  intros Hc Hk Hno. rewrite get_clean by assumption. inversion Hc as [? Hsc| |? ? Hn Hnd Hix Hd]; subst; [contradiction|].
  destruct (sget (lower k) l2o) as [k'|] eqn:E; [|reflexivity]. apply Hix in E as [Hin Hl]. exfalso.
  apply in_map_iff in Hin as [[q x] [Hq Hin]]. cbn in Hq; subst q. apply (Hno _ _ Hin). symmetry; exact Hl.
Qed.

Lemma find_name (data : list (str * value)) k :
  (exists k' y, In (k', y) data /\ same_text k k') \/ (forall k' y, In (k', y) data -> ~ same_text k k').
Proof.
  induction data as [|[k' y] t IH].
  - right. intros k' y [].
  - destruct (str_eqb_spec (lower k) (lower k')) as [E|E].
    + left. exists k', y. split; [left; reflexivity | exact E].
    + destruct IH as [[k2 [y2 [H1 H2]]]|H].
      * left. exists k2, y2. split; [right; exact H1 | exact H2].
      * right. intros k2 y2 [H0|H0]; [injection H0 as <- <-; exact E | apply (H k2 y2 H0)].
Qed.

Lemma vsize_list_in l x : In x l -> vsize x < vsize (VList l).
Proof.
  intros H. cbn [vsize]. apply le_n_S. induction l as [|y t IH]; [contradiction|].
  destruct H as [->|H]; [|specialize (IH H)]; cbn; lia.
Qed.
Lemma vsize_cont_in data l2o k x : In (k, x) data -> vsize x < vsize (VCont data l2o).
Proof.
  intros H. cbn [vsize]. apply le_n_S. induction data as [|[q y] t IH]; [contradiction|].
  destruct H as [H|H]; [injection H as -> ->|specialize (IH H)]; cbn; lia.
Qed.
Lemma vsize_pos v : 0 < vsize v.
Proof. destruct v; cbn; lia. Qed.

Lemma covered_inv_cont d m d' m' : covered (VCont d m) (VCont d' m') ->
  forall k x, In (k, x) d -> exists k' y, In (k', y) d' /\ same_text k k' /\ covered y x.
Proof. intros H; inversion H; subst; [contradiction | assumption]. Qed.
Lemma covered_inv_list l m : covered (VList l) (VList m) -> Forall2 covered l m.
Proof. intros H; inversion H; subst; [contradiction | assumption]. Qed.

Definition decides (f : nat) (a b : value) : Prop := exists r, py_eq f a b = Ok r /\ (r = true <-> covered a b).

Lemma clean_list_inv l : clean (VList l) -> Forall clean l.
Proof. intros H; inversion H; subst; [contradiction | assumption]. Qed.
Lemma clean_in data l2o k x : clean (VCont data l2o) -> In (k, x) data -> attr_ok k /\ clean x.
Proof.
  intros H Hin; inversion H as [? Hs| |? ? Hn Hnd Hix Hd]; subst; [contradiction|].
  rewrite Forall_forall in Hn, Hd. split; [apply (Hn _ Hin) | apply (Hd _ Hin)].
Qed.
Lemma clean_unique data l2o k x k' x' : clean (VCont data l2o) ->
  In (k, x) data -> In (k', x') data -> same_text k k' -> k = k' /\ x = x'.
Proof.
  intros H Hin Hin' Hs. inversion H as [? Hsc| |? ? Hn Hnd Hix Hd]; subst; [contradiction|]. clear - Hnd Hin Hin' Hs.
  induction data as [|[q y] t IH]; [contradiction|]. cbn [map fst] in Hnd. inversion Hnd as [|? ? Hni Hnd']; subst.
  unfold same_text in Hs. destruct Hin as [E|Hin], Hin' as [E'|Hin'].
  - rewrite E in E'. injection E' as <- <-. split; reflexivity.
  - injection E as -> ->. exfalso. apply Hni. rewrite Hs. apply in_map_iff. exists (k', x'). split; [reflexivity | exact Hin'].
  - injection E' as -> ->. exfalso. apply Hni. rewrite <- Hs. apply in_map_iff. exists (k, x). split; [reflexivity | exact Hin].
  - apply IH; assumption.
Qed.

Lemma py_eq_missing f x : clean x -> py_eq (S f) VMissing x = Ok false.
Proof. intros H. destruct x; try reflexivity. exfalso; inversion H; subst; contradiction. Qed.

Lemma py_eq_decides : forall f a b, vsize a + vsize b < f -> clean a -> clean b -> decides f a b.
Proof.
  induction f as [|f IH]; intros a b Hsz Ha Hb; [lia|].
  assert (Hscal : forall v, scalar v -> match v with VList _ | VCont _ _ => False | _ => True end)
    by (intros []; cbn; tauto).
  pose proof Ha as Ha0. pose proof Hb as Hb0.
  inversion Ha as [a' Hsa|l Hl|data l2o Hn Hnd Hix Hd]; subst.
  - inversion Hb as [b' Hsb|l' Hl'|data' l2o' Hn' Hnd' Hix' Hd']; subst.
    + destruct (scalar_eq f a b Hsa Hsb) as [r [E Hr]]. exists r. split; [exact E|]. rewrite Hr. split.
      * intros H. apply cv_scalar; assumption.
      * intros H. inversion H; subst; try assumption; contradiction.
    + exists false. split; [destruct a; try reflexivity; contradiction|]. split; [discriminate|].
      intros H; inversion H; subst; contradiction.
    + exists false. split; [destruct a; try reflexivity; contradiction|]. split; [discriminate|].
      intros H; inversion H; subst; contradiction.
  - inversion Hb as [b' Hsb|l' Hl'|data' l2o' Hn' Hnd' Hix' Hd']; subst.
    + exists false. split; [destruct b; try reflexivity; contradiction|]. split; [discriminate|].
      intros H; inversion H; subst; contradiction.
    + assert (G : forall l l', Forall clean l -> Forall clean l' -> (forall x y, In x l -> In y l' -> vsize x + vsize y < f) ->
         exists r, (fix go (l m : list value) : res bool :=
             match l, m with
             | [], [] => Ok true
             | x :: l', y :: m' => let! e := py_eq f x y in if e then go l' m' else Ok false
             | _, _ => Ok false
             end) l l' = Ok r /\ (r = true <-> Forall2 covered l l')).
      { clear - IH. induction l as [|x t IHl]; intros [|y t'] H1 H2 H3.
        - exists true. split; [reflexivity|]. split; [constructor | reflexivity].
        - exists false. split; [reflexivity|]. split; [discriminate | intros H; inversion H].
        - exists false. split; [reflexivity|]. split; [discriminate | intros H; inversion H].
        - inversion H1; subst. inversion H2; subst.
          destruct (IH x y) as [r [E Hr]]; [apply H3; left; reflexivity | assumption | assumption|].
          rewrite E. cbn [bind]. destruct r.
          + destruct (IHl t') as [r [E' Hr']]; try assumption; [intros; apply H3; right; assumption|].
            exists r. split; [exact E'|]. rewrite Hr'. split.
            * intros. constructor; [apply Hr; reflexivity | assumption].
            * intros H; inversion H; subst; assumption.
          + exists false. split; [reflexivity|]. split; [discriminate|]. intros H; inversion H; subst.
            apply Hr; assumption. }
      destruct (G l l' Hl Hl') as [r [E Hr]].
      { intros x y Hx Hy. apply vsize_list_in in Hx. apply vsize_list_in in Hy. lia. }
      exists r. split; [exact E|]. rewrite Hr. split; [apply cv_list | apply covered_inv_list].
    + exists false. split; [reflexivity|]. split; [discriminate|]. intros H; inversion H; subst; contradiction.
  - inversion Hb as [b' Hsb|l' Hl'|data' l2o' Hn' Hnd' Hix' Hd']; subst.
    + exists false. split; [destruct b; try reflexivity; contradiction|]. split; [discriminate|].
      intros H; inversion H; subst; contradiction.
    + exists false. split; [reflexivity|]. split; [discriminate|]. intros H; inversion H; subst; contradiction.
    + assert (G : forall d, (forall k x, In (k, x) d -> In (k, x) data) ->
        exists r, (fix go (d : list (str * value)) : res bool :=
           match d with
           | [] => Ok true
           | (k, x) :: t =>
               let! y := get_item_str (VCont data' l2o') k in
               let! e := py_eq f y x in
               if e then go t else Ok false
           end) d = Ok r
         /\ (r = true <-> (forall k x, In (k, x) d -> exists k' y, In (k', y) data' /\ same_text k k' /\ covered y x))).
      { induction d as [|[k x] t IHd]; intros Hsub.
        - exists true. split; [reflexivity|]. split; [intros _ k x [] | reflexivity].
        - assert (Hin : In (k, x) data) by (apply Hsub; left; reflexivity).
          destruct (clean_in _ _ _ _ Ha0 Hin) as [Hk Hx].
          destruct IHd as [r [E Hr]]; [intros; apply Hsub; right; assumption|].
          destruct (find_name data' k) as [[k' [y [Hy Hs]]]|Hno].
          + rewrite (get_clean_In data' l2o' k k' y) by assumption. cbn [bind].
            destruct (IH y x) as [r1 [E1 Hr1]].
            { apply (vsize_cont_in _ l2o) in Hin. apply (vsize_cont_in _ l2o') in Hy. lia. }
            { apply (clean_in _ _ _ _ Hb0 Hy). } { exact Hx. }
            rewrite E1. cbn [bind]. destruct r1.
            * exists r. split; [exact E|]. rewrite Hr. split.
              -- intros H k0 x0 [H0|H0]; [injection H0 as <- <-|apply (H _ _ H0)].
                 exists k', y. split; [exact Hy|]. split; [exact Hs | apply Hr1; reflexivity].
              -- intros H k0 x0 H0. apply H. right; exact H0.
            * exists false. split; [reflexivity|]. split; [discriminate|]. intros H.
              destruct (H k x (or_introl eq_refl)) as [k2 [y2 [Hy2 [Hs2 Hc]]]].
              assert (Hss : same_text k' k2) by (unfold same_text in *; congruence).
              destruct (clean_unique _ _ _ _ _ _ Hb0 Hy Hy2 Hss) as [<- <-]. apply Hr1; exact Hc.
          + rewrite (get_clean_absent data' l2o' k) by assumption. cbn [bind].
            destruct f as [|f']; [pose proof (vsize_pos (VCont data l2o)); cbn [vsize] in Hsz; lia|].
            rewrite (py_eq_missing f' x Hx). cbn [bind].
            exists false. split; [reflexivity|]. split; [discriminate|]. intros H.
            destruct (H k x (or_introl eq_refl)) as [k2 [y2 [Hy2 [Hs2 Hc]]]]. exfalso. apply (Hno _ _ Hy2 Hs2). }
      destruct (G data (fun _ _ H => H)) as [r [E Hr]]. exists r. split; [exact E|]. rewrite Hr. split.
      * intros H. apply cv_cont. exact H.
      * apply covered_inv_cont.
Qed.

Lemma same_scalar_sym a b : same_scalar a b -> same_scalar b a.
Proof.
  unfold same_scalar.
  destruct a as [| | |ba|za|fa|sa| | | | | | | | | |]; cbn [number]; try contradiction;
  destruct b as [| | |bb|zb|fb|sb| | | | | | | | | |]; try destruct ba; try destruct bb; cbn [number]; try contradiction;
    rewrite ?same_number_iff; intros H; first [exact H | symmetry; exact H | rewrite feqb_sym; exact H].
Qed.

Lemma doc_eq_covered : forall n a b, vsize a + vsize b < n -> clean a -> clean b ->
  (covered a b /\ covered b a <-> doc_eq a b).
Proof.
  induction n as [|n IH]; intros a b Hsz Ha Hb; [lia|]. split.
  - intros [H1 H2]. inversion H1 as [? ? Hsa Hsb Hs|l m Hf|d m d' m' Hc]; subst.
    + apply de_scalar; assumption.
    + apply de_list. apply covered_inv_list in H2. apply clean_list_inv in Ha. apply clean_list_inv in Hb.
      assert (Hs : forall x y, In x l -> In y m -> vsize x + vsize y < n).
      { intros x y Hx Hy. apply vsize_list_in in Hx. apply vsize_list_in in Hy. lia. }
      clear Hsz H1. revert m Hf H2 Hb Hs. induction l as [|x t IHl]; intros m Hf H2 Hb Hs.
      * inversion Hf; subst. constructor.
      * inversion Hf as [|? y ? t' F1 F2]; subst. inversion H2 as [|? ? ? ? G1 G2]; subst.
        inversion Ha; subst. inversion Hb; subst. constructor.
        -- apply IH; [apply Hs; left; reflexivity | assumption | assumption | split; assumption].
        -- apply IHl; try assumption. intros; apply Hs; right; assumption.
    + pose proof (covered_inv_cont _ _ _ _ H2) as Hc2. apply de_cont.
      * intros k x Hin. destruct (Hc k x Hin) as [k' [y [Hy [Hs Hcy]]]]. exists k', y.
        split; [exact Hy|]. split; [exact Hs|].
        destruct (Hc2 k' y Hy) as [k2 [x2 [Hx2 [Hs2 Hcx]]]].
        assert (Hss : same_text k k2) by (unfold same_text in *; congruence).
        destruct (clean_unique _ _ _ _ _ _ Ha Hin Hx2 Hss) as [<- <-].
        apply IH; [|apply (clean_in _ _ _ _ Ha Hin)|apply (clean_in _ _ _ _ Hb Hy)|split; assumption].
        apply (vsize_cont_in _ m) in Hin. apply (vsize_cont_in _ m') in Hy. lia.
      * intros k' y Hy. destruct (Hc2 k' y Hy) as [k [x [Hin [Hs Hcx]]]]. exists k, x.
        split; [exact Hin|]. split; [symmetry; exact Hs|].
        destruct (Hc k x Hin) as [k2 [y2 [Hy2 [Hs2 Hcy]]]].
        assert (Hss : same_text k' k2) by (unfold same_text in *; congruence).
        destruct (clean_unique _ _ _ _ _ _ Hb Hy Hy2 Hss) as [<- <-].
        apply IH; [|apply (clean_in _ _ _ _ Ha Hin)|apply (clean_in _ _ _ _ Hb Hy)|split; assumption].
        apply (vsize_cont_in _ m) in Hin. apply (vsize_cont_in _ m') in Hy. lia.
  - intros H. inversion H as [? ? Hsa Hsb Hs|l m Hf|d m d' m' Hc1 Hc2]; subst.
    + split; apply cv_scalar; try assumption. apply same_scalar_sym; exact Hs.
    + apply clean_list_inv in Ha. apply clean_list_inv in Hb.
      assert (Hs : forall x y, In x l -> In y m -> vsize x + vsize y < n).
      { intros x y Hx Hy. apply vsize_list_in in Hx. apply vsize_list_in in Hy. lia. }
      assert (G : Forall2 covered l m /\ Forall2 covered m l).
      { clear Hsz H. revert m Hf Hb Hs. induction l as [|x t IHl]; intros m Hf Hb Hs.
        - inversion Hf; subst. split; constructor.
        - inversion Hf as [|? y ? t' F1 F2]; subst. inversion Ha; subst. inversion Hb; subst.
          destruct (IHl H2 t') as [G1 G2]; try assumption; [intros; apply Hs; right; assumption|].
          destruct (proj2 (IH x y (Hs x y (or_introl eq_refl) (or_introl eq_refl)) H1 H3) F1) as [G3 G4].
          split; constructor; assumption. }
      destruct G as [G1 G2]. split; apply cv_list; assumption.
    + assert (Hpair : forall k x k' y, In (k, x) d -> In (k', y) d' -> doc_eq x y -> covered x y /\ covered y x).
      { intros k x k' y Hin Hy Hde. apply IH; [|apply (clean_in _ _ _ _ Ha Hin)|apply (clean_in _ _ _ _ Hb Hy)|exact Hde].
        apply (vsize_cont_in _ m) in Hin. apply (vsize_cont_in _ m') in Hy. lia. }
      split; apply cv_cont.
      * intros k x Hin. destruct (Hc1 k x Hin) as [k' [y [Hy [Hs Hde]]]]. exists k', y.
        split; [exact Hy|]. split; [exact Hs|]. apply (Hpair _ _ _ _ Hin Hy Hde).
      * intros k' y Hy. destruct (Hc2 k' y Hy) as [k [x [Hin [Hs Hde]]]]. exists k, x.
        split; [exact Hin|]. split; [symmetry; exact Hs|]. apply (Hpair _ _ _ _ Hin Hy Hde).
Qed.

Lemma covered_refl : forall n a, vsize a < n -> clean a -> covered a a.
Proof.
  induction n as [|n IH]; intros a Hsz Ha; [lia|].
  inversion Ha as [? Hs|l Hl|d m Hn Hnd Hix Hd]; subst.
  - apply cv_scalar; try assumption. unfold same_scalar.
    destruct a; try contradiction; try reflexivity; cbn [number];
      try (destruct b); apply same_number_iff; apply feqb_refl; cbn in Hs; try discriminate; assumption.
  - apply cv_list. assert (Hs : forall x, In x l -> vsize x < n) by (intros x Hx; apply vsize_list_in in Hx; lia).
    clear Hsz Ha. induction Hl as [|x t Hx Ht IHl]; constructor.
    + apply IH; [apply Hs; left; reflexivity | exact Hx].
    + apply IHl. intros; apply Hs; right; assumption.
  - apply cv_cont. intros k x Hin. exists k, x. split; [exact Hin|]. split; [reflexivity|].
    apply IH; [apply (vsize_cont_in _ m) in Hin; lia | apply (clean_in _ _ _ _ Ha Hin)].
Qed.
