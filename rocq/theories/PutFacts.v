(** Lemmas about stripping read-only attributes from a request's body. *)
From Verif Require Import PyBase BaseFacts PyNum Issues IssuesSpec IssuesFacts AttrRep AttrRepSpec AttrRepFacts Value ValueFacts
  Container ContainerSpec ContainerFacts ContainerRW Types TypesSpec Attr Schema AttrSpec AttrFacts AttrHonest AttrItems PropAttr
  SchemaSpec SchemaFacts SchemaBuild PropSchema Presence Requests PatchFacts RequestSpec RequestFacts BodyFacts.

(** ** Values as the parser leaves them *)

(** A container with an orderly index. *)
Definition leafy (c : value) : Prop :=
  exists d l, c = VCont d l /\ idx l /\ NoDup (map fst l) /\ sget [] l = None.
(** Containers inside a value, one level down, are orderly. *)
Definition shaped (x : value) : Prop :=
  match x with
  | VCont _ _ => leafy x
  | VList l => Forall (fun y => is_cont y = true -> leafy y) l
  | _ => True
  end.
(** An orderly container of such values. *)
Definition booky (c : value) : Prop :=
  exists d l, c = VCont d l /\ idx l /\ NoDup (map fst l) /\ sget [] l = None
  /\ forall lk k x, sget lk l = Some k -> sget k d = Some x -> shaped x.

Lemma tidy_leafy y : tidy y -> leafy y.
Proof.
  intros [d [-> [H1 H2]]]. eexists _, _. split; [reflexivity|]. split; [|split].
  - intros lk k H. clear H1 H2. unfold sget in H. induction d as [|[n v] t IH]; cbn [map fst aget] in H; [discriminate|].
    destruct (str_eqb (lower n) lk) eqn:E; [|exact (IH H)]. injection H as <-. apply str_eqb_eq. exact E.
  - rewrite map_map. exact H1.
  - clear H1. unfold sget. induction H2 as [|[n v] t H Ht IH]; cbn [map fst aget] in *; [reflexivity|].
    destruct n as [|c n]; [congruence|]. exact IH.
Qed.

Lemma idx_sdel k l : NoDup (map fst l) -> idx l -> idx (sdel k l).
Proof.
  intros Hn H lk k' G. destruct (str_dec lk k) as [->|E].
  - rewrite sget_sdel_same in G by exact Hn. discriminate.
  - rewrite sget_sdel_other in G by exact E. exact (H _ _ G).
Qed.
Lemma NoDup_sdel {V} k (d : list (str * V)) : NoDup (map fst d) -> NoDup (map fst (sdel k d)).
Proof.
  unfold sdel. induction d as [|[a b] t IH]; cbn [map adel fst]; intros H; [constructor|]. inversion H as [|? ? H1 H2]; subst.
  destruct (str_eqb a k); [exact H2|]. cbn [map fst]. constructor; [|exact (IH H2)]. intros G. apply H1.
  clear - G. induction t as [|[c e] t IH]; cbn [adel map fst] in *; [exact G|].
  destruct (str_eqb c k); [right; exact G|]. destruct G as [G|G]; [left; exact G | right; exact (IH G)].
Qed.

(** A read that succeeds and finds nothing. *)
Definition reads_nothing (sub : str) (r : res value) : Prop := exists y, r = Ok y /\ nothing y /\ (sub = [] -> y = VMissing).
Lemma missing_nothing sub : reads_nothing sub (Ok VMissing).
Proof. exists VMissing. split; [reflexivity|]. split; [left; reflexivity | reflexivity]. Qed.

(** ** Deleting inside one container *)

Definition leaf (n : str) : attr_rep := mkRep [] n [] false.

Lemma leaf_get d l n : sget [] l = None ->
  get_item (VCont d l) (leaf n) =
  match sget (lower n) l with None => Ok VMissing | Some k => match sget k d with None => Raise KeyErr | Some x => Ok x end end.
Proof. intros H. rewrite get_item_eq. cbn [leaf r_schema r_attr r_sub lower map]. rewrite H. reflexivity. Qed.

Lemma leaf_del y n y' : leafy y -> del_item y (leaf n) = Ok y' ->
  leafy y' /\ get_item y' (leaf n) = Ok VMissing
  /\ forall n2, lower n2 <> lower n -> get_item y' (leaf n2) = get_item y (leaf n2).
Proof.
  intros [d [l [-> [Hi [Hn He]]]]] H. rewrite del_item_eq in H. cbn [leaf r_schema r_attr r_sub] in H. change (lower []) with (@nil ascii) in H.
  rewrite He in H. destruct (sget (lower n) l) as [k|] eqn:Ek.
  - destruct (sget k d) eqn:Ed; [|discriminate]. injection H as <-.
    assert (He' : sget [] (sdel (lower n) l) = None).
    { destruct (str_dec [] (lower n)) as [E|E]; [rewrite <- E; apply sget_sdel_same; exact Hn|].
      rewrite sget_sdel_other by exact E. exact He. }
    split; [|split].
    + eexists _, _. split; [reflexivity|]. split; [apply idx_sdel; assumption|]. split; [apply NoDup_sdel; exact Hn | exact He'].
    + rewrite leaf_get by exact He'. rewrite sget_sdel_same by exact Hn. reflexivity.
    + intros n2 Hne. rewrite !leaf_get by assumption. rewrite sget_sdel_other by exact Hne.
      destruct (sget (lower n2) l) as [k2|] eqn:E2; [|reflexivity]. apply Hi in Ek. apply Hi in E2.
      rewrite sget_sdel_other by congruence. reflexivity.
  - injection H as <-. split; [|split; [|reflexivity]].
    + eexists _, _. split; [reflexivity|]. auto.
    + rewrite leaf_get by exact He. rewrite Ek. reflexivity.
Qed.

Lemma mk_leaf n : attr_ok n -> mk_rep [] n [] false = Ok (leaf n).
Proof. intros H. apply mk_rep_plain. exact H. Qed.

Lemma get_sub_eq x n : attr_ok n ->
  get_sub x n = match x with
                | VCont _ _ => get_item x (leaf n)
                | VList l => let! vs := mapM (fun y => get_item y (leaf n)) l in Ok (VList vs)
                | _ => Ok VMissing
                end.
Proof.
  intros H. unfold get_sub. pose proof (attr_ok_nonempty _ H) as Hne. destruct n as [|c n]; [congruence|].
  rewrite mk_leaf by exact H. reflexivity.
Qed.
Lemma del_sub_eq x n : attr_ok n ->
  del_sub x n = match x with
                | VCont _ _ => del_item x (leaf n)
                | VList l => let! vs := mapM (fun y => del_item y (leaf n)) l in Ok (VList vs)
                | _ => Ok x
                end.
Proof. intros H. unfold del_sub. rewrite mk_leaf by exact H. reflexivity. Qed.

Lemma list_del n l : Forall (fun y => is_cont y = true -> leafy y) l -> forall l', mapM (fun y => del_item y (leaf n)) l = Ok l' ->
  Forall (fun y => is_cont y = true -> leafy y) l'
  /\ mapM (fun y => get_item y (leaf n)) l' = Ok (repeat VMissing (length l'))
  /\ (forall n2, lower n2 <> lower n -> mapM (fun y => get_item y (leaf n2)) l' = mapM (fun y => get_item y (leaf n2)) l)
  /\ (l = [] <-> l' = []) /\ Forall (fun y => is_cont y = true) l.
Proof.
  induction 1 as [|y t Hy Ht IH]; intros l' H; cbn [mapM] in H.
  - injection H as <-. repeat split; auto.
  - apply bind_ok in H as [z [Hz H]]. apply bind_ok in H as [zs [Hzs H]]. injection H as <-.
    assert (Hc : is_cont y = true) by (destruct (is_cont y) eqn:E; [reflexivity|]; rewrite del_item_notcont in Hz by exact E; discriminate).
    destruct (leaf_del _ _ _ (Hy Hc) Hz) as [L1 [L2 L3]]. destruct (IH _ Hzs) as [I1 [I2 [I3 [I4 I5]]]]. split; [|split; [|split; [|split]]].
    + constructor; [intros _; exact L1 | exact I1].
    + cbn [mapM length repeat]. rewrite L2. cbn [bind]. rewrite I2. reflexivity.
    + intros n2 Hne. cbn [mapM]. rewrite (L3 _ Hne), (I3 _ Hne). reflexivity.
    + split; discriminate.
    + constructor; assumption.
Qed.

Lemma sub_del x n x' : shaped x -> attr_ok n -> del_sub x n = Ok x' ->
  shaped x' /\ reads_nothing n (get_sub x' n)
  /\ (forall n2, attr_ok n2 -> lower n2 <> lower n -> get_sub x' n2 = get_sub x n2)
  /\ (nothing x -> nothing x') /\ (x = VMissing -> x' = VMissing).
Proof.
  intros Hx Hn H. rewrite del_sub_eq in H by exact Hn.
  assert (Hdef : Ok x = Ok x' -> get_sub x n = Ok VMissing -> shaped x' /\ reads_nothing n (get_sub x' n)
    /\ (forall n2, attr_ok n2 -> lower n2 <> lower n -> get_sub x' n2 = get_sub x n2) /\ (nothing x -> nothing x') /\ (x = VMissing -> x' = VMissing)).
  { intros E G. injection E as <-. split; [exact Hx|]. split; [rewrite G; apply missing_nothing|]. auto. }
  destruct x; try (apply Hdef; [exact H | rewrite get_sub_eq by exact Hn; reflexivity]).
  - (* a list *)
    apply bind_ok in H as [l' [Hl H]]. injection H as <-. destruct (list_del _ _ Hx _ Hl) as [I1 [I2 [I3 [I4 I5]]]].
    split; [exact I1|]. split; [|split].
    + rewrite get_sub_eq by exact Hn. rewrite I2. cbn [bind]. eexists. split; [reflexivity|]. split; [right; eexists; reflexivity|].
      intros E. exfalso. exact (attr_ok_nonempty _ Hn E).
    + intros n2 Hn2 Hne. rewrite !get_sub_eq by exact Hn2. rewrite (I3 _ Hne). reflexivity.
    + split; [|discriminate]. intros [E|[k E]]; [discriminate|]. injection E as ->. destruct k as [|k].
      * destruct I4 as [I4 _]. rewrite (I4 eq_refl). right. exists 0. reflexivity.
      * inversion I5. discriminate.
  - (* a container *)
    destruct (leaf_del _ _ _ Hx H) as [L1 [L2 L3]]. destruct (del_is_cont _ _ _ _ H) as [d [m ->]].
    split; [exact L1|]. split; [|split].
    + rewrite get_sub_eq by exact Hn. rewrite L2. apply missing_nothing.
    + intros n2 Hn2 Hne. rewrite !get_sub_eq by exact Hn2. apply L3. exact Hne.
    + split; [|discriminate]. intros [E|[k E]]; discriminate.
Qed.
Lemma get_sub_case x n n2 : attr_ok n -> attr_ok n2 -> lower n = lower n2 -> get_sub x n = get_sub x n2.
Proof.
  intros H1 H2 E. rewrite !get_sub_eq by assumption.
  assert (G : forall y, get_item y (leaf n) = get_item y (leaf n2)).
  { intros y. apply get_case; [|split; [exact H1 | left; reflexivity] | split; [exact H2 | left; reflexivity]].
    split; [reflexivity|]. split; [exact E | reflexivity]. }
  destruct x; try reflexivity; [|apply G]. f_equal. induction l as [|y t IH]; cbn [mapM]; [reflexivity|]. rewrite G, IH. reflexivity.
Qed.

(** ** Reading and deleting below the routing by URI *)

Definition pget (d : list (str * value)) (l : list (str * str)) (n sub : str) : res value :=
  match sget (lower n) l with
  | None => Ok VMissing
  | Some k => match sget k d with None => Raise KeyErr | Some x => get_sub x sub end
  end.

Lemma plain_del d l r v' : idx l -> NoDup (map fst l) -> rep_ok r ->
  (forall k x, sget (lower (r_attr r)) l = Some k -> sget k d = Some x -> shaped x) ->
  sget (lower (r_schema r)) l = None -> del_item (VCont d l) r = Ok v' ->
  exists d' l', v' = VCont d' l' /\ idx l' /\ NoDup (map fst l')
  /\ (forall lk, lk <> lower (r_attr r) -> sget lk l' = sget lk l)
  /\ (forall k, lower k <> lower (r_attr r) -> sget k d' = sget k d)
  /\ (forall k x, sget (lower (r_attr r)) l' = Some k -> sget k d' = Some x -> shaped x)
  /\ (sget (lower (r_attr r)) l = None -> sget (lower (r_attr r)) l' = None)
  /\ reads_nothing (r_sub r) (pget d' l' (r_attr r) (r_sub r))
  /\ (forall n2 s2, s2 = [] \/ attr_ok s2 -> reads_nothing s2 (pget d l n2 s2) -> reads_nothing s2 (pget d' l' n2 s2))
  /\ (forall n2 s2, s2 = [] \/ attr_ok s2 -> ~ overlap r (mkRep [] n2 s2 false) -> pget d' l' n2 s2 = pget d l n2 s2).
Proof.
  intros Hi Hn [Ha Hs] Hsh Hsch H. set (n := r_attr r) in *. rewrite del_item_eq, Hsch in H. fold n in H.
  destruct (sget (lower n) l) as [k|] eqn:Ek.
  2:{ injection H as <-. exists d, l. split; [reflexivity|]. split; [exact Hi|]. split; [exact Hn|]. split; [auto|]. split; [auto|].
      split; [intros k x E; congruence|]. split; [auto|].
      split; [unfold pget; rewrite Ek; apply missing_nothing|]. auto. }
  pose proof (Hi _ _ Ek) as Hk.
  assert (Hother : forall d' l', (forall lk, lk <> lower n -> sget lk l' = sget lk l) -> (forall k, lower k <> lower n -> sget k d' = sget k d) ->
            forall n2 s2, lower n2 <> lower n -> pget d' l' n2 s2 = pget d l n2 s2).
  { intros d' l' F1 F2 n2 s2 Hne. unfold pget. rewrite (F1 _ Hne). destruct (sget (lower n2) l) as [k2|] eqn:E2; [|reflexivity].
    rewrite F2; [reflexivity|]. apply Hi in E2. congruence. }
  destruct (r_sub r) as [|c s] eqn:Es.
  - destruct (sget k d) as [x|] eqn:Ex; [|discriminate]. injection H as <-.
    assert (F1 : forall lk, lk <> lower n -> sget lk (sdel (lower n) l) = sget lk l) by (intros lk G; apply sget_sdel_other; exact G).
    assert (F2 : forall k', lower k' <> lower n -> sget k' (sdel k d) = sget k' d) by (intros k' G; apply sget_sdel_other; congruence).
    assert (F3 : sget (lower n) (sdel (lower n) l) = None) by (apply sget_sdel_same; exact Hn).
    exists (sdel k d), (sdel (lower n) l). split; [reflexivity|]. split; [apply idx_sdel; assumption|]. split; [apply NoDup_sdel; exact Hn|].
    split; [exact F1|]. split; [exact F2|]. split; [intros k' x' E; congruence|]. split; [auto|].
    split; [unfold pget; rewrite F3; apply missing_nothing|].
    split.
    + intros n2 s2 _ G. destruct (str_dec (lower n2) (lower n)) as [E|E]; [unfold pget; rewrite E, F3; apply missing_nothing|].
      rewrite (Hother _ _ F1 F2 _ _ E). exact G.
    + intros n2 s2 _ G. apply Hother; [exact F1 | exact F2|]. intros E. apply G. split; [cbn [r_attr]; fold n; congruence | left; exact Es].
  - destruct Hs as [Hs|Hs]; [discriminate|]. apply bind_ok in H as [d' [Hu H]]. injection H as <-.
    destruct (aupd_get _ _ _ _ Hu) as [x [x' [H1 [H2 [H3 H4]]]]]. rewrite <- Es in *. clear Es.
    destruct (sub_del x (r_sub r) x' (Hsh _ _ eq_refl H1) Hs H2) as [S1 [S2 [S3 [S4 S5]]]].
    assert (F2 : forall k', lower k' <> lower n -> sget k' d' = sget k' d) by (intros k' G; apply H4; congruence).
    exists d', l. split; [reflexivity|]. split; [exact Hi|]. split; [exact Hn|]. split; [auto|]. split; [exact F2|].
    split; [intros k' x0 E E'; rewrite Ek in E; injection E as <-; rewrite H3 in E'; injection E' as <-; exact S1|].
    split; [congruence|].
    split; [unfold pget; rewrite Ek, H3; exact S2|].
    split.
    + intros n2 s2 Hs2 G. destruct (str_dec (lower n2) (lower n)) as [E|E]; [|rewrite (Hother _ _ (fun _ _ => eq_refl) F2 _ _ E); exact G].
      unfold pget in *. rewrite E, Ek in *. rewrite H3. rewrite H1 in G. destruct Hs2 as [->|Hs2].
      * cbn [get_sub] in *. destruct G as [y [G1 [G2 G3]]]. injection G1 as <-. eexists. split; [reflexivity|].
        split; [exact (S4 G2) | intros _; exact (S5 (G3 eq_refl))].
      * destruct (str_dec (lower s2) (lower (r_sub r))) as [E2|E2].
        -- rewrite (get_sub_case x' s2 (r_sub r) Hs2 Hs E2). destruct S2 as [y [Y1 [Y2 _]]]. exists y. split; [exact Y1|]. split; [exact Y2|].
           intros E3. exfalso. exact (attr_ok_nonempty _ Hs2 E3).
        -- rewrite (S3 _ Hs2 E2). exact G.
    + intros n2 s2 Hs2 G. destruct (str_dec (lower n2) (lower n)) as [E|E]; [|exact (Hother _ _ (fun _ _ => eq_refl) F2 _ _ E)].
      unfold pget. rewrite E, Ek, H3, H1. unfold overlap in G. destruct Hs2 as [->|Hs2].
      * exfalso. apply G. split; [cbn [r_attr]; fold n; congruence | right; left; reflexivity].
      * apply S3; [exact Hs2|]. intros E2. apply G. split; [cbn [r_attr]; fold n; congruence | right; right; cbn [r_sub]; congruence].
Qed.

(** ** Deleting in a whole body *)

Section Stand.
  Variables (main : str) (uris : list str).

  Definition stand (c : value) : Prop :=
    exists d l, c = VCont d l /\ idx l /\ NoDup (map fst l) /\ sget (lower main) l = None
    /\ (forall u, In u uris -> sget (lower u) l = None \/ sget (lower u) l = Some u /\ exists sub, sget u d = Some sub /\ booky sub)
    /\ (forall lk k x, sget lk l = Some k -> ~ In lk (map lower uris) -> sget k d = Some x -> shaped x).
  Definition placed (r : attr_rep) : Prop :=
    rep_ok r /\ (if r_ext r then In (r_schema r) uris else r_schema r = main) /\ ~ In (lower (r_attr r)) (map lower uris).

  (** Where a name is looked for. *)
  Lemma routed c r : stand c -> placed r ->
    exists d l, c = VCont d l /\
    ((sget (lower (r_schema r)) l = None /\ get_item c r = pget d l (r_attr r) (r_sub r))
     \/ (In (r_schema r) uris /\ sget (lower (r_schema r)) l = Some (r_schema r)
         /\ exists d2 l2, sget (r_schema r) d = Some (VCont d2 l2) /\ booky (VCont d2 l2)
            /\ get_item c r = pget d2 l2 (r_attr r) (r_sub r))).
  Proof.
    intros [d [l [-> [Hi [Hn [Hm [Hu Hs]]]]]]] [[Ha Hb] [He Hno]]. exists d, l. split; [reflexivity|].
    assert (G : sget (lower (r_schema r)) l = None \/ In (r_schema r) uris /\ sget (lower (r_schema r)) l = Some (r_schema r)
      /\ exists sub, sget (r_schema r) d = Some sub /\ booky sub).
    { destruct (r_ext r); [|left; rewrite He; exact Hm]. destruct (Hu _ He) as [G|G]; auto. }
    destruct G as [G|[G1 [G2 [sub [G3 G4]]]]].
    - left. split; [exact G|]. rewrite get_item_eq, G. reflexivity.
    - right. split; [exact G1|]. split; [exact G2|]. pose proof G4 as [d2 [l2 [-> [_ [_ [E _]]]]]]. exists d2, l2. split; [exact G3|].
      split; [exact G4|]. rewrite get_item_eq, G2, G3, mk_rep_plain by exact Ha. cbn [bind]. rewrite get_item_eq.
      cbn [r_schema r_attr r_sub]. change (lower []) with (@nil ascii). rewrite E. reflexivity.
  Qed.

  Lemma top_del c r c' : stand c -> placed r -> del_item c r = Ok c' ->
    stand c' /\ reads_nothing (r_sub r) (get_item c' r)
    /\ (forall r2, placed r2 -> reads_nothing (r_sub r2) (get_item c r2) -> reads_nothing (r_sub r2) (get_item c' r2))
    /\ (forall r2, placed r2 -> ~ overlap r r2 -> get_item c' r2 = get_item c r2).
  Proof.
    intros Hc Hr H. destruct (routed c r Hc Hr) as [d [l [E HH]]]. pose proof Hc as [d0 [l0 [E0 [Hi [Hn [Hm [Hu Hs]]]]]]].
    rewrite E in E0. injection E0 as <- <-. subst c. pose proof Hr as [[Ha Hb] [He Hno]].
    destruct HH as [[Hk Hg]|[Hin [Hk [d2 [l2 [Hd [Hbk Hg]]]]]]].
    - (* the name is looked for at the top *)
      destruct (plain_del d l r c' Hi Hn (conj Ha Hb)) as [d' [l' [-> [I1 [I2 [I3 [I4 [I5 [I6 [I7 [I8 I9]]]]]]]]]]]; [|exact Hk | exact H|].
      { intros k x G1 G2. exact (Hs _ _ _ G1 Hno G2). }
      assert (Hnone : forall lk, sget lk l = None -> sget lk l' = None).
      { intros lk G. destruct (str_dec lk (lower (r_attr r))) as [->|N]; [exact (I6 G) | rewrite (I3 _ N); exact G]. }
      assert (Huri : forall u, In u uris -> lower u <> lower (r_attr r)) by (intros u G N; apply Hno; rewrite <- N; apply in_map; exact G).
      assert (Hc' : stand (VCont d' l')).
      { eexists _, _. split; [reflexivity|]. split; [exact I1|]. split; [exact I2|]. split; [exact (Hnone _ Hm)|]. split.
        - intros u G. rewrite (I3 _ (Huri u G)), (I4 _ (Huri u G)). exact (Hu u G).
        - intros lk k x G1 G2 G3. destruct (str_dec lk (lower (r_attr r))) as [->|N]; [exact (I5 _ _ G1 G3)|].
          pose proof G1 as G4. rewrite (I3 _ N) in G4. apply Hi in G4 as G5. rewrite I4 in G3 by congruence. exact (Hs _ _ _ G4 G2 G3). }
      assert (Hsame : forall r2, placed r2 -> sget (lower (r_schema r2)) l <> None -> get_item (VCont d' l') r2 = get_item (VCont d l) r2).
      { intros r2 H2 G. destruct (routed _ _ Hc H2) as [d1 [l1 [E1 [[G1 _]|[G1 [G2 [e2 [m2 [G3 [G4 G5]]]]]]]]]]; injection E1 as <- <-; [congruence|].
        rewrite G5. destruct (routed _ _ Hc' H2) as [d1 [l1 [E1 [[F1 _]|[F1 [F2 [e3 [m3 [F3 [F4 F5]]]]]]]]]]; injection E1 as <- <-.
        - rewrite (I3 _ (Huri _ G1)) in F1. congruence.
        - rewrite (I4 _ (Huri _ G1)) in F3. rewrite G3 in F3. injection F3 as <- <-. exact F5. }
      assert (Hplain : forall r2, placed r2 -> sget (lower (r_schema r2)) l = None ->
                get_item (VCont d' l') r2 = pget d' l' (r_attr r2) (r_sub r2) /\ get_item (VCont d l) r2 = pget d l (r_attr r2) (r_sub r2)).
      { intros r2 H2 G. rewrite !get_item_eq, G, (Hnone _ G). split; reflexivity. }
      split; [exact Hc'|]. split; [rewrite (proj1 (Hplain r Hr Hk)); exact I7|]. split.
      + intros r2 H2 G. destruct (sget (lower (r_schema r2)) l) eqn:Eq.
        * rewrite Hsame; [exact G | exact H2 | congruence].
        * destruct (Hplain r2 H2 Eq) as [P1 P2]. rewrite P1. rewrite P2 in G. apply I8; [exact (proj2 (proj1 H2)) | exact G].
      + intros r2 H2 G. destruct (sget (lower (r_schema r2)) l) eqn:Eq.
        * apply Hsame; [exact H2 | congruence].
        * destruct (Hplain r2 H2 Eq) as [P1 P2]. rewrite P1, P2. apply I9; [exact (proj2 (proj1 H2)) | exact G].
    - (* inside an extension *)
      set (u := r_schema r) in *. rewrite del_item_eq in H. fold u in H. rewrite Hk, mk_rep_plain in H by exact Ha. cbn [bind] in H.
      apply bind_ok in H as [d' [Hd' H]]. injection H as <-. destruct (aupd_get _ _ _ _ Hd') as [x [x' [G1 [G2 [G3 G4]]]]].
      rewrite Hd in G1. injection G1 as <-. pose proof Hbk as [dd [ll [E [B1 [B2 [B3 B4]]]]]]. injection E as <- <-.
      destruct (plain_del d2 l2 (mkRep [] (r_attr r) (r_sub r) false) x' B1 B2 (conj Ha Hb)) as [d3 [l3 [-> [I1 [I2 [I3 [I4 [I5 [I6 [I7 [I8 I9]]]]]]]]]]];
        [intros k x; apply B4 | exact B3 | exact G2|]. cbn [r_attr r_sub r_schema] in *.
      assert (Hbk' : booky (VCont d3 l3)).
      { eexists _, _. split; [reflexivity|]. split; [exact I1|]. split; [exact I2|]. split.
        - destruct (str_dec [] (lower (r_attr r))) as [N|N]; [rewrite N; apply I6; rewrite <- N; exact B3 | rewrite (I3 _ N); exact B3].
        - intros lk k x F1 F2. destruct (str_dec lk (lower (r_attr r))) as [->|N]; [exact (I5 _ _ F1 F2)|].
          pose proof F1 as F3. rewrite (I3 _ N) in F3. pose proof (B1 _ _ F3) as F4. rewrite I4 in F2 by congruence. exact (B4 _ _ _ F3 F2). }
      assert (Hc' : stand (VCont d' l)).
      { eexists _, _. split; [reflexivity|]. split; [exact Hi|]. split; [exact Hn|]. split; [exact Hm|]. split.
        - intros v G. destruct (Hu v G) as [F|[F [sub [F1 F2]]]]; [left; exact F|]. right. split; [exact F|].
          destruct (str_dec v u) as [->|N]; [eexists; split; [exact G3 | exact Hbk'] | exists sub; rewrite (G4 _ N); split; assumption].
        - intros lk k x F1 F2 F3. rewrite G4 in F3; [exact (Hs _ _ _ F1 F2 F3)|]. intros ->. apply F2. rewrite <- (Hi _ _ F1). apply in_map. exact Hin. }
      assert (Hcase : forall r2, placed r2 ->
                get_item (VCont d' l) r2 = get_item (VCont d l) r2
                \/ (get_item (VCont d' l) r2 = pget d3 l3 (r_attr r2) (r_sub r2) /\ get_item (VCont d l) r2 = pget d2 l2 (r_attr r2) (r_sub r2))).
      { intros r2 H2. destruct (routed _ _ Hc H2) as [d1 [l1 [E1 [[F1 F2]|[F1 [F2 [e2 [m2 [F3 [F4 F5]]]]]]]]]]; injection E1 as <- <-.
        - left. rewrite F2, get_item_eq, F1. change (pget d' l (r_attr r2) (r_sub r2) = pget d l (r_attr r2) (r_sub r2)).
          unfold pget. destruct (sget (lower (r_attr r2)) l) as [k|] eqn:Ek; [|reflexivity]. rewrite G4; [reflexivity|].
          intros ->. apply (proj2 (proj2 H2)). rewrite <- (Hi _ _ Ek). apply in_map. exact Hin.
        - destruct (str_dec (r_schema r2) u) as [Eu|N].
          + right. rewrite Eu in *. rewrite Hd in F3. injection F3 as <- <-. split; [|exact F5].
            destruct (routed _ _ Hc' H2) as [d1 [l1 [E1 [[K1 _]|[K1 [K2 [e3 [m3 [K3 [K4 K5]]]]]]]]]]; injection E1 as <- <-; rewrite Eu in *; [congruence|].
            rewrite G3 in K3. injection K3 as <- <-. exact K5.
          + left. rewrite F5. destruct (routed _ _ Hc' H2) as [d1 [l1 [E1 [[K1 _]|[K1 [K2 [e3 [m3 [K3 [K4 K5]]]]]]]]]]; injection E1 as <- <-; [congruence|].
            rewrite (G4 _ N), F3 in K3. injection K3 as <- <-. exact K5. }
      split; [exact Hc'|]. split.
      + destruct (routed _ _ Hc' Hr) as [d1 [l1 [E1 [[K1 _]|[K1 [K2 [e3 [m3 [K3 [K4 K5]]]]]]]]]]; injection E1 as <- <-; [fold u in K1; congruence|].
        fold u in K3. rewrite G3 in K3. injection K3 as <- <-. rewrite K5. exact I7.
      + split; intros r2 H2 G; destruct (Hcase r2 H2) as [F|[F1 F2]]; try (rewrite F; congruence || exact G).
        * rewrite F1. rewrite F2 in G. apply I8; [exact (proj2 (proj1 H2)) | exact G].
        * rewrite F1, F2. apply I9; [exact (proj2 (proj1 H2)) | exact G].
  Qed.

  (** Stripping a list of attributes. *)
  Lemma strip_all l : Forall (fun a => placed (arep a)) l -> forall c c', stand c -> strip_read_only l c = Ok c' ->
    stand c'
    /\ (forall a, In a l -> is_read_only (a_mut (info a)) = true -> reads_nothing (r_sub (arep a)) (get_item c' (arep a)))
    /\ (forall r, placed r -> reads_nothing (r_sub r) (get_item c r) -> reads_nothing (r_sub r) (get_item c' r))
    /\ (forall r, placed r -> (forall b, In b l -> is_read_only (a_mut (info b)) = true ->
            ~ overlap (arep b) r) -> get_item c' r = get_item c r).
  Proof.
    unfold strip_read_only. induction 1 as [|a t Ha Ht IH]; intros c c' Hc H; cbn [foldM] in H.
    - injection H as <-. split; [exact Hc|]. split; [intros a []|]. auto.
    - destruct (is_read_only (a_mut (info a))) eqn:Er.
      + apply bind_ok in H as [c1 [H1 H]]. destruct (top_del c _ c1 Hc Ha H1) as [T1 [T2 [T3 T4]]].
        destruct (IH c1 c' T1 H) as [I1 [I2 [I3 I4]]]. split; [exact I1|]. split; [|split].
        * intros b [<-|Hb] Hro; [exact (I3 _ Ha T2) | exact (I2 b Hb Hro)].
        * intros r Hr G. exact (I3 r Hr (T3 r Hr G)).
        * intros r Hr G. rewrite (I4 r Hr) by (intros b Hb; apply G; right; exact Hb).
          apply T4; [exact Hr|]. apply (G a); [left; reflexivity | exact Er].
      + cbn [bind] in H. destruct (IH c c' Hc H) as [I1 [I2 [I3 I4]]]. split; [exact I1|]. split; [|split; [exact I3|]].
        * intros b [<-|Hb] Hro; [congruence | exact (I2 b Hb Hro)].
        * intros r Hr G. apply (I4 r Hr). intros b Hb. apply G. right; exact Hb.
  Qed.
End Stand.

(** ** What the constructors put into a schema *)

Lemma bound_family uri ext l : neat l -> forall b, In b (flat_map (bound_all uri ext) l) ->
  rep_ok (arep b) /\ r_schema (arep b) = uri /\ r_ext (arep b) = ext
  /\ (r_sub (arep b) = [] -> distinct_names (sub_attrs b))
  /\ exists a, In a l /\ r_attr (arep b) = r_attr (arep a).
Proof.
  intros [Hl _] b Hb. apply in_flat_map in Hb as [a [Ha Hb]]. rewrite Forall_forall in Hl. destruct (Hl a Ha) as [H1 [[_ [_ [_ H2]]] H3]].
  destruct Hb as [<-|Hb].
  - rewrite bound_rep. cbn [r_schema r_ext r_attr r_sub]. split; [split; [exact H2 | left; reflexivity]|]. split; [reflexivity|].
    split; [reflexivity|]. split; [intros _; rewrite bound_subs; assumption|]. exists a. split; [exact Ha | reflexivity].
  - apply in_map_iff in Hb as [s [<- Hs]]. rewrite bound_rep. cbn [r_schema r_ext r_attr r_sub].
    pose proof (subs_plain a H1) as Hp. rewrite Forall_forall in Hp. destruct (Hp s Hs) as [_ [_ [_ H4]]].
    split; [split; [exact H2 | right; exact H4]|]. split; [reflexivity|]. split; [reflexivity|].
    split; [intros E; exfalso; exact (attr_ok_nonempty _ H4 E)|]. exists a. split; [exact Ha | reflexivity].
Qed.

Definition family (l : list attribute) : Prop :=
  forall b, In b l -> rep_ok (arep b) /\ (r_sub (arep b) = [] -> distinct_names (sub_attrs b))
    /\ exists a, In a l /\ r_sub (arep a) = [] /\ r_schema (arep a) = r_schema (arep b)
       /\ r_ext (arep a) = r_ext (arep b) /\ r_attr (arep a) = r_attr (arep b).

Lemma bound_is_family uri ext l : neat l -> family (flat_map (bound_all uri ext) l).
Proof.
  intros Hn b Hb. destruct (bound_family uri ext l Hn b Hb) as [H1 [H2 [H3 [H4 [a [Ha E]]]]]]. split; [exact H1|]. split; [exact H4|].
  exists (bound_attr (mkRep uri (r_attr (arep a)) [] ext) a). split; [apply in_flat_map; exists a; split; [exact Ha | left; reflexivity]|].
  rewrite bound_rep. cbn [r_schema r_ext r_attr r_sub]. auto.
Qed.

Lemma made_family s : made s -> family (at_all (sc_attrs s)).
Proof.
  induction 1 as [uri l Hu Hn Hf|uri l name descr plural oi oe om get l' Hu Hn Hf|s e req s' Hs IH Hu Hn Hl Hf H].
  - cbn [base_schema sc_attrs mk_attrs at_all]. rewrite dedup_id by (apply bound_keys; exact Hn). apply bound_is_family. exact Hn.
  - cbn [resource_schema base_schema sc_attrs mk_attrs at_all]. rewrite dedup_id by (apply bound_keys; exact Hn). apply bound_is_family. exact Hn.
  - destruct (made_assembled s Hs) as [As _]. destruct (extension_all s e req s' As Hn Hu Hl H) as [-> _].
    pose proof (bound_is_family (ex_uri e) true _ Hn) as G. intros b Hb. apply in_app_or in Hb as [Hb|Hb].
    + destruct (IH b Hb) as [H1 [H2 [a [Ha H3]]]]. split; [exact H1|]. split; [exact H2|]. exists a. split; [apply in_or_app; left; exact Ha | exact H3].
    + destruct (G b Hb) as [H1 [H2 [a [Ha H3]]]]. split; [exact H1|]. split; [exact H2|]. exists a. split; [apply in_or_app; right; exact Ha | exact H3].
Qed.

Lemma made_placed s : made s -> (forall a, In a (at_top (sc_attrs s)) -> ~ listed (r_attr (arep a)) (map fst (sc_exts s))) ->
  Forall (fun a => placed (sc_uri s) (map fst (sc_exts s)) (arep a)) (at_all (sc_attrs s))
  /\ forall a, In a (at_top (sc_attrs s)) -> placed (sc_uri s) (map fst (sc_exts s)) (arep a) /\ distinct_names (sub_attrs a).
Proof.
  intros Hm Hno. pose proof (made_family s Hm) as Hf. destruct (made_assembled s Hm) as [[Hw [_ [Ht Hp]]] _]. rewrite Forall_forall in Hp.
  assert (G : Forall (fun a => placed (sc_uri s) (map fst (sc_exts s)) (arep a)) (at_all (sc_attrs s))).
  { apply Forall_forall. intros b Hb. destruct (Hf b Hb) as [H1 [_ [a [Ha [H3 [H4 [H5 H6]]]]]]]. split; [exact H1|]. split; [exact (Hp b Hb)|].
    rewrite <- H6. apply Hno. rewrite Ht. apply filter_In. split; [exact Ha|]. unfold no_sub. rewrite H3. reflexivity. }
  split; [exact G|]. intros a Ha. rewrite Ht in Ha. apply filter_In in Ha as [Ha E]. rewrite Forall_forall in G. split; [exact (G a Ha)|].
  apply (Hf a Ha). unfold no_sub in E. destruct (r_sub (arep a)); [reflexivity | discriminate].
Qed.

(** ** What parsing leaves *)

Section Env.
  Context {env : PyEnv}.

  Lemma plain_type t v w iss : t <> TComplex -> t <> TUnknown -> type_proc MParse t v = Ok (w, iss) -> is_cont w = false /\ is_list w = false.
  Proof.
    intros H1 H2 H.
    assert (F : forall e, Ok (fail e) = Ok (w, iss) -> is_cont w = false /\ is_list w = false) by (intros e E; injection E as <- _; split; reflexivity).
    assert (T : forall ok name, (ok = true -> is_cont v = false /\ is_list v = false) -> Ok (type_check ok name v) = Ok (w, iss) -> is_cont w = false /\ is_list w = false).
    { intros ok name Hok E. unfold type_check in E. destruct ok; [injection E as <- _; exact (Hok eq_refl) | exact (F _ E)]. }
    destruct t; try congruence; cbn [type_proc] in H.
    - refine (T _ _ _ H). destruct v; try discriminate; split; reflexivity.
    - unfold decimal_proc in H. destruct v; cbn [is_int] in H; try (refine (T _ _ _ H); try discriminate; split; reflexivity);
        cbn [integer_proc type_check is_int pass bind to_float] in H; apply bind_ok in H as [x [Hx H]]; apply bind_ok in Hx as [f [_ Hx]];
        injection Hx as <-; injection H as <- _; split; reflexivity.
    - unfold integer_proc in H. destruct v; try (refine (T _ _ _ H); try discriminate; split; reflexivity).
      apply bind_ok in H as [z [_ H]]. destruct (feqb _ _); [injection H as <- _; split; reflexivity | exact (F _ H)].
    - refine (T _ _ _ H). destruct v; try discriminate; split; reflexivity.
    - unfold binary_proc in H. destruct v; try (refine (T _ _ _ H); discriminate).
      apply bind_ok in H as [[e|] [_ H]]; [exact (F _ H) | injection H as <- _; split; reflexivity].
    - unfold external_proc in H. destruct v; try (refine (T _ _ _ H); discriminate).
      destruct (env_abs_url s); [injection H as <- _; split; reflexivity | exact (F _ H)].
    - refine (T _ _ _ H). destruct v; try discriminate; split; reflexivity.
    - refine (T _ _ _ H). destruct v; try discriminate; split; reflexivity.
    - unfold datetime_parse in H. destruct v; try (refine (T _ _ _ H); discriminate).
      destruct (env_fromiso s); [injection H as <- _; split; reflexivity | exact (F _ H)].
  Qed.

  Lemma canon_value i x iss l : fst (canon_step i x iss l) = x \/ fst (canon_step i x iss l) = VInvalid.
  Proof. unfold canon_step. destruct (is_canonical i x); [left; reflexivity|]. destruct (a_validate i); [right | left]; reflexivity. Qed.

  Lemma plain_shaped a v v' iss : sound_attr a -> distinct_names (sub_attrs a) -> plain_parsing a ->
    process a MParse v = Ok (v', iss) -> ~ reported iss -> shaped v'.
  Proof.
    intros Ha Hd Hp H Hno. pose proof (process_report a Ha _ _ _ _ H) as Hrep. destruct a as [i [[[subs cps] cds]|]].
    - (* complex *)
      pose proof (subs_plain _ Ha) as Hpl. cbn [sub_attrs plain_parsing] in *. rewrite process_complex in H. apply bind_ok in H as [[x js] [_ H]].
      destruct (can_proceed js []) eqn:Ec; cbn [negb orb] in H.
      2:{ injection H as <- <-. exfalso. apply Hno. exact (orderly_stuck _ _ (report_orderly _ Hrep) Ec). }
      assert (G : (let! (parsed, iss) := complex_part MParse (a_multi i) subs x js in
                   if has_issues iss [] then Ok (parsed, iss) else run_procs cps parsed iss) = Ok (v', iss) -> shaped v').
      { clear H. intros H. apply bind_ok in H as [[parsed ks] [Hc H]].
        assert (Hwalk : forall c p j y k, walk MParse c p subs empty_cont j = Ok (y, k) -> leafy y).
        { intros c p j y k E. rewrite walk_closed in E by (exact Hpl || reflexivity). apply bind_ok in E as [outs [Hg E]]. injection E as <- _.
          apply tidy_leafy. exact (proj2 (put_all_tidy _ _ _ _ Hd Hpl Hg)). }
        assert (Hs : shaped parsed).
        { unfold complex_part in Hc. destruct (a_multi i).
          - apply bind_ok in Hc as [l [_ Hc]]. apply bind_ok in Hc as [[items ks'] [Hf Hc]]. injection Hc as <- _. cbn [shaped].
            assert (Q : Forall leafy items).
            { change ((fun st : list value * issues => Forall leafy (fst st)) (items, ks')). revert Hf.
              apply (foldM_inv _ (fun st : list value * issues => Forall leafy (fst st))); [|constructor].
              intros [acc j] e [acc' j'] _ Hacc E. unfold complex_items in E. apply bind_ok in E as [[y k] [E1 E]]. injection E as <- _. cbn [fst snd] in *.
              apply Forall_app. split; [exact Hacc|]. constructor; [|constructor]. exact (Hwalk _ _ _ _ _ E1). }
            revert Q. apply Forall_impl. auto.
          - apply Hwalk in Hc. destruct Hc as [d [l [-> Hc]]]. cbn [shaped]. exists d, l. split; [reflexivity | exact Hc]. }
        destruct (has_issues ks []); [injection H as <- _; exact Hs|]. destruct Hp as [->| ->]; cbn [run_procs foldM] in H.
        - injection H as <- _. exact Hs.
        - apply bind_ok in H as [[w k2] [H1 H]]. injection H as <- _. apply bind_ok in H1 as [[w' k3] [H1 H2]]. injection H2 as <- _.
          unfold single_primary in H1. cbn [fst] in H1. apply bind_ok in H1 as [l [Hl H1]]. apply bind_ok in H1 as [ps [_ H1]]. injection H1 as <- _.
          destruct parsed; try discriminate; injection Hl as <-; [| exact Hs |].
          + cbn [shaped]. apply Forall_forall. intros y Hy. apply in_map_iff in Hy as [c [<- _]]. discriminate.
          + cbn [shaped]. apply Forall_forall. intros y Hy. apply in_map_iff in Hy as [[[t|t] z] [<- _]]; discriminate. }
      destruct x; try exact (G H). injection H as <- _. exact I.
    - (* simple *)
      destruct Hp as [H1 [H2 H3]]. cbn [process] in H. unfold base_process in H.
      assert (Q : forall w, is_cont w = false /\ is_list w = false -> shaped w) by (intros w [E1 E2]; destruct w; try exact I; discriminate).
      assert (G : (if a_multi i && negb (is_list v) then Ok (fail (e_bad_type ($"list") (scim_type_of v))) else
          let! (parsed, iss) := match a_multi i, v with
            | true, VList l => let! (items, iss) := foldM (item_step MParse i) (enumerate l) ([], no_issues) in Ok (VList items, iss)
            | _, _ => let! (x, iss) := type_proc MParse (a_type i) v in Ok (canon_step i x (merge no_issues iss []) []) end in
          if has_issues iss [] then Ok (parsed, iss) else run_procs (procs_of MParse i) parsed iss) = Ok (v', iss) -> shaped v').
      { clear H. intros H. destruct (_ && _); [injection H as <- _; exact I|]. apply bind_ok in H as [[parsed ks] [Hc H]].
        assert (E : parsed = v' \/ v' = VInvalid).
        { cbn [procs_of] in H. destruct (has_issues ks []); [injection H as <- _; left; reflexivity|]. unfold run_procs in H.
          assert (Q0 : v' = parsed \/ v' = VInvalid); [|destruct Q0; auto].
          change ((fun st : value * issues => fst st = parsed \/ fst st = VInvalid) (v', iss)). revert H.
          apply (foldM_inv _ (fun st : value * issues => fst st = parsed \/ fst st = VInvalid)); [|left; reflexivity].
          intros [x j] p [x' j'] Hin Hx E. apply bind_ok in E as [[x2 j2] [E1 E]]. injection E as <- _. cbn [fst] in *.
          rewrite Forall_forall in H1. destruct (H1 p Hin _ _ _ E1) as [->| ->]; auto. }
        destruct E as [E| ->]; [|exact I]. subst parsed. clear H.
        assert (S1 : (let! (x, iss) := type_proc MParse (a_type i) v in Ok (canon_step i x (merge no_issues iss []) [])) = Ok (v', ks) -> shaped v').
        { clear Hc. intros Hc. apply bind_ok in Hc as [[x k] [Ht Hc]]. apply plain_type in Ht; [|exact H2|exact H3].
          destruct (canon_value i x (merge no_issues k []) []) as [E|E]; rewrite (f_equal (fun r => match r with Ok o => fst o | Raise _ => VNone end) Hc : fst (canon_step _ _ _ _) = v') in E; subst v';
            [exact (Q _ Ht) | exact I]. }
        destruct (a_multi i); [|exact (S1 Hc)]. destruct v; try exact (S1 Hc).
        apply bind_ok in Hc as [[items k] [Hf Hc]]. injection Hc as <- _. cbn [shaped].
        assert (Q2 : Forall (fun y => is_cont y = false) items).
        { change ((fun st : list value * issues => Forall (fun y => is_cont y = false) (fst st)) (items, k)). revert Hf.
          apply (foldM_inv _ (fun st : list value * issues => Forall (fun y => is_cont y = false) (fst st))); [|constructor].
          intros [acc j] [n e] [acc' j'] _ Hacc E. unfold item_step in E. apply bind_ok in E as [[y k'] [E1 E]]. cbn [fst snd] in *.
          apply plain_type in E1; [|exact H2|exact H3]. match type of E with context[canon_step i y ?a ?b] => pose proof (canon_value i y a b) as Hcv; destruct (canon_step i y a b) as [z k2] end.
          injection E as <- _. cbn [fst] in Hcv. apply Forall_app. split; [exact Hacc|]. constructor; [|constructor].
          destruct Hcv as [->| ->]; [exact (proj1 E1) | reflexivity]. }
        revert Q2. apply Forall_impl. intros y E1 E2. congruence. }
      destruct v; try exact (G H). injection H as <- _. exact I.
  Qed.

  (** Writing the processed attributes. *)
  Lemma booky_set d l n v : booky (VCont d l) -> attr_ok n -> shaped v -> booky (set_plain d l n v).
  Proof.
    intros [d0 [l0 [E [H1 [H2 [H3 H4]]]]]] Hn Hv. injection E as <- <-. eexists _, _. split; [reflexivity|]. split; [apply idx_sset; exact H1|].
    split; [apply sset_NoDup; exact H2|]. split.
    - rewrite sget_sset_other; [exact H3|]. intros G. apply (attr_ok_nonempty _ Hn). destruct n; [reflexivity | discriminate].
    - intros lk k x. rewrite !sget_sset. destruct (str_eqb (lower n) lk) eqn:E; intros G1 G2.
      + injection G1 as <-. rewrite str_eqb_refl in G2. injection G2 as <-. exact Hv.
      + destruct (str_eqb n k) eqn:E2; [|exact (H4 _ _ _ G1 G2)]. apply str_eqb_eq in E2 as <-. apply H1 in G1. rewrite G1, str_eqb_refl in E. discriminate.
  Qed.

  Lemma put_top_stand main uris c r v : NoDup (map lower uris) -> ~ In (lower main) (map lower uris) -> stand main uris c -> placed main uris r -> r_sub r = [] ->
    lower (r_attr r) <> lower main -> shaped v -> stand main uris (put_top c r v).
  Proof.
    intros Hnd Hmu [d [l [-> [Hi [Hn [Hm [Hu Hs]]]]]]] [[Ha _] [He Hno]] _ Hna Hv. unfold put_top.
    assert (Huri : forall u, In u uris -> lower u <> lower (r_attr r)) by (intros u G N; apply Hno; rewrite <- N; apply in_map; exact G).
    destruct (r_ext r) eqn:Ex.
    - set (w := r_schema r) in *.
      assert (Hwm : lower w <> lower main) by (intros G; apply Hmu; rewrite <- G; apply in_map; exact He).
      assert (Hkey : forall lk k, sget lk l = Some k -> ~ In lk (map lower uris) -> k <> w).
      { intros lk k G1 G2 ->. apply G2. rewrite <- (Hi _ _ G1). apply in_map. exact He. }
      destruct (Hu w He) as [E|[E [sub [E2 E3]]]]; rewrite E.
      + rewrite sget_sset_same. unfold empty_cont. eexists _, _. split; [reflexivity|]. split; [apply idx_sset; exact Hi|]. split; [apply sset_NoDup; exact Hn|].
        split; [rewrite sget_sset_other by congruence; exact Hm|]. split.
        * intros u Hin. destruct (str_dec w u) as [<-|N].
          -- right. split; [apply sget_sset_same|]. eexists. split; [apply sget_sset_same|]. apply booky_set; [|exact Ha | exact Hv].
             eexists _, _. split; [reflexivity|]. split; [intros ? ? ?; discriminate|]. split; [constructor|]. split; [reflexivity | intros ? ? ? ?; discriminate].
          -- assert (Hl : lower w <> lower u) by (intros G; apply N; exact (NoDup_map_eq _ _ _ _ Hnd He Hin G)).
             destruct (Hu u Hin) as [G|[G [sub [G2 G3]]]]; [left; rewrite sget_sset_other by congruence; exact G|].
             right. rewrite sget_sset_other by congruence. split; [exact G|]. exists sub. rewrite !sget_sset_other by congruence. split; assumption.
        * intros lk k x G1 G2 G3. assert (lk <> lower w) by (intros ->; apply G2; apply in_map; exact He).
          rewrite sget_sset_other in G1 by congruence. pose proof (Hkey _ _ G1 G2). rewrite !sget_sset_other in G3 by congruence. exact (Hs _ _ _ G1 G2 G3).
      + rewrite E2. pose proof E3 as [d2 [l2 [-> _]]]. eexists _, _. split; [reflexivity|]. split; [exact Hi|]. split; [exact Hn|]. split; [exact Hm|]. split.
        * intros u Hin. destruct (str_dec w u) as [<-|N].
          -- right. split; [exact E|]. eexists. split; [apply sget_sset_same|]. apply booky_set; assumption.
          -- destruct (Hu u Hin) as [G|[G [sub [G2 G3]]]]; [left; exact G|]. right. split; [exact G|]. exists sub. rewrite sget_sset_other by congruence. split; assumption.
        * intros lk k x G1 G2 G3. pose proof (Hkey _ _ G1 G2). rewrite sget_sset_other in G3 by congruence. exact (Hs _ _ _ G1 G2 G3).
    - set (n := r_attr r) in *. eexists _, _. split; [reflexivity|]. split; [apply idx_sset; exact Hi|]. split; [apply sset_NoDup; exact Hn|].
      split; [rewrite sget_sset_other by congruence; exact Hm|]. split.
      + intros u Hin. pose proof (Huri u Hin). destruct (Hu u Hin) as [G|[G [sub [G2 G3]]]]; [left; rewrite sget_sset_other by congruence; exact G|].
        right. rewrite sget_sset_other by congruence. split; [exact G|]. exists sub. rewrite sget_sset_other by congruence. split; assumption.
      + intros lk k x G1 G2 G3. rewrite sget_sset in G1. rewrite sget_sset in G3. destruct (str_eqb (lower n) lk) eqn:E.
        * injection G1 as <-. rewrite str_eqb_refl in G3. injection G3 as <-. exact Hv.
        * destruct (str_eqb n k) eqn:E2; [|exact (Hs _ _ _ G1 G2 G3)]. apply str_eqb_eq in E2 as <-. apply Hi in G1. rewrite G1, str_eqb_refl in E. discriminate.
  Qed.

  Lemma put_tops_stand main uris outs : NoDup (map lower uris) -> ~ In (lower main) (map lower uris) ->
    Forall (fun e : attribute * outcome => placed main uris (arep (fst e)) /\ r_sub (arep (fst e)) = [] /\ lower (r_attr (arep (fst e))) <> lower main /\ shaped (fst (snd e))) outs ->
    forall c, stand main uris c -> stand main uris (put_tops outs c).
  Proof.
    intros Hnd Hmu. induction 1 as [|[a [v j]] t [H1 [H2 [H3 H4]]] Ht IH]; intros c Hc; cbn [put_tops fold_left]; [exact Hc|].
    apply IH. apply put_top_stand; assumption.
  Qed.
  Lemma stand_empty main uris : stand main uris empty_cont.
  Proof.
    eexists _, _. split; [reflexivity|]. split; [intros ? ? ?; discriminate|]. split; [constructor|]. split; [reflexivity|].
    split; [intros u _; left; reflexivity | intros ? ? ? ?; discriminate].
  Qed.

  Lemma parsed_stand s doc y iss : made s -> own_names s -> Forall plain_parsing (at_top (sc_attrs s)) ->
    schema_parse s doc = Ok (y, iss) -> ~ reported iss -> stand (sc_uri s) (map fst (sc_exts s)) y.
  Proof.
    intros Hm Hown Hp H Hno. pose proof (made_wf s Hm) as Hw.
    assert (Hobj : is_object doc).
    { unfold schema_parse, base_parse in H. destruct doc; try exact I; injection H as _ <-; exfalso; apply Hno; exists []; discriminate. }
    destruct (parse_shape s MParse doc y iss Hw Hobj H) as [outs [iss2 [Hg [-> [Hr [Hr2 [He _]]]]]]].
    destruct (tops_errs s MParse _ outs Hw Hg) as [Ht1 _]. destruct (tops_fit s Hw) as [Hnd Hf].
    assert (Hno' : forall a, In a (at_top (sc_attrs s)) -> ~ listed (r_attr (arep a)) (map fst (sc_exts s))).
    { intros a Ha G. apply (Hown a Ha). right. exact G. }
    destruct (made_placed s Hm Hno') as [_ Hpl]. apply put_tops_stand; [exact Hnd | | | apply stand_empty].
    - destruct Hw as [[W _] _ _ _]. unfold sc_schemas in W. cbn [map] in W. inversion W; subst. assumption.
    - apply Forall_forall. intros [a [v j]] Hin. cbn [fst snd]. destruct (gather_top_In _ _ _ _ _ _ Hg Hin) as [Ha [x [_ [_ Hx]]]].
      destruct (Hpl a Ha) as [P1 P2]. split; [exact P1|]. rewrite Forall_forall in Hf, Hp. split; [exact (proj1 (Hf a Ha))|]. split.
      + intros G. apply (Hown a Ha). left. symmetry. exact G.
      + pose proof (ws_attrs s Hw) as W2. rewrite Forall_forall in W2. apply (plain_shaped a x v j (proj1 (W2 a Ha)) P2 (Hp a Ha) Hx).
        intros [p Hp']. apply Hno. exists (place (arep a) ++ p). rewrite He, (Ht1 a v j p Hin). destruct (errs_at j p); [congruence | discriminate].
  Qed.

  Lemma put_stripped s b h q rq iss : made s -> own_names s -> Forall plain_parsing (at_top (sc_attrs s)) ->
    put_parse s b h q = Ok (rq, iss) -> rq_body rq <> VNone ->
    exists y js, schema_parse s b = Ok (y, js) /\ stand (sc_uri s) (map fst (sc_exts s)) y /\ strip_read_only (at_all (sc_attrs s)) y = Ok (rq_body rq)
    /\ Forall (fun a => placed (sc_uri s) (map fst (sc_exts s)) (arep a)) (at_all (sc_attrs s)).
  Proof.
    intros Hm Hown Hp H N. pose proof (made_sound s Hm) as Hs. unfold put_parse in H. apply bind_ok in H as [[q' i1] [Hq H]]. apply bind_ok in H as [[y i2] [Hb H]]. cbn zeta in H.
    apply query_report in Hq. pose proof (parse_body_orderly _ _ _ _ _ _ (fun v w js => parse_orderly s v w js Hs) Hb) as T.
    assert (W : orderly (merge i1 i2 [])) by (apply orderly_merge; [apply report_orderly; exact Hq | apply T]). pose proof (has_issues_wf _ (proj1 W)) as R.
    destruct (has_issues (merge i1 i2 []) []) eqn:E; [injection H as <- _; contradiction N; reflexivity|].
    apply bind_ok in H as [y' [Hs' H]]. injection H as <- _. cbn [rq_body]. apply parse_body_value in Hb as [js [Hb Hrep]]. exists y, js.
    split; [exact Hb|]. split; [|split; [exact Hs'|]].
    - apply (parsed_stand s b y js Hm Hown Hp Hb). intros G. apply Hrep in G; [|apply T|apply (parse_orderly s _ _ _ Hs Hb)].
      assert (false = true) by (apply R; destruct G as [l G]; exists l; rewrite errs_merge_wf by (apply report_wf in Hq; try exact Hq; apply T); cbn [loc_strip];
        destruct (errs_at i2 l); [congruence | destruct (errs_at i1 l); discriminate]). discriminate.
    - apply (made_placed s Hm). intros a Ha G. apply (Hown a Ha). right. exact G.
  Qed.
End Env.
