(** Reads after writes and deletions of containers. *)
From Verif Require Import PyBase BaseFacts PyNum AttrRep AttrRepSpec AttrRepFacts Value Container ValueFacts
  ContainerSpec ContainerFacts.

Lemma attr_ok_spec a : attr_ok a <-> attr_name_ok a = true.
Proof. symmetry; apply attr_name_ok_spec. Qed.
Lemma attr_ok_nonempty a : attr_ok a -> a <> [].
Proof. intros [[H _]| ->]; [exact H | discriminate]. Qed.
Lemma mk_rep_plain a sub : attr_ok a -> mk_rep [] a sub false = Ok (mkRep [] a sub false).
Proof. intros H. apply mk_rep_ok; [apply attr_ok_spec; exact H | discriminate]. Qed.

(** ** Reads ignore letter case *)

Lemma get_case v : forall r r', same_name r r' -> rep_ok r -> rep_ok r' -> get_item v r = get_item v r'.
Proof.
  induction v as [v Ha|l IH|d IH|data l2o IH] using value_ind3; intros r r' [H1 [H2 H3]] [Hr1 Hr2] [Hr1' Hr2'].
  - destruct v; try contradiction; reflexivity.
  - reflexivity.
  - reflexivity.
  - unfold same_text in *. rewrite !get_item_eq, H1, H2.
    assert (HP : forall k x, sget k data = Some x ->
              (forall r r', same_name r r' -> rep_ok r -> rep_ok r' -> get_item x r = get_item x r')
              /\ items_too (fun x => forall r r', same_name r r' -> rep_ok r -> rep_ok r' -> get_item x r = get_item x r') x).
    { intros k x E. apply sget_In in E. rewrite Forall_forall in IH. apply (IH _ E). }
    destruct (sget (lower (r_schema r')) l2o) as [ext|].
    + rewrite !mk_rep_plain by assumption. cbn [bind]. destruct (sget ext data) as [x|] eqn:Ex; [|reflexivity].
      apply (HP _ _ Ex); [|split; assumption|split; assumption].
      split; [reflexivity | split; assumption].
    + destruct (sget (lower (r_attr r')) l2o) as [a|]; [|reflexivity].
      destruct (sget a data) as [x|] eqn:Ex; [|reflexivity]. destruct (HP _ _ Ex) as [HP1 HP2].
      unfold get_sub. destruct (r_sub r) as [|c s] eqn:Es, (r_sub r') as [|c' s'] eqn:Es'; try discriminate; [reflexivity|].
      destruct Hr2 as [Hr2|Hr2]; [discriminate|]. destruct Hr2' as [Hr2'|Hr2']; [discriminate|].
      rewrite !mk_rep_plain by assumption. cbn [bind].
      assert (Hn : same_name (mkRep [] (c :: s) [] false) (mkRep [] (c' :: s') [] false)).
      { split; [reflexivity|]. split; [exact H3 | reflexivity]. }
      assert (Ho : rep_ok (mkRep [] (c :: s) [] false)) by (split; [exact Hr2 | left; reflexivity]).
      assert (Ho' : rep_ok (mkRep [] (c' :: s') [] false)) by (split; [exact Hr2' | left; reflexivity]).
      destruct x; try reflexivity.
      * f_equal. apply mapM_ext. intros y Hy. cbn [items_too] in HP2. rewrite Forall_forall in HP2.
        apply (HP2 y Hy); assumption.
      * apply HP1; assumption.
Qed.

(** ** Writes without extension *)

Lemma set_noext_sub data l2o a sub x c' :
  sub <> [] -> is_list x = false -> set_noext (VCont data l2o) a sub x = Ok c' ->
  attr_ok sub /\
  ((exists key d m, sget (lower a) l2o = Some key /\ sget key data = Some (VCont d m)
                    /\ c' = VCont (sset key (set_plain d m sub x) data) l2o)
   \/ (sget (lower a) l2o = None
       /\ c' = VCont (sset a (set_plain [] [] sub x) (sset a empty_cont data)) (sset (lower a) a l2o))).
Proof.
  intros Hs Hx H. destruct sub as [|s sub]; [contradiction|]. cbn [set_noext] in H. unfold set_sub in H.
  assert (Hm : forall (A : Type) (P : list value -> A) (Q : A), match x with VList xs => P xs | _ => Q end = Q)
    by (intros; destruct x; try discriminate; reflexivity).
  destruct (sget (lower a) l2o) as [key|] eqn:Ek.
  - destruct (sget key data) as [cur|] eqn:Ec; [|discriminate]. destruct (can_assign cur x) eqn:Ea; [|discriminate].
    cbn [bind] in H. rewrite Ec, Hm in H. apply bind_ok in H as [c2 [E H]]. injection H as <-.
    apply set_leaf_ok in E as [d [m [-> [Hn ->]]]]. split; [apply attr_ok_spec; exact Hn|].
    left. exists key, d, m. repeat split. exact Ec.
  - cbn [bind] in H. rewrite sget_sset_same, !Hm in H. apply bind_ok in H as [c2 [E H]]. injection H as <-.
    apply set_leaf_ok in E as [d [m [E0 [Hn ->]]]]. injection E0 as <- <-. split; [apply attr_ok_spec; exact Hn|].
    right. split; [reflexivity|]. reflexivity.
Qed.

Lemma set_noext_list data l2o a sub xs c' :
  sub <> [] -> set_noext (VCont data l2o) a sub (VList xs) = Ok c' ->
  exists key conts conts' data' l2o',
    ((sget (lower a) l2o = Some key /\ sget key data = Some (VList conts) /\ data' = data /\ l2o' = l2o)
     \/ (sget (lower a) l2o = None /\ key = a /\ conts = [] /\ data' = sset a (VList []) data
         /\ l2o' = sset (lower a) a l2o))
    /\ set_leaves sub xs (conts ++ repeat empty_cont (length xs - length conts)) = Ok conts'
    /\ c' = VCont (sset key (VList conts') data') l2o'.
Proof.
  intros Hs H. destruct sub as [|s sub]; [contradiction|]. cbn [set_noext] in H. unfold set_sub in H.
  destruct (sget (lower a) l2o) as [key|] eqn:Ek.
  - destruct (sget key data) as [cur|] eqn:Ec; [|discriminate]. destruct (can_assign cur (VList xs)) eqn:Ea; [|discriminate].
    cbn [bind] in H. rewrite Ec in H. destruct cur; try discriminate.
    apply bind_ok in H as [cs [E H]]. injection H as <-.
    exists key, l, cs, data, l2o. split; [left; repeat split; assumption|]. split; [exact E | reflexivity].
  - cbn [bind] in H. rewrite sget_sset_same in H. apply bind_ok in H as [cs [E H]]. injection H as <-.
    exists a, [], cs, (sset a (VList []) data), (sset (lower a) a l2o).
    split; [right; repeat split|]. split; [exact E | reflexivity].
Qed.

Lemma named_cont_inv data l2o : named (VCont data l2o) ->
  sget [] l2o = None /\ Forall (fun e => named (snd e)) data.
Proof.
  intros H; inversion H as [| | |? ? Hk Hd]; subst; [contradiction|]. split; [|exact Hd].
  destruct (sget [] l2o) as [k|] eqn:E; [|reflexivity]. exfalso; apply Hk. exists k; exact E.
Qed.
Lemma named_get data l2o k x : named (VCont data l2o) -> sget k data = Some x -> named x.
Proof.
  intros H E. apply named_cont_inv in H as [_ H]. apply sget_In in E. rewrite Forall_forall in H. apply (H _ E).
Qed.
Lemma named_list_inv l : named (VList l) -> Forall named l.
Proof. intros H; inversion H; subst; [contradiction | assumption]. Qed.

(** Reading a plain name of a container without empty key. *)
Lemma get_plain data l2o a : sget [] l2o = None ->
  get_item (VCont data l2o) (mkRep [] a [] false) =
  match sget (lower a) l2o with
  | None => Ok VMissing
  | Some k => match sget k data with None => Raise KeyErr | Some x => Ok x end
  end.
Proof.
  intros H. rewrite get_item_eq. cbn [r_schema r_attr r_sub lower map]. rewrite H. reflexivity.
Qed.

Lemma lower_ne_nil a : attr_ok a -> lower a <> [].
Proof. intros H E. apply (attr_ok_nonempty _ H). apply lower_nil. exact E. Qed.

Lemma get_set_plain data l2o a x : sget [] l2o = None -> attr_ok a ->
  get_item (set_plain data l2o a x) (mkRep [] a [] false) = Ok x.
Proof.
  intros H Ha. unfold set_plain. rewrite get_plain.
  - rewrite !sget_sset_same. reflexivity.
  - rewrite sget_sset_other; [exact H | apply lower_ne_nil; exact Ha].
Qed.
Lemma get_set_plain_other data l2o a b x : good (VCont data l2o) -> sget [] l2o = None -> attr_ok a ->
  lower a <> lower b ->
  get_item (set_plain data l2o a x) (mkRep [] b [] false) = get_item (VCont data l2o) (mkRep [] b [] false).
Proof.
  intros Hg H Ha Hne. unfold set_plain. rewrite !get_plain; [|exact H|].
  2:{ rewrite sget_sset_other; [exact H | apply lower_ne_nil; exact Ha]. }
  rewrite sget_sset_other by exact Hne. destruct (sget (lower b) l2o) as [k|] eqn:E; [|reflexivity].
  destruct (good_index _ _ _ _ Hg E) as [Hl _]. rewrite sget_sset_other; [reflexivity|].
  intros ->. congruence.
Qed.

Lemma not_has_key data l2o s : ~ has_key (VCont data l2o) s <-> sget (lower s) l2o = None.
Proof.
  cbn [has_key]. destruct (sget (lower s) l2o) as [k|]; split; intros H; try easy.
  - exfalso; apply H; exists k; reflexivity.
  - intros [k H']; discriminate.
Qed.

Lemma read_noext data l2o r x c' :
  named (VCont data l2o) -> ~ has_key (VCont data l2o) (r_schema r) -> ~ same_text (r_schema r) (r_attr r) ->
  (r_sub r <> [] -> is_list x = false) ->
  set_noext (VCont data l2o) (r_attr r) (r_sub r) x = Ok c' -> get_item c' r = Ok x.
Proof.
  intros Hn Hk Hne Hx H. apply not_has_key in Hk. unfold same_text in Hne.
  destruct (r_sub r) as [|s sub] eqn:Es.
  - cbn [set_noext] in H. injection H as <-. unfold set_plain. rewrite get_item_eq, Es.
    rewrite sget_sset_other by congruence. rewrite Hk, !sget_sset_same. reflexivity.
  - assert (Hs : s :: sub <> []) by discriminate.
    apply set_noext_sub in H as [Ho [[key [d [m [H1 [H2 ->]]]]]|[H1 ->]]];
      [| |discriminate|apply Hx; discriminate].
    + rewrite get_item_eq, Es, Hk, H1, sget_sset_same. unfold get_sub, set_plain at 1.
      rewrite mk_rep_plain by exact Ho. cbn [bind]. apply get_set_plain; [|exact Ho].
      pose proof (named_get _ _ _ _ Hn H2) as Hd. apply named_cont_inv in Hd as [Hd _]. exact Hd.
    + rewrite get_item_eq, Es. rewrite sget_sset_other by congruence. rewrite Hk, !sget_sset_same.
      unfold get_sub, set_plain at 1. rewrite mk_rep_plain by exact Ho. cbn [bind].
      apply get_set_plain; [reflexivity | exact Ho].
Qed.

(** ** Frame *)

Lemma frame_core data l2o data' l2o' la r :
  good (VCont data l2o) ->
  (forall lk, lk <> la -> sget lk l2o' = sget lk l2o) ->
  (forall k, lower k <> la -> sget k data' = sget k data) ->
  lower (r_schema r) <> la -> lower (r_attr r) <> la ->
  get_item (VCont data' l2o') r = get_item (VCont data l2o) r.
Proof.
  intros Hg H1 H2 H3 H4. rewrite !get_item_eq, (H1 _ H3), (H1 _ H4).
  destruct (sget (lower (r_schema r)) l2o) as [ext|] eqn:E.
  - destruct (good_index _ _ _ _ Hg E) as [Hl _]. rewrite H2 by congruence. reflexivity.
  - destruct (sget (lower (r_attr r)) l2o) as [a|] eqn:E2; [|reflexivity].
    destruct (good_index _ _ _ _ Hg E2) as [Hl _]. rewrite H2 by congruence. reflexivity.
Qed.

Lemma frame_noext data l2o a sub x c' r :
  good (VCont data l2o) -> set_noext (VCont data l2o) a sub x = Ok c' ->
  ~ same_text (r_schema r) a -> ~ same_text (r_attr r) a -> get_item c' r = get_item (VCont data l2o) r.
Proof.
  intros Hg H Hs Ha. unfold same_text in *.
  assert (Hkey : forall key, sget (lower a) l2o = Some key -> lower key = lower a)
    by (intros key E; apply (good_index _ _ _ _ Hg E)).
  destruct sub as [|s sub].
  - cbn [set_noext] in H. injection H as <-. unfold set_plain. apply frame_core with (la := lower a); try assumption.
    + intros lk Hlk. apply sget_sset_other. congruence.
    + intros k Hk. apply sget_sset_other. congruence.
  - destruct (is_list x) eqn:El.
    + destruct x; try discriminate.
      apply set_noext_list in H as [key [conts [conts' [data' [l2o' [H [_ ->]]]]]]]; [|discriminate].
      destruct H as [[H1 [H2 [-> ->]]]|[H1 [-> [-> [-> ->]]]]].
      * apply frame_core with (la := lower a); try assumption; [reflexivity|].
        intros k Hk. apply sget_sset_other. pose proof (Hkey key H1). congruence.
      * apply frame_core with (la := lower a); try assumption.
        -- intros lk Hlk. apply sget_sset_other. congruence.
        -- intros k Hk. rewrite !sget_sset_other by congruence. reflexivity.
    + apply set_noext_sub in H as [_ [[key [d [m [H1 [H2 ->]]]]]|[H1 ->]]]; [| |discriminate|exact El].
      * apply frame_core with (la := lower a); try assumption; [reflexivity|].
        intros k Hk. apply sget_sset_other. pose proof (Hkey key H1). congruence.
      * apply frame_core with (la := lower a); try assumption.
        -- intros lk Hlk. apply sget_sset_other. congruence.
        -- intros k Hk. rewrite !sget_sset_other by congruence. reflexivity.
Qed.

(** Another sub-attribute of the same single complex attribute. *)
Lemma frame_noext_sub data l2o a sub x c' r :
  good (VCont data l2o) -> named (VCont data l2o) -> sub <> [] -> is_list x = false ->
  set_noext (VCont data l2o) a sub x = Ok c' ->
  ~ has_key (VCont data l2o) (r_schema r) -> ~ same_text (r_schema r) a ->
  same_text (r_attr r) a -> attr_ok (r_sub r) -> ~ same_text (r_sub r) sub ->
  get_item c' r = get_item (VCont data l2o) r.
Proof.
  intros Hg Hn Hs Hx H Hk Hsch Ha Hok Hne. apply not_has_key in Hk. unfold same_text in *.
  assert (Hgs : forall y, get_sub y (r_sub r) = match y with
            | VCont _ _ => get_item y (mkRep [] (r_sub r) [] false)
            | VList l => let! vs := mapM (fun y => get_item y (mkRep [] (r_sub r) [] false)) l in Ok (VList vs)
            | _ => Ok VMissing end).
  { intros y. unfold get_sub. destruct (r_sub r) as [|q s] eqn:Es.
    - exfalso. apply (attr_ok_nonempty _ Hok). reflexivity.
    - rewrite mk_rep_plain by exact Hok. reflexivity. }
  apply set_noext_sub in H as [Ho [[key [d [m [H1 [H2 ->]]]]]|[H1 ->]]]; [| |exact Hs|exact Hx].
  - rewrite !get_item_eq, Hk, Ha, H1, sget_sset_same, H2, !Hgs. unfold set_plain at 1.
    pose proof (named_get _ _ _ _ Hn H2) as Hd. apply named_cont_inv in Hd as [Hd _].
    apply get_set_plain_other; [eapply good_get; eassumption | exact Hd | exact Ho | congruence].
  - rewrite !get_item_eq. rewrite sget_sset_other by congruence.
    rewrite Hk, Ha, H1, !sget_sset_same, Hgs. unfold set_plain at 1.
    rewrite get_set_plain_other; [reflexivity | apply good_empty | reflexivity | exact Ho | congruence].
Qed.

(** ** Lists of sub-attribute values *)

Definition get_leaf (sub : str) (y : value) : res value := get_item y (mkRep [] sub [] false).

Lemma overlay_pad xs : forall old,
  overlay xs (old ++ repeat VMissing (length xs - length old)) = overlay xs old.
Proof.
  induction xs as [|x xs IH]; intros old; cbn [length].
  - cbn [Nat.sub repeat]. rewrite app_nil_r. reflexivity.
  - destruct old as [|o old]; cbn [length Nat.sub app repeat overlay].
    + f_equal; [destruct x; reflexivity|].
      specialize (IH []). cbn [length app] in IH. rewrite Nat.sub_0_r in IH. rewrite IH. destruct xs; reflexivity.
    + f_equal. apply IH.
Qed.

Lemma set_leaves_read sub xs : attr_ok sub -> forall conts conts' old,
  Forall named conts -> length xs <= length conts ->
  mapM (get_leaf sub) conts = Ok old -> set_leaves sub xs conts = Ok conts' ->
  mapM (get_leaf sub) conts' = Ok (overlay xs old).
Proof.
  intros Hok. induction xs as [|x xs IH]; intros conts conts' old Hn Hlen Hm Hs; cbn [set_leaves] in Hs.
  - injection Hs as <-. cbn [overlay]. exact Hm.
  - destruct conts as [|c conts]; [cbn in Hlen; lia|]. cbn [mapM] in Hm.
    apply bind_ok in Hm as [o [Ho Hm]]. apply bind_ok in Hm as [old' [Hm Hold]]. injection Hold as <-.
    apply bind_ok in Hs as [c' [Hc Hs]]. apply bind_ok in Hs as [cs [Hcs Hs]]. injection Hs as <-.
    inversion Hn as [|? ? Hn1 Hn2]; subst. cbn [mapM overlay].
    assert (E : get_leaf sub c' = Ok (match x with VMissing => o | _ => x end)).
    { assert (Hl : set_leaf c sub x = Ok c' -> get_leaf sub c' = Ok x).
      { intros E. apply set_leaf_ok in E as [d [m [-> [_ ->]]]]. apply get_set_plain; [|exact Hok].
        apply named_cont_inv in Hn1 as [Hn1 _]. exact Hn1. }
      destruct x; try (apply Hl; exact Hc). injection Hc as <-. exact Ho. }
    rewrite E. cbn [bind]. rewrite (IH conts cs old' Hn2); [reflexivity | cbn in Hlen; lia | exact Hm | exact Hcs].
Qed.

Lemma mapM_app {A B} (f : A -> res B) l1 l2 r1 r2 :
  mapM f l1 = Ok r1 -> mapM f l2 = Ok r2 -> mapM f (l1 ++ l2) = Ok (r1 ++ r2).
Proof.
  revert r1; induction l1 as [|x t IH]; intros r1 H1 H2; cbn [mapM app] in *.
  - injection H1 as <-. exact H2.
  - apply bind_ok in H1 as [y [E1 H1]]. apply bind_ok in H1 as [ys [E2 H1]]. injection H1 as <-.
    rewrite E1. cbn [bind]. rewrite (IH ys E2 H2). reflexivity.
Qed.
Lemma mapM_repeat {A B} (f : A -> res B) x y n : f x = Ok y -> mapM f (repeat x n) = Ok (repeat y n).
Proof. intros H. induction n as [|n IH]; cbn [repeat mapM]; [reflexivity|]. rewrite H, IH. reflexivity. Qed.

Lemma read_list data l2o r xs c' old :
  named (VCont data l2o) -> ~ has_key (VCont data l2o) (r_schema r) -> ~ same_text (r_schema r) (r_attr r) ->
  attr_ok (r_sub r) ->
  (get_item (VCont data l2o) r = Ok (VList old) \/ (get_item (VCont data l2o) r = Ok VMissing /\ old = [])) ->
  set_noext (VCont data l2o) (r_attr r) (r_sub r) (VList xs) = Ok c' ->
  get_item c' r = Ok (VList (overlay xs old)).
Proof.
  intros Hn Hk Hne Hok Hold H. apply not_has_key in Hk. unfold same_text in Hne.
  assert (Hs : r_sub r <> []) by (apply attr_ok_nonempty; exact Hok).
  apply set_noext_list in H as [key [conts [conts' [data' [l2o' [H [Hl ->]]]]]]]; [|exact Hs].
  assert (Hgs : forall l, get_sub (VList l) (r_sub r) = let! vs := mapM (get_leaf (r_sub r)) l in Ok (VList vs)).
  { intros l. unfold get_sub. destruct (r_sub r) as [|q s]; [contradiction|].
    rewrite mk_rep_plain by exact Hok. reflexivity. }
  assert (Hconts : mapM (get_leaf (r_sub r)) conts = Ok old /\ Forall named conts).
  { destruct H as [[H1 [H2 _]]|[H1 [_ [-> _]]]].
    - rewrite get_item_eq, Hk, H1, H2, Hgs in Hold.
      pose proof (named_get _ _ _ _ Hn H2) as Hnl. apply named_list_inv in Hnl. split; [|exact Hnl].
      destruct (mapM (get_leaf (r_sub r)) conts) as [vs|e]; cbn [bind] in Hold.
      + destruct Hold as [E|[E _]]; [injection E as ->; reflexivity | discriminate].
      + destruct Hold as [E|[E _]]; discriminate.
    - rewrite get_item_eq, Hk, H1 in Hold. split; [|constructor].
      destruct Hold as [E|[_ ->]]; [discriminate | reflexivity]. }
  destruct Hconts as [Hc Hnc].
  assert (Hread : mapM (get_leaf (r_sub r)) conts' = Ok (overlay xs old)).
  { rewrite <- overlay_pad. replace (length old) with (length conts) by (pose proof (mapM_length _ _ _ Hc); congruence).
    eapply set_leaves_read; [exact Hok| | | |exact Hl].
    - apply Forall_app; split; [exact Hnc|]. apply Forall_forall. intros y Hy. apply repeat_spec in Hy as ->.
      apply named_cont; [intros [k Hk']; discriminate | constructor].
    - rewrite app_length, repeat_length. lia.
    - apply mapM_app; [exact Hc|]. apply mapM_repeat. reflexivity. }
  destruct H as [[H1 [H2 [-> ->]]]|[H1 [-> [-> [-> ->]]]]].
  - rewrite get_item_eq, Hk, H1, sget_sset_same, Hgs, Hread. reflexivity.
  - rewrite get_item_eq. rewrite sget_sset_other by congruence. rewrite Hk, !sget_sset_same, Hgs, Hread. reflexivity.
Qed.

(** ** Extension writes *)

Lemma set_item_ext data l2o r x c' :
  r_ext r = true -> set_item (VCont data l2o) r x = Ok c' ->
  attr_ok (r_attr r) /\
  exists data1 l2o1 sub sub',
    ((exists k, sget (lower (r_schema r)) l2o = Some k /\ data1 = data /\ l2o1 = l2o)
     \/ (sget (lower (r_schema r)) l2o = None /\ data1 = sset (r_schema r) empty_cont data
         /\ l2o1 = sset (lower (r_schema r)) (r_schema r) l2o))
    /\ sget (r_schema r) data1 = Some sub /\ set_noext sub (r_attr r) (r_sub r) x = Ok sub'
    /\ c' = VCont (sset (r_schema r) sub' data1) l2o1.
Proof.
  intros He H. unfold set_item in H. rewrite He in H.
  assert (G : forall data1 l2o1,
     match sget (r_schema r) data1 with
     | Some sub =>
         let! r' := mk_rep [] (r_attr r) (r_sub r) false in
         let! sub' := set_noext sub (r_attr r') (r_sub r') x in
         Ok (VCont (sset (r_schema r) sub' data1) l2o1)
     | None => Raise KeyErr
     end = Ok c' ->
     attr_ok (r_attr r) /\ exists sub sub', sget (r_schema r) data1 = Some sub
       /\ set_noext sub (r_attr r) (r_sub r) x = Ok sub' /\ c' = VCont (sset (r_schema r) sub' data1) l2o1).
  { intros data1 l2o1 E. destruct (sget (r_schema r) data1) as [sub|]; [|discriminate].
    apply bind_ok in E as [r' [E1 E]]. apply mk_rep_iff in E1 as [Ha [_ ->]]. cbn [r_attr r_sub] in E.
    apply bind_ok in E as [sub' [E2 E]]. injection E as <-. split; [apply attr_ok_spec; exact Ha|].
    exists sub, sub'. repeat split. exact E2. }
  destruct (sget (lower (r_schema r)) l2o) as [k|] eqn:Ek; apply G in H as [Ha [sub [sub' [H1 [H2 H3]]]]].
  - split; [exact Ha|]. exists data, l2o, sub, sub'. split; [left; exists k; repeat split|]. repeat split; assumption.
  - split; [exact Ha|]. eexists _, _, sub, sub'. split; [right; repeat split|]. repeat split; eassumption.
Qed.

Lemma set_noext_cont c a sub x c' : set_noext c a sub x = Ok c' -> exists d m, c = VCont d m.
Proof. unfold set_noext. destruct c; try discriminate. intros _; eexists _, _; reflexivity. Qed.

Lemma named_sset_empty data l2o s : s <> [] -> named (VCont data l2o) ->
  named (VCont (sset s empty_cont data) (sset (lower s) s l2o)).
Proof.
  intros Hs H. apply named_cont_inv in H as [H1 H2]. apply named_cont.
  - apply not_has_key. cbn [lower map]. rewrite sget_sset_other; [exact H1|].
    intros E. apply (proj1 (lower_nil _)) in E. contradiction.
  - apply sset_Forall; [|exact H2]. apply named_cont; [intros [k Hk]; discriminate | constructor].
Qed.

Lemma read_ext data l2o r x c' :
  named (VCont data l2o) -> spelled (VCont data l2o) (r_schema r) -> r_schema r <> [] -> r_ext r = true ->
  (r_sub r <> [] -> is_list x = false) ->
  set_item (VCont data l2o) r x = Ok c' -> get_item c' r = Ok x.
Proof.
  intros Hn Hsp Hsch He Hx H. apply set_item_ext in H as [Ha [data1 [l2o1 [sub [sub' [Hr [Hs [Hw ->]]]]]]]]; [|exact He].
  assert (Hix : sget (lower (r_schema r)) l2o1 = Some (r_schema r)).
  { destruct Hr as [[k [Hk [-> ->]]]|[_ [-> ->]]]; [rewrite Hk, (Hsp _ Hk); reflexivity | apply sget_sset_same]. }
  assert (Hn1 : named (VCont data1 l2o1)).
  { destruct Hr as [[k [Hk [-> ->]]]|[_ [-> ->]]]; [exact Hn | apply named_sset_empty; assumption]. }
  pose proof (named_get _ _ _ _ Hn1 Hs) as Hns.
  destruct (set_noext_cont _ _ _ _ _ Hw) as [d [m ->]].
  rewrite get_item_eq, Hix, sget_sset_same. rewrite mk_rep_plain by exact Ha. cbn [bind].
  eapply read_noext; [exact Hns| | | |exact Hw].
  - apply not_has_key. cbn [r_schema lower map]. apply named_cont_inv in Hns as [Hns _]. exact Hns.
  - cbn [r_schema r_attr]. unfold same_text. intros E. cbn [lower map] in E. symmetry in E.
    apply (proj1 (lower_nil _)) in E. apply (attr_ok_nonempty _ Ha E).
  - exact Hx.
Qed.

Lemma frame_ext data l2o r x c' r2 :
  good (VCont data l2o) -> r_ext r = true -> set_item (VCont data l2o) r x = Ok c' ->
  ~ same_text (r_schema r2) (r_schema r) -> ~ same_text (r_attr r2) (r_schema r) ->
  get_item c' r2 = get_item (VCont data l2o) r2.
Proof.
  intros Hg He H Hs Ha. unfold same_text in *.
  apply set_item_ext in H as [_ [data1 [l2o1 [sub [sub' [Hr [Hsub [Hw ->]]]]]]]]; [|exact He].
  apply frame_core with (la := lower (r_schema r)); try assumption.
  - intros lk Hlk. destruct Hr as [[k [_ [_ ->]]]|[_ [_ ->]]]; [reflexivity | apply sget_sset_other; congruence].
  - intros k Hk. rewrite sget_sset_other by congruence.
    destruct Hr as [[k' [_ [-> _]]]|[_ [-> _]]]; [reflexivity | apply sget_sset_other; congruence].
Qed.

(** Another attribute of the same extension. *)
Lemma frame_ext_same data l2o r x c' r2 :
  good (VCont data l2o) -> named (VCont data l2o) -> spelled (VCont data l2o) (r_schema r) ->
  r_ext r = true -> r_schema r <> [] -> set_item (VCont data l2o) r x = Ok c' ->
  same_text (r_schema r2) (r_schema r) -> attr_ok (r_attr r2) -> ~ same_text (r_attr r2) (r_attr r) ->
  (has_key (VCont data l2o) (r_schema r) \/ ~ has_key (VCont data l2o) (r_attr r2)) ->
  get_item c' r2 = get_item (VCont data l2o) r2.
Proof.
  intros Hg Hn Hsp He Hsch H Hs Ha Hne Hk. pose proof H as Hset.
  apply set_item_ext in H as [Har [data1 [l2o1 [sub [sub' [Hr [Hsub [Hw ->]]]]]]]]; [|exact He].
  destruct (set_noext_cont _ _ _ _ _ Hw) as [d [m ->]].
  assert (Hnil : forall a, attr_ok a -> ~ same_text [] a).
  { intros a Ho E. unfold same_text in E. cbn [lower map] in E. symmetry in E. apply (lower_ne_nil _ Ho E). }
  rewrite !get_item_eq, Hs. rewrite mk_rep_plain by exact Ha. cbn [bind].
  destruct Hr as [[k [Hk1 [-> ->]]]|[Hk1 [-> ->]]].
  - rewrite Hk1, (Hsp _ Hk1), sget_sset_same, Hsub.
    eapply frame_noext; [eapply good_get; eassumption | exact Hw | apply Hnil; exact Har | exact Hne].
  - rewrite !sget_sset_same. rewrite sget_sset_same in Hsub. injection Hsub as <- <-.
    rewrite Hk1. destruct Hk as [[k Hk]|Hk]; [congruence|]. apply not_has_key in Hk. rewrite Hk.
    rewrite (frame_noext _ _ _ _ _ _ (mkRep [] (r_attr r2) (r_sub r2) false) good_empty Hw);
      [reflexivity | apply Hnil; exact Har | exact Hne].
Qed.

(** ** Deletion *)

Lemma aupd_same k f d x : sget k d = Some x -> f x = Ok x -> aupd k f d = Ok d.
Proof.
  unfold sget. induction d as [|[k' y] t IH]; cbn [aget aupd]; [discriminate|].
  destruct (str_eqb k' k).
  - intros H Hf; injection H as ->. rewrite Hf. reflexivity.
  - intros H Hf. rewrite (IH H Hf). reflexivity.
Qed.

(** Deleting a plain name that is not routed to an extension. *)
Lemma del_plain data l2o r v' :
  good (VCont data l2o) -> ~ has_key (VCont data l2o) (r_schema r) -> r_sub r = [] ->
  del_item (VCont data l2o) r = Ok v' -> get_item v' r = Ok VMissing.
Proof.
  intros Hg Hk Hs H. apply not_has_key in Hk. rewrite del_item_eq, Hk, Hs in H.
  apply good_cont_inv in Hg as [_ [Hnd _]].
  destruct (sget (lower (r_attr r)) l2o) as [a|] eqn:Ea.
  - destruct (sget a data); [|discriminate]. injection H as <-. rewrite get_item_eq.
    rewrite (sget_sdel_same (lower (r_attr r))) by exact Hnd.
    destruct (str_eqb_spec (lower (r_schema r)) (lower (r_attr r))) as [E|E].
    + rewrite E, sget_sdel_same by exact Hnd. reflexivity.
    + rewrite sget_sdel_other by exact E. rewrite Hk. reflexivity.
  - injection H as <-. rewrite get_item_eq, Hk, Ea. reflexivity.
Qed.

Lemma del_is_cont data l2o r v' : del_item (VCont data l2o) r = Ok v' -> exists d m, v' = VCont d m.
Proof.
  rewrite del_item_eq. intros H.
  destruct (sget (lower (r_schema r)) l2o).
  - apply bind_ok in H as [r' [_ H]]. apply bind_ok in H as [d [_ H]]. injection H as <-. eexists _, _; reflexivity.
  - destruct (sget (lower (r_attr r)) l2o); [|injection H as <-; eexists _, _; reflexivity].
    destruct (r_sub r).
    + destruct (sget s data); [|discriminate]. injection H as <-. eexists _, _; reflexivity.
    + apply bind_ok in H as [d [_ H]]. injection H as <-. eexists _, _; reflexivity.
Qed.

Lemma del_noext data l2o r v' :
  good (VCont data l2o) -> named (VCont data l2o) -> ~ has_key (VCont data l2o) (r_schema r) ->
  (r_sub r = [] \/ attr_ok (r_sub r)) ->
  del_item (VCont data l2o) r = Ok v' -> exists y, get_item v' r = Ok y /\ nothing y.
Proof.
  intros Hg Hn Hk Hs H. destruct Hs as [Hs|Hok].
  - exists VMissing. split; [eapply del_plain; eassumption | left; reflexivity].
  - pose proof Hk as Hk0. apply not_has_key in Hk. rewrite del_item_eq, Hk in H.
    destruct (sget (lower (r_attr r)) l2o) as [a|] eqn:Ea.
    2:{ injection H as <-. exists VMissing. split; [rewrite get_item_eq, Hk, Ea; reflexivity | left; reflexivity]. }
    destruct (r_sub r) as [|q s] eqn:Es; [exfalso; apply (attr_ok_nonempty _ Hok); reflexivity|].
    apply bind_ok in H as [data' [Hu H]]. injection H as <-.
    destruct (aupd_get _ _ _ _ Hu) as [x [x' [H1 [H2 [H3 _]]]]].
    rewrite get_item_eq, Hk, Ea, H3, Es. unfold get_sub.
    pose proof (named_get _ _ _ _ Hn H1) as Hnx. pose proof (good_get _ _ _ _ Hg H1) as Hgx.
    assert (Hleaf : forall y y', named y -> good y -> del_item y (mkRep [] (q :: s) [] false) = Ok y' ->
                                 get_item y' (mkRep [] (q :: s) [] false) = Ok VMissing).
    { intros y y' Hny Hgy Hd. destruct y; try discriminate.
      eapply del_plain; [exact Hgy | | reflexivity | exact Hd].
      apply not_has_key. apply named_cont_inv in Hny as [Hny _]. exact Hny. }
    unfold del_sub in H2. rewrite mk_rep_plain in H2 by exact Hok. rewrite mk_rep_plain by exact Hok.
    cbn [bind] in *. destruct x;
      try (injection H2 as <-; exists VMissing; split; [reflexivity | left; reflexivity]).
    + apply bind_ok in H2 as [ys [Hm H2]]. injection H2 as <-.
      exists (VList (repeat VMissing (length ys))). split; [|right; eexists; reflexivity].
      apply named_list_inv in Hnx. apply good_list_inv in Hgx.
      assert (E : mapM (fun y => get_item y (mkRep [] (q :: s) [] false)) ys = Ok (repeat VMissing (length ys))).
      { clear Hu H1 H3. revert ys Hm. induction l as [|y t IH]; intros ys Hm; cbn [mapM] in Hm.
        - injection Hm as <-. reflexivity.
        - apply bind_ok in Hm as [z [E1 Hm]]. apply bind_ok in Hm as [zs [E2 Hm]]. injection Hm as <-.
          inversion Hnx; subst. inversion Hgx; subst. cbn [mapM length repeat].
          rewrite (Hleaf y z) by assumption. cbn [bind]. rewrite IH by assumption. reflexivity. }
      rewrite E. reflexivity.
    + destruct (del_is_cont _ _ _ _ H2) as [d [m ->]]. exists VMissing. split; [|left; reflexivity].
      apply (Hleaf (VCont data0 l2o0)); assumption.
Qed.

Lemma del_read v r v' :
  good v -> named v -> rep_ok r -> del_item v r = Ok v' -> exists y, get_item v' r = Ok y /\ nothing y.
Proof.
  intros Hg Hn [Ha Hs] H. destruct v; try discriminate.
  destruct (sget (lower (r_schema r)) l2o) as [ext|] eqn:E.
  - rewrite del_item_eq, E, mk_rep_plain in H by exact Ha. cbn [bind] in H.
    apply bind_ok in H as [data' [Hu H]]. injection H as <-.
    destruct (aupd_get _ _ _ _ Hu) as [x [x' [H1 [H2 [H3 _]]]]].
    rewrite get_item_eq, E, mk_rep_plain by exact Ha. cbn [bind]. rewrite H3.
    destruct x; try discriminate. pose proof (named_get _ _ _ _ Hn H1) as Hnx.
    eapply del_noext; [eapply good_get; eassumption | exact Hnx | | exact Hs | exact H2].
    apply not_has_key. apply named_cont_inv in Hnx as [Hnx _]. exact Hnx.
  - eapply del_noext; [exact Hg | exact Hn | apply not_has_key; exact E | exact Hs | exact H].
Qed.

(** Deletion does not affect reads of other top-level names. *)
Lemma del_frame data l2o r v' r2 :
  good (VCont data l2o) -> ~ has_key (VCont data l2o) (r_schema r) -> del_item (VCont data l2o) r = Ok v' ->
  ~ same_text (r_schema r2) (r_attr r) -> ~ same_text (r_attr r2) (r_attr r) ->
  get_item v' r2 = get_item (VCont data l2o) r2.
Proof.
  intros Hg Hk H Hs Ha. unfold same_text in *. apply not_has_key in Hk. rewrite del_item_eq, Hk in H.
  destruct (sget (lower (r_attr r)) l2o) as [a|] eqn:Ea; [|injection H as <-; reflexivity].
  destruct (good_index _ _ _ _ Hg Ea) as [Hl _].
  destruct (r_sub r) as [|q s].
  - destruct (sget a data); [|discriminate]. injection H as <-.
    apply frame_core with (la := lower (r_attr r)); try assumption.
    + intros lk Hlk. apply sget_sdel_other. exact Hlk.
    + intros k Hlk. apply sget_sdel_other. congruence.
  - apply bind_ok in H as [data' [Hu H]]. injection H as <-.
    apply frame_core with (la := lower (r_attr r)); try assumption; [reflexivity|].
    intros k Hlk. destruct (aupd_get _ _ _ _ Hu) as [_ [_ [_ [_ [_ H4]]]]]. apply H4. congruence.
Qed.

(** Deletion inside an extension. *)
Lemma del_frame_ext data l2o r v' r2 :
  good (VCont data l2o) -> has_key (VCont data l2o) (r_schema r) -> del_item (VCont data l2o) r = Ok v' ->
  ~ same_text (r_schema r2) (r_schema r) -> ~ same_text (r_attr r2) (r_schema r) ->
  get_item v' r2 = get_item (VCont data l2o) r2.
Proof.
  intros Hg [ext Hk] H Hs Ha. unfold same_text in *. rewrite del_item_eq, Hk in H.
  apply bind_ok in H as [r' [_ H]]. apply bind_ok in H as [data' [Hu H]]. injection H as <-.
  destruct (good_index _ _ _ _ Hg Hk) as [Hl _].
  apply frame_core with (la := lower (r_schema r)); try assumption; [reflexivity|].
  intros k Hlk. destruct (aupd_get _ _ _ _ Hu) as [_ [_ [_ [_ [_ H4]]]]]. apply H4. congruence.
Qed.

Lemma del_frame_ext_same data l2o r v' r2 :
  good (VCont data l2o) -> named (VCont data l2o) -> has_key (VCont data l2o) (r_schema r) ->
  del_item (VCont data l2o) r = Ok v' -> attr_ok (r_attr r) -> attr_ok (r_attr r2) ->
  same_text (r_schema r2) (r_schema r) -> ~ same_text (r_attr r2) (r_attr r) ->
  get_item v' r2 = get_item (VCont data l2o) r2.
Proof.
  intros Hg Hn [ext Hk] H Ho Ho2 Hs Ha. unfold same_text in Hs.
  rewrite del_item_eq, Hk, mk_rep_plain in H by exact Ho. cbn [bind] in H.
  apply bind_ok in H as [data' [Hu H]]. injection H as <-.
  destruct (aupd_get _ _ _ _ Hu) as [x [x' [H1 [H2 [H3 _]]]]].
  rewrite !get_item_eq, Hs, Hk, H3, H1, mk_rep_plain by exact Ho2. cbn [bind].
  destruct x; try discriminate. pose proof (named_get _ _ _ _ Hn H1) as Hnx.
  eapply del_frame; [eapply good_get; eassumption | | exact H2 | | exact Ha].
  - apply not_has_key. apply named_cont_inv in Hnx as [Hnx _]. exact Hnx.
  - cbn [r_schema r_attr]. unfold same_text. intros E. cbn [lower map] in E. symmetry in E.
    apply (lower_ne_nil _ Ho E).
Qed.

(** Other sub-attributes of the same attribute survive. *)
Lemma del_frame_sub data l2o r v' r2 :
  good (VCont data l2o) -> named (VCont data l2o) -> ~ has_key (VCont data l2o) (r_schema r) ->
  attr_ok (r_sub r) -> del_item (VCont data l2o) r = Ok v' ->
  ~ has_key (VCont data l2o) (r_schema r2) -> same_text (r_attr r2) (r_attr r) ->
  attr_ok (r_sub r2) -> ~ same_text (r_sub r2) (r_sub r) ->
  get_item v' r2 = get_item (VCont data l2o) r2.
Proof.
  intros Hg Hn Hk Hok H Hk2 Ha Hok2 Hne. apply not_has_key in Hk. apply not_has_key in Hk2.
  unfold same_text in Ha. rewrite del_item_eq, Hk in H.
  destruct (sget (lower (r_attr r)) l2o) as [a|] eqn:Ea; [|injection H as <-; reflexivity].
  destruct (r_sub r) as [|q s] eqn:Es; [exfalso; apply (attr_ok_nonempty _ Hok); reflexivity|].
  apply bind_ok in H as [data' [Hu H]]. injection H as <-.
  destruct (aupd_get _ _ _ _ Hu) as [x [x' [H1 [H2 [H3 _]]]]].
  rewrite !get_item_eq, Hk2, Ha, Ea, H3, H1.
  unfold get_sub. destruct (r_sub r2) as [|q2 s2] eqn:Es2; [exfalso; apply (attr_ok_nonempty _ Hok2); reflexivity|].
  unfold del_sub in H2. rewrite mk_rep_plain in H2 by exact Hok. rewrite mk_rep_plain by exact Hok2.
  cbn [bind] in *.
  assert (Hleaf : forall y y', named y -> good y -> del_item y (mkRep [] (q :: s) [] false) = Ok y' ->
                     get_item y' (mkRep [] (q2 :: s2) [] false) = get_item y (mkRep [] (q2 :: s2) [] false)).
  { intros y y' Hny Hgy Hd. destruct y; try discriminate.
    eapply del_frame; [exact Hgy | | exact Hd | | exact Hne].
    - apply not_has_key. apply named_cont_inv in Hny as [Hny _]. exact Hny.
    - cbn [r_schema r_attr]. unfold same_text. intros E. cbn [lower map] in E. symmetry in E.
      apply (lower_ne_nil _ Hok E). }
  pose proof (named_get _ _ _ _ Hn H1) as Hnx. pose proof (good_get _ _ _ _ Hg H1) as Hgx.
  destruct x; try (injection H2 as <-; reflexivity).
  - apply bind_ok in H2 as [ys [Hm H2]]. injection H2 as <-. f_equal.
    apply named_list_inv in Hnx. apply good_list_inv in Hgx. clear Hu H1 H3.
    revert ys Hm. induction l as [|y t IH]; intros ys Hm; cbn [mapM] in Hm.
    + injection Hm as <-. reflexivity.
    + apply bind_ok in Hm as [z [E1 Hm]]. apply bind_ok in Hm as [zs [E2 Hm]]. injection Hm as <-.
      inversion Hnx; subst. inversion Hgx; subst. cbn [mapM].
      rewrite (Hleaf y z) by assumption. apply bind_ext; intros w. rewrite IH by assumption. reflexivity.
  - destruct (del_is_cont _ _ _ _ H2) as [d [m ->]]. apply (Hleaf (VCont data0 l2o0)); assumption.
Qed.

(** Deleting what reads as nothing changes nothing. *)
Lemma no_missing_get data l2o k x : no_missing (VCont data l2o) -> sget k data = Some x -> x <> VMissing /\ no_missing x.
Proof.
  intros H E. inversion H as [| | |? ? Hd]; subst; [contradiction|]. apply sget_In in E.
  rewrite Forall_forall in Hd. apply (Hd _ E).
Qed.

Lemma del_absent_plain v a :
  named v -> no_missing v -> get_item v (mkRep [] a [] false) = Ok VMissing -> del_item v (mkRep [] a [] false) = Ok v.
Proof.
  intros Hn Hm H. destruct v; try discriminate. apply named_cont_inv in Hn as [Hn _].
  rewrite get_plain in H by exact Hn. rewrite del_item_eq. cbn [r_schema r_attr r_sub]. change (lower []) with (@nil ascii). rewrite Hn.
  destruct (sget (lower a) l2o) as [k|]; [|reflexivity]. destruct (sget k data) as [x|] eqn:E; [|discriminate].
  injection H as ->. exfalso. apply (no_missing_get _ _ _ _ Hm E). reflexivity.
Qed.

Lemma del_absent_noext data l2o r y :
  named (VCont data l2o) -> no_missing (VCont data l2o) -> ~ has_key (VCont data l2o) (r_schema r) ->
  (r_sub r = [] \/ attr_ok (r_sub r)) ->
  get_item (VCont data l2o) r = Ok y -> y = VMissing \/ (exists n, y = VList (repeat VMissing (S n))) ->
  del_item (VCont data l2o) r = Ok (VCont data l2o).
Proof.
  intros Hn Hm Hk Hs H Hy. apply not_has_key in Hk. rewrite get_item_eq, Hk in H. rewrite del_item_eq, Hk.
  destruct (sget (lower (r_attr r)) l2o) as [a|]; [|reflexivity].
  destruct (sget a data) as [x|] eqn:Ex; [|discriminate].
  destruct (no_missing_get _ _ _ _ Hm Ex) as [Hx1 Hx2].
  assert (Hbad : forall z, z <> VMissing -> no_missing z -> z = VMissing \/ (exists n, z = VList (repeat VMissing (S n))) -> False).
  { intros z Hz1 Hz2 [->|[n ->]]; [contradiction|]. inversion Hz2 as [|? Hf| |]; subst; [contradiction|].
    cbn [repeat] in Hf. inversion Hf as [|? ? [H1 _]]; subst. contradiction. }
  destruct (r_sub r) as [|q s] eqn:Es.
  - cbn [get_sub] in H. injection H as ->. exfalso. apply (Hbad y); assumption.
  - destruct Hs as [Hs|Hok]; [discriminate|].
    rewrite (aupd_same a _ data x Ex); [reflexivity|].
    unfold get_sub in H. rewrite mk_rep_plain in H by exact Hok. unfold del_sub. rewrite mk_rep_plain by exact Hok.
    cbn [bind] in *. pose proof (named_get _ _ _ _ Hn Ex) as Hnx.
    destruct x; try reflexivity.
    + destruct (mapM (fun y => get_item y (mkRep [] (q :: s) [] false)) l) as [vs|e] eqn:Ev; cbn [bind] in H; [|discriminate].
      injection H as <-. destruct Hy as [Hy|[n Hy]]; try discriminate. injection Hy as ->.
      change (VMissing :: repeat VMissing n) with (repeat VMissing (S n)) in Ev. revert Ev. generalize (S n). intros m Ev.
      apply named_list_inv in Hnx.
      assert (Hml : Forall (fun x => x <> VMissing /\ no_missing x) l) by (inversion Hx2; subst; [contradiction | assumption]).
      assert (E : mapM (fun y => del_item y (mkRep [] (q :: s) [] false)) l = Ok l).
      { clear Ex Hx1 Hx2. revert m Ev. induction l as [|y t IH]; intros m Ev; [reflexivity|]. cbn [mapM] in *.
        apply bind_ok in Ev as [z [E1 Ev]]. apply bind_ok in Ev as [zs [E2 Ev]]. injection Ev as Ev.
        destruct m as [|m]; [discriminate|]. cbn [repeat] in Ev. injection Ev as -> ->.
        inversion Hnx as [|? ? Hn1 Hn2]; subst. inversion Hml as [|? ? [_ Hm1] Hm2]; subst.
        rewrite (del_absent_plain y (q :: s)) by assumption. cbn [bind]. rewrite (IH Hn2 Hm2 m E2). reflexivity. }
      rewrite E. reflexivity.
    + apply del_absent_plain; [exact Hnx | exact Hx2|].
      destruct Hy as [->|Hy]; [exact H|]. exfalso.
      apply named_cont_inv in Hnx as [Hnx0 _]. rewrite get_plain in H by exact Hnx0.
      destruct (sget (lower (q :: s)) l2o0) as [k|]; [|injection H as <-; destruct Hy as [? ?]; discriminate].
      destruct (sget k data0) as [z|] eqn:Ez; [|discriminate]. injection H as ->.
      destruct (no_missing_get _ _ _ _ Hx2 Ez) as [Hz1 Hz2]. apply (Hbad y Hz1 Hz2). right. exact Hy.
Qed.

Lemma del_absent v r y :
  named v -> no_missing v -> rep_ok r ->
  get_item v r = Ok y -> y = VMissing \/ (exists n, y = VList (repeat VMissing (S n))) ->
  del_item v r = Ok v.
Proof.
  intros Hn Hm [Ha Hs] H Hy. destruct v; try discriminate.
  destruct (sget (lower (r_schema r)) l2o) as [ext|] eqn:E.
  - rewrite get_item_eq, E, mk_rep_plain in H by exact Ha. rewrite del_item_eq, E, mk_rep_plain by exact Ha.
    cbn [bind] in *. destruct (sget ext data) as [x|] eqn:Ex; [|discriminate].
    rewrite (aupd_same ext _ data x Ex); [reflexivity|]. destruct x; try discriminate.
    pose proof (named_get _ _ _ _ Hn Ex) as Hnx.
    eapply del_absent_noext; [exact Hnx | apply (no_missing_get _ _ _ _ Hm Ex) | | exact Hs | exact H | exact Hy].
    apply not_has_key. apply named_cont_inv in Hnx as [Hnx _]. exact Hnx.
  - eapply del_absent_noext; [exact Hn | exact Hm | apply not_has_key; exact E | exact Hs | exact H | exact Hy].
Qed.
