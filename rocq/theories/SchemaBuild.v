(** Schemas built from neat attribute lists are well formed. *)
From Verif Require Import PyBase BaseFacts PyNum Issues IssuesSpec IssuesFacts AttrRep AttrRepSpec AttrRepFacts Value ValueFacts
  Container ContainerSpec ContainerFacts ContainerRW Types TypesSpec Attr Schema AttrSpec AttrFacts AttrHonest AttrItems PropAttr
  SchemaSpec SchemaFacts.

Lemma NoDup_app_intro {A} (l1 l2 : list A) : NoDup l1 -> NoDup l2 -> (forall x, In x l1 -> ~ In x l2) -> NoDup (l1 ++ l2).
Proof.
  induction l1 as [|a t IH]; cbn [app]; intros H1 H2 H; [exact H2|]. inversion H1 as [|? ? N1 N2]; subst. constructor.
  - intros G. apply in_app_iff in G as [G|G]; [contradiction|]. exact (H a (or_introl eq_refl) G).
  - apply IH; [exact N2 | exact H2|]. intros x Hx. apply H. right; exact Hx.
Qed.

Definition key_of (a : attribute) : str * str * str := (r_schema (arep a), r_attr (arep a), r_sub (arep a)).

Lemma same_key_spec a b : same_key (arep a) (arep b) = true <-> key_of a = key_of b.
Proof.
  unfold same_key, key_of. rewrite !andb_true_iff, !str_eqb_eq. split.
  - intros [[-> ->] ->]. reflexivity.
  - intros H. injection H as -> -> ->. auto.
Qed.

Lemma put_attr_absent a l : ~ In (key_of a) (map key_of l) -> put_attr a l = l ++ [a].
Proof.
  induction l as [|b t IH]; cbn [put_attr map app]; intros H; [reflexivity|].
  destruct (same_key (arep b) (arep a)) eqn:E.
  - apply same_key_spec in E. exfalso. apply H. left; exact E.
  - rewrite IH; [reflexivity|]. intros G. apply H. right; exact G.
Qed.
Lemma put_attr_In a l b : In b (put_attr a l) -> b = a \/ In b l.
Proof.
  induction l as [|c t IH]; cbn [put_attr]; [intros [<-|[]]; left; reflexivity|].
  destruct (same_key (arep c) (arep a)); intros [<-|H]; auto.
  - right; right; exact H.
  - right; left; reflexivity.
  - destruct (IH H) as [->|G]; [left; reflexivity | right; right; exact G].
Qed.
Lemma dedup_app l : forall acc, NoDup (map key_of (acc ++ l)) -> fold_left (fun acc a => put_attr a acc) l acc = acc ++ l.
Proof.
  induction l as [|a t IH]; intros acc H; cbn [fold_left]; [rewrite app_nil_r; reflexivity|].
  rewrite put_attr_absent.
  - rewrite IH; [rewrite <- app_assoc; reflexivity|]. rewrite <- app_assoc. exact H.
  - rewrite map_app in H. cbn [map] in H. apply NoDup_remove_2 in H. intros G. apply H. apply in_or_app. left; exact G.
Qed.
Lemma dedup_id l : NoDup (map key_of l) -> dedup_attrs l = l.
Proof. intros H. exact (dedup_app l [] H). Qed.
Lemma dedup_In l : forall acc b, In b (fold_left (fun acc a => put_attr a acc) l acc) -> In b acc \/ In b l.
Proof.
  induction l as [|a t IH]; intros acc b H; cbn [fold_left] in H; [left; exact H|].
  apply IH in H as [H|H]; [|right; right; exact H]. apply put_attr_In in H as [->|H]; [right; left; reflexivity | left; exact H].
Qed.
Lemma dedup_names l : distinct_names l -> Forall (fun s => plain_rep (arep s)) l -> dedup_attrs l = l.
Proof.
  intros Hd Hp. apply dedup_id. unfold distinct_names in Hd. revert Hd. clear Hp.
  induction l as [|a t IH]; cbn [map]; intros H; [constructor|]. inversion H as [|? ? H1 H2]; subst.
  constructor; [|apply IH; exact H2]. intros G. apply H1. apply in_map_iff in G as [b [E Hb]]. injection E as _ E _.
  apply in_map_iff. exists b. split; [rewrite E; reflexivity | exact Hb].
Qed.

Lemma bound_rep r a : arep (bound_attr r a) = r.
Proof. destruct a as [i [[[subs cps] cds]|]]; reflexivity. Qed.
Lemma bound_sound r a : sound_attr a -> sound_attr (bound_attr r a).
Proof.
  intros H. inversion H as [? H1 H2|? ? ? ? Ht H1 H2 H3 H4 H5 H6]; subst; cbn [bound_attr].
  - constructor; assumption.
  - constructor; try assumption; try reflexivity; rewrite Forall_forall in *; intros s Hs; apply dedup_In in Hs as [[]|Hs]; auto.
Qed.
Lemma bound_subs r a : sound_attr a -> distinct_names (sub_attrs a) -> sub_attrs (bound_attr r a) = sub_attrs a.
Proof.
  intros H Hd. inversion H as [? H1 H2|? ? ? ? Ht H1 H2 H3 H4 H5 H6]; subst; cbn [bound_attr sub_attrs] in *; [reflexivity|].
  apply dedup_names; assumption.
Qed.

Definition no_sub (a : attribute) : bool := negb (nonempty (r_sub (arep a))).

Lemma subs_plain a : sound_attr a -> Forall (fun s => plain_rep (arep s)) (sub_attrs a).
Proof. intros H. inversion H; subst; cbn [sub_attrs]; [constructor | assumption]. Qed.

Lemma bound_all_top uri ext a : sound_attr a ->
  filter no_sub (bound_all uri ext a) = [bound_attr (mkRep uri (r_attr (arep a)) [] ext) a].
Proof.
  intros H. unfold bound_all. cbn [filter]. unfold no_sub at 1. rewrite bound_rep. cbn [r_sub nonempty negb]. f_equal.
  pose proof (subs_plain a H) as Hp. induction Hp as [|s t [_ [_ [_ Hs]]] Ht IH]; cbn [map filter]; [reflexivity|].
  unfold no_sub at 1. rewrite bound_rep. cbn [r_sub]. destruct (r_attr (arep s)) as [|c n] eqn:E.
  - exfalso. exact (attr_ok_nonempty _ Hs eq_refl).
  - cbn [nonempty negb]. exact IH.
Qed.
Lemma bound_tops uri ext l : Forall sound_attr l ->
  filter no_sub (flat_map (bound_all uri ext) l) = map (fun a => bound_attr (mkRep uri (r_attr (arep a)) [] ext) a) l.
Proof.
  induction 1 as [|a t Ha Ht IH]; cbn [flat_map map]; [reflexivity|]. rewrite filter_app, IH, bound_all_top by exact Ha. reflexivity.
Qed.

Lemma bound_keys uri ext l : neat l -> NoDup (map key_of (flat_map (bound_all uri ext) l)).
Proof.
  intros [Hl Hd]. unfold distinct_names in Hd.
  assert (Hkeys : forall a k, In k (map key_of (bound_all uri ext a)) -> snd (fst k) = r_attr (arep a)).
  { intros a k H. apply in_map_iff in H as [b [<- Hb]]. destruct Hb as [<-|Hb]; unfold key_of; [rewrite bound_rep; reflexivity|].
    apply in_map_iff in Hb as [s [<- _]]. rewrite bound_rep. reflexivity. }
  induction Hl as [|a t [Ha [Hp Hs]] Ht IH]; cbn [flat_map map] in *; [constructor|]. inversion Hd as [|? ? H1 H2]; subst.
  rewrite map_app. apply NoDup_app_intro.
  - unfold bound_all. cbn [map]. unfold key_of at 1. rewrite bound_rep. cbn [r_schema r_attr r_sub]. constructor.
    + intros G. rewrite map_map in G. apply in_map_iff in G as [s [E Hin]]. unfold key_of in E. rewrite bound_rep in E. injection E as E.
      pose proof (subs_plain a Ha) as Hsp. rewrite Forall_forall in Hsp. destruct (Hsp s Hin) as [_ [_ [_ G]]].
      exact (attr_ok_nonempty _ G E).
    + rewrite map_map. unfold distinct_names in Hs. revert Hs. generalize (sub_attrs a). clear.
      induction l as [|s t IH]; cbn [map]; intros H; [constructor|]. inversion H as [|? ? H1 H2]; subst.
      constructor; [|apply IH; exact H2]. intros G. apply H1. apply in_map_iff in G as [s' [E Hin]].
      unfold key_of in E. rewrite !bound_rep in E. injection E as E. apply in_map_iff. exists s'. split; [rewrite E; reflexivity | exact Hin].
  - apply IH. exact H2.
  - intros k G1 G2. apply H1. pose proof (Hkeys a k G1) as E1.
    apply in_map_iff in G2 as [b [E Hb]]. apply in_flat_map in Hb as [a' [Ha' Hb]].
    assert (E2 : snd (fst k) = r_attr (arep a')) by (apply Hkeys; apply in_map_iff; exists b; auto).
    apply in_map_iff. exists a'. split; [congruence | exact Ha'].
Qed.

(** The shape that construction maintains. *)
Definition assembled (s : schema) : Prop :=
  wf_schema s /\ NoDup (map key_of (at_all (sc_attrs s))) /\ at_top (sc_attrs s) = filter no_sub (at_all (sc_attrs s))
  /\ Forall (fun a => if r_ext (arep a) then In (r_schema (arep a)) (map fst (sc_exts s)) else r_schema (arep a) = sc_uri s)
            (at_all (sc_attrs s)).

Lemma schemas_attr_neat : sound_attr schemas_attr /\ plain_rep (arep schemas_attr) /\ distinct_names (sub_attrs schemas_attr).
Proof.
  split; [constructor; constructor|]. split; [apply ex_plain; reflexivity | constructor].
Qed.

Lemma base_assembled uri l : uri <> [] -> neat (schemas_attr :: l) ->
  (forall a, In a (schemas_attr :: l) -> lower (r_attr (arep a)) <> lower uri) -> assembled (base_schema uri l).
Proof.
  intros Hu Hn Hnames. set (L := schemas_attr :: l) in *. pose proof Hn as [Hl Hd].
  assert (Hsnd : Forall sound_attr L) by (revert Hl; apply Forall_impl; intros a [H _]; exact H).
  assert (Htop : at_top (sc_attrs (base_schema uri l)) = map (fun a => bound_attr (mkRep uri (r_attr (arep a)) [] false) a) L).
  { cbn [base_schema sc_attrs mk_attrs at_top]. apply bound_tops. exact Hsnd. }
  assert (Hall : at_all (sc_attrs (base_schema uri l)) = flat_map (bound_all uri false) L).
  { cbn [base_schema sc_attrs mk_attrs at_all]. apply dedup_id. apply bound_keys. exact Hn. }
  split; [constructor|split; [|split]].
  - unfold sc_schemas. cbn [base_schema sc_uri sc_exts map]. split; [repeat constructor; intros []|].
    intros [E|[]]. congruence.
  - rewrite Htop. apply Forall_forall. intros b Hb. apply in_map_iff in Hb as [a [<- Ha]]. rewrite Forall_forall in Hl.
    destruct (Hl a Ha) as [H1 [[_ [_ [_ H2]]] _]]. rewrite bound_rep. cbn [r_sub r_attr r_ext r_schema].
    split; [apply bound_sound; exact H1|]. split; [reflexivity|]. split; [exact H2 | reflexivity].
  - rewrite Htop, map_map. unfold distinct_names in Hd. revert Hd. clear. generalize L. intros l'.
    induction l' as [|a t IH]; cbn [map]; intros H; [constructor|]. inversion H as [|? ? H1 H2]; subst.
    constructor; [|apply IH; exact H2]. intros G. apply H1. apply in_map_iff in G as [b [E Hb]]. rewrite !bound_rep in E. injection E as E.
    apply in_map_iff. exists b. split; [exact E | exact Hb].
  - rewrite Htop. intros b Hb _. apply in_map_iff in Hb as [a [<- Ha]]. rewrite bound_rep. cbn [r_attr].
    unfold sc_schemas. cbn [base_schema sc_uri sc_exts map]. intros [G|[]]. apply (Hnames a Ha). symmetry. exact G.
  - rewrite Hall. apply bound_keys. exact Hn.
  - rewrite Hall, Htop. symmetry. apply bound_tops. exact Hsnd.
  - rewrite Hall. apply Forall_forall. intros b Hb. apply in_flat_map in Hb as [a [_ Hb]]. destruct Hb as [<-|Hb].
    + rewrite bound_rep. reflexivity.
    + apply in_map_iff in Hb as [s [<- _]]. rewrite bound_rep. reflexivity.
Qed.

Lemma resource_assembled uri l name descr plural oi oe om :
  let get o d := match o with Some a => a | None => d end in
  let l' := get oi id_attr :: get oe external_id_attr :: get om meta_attr :: l in
  uri <> [] -> neat (schemas_attr :: l') ->
  (forall a, In a (schemas_attr :: l') -> lower (r_attr (arep a)) <> lower uri) ->
  assembled (resource_schema uri l name descr plural oi oe om).
Proof.
  intros get l' Hu Hn Hna. destruct (base_assembled uri l' Hu Hn Hna) as [[W1 W2 W3 W4] [A1 [A2 A3]]].
  split; [constructor|split; [|split]]; assumption.
Qed.

Lemma filter_app_eq {A} (f : A -> bool) l1 l2 : filter f (l1 ++ l2) = filter f l1 ++ filter f l2.
Proof. apply filter_app. Qed.

Lemma extension_assembled s e req s' : assembled s -> neat (at_all (ex_attrs e)) -> ex_uri e <> [] ->
  ~ listed (ex_uri e) (sc_schemas s) ->
  (forall a, In a (at_top (sc_attrs s)) -> r_ext (arep a) = false -> lower (r_attr (arep a)) <> lower (ex_uri e)) ->
  with_extension s e req = Ok s' -> assembled s'
  /\ at_all (sc_attrs s') = at_all (sc_attrs s) ++ flat_map (bound_all (ex_uri e) true) (at_all (ex_attrs e))
  /\ at_top (sc_attrs s') = at_top (sc_attrs s) ++ map (fun a => bound_attr (mkRep (ex_uri e) (r_attr (arep a)) [] true) a) (at_all (ex_attrs e))
  /\ sc_uri s' = sc_uri s /\ sc_exts s' = sc_exts s ++ [(ex_uri e, req)].
Proof.
  intros [[W1 W2 W3 W4] [A1 [A2 A3]]] Hn Hu Hnl Hnames H. unfold with_extension in H.
  destruct (smem (ex_uri e) (map lower (sc_schemas s))); [discriminate|].
  set (L := at_all (ex_attrs e)) in *. set (u := ex_uri e) in *.
  assert (H' : s' = mkSchema (sc_uri s) (mk_attrs (at_all (sc_attrs s) ++ flat_map (bound_all u true) L)) (sset u req (sc_exts s))
                 (sc_name s) (sc_descr s) (sc_plural s)).
  { destruct u as [|c0 u0]; [congruence|]. destruct L; congruence. }
  clear H. subst s'. cbn [sc_attrs mk_attrs at_all at_top sc_uri sc_exts].
  pose proof Hn as [Hl Hd].
  assert (Hsnd : Forall sound_attr L) by (revert Hl; apply Forall_impl; intros a [H _]; exact H).
  assert (Hfresh : ~ In u (map fst (sc_exts s))).
  { intros G. apply Hnl. unfold listed, sc_schemas. apply in_map. right. exact G. }
  assert (Hexts : sset u req (sc_exts s) = sc_exts s ++ [(u, req)]) by (apply sset_absent; exact Hfresh).
  assert (Hold : forall a, In a (at_all (sc_attrs s)) -> r_schema (arep a) <> u).
  { intros a Ha E. rewrite Forall_forall in A3. specialize (A3 a Ha). destruct (r_ext (arep a)).
    - apply Hfresh. rewrite <- E. exact A3.
    - apply Hnl. unfold listed, sc_schemas. cbn [map]. left. rewrite <- A3, E. reflexivity. }
  assert (Hk : NoDup (map key_of (at_all (sc_attrs s) ++ flat_map (bound_all u true) L))).
  { rewrite map_app. apply NoDup_app_intro; [exact A1 | apply bound_keys; exact Hn|].
    intros k G1 G2. apply in_map_iff in G1 as [a [<- Ha]]. apply in_map_iff in G2 as [b [E Hb]]. apply (Hold a Ha).
    apply in_flat_map in Hb as [a' [_ Hb]]. unfold key_of in E. injection E as E _ _. rewrite <- E.
    destruct Hb as [<-|Hb]; [rewrite bound_rep; reflexivity|]. apply in_map_iff in Hb as [s0 [<- _]]. rewrite bound_rep. reflexivity. }
  assert (Hall : dedup_attrs (at_all (sc_attrs s) ++ flat_map (bound_all u true) L) = at_all (sc_attrs s) ++ flat_map (bound_all u true) L)
    by (apply dedup_id; exact Hk).
  assert (Htop : filter (fun a => negb (nonempty (r_sub (arep a)))) (at_all (sc_attrs s) ++ flat_map (bound_all u true) L)
                 = at_top (sc_attrs s) ++ map (fun a => bound_attr (mkRep u (r_attr (arep a)) [] true) a) L).
  { change (fun a => negb (nonempty (r_sub (arep a)))) with no_sub. rewrite filter_app, bound_tops by exact Hsnd. rewrite A2. reflexivity. }
  rewrite Hall, Htop. split; [|repeat split; exact Hexts].
  split; [constructor|split; [|split]]; unfold sc_schemas; cbn [sc_attrs mk_attrs at_all at_top sc_uri sc_exts]; rewrite ?Hall, ?Htop, ?Hexts.
  - destruct W1 as [W1 W1']. unfold sc_schemas in *. rewrite map_app. cbn [map fst]. split.
    + change (lower (sc_uri s) :: map lower (map fst (sc_exts s) ++ [u])) with (map lower ((sc_uri s :: map fst (sc_exts s)) ++ [u])).
      rewrite (map_app lower). apply NoDup_app_intro; [exact W1 | constructor; [intros [] | constructor] |].
      intros k G [<-|[]]. apply Hnl. exact G.
    + intros [G|G]; [apply W1'; left; exact G|]. apply in_app_iff in G as [G|[G|[]]]; [apply W1'; right; exact G | congruence].
  - apply Forall_app. split.
    + revert W2. apply Forall_impl. intros a [H1 [H2 [H3 H4]]]. split; [exact H1|]. split; [exact H2|]. split; [exact H3|].
      destruct (r_ext (arep a)); [rewrite map_app; apply in_or_app; left; exact H4 | exact H4].
    + apply Forall_forall. intros b Hb. apply in_map_iff in Hb as [a [<- Ha]]. rewrite Forall_forall in Hl.
      destruct (Hl a Ha) as [H1 [[_ [_ [_ H2]]] _]]. rewrite bound_rep. cbn [r_sub r_attr r_ext r_schema].
      split; [apply bound_sound; exact H1|]. split; [reflexivity|]. split; [exact H2|]. rewrite map_app. apply in_or_app. right. left; reflexivity.
  - rewrite map_app. apply NoDup_app_intro; [exact W3| |].
    + rewrite map_map. unfold distinct_names in Hd. revert Hd. clear. generalize L. intros l'.
      induction l' as [|a t IH]; cbn [map]; intros H; [constructor|]. inversion H as [|? ? H1 H2]; subst.
      constructor; [|apply IH; exact H2]. intros G. apply H1. apply in_map_iff in G as [b [E Hb]]. rewrite !bound_rep in E. injection E as E.
      apply in_map_iff. exists b. split; [exact E | exact Hb].
    + intros k G1 G2. rewrite map_map in G2. apply in_map_iff in G2 as [b [<- Hb]]. rewrite bound_rep in G1. cbn [r_schema r_attr] in G1.
      apply in_map_iff in G1 as [a [E Ha]]. injection E as E _. rewrite Forall_forall in W2. destruct (W2 a Ha) as [_ [_ [_ Hs]]].
      apply Hnl. unfold listed, sc_schemas. rewrite <- E. apply in_map. destruct (r_ext (arep a)); [right; exact Hs | left; symmetry; exact Hs].
  - intros a Ha He. rewrite map_app. cbn [map fst]. intros G.
    apply in_app_iff in Ha as [Ha|Ha].
    + change (lower (sc_uri s) :: map lower (map fst (sc_exts s) ++ [u])) with (map lower ((sc_uri s :: map fst (sc_exts s)) ++ [u])) in G.
      rewrite map_app in G. apply in_app_iff in G as [G|[G|[]]]; [exact (W4 a Ha He G) | exact (Hnames a Ha He (eq_sym G))].
    + apply in_map_iff in Ha as [b [<- _]]. rewrite bound_rep in He. discriminate.
  - exact Hk.
  - rewrite <- Htop. reflexivity.
  - apply Forall_app. split.
    + revert A3. apply Forall_impl. intros a Ha. destruct (r_ext (arep a)); [rewrite map_app; apply in_or_app; left; exact Ha | exact Ha].
    + apply Forall_forall. intros b Hb. apply in_flat_map in Hb as [a [_ Hb]]. destruct Hb as [<-|Hb].
      * rewrite bound_rep. cbn [r_ext r_schema]. rewrite map_app. apply in_or_app. right; left; reflexivity.
      * apply in_map_iff in Hb as [s0 [<- _]]. rewrite bound_rep. cbn [r_ext r_schema]. rewrite map_app. apply in_or_app. right; left; reflexivity.
Qed.

(** The attribute list after attaching an extension under a new URI. *)
Lemma extension_all s e req s' : assembled s -> neat (at_all (ex_attrs e)) -> ex_uri e <> [] -> ~ listed (ex_uri e) (sc_schemas s) ->
  with_extension s e req = Ok s' ->
  at_all (sc_attrs s') = at_all (sc_attrs s) ++ flat_map (bound_all (ex_uri e) true) (at_all (ex_attrs e))
  /\ sc_uri s' = sc_uri s /\ sc_exts s' = sc_exts s ++ [(ex_uri e, req)].
Proof.
  intros [_ [A1 [_ A3]]] Hn Hu Hnl H. unfold with_extension in H.
  destruct (smem (ex_uri e) (map lower (sc_schemas s))); [discriminate|].
  set (L := at_all (ex_attrs e)) in *. set (u := ex_uri e) in *.
  assert (H' : s' = mkSchema (sc_uri s) (mk_attrs (at_all (sc_attrs s) ++ flat_map (bound_all u true) L)) (sset u req (sc_exts s))
                 (sc_name s) (sc_descr s) (sc_plural s)).
  { destruct u as [|c0 u0]; [congruence|]. destruct L; congruence. }
  clear H. subst s'. cbn [sc_attrs mk_attrs at_all sc_uri sc_exts].
  assert (Hfresh : ~ In u (map fst (sc_exts s))).
  { intros G. apply Hnl. unfold listed, sc_schemas. apply in_map. right. exact G. }
  split; [|split; [reflexivity | apply sset_absent; exact Hfresh]]. apply dedup_id.
  rewrite map_app. apply NoDup_app_intro; [exact A1 | apply bound_keys; exact Hn|].
  intros k G1 G2. apply in_map_iff in G1 as [a [<- Ha]]. apply in_map_iff in G2 as [b [E Hb]].
  assert (Hold : r_schema (arep a) <> u).
  { intros E'. rewrite Forall_forall in A3. specialize (A3 a Ha). destruct (r_ext (arep a)).
    - apply Hfresh. rewrite <- E'. exact A3.
    - apply Hnl. unfold listed, sc_schemas. cbn [map]. left. rewrite <- A3, E'. reflexivity. }
  apply Hold. apply in_flat_map in Hb as [a' [_ Hb]]. unfold key_of in E. injection E as E _ _. rewrite <- E.
  destruct Hb as [<-|Hb]; [rewrite bound_rep; reflexivity|]. apply in_map_iff in Hb as [s0 [<- _]]. rewrite bound_rep. reflexivity.
Qed.

Lemma made_assembled s : made s -> assembled s
  /\ exists rest, at_top (sc_attrs s) = bound_attr (mkRep (sc_uri s) ($"schemas") [] false) schemas_attr :: rest.
Proof.
  induction 1 as [uri l Hu Hn Hf|uri l name descr plural oi oe om get l' Hu Hn Hf|s e req s' Hs [IH [rest Hr]] Hu Hn Hl Hf H].
  - split; [apply base_assembled; try assumption; unfold fresh_names in Hf; rewrite Forall_forall in Hf; exact Hf|].
    cbn [base_schema sc_attrs mk_attrs at_top sc_uri]. change (fun a => negb (nonempty (r_sub (arep a)))) with no_sub. rewrite bound_tops.
    + eexists. reflexivity.
    + destruct Hn as [Hn _]. revert Hn. apply Forall_impl. intros a [Ha _]; exact Ha.
  - split; [apply resource_assembled; try assumption; unfold fresh_names in Hf; rewrite Forall_forall in Hf; exact Hf|].
    cbn [resource_schema base_schema sc_attrs mk_attrs at_top sc_uri]. change (fun a => negb (nonempty (r_sub (arep a)))) with no_sub. rewrite bound_tops.
    + eexists. reflexivity.
    + destruct Hn as [Hn _]. revert Hn. apply Forall_impl. intros a [Ha _]; exact Ha.
  - destruct (extension_assembled s e req s' IH Hn Hu Hl) as [A [_ [A2 [A3 A4]]]]; [|exact H|].
    + intros a Ha He. unfold fresh_names in Hf. rewrite Forall_forall in Hf. apply Hf. apply filter_In. rewrite He. auto.
    + split; [exact A|]. rewrite A2, Hr, A3. eexists. reflexivity.
Qed.
Lemma made_wf s : made s -> wf_schema s.
Proof. intros H. apply made_assembled in H as [[H _] _]. exact H. Qed.
Lemma made_schemas s : made s ->
  attr_named (sc_attrs s) ($"schemas") = Some (bound_attr (mkRep (sc_uri s) ($"schemas") [] false) schemas_attr)
  /\ In (bound_attr (mkRep (sc_uri s) ($"schemas") [] false) schemas_attr) (at_top (sc_attrs s)).
Proof.
  intros H. apply made_assembled in H as [_ [rest H]]. unfold attr_named. rewrite H. split; [reflexivity | left; reflexivity].
Qed.

(** Shipped schemas are built this way. *)
Fixpoint nodupb (l : list str) : bool := match l with [] => true | a :: t => negb (smem a t) && nodupb t end.
Lemma nodupb_ok l : nodupb l = true -> NoDup l.
Proof.
  induction l as [|a t IH]; cbn [nodupb]; intros H; [constructor|]. apply andb_prop in H as [H1 H2].
  constructor; [|apply IH; exact H2]. intros G. apply smem_In in G. rewrite G in H1. discriminate.
Qed.
Lemma simple_neat i : a_parsers i = [] -> a_dumpers i = [] -> plain_rep (a_rep i) ->
  sound_attr (mk_simple i) /\ plain_rep (arep (mk_simple i)) /\ distinct_names (sub_attrs (mk_simple i)).
Proof.
  intros H1 H2 H3. split; [constructor; [rewrite H1 | rewrite H2]; constructor|]. split; [exact H3 | constructor].
Qed.
Lemma complex_neat i subs : a_type i = TComplex -> a_parsers i = [] -> a_dumpers i = [] -> plain_rep (a_rep i) -> neat subs ->
  sound_attr (mk_complex i subs [] []) /\ plain_rep (arep (mk_complex i subs [] [])) /\ distinct_names (sub_attrs (mk_complex i subs [] [])).
Proof.
  intros Ht H1 H2 H3 [H4 H5]. unfold mk_complex. rewrite dedup_names; [|exact H5|revert H4; apply Forall_impl; intros a [_ [H _]]; exact H].
  split; [|split; [exact H3 | exact H5]].
  assert (G : Forall reporting ([] ++ (if a_multi i then [single_primary] else []))).
  { destruct (a_multi i); repeat constructor. apply single_primary_reporting. }
  constructor; try exact G; try (rewrite ?H1, ?H2; constructor); [exact Ht| |]; revert H4; apply Forall_impl; intros a [Ha [Hb _]]; assumption.
Qed.
Lemma neat_check l : Forall (fun a => sound_attr a /\ plain_rep (arep a) /\ distinct_names (sub_attrs a)) l ->
  nodupb (map (fun a => lower (r_attr (arep a))) l) = true -> neat l.
Proof. intros H1 H2. split; [exact H1|]. apply nodupb_ok. exact H2. Qed.
Lemma fresh_check uri l : forallb (fun a => negb (str_eqb (lower (r_attr (arep a))) (lower uri))) l = true -> fresh_names uri l.
Proof.
  intros H. apply Forall_forall. intros a Ha E. rewrite forallb_forall in H. specialize (H a Ha). rewrite E, str_eqb_refl in H. discriminate.
Qed.

Ltac neat_simple := apply simple_neat; [reflexivity | reflexivity | apply ex_plain; vm_compute; reflexivity].
Ltac neat_attr :=
  first [ neat_simple
        | apply complex_neat; [reflexivity | reflexivity | reflexivity | apply ex_plain; vm_compute; reflexivity
                              | apply neat_check; [repeat (apply Forall_cons; [neat_simple|]); apply Forall_nil | vm_compute; reflexivity]] ].
Ltac neat_list := apply neat_check; [repeat (apply Forall_cons; [neat_attr|]); apply Forall_nil | vm_compute; reflexivity].

Lemma bulk_id_reporting : reporting bulk_id_validator.
Proof.
  intros v v' iss H. destruct v; try discriminate. cbn [bulk_id_validator] in H. destruct (contains s ($"bulkId")); injection H as _ <-.
  - apply report_add, report_empty.
  - apply report_empty.
Qed.
