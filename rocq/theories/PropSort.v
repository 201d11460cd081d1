(** Properties of sorting: C46, C47, C48. *)
From Coq Require Import Sorting.Sorted Sorting.Permutation.
From Verif Require Import PyBase BaseFacts PyNum NumFacts Issues AttrRep AttrRepSpec AttrRepFacts Value Container ContainerSpec ContainerFacts ContainerRW ContainerEq ValueFacts PropContainer Types Attr Schema Match MatchSpec MatchFacts MatchCompare
  FilterParse Sort SortSpec SortFacts Assets Requests.

(** * C46 *)

(** Whatever the data and the schemas, nothing is lost, added or changed. *)
Theorem C46_permutation so data s out : sort_tagged so data s = Ok out -> Permutation (enumerate data) out.
Proof. apply tagged_perm. Qed.
Print Assumptions C46_permutation.

(** Partial: when all resources have one schema, which knows the attribute, and
    their values are of one kind, sorting succeeds, and the result is ordered
    and stable. *)
Theorem C46_sorted_partial so data s sc a e ks :
  find_attr (at_all (sc_attrs sc)) (so_rep so) = Some a -> exact_for a e -> all_of sc s ->
  Forall2 (fun x k => exists v, get_item x (so_rep so) = Ok v /\ sorts_by a v k) data ks -> uniform ks ->
  exists out, sort_tagged so data s = Ok out /\ Permutation (enumerate data) out
    /\ StronglySorted (comes_before e (so_asc so) ks) out.
Proof. intros Ha He Hs H Hu. apply exact_for_iff in He as ->. exact (sort_known (so_rep so) sc a Ha so data ks s eq_refl Hs H Hu). Qed.
Print Assumptions C46_sorted_partial.

(** By an attribute the schema does not know, nothing moves. *)
Lemma filter_all {A} (f : A -> bool) l : Forall (fun x => f x = true) l -> filter f l = l /\ filter (fun x => negb (f x)) l = [].
Proof. induction 1 as [|x l H _ [IH1 IH2]]; [split; reflexivity|]. cbn [filter]. rewrite H, IH1, IH2. split; reflexivity. Qed.
Lemma all_last {A} (l : list (skey * A)) b l' : Forall (fun p => fst p = KLast) l -> py_sorted l b = Ok l' -> l' = map snd l.
Proof.
  intros F. assert (G : forall m, Forall (fun p : skey * A => fst p = KLast) m -> forall m', sort_keys m = Ok m' -> m' = m).
  { intros m Fm m' H. apply sort_last in H as [a [-> P]]. assert (Fm' : Forall (fun p => is_last p = true) m) by (revert Fm; apply Forall_impl; intros p; apply is_last_iff).
    destruct (filter_all _ m Fm') as [E1 E2]. rewrite E1. rewrite E2 in P. apply Permutation_nil in P. subst a. reflexivity. }
  unfold py_sorted. destruct b.
  - destruct (sort_keys (rev l)) as [m|] eqn:E; cbn [bind]; [|discriminate]. intros H. injection H as <-. rewrite (G _ (Forall_rev F) _ E), map_rev, rev_involutive. reflexivity.
  - destruct (sort_keys l) as [m|] eqn:E; cbn [bind]; [|discriminate]. intros H. injection H as <-. rewrite (G _ F _ E). reflexivity.
Qed.
Theorem C46_unknown so data s sc out :
  find_attr (at_all (sc_attrs sc)) (so_rep so) = None -> all_of sc s -> sort_data so data s = Ok out -> out = data.
Proof.
  intros Hn Hs. unfold sort_data, sort_tagged. rewrite (all_of_single _ _ Hs).
  assert (En : forall n, map snd (enum_from n data) = data) by (induction data as [|x l IH]; intros n; [reflexivity | cbn; rewrite IH; reflexivity]).
  destruct (any_value _ _) as [[|]|]; cbn [bind negb]; try discriminate; [|intros H; injection H as <-; apply En].
  destruct (mapM _ _) as [m|] eqn:E; cbn [bind]; [|discriminate]. apply mapM_snd in E as [E F]. destruct (py_sorted _ _) as [o|] eqn:P; cbn [bind]; [|discriminate].
  intros H. injection H as <-. apply all_last in P; [rewrite P, E; apply En|]. revert F. apply Forall_impl. intros [k p]. cbn [fst snd item_key]. unfold attr_key. rewrite Hn. cbn. congruence.
Qed.
Print Assumptions C46_unknown.

(** The full claim is false: values of a dateTime attribute, texts in a response,
    are not sorted; *)
Definition created (t : str) : value := mk_cont (dict_of [($"meta", dict_of [($"created", VStr t)])]).
Definition by_created : sorter := mkSorter (mkRep [] ($"meta") ($"created") false) true.
Theorem C46_times_refuted : exists sc a so data,
  find_attr (at_all (sc_attrs sc)) (so_rep so) = Some a /\ a_type (info a) = TDateTime /\ so_asc so = true
  /\ mapM (fun x => get_item x (so_rep so)) data = Ok [VStr ($"2021-01-01T00:00:00"); VStr ($"2020-01-01T00:00:00")]
  /\ sort_data so data (OneSchema sc) = Ok data.
Proof.
  exists user_schema. eexists. exists by_created, [created ($"2021-01-01T00:00:00"); created ($"2020-01-01T00:00:00")].
  repeat match goal with |- _ /\ _ => split end; reflexivity.
Qed.
Print Assumptions C46_times_refuted.

(** an empty list stops the sort with IndexError; *)
Theorem C46_empty_list_refuted : exists so data,
  Forall2 (fun x v => get_item x (so_rep so) = Ok (VList v)) data [[VStr ($"b")]; []; [VStr ($"a")]]
  /\ sort_data so data (OneSchema user_schema) = Raise IndexErr.
Proof.
  exists (mkSorter (mkRep [] ($"schemas") [] false) true),
    (map (fun l => mk_cont (dict_of [($"schemas", VList l)])) [[VStr ($"b")]; []; [VStr ($"a")]]).
  split; [|reflexivity]. cbn [map]. repeat first [apply Forall2_nil | apply Forall2_cons]; reflexivity.
Qed.
Print Assumptions C46_empty_list_refuted.

(** and with several schemas a resource may be sorted by the schema of an
    earlier one whose data it contains: here the user "a", last in the list,
    as a group, so without its name. *)
Definition shown (u d : option str) : value :=
  mk_cont (dict_of ((match u with Some u => [($"userName", VStr u)] | None => [] end) ++ (match d with Some d => [($"displayName", VStr d)] | None => [] end))).
Definition by_user_name : sorter := mkSorter (mkRep [] ($"userName") [] false) true.
Theorem C46_many_schemas_refuted : exists data,
  mapM (fun x => get_item x (so_rep by_user_name)) data = Ok [VMissing; VStr ($"z"); VStr ($"a")]
  /\ (exists a, find_attr (at_all (sc_attrs user_schema)) (so_rep by_user_name) = Some a)
  /\ sort_tagged by_user_name data (ManySchemas [Some (1, group_schema); Some (0, user_schema); Some (0, user_schema)])
     = Ok [nth 1 (enumerate data) (0, VNone); nth 0 (enumerate data) (0, VNone); nth 2 (enumerate data) (0, VNone)].
Proof.
  exists [shown None (Some ($"d")); shown (Some ($"z")) None; shown (Some ($"a")) (Some ($"d"))].
  split; [reflexivity|]. split; [eexists; reflexivity | reflexivity].
Qed.
Print Assumptions C46_many_schemas_refuted.

(** Case: users by name, letter case ignored; equal names keep their order, also
    when descending. *)
Definition named_users : list value := map (fun n => shown (Some n) None) [$"Bob"; $"alice"; $"BOB"; $"Carl"].
Definition user_key (n : str) : basis := Text n.
Example ex_C46 : exists a, find_attr (at_all (sc_attrs user_schema)) (so_rep by_user_name) = Some a /\ exact_for a false
  /\ Forall2 (fun x k => exists v, get_item x (so_rep by_user_name) = Ok v /\ sorts_by a v k) named_users (map Text [$"Bob"; $"alice"; $"BOB"; $"Carl"])
  /\ uniform (map Text [$"Bob"; $"alice"; $"BOB"; $"Carl"])
  /\ sort_data by_user_name named_users (OneSchema user_schema) = Ok (map (fun n => shown (Some n) None) [$"alice"; $"Bob"; $"BOB"; $"Carl"])
  /\ sort_data (mkSorter (so_rep by_user_name) false) named_users (OneSchema user_schema) = Ok (map (fun n => shown (Some n) None) [$"Carl"; $"Bob"; $"BOB"; $"alice"]).
Proof.
  eexists. split; [reflexivity|]. split; [eexists; split; reflexivity|]. split.
  { unfold named_users. cbn [map]. repeat first [apply Forall2_nil | apply Forall2_cons];
      (eexists; split; [reflexivity|]; eexists; eexists; split; [reflexivity|]; split; [apply pk_single; reflexivity | eapply bo_text; [reflexivity | discriminate | reflexivity]]). }
  split; [left; apply Forall_forall; intros k Hk; apply in_map_iff in Hk as [n [<- _]]; right; eexists; reflexivity|]. split; reflexivity.
Qed.
(** Case: by the primary e-mail address; a user without one has nothing to sort by. *)
Definition mailed (l : list (str * bool)) : value :=
  mk_cont (dict_of [($"emails", VList (map (fun e => dict_of [($"value", VStr (fst e)); ($"primary", VBool (snd e))]) l))]).
Definition by_mail : sorter := mkSorter (mkRep [] ($"emails") [] false) true.
Example ex_C46_primary : exists a, find_attr (at_all (sc_attrs user_schema)) (so_rep by_mail) = Some a /\ exact_for a false
  /\ Forall2 (fun x k => exists v, get_item x (so_rep by_mail) = Ok v /\ sorts_by a v k)
       [mailed [($"a@x", false); ($"z@x", true)]; mailed [($"b@x", false)]; mailed [($"c@x", true)]] [Text ($"z@x"); Nothing; Text ($"c@x")]
  /\ sort_data by_mail [mailed [($"a@x", false); ($"z@x", true)]; mailed [($"b@x", false)]; mailed [($"c@x", true)]] (OneSchema user_schema)
     = Ok [mailed [($"c@x", true)]; mailed [($"a@x", false); ($"z@x", true)]; mailed [($"b@x", false)]].
Proof.
  eexists. split; [reflexivity|].
  assert (K : value_sub (sub_attrs emails_attr) (Some (sattr ($"value") TString))) by (apply vs_here; reflexivity).
  split.
  { eexists. split; [unfold key_attr; cbn; apply vs_here; reflexivity | reflexivity]. }
  split; [|reflexivity]. repeat first [apply Forall2_nil | apply Forall2_cons]; (eexists; split; [reflexivity|]).
  - eexists. eexists. split; [unfold key_attr; cbn; apply vs_here; reflexivity|]. split.
    + eapply (pk_primary _ [_] _ []); try reflexivity. constructor; [|constructor]. eexists. split; [reflexivity | discriminate].
    + eapply bo_text; [reflexivity | discriminate | reflexivity].
  - eexists. eexists. split; [unfold key_attr; cbn; apply vs_here; reflexivity|]. split.
    + eapply pk_no_primary; try reflexivity. constructor; [|constructor]. eexists. split; [reflexivity | discriminate].
    + apply bo_blank, bl_none.
  - eexists. eexists. split; [unfold key_attr; cbn; apply vs_here; reflexivity|]. split.
    + eapply (pk_primary _ [] _ []); try reflexivity. constructor.
    + eapply bo_text; [reflexivity | discriminate | reflexivity].
Qed.

(** * C47 *)

(** Partial (one schema): whenever sorting succeeds, whatever the values, the
    resources without a value stand together in their order, last when ascending
    and first when descending. *)
Lemma nothing_last o w : basis_of o w Nothing <-> get_key w o = KLast.
Proof.
  unfold get_key. destruct (truthy w) eqn:T; cbn [negb].
  - assert (NB : ~ blank w) by (rewrite blank_iff; congruence). split.
    + intros H. inversion H as [w' B|w' E|b s E N Ty|b s E Ty|b w' x E B N1 N2|b d E]; subst; [contradiction | reflexivity|]. destruct (a_type (info b)); try reflexivity. contradiction.
    + destruct o as [b|]; [|intros _; apply bo_no_attr; reflexivity]. destruct w as [| | |x|x|x|t|d| | | | | | | | |]; try discriminate.
      destruct (a_type (info b)) eqn:E; try discriminate; intros _; apply (bo_other_text _ b); try reflexivity; rewrite E; discriminate.
  - split; [reflexivity | intros _; apply bo_blank, blank_iff, T].
Qed.
Lemma attr_key_picks r x sc a v o w : find_attr (at_all (sc_attrs sc)) r = Some a -> get_item x r = Ok v -> key_attr a o -> picks a v w ->
  attr_key r x sc = Ok (get_key w o) \/ (attr_key r x sc = Ok KLast /\ w = VNone).
Proof.
  intros Ha Hg Hk Hp. apply key_attr_iff in Hk. unfold attr_key. rewrite Ha, Hg. cbn [bind]. unfold keyed_by in Hk.
  destruct Hp as [|v Hm|y l Hm Hc|pre y post w Hm Hc H1 H2 H3|l Hm Hc H1]; cbn [is_missing negb andb]; try rewrite Hm in *; try rewrite Hc in *; cbn [andb] in *.
  - right. split; reflexivity.
  - rewrite andb_false_r. subst o. left. reflexivity.
  - cbn [index0 bind]. subst o. left. reflexivity.
  - cbn [iter_value bind]. rewrite (primary_spec a pre y post w H1 H2 H3). cbn [bind]. left. rewrite Hk. reflexivity.
  - cbn [iter_value bind]. rewrite (no_primary_spec a l H1). cbn [bind]. right. split; reflexivity.
Qed.
Definition sort_value (r : attr_rep) (a : attribute) (x : value) (o : option attribute) (w : value) : Prop :=
  exists v, get_item x r = Ok v /\ key_attr a o /\ picks a v w.
Lemma filter_map_snd {A} (f : A -> bool) (m : list (skey * A)) : filter f (map snd m) = map snd (filter (fun p => f (snd p)) m).
Proof. induction m as [|p m IH]; [reflexivity|]. cbn [map filter]. rewrite IH. destruct (f (snd p)); reflexivity. Qed.
Theorem C47_valueless_partial so data s sc a out (lacks : value -> bool) :
  find_attr (at_all (sc_attrs sc)) (so_rep so) = Some a -> all_of sc s ->
  Forall (fun x => exists o w, sort_value (so_rep so) a x o w /\ (lacks x = true <-> basis_of o w Nothing)) data ->
  sort_tagged so data s = Ok out ->
  let without := filter (fun p => lacks (snd p)) (enumerate data) in
  exists valued, Permutation (filter (fun p => negb (lacks (snd p))) (enumerate data)) valued
    /\ out = if so_asc so then valued ++ without else without ++ valued.
Proof.
  intros Ha Hs Hl. unfold sort_tagged. rewrite (all_of_single _ _ Hs). cbv zeta.
  assert (In_snd : forall (p : nat * value) n l, In p (enum_from n l) -> In (snd p) l).
  { intros p n l. revert n. induction l as [|x l IH]; intros n; [contradiction|]. intros [<-|H]; [left; reflexivity | right; apply (IH (S n)), H]. }
  destruct (any_value_spec (so_rep so) data) as [b [-> Hb]].
  { revert Hl. apply Forall_impl. intros x [o [w [[v [Hg _]] _]]]. eauto. }
  cbn [bind]. destruct b; cbn [negb].
  2: { intros H. injection H as <-. exists []. specialize (Hb eq_refl).
       assert (F : Forall (fun p : nat * value => lacks (snd p) = true) (enumerate data)).
       { apply Forall_forall. intros p Hp. apply In_snd in Hp. rewrite Forall_forall in Hl, Hb. destruct (Hl _ Hp) as [o [w [[v [Hg [Hk Hw]]] HL]]]. apply HL.
         destruct (Hb _ Hp) as [v' [Hg' Hv]]. assert (v' = v) by congruence. subst v'. destruct Hw as [|v Hm|y l Hm Hc|pre y post w Hm Hc H1 H2 H3|l Hm Hc H1].
         - apply bo_blank, bl_none.
         - apply bo_blank, blank_iff, Hv.
         - discriminate.
         - destruct pre; discriminate.
         - apply bo_blank, bl_none. }
       destruct (filter_all _ _ F) as [E1 E2]. rewrite E1, E2. split; [constructor|]. destruct (so_asc so); [reflexivity | rewrite app_nil_r; reflexivity]. }
  destruct (mapM _ _) as [m|] eqn:E; cbn [bind]; [|discriminate]. apply mapM_snd in E as [E F].
  assert (L : forall p, In p m -> is_last p = lacks (snd (snd p))).
  { intros [k [i x]] Hp. rewrite Forall_forall in F, Hl. specialize (F _ Hp). cbn [fst snd item_key] in *.
    assert (Hx : In x data) by (apply (In_snd (i, x) 0); fold (enumerate data); rewrite <- E; apply (in_map snd m (k, (i, x))), Hp).
    destruct (Hl x Hx) as [o [w [[v [Hg [Hk Hw]]] HL]]]. rewrite nothing_last in HL.
    assert (K : k = get_key w o).
    { destruct (attr_key_picks _ x sc a v o w Ha Hg Hk Hw) as [K|[K ->]]; rewrite K in F; [congruence|]. injection F as <-. reflexivity. }
    rewrite <- K in HL. unfold is_last. cbn [fst]. destruct k, (lacks x); try reflexivity; try (exfalso; destruct HL as [H1 H2]; (discriminate (H1 eq_refl) || discriminate (H2 eq_refl))). }
  assert (G : forall q, (forall p, In p q -> In p m) -> filter is_last q = filter (fun p => lacks (snd (snd p))) q /\ filter (fun p => negb (is_last p)) q = filter (fun p => negb (lacks (snd (snd p)))) q).
  { intros q Hq. split; apply filter_ext_in; intros p Hp; rewrite (L p (Hq p Hp)); reflexivity. }
  unfold py_sorted. destruct (so_asc so); cbn [negb].
  - destruct (sort_keys m) as [m'|] eqn:Es; cbn [bind]; [|discriminate]. intros H. injection H as <-. apply sort_last in Es as [l [-> P]].
    destruct (G m (fun p H => H)) as [G1 G2]. rewrite G2 in P. rewrite G1. exists (map snd l). rewrite <- E, !filter_map_snd, map_app. split; [apply Permutation_map, P | reflexivity].
  - destruct (sort_keys (rev m)) as [m'|] eqn:Es; cbn [bind]; [|discriminate]. intros H. injection H as <-. apply sort_last in Es as [l [-> P]].
    destruct (G (rev m) (fun p H => proj2 (in_rev m p) H)) as [G1 G2]. rewrite G2 in P. rewrite G1. exists (rev (map snd l)).
    assert (Fr : forall f : skey * (nat * value) -> bool, filter f (rev m) = rev (filter f m)).
    { intros f. clear. induction m as [|p m IH]; [reflexivity|]. cbn [rev filter]. rewrite filter_app, IH. cbn [filter]. destruct (f p); [reflexivity | rewrite app_nil_r; reflexivity]. }
    rewrite Fr in P. rewrite Fr, <- E, !filter_map_snd, map_app, rev_app_distr, map_rev, rev_involutive. split; [|reflexivity].
    transitivity (map snd l); [apply Permutation_map; transitivity (rev (filter (fun p => negb (lacks (snd (snd p)))) m)); [apply Permutation_rev | exact P] | apply Permutation_rev].
Qed.
Print Assumptions C47_valueless_partial.

(** If no resource has a value, whatever the schemas, nothing moves. *)
Theorem C47_no_values so data s :
  Forall (fun x => exists v, get_item x (so_rep so) = Ok v /\ blank v) data -> sort_tagged so data s = Ok (enumerate data).
Proof.
  intros H. unfold sort_tagged. replace (any_value (so_rep so) data) with (@Ok bool false); [reflexivity|]. symmetry.
  induction H as [|x data [v [Hg Hv]] _ IH]; [reflexivity|]. cbn [any_value]. rewrite Hg. cbn [bind]. apply blank_iff in Hv. rewrite Hv. exact IH.
Qed.
Print Assumptions C47_no_values.

(** The full claim is false: False (likewise 0) counts as no value, so that
    inactive users come last in ascending order although False < True. *)
Definition activity (b : bool) : value := mk_cont (dict_of [($"active", VBool b)]).
Theorem C47_false_refuted : exists so, so_asc so = true
  /\ Forall2 (fun x v => get_item x (so_rep so) = Ok v) [activity false; activity true; shown None None] [VBool false; VBool true; VMissing]
  /\ sort_data so [activity false; activity true; shown None None] (OneSchema user_schema) = Ok [activity true; activity false; shown None None]
  /\ sort_data so [shown None None; activity false; activity true] (OneSchema user_schema) = Ok [activity true; shown None None; activity false].
Proof.
  exists (mkSorter (mkRep [] ($"active") [] false) true). split; [reflexivity|]. split; [|split; reflexivity].
  repeat first [apply Forall2_nil | apply Forall2_cons]; reflexivity.
Qed.
Print Assumptions C47_false_refuted.

Example ex_C47 : let data := [shown None (Some ($"x")); shown (Some ($"b")) None; shown (Some []) None; shown (Some ($"a")) None] in
  let lacks x := match get_item x (so_rep by_user_name) with Ok (VStr (_ :: _)) => false | _ => true end in
  (exists a, find_attr (at_all (sc_attrs user_schema)) (so_rep by_user_name) = Some a
   /\ Forall (fun x => exists o w, sort_value (so_rep by_user_name) a x o w /\ (lacks x = true <-> basis_of o w Nothing)) data)
  /\ sort_data (mkSorter (so_rep by_user_name) false) data (OneSchema user_schema)
     = Ok [shown None (Some ($"x")); shown (Some []) None; shown (Some ($"b")) None; shown (Some ($"a")) None].
Proof.
  cbv zeta. split; [|reflexivity]. eexists. split; [reflexivity|].
  repeat apply Forall_cons; [| | | |apply Forall_nil]; (eexists; eexists; split; [eexists; split; [reflexivity|]; split; [reflexivity|] |]).
  1: apply pk_absent. 2: apply pk_single; reflexivity. 3: apply pk_single; reflexivity. 4: apply pk_single; reflexivity.
  all: rewrite nothing_last; split; intros H; (reflexivity || discriminate H).
Qed.

(** * C48 *)

(** Partial (one schema, no lists to sort by): sorting again changes nothing. *)
Lemma adjacent_keys {A B} (l : list (skey * A)) (m : list (skey * B)) : map fst l = map fst m -> adjacent l -> adjacent m.
Proof.
  revert m. induction l as [|p l IH]; intros m E H; destruct m as [|q m]; try discriminate; [constructor|]. injection E as E1 E2. inversion H as [|? ? Hl Hd]; subst.
  constructor; [apply IH; assumption|]. destruct l as [|p' l], m as [|q' m]; try discriminate; constructor. injection E2 as E2 _. inversion Hd; subst. rewrite <- E1, <- E2. assumption.
Qed.
Lemma map_snd_enum (data : list value) : forall n, map snd (enum_from n data) = data.
Proof. induction data as [|x l IH]; intros n; [reflexivity | cbn; rewrite IH; reflexivity]. Qed.
Lemma any_value_perm r data data' : Permutation data data' -> Forall (fun x => exists v, get_item x r = Ok v) data -> any_value r data = any_value r data'.
Proof.
  intros P F. assert (G : forall l, Forall (fun x => exists v, get_item x r = Ok v) l ->
    any_value r l = Ok (existsb (fun x => match get_item x r with Ok v => truthy v | Raise _ => false end) l)).
  { intros l. induction 1 as [|x l [v Hv] _ IH]; [reflexivity|]. cbn [any_value existsb]. rewrite Hv, IH. cbn [bind]. destruct (truthy v); reflexivity. }
  rewrite (G data F), (G data') by (rewrite <- P; exact F). f_equal. clear F G. induction P; cbn [existsb]; try reflexivity; [rewrite IHP; reflexivity | rewrite !orb_assoc; f_equal; apply orb_comm | congruence].
Qed.
Theorem C48_idempotent_partial so data s sc a out :
  find_attr (at_all (sc_attrs sc)) (so_rep so) = Some a -> all_of sc s ->
  Forall (fun x => exists o w, sort_value (so_rep so) a x o w /\ forall l, w <> VList l) data ->
  sort_data so data s = Ok out -> sort_data so out s = Ok out.
Proof.
  intros Ha Hs Hl. set (r := so_rep so) in *.
  assert (K : Forall (fun x => (exists v, get_item x r = Ok v) /\ exists k, attr_key r x sc = Ok k /\ forall l, k <> KVal (VList l)) data).
  { revert Hl. apply Forall_impl. intros x [o [w [[v [Hg [Hk Hw]]] Hn]]]. split; [eauto|]. destruct (attr_key_picks _ x sc a v o w Ha Hg Hk Hw) as [E|[E ->]]; rewrite E; eexists; (split; [reflexivity|]).
    - intros l. unfold get_key. destruct (truthy w); cbn [negb]; [|discriminate]. destruct o as [b|]; [|discriminate]. destruct w; try discriminate; [destruct (a_type (info b)); discriminate | exfalso; eapply Hn; reflexivity].
    - discriminate. }
  clear Hl. unfold sort_data at 1. destruct (sort_tagged so data s) as [tg|] eqn:St; cbn [bind]; [|discriminate]. intros H. injection H as <-.
  pose proof (tagged_perm _ _ _ _ St) as P. assert (Pd : Permutation data (map snd tg)) by (rewrite <- (map_snd_enum data 0) at 1; apply Permutation_map, P).
  unfold sort_data, sort_tagged. fold r. rewrite <- (any_value_perm r data) by (exact Pd || (revert K; apply Forall_impl; tauto)).
  unfold sort_tagged in St. fold r in St. rewrite (all_of_single _ _ Hs) in *.
  destruct (any_value r data) as [[|]|]; cbn [bind negb] in *; try discriminate; [|unfold enumerate; rewrite map_snd_enum; reflexivity].
  destruct (mapM _ (enumerate data)) as [m|] eqn:E; cbn [bind] in St; [|discriminate]. apply mapM_snd in E as [E F].
  assert (Ky : forall l, (forall p, In p l -> In p m) -> forall n, exists m2, mapM (fun e => let! k := attr_key r (snd e) sc in Ok (k, e)) (enum_from n (map snd (map snd l))) = Ok m2
     /\ map fst m2 = map fst l /\ map snd m2 = enum_from n (map snd (map snd l))).
  { intros l. induction l as [|[k [i x]] l IH]; intros Hin n; [exists []; repeat split|]. cbn [map snd enum_from mapM fst]. rewrite Forall_forall in F.
    pose proof (F _ (Hin _ (or_introl eq_refl))) as Fx. cbn [fst snd item_key] in Fx. rewrite Fx. cbn [bind]. destruct (IH (fun p Hp => Hin p (or_intror Hp)) (S n)) as [m2 [-> [E1 E2]]]. cbn [bind].
    exists ((k, (n, x)) :: m2). split; [reflexivity|]. cbn [map fst snd]. rewrite E1, E2. split; reflexivity. }
  assert (As : forall l, (forall p, In p l -> In p m) -> forall x y, In x l -> In y l -> key_lt (fst y) (fst x) = Ok true -> key_lt (fst x) (fst y) = Ok false).
  { intros l Hin. assert (N : forall p, In p l -> forall q, fst p <> KVal (VList q)).
    { intros [k [i x]] Hp. rewrite Forall_forall in F, K. specialize (F _ (Hin _ Hp)). cbn [fst snd item_key] in F.
      assert (Hx : In x data) by (rewrite <- (map_snd_enum data 0); fold (enumerate data); rewrite <- E; apply (in_map snd (map snd m) (i, x)), (in_map snd m (k, (i, x))), Hin, Hp).
      destruct (K x Hx) as [_ [k' [Hk' N]]]. assert (k' = k) by congruence. subst k'. exact N. }
    intros x y Hx Hy. apply key_lt_asym; apply N; assumption. }
  unfold py_sorted in St |- *. destruct (so_asc so); cbn [negb] in *.
  - destruct (sort_keys m) as [m'|] eqn:Es; cbn [bind] in St; [|discriminate]. injection St as <-. pose proof (sort_perm _ _ Es) as Pm.
    destruct (Ky m' (fun p Hp => Permutation_in _ (Permutation_sym Pm) Hp) 0) as [m2 [E2 [E3 E4]]]. unfold enumerate. cbn [item_key]. rewrite E2. cbn [bind].
    rewrite (adjacent_fixed m2); [cbn [bind]; rewrite E4, map_snd_enum; reflexivity|]. apply (adjacent_keys m'); [symmetry; exact E3|]. exact (sort_adjacent m (As m (fun p Hp => Hp)) _ Es).
  - destruct (sort_keys (rev m)) as [m'|] eqn:Es; cbn [bind] in St; [|discriminate]. injection St as <-. pose proof (sort_perm _ _ Es) as Pm.
    assert (Hin : forall p, In p (rev m') -> In p m) by (intros p Hp; apply in_rev, (Permutation_in _ (Permutation_sym Pm)), in_rev, Hp).
    destruct (Ky (rev m') Hin 0) as [m2 [E2 [E3 E4]]]. unfold enumerate. cbn [item_key]. rewrite (map_rev snd m') in E2. rewrite E2. cbn [bind].
    rewrite (adjacent_fixed (rev m2)).
    + cbn [bind]. rewrite (map_rev snd m2), rev_involutive, E4, map_snd_enum, (map_rev snd m'). reflexivity.
    + apply (adjacent_keys m'); [rewrite map_rev, E3, map_rev, rev_involutive; reflexivity|]. apply (sort_adjacent (rev m)); [|exact Es]. apply As. intros p Hp. apply in_rev, Hp.
Qed.
Print Assumptions C48_idempotent_partial.

(** ** Checking the order of a response *)

Lemma sorted_unique {A} (R : A -> A -> Prop) (l l' : list A) : (forall a b, In a l -> In b l -> R a b -> R b a -> False) -> Permutation l l' ->
  StronglySorted R l -> StronglySorted R l' -> l = l'.
Proof.
  revert l'. induction l as [|x l IH]; intros l' Hn P S S'; [apply Permutation_nil in P; subst; reflexivity|].
  destruct l' as [|y l']; [apply Permutation_sym, Permutation_nil in P; discriminate|]. inversion S as [|? ? Sl Fx]; inversion S' as [|? ? Sl' Fy]; subst. rewrite Forall_forall in Fx, Fy.
  assert (E : x = y).
  { destruct (Permutation_in y (Permutation_sym P) (or_introl eq_refl)) as [E|Hy]; [exact E|]. destruct (Permutation_in x P (or_introl eq_refl)) as [E|Hx]; [symmetry; exact E|].
    exfalso. apply (Hn x y); [left; reflexivity | right; exact Hy | apply Fx, Hy | apply Fy, Hx]. }
  subst y. f_equal. apply IH; [intros a b H1 H2; apply Hn; right; assumption | exact (Permutation_cons_inv P) | exact Sl | exact Sl'].
Qed.
Lemma before_asym e asc ks c : (forall i, in_kind c (nth i ks Nothing)) -> forall p q, comes_before e asc ks p q -> comes_before e asc ks q p -> False.
Proof.
  intros Hc p q. unfold comes_before. cbv zeta. set (kp := nth (fst p) ks Nothing). set (kq := nth (fst q) ks Nothing). assert (Kp : in_kind c kp) by apply Hc. assert (Kq : in_kind c kq) by apply Hc.
  rewrite <- (bcmp_alike e c kp kq), <- (bcmp_alike e c kq kp) by assumption.
  assert (L1 : less e kp kq <-> bcmp e kp kq = Lt) by (symmetry; apply (bcmp_less e c); assumption). assert (L2 : less e kq kp <-> bcmp e kq kp = Lt) by (symmetry; apply (bcmp_less e c); assumption).
  pose proof (bcmp_sym e kp kq) as Sy. destruct asc; rewrite ?L1, ?L2, Sy; destruct (bcmp e kp kq); cbn [CompOpp]; intros [H1|[H1 H1']] [H2|[H2 H2']]; (discriminate || lia).
Qed.
Lemma kinds_nth c ks : Forall (in_kind c) ks -> forall i, in_kind c (nth i ks Nothing).
Proof. intros H i. destruct (nth_in_or_default i ks Nothing) as [Hi|Hi]; [rewrite Forall_forall in H; apply H, Hi | rewrite Hi; left; reflexivity]. Qed.
Lemma differs_same l : sorted_differs l l = Ok false.
Proof. induction l as [|[i x] l IH]; [reflexivity|]. cbn [sorted_differs]. rewrite Nat.eqb_refl. exact IH. Qed.

(** Equal values sort alike. *)
Definition zero (x : pyfloat) : Prop := exists e, x = FFin 0 e.
Lemma same_zero x y : same_number x y -> zero x -> zero y.
Proof.
  intros S [k ->]. destruct y as [m k'| |]; cbn [same_number] in S; try contradiction. destruct S as [j [H1 [H2 H3]]]. exists k'. f_equal. rewrite Z.mul_0_l in H3.
  pose proof (Z.pow_pos_nonneg 2 (k' + j) ltac:(lia) H2). nia.
Qed.
Lemma blank_zero w x : number w = Some x -> (blank w <-> zero x).
Proof.
  intros N. split.
  - destruct 1; cbn in N; try discriminate; injection N as <-; eexists; reflexivity.
  - intros [k ->]. destruct w as [| | |[|]|z|f| | | | | | | | | | |]; cbn in N; try discriminate; injection N as E; subst; try discriminate; constructor.
Qed.
Lemma number_basis b w x k : number w = Some x -> basis_of (Some b) w k -> (zero x /\ k = Nothing) \/ (~ zero x /\ k = Number x).
Proof.
  intros N H. pose proof (blank_zero w x N) as Z. inversion H as [w' B|w' E|b' s E Ne Ty|b' s E Ty|b' w' y E B N1 N2|b' d E]; subst; try discriminate.
  - left. tauto.
  - right. split; [tauto | congruence].
Qed.
Lemma same_number_sym x y : same_number x y -> same_number y x.
Proof. destruct x, y; cbn [same_number]; try tauto; [intros [k [H1 [H2 H3]]]; exists k; auto | congruence]. Qed.
Lemma alike_sym e k k' : alike e k k' -> alike e k' k.
Proof. destruct k, k'; cbn [alike]; try tauto; try congruence. apply same_number_sym. Qed.
Lemma covered_basis b e w w' k k' : covered w w' -> basis_of (Some b) w k -> basis_of (Some b) w' k' -> alike e k k'.
Proof.
  intros C H H'. inversion C as [? ? Sa Sb Ss|l m F|]; subst.
  - assert (Nm : forall x y, number w = Some x -> number w' = Some y -> same_number x y -> alike e k k').
    { intros x y Nx Ny S. destruct (number_basis b w x k Nx H) as [[Z ->]|[Z ->]], (number_basis b w' y k' Ny H') as [[Z' ->]|[Z' ->]]; cbn [alike]; try exact I; try exact S.
      - apply Z', (same_zero _ _ S Z).
      - apply Z, (same_zero _ _ (same_number_sym _ _ S) Z'). }
    destruct w as [| | |x|x|x|s| | | | | | | | | |]; try contradiction; destruct w' as [| | |y|y|y|t| | | | | | | | | |]; try contradiction; cbn [same_scalar number] in Ss;
      try (destruct x; contradiction); try (destruct y; contradiction); try contradiction;
      try (destruct (number _) eqn:? in Ss; contradiction); try (destruct x, y; eapply Nm; (reflexivity || exact Ss)); try (destruct x; eapply Nm; (reflexivity || exact Ss)); try (destruct y; eapply Nm; (reflexivity || exact Ss)); try (eapply Nm; (reflexivity || exact Ss)).
    + inversion H; subst; try discriminate; inversion H'; subst; try discriminate; exact I.
    + subst t. inversion H as [w' B|w' E|b' s' E Ne Ty|b' s' E Ty|b' w' y E B N1 N2|b' d E]; subst; try discriminate;
        inversion H' as [w2 B2|w2 E2|b2 s2 E2 Ne2 Ty2|b2 s2 E2 Ty2|b2 w2 y2 E2 B2 N12 N22|b2 d2 E2]; subst; try discriminate; try exact I; try reflexivity.
      * inversion B; subst. contradiction.
      * inversion B2; subst. contradiction.
      * congruence.
      * congruence.
  - inversion H; subst; try discriminate; inversion H'; subst; try discriminate; exact I.
  - inversion H as [w' B|w' E|b' s' E Ne Ty|b' s' E Ty|b' w' y E B N1 N2|b' d0 E]; subst; try discriminate. inversion B.
Qed.
Lemma covered_sorts a e v v' k k' : is_complex a = false -> clean v -> clean v' -> covered v v' -> sorts_by a v k -> sorts_by a v' k' -> alike e k k'.
Proof.
  intros Hc Cv Cv' C [o [w [Ho [Hp Hb]]]] [o' [w' [Ho' [Hp' Hb']]]]. unfold key_attr in Ho, Ho'. rewrite Hc, andb_false_r in Ho, Ho'. subst o o'.
  destruct Hp as [|v Hm|x l Hm _|pre x post w Hm Hc' H1 H2 H3|l Hm Hc' H1]; try congruence.
  - exfalso. inversion Cv; subst; contradiction.
  - inversion Hp'; subst; try congruence. + exfalso. inversion Cv'; subst; contradiction. + eapply covered_basis; eassumption.
  - inversion Hp'; subst; try congruence.
    + exfalso. inversion Cv'; subst; contradiction.
    + apply covered_inv_list in C. inversion C; subst. eapply covered_basis; eassumption.
Qed.
Lemma Forall2_nth {A B} (P : A -> B -> Prop) l m : Forall2 P l m -> forall (d : B) i x, nth_error l i = Some x -> P x (nth i m d).
Proof. induction 1 as [|x y l m H _ IH]; intros d i z E; destruct i; try discriminate; cbn in *; [injection E as <-; exact H | apply IH, E]. Qed.

Lemma forall2_impl {A B} (P Q : A -> B -> Prop) l m : (forall x y, P x y -> Q x y) -> Forall2 P l m -> Forall2 Q l m.
Proof. intros H. induction 1; constructor; auto. Qed.
Lemma forall2_sorted {A} (Q R W : A -> A -> Prop) l l' : Forall2 Q l l' -> StronglySorted R l' -> (forall p q p' q', Q p p' -> Q q q' -> R p' q' -> W p q) -> StronglySorted W l.
Proof.
  intros F S H. induction F as [|p p' l l' Hp F IH]; [constructor|]. inversion S as [|? ? S' Fp]; subst. constructor; [apply IH, S'|].
  clear IH S S'. induction F as [|q q' l l' Hq F IH]; [constructor|]. inversion Fp; subst. constructor; [eapply H; eassumption | apply IH; assumption].
Qed.
Lemma sorted_and {A} (R W : A -> A -> Prop) l : StronglySorted R l -> StronglySorted W l -> StronglySorted (fun p q => R p q /\ W p q) l.
Proof. induction 1 as [|x l S IH F]; intros S'; inversion S' as [|? ? S2 F2]; subst; constructor; [apply IH, S2|]. rewrite Forall_forall in *. auto. Qed.
Lemma count_perm {A} (f : A -> bool) l l' : Permutation l l' -> length (filter f l) = length (filter f l').
Proof. induction 1; cbn [filter]; try reflexivity; [destruct (f x); cbn; lia | destruct (f x), (f y); reflexivity | congruence]. Qed.
Lemma count_same {A} (f : A -> bool) l l' : Forall2 (fun p q => f p = true -> f q = true) l l' ->
  length (filter f l) <= length (filter f l') /\ (length (filter f l) = length (filter f l') -> Forall2 (fun p q => f p = f q) l l').
Proof.
  induction 1 as [|p q l l' H _ [IH1 IH2]]; [split; [auto | constructor]|]. cbn [filter]. destruct (f p) eqn:Ep; [rewrite (H eq_refl)|destruct (f q) eqn:Eq]; cbn [length].
  - split; [lia|]. intros E. constructor; [rewrite Ep, H; reflexivity | apply IH2; lia].
  - split; [lia|]. intros E. lia.
  - split; [lia|]. intros E. constructor; [congruence | apply IH2; lia].
Qed.
Lemma in_enum (l : list value) : forall n i x, In (i, x) (enum_from n l) <-> n <= i /\ nth_error l (i - n) = Some x.
Proof.
  induction l as [|y l IH]; intros n i x; cbn [enum_from In].
  - split; [contradiction|]. intros [_ H]. destruct (i - n); discriminate.
  - rewrite IH. split.
    + intros [E|[H1 H2]]; [injection E as <- <-; rewrite Nat.sub_diag; auto|]. split; [lia|]. replace (i - n) with (S (i - S n)) by lia. exact H2.
    + intros [H1 H2]. destruct (Nat.eq_dec i n) as [->|N]; [left; rewrite Nat.sub_diag in H2; injection H2 as <-; reflexivity|]. right. split; [lia|].
      replace (i - n) with (S (i - S n)) in H2 by lia. exact H2.
Qed.
Lemma bcmp_refl e k : bcmp e k k = Eq.
Proof. pose proof (bcmp_sym e k k) as H. destruct (bcmp e k k); (reflexivity || discriminate). Qed.
Lemma differs_spec l : forall l', Forall (fun p : nat * value => clean (snd p)) l -> Forall (fun p : nat * value => clean (snd p)) l' -> length l = length l' ->
  exists b, sorted_differs l l' = Ok b /\ (b = false -> Forall2 (fun p q => fst p = fst q \/ covered (snd p) (snd q)) l l').
Proof.
  induction l as [|[i x] l IH]; intros [|[j y] l'] F F' E; try discriminate; [exists false; split; [reflexivity | constructor]|]. inversion F; inversion F'; subst. cbn [snd] in *.
  cbn [sorted_differs]. destruct (IH l') as [b [Hb Hc]]; try assumption; [cbn in E; lia|]. destruct (Nat.eqb_spec i j) as [->|N].
  - exists b. split; [exact Hb|]. intros ->. constructor; [left; reflexivity | apply Hc; reflexivity].
  - destruct (C15_exact_partial x y) as [r [-> Hr]]; try assumption. cbn [bind]. destruct r; [|exists true; split; [reflexivity | discriminate]].
    exists b. split; [exact Hb|]. intros ->. constructor; [right; apply Hr; reflexivity | apply Hc; reflexivity].
Qed.

(** Equality is transitive, so that a permutation all of whose items equal the
    ones they replace replaces each by the same document. *)
Lemma same_scalar_trans a b c : scalar a -> scalar b -> scalar c -> same_scalar a b -> same_scalar b c -> same_scalar a c.
Proof.
  intros Sa Sb Sc. unfold same_scalar.
  destruct a as [| | |ba|za|fa|sa| | | | | | | | | |]; try contradiction; destruct b as [| | |bb|zb|fb|sb| | | | | | | | | |]; try contradiction;
  destruct c as [| | |bc|zc|fc|sc| | | | | | | | | |]; try contradiction; cbn [number]; try (intros; exact I); try congruence;
    try destruct ba; try destruct bb; try destruct bc; cbn [number]; try contradiction; rewrite ?same_number_iff; try (intros; contradiction); apply feqb_trans.
Qed.
Lemma covered_trans : forall n a b c, vsize a + vsize b + vsize c < n -> covered a b -> covered b c -> covered a c.
Proof.
  induction n as [|n IH]; intros a b c L H H'; [lia|]. inversion H as [? ? Sa Sb Ss|l m F|d m d' m' F]; subst.
  - inversion H' as [? ? Sb' Sc Ss'| |]; subst; try contradiction. apply cv_scalar; try assumption. apply (same_scalar_trans a b c); assumption.
  - inversion H' as [? ? Sb' Sc Ss'|l' m' F'|]; subst; [contradiction|]. apply cv_list.
    assert (B : forall x y z, In x l -> In y m -> In z m' -> vsize x + vsize y + vsize z < n).
    { intros x y z Hx Hy Hz. apply vsize_list_in in Hx. apply vsize_list_in in Hy. apply vsize_list_in in Hz. lia. }
    clear L H H'. revert m' F' B. induction F as [|x y l m Hxy F IHl]; intros m' F' B; inversion F' as [|? z ? m2 Hyz F2]; subst; constructor.
    + apply (IH x y z); try assumption. apply B; left; reflexivity.
    + apply IHl; [assumption|]. intros; apply B; right; assumption.
  - inversion H' as [? ? Sb' Sc Ss'| |d1 m1 d2 m2 F']; subst; [contradiction|]. apply cv_cont. intros k x Hx. destruct (F k x Hx) as [k1 [y [Hy [S1 C1]]]], (F' k1 y Hy) as [k2 [z [Hz [S2 C2]]]].
    exists k2, z. split; [exact Hz|]. split; [unfold same_text in *; congruence|]. apply (IH z y x); try assumption.
    apply (vsize_cont_in _ m) in Hx. apply (vsize_cont_in _ m') in Hy. apply (vsize_cont_in _ m2) in Hz. lia.
Qed.
Lemma doc_eq_refl x : clean x -> doc_eq x x.
Proof. intros C. apply (doc_eq_covered (S (vsize x + vsize x))); try assumption; [lia|]. split; apply (covered_refl (S (vsize x))); try assumption; lia. Qed.
Lemma perm_doc_eq (l l' : list (nat * value)) : Forall (fun p => clean (snd p)) l -> Permutation l l' -> Forall2 (fun p q => covered (snd p) (snd q)) l l' -> Forall2 (fun p q => doc_eq (snd p) (snd q)) l l'.
Proof.
  intros C P F. assert (C' : Forall (fun p : nat * value => clean (snd p)) l') by (rewrite <- P; exact C).
  assert (G : forall m m', Forall2 (fun p q => covered (snd p) (snd q)) m m' -> (forall p, In p m' -> In p l') -> (forall f : nat * value -> bool, Forall2 (fun p q => f p = f q) l l' -> Forall2 (fun p q => f p = f q) m m') ->
    (forall p, In p m -> In p l) -> Forall2 (fun p q => doc_eq (snd p) (snd q)) m m').
  { intros m m' H. induction H as [|p q m m' Hpq _ IH]; intros H1 H2 H3; [constructor|]. constructor.
    - rewrite Forall_forall in C, C'. pose proof (C p (H3 _ (or_introl eq_refl))) as Cp. pose proof (C' q (H1 _ (or_introl eq_refl))) as Cq.
      apply (doc_eq_covered (S (vsize (snd p) + vsize (snd q)))); try assumption; [lia|]. split; [exact Hpq|].
      set (f := fun z : nat * value => match veq (snd q) (snd z) with Ok b => b | Raise _ => false end).
      assert (Hf : forall z, clean (snd z) -> (f z = true <-> covered (snd q) (snd z))).
      { intros z Cz. unfold f. destruct (C15_exact_partial (snd q) (snd z) Cq Cz) as [b [-> Hb]]. exact Hb. }
      destruct (count_same f l l') as [_ E].
      + assert (K : forall m m', Forall2 (fun p q => covered (snd p) (snd q)) m m' -> (forall p, In p m -> In p l) -> (forall p, In p m' -> In p l') -> Forall2 (fun p q => f p = true -> f q = true) m m').
        { intros u u' Hu. induction Hu as [|x y u u' Hxy _ IHu]; intros K1 K2; [constructor|]. constructor; [|apply IHu; intros z Hz; [apply K1 | apply K2]; right; exact Hz].
          rewrite !Hf; [|apply C', K2; left; reflexivity | apply C, K1; left; reflexivity]. intros Hx. apply (covered_trans (S (vsize (snd q) + vsize (snd x) + vsize (snd y))) _ (snd x)); try assumption. lia. }
        apply K; auto.
      + specialize (H2 f (E (count_perm f _ _ P))). inversion H2 as [|? ? ? ? Epq _]; subst. apply Hf; [exact Cp|]. rewrite Epq. apply Hf; [exact Cq|]. apply (covered_refl (S (vsize (snd q)))); [lia | exact Cq].
    - apply IH; [intros z Hz; apply H1; right; exact Hz | intros f Hf; specialize (H2 f Hf); inversion H2; assumption | intros z Hz; apply H3; right; exact Hz]. }
  apply G; auto.
Qed.
(** Reading the same name from equal documents. *)
Lemma no_empty_key d m : clean (VCont d m) -> sget [] m = None.
Proof.
  intros Hc. inversion Hc as [? Hs| |? ? Hn Hnd Hix Hd]; subst; [contradiction|]. destruct (sget [] m) as [k'|] eqn:E'; [|reflexivity]. apply Hix in E' as [Hin Hl].
  apply (proj1 (lower_nil _)) in Hl as ->. apply in_map_iff in Hin as [[q x] [Hq Hin]]. cbn in Hq; subst q. rewrite Forall_forall in Hn. specialize (Hn _ Hin). exfalso. apply (attr_ok_nonempty _ Hn). reflexivity.
Qed.
Lemma get_rep_str d m k : clean (VCont d m) -> attr_ok k -> get_item (VCont d m) (mkRep [] k [] false) = get_item_str (VCont d m) k.
Proof. intros C Hk. rewrite get_clean by assumption. apply get_plain, (no_empty_key d), C. Qed.
Lemma get_two d m k sub : clean (VCont d m) -> attr_ok k -> get_item (VCont d m) (mkRep [] k sub false) = let! x := get_item_str (VCont d m) k in match x with VMissing => Ok VMissing | _ => get_sub x sub end.
Proof.
  intros C Hk. rewrite get_clean by assumption. rewrite get_item_eq. cbn [r_schema r_attr r_sub]. change (lower []) with (@nil ascii). rewrite (no_empty_key d m C). destruct (sget (lower k) m) as [q|]; [|reflexivity].
  destruct (sget q d) as [x|] eqn:E; cbn [bind]; [|reflexivity]. destruct x; try reflexivity. unfold get_sub. destruct sub; reflexivity.
Qed.
Lemma doc_eq_str d m d' m' k : clean (VCont d m) -> clean (VCont d' m') -> attr_ok k -> doc_eq (VCont d m) (VCont d' m') ->
  (get_item_str (VCont d m) k = Ok VMissing /\ get_item_str (VCont d' m') k = Ok VMissing)
  \/ exists x x', get_item_str (VCont d m) k = Ok x /\ get_item_str (VCont d' m') k = Ok x' /\ doc_eq x x' /\ clean x /\ clean x'.
Proof.
  intros C C' Hk D. inversion D as [? ? S| |? ? ? ? H1 H2]; subst; [contradiction|]. destruct (find_name d k) as [[q [x [Hin Hs]]]|Hno].
  - right. destruct (H1 q x Hin) as [q' [x' [Hin' [Hs' D']]]]. exists x, x'. split; [apply (get_clean_In d m k q x); assumption|].
    split; [apply (get_clean_In d' m' k q' x'); try assumption; unfold same_text in *; congruence|]. split; [exact D'|]. split; [exact (proj2 (clean_in _ _ _ _ C Hin)) | exact (proj2 (clean_in _ _ _ _ C' Hin'))].
  - left. split; apply get_clean_absent; try assumption. intros q' x' Hin' Hs'. destruct (H2 q' x' Hin') as [q [x [Hin [Hs D']]]]. apply (Hno q x Hin). unfold same_text in *. congruence.
Qed.
Lemma mapM_len {A B} (f : A -> res B) l : forall m, mapM f l = Ok m -> length m = length l.
Proof. induction l as [|x l IH]; intros m H; cbn [mapM] in H; [injection H as <-; reflexivity|]. destruct (f x); cbn [bind] in H; [|discriminate]. destruct (mapM f l) as [m'|]; cbn [bind] in H; [|discriminate]. injection H as <-. cbn. rewrite (IH _ eq_refl). reflexivity. Qed.
Lemma doc_eq_read d m d' m' k sub v v' : clean (VCont d m) -> clean (VCont d' m') -> attr_ok k -> sub = [] \/ attr_ok sub -> doc_eq (VCont d m) (VCont d' m') ->
  get_item (VCont d m) (mkRep [] k sub false) = Ok v -> get_item (VCont d' m') (mkRep [] k sub false) = Ok v' ->
  (v = VMissing /\ v' = VMissing) \/ (doc_eq v v' /\ clean v /\ clean v') \/ exists l l', v = VList l /\ v' = VList l' /\ length l = length l' /\ sub <> [].
Proof.
  intros C C' Hk Hsub D. rewrite !get_two by assumption. destruct (doc_eq_str d m d' m' k C C' Hk D) as [[-> ->]|[x [x' [-> [-> [Dx [Cx Cx']]]]]]]; cbn [bind].
  - intros H H'. left. split; congruence.
  - assert (Nm : forall y, clean y -> match y with VMissing => Ok VMissing | _ => get_sub y sub end = get_sub y sub) by (intros y Cy; destruct y; try reflexivity; inversion Cy; subst; contradiction).
    rewrite !Nm by assumption. destruct Hsub as [->|Hs]; [cbn [get_sub]; intros H H'; injection H as <-; injection H' as <-; right; left; auto|].
    unfold get_sub. destruct sub as [|c sub]; [exfalso; apply (attr_ok_nonempty _ Hs); reflexivity|]. set (s := c :: sub) in *. rewrite mk_rep_plain by exact Hs. cbn [bind].
    inversion Dx as [? ? Sx Sx' Ss|l l' F|e n e' n' H1 H2]; subst.
    + destruct x; try contradiction; destruct x'; try contradiction; intros H H'; left; split; congruence.
    + intros H H'. right. right. destruct (mapM _ l) as [u|] eqn:E1; cbn [bind] in H; [|discriminate]. destruct (mapM _ l') as [u'|] eqn:E2; cbn [bind] in H'; [|discriminate].
      injection H as <-. injection H' as <-. exists u, u'. split; [reflexivity|]. split; [reflexivity|]. split; [|discriminate].
      rewrite (mapM_len _ _ _ E1), (mapM_len _ _ _ E2). clear - F. induction F; cbn; congruence.
    + rewrite !get_rep_str by assumption. destruct (doc_eq_str e n e' n' s Cx Cx' Hs Dx) as [[-> ->]|[y [y' [-> [-> [Dy [Cy Cy']]]]]]]; intros H H'; [left; split; congruence|].
      right. left. injection H as <-. injection H' as <-. auto.
Qed.
Lemma lists_alike a e l l' k k' : a_multi (info a) = false -> length l = length l' -> sorts_by a (VList l) k -> sorts_by a (VList l') k' -> alike e k k'.
Proof.
  intros Hm L [o [w [Ho [Hp Hb]]]] [o' [w' [Ho' [Hp' Hb']]]]. unfold key_attr in Ho, Ho'. rewrite Hm in Ho, Ho'. cbn [andb] in Ho, Ho'. subst o o'.
  inversion Hp; subst; try congruence. inversion Hp'; subst; try congruence.
  inversion Hb as [w' B|w' E|b' s' E Ne Ty|b' s' E Ty|b' w' y E B N1 N2|b' d0 E]; subst; try discriminate.
  inversion Hb' as [w2 B2|w2 E2|b2 s2 E2 Ne2 Ty2|b2 s2 E2 Ty2|b2 w2 y2 E2 B2 N12 N22|b2 d2 E2]; subst; try discriminate. exact I.
Qed.

Section Response.
  Context (so : sorter) (data : list value) (n : nat) (sc : schema) (a : attribute) (e : bool) (ks : list basis).
  Hypothesis Ha : find_attr (at_all (sc_attrs sc)) (so_rep so) = Some a.
  Hypothesis He : exact_for a e.
  Hypothesis Hk : Forall2 (fun x k => exists v, get_item x (so_rep so) = Ok v /\ sorts_by a v k) data ks.
  Hypothesis Hu : uniform ks.

  (** An ordered response is never reported. *)
  Theorem C48_sorted_accepted_partial :
    StronglySorted (comes_before e (so_asc so) ks) (enumerate data) ->
    resources_sorted so data (repeat (Some (n, sc)) (length data)) = Ok no_issues.
  Proof.
    intros S. unfold resources_sorted. destruct data as [|x l] eqn:D; [reflexivity|]. rewrite <- D in *.
    assert (Hs : all_of sc (ManySchemas (repeat (Some (n, sc)) (length data)))) by (rewrite D; apply ao_many).
    destruct (C46_sorted_partial so data _ sc a e ks Ha He Hs Hk Hu) as [out [-> [P S']]]. cbn [bind].
    destruct (uniform_kind ks Hu) as [c Hc]. rewrite <- (sorted_unique _ _ _ (fun p q _ _ => before_asym e (so_asc so) ks c (kinds_nth c ks Hc) p q) P S S'). rewrite differs_same. reflexivity.
  Qed.

  (** Partial (documents with plain names, sorted by an attribute that is not
      complex): a response that is not ordered is reported. *)
  Hypothesis Hclean : Forall (fun x => clean x /\ exists d m, x = VCont d m) data.
  Hypothesis Hname : exists k sub, so_rep so = mkRep [] k sub false /\ attr_ok k /\ (sub = [] \/ (attr_ok sub /\ a_multi (info a) = false)).
  Hypothesis Hsimple : is_complex a = false.

  Lemma equal_alike i j x y : nth_error data i = Some x -> nth_error data j = Some y -> doc_eq x y -> alike e (nth i ks Nothing) (nth j ks Nothing).
  Proof.
    intros Hi Hj C. pose proof (nth_error_In _ _ Hi) as Ix. pose proof (nth_error_In _ _ Hj) as Iy. pose proof Hclean as Hcl. rewrite Forall_forall in Hcl.
    destruct (Hcl x Ix) as [Cx [d [m ->]]], (Hcl y Iy) as [Cy [d' [m' ->]]]. clear Hcl.
    destruct (Forall2_nth _ _ _ Hk Nothing i _ Hi) as [v [Hg Hv]], (Forall2_nth _ _ _ Hk Nothing j _ Hj) as [v' [Hg' Hv']]. destruct Hname as [k [sub [Hr [Hkk Hsub]]]]. rewrite Hr in Hg, Hg'.
    assert (Hsub' : sub = [] \/ attr_ok sub) by tauto.
    destruct (doc_eq_read d m d' m' k sub v v' Cx Cy Hkk Hsub' C Hg Hg') as [[-> ->]|[[D [C1 C2]]|[l [l' [-> [-> [L Ns]]]]]]].
    - rewrite (falsy_nothing a VMissing _ eq_refl Hv), (falsy_nothing a VMissing _ eq_refl Hv'). exact I.
    - apply (covered_sorts a e v v'); try assumption. apply (doc_eq_covered (S (vsize v + vsize v'))) in D; [apply D | lia | assumption | assumption].
    - destruct Hsub as [Hsub|[_ Hm]]; [contradiction|]. apply (lists_alike a e l l'); assumption.
  Qed.

  Theorem C48_unsorted_reported_partial :
    ~ StronglySorted (comes_before e (so_asc so) ks) (enumerate data) ->
    resources_sorted so data (repeat (Some (n, sc)) (length data)) = Ok (add_issue no_issues e_not_sorted true []).
  Proof.
    intros NS. unfold resources_sorted.
    assert (Hs : all_of sc (ManySchemas (repeat (Some (n, sc)) (length data)))).
    { destruct data; [exfalso; apply NS; constructor | apply ao_many]. }
    destruct (C46_sorted_partial so data _ sc a e ks Ha He Hs Hk Hu) as [out [-> [P S']]]. cbn [bind].
    assert (Cl : Forall (fun p : nat * value => clean (snd p)) (enumerate data)).
    { apply Forall_forall. intros [i x] Hin. apply in_enum in Hin as [_ Hin]. apply nth_error_In in Hin. pose proof Hclean as Hcl. rewrite Forall_forall in Hcl. apply (Hcl x Hin). }
    destruct (differs_spec (enumerate data) out) as [b [-> Hb]]; [exact Cl | rewrite <- P; exact Cl | apply Permutation_length, P|]. cbn [bind]. destruct b; [reflexivity|]. exfalso. apply NS. clear NS.
    specialize (Hb eq_refl). destruct (uniform_kind ks Hu) as [c Hc]. pose proof (kinds_nth c ks Hc) as Kn.
    set (key := fun p : nat * value => nth (fst p) ks Nothing).
    assert (Hcov : Forall2 (fun p q : nat * value => covered (snd p) (snd q)) (enumerate data) out).
    { assert (G : forall l l', (forall p, In p l -> In p (enumerate data)) -> (forall p, In p l' -> In p (enumerate data)) ->
        Forall2 (fun p q : nat * value => fst p = fst q \/ covered (snd p) (snd q)) l l' -> Forall2 (fun p q : nat * value => covered (snd p) (snd q)) l l').
      { intros l l' Hl Hl' H. induction H as [|p q l l' H _ IH]; [constructor|]. constructor.
        - destruct H as [E|C]; [|exact C]. destruct p as [i x], q as [j y]. pose proof (Hl _ (or_introl eq_refl)) as H1. pose proof (Hl' _ (or_introl eq_refl)) as H2. cbn [fst snd] in *. subst j.
          rewrite Forall_forall in Cl. pose proof (Cl _ H1) as Cx. apply in_enum in H1 as [_ H1], H2 as [_ H2]. assert (x = y) by congruence. subst y. apply (covered_refl (S (vsize x))); [lia | exact Cx].
        - apply IH; intros z Hz; [apply Hl | apply Hl']; right; exact Hz. }
      apply G; [auto | intros p Hp; exact (Permutation_in _ (Permutation_sym P) Hp) | exact Hb]. }
    pose proof (perm_doc_eq _ _ Cl P Hcov) as Hdoc.
    assert (F2 : Forall2 (fun p q => alike e (key p) (key q)) (enumerate data) out).
    { assert (G : forall l l', (forall p, In p l -> In p (enumerate data)) -> (forall p, In p l' -> In p (enumerate data)) ->
        Forall2 (fun p q : nat * value => doc_eq (snd p) (snd q)) l l' -> Forall2 (fun p q => alike e (key p) (key q)) l l').
      { intros l l' Hl Hl' H. induction H as [|p q l l' H _ IH]; [constructor|]. constructor.
        - destruct p as [i x], q as [j y]. pose proof (Hl _ (or_introl eq_refl)) as H1. pose proof (Hl' _ (or_introl eq_refl)) as H2.
          apply in_enum in H1 as [_ H1], H2 as [_ H2]. rewrite Nat.sub_0_r in *. exact (equal_alike i j x y H1 H2 H).
        - apply IH; intros z Hz; [apply Hl | apply Hl']; right; exact Hz. }
      apply G; [auto | intros p Hp; exact (Permutation_in _ (Permutation_sym P) Hp) | exact Hdoc]. }
    assert (S : StronglySorted (fun p q => (if so_asc so then bcmp e (key p) (key q) else bcmp e (key q) (key p)) <> Gt) (enumerate data)).
    { apply (forall2_sorted _ (comes_before e (so_asc so) ks) _ _ _ F2 S'). intros p q p' q' A1 A2 B. unfold comes_before in B. cbv zeta in B. fold (key p') (key q') in B.
      apply (bcmp_alike e c) in A1; [|apply Kn | apply Kn]. apply (bcmp_alike e c) in A2; [|apply Kn | apply Kn].
      assert (B' : (if so_asc so then bcmp e (key p') (key q') else bcmp e (key q') (key p')) <> Gt).
      { destruct (so_asc so); destruct B as [B|[B _]].
        - apply (bcmp_less e c) in B; [rewrite B; discriminate | apply Kn | apply Kn].
        - apply (bcmp_alike e c) in B; [rewrite B; discriminate | apply Kn | apply Kn].
        - apply (bcmp_less e c) in B; [rewrite B; discriminate | apply Kn | apply Kn].
        - apply (bcmp_alike e c) in B; [rewrite bcmp_sym, B; discriminate | apply Kn | apply Kn]. }
      destruct (so_asc so).
      - apply (bcmp_trans e c _ (key p')); try apply Kn; [rewrite A1; discriminate|]. apply (bcmp_trans e c _ (key q')); try apply Kn; [exact B' | rewrite bcmp_sym, A2; discriminate].
      - apply (bcmp_trans e c _ (key q')); try apply Kn; [rewrite A2; discriminate|]. apply (bcmp_trans e c _ (key p')); try apply Kn; [exact B' | rewrite bcmp_sym, A1; discriminate]. }
    destruct (enum_sorted data 0) as [Se _]. pose proof (sorted_and _ _ _ S Se) as S2. revert S2. apply sorted_impl. intros p q _ _ [B L]. unfold comes_before. cbv zeta. fold (key p) (key q).
    pose proof (bcmp_less e c (key p) (key q) (Kn _) (Kn _)) as L1. pose proof (bcmp_less e c (key q) (key p) (Kn _) (Kn _)) as L2. pose proof (bcmp_alike e c (key p) (key q) (Kn _) (Kn _)) as L3. pose proof (bcmp_sym e (key p) (key q)) as Sy.
    destruct (so_asc so).
    - destruct (bcmp e (key p) (key q)); [right; split; [apply L3; reflexivity | exact L] | left; apply L1; reflexivity | contradiction].
    - rewrite Sy in *. destruct (bcmp e (key p) (key q)); cbn [CompOpp] in *; [right; split; [apply L3; reflexivity | exact L] | contradiction | left; apply L2; reflexivity].
  Qed.
End Response.
Print Assumptions C48_sorted_accepted_partial.
Print Assumptions C48_unsorted_reported_partial.

(** The full claim is false: times in the wrong order are accepted, and so is any
    order of resources whose values cannot be compared. *)
Theorem C48_times_refuted : exists data,
  mapM (fun x => get_item x (so_rep by_created)) data = Ok [VStr ($"2021-01-01T00:00:00"); VStr ($"2020-01-01T00:00:00")]
  /\ resources_sorted by_created data (repeat (Some (0, user_schema)) (length data)) = Ok no_issues.
Proof. exists [created ($"2021-01-01T00:00:00"); created ($"2020-01-01T00:00:00")]. split; reflexivity. Qed.
Print Assumptions C48_times_refuted.

Example ex_C48 : let data := named_users in
  (exists a, find_attr (at_all (sc_attrs user_schema)) (so_rep by_user_name) = Some a /\ is_complex a = false
   /\ Forall (fun x => exists o w, sort_value (so_rep by_user_name) a x o w /\ forall l, w <> VList l) data)
  /\ Forall (fun x => exists d m, x = VCont d m) data
  /\ resources_sorted by_user_name data (repeat (Some (0, user_schema)) (length data)) = Ok (add_issue no_issues e_not_sorted true [])
  /\ resources_sorted by_user_name (map (fun n => shown (Some n) None) [$"alice"; $"Bob"; $"BOB"; $"Carl"]) (repeat (Some (0, user_schema)) 4) = Ok no_issues
  /\ ~ StronglySorted (comes_before false true (map Text [$"Bob"; $"alice"; $"BOB"; $"Carl"])) (enumerate data)
  /\ StronglySorted (comes_before false true (map Text [$"alice"; $"Bob"; $"BOB"; $"Carl"])) (enumerate (map (fun n => shown (Some n) None) [$"alice"; $"Bob"; $"BOB"; $"Carl"])).
Proof.
  cbv zeta. split.
  { eexists. split; [reflexivity|]. split; [reflexivity|]. unfold named_users. cbn [map].
    repeat apply Forall_cons; [| | | |apply Forall_nil]; (eexists; eexists; split; [eexists; split; [reflexivity|]; split; [reflexivity | apply pk_single; reflexivity] | intros l; discriminate]). }
  split; [unfold named_users; cbn [map]; repeat apply Forall_cons; [| | | |apply Forall_nil]; eexists; eexists; reflexivity|].
  split; [reflexivity|]. split; [reflexivity|].
  assert (T : forall s t, str_cmp s t = Lt -> text_lt s t) by (intros s t; apply str_cmp_lt).
  split.
  - intros S. inversion S as [|? ? _ F]; subst. inversion F as [|? ? H _]; subst. destruct H as [H|[H _]]; [|discriminate H]. cbn in H. apply str_cmp_lt in H. discriminate H.
  - cbn [map enumerate enum_from]. repeat (apply SSorted_cons; [|repeat (apply Forall_cons); try apply Forall_nil]); try apply SSorted_nil;
      first [left; apply T; reflexivity | right; split; [reflexivity | cbn; lia]].
Qed.
