(** Lemmas about bulk requests and responses. *)
From Coq Require Import Lia.
From Verif Require Import PyBase BaseFacts PyNum Issues IssuesSpec IssuesFacts AttrRep AttrRepSpec Value Container ContainerSpec ContainerFacts ContainerRW AttrRepFacts ValueFacts
  Types Attr Schema Assets Presence Match FilterParse Path Sort Patch ListResp Search Bulk Requests
  AttrSpec AttrFacts AttrHonest AttrItems SchemaSpec SchemaFacts SchemaBuild PropAttr PropSchema MatchSpec PresenceSpec PresenceFacts PropPresence PatchSpec PatchFacts RequestSpec ListSpec RequestFacts MsgFacts BodyFacts ListFacts BulkSpec.

(** Merging below a location leaves the errors elsewhere alone. *)
Lemma merge_at_elsewhere i j q i' p : (forall t, p <> q ++ t) -> merge_at i j q = Ok i' -> errs_at i' p = errs_at i p.
Proof.
  intros Hp. unfold merge_at. apply (foldM_inv _ (fun x => errs_at x p = errs_at i p)); [|reflexivity].
  intros s [ol es] s' _ Hs H. cbn [merge_entry] in H.
  assert (G : i_errs s' = lset (q ++ ol) (errs_at s (q ++ ol) ++ es) (i_errs s)).
  { destruct (lget ol (i_stop j)), (i_dd j), (i_dd s), (lget (q ++ ol) (i_errs s)), (lget (q ++ ol) (i_stop s)); try discriminate H; injection H as <-; reflexivity. }
  rewrite <- Hs. unfold errs_at at 1. rewrite G, lget_lset. destruct (loc_dec (q ++ ol) p) as [E|_]; [|reflexivity]. exfalso. exact (Hp _ (eq_sym E)).
Qed.

Section Env.
  Context {env : PyEnv}.

  (** Processing a list whose items are not looked at as a whole. *)
  Lemma process_list m i subs cps cds xs : a_multi i = true -> procs_of m i = [] -> process (MkAttr i (Some (subs, cps, cds))) m (VList xs) =
    let! (ys, iss) := before_procs m (MkAttr i (Some (subs, cps, cds))) xs in
    if has_issues iss [] then Ok (VList ys, iss) else run_procs (match m with MParse => cps | MDump => cds end) (VList ys) iss.
  Proof.
    intros Hm Hp. rewrite process_complex, base_process_eq, Hm. cbn [is_list negb andb]. unfold base_core. rewrite Hm, Hp. cbn [before_procs].
    destruct (foldM (item_step m i) (enumerate xs) ([], no_issues)) as [[items iss]|e] eqn:Ef; cbn [bind]; [|reflexivity].
    assert (Hns : ~ stops iss []) by (eapply items_no_stop; [apply report_empty| |exact Ef]; intros []).
    assert (Hcp : can_proceed iss [] = true) by (destruct (can_proceed iss []) eqn:E; [reflexivity|]; apply can_proceed_root in E; contradiction).
    replace (if has_issues iss [] then Ok (VList items, iss) else run_procs [] (VList items) iss) with (@Ok outcome (VList items, iss)) by (destruct (has_issues iss []); reflexivity).
    cbn [bind]. rewrite Hcp. cbn [negb orb]. unfold complex_part. cbn [iter_value bind]. rewrite bind_assoc.
    destruct (foldM (complex_items m subs) (enumerate items) ([], iss)) as [[ys iss2]|e]; reflexivity.
  Qed.

  (** A check of every operation keeps their number. *)
  Lemma each_length f v w k : each_operation f v = Ok (w, k) -> exists l l', iter_value v = Ok l /\ w = VList l' /\ length l' = length l.
  Proof.
    intros H. unfold each_operation in H. apply bind_ok in H as [l [Hl H]]. apply bind_ok in H as [[l' k'] [Hf H]]. injection H as <- <-. exists l, l'. split; [exact Hl|]. split; [reflexivity|].
    assert (G : forall es st st', foldM (fun st e => let! (c, iss) := f (fst e) (snd e) (snd st) in Ok (fst st ++ [c], iss)) es st = Ok st' -> length (fst st') = length (fst st) + length es).
    { clear. induction es as [|e es IH]; intros st st' H; cbn [foldM] in H; [injection H as <-; cbn [length]; lia|]. apply bind_ok in H as [s1 [H1 H]]. apply bind_ok in H1 as [[c k] [_ H1]]. injection H1 as <-.
      apply IH in H. cbn [fst snd] in H. rewrite app_length in H. cbn [length] in *. lia. }
    apply G in Hf. cbn [fst length Nat.add] in Hf. rewrite Hf. unfold enumerate. rewrite enum_from_length. reflexivity.
  Qed.
  (** It reports below the operations only. *)
  Lemma each_root (f : nat -> value -> issues -> res (value * issues)) v w k :
    (forall i c iss c' iss', f i c iss = Ok (c', iss') -> errs_at iss' [] = errs_at iss []) -> each_operation f v = Ok (w, k) -> errs_at k [] = [].
  Proof.
    intros Hf H. unfold each_operation in H. apply bind_ok in H as [l [_ H]]. apply bind_ok in H as [[l' k'] [H1 H]]. injection H as _ <-. change (errs_at (snd (l', k')) [] = []). revert H1.
    apply (foldM_inv _ (fun st : list value * issues => errs_at (snd st) [] = [])); [|reflexivity]. intros s e s' _ Hs H. apply bind_ok in H as [[c k] [H1 H]]. injection H as <-. cbn [snd]. rewrite (Hf _ _ _ _ _ H1). exact Hs.
  Qed.
  Lemma add_if_elsewhere b e pr l iss p : l <> p -> errs_at (add_if b e pr l iss) p = errs_at iss p.
  Proof. intros N. unfold add_if. destruct b; [|reflexivity]. rewrite errs_at_add. destruct (loc_dec l p); [contradiction | apply app_nil_r]. Qed.
  Lemma request_op_root i c iss c' iss' : validate_request_operation i c iss = Ok (c', iss') -> errs_at iss' [] = errs_at iss [].
  Proof.
    intros H. unfold validate_request_operation in H. cbn zeta in H. apply bind_ok in H as [m [_ H]]. apply bind_ok in H as [b [_ H]]. apply bind_ok in H as [c1 [_ H]]. apply bind_ok in H as [p [_ H]].
    apply bind_ok in H as [i1 [Hi H]]. apply bind_ok in H as [d [_ H]]. injection H as _ <-. rewrite add_if_elsewhere by discriminate.
    assert (G : errs_at i1 [] = errs_at (add_if (str_is m ($"POST") && is_none_or_missing b) e_missing false (sub_loc i b_id) (add_if (is_none_or_missing m) e_missing false (sub_loc i b_method) iss)) []).
    { destruct (is_none_or_missing p); [injection Hi as <-; rewrite errs_at_add; destruct (loc_dec _ _); [discriminate | apply app_nil_r]|].
      destruct (str_is m _); [apply bind_ok in Hi as [? [_ Hi]]; injection Hi as <-; apply add_if_elsewhere; discriminate|].
      destruct (str_in m _); [apply bind_ok in Hi as [? [_ Hi]]; injection Hi as <-; apply add_if_elsewhere; discriminate|]. injection Hi as <-. reflexivity. }
    rewrite G, !add_if_elsewhere by discriminate. reflexivity.
  Qed.
  Lemma response_op_root i c iss c' iss' : validate_response_operation i c iss = Ok (c', iss') -> errs_at iss' [] = errs_at iss [].
  Proof.
    intros H. unfold validate_response_operation in H. cbn zeta in H. apply bind_ok in H as [m [_ H]]. apply bind_ok in H as [b [_ H]]. apply bind_ok in H as [s [_ H]].
    apply bind_ok in H as [i1 [Hi H]]. injection H as _ <-. destruct (truthy s).
    - apply bind_ok in Hi as [lo [_ Hi]]. apply bind_ok in Hi as [nl [_ Hi]]. apply bind_ok in Hi as [re [_ Hi]]. apply bind_ok in Hi as [nr [_ Hi]]. injection Hi as <-. rewrite !add_if_elsewhere by discriminate. reflexivity.
    - injection Hi as <-. rewrite !add_if_elsewhere by discriminate. reflexivity.
  Qed.

  (** Items without a "primary" member. *)
  Definition lacks (y : value) : Prop := exists d l, y = VCont d l /\ sget ($"primary") l = None /\ sget [] l = None.
  Lemma lacks_primary ys : Forall lacks ys -> single_primary (VList ys) = Ok (VList ys, no_issues).
  Proof.
    intros H. unfold single_primary. cbn [iter_value bind]. assert (G : forall i, primary_entries i ys = Ok []).
    { induction H as [|y t [d [l [-> [H1 H2]]]] _ IH]; intros i; cbn [primary_entries]; [reflexivity|]. unfold get_item_str.
      replace (to_rep ($"primary")) with (Ok (mkRep [] ($"primary") [] false)) by (vm_compute; reflexivity). cbn [bind]. rewrite get_item_eq. cbn [r_schema r_attr r_sub]. change (lower []) with (@nil ascii). rewrite H2.
      change (lower ($"primary")) with ($"primary"). rewrite H1. cbn [bind]. rewrite IH. reflexivity. }
    rewrite G. reflexivity.
  Qed.
  Lemma one_item_lacks m i subs cps cds x o : sound_attr (MkAttr i (Some (subs, cps, cds))) -> distinct_names subs -> (forall s, In s subs -> lower (r_attr (arep s)) <> $"primary") ->
    one_item m (MkAttr i (Some (subs, cps, cds))) x = Ok o -> lacks (fst o).
  Proof.
    intros Ha Hd Hn H. cbn [one_item] in H. apply bind_ok in H as [[y iss] [_ H]]. apply bind_ok in H as [outs [Hg H]]. injection H as <-. cbn [fst].
    destruct (put_all_tidy _ _ _ _ Hd (sound_plain _ _ _ _ Ha) Hg) as [E _]. rewrite E. destruct (gather_names _ _ _ Hd _ Hg) as [_ G]. eexists _, _. split; [reflexivity|].
    assert (K : forall k, (forall s, In s subs -> lower (r_attr (arep s)) <> k) -> sget k (map (fun e : str * outcome => (lower (fst e), fst e)) outs) = None).
    { intros k Hk. destruct (sget k _) as [z|] eqn:Ek; [|reflexivity]. exfalso. apply sget_In, in_map_iff in Ek as [[n q] [Ek Hin]]. cbn [fst] in Ek. injection Ek as Ek _.
      destruct (G n) as [s [Hs ->]]; [apply in_map_iff; eexists; split; [|exact Hin]; reflexivity|]. exact (Hk s Hs Ek). }
    split; [apply K; exact Hn|]. apply K. intros s Hs E0. pose proof (sound_plain _ _ _ _ Ha) as P. rewrite Forall_forall in P. destruct (P s Hs) as [_ [_ [_ P']]]. exact (lower_ne_nil _ P' E0).
  Qed.
  Definition leaves (f : nat -> value -> issues -> res (value * issues)) : Prop :=
    forall i c iss c' iss', f i c iss = Ok (c', iss') -> errs_at iss' [] = errs_at iss [] /\ (lacks c -> lacks c').
  Lemma each_lacks f ys w k : leaves f -> Forall lacks ys -> each_operation f (VList ys) = Ok (w, k) -> exists zs, w = VList zs /\ Forall lacks zs.
  Proof.
    intros Hf Hy H. unfold each_operation in H. cbn [iter_value bind] in H. apply bind_ok in H as [[l' k'] [H1 H]]. injection H as <- <-. exists l'. split; [reflexivity|]. change (Forall lacks (fst (l', k'))). revert H1.
    apply (foldM_inv _ (fun st : list value * issues => Forall lacks (fst st))); [|constructor]. intros s [j c] s' Hin Hs H. apply bind_ok in H as [[c' k] [H1 H]]. injection H as <-. cbn [fst snd] in *.
    apply Forall_app. split; [exact Hs|]. constructor; [|constructor]. apply (Hf _ _ _ _ _ H1). rewrite Forall_forall in Hy. apply Hy. unfold enumerate in Hin. apply enum_from_In in Hin as [j' [_ Hin]]. exact (nth_error_In _ _ Hin).
  Qed.
  Lemma request_op_leaves : leaves validate_request_operation.
  Proof.
    intros i c iss c' iss' H. split; [exact (request_op_root _ _ _ _ _ H)|]. unfold validate_request_operation in H. cbn zeta in H. apply bind_ok in H as [m [_ H]]. apply bind_ok in H as [b [_ H]]. apply bind_ok in H as [c1 [Hc H]]. apply bind_ok in H as [p [_ H]].
    apply bind_ok in H as [i1 [_ H]]. apply bind_ok in H as [d [_ H]]. injection H as <- _. destruct (str_in m _); [|injection Hc as <-; auto]. intros [dd [l [-> [H1 H2]]]].
    replace (arep b_data) with (mkRep [] ($"data") [] false) in Hc by (vm_compute; reflexivity). cbn [del_item r_schema r_attr r_sub] in Hc. change (lower []) with (@nil ascii) in Hc. rewrite H2 in Hc.
    destruct (sget (lower ($"data")) l) as [a|]; [|injection Hc as <-; exists dd, l; auto]. destruct (sget a dd); [|discriminate Hc]. injection Hc as <-. eexists _, _. split; [reflexivity|].
    rewrite !sget_sdel_other by discriminate. auto.
  Qed.
  Lemma response_op_leaves : leaves validate_response_operation.
  Proof.
    intros i c iss c' iss' H. split; [exact (response_op_root _ _ _ _ _ H)|]. unfold validate_response_operation in H. cbn zeta in H. apply bind_ok in H as [m [_ H]]. apply bind_ok in H as [b [_ H]]. apply bind_ok in H as [s [_ H]].
    apply bind_ok in H as [i1 [_ H]]. injection H as <- _. auto.
  Qed.

  (** The operations after parsing or dumping. *)
  Lemma ops_processed m i subs cps cds f xs v k : sound_attr (MkAttr i (Some (subs, cps, cds))) -> a_multi i = true -> procs_of m i = [] -> match m with MParse => cps | MDump => cds end = [each_operation f; single_primary] ->
    distinct_names subs -> (forall s, In s subs -> lower (r_attr (arep s)) <> $"primary") -> leaves f -> reporting (each_operation f) ->
    process (MkAttr i (Some (subs, cps, cds))) m (VList xs) = Ok (v, k) -> (exists ys, v = VList ys /\ length ys = length xs) /\ errs_at k [] = [].
  Proof.
    intros Hs Hm Hp Hc Hd Hn Hf Hr H. rewrite (process_list m i subs cps cds xs Hm Hp), Hc in H. apply bind_ok in H as [[ys iss] [Hb H]].
    destruct (before_procs_spec m _ xs Hs) as [B _]. destruct (B _ _ Hb) as [outs [B1 [B2 [B3 [_ B4]]]]]. apply mapM_ok in B1. assert (L : length ys = length xs).
    { rewrite B2, map_length. clear - B1. induction B1; cbn [length]; congruence. }
    assert (Y : Forall lacks ys).
    { subst ys. clear - B1 Hs Hd Hn. induction B1 as [|x o xs outs H _ IH]; constructor; [exact (one_item_lacks _ _ _ _ _ _ _ Hs Hd Hn H) | exact IH]. }
    assert (R : errs_at iss [] = []) by (rewrite B4; apply items_errs_other; discriminate).
    destruct (has_issues iss []); [injection H as <- <-; split; [exists ys; auto | exact R]|].
    unfold run_procs in H. cbn [foldM fst snd] in H. apply bind_ok in H as [[v1 k1] [H1 H]]. apply bind_ok in H1 as [[v2 k2] [H1 H2]]. injection H2 as <- <-.
    destruct (each_lacks _ _ _ _ Hf Y H1) as [zs [-> Z]]. cbn [fst snd] in H. rewrite (lacks_primary _ Z) in H. cbn [bind foldM] in H. injection H as <- <-.
    destruct (each_length _ _ _ _ H1) as [l [l' [E1 [E2 E3]]]]. cbn [iter_value] in E1. injection E1 as <-. injection E2 as <-. split; [exists zs; split; congruence|].
    pose proof (each_root f _ _ _ (fun i c iss c' iss' G => proj1 (Hf i c iss c' iss' G)) H1) as R2. pose proof (Hr _ _ _ H1) as W2. rewrite merge_nil, errs_merge_wf by (apply report_wf; assumption). rewrite R. exact R2.
  Qed.

  (** ** Bulk requests *)

  (** A body with so many operations, in which [u] is no key. *)
  Definition with_ops (u : str) (k : nat) (b : value) : Prop :=
    exists d l ops, b = VCont d l /\ idx l /\ ~ has_key b u /\ get_item b (mkRep u ops_name [] false) = Ok (VList ops) /\ length ops = k.
  Definition ops_loc : loc := at_body [LStr ops_name].

  Lemma set_op_keeps u k b i sub x b' : lower u <> lower ops_name -> with_ops u k b -> set_op_field b (mkRep u ops_name [] false) i sub x = Ok b' -> with_ops u k b'.
  Proof.
    intros Hu [d [l [ops [-> [Hi [Hk [Hg Hl]]]]]]] H. unfold set_op_field in H. rewrite Hg in H. cbn [bind] in H. destruct (nth_error ops i); [|discriminate]. apply bind_ok in H as [c' [_ H]].
    destruct (field_write d l u ops_name _ b' Hi Hk Hu H) as [F1 _]. cbn [set_item r_ext r_attr r_sub set_noext] in H. injection H as <-. unfold set_plain in *.
    eexists _, _, (set_nth i c' ops). split; [reflexivity|]. split; [apply idx_sset; exact Hi|]. split; [|split; [exact F1 | rewrite set_nth_length; exact Hl]].
    apply not_has_key. apply not_has_key in Hk. rewrite sget_sset_other by congruence. exact Hk.
  Qed.
  Lemma bulk_operation_keeps vs i p d m k b iss b' iss' : with_ops bulk_request_uri k b -> bulk_parse_operation vs i p d m b iss = Ok (b', iss') ->
    with_ops bulk_request_uri k b' /\ errs_at iss' ops_loc = errs_at iss ops_loc.
  Proof.
    intros W H. unfold bulk_parse_operation in H. destruct (can_proceed _ _); [|injection H as <- <-; auto]. destruct (str_is m _); [injection H as <- <-; auto|].
    apply bind_ok in H as [pp [_ H]]. apply bind_ok in H as [name [_ H]]. apply bind_ok in H as [bm [_ H]]. destruct (sget name vs) as [s|].
    - apply bind_ok in H as [[rq js] [_ H]]. apply bind_ok in H as [ks [Hm H]]. apply bind_ok in H as [b2 [Hb H]]. injection H as <- <-.
      split; [apply (set_op_keeps bulk_request_uri k b _ _ _ _ ltac:(vm_compute; discriminate) W Hb)|]. apply merge_at_elsewhere with (2 := Hm). intros t. discriminate.
    - injection H as <- <-. split; [exact W|]. rewrite errs_at_add. destruct (loc_dec _ _); [discriminate | apply app_nil_r].
  Qed.
  Lemma bulk_operations_keep vs ps : forall i ds ms k b iss b' iss', with_ops bulk_request_uri k b -> bulk_parse_operations vs i ps ds ms b iss = Ok (b', iss') ->
    with_ops bulk_request_uri k b' /\ errs_at iss' ops_loc = errs_at iss ops_loc.
  Proof.
    induction ps as [|p ps IH]; intros i ds ms k b iss b' iss' W H; cbn [bulk_parse_operations] in H; [injection H as <- <-; auto|].
    destruct ds as [|d ds]; [injection H as <- <-; auto|]. destruct ms as [|m ms]; [injection H as <- <-; auto|]. apply bind_ok in H as [[b2 js] [H1 H]].
    destruct (bulk_operation_keeps _ _ _ _ _ _ _ _ _ _ W H1) as [W1 E1]. destruct (IH _ _ _ _ _ _ _ _ W1 H) as [W2 E2]. split; [exact W2 | congruence].
  Qed.

  Definition request_ops : attribute := nth 2 (at_top (sc_attrs bulk_request_schema)) schemas_attr.
  Definition response_ops : attribute := nth 1 (at_top (sc_attrs bulk_response_schema)) schemas_attr.
  Lemma request_ops_in : In request_ops (at_top (sc_attrs bulk_request_schema)).
  Proof. apply nth_In. vm_compute. auto. Qed.
  Lemma response_ops_in : In response_ops (at_top (sc_attrs bulk_response_schema)).
  Proof. apply nth_In. vm_compute. auto. Qed.
  Lemma request_ops_rep : arep request_ops = mkRep bulk_request_uri ops_name [] false.
  Proof. vm_compute. reflexivity. Qed.
  Lemma response_ops_rep : arep response_ops = mkRep bulk_response_uri ops_name [] false.
  Proof. vm_compute. reflexivity. Qed.

  Lemma top_sound s a : made s -> In a (at_top (sc_attrs s)) -> sound_attr a.
  Proof. intros Hm Ha. destruct (made_sound _ Hm) as [_ Hs]. rewrite Forall_forall in Hs. exact (Hs a Ha). Qed.

  Lemma named_apart subs : existsb (fun s => str_eqb (lower (r_attr (arep s))) ($"primary")) subs = false -> forall s, In s subs -> lower (r_attr (arep s)) <> $"primary".
  Proof. intros H s Hs E. assert (G : existsb (fun s => str_eqb (lower (r_attr (arep s))) ($"primary")) subs = true) by (apply existsb_exists; exists s; split; [exact Hs | apply str_eqb_eq; exact E]). rewrite H in G. discriminate G. Qed.
  Lemma request_ops_processed xs v k : process request_ops MParse (VList xs) = Ok (v, k) -> (exists ys, v = VList ys /\ length ys = length xs) /\ errs_at k [] = [].
  Proof.
    assert (S : sound_attr request_ops) by (apply (top_sound bulk_request_schema); [exact bulk_request_made | exact request_ops_in]).
    assert (G : exists i subs, request_ops = MkAttr i (Some (subs, [validate_request_operations; single_primary], [single_primary])) /\ a_multi i = true /\ a_parsers i = [] /\ distinct_names subs /\ (forall s, In s subs -> lower (r_attr (arep s)) <> $"primary")).
    { eexists _, _. split; [reflexivity|]. split; [reflexivity|]. split; [reflexivity|]. split; [unfold distinct_names; vm_compute; repeat (apply NoDup_cons; [cbn [In]; intuition discriminate|]); apply NoDup_nil | apply named_apart; vm_compute; reflexivity]. }
    destruct G as [i [subs [E [G1 [G2 [G3 G4]]]]]]. rewrite E in *. intros H. apply (ops_processed MParse i subs _ _ validate_request_operation xs v k S G1 G2 eq_refl G3 G4 request_op_leaves) in H; [exact H|].
    inversion S as [|? ? ? ? _ _ _ Hc _ _ _]; subst. inversion Hc; assumption.
  Qed.
  Lemma response_ops_processed xs v k : process response_ops MDump (VList xs) = Ok (v, k) -> (exists ys, v = VList ys /\ length ys = length xs) /\ errs_at k [] = [].
  Proof.
    assert (S : sound_attr response_ops) by (apply (top_sound bulk_response_schema); [exact bulk_response_made | exact response_ops_in]).
    assert (G : exists i subs, response_ops = MkAttr i (Some (subs, [single_primary], [validate_response_operations; single_primary])) /\ a_multi i = true /\ a_dumpers i = [] /\ distinct_names subs /\ (forall s, In s subs -> lower (r_attr (arep s)) <> $"primary")).
    { eexists _, _. split; [reflexivity|]. split; [reflexivity|]. split; [reflexivity|]. split; [unfold distinct_names; vm_compute; repeat (apply NoDup_cons; [cbn [In]; intuition discriminate|]); apply NoDup_nil | apply named_apart; vm_compute; reflexivity]. }
    destruct G as [i [subs [E [G1 [G2 [G3 G4]]]]]]. rewrite E in *. intros H. apply (ops_processed MDump i subs _ _ validate_response_operation xs v k S G1 G2 eq_refl G3 G4 response_op_leaves) in H; [exact H|].
    inversion S as [|? ? ? ? _ _ _ _ Hc _ _]; subst. inversion Hc; assumption.
  Qed.

  (** Nothing is said about the body as a whole, nor below a field it does not have. *)
  Lemma only_fields s m doc y js : made s -> sc_exts s = [] -> message s doc -> base_parse m s doc = Ok (y, js) ->
    forall n p, n <> $"schemas" -> ~ In n (map (fun a => r_attr (arep a)) (at_top (sc_attrs s))) -> errs_at js (LStr n :: p) = [].
  Proof.
    intros Hm He Hd H n p Hn Hi. destruct (C25_known_only_partial s m doc y js Hm (proj1 Hd) (message_regular _ _ Hm He Hd) H) as [_ [_ [_ C]]].
    destruct (errs_at js _) eqn:E; [reflexivity|]. exfalso. destruct (C (LStr n :: p)) as [G|[a [x [t [G1 [_ [_ G]]]]]]]; [rewrite E; discriminate| |].
    - apply Hn. apply (f_equal (hd (LIdx 0))) in G. cbn [hd schemas_loc] in G. congruence.
    - unfold place in G. destruct (made_no_ext s Hm He a G1) as [E1 _]. rewrite E1 in G. cbn [app] in G. apply (f_equal (hd (LIdx 0))) in G. cbn [hd] in G. assert (G' : n = r_attr (arep a)) by congruence.
      apply Hi. rewrite G'. exact (in_map (fun a => r_attr (arep a)) _ _ G1).
  Qed.
  Lemma presence_codes s c data d iss p e : made s -> Forall proper (ck_reps c) -> presence c data (at_all (sc_attrs s)) d = Ok iss -> In e (errs_at iss p) -> e = e_missing \/ e = e_not_requested.
  Proof. intros Hm Hc H He. destruct (C30_nothing_else _ _ _ _ _ _ _ Hm Hc H He) as [->|[-> _]]; auto. Qed.

  Lemma bulk_request_limit schemas mx doc h q rq iss l : message bulk_request_schema doc -> holds (mk_cont doc) ops_name (VList l) -> bulk_parse_request schemas (Some mx) doc h q = Ok (rq, iss) ->
    exists pre, errs_at iss ops_loc = pre ++ (if Z.ltb mx (Z.of_nat (length l)) then [e_too_many_ops] else []) /\ ~ In e_too_many_ops pre.
  Proof.
    intros Hd Ho H. unfold bulk_parse_request in H. apply bind_ok in H as [[y js] [Hy H]]. change (schema_parse bulk_request_schema doc) with (base_parse MParse bulk_request_schema doc) in Hy.
    apply bind_ok in H as [ps [Hps H]].
    destruct (C25_known_only_partial bulk_request_schema MParse doc y js bulk_request_made (proj1 Hd) (message_regular _ _ bulk_request_made eq_refl Hd) Hy) as [C _].
    destruct (C request_ops (VList l) request_ops_in) as [v [k [Hp _]]]; [unfold doc_holds; rewrite request_ops_rep; exact Ho | discriminate|].
    destruct (request_ops_processed _ _ _ Hp) as [[ys [-> Hl]] Hk].
    destruct (message_field bulk_request_schema MParse doc y js bulk_request_made eq_refl Hd Hy request_ops (VList l) (VList ys) k request_ops_in) as [F1 F2]; try discriminate; try (rewrite request_ops_rep; exact Ho); [exact Hp|].
    rewrite request_ops_rep in F1, F2. cbn [r_attr] in F2.
    pose proof (message_clear bulk_request_schema MParse doc y js bulk_request_made eq_refl Hd Hy) as C0.
    pose proof (base_wf _ _ _ _ _ (proj2 (made_sound _ bulk_request_made)) Hy) as Rep. pose proof (report_wf _ Rep) as W.
    pose proof (only_fields bulk_request_schema MParse doc y js bulk_request_made eq_refl Hd Hy) as OF.
    assert (B : forall p, errs_at js (LStr ($"body") :: p) = []).
    { intros p. apply OF; [discriminate|]. intros G. vm_compute in G. intuition discriminate. }
    assert (Cp : can_proceed (merge_src js) [body_loc ++ [LStr ops_name]] = true).
    { destruct (can_proceed (merge_src js) _) eqn:E; [reflexivity|]. exfalso. apply can_proceed_spec in E as [q0 [a [[<-|[]] [H2 H3]]]].
      assert (Ea : errs_at js a = []). { destruct H2 as [t Ha]. destruct a as [|x a]; [exact C0|]. apply (f_equal (hd (LIdx 0))) in Ha. cbn [hd body_loc app] in Ha. subst x. apply B. }
      apply stops_src in H3 as [H3|H3]; [exact (report_stops _ Rep a H3 Ea) | exact (proj1 (errs_at_nil_iff _ _ W) Ea H3)]. }
    rewrite Cp in H. cbn [negb] in H. do 6 apply bind_ok in H as [? [_ H]]. apply bind_ok in H as [[b2 ks] [Hb H]]. apply bind_ok in H as [ops [Hops H]]. apply bind_ok in H as [n [Hn H]]. injection H as _ <-.
    destruct (parsed_no_main bulk_request_schema MParse doc y js (made_wf _ bulk_request_made) (proj1 Hd) Hy) as [[dd [ll [-> [Hidx _]]]] Hmain].
    destruct (bulk_operations_keep _ _ _ _ _ (length l) _ _ _ _ ltac:(exists dd, ll, ys; auto) Hb) as [[d2 [l2 [os [E2 [_ [_ [G1 G2]]]]]]] K].
    rewrite G1 in Hops. injection Hops as <-. injection Hn as <-. unfold zlen. rewrite G2.
    exists (errs_at ks ops_loc). split.
    - unfold add_if. destruct (Z.ltb mx _); [|rewrite app_nil_r; reflexivity]. rewrite errs_at_add. destruct (loc_dec _ _) as [_|N]; [reflexivity | contradiction N; reflexivity].
    - rewrite K. pose proof (report_wf _ (presence_report _ _ _ _ _ Hps)) as Wp. rewrite errs_merge_wf by (try apply wf_merge; try apply wf_no_issues; assumption). rewrite errs_merge_wf by (try apply wf_no_issues; assumption).
      unfold ops_loc, at_body, body_loc. cbn [loc_strip app]. intros G. change (errs_at no_issues _) with (@nil error) in G. cbn [app] in G.
      change (In e_too_many_ops (errs_at js [LStr ops_name] ++ errs_at ps [LStr ops_name])) in G. rewrite (F2 []), Hk in G. cbn [app] in G. assert (no_reps : Forall proper (ck_reps default_checker)) by constructor.
      destruct (presence_codes _ _ _ _ _ _ _ bulk_request_made no_reps Hps G) as [E|E]; discriminate E.
  Qed.

  (** ** Bulk responses *)
  Lemma each_same (f : nat -> value -> issues -> res (value * issues)) v w k : (forall i c iss c' iss', f i c iss = Ok (c', iss') -> c' = c) -> each_operation f v = Ok (w, k) -> forall l, v = VList l -> w = VList l.
  Proof.
    intros Hf H l ->. unfold each_operation in H. cbn [iter_value bind] in H. apply bind_ok in H as [[l' k'] [H1 H]]. injection H as <- <-. f_equal.
    assert (G : forall es st st', foldM (fun st e => let! (c, iss) := f (fst e) (snd e) (snd st) in Ok (fst st ++ [c], iss)) es st = Ok st' -> fst st' = fst st ++ map snd es).
    { clear - Hf. induction es as [|e es IH]; intros st st' H; cbn [foldM] in H; [injection H as <-; rewrite app_nil_r; reflexivity|]. apply bind_ok in H as [s1 [H1 H]]. apply bind_ok in H1 as [[c k] [H0 H1]]. injection H1 as <-.
      apply IH in H. cbn [fst snd map] in *. apply Hf in H0. subst c. rewrite H, <- app_assoc. reflexivity. }
    apply G in H1. cbn [fst app] in H1. rewrite H1. unfold enumerate. generalize 0. clear. induction l as [|x l IH]; intros n; cbn [enum_from map snd]; [reflexivity | rewrite IH; reflexivity].
  Qed.
  Lemma response_op_same i c iss c' iss' : validate_response_operation i c iss = Ok (c', iss') -> c' = c.
  Proof.
    intros H. unfold validate_response_operation in H. cbn zeta in H. apply bind_ok in H as [m [_ H]]. apply bind_ok in H as [b [_ H]]. apply bind_ok in H as [s [_ H]].
    apply bind_ok in H as [i1 [_ H]]. injection H as <- _. reflexivity.
  Qed.

  Definition response_subs : list attribute := [b_method; b_id; b_version; b_location; b_status; b_response].
  Lemma response_ops_is : exists i, response_ops = MkAttr i (Some (response_subs, [single_primary], [validate_response_operations; single_primary])) /\ a_multi i = true /\ a_dumpers i = [] /\ a_type i = TComplex /\ a_canon i = None.
  Proof. eexists. split; [reflexivity|]. repeat (split; [reflexivity|]). reflexivity. Qed.
  Lemma response_distinct : distinct_names response_subs.
  Proof. unfold distinct_names. vm_compute. repeat (apply NoDup_cons; [cbn [In]; intuition discriminate|]). apply NoDup_nil. Qed.
  Lemma response_sound : sound_attr response_ops.
  Proof. apply (top_sound bulk_response_schema); [exact bulk_response_made | exact response_ops_in]. Qed.

  Lemma response_items xs v k : process response_ops MDump (VList xs) = Ok (v, k) -> exists outs, Forall2 (fun x o => one_item MDump response_ops x = Ok o) xs outs /\ v = VList (map fst outs).
  Proof.
    pose proof response_sound as S. destruct response_ops_is as [i [E [G1 [G2 _]]]]. rewrite E in *. intros H. rewrite (process_list MDump i _ _ _ xs G1 G2) in H. apply bind_ok in H as [[ys iss] [Hb H]].
    destruct (before_procs_spec MDump _ xs S) as [B _]. destruct (B _ _ Hb) as [outs [B1 [B2 [B3 [_ B4]]]]]. apply mapM_ok in B1. exists outs. split; [exact B1|]. subst ys.
    destruct (has_issues iss []); [injection H as <- <-; reflexivity|].
    unfold run_procs in H. cbn [foldM fst snd] in H. apply bind_ok in H as [[v1 k1] [H1 H]]. apply bind_ok in H1 as [[v2 k2] [H1 H2]]. injection H2 as <- <-.
    pose proof (each_same _ _ _ _ response_op_same H1 _ eq_refl) as ->. cbn [fst snd] in H. rewrite lacks_primary in H; [cbn [bind foldM] in H; injection H as <- <-; reflexivity|].
    clear - B1 S. assert (Hn : forall s, In s response_subs -> lower (r_attr (arep s)) <> $"primary") by (apply named_apart; vm_compute; reflexivity).
    induction B1 as [|x o xs outs H _ IH]; constructor; [exact (one_item_lacks _ _ _ _ _ _ _ S response_distinct Hn H) | exact IH].
  Qed.

  (** What an operation has after dumping. *)
  Definition sub_rep (n : str) : attr_rep := mkRep [] n [] false.
  Lemma dumped_sub m i subs cps cds x o s : sound_attr (MkAttr i (Some (subs, cps, cds))) -> distinct_names subs -> a_canon i = None -> ~ has_key x [] ->
    one_item m (MkAttr i (Some (subs, cps, cds))) x = Ok o -> In s subs -> exists v, get_item (fst o) (sub_rep (r_attr (arep s))) = Ok v
      /\ ((v = VMissing /\ forall w, holds x (r_attr (arep s)) w -> w = VMissing) \/ exists w k, holds x (r_attr (arep s)) w /\ w <> VMissing /\ process s m w = Ok (v, k)).
  Proof.
    intros Ha Hd Hcn Hk H Hs. assert (Ht : a_type i = TComplex) by (inversion Ha; assumption). pose proof (sound_plain _ _ _ _ Ha) as Hpl.
    cbn [one_item] in H. apply bind_ok in H as [[y iss] [H1 H]]. apply bind_ok in H as [outs [Hg H]]. injection H as <-. cbn [fst].
    destruct (put_all_tidy _ _ _ _ Hd Hpl Hg) as [E _]. destruct (gather_names _ _ _ Hd _ Hg) as [N1 N2]. rewrite E.
    assert (T := tidy_get (map (fun e : str * outcome => (fst e, fst (snd e))) outs) (r_attr (arep s))).
    rewrite map_map in T. cbn [fst] in T. specialize (T N1). rewrite map_map in T. cbn [fst] in T.
    assert (FF : Forall (fun e : str * value => fst e <> []) (map (fun e : str * outcome => (fst e, fst (snd e))) outs)).
    { apply Forall_forall. intros e Hin. apply in_map_iff in Hin as [[n q] [<- Hin]]. cbn [fst]. destruct (N2 n) as [s' [Hs' ->]]; [apply in_map_iff; eexists; split; [|exact Hin]; reflexivity|].
        rewrite Forall_forall in Hpl. destruct (Hpl s' Hs') as [_ [_ [_ P]]]. apply attr_ok_nonempty; exact P. }
    specialize (T FF). clear FF.
    assert (Hx : x = mk_cont y /\ is_cont x = true \/ is_cont x = false /\ mk_cont y = empty_cont).
    { unfold one in H1. rewrite Ht in H1. unfold type_proc, type_check, canon_step, is_canonical in H1. rewrite Hcn in H1. destruct (is_cont x) eqn:Ex; [left|right].
      - destruct x; try discriminate. cbn [bind pass] in H1. injection H1 as <- _. split; reflexivity.
      - cbn [bind fail] in H1. injection H1 as <- _. split; reflexivity. }
    set (D := map (fun e : str * outcome => (fst e, fst (snd e))) outs) in T |- *.
    assert (F : forall q, In (r_attr (arep s), q) outs -> find (fun e : str * value => str_eqb (lower (fst e)) (lower (r_attr (arep s)))) D = Some (r_attr (arep s), fst q)).
    { intros q Hq. clear - N1 Hq. subst D. induction outs as [|[n p] t IH]; [destruct Hq|]. cbn [map find fst snd] in *. inversion N1 as [|? ? M1 M2]; subst. destruct Hq as [Hq|Hq].
      - injection Hq as -> ->. rewrite (proj2 (str_eqb_eq _ _) eq_refl). reflexivity.
      - destruct (str_eqb (lower n) (lower (r_attr (arep s)))) eqn:En; [|exact (IH M2 Hq)]. exfalso. apply str_eqb_eq in En. apply M1. rewrite En. apply in_map_iff. exists (r_attr (arep s), q). auto. }
    assert (Reads : exists w, get_item (mk_cont y) (arep s) = Ok w).
    { clear - Hg Hs. revert outs Hg. induction subs as [|s0 t IH]; intros outs Hg; [destruct Hs|]. cbn [gather] in Hg. apply bind_ok in Hg as [w [Hw Hg]]. destruct Hs as [<-|Hs]; [exists w; exact Hw|].
      assert (Hg' : exists o2, gather m (mk_cont y) t = Ok o2) by (destruct w; try (apply bind_ok in Hg as [? [_ Hg]]; apply bind_ok in Hg as [rr [Hg _]]); eexists; exact Hg). destruct Hg' as [o2 Hg']. exact (IH Hs _ Hg'). }
    destruct Reads as [w Hw]. pose proof Hpl as Hpl0. rewrite Forall_forall in Hpl. refine (ex_intro _ _ (conj T _)). clear T.
    destruct (is_missing w) eqn:Ew.
    - destruct w; try discriminate. left. split.
      + destruct (find _ D) as [[n v]|] eqn:Ef; [|reflexivity]. exfalso. apply find_some in Ef as [Ef1 Ef2]. apply str_eqb_eq in Ef2. cbn [fst] in Ef2. subst D. apply in_map_iff in Ef1 as [[n' q] [E1 Ef1]]. cbn [fst snd] in E1. injection E1 as -> _.
        destruct (gather_In _ _ _ _ _ _ Hg Ef1) as [s' [x' [G1 [-> [G2 [G3 _]]]]]]. assert (s' = s).
        { clear - Hd G1 Hs Ef2. unfold distinct_names in Hd. induction subs as [|a t IH]; [destruct Hs|]. cbn [map] in Hd. inversion Hd as [|? ? D1 D2]; subst. destruct G1 as [->|G1], Hs as [->|Hs]; [reflexivity| | |exact (IH D2 Hs G1)].
          - exfalso. apply D1. rewrite Ef2. exact (in_map (fun s => lower (r_attr (arep s))) _ _ Hs).
          - exfalso. apply D1. rewrite <- Ef2. exact (in_map (fun s => lower (r_attr (arep s))) _ _ G1). }
        subst s'. rewrite Hw in G2. injection G2 as <-. contradiction G3; reflexivity.
      + intros z Hz. destruct (is_missing z) eqn:Ez; [destruct z; try discriminate; reflexivity|]. exfalso. assert (z <> VMissing) by (intros ->; discriminate).
        destruct Hx as [[Ex Ec]|[Ec _]]; [|destruct Hz as [d [l [kk [-> _]]]]; discriminate]. rewrite <- Ex in Hw. destruct x as [| | | | | | | | | |d l| | | | | |]; try discriminate.
        apply (get_holds _ _ _ _ (Hpl s Hs) Hk H) in Hz. congruence.
    - right. assert (Nw : w <> VMissing) by (intros ->; discriminate). destruct (gather_all _ _ _ _ _ _ Hg Hs Hw Nw) as [[v k] [P1 P2]]. exists w, k. rewrite (F _ P2). cbn [snd fst]. split; [|split; [exact Nw | exact P1]].
      destruct Hx as [[Ex Ec]|[_ Ex]].
      + rewrite <- Ex in Hw. destruct x as [| | | | | | | | | |d l| | | | | |]; try discriminate. apply (get_holds _ _ _ _ (Hpl s Hs) Hk Nw). exact Hw.
      + exfalso. rewrite Ex in Hw. unfold empty_cont in Hw. rewrite get_item_eq in Hw. cbn [sget aget] in Hw. apply Nw. injection Hw as <-. reflexivity.
  Qed.

  Lemma parsed_keys s m doc y iss u : made s -> sc_exts s = [] -> is_object doc -> base_parse m s doc = Ok (y, iss) ->
    (forall a, In a (at_top (sc_attrs s)) -> lower (r_attr (arep a)) <> lower u) -> ~ has_key y u.
  Proof.
    intros Hm He Hc H Hu. pose proof (made_wf _ Hm) as Hw. destruct (parse_shape s m doc y iss Hw Hc H) as [outs [iss2 [Hg [-> _]]]].
    destruct (tops_fit s Hw) as [Hnd Hf].
    assert (Hfo : Forall (fun e => fits (map fst (sc_exts s)) (arep (fst e))) outs).
    { apply Forall_forall. intros [a o] Hin. rewrite Forall_forall in Hf. apply Hf. exact (proj1 (gather_top_In _ _ _ _ _ _ Hg Hin)). }
    destruct (put_tops_read _ _ Hnd Hfo (tops_apart s m _ outs Hw Hg) empty_cont (shelf_empty _)) as [Hsh _].
    destruct (put_tops_keys _ _ Hnd Hfo [] [] (shelf_empty _)) as [data [l2o [Ey [K1 _]]]]. change (VCont [] []) with empty_cont in Ey.
    rewrite Ey in *. destruct Hsh as [d' [m' [E' [Hidx _]]]]. injection E' as <- <-.
    intros [k Hk]. destruct (K1 _ _ Hk) as [G|[[a o] [G1 G2]]]; [discriminate|]. pose proof (Hidx _ _ Hk) as Hlk.
    cbn [fst] in G2. pose proof (proj1 (gather_top_In _ _ _ _ _ _ Hg G1)) as Hat. unfold topkey in G2. destruct (made_no_ext s Hm He a Hat) as [E1 _]. rewrite E1 in G2. subst k. exact (Hu a Hat Hlk).
  Qed.

  (** The sub-attributes that matter, when dumped. *)
  Lemma dump_method w v k : process b_method MDump w = Ok (v, k) -> (truthy v = true <-> exists m, w = VStr m /\ In (lower m) bulk_methods).
  Proof.
    destruct w; try (intros H; vm_compute in H; injection H as <- _; split; [discriminate | intros [m [E _]]; discriminate E]).
    assert (E : process b_method MDump (VStr s) = if existsb (lit_eqb (VStr (lower s))) (map LitStr bulk_methods) then Ok (VStr s, no_issues) else Ok (VInvalid, add_issue no_issues e_must_be_one_of false [])).
    { remember (existsb (lit_eqb (VStr (lower s))) (map LitStr bulk_methods)) as b eqn:Eb. unfold b_method, mk_simple. cbn [process]. unfold base_process. simpl. unfold canon_step, is_canonical.
      match goal with |- context[let '(_, _) := if ?b then _ else _ in _] => change b with (existsb (lit_eqb (VStr (lower s))) (map LitStr bulk_methods)) end. rewrite <- Eb. destruct b; reflexivity. }
    assert (X : existsb (lit_eqb (VStr (lower s))) (map LitStr bulk_methods) = true <-> In (lower s) bulk_methods).
    { rewrite existsb_exists. split.
      - intros [q [Hq E1]]. apply in_map_iff in Hq as [q' [<- Hq]]. cbn [lit_eqb] in E1. apply str_eqb_eq in E1. rewrite E1. exact Hq.
      - intros Hq. exists (LitStr (lower s)). split; [exact (in_map LitStr _ _ Hq) | cbn [lit_eqb]; apply str_eqb_eq; reflexivity]. }
    rewrite E. destruct (existsb _ _) eqn:Ex; intros H; injection H as <- _.
    - split; [intros _; exists s; split; [reflexivity | apply X; reflexivity]|]. intros _. destruct s; [|reflexivity]. discriminate Ex.
    - split; [discriminate|]. intros [m [E1 G]]. injection E1 as <-. apply X in G. discriminate G.
  Qed.
  Lemma dump_status w v k : process b_status MDump w = Ok (v, k) -> forall z, (truthy v = true /\ py_int v = Ok z) <-> exists st, w = VStr st /\ py_int (VStr st) = Ok z.
  Proof.
    destruct w; try (intros H; vm_compute in H; injection H as <- _; intros z'; split; [intros [G _]; discriminate G | intros [m [E _]]; discriminate E]).
    assert (E : process b_status MDump (VStr s) = match py_int (VStr s) with Ok _ => Ok (VStr s, no_issues) | Raise ValueErr => Ok (VInvalid, add_issue no_issues e_bad_syntax false []) | Raise e => Raise e end).
    { unfold b_status, mk_simple. cbn [process]. unfold base_process. simpl. unfold run_procs, validate_status. cbn [foldM fst py_int]. destruct (parse_int s); reflexivity. }
    rewrite E. cbn [py_int]. destruct (parse_int s) as [z0|] eqn:Ep; intros H z; injection H as <- _.
    - split; [intros [_ G]; exists s; auto|]. intros [st [E1 G]]. injection E1 as <-. split; [|exact G]. destruct s; [|reflexivity]. discriminate Ep.
    - split; [intros [G _]; discriminate G|]. intros [st [E1 G]]. injection E1 as <-. rewrite Ep in G. discriminate G.
  Qed.
  Lemma dump_response_value w v k : process b_response MDump w = Ok (v, k) -> v = w.
  Proof. destruct w; intros H; injection H as <- _; reflexivity. Qed.

  (** An operation counted as failed. *)
  Definition fails (m st re : value) : Prop := truthy m = true /\ truthy st = true /\ truthy re = true /\ exists z, py_int st = Ok z /\ (300 <= z)%Z.
  Lemma version_elsewhere i ve b iss b' iss' : bulk_version i ve b iss = Ok (b', iss') -> errs_at iss' ops_loc = errs_at iss ops_loc.
  Proof.
    intros H. unfold bulk_version in H. destruct b; try (injection H as <- <-; reflexivity).
    all: apply bind_ok in H as [rv0 [_ H]]; apply bind_ok in H as [df [_ H]]; injection H as <- <-; destruct df; [|reflexivity];
      rewrite !errs_at_add; repeat (destruct (loc_dec _ _); [discriminate|]); rewrite !app_nil_r; reflexivity.
  Qed.
  Lemma operation_counts vs i m st re lo ve b iss n b' iss' n' : bulk_dump_operation vs i m st re lo ve b iss n = Ok (b', iss', n') ->
    errs_at iss' ops_loc = errs_at iss ops_loc /\ ((n' = (n + 1)%Z /\ fails m st re) \/ (n' = n /\ ~ fails m st re)).
  Proof.
    intros H. unfold bulk_dump_operation in H. cbn zeta in H. destruct (truthy m) eqn:Em; cbn [negb] in H; [|injection H as <- <- <-; split; [reflexivity|]; right; split; [reflexivity|]; intros [G _]; congruence].
    apply bind_ok in H as [[va i1] [H1 H]].
    assert (E1 : errs_at i1 ops_loc = errs_at iss ops_loc).
    { destruct (truthy lo); [|injection H1 as _ <-; reflexivity]. apply bind_ok in H1 as [bm [_ H1]]. apply bind_ok in H1 as [t [_ H1]].
      destruct (locate vs t None) as [v f] eqn:El. injection H1 as _ <-. apply add_if_elsewhere. discriminate. }
    rewrite <- E1. destruct (truthy st) eqn:Es; cbn [negb andb] in H; [|injection H as <- <- <-; split; [reflexivity|]; right; split; [reflexivity|]; intros [_ [G _]]; congruence].
    destruct (truthy re) eqn:Er; cbn [negb andb] in H; [|injection H as <- <- <-; split; [reflexivity|]; right; split; [reflexivity|]; intros [_ [_ [G _]]]; congruence].
    apply bind_ok in H as [z [Hz H]]. destruct (Z.leb_spec 300 z) as [Lz|Lz].
    - apply bind_ok in H as [[er js] [He H]]. apply bind_ok in H as [i2 [H2 H]]. apply bind_ok in H as [i3 [H3 H]]. apply bind_ok in H as [b2 [Hb H]]. injection H as <- <- <-.
      split; [|left; split; [reflexivity|]; repeat (split; [assumption|]); exists z; auto].
      rewrite (fun Q => merge_at_elsewhere _ _ _ _ ops_loc Q H3) by (intros t; discriminate). apply (fun Q => merge_at_elsewhere _ _ _ _ ops_loc Q H2). intros t; discriminate.
    - assert (NF : ~ fails m st re) by (intros [_ [_ [_ [z' [G1 G2]]]]]; rewrite Hz in G1; injection G1 as <-; lia).
      destruct va as [s|]; [|injection H as <- <- <-; auto]. destruct (truthy lo); [|injection H as <- <- <-; auto].
      apply bind_ok in H as [bm [_ H]]. apply bind_ok in H as [[rd js] [Hd H]].
      destruct (pop_issues js (body_loc ++ meta_location_loc) 11) as [mm ja]. destruct (pop_issues ja header_location_loc 11) as [hm jb].
      apply bind_ok in H as [i2 [H2 H]]. cbn zeta in H. apply bind_ok in H as [[rb i3] [H3 H]]. apply bind_ok in H as [b2 [Hb H]]. injection H as <- <- <-.
      split; [|auto]. rewrite (version_elsewhere _ _ _ _ _ _ H3). rewrite <- (fun Q => merge_at_elsewhere _ _ _ _ ops_loc Q H2) by (intros t; discriminate).
      destruct (_ && _); [|reflexivity]. rewrite !errs_at_add. repeat (destruct (loc_dec _ _); [discriminate|]). rewrite !app_nil_r. reflexivity.
  Qed.

  Definition rd (n : str) (y : value) : res value := get_item y (sub_rep n).
  Definition fails_in (y : value) : Prop := exists m st re, rd ($"method") y = Ok m /\ rd ($"status") y = Ok st /\ rd ($"response") y = Ok re /\ fails m st re.
  Lemma operations_count vs ys : forall i ms sts res los ves b iss n b' iss' n', mapM (rd ($"method")) ys = Ok ms -> mapM (rd ($"status")) ys = Ok sts -> mapM (rd ($"response")) ys = Ok res ->
    mapM (rd ($"location")) ys = Ok los -> mapM (rd ($"version")) ys = Ok ves -> bulk_dump_operations vs i ms sts res los ves b iss n = Ok (b', iss', n') ->
    errs_at iss' ops_loc = errs_at iss ops_loc /\ exists c, tally fails_in ys c /\ n' = (n + Z.of_nat c)%Z.
  Proof.
    induction ys as [|y ys IH]; intros i ms sts res los ves b iss n b' iss' n' M1 M2 M3 M4 M5 H; cbn [mapM] in M1, M2, M3, M4, M5.
    - injection M1 as <-. cbn [bulk_dump_operations] in H. injection H as <- <- <-. split; [reflexivity|]. exists 0. split; [constructor | lia].
    - apply bind_ok in M1 as [m [R1 M1]]. apply bind_ok in M1 as [ms' [M1 E1]]. injection E1 as <-. apply bind_ok in M2 as [st [R2 M2]]. apply bind_ok in M2 as [sts' [M2 E2]]. injection E2 as <-.
      apply bind_ok in M3 as [re [R3 M3]]. apply bind_ok in M3 as [res' [M3 E3]]. injection E3 as <-. apply bind_ok in M4 as [lo [R4 M4]]. apply bind_ok in M4 as [los' [M4 E4]]. injection E4 as <-.
      apply bind_ok in M5 as [ve [R5 M5]]. apply bind_ok in M5 as [ves' [M5 E5]]. injection E5 as <-. cbn [bulk_dump_operations] in H. apply bind_ok in H as [[[b2 js] n2] [H1 H]].
      destruct (operation_counts _ _ _ _ _ _ _ _ _ _ _ _ _ H1) as [A1 A2]. destruct (IH _ _ _ _ _ _ _ _ _ _ _ _ M1 M2 M3 M4 M5 H) as [B1 [c [B2 B3]]]. split; [congruence|].
      destruct A2 as [[-> A2]|[-> A2]].
      + exists (S c). split; [constructor; [exists m, st, re; auto | exact B2]|]. lia.
      + exists c. split; [apply tally_not; [intros [m' [st' [re' [Q1 [Q2 [Q3 Q]]]]]]; rewrite R1 in Q1; rewrite R2 in Q2; rewrite R3 in Q3; congruence | exact B2]|]. lia.
  Qed.

  Lemma tally_same {A B} (P : A -> Prop) (Q : B -> Prop) xs ys : Forall2 (fun x y => P x <-> Q y) xs ys -> forall n c, tally P xs n -> tally Q ys c -> c = n.
  Proof.
    induction 1 as [|x y xs ys H _ IH]; intros n c T1 T2.
    - inversion T1; subst. inversion T2; subst. reflexivity.
    - inversion T1 as [|? ? n' P1 T1'|? ? n' P1 T1']; subst; inversion T2 as [|? ? c' P2 T2'|? ? c' P2 T2']; subst; try (exfalso; tauto); f_equal; exact (IH _ _ T1' T2').
  Qed.

  Lemma op_fails x o : ~ has_key x [] -> one_item MDump response_ops x = Ok o -> (failed x <-> fails_in (fst o)).
  Proof.
    intros Hk H. pose proof response_sound as S. destruct response_ops_is as [i [E [_ [_ [_ Hc]]]]]. rewrite E in *.
    pose proof (fun s => dumped_sub _ _ _ _ _ _ _ s S response_distinct Hc Hk H) as D.
    destruct (D b_method) as [m [M1 M2]]; [left; reflexivity|]. destruct (D b_status) as [st [S1 S2]]; [do 4 right; left; reflexivity|]. destruct (D b_response) as [re [R1 R2]]; [do 5 right; left; reflexivity|].
    change (r_attr (arep b_method)) with ($"method") in *. change (r_attr (arep b_status)) with ($"status") in *. change (r_attr (arep b_response)) with ($"response") in *.
    assert (U : forall n v w, holds x n v -> holds x n w -> v = w).
    { intros n v w [d [l [k [-> [A1 A2]]]]] [d' [l' [k' [E' [B1 B2]]]]]. injection E' as <- <-. congruence. }
    split.
    - intros [mm ss z r H1 H2 H3 H4 H5 H6 H7]. exists m, st, re. split; [exact M1|]. split; [exact S1|]. split; [exact R1|].
      destruct M2 as [[_ M2]|[w [k [M2 [_ M3]]]]]; [apply M2 in H1; discriminate H1|]. pose proof (U _ _ _ M2 H1) as ->.
      destruct S2 as [[_ S2]|[w [k' [S2 [_ S3]]]]]; [apply S2 in H3; discriminate H3|]. pose proof (U _ _ _ S2 H3) as ->.
      destruct R2 as [[_ R2]|[w [k'' [R2 [_ R3]]]]]; [apply R2 in H6; subst r; discriminate H7|]. pose proof (U _ _ _ R2 H6) as ->.
      apply dump_response_value in R3. subst re. destruct (proj2 (dump_status _ _ _ S3 z)) as [G1 G2]; [exists ss; auto|].
      split; [apply (dump_method _ _ _ M3); exists mm; auto|]. split; [exact G1|]. split; [exact H7|]. exists z. auto.
    - intros [m' [st' [re' [Q1 [Q2 [Q3 [F1 [F2 [F3 [z [F4 F5]]]]]]]]]]]. unfold rd in *. rewrite M1 in Q1. rewrite S1 in Q2. rewrite R1 in Q3. injection Q1 as <-. injection Q2 as <-. injection Q3 as <-.
      destruct M2 as [[-> _]|[w [k [M2 [_ M3]]]]]; [discriminate F1|]. destruct S2 as [[-> _]|[w2 [k2 [S2 [_ S3]]]]]; [discriminate F2|]. destruct R2 as [[-> _]|[w3 [k3 [R2 [_ R3]]]]]; [discriminate F3|].
      apply (dump_method _ _ _ M3) in F1 as [mm [-> F1]]. destruct (proj1 (dump_status _ _ _ S3 z) (conj F2 F4)) as [ss [-> G]]. apply dump_response_value in R3. subst w3.
      exact (failed_with _ _ _ _ _ M2 F1 S2 G F5 R2 F3).
  Qed.

  Lemma read_ops u u' n dd ll ys : ~ has_key (VCont dd ll) u -> ~ has_key (VCont dd ll) u' -> n <> [] -> mk_rep [] n [] false = Ok (sub_rep n) ->
    get_item (VCont dd ll) (mkRep u ops_name [] false) = Ok (VList ys) -> forall v, get_item (VCont dd ll) (ops_rep u' n) = Ok v -> exists vs, v = VList vs /\ mapM (rd n) ys = Ok vs.
  Proof.
    intros Hu Hu' Hn Hr H v Hv. apply not_has_key in Hu, Hu'. rewrite get_item_eq in H, Hv. cbn [r_schema r_attr r_sub ops_rep] in H, Hv. unfold ops_rep in Hv. cbn [r_schema r_attr r_sub] in Hv. rewrite Hu in H. rewrite Hu' in Hv.
    destruct (sget (lower ops_name) ll) as [k|]; [|discriminate H]. destruct (sget k dd) as [x|]; [|discriminate H]. cbn [get_sub] in H. injection H as ->.
    unfold get_sub in Hv. destruct n as [|c n]; [contradiction Hn; reflexivity|]. apply bind_ok in Hv as [vs [Hv E]]. injection E as <-. exists vs. split; [reflexivity|].
    rewrite <- Hv. apply mapM_ext. intros y. rewrite Hr. reflexivity.
  Qed.

  Definition op_rep (n : str) : attr_rep := mkRep bulk_response_uri ops_name n false.
  Lemma response_attrs_are : map (fun a => (arep a, a_ret (info a))) (at_all (sc_attrs bulk_response_schema))
    = [(mkRep bulk_response_uri ($"schemas") [] false, RetAlways); (op_rep [], RetDefault); (op_rep ($"method"), RetDefault); (op_rep ($"bulkId"), RetDefault); (op_rep ($"version"), RetDefault);
       (op_rep ($"location"), RetDefault); (op_rep ($"status"), RetDefault); (op_rep ($"response"), RetDefault)].
  Proof. vm_compute. reflexivity. Qed.
  Lemma response_presence y ps ys : get_item y (op_rep []) = Ok (VList ys) -> ys <> [] ->
    presence default_checker y (at_all (sc_attrs bulk_response_schema)) Response = Ok ps -> errs_at ps [] = [] /\ errs_at ps [LStr ops_name] = [].
  Proof.
    intros Hy Hn Hp. assert (G : forall p, p = [] \/ p = [LStr ops_name] -> errs_at ps p = []); [|split; apply G; auto]. intros p Np.
    destruct (errs_at ps p) as [|e es] eqn:E; [reflexivity|]. exfalso. assert (He : In e (errs_at ps p)) by (rewrite E; left; reflexivity).
    assert (no_reps : Forall proper (ck_reps default_checker)) by constructor.
    assert (T : forall a v, In a (at_all (sc_attrs bulk_response_schema)) -> found (at_all (sc_attrs bulk_response_schema)) y a v p -> v = VList ys).
    { intros a v Ha F. destruct F as [v F1 F2 F3|? ? ? ? ? ? ? ?|? ? ? ? ? ?|? ? ? ? ? ? ? ? ? ? ? ? ?]; try (destruct Np as [Np|Np]; discriminate Np). destruct Np as [Np|Np]; [discriminate Np|].
      assert (A : r_attr (arep a) = ops_name) by congruence. apply (in_map (fun a => (arep a, a_ret (info a)))) in Ha. rewrite response_attrs_are in Ha.
      assert (K : arep a = op_rep []).
      { destruct Ha as [Ha|[Ha|[Ha|[Ha|[Ha|[Ha|[Ha|[Ha|[]]]]]]]]]; apply (f_equal fst) in Ha; cbn [fst] in Ha; rewrite <- Ha in F1, A |- *; first [reflexivity | discriminate F1 | discriminate A]. }
      rewrite K in F2. congruence. }
    destruct (C30_nothing_else _ _ _ _ _ _ _ bulk_response_made no_reps Hp He) as [->|[-> _]].
    - apply (C30_missing_iff _ _ _ _ _ p bulk_response_made no_reps Hp) in He as [a [v [H1 [H2 [H3 _]]]]]. rewrite (T a v H1 H2) in H3. destruct H3 as [H3|[H3|[H3|H3]]]; try discriminate H3. apply Hn. congruence.
    - apply (C29_only_requested _ _ _ _ _ p bulk_response_made no_reps Hp) in He as [_ [a [v [H1 [H2 [H3 H4]]]]]].
      apply (in_map (fun a => (arep a, a_ret (info a)))) in H1. rewrite response_attrs_are in H1. unfold withheld in H4.
      destruct H1 as [H1|[H1|[H1|[H1|[H1|[H1|[H1|[H1|[]]]]]]]]]; apply (f_equal snd) in H1; cbn [snd] in H1; rewrite <- H1 in H4; exact H4.
  Qed.

  Definition exceeded (fo : option Z) (n : nat) : bool := match fo with Some f => Z.ltb f (Z.of_nat n) | None => false end.
  Lemma bulk_response_limit schemas st doc h fo rs iss l n : message bulk_response_schema doc -> holds (mk_cont doc) ops_name (VList l) -> Forall (fun x => ~ has_key x []) l -> tally failed l n ->
    (forall f, fo = Some f -> (0 <= f)%Z) -> bulk_dump_response schemas st doc h fo = Ok (rs, iss) ->
    exists pre, errs_at iss ops_loc = pre ++ (if exceeded fo n then [e_too_many_errors] else []) /\ ~ In e_too_many_errors pre.
  Proof.
    intros Hd Ho Hk Ht Hf H. unfold bulk_dump_response in H. apply bind_ok in H as [[y js] [Hy H]]. apply bind_ok in H as [ps [Hps H]].
    destruct (C25_known_only_partial bulk_response_schema MDump doc y js bulk_response_made (proj1 Hd) (message_regular _ _ bulk_response_made eq_refl Hd) Hy) as [C _].
    destruct (C response_ops (VList l) response_ops_in) as [v [k [Hp _]]]; [unfold doc_holds; rewrite response_ops_rep; exact Ho | discriminate|].
    destruct (response_ops_processed _ _ _ Hp) as [[ys [-> Hl]] Hk0]. destruct (response_items _ _ _ Hp) as [outs [O1 O2]]. injection O2 as ->.
    destruct (message_field bulk_response_schema MDump doc y js bulk_response_made eq_refl Hd Hy response_ops (VList l) (VList (map fst outs)) k response_ops_in) as [F1 F2]; try discriminate; try (rewrite response_ops_rep; exact Ho); [exact Hp|].
    rewrite response_ops_rep in F1, F2. cbn [r_attr] in F2.
    pose proof (message_clear bulk_response_schema MDump doc y js bulk_response_made eq_refl Hd Hy) as C0.
    pose proof (report_wf _ (base_wf _ _ _ _ _ (proj2 (made_sound _ bulk_response_made)) Hy)) as W. pose proof (report_wf _ (presence_report _ _ _ _ _ Hps)) as Wp.
    assert (no_reps : Forall proper (ck_reps default_checker)) by constructor.
    set (i0 := merge (merge (merge no_issues js body_loc) ps body_loc) (status_code_issues 200 st) status_loc) in *.
    assert (T0 : tight i0) by (apply tight_merge; [apply tight_merge; [apply tight_merge; [apply tight_none|]|]|apply status_code_wf]; assumption).
    assert (E0 : forall p, errs_at i0 (at_body p) = errs_at js p ++ errs_at ps p).
    { intros p. unfold i0. rewrite errs_merge_wf by (first [apply status_code_wf | do 2 (apply wf_merge; [|assumption]); apply wf_no_issues]). rewrite errs_merge_wf by (first [assumption | apply wf_merge; [apply wf_no_issues | assumption]]).
      rewrite errs_merge_wf by (first [assumption | apply wf_no_issues]). unfold at_body, body_loc, status_loc. cbn [loc_strip app]. rewrite app_nil_r. reflexivity. }
    assert (N0 : ~ In e_too_many_errors (errs_at i0 ops_loc)).
    { unfold ops_loc. rewrite E0, (F2 []), Hk0. cbn [app]. intros G. destruct (presence_codes _ _ _ _ _ _ _ bulk_response_made no_reps Hps G) as [E|E]; discriminate E. }
    match type of H with context[can_proceed ?i ?l] => destruct (can_proceed i l) eqn:Cp end; cbn [negb] in H.
    - destruct (parsed_no_main bulk_response_schema MDump doc y js (made_wf _ bulk_response_made) (proj1 Hd) Hy) as [[dd [ll [-> _]]] U1]. change (sc_uri bulk_response_schema) with bulk_response_uri in U1.
      assert (U2 : ~ has_key (VCont dd ll) bulk_request_uri).
      { apply (parsed_keys bulk_response_schema MDump doc _ js _ bulk_response_made eq_refl (proj1 Hd) Hy). intros a Ha. apply (in_map (fun a => lower (r_attr (arep a)))) in Ha. intros E. rewrite E in Ha. vm_compute in Ha. intuition discriminate. }
      apply bind_ok in H as [sts [R2 H]]. apply bind_ok in H as [res [R3 H]]. apply bind_ok in H as [los [R4 H]]. apply bind_ok in H as [ms [R1 H]]. apply bind_ok in H as [ves [R5 H]].
      destruct (read_ops bulk_response_uri bulk_response_uri ($"status") dd ll _ U1 U1 ltac:(discriminate) ltac:(vm_compute; reflexivity) F1 _ R2) as [sts' [-> M2]].
      destruct (read_ops bulk_response_uri bulk_response_uri ($"response") dd ll _ U1 U1 ltac:(discriminate) ltac:(vm_compute; reflexivity) F1 _ R3) as [res' [-> M3]].
      destruct (read_ops bulk_response_uri bulk_response_uri ($"location") dd ll _ U1 U1 ltac:(discriminate) ltac:(vm_compute; reflexivity) F1 _ R4) as [los' [-> M4]].
      destruct (read_ops bulk_response_uri bulk_request_uri ($"method") dd ll _ U1 U2 ltac:(discriminate) ltac:(vm_compute; reflexivity) F1 _ R1) as [ms' [-> M1]].
      destruct (read_ops bulk_response_uri bulk_response_uri ($"version") dd ll _ U1 U1 ltac:(discriminate) ltac:(vm_compute; reflexivity) F1 _ R5) as [ves' [-> M5]].
      cbn [iter_value bind] in H. apply bind_ok in H as [[[b2 ks] n2] [Hb H]]. injection H as _ <-.
      destruct (operations_count _ _ _ _ _ _ _ _ _ _ _ _ _ _ M1 M2 M3 M4 M5 Hb) as [A1 [c [A2 A3]]].
      assert (c = n).
      { refine (tally_same failed fails_in l (map fst outs) _ n c Ht A2). clear - O1 Hk. induction O1 as [|x o xs outs H _ IH]; [constructor|]. inversion Hk as [|? ? K1 K2]; subst. constructor; [exact (op_fails x o K1 H) | exact (IH K2)]. }
      subst c n2. exists (errs_at ks ops_loc). split; [|rewrite A1; exact N0]. unfold add_if, exceeded. destruct fo as [f|]; [|rewrite app_nil_r; reflexivity]. cbn [Z.add]. rewrite ?Z.add_0_l.
      destruct (Z.ltb f _); [|rewrite app_nil_r; reflexivity]. rewrite errs_at_add. destruct (loc_dec _ _) as [_|N]; [reflexivity | contradiction N; reflexivity].
    - injection H as _ <-. exists (errs_at i0 ops_loc). split; [|exact N0]. destruct l as [|x l].
      { inversion Ht; subst. unfold exceeded. destruct fo as [f|]; [|rewrite app_nil_r; reflexivity]. specialize (Hf f eq_refl). destruct (Z.ltb_spec f (Z.of_nat 0)); [lia | rewrite app_nil_r; reflexivity]. }
      exfalso.
      assert (Hne : map fst outs <> []) by (intros E; rewrite E in Hl; discriminate Hl).
      destruct (response_presence _ _ _ F1 Hne Hps) as [P1 P2]. assert (G : can_proceed i0 [body_loc ++ [LStr ops_name]] = true); [|congruence].
      apply (tight_proceeds _ _ T0). intros q [<-|[]]. apply clear_field. split; [|split].
      + unfold i0. rewrite errs_merge_wf by (first [apply status_code_wf | do 2 (apply wf_merge; [|assumption]); apply wf_no_issues]). rewrite errs_merge_wf by (first [assumption | apply wf_merge; [apply wf_no_issues | assumption]]).
        rewrite errs_merge_wf by (first [assumption | apply wf_no_issues]). reflexivity.
      + change (errs_at i0 (at_body []) = []). rewrite E0, C0, P1. reflexivity.
      + rewrite E0, (F2 []), Hk0, P2. reflexivity.
  Qed.
End Env.
