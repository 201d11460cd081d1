(** Containers and the dictionaries they are written as. *)
From Coq Require Import Lia.
From Verif Require Import PyBase BaseFacts PyNum Issues IssuesSpec IssuesFacts AttrRep AttrRepSpec AttrRepFacts Value ValueFacts
  Container ContainerSpec ContainerFacts ContainerRW Types TypesSpec Attr Schema AttrSpec AttrFacts AttrItems PropAttr SchemaSpec SchemaFacts SchemaBuild PropSchema
  PatchFacts RequestFacts RoundSpec RoundFacts RoundAgain RoundSchema FileSpec.

(** Keys in step with the index of names, no two alike. *)
Definition in_step (d : list (str * value)) (l2o : list (str * str)) : Prop :=
  l2o = map (fun e => (lower (fst e), fst e)) d /\ NoDup (map (fun e => lower (fst e)) d).

(** Values made of scalars, lists of scalars and containers, and containers. *)
Inductive filed (L : value -> Prop) : value -> Prop :=
| filed_scalar v : L v -> filed L v
| filed_list l : Forall (filed L) l -> Forall (fun x => is_list x = false) l -> filed L (VList l)
| filed_cont d l2o : in_step d l2o -> Forall (fun e => filed L (snd e)) d -> filed L (VCont d l2o).

Lemma in_step_keys d l2o : in_step d l2o -> NoDup (map fst d).
Proof. intros [_ N]. rewrite <- (map_map fst lower) in N. exact (NoDup_map_inv _ _ N). Qed.

Lemma load_rest l : forall d : list (str * value), NoDup (map (fun e => lower (fst e)) (d ++ l)) ->
  load (map (fun e : str * value => (KStr (fst e), unconv (snd e))) l) d (map (fun e => (lower (fst e), fst e)) d)
  = VCont (d ++ map (fun e => (fst e, conv (unconv (snd e)))) l) (map (fun e => (lower (fst e), fst e)) (d ++ l)).
Proof.
  induction l as [|[k x] t IH]; intros d N; cbn [map load fst snd]; [rewrite !app_nil_r; reflexivity|].
  rewrite map_app in N. cbn [map fst] in N. pose proof (NoDup_remove_2 _ _ _ N) as Nk.
  assert (N1 : ~ In (lower k) (map (fun e => lower (fst e)) d)) by (intros I; apply Nk, in_or_app; left; exact I).
  assert (N2 : ~ In k (map fst d)). { intros I. apply N1. apply in_map_iff in I as [e [<- I]]. apply (in_map (fun e => lower (fst e))). exact I. }
  assert (N3 : ~ In (lower k) (map fst (map (fun e => (lower (fst e), fst e)) d))). { rewrite map_map. cbn [fst]. exact N1. }
  rewrite (sset_absent _ _ _ N2), (sset_absent _ _ _ N3). specialize (IH (d ++ [(k, conv (unconv x))])). rewrite (map_app (fun e : str * value => (lower (fst e), fst e)) d) in IH. cbn [map fst] in IH. rewrite IH.
  - rewrite <- !app_assoc. rewrite !map_app. cbn [map fst app]. rewrite <- ?app_assoc. reflexivity.
  - rewrite <- app_assoc, map_app. exact N.
Qed.

Section Leaves.
  Variable L : value -> Prop.
  Hypothesis L_scalar : forall v, L v -> scalar v.

  (** A filed value is read back from its plain form. *)
  Lemma refile_cont d l2o : in_step d l2o -> Forall (fun e => conv (unconv (snd e)) = snd e) d -> mk_cont (to_dict (VCont d l2o)) = VCont d l2o.
  Proof.
    intros Hs F. assert (Ed : map (fun e => (fst e, conv (unconv (snd e)))) d = d).
    { clear Hs. induction F as [|[k x] t Hx F IH]; [reflexivity|]. cbn [map fst snd] in *. rewrite Hx, IH. reflexivity. }
    rewrite to_dict_eq, mk_cont_dict. destruct Hs as [-> N]. pose proof (load_rest d [] N) as X. cbn [app map] in X. rewrite X, Ed. reflexivity.
  Qed.
  Lemma unconv_scalar v : scalar v -> unconv v = v /\ conv v = v /\ unconv_item v = v /\ conv_item v = v.
  Proof. destruct v; try contradiction; intros _; repeat split; reflexivity. Qed.

  Lemma refile v : filed L v -> conv (unconv v) = v /\ (is_list v = false -> conv_item (unconv_item v) = v).
  Proof.
    induction v as [v Ha|l IH|d IH|data l2o IH] using value_ind2; intros H.
    - inversion H as [? X| |]; subst; [|contradiction Ha|contradiction Ha]. destruct (unconv_scalar v (L_scalar _ X)) as [E1 [E2 [E3 E4]]]. rewrite E1, E3. auto.
    - inversion H as [? X|? F N|]; subst; [destruct (L_scalar _ X)|]. split; [|discriminate]. cbn [unconv conv]. f_equal. rewrite map_map.
      clear H. induction l as [|x t IHt]; [reflexivity|]. inversion IH as [|? ? Hx Ht]; subst. inversion F as [|? ? Fx Ft]; subst. inversion N as [|? ? Nx Nt]; subst.
      cbn [map]. rewrite (proj2 (Hx Fx) Nx). f_equal. apply IHt; assumption.
    - inversion H as [? X| |]; subst. destruct (L_scalar _ X).
    - inversion H as [? X| |? ? Hs F]; subst; [destruct (L_scalar _ X)|].
      assert (E : mk_cont (to_dict (VCont data l2o)) = VCont data l2o).
      { apply refile_cont; [exact Hs|]. rewrite Forall_forall in *. intros e I. apply (IH e I), (F e I). }
      cbn [unconv unconv_item]. rewrite to_dict_eq in *. split; [exact E | intros _; exact E].
  Qed.

  Hypothesis L_json : forall v, L v -> json_scalar v.
  Lemma filed_json v : filed L v -> json (unconv v) /\ (is_list v = false -> json (unconv_item v)).
  Proof.
    induction v as [v Ha|l IH|d IH|data l2o IH] using value_ind2; intros H.
    - inversion H as [? X| |]; subst; [|contradiction Ha|contradiction Ha]. destruct (unconv_scalar v (L_scalar _ X)) as [-> [_ [-> _]]]. pose proof (L_json _ X) as [Y Z].
      assert (J : json v) by (destruct v; try contradiction; constructor). auto.
    - inversion H as [? X|? F N|]; subst; [destruct (L_scalar _ X)|]. split; [|discriminate]. cbn [unconv]. constructor.
      clear H. induction l as [|x t IHt]; [constructor|]. inversion IH as [|? ? Hx Ht]; subst. inversion F as [|? ? Fx Ft]; subst. inversion N as [|? ? Nx Nt]; subst.
      cbn [map]. constructor; [apply (Hx Fx), Nx | apply IHt; assumption].
    - inversion H as [? X| |]; subst. destruct (L_scalar _ X).
    - inversion H as [? X| |? ? Hs F]; subst; [destruct (L_scalar _ X)|].
      assert (E : json (to_dict (VCont data l2o))).
      { rewrite to_dict_eq. constructor.
        - rewrite map_map. cbn [fst]. apply in_step_keys in Hs. clear -Hs. induction data as [|[k x] t IH]; cbn [map fst] in *; [constructor|]. inversion Hs as [|? ? H1 H2]; subst. constructor; [|exact (IH H2)].
          intros I. apply in_map_iff in I as [e [E I]]. injection E as <-. apply H1. apply in_map. exact I.
        - apply Forall_map. apply Forall_forall. intros e _. cbn [fst]. eexists. reflexivity.
        - apply Forall_map. rewrite Forall_forall in *. intros e I. cbn [snd]. apply (IH e I), (F e I). }
      auto.
  Qed.
  Lemma filed_tidy v : filed L v -> tidy (unconv v) /\ (is_list v = false -> tidy (unconv_item v)).
  Proof.
    induction v as [v Ha|l IH|d IH|data l2o IH] using value_ind2; intros H.
    - inversion H as [? X| |]; subst; [|contradiction Ha|contradiction Ha]. destruct (unconv_scalar v (L_scalar _ X)) as [-> [_ [-> _]]]. pose proof (tidy_scalar v (L_json _ X)). auto.
    - inversion H as [? X|? F N|]; subst; [destruct (L_scalar _ X)|]. split; [|discriminate]. cbn [unconv]. apply tidy_list.
      clear H. induction l as [|x t IHt]; [constructor|]. inversion IH as [|? ? Hx Ht]; subst. inversion F as [|? ? Fx Ft]; subst. inversion N as [|? ? Nx Nt]; subst.
      cbn [map]. constructor; [apply (Hx Fx), Nx | apply IHt; assumption].
    - inversion H as [? X| |]; subst. destruct (L_scalar _ X).
    - inversion H as [? X| |? ? Hs F]; subst; [destruct (L_scalar _ X)|].
      assert (E : tidy (to_dict (VCont data l2o))).
      { rewrite to_dict_eq. apply tidy_dict.
        - rewrite map_map. cbn [fst]. apply Hs.
        - apply Forall_map. rewrite Forall_forall in *. intros e I. cbn [snd]. apply (IH e I), (F e I). }
      auto.
  Qed.
End Leaves.

Section Env.
  Context {env : PyEnv}.

  (** ** What attributes let through is filed *)

  Definition leaf (m : method) (v : value) : Prop := match m with MParse => scalar v | MDump => json_scalar v end.
  Lemma leaf_scalar m v : leaf m v -> scalar v.
  Proof. destruct m; [auto | intros [H _]; exact H]. Qed.

  Lemma type_leaf m t x y : type_proc m t x = Ok (pass y) -> t <> TUnknown -> t <> TComplex -> leaf m y.
  Proof.
    intros H N1 N2.
    assert (C : forall ok name, Ok (type_check ok name x) = Ok (pass y) -> ok = true /\ x = y).
    { intros ok name E. unfold type_check in E. destruct ok; [injection E as ->; auto|]. pose proof (f_equal (fun r => match r with Ok o => snd o | _ => no_issues end) E) as X. discriminate X. }
    assert (G : json_scalar y -> leaf m y) by (destruct m; [intros [X _]; exact X | auto]).
    destruct t; cbn [type_proc] in H; try congruence.
    - apply C in H as [H <-]. apply G. destruct x; try discriminate H. split; exact I.
    - unfold decimal_proc in H. destruct (is_int x) eqn:Ei; [|apply C in H as [H <-]; apply G; destruct x; try discriminate H; split; exact I].
      apply G. destruct x; try discriminate Ei; cbn [integer_proc is_int type_check pass bind to_float] in H; apply bind_ok in H as [f [Hf H]]; apply bind_ok in Hf as [g [_ Hf]]; injection Hf as <-; injection H as <-; split; exact I.
    - unfold integer_proc in H. apply G. destruct x; try (apply C in H as [H <-]; try discriminate H; split; exact I). apply bind_ok in H as [z [_ H]]. destruct (feqb _ _); [injection H as <-; split; exact I | apply C in H as [H _]; discriminate H].
    - apply C in H as [H <-]. apply G. destruct x; try discriminate H. split; exact I.
    - unfold binary_proc in H. destruct x; try (apply C in H as [H _]; discriminate H). apply bind_ok in H as [[e|] [He H]].
      + pose proof (f_equal (fun r => match r with Ok o => snd o | _ => no_issues end) H) as X. discriminate X.
      + injection H as <-. apply G. split; exact I.
    - unfold external_proc in H. destruct x; try (apply C in H as [H _]; discriminate H). destruct (env_abs_url s) eqn:Eu.
      + injection H as <-. apply G. split; exact I.
      + pose proof (f_equal (fun r => match r with Ok o => snd o | _ => no_issues end) H) as X. discriminate X.
    - apply C in H as [H <-]. apply G. destruct x; try discriminate H. split; exact I.
    - apply C in H as [H <-]. apply G. destruct x; try discriminate H. split; exact I.
    - destruct m.
      + unfold datetime_parse in H. destruct x; try (apply C in H as [H _]; discriminate H). destruct (env_fromiso s); [injection H as <-; exact I|].
        pose proof (f_equal (fun r => match r with Ok o => snd o | _ => no_issues end) H) as X. discriminate X.
      + unfold datetime_dump in H. destruct x; try (apply C in H as [H _]; discriminate H). injection H as <-. split; exact I.
  Qed.

  Lemma box_filed m c subs vs : distinct_names subs -> takes m c subs vs -> Forall (fun e => filed (leaf m) (snd e)) vs -> filed (leaf m) (box vs).
  Proof.
    intros N [xs [M E]] F. unfold box. apply filed_cont.
    - split; [unfold named; rewrite map_map; reflexivity|].
      assert (X : map (fun e => lower (fst e)) (named vs) = map (fun e => lower (fst e)) (named xs)).
      { unfold named. rewrite !map_map. cbn [fst]. rewrite <- (map_map fst (fun a => lower (r_attr (arep a)))), <- (each_fst _ _ _ E), map_map. reflexivity. }
      rewrite X. exact (mirrors_NoDup _ _ _ M N).
    - unfold named. apply Forall_map. exact F.
  Qed.

  Lemma leaf_none m : leaf m VNone.
  Proof. destruct m; [exact I | split; exact I]. Qed.

  Theorem runs_filed m a : steady a -> typed a -> forall v w, runs m a v w -> filed (leaf m) w.
  Proof.
    induction a as [i|i subs cps cds IH] using attr_ind2; intros St Ty v w H; inversion St as [? J D T Dt|? ? ? T P D C Cp Pl N Ss]; subst.
    - inversion Ty as [? U|]; subst. assert (J' : Forall judge (procs_of m i)) by (destruct m; cbn [procs_of]; [exact J | rewrite D; exact J]).
      unfold runs in H. cbn [process] in H. apply (base_runs m i v w J') in H. inversion H as [|? ? Mu Hv [A _] _|xs ys Mu A _]; subst.
      + constructor. apply leaf_none.
      + constructor. exact (type_leaf _ _ _ _ A U T).
      + assert (F : Forall (leaf m) ys). { clear -A U T. induction A as [|x y t ys [A _] _ IHA]; constructor; [exact (type_leaf _ _ _ _ A U T) | exact IHA]. }
        apply filed_list; [revert F; apply Forall_impl; intros y; apply filed_scalar|]. revert F. apply Forall_impl. intros y Y. apply leaf_scalar in Y. destruct y; try contradiction; reflexivity.
    - inversion Ty as [|? ? ? ? Ts]; subst. apply (process_runs _ _ _ _ _ _ St) in H.
      assert (It : forall x y, item_runs m subs x y -> filed (leaf m) y /\ is_list y = false).
      { intros x y [_ [vs [Tk ->]]]. split; [|reflexivity]. apply (box_filed m x subs vs N Tk). destruct Tk as [xs [M E]]. pose proof (mirrors_in _ _ _ M) as Min. clear -E Min IH Ss Ts. rewrite Forall_forall in IH, Ss, Ts.
        induction E as [|[s x] [s' y] xs vs [E1 R] E IHE]; constructor; cbn [fst snd] in *.
        - subst s'. destruct (Min (s, x) (or_introl eq_refl)) as [Is _]. exact (IH s Is (Ss s Is) (Ts s Is) x y R).
        - apply IHE. intros e I. apply Min. right; exact I. }
      inversion H as [|? ? Mu Hi|xs ys Mu F _]; subst.
      + constructor. apply leaf_none.
      + apply (It _ _ Hi).
      + apply filed_list; clear -F It; induction F as [|x y t ys R F IHF]; constructor; try (apply (It _ _ R)); exact IHF.
  Qed.

  (** ** Documents *)

  Lemma keys_set {V} k (v : V) d : In k (map fst d) -> map fst (sset k v d) = map fst d.
  Proof.
    unfold sset. induction d as [|[k' x] t IH]; cbn [map fst aset]; [intros []|]. destruct (str_eqb k' k) eqn:E; [apply str_eqb_eq in E; subst k'; reflexivity|].
    intros [->|I]; [rewrite str_eqb_refl in E; discriminate E|]. cbn [map fst]. rewrite (IH I). reflexivity.
  Qed.
  Lemma step_set d l2o n v : in_step d l2o -> (forall k, In k (map fst d) -> lower k = lower n -> k = n) -> in_step (sset n v d) (sset (lower n) n l2o).
  Proof.
    intros [-> N] U. assert (Dec : {In n (map fst d)} + {~ In n (map fst d)}) by (apply in_dec; exact str_dec). destruct Dec as [I|I].
    - assert (E1 : sset (lower n) n (map (fun e => (lower (fst e), fst e)) d) = map (fun e : str * value => (lower (fst e), fst e)) d).
      { clear N. assert (U' : forall k, In k (map fst d) -> lower k = lower n -> k = n) by exact U. clear U. unfold sset. induction d as [|[k x] t IH]; [destruct I|]. cbn [map fst aset] in *. destruct (str_eqb (lower k) (lower n)) eqn:E.
        - apply str_eqb_eq in E. rewrite (U' k (or_introl eq_refl) E). reflexivity.
        - destruct I as [->|I]; [rewrite str_eqb_refl in E; discriminate E|]. rewrite (IH I); [reflexivity|]. intros k' I'. apply U'. right; exact I'. }
      rewrite E1. pose proof (keys_set n v d I) as K. split.
      + rewrite <- (map_map fst (fun k => (lower k, k))), <- K, map_map. reflexivity.
      + rewrite <- (map_map fst lower), K, map_map. exact N.
    - assert (I' : ~ In (lower n) (map (fun e => lower (fst e)) d)). { intros X. apply in_map_iff in X as [e [X1 X2]]. apply I. rewrite <- (U (fst e) (in_map fst _ _ X2) X1). apply in_map. exact X2. }
      rewrite (sset_absent _ _ _ I), sset_absent by (rewrite map_map; cbn [fst]; exact I'). split; [rewrite map_app; reflexivity|]. rewrite map_app. cbn [map fst].
      apply NoDup_rev in N. rewrite <- (rev_involutive (_ ++ _)). apply NoDup_rev. rewrite rev_app_distr. cbn [rev app]. constructor; [rewrite <- in_rev; exact I' | exact N].
  Qed.

  Definition shelved (L : value -> Prop) (uris : list str) (pre : list attribute) (c : value) : Prop :=
    exists d l2o, c = VCont d l2o /\ in_step d l2o /\ Forall (fun e => filed L (snd e)) d
    /\ (forall k, In k (map fst d) -> exists a, In a pre /\ k = topkey (arep a))
    /\ forall u, In u uris -> forall x, sget u d = Some x -> exists d2 l2, x = VCont d2 l2 /\ in_step d2 l2 /\ Forall (fun e => filed L (snd e)) d2
         /\ forall k, In k (map fst d2) -> exists a, In a pre /\ r_ext (arep a) = true /\ r_schema (arep a) = u /\ k = r_attr (arep a).

  Lemma step_index d l2o k : in_step d l2o -> sget (lower k) l2o = None -> ~ In (lower k) (map (fun e => lower (fst e)) d).
  Proof.
    intros [-> _] H I. apply in_map_iff in I as [e [E I]]. assert (G : forall l : list (str * value), In e l -> sget (lower k) (map (fun e => (lower (fst e), fst e)) l) <> None).
    { clear H I. intros l. unfold sget. induction l as [|e' t IH]; [intros []|]. cbn [map aget]. intros [->|I]; [rewrite E, str_eqb_refl; discriminate|]. destruct (str_eqb _ _); [discriminate | exact (IH I)]. }
    exact (G d I H).
  Qed.
  Lemma step_found d l2o k k' : in_step d l2o -> sget k l2o = Some k' -> In k' (map fst d) /\ lower k' = k.
  Proof.
    intros [-> _] H. apply sget_In in H. apply in_map_iff in H as [e [E I]]. pose proof (f_equal fst E) as E1. pose proof (f_equal snd E) as E2. cbn [fst snd] in *. subst k'. split; [apply in_map; exact I | exact E1].
  Qed.

  Lemma shelved_put L uris pre a c v :
    NoDup (map lower uris) -> fits uris (arep a) ->
    (forall b, In b pre -> lower (topkey (arep b)) = lower (topkey (arep a)) -> topkey (arep b) = topkey (arep a)) ->
    (forall b, In b pre -> r_ext (arep a) = true -> r_ext (arep b) = true -> r_schema (arep b) = r_schema (arep a) -> lower (r_attr (arep b)) = lower (r_attr (arep a)) -> r_attr (arep b) = r_attr (arep a)) ->
    shelved L uris pre c -> filed L v -> shelved L uris (pre ++ [a]) (put_top c (arep a) v).
  Proof.
    intros Nd [_ [_ Fa]] U1 U2 [d [q [-> [Hs [Hf [Hk Hu]]]]]] Hv. unfold put_top.
    assert (Wk : forall k, (exists b, In b pre /\ k = topkey (arep b)) -> exists b, In b (pre ++ [a]) /\ k = topkey (arep b)). { intros k [b [I E]]. exists b. split; [apply in_or_app; left; exact I | exact E]. }
    assert (Wu : forall u k, (exists b, In b pre /\ r_ext (arep b) = true /\ r_schema (arep b) = u /\ k = r_attr (arep b)) -> exists b, In b (pre ++ [a]) /\ r_ext (arep b) = true /\ r_schema (arep b) = u /\ k = r_attr (arep b)).
    { intros u k [b [I E]]. exists b. split; [apply in_or_app; left; exact I | exact E]. }
    assert (Ia : In a (pre ++ [a])) by (apply in_or_app; right; left; reflexivity).
    destruct (r_ext (arep a)) eqn:X.
    - assert (Kt : topkey (arep a) = r_schema (arep a)) by (unfold topkey; rewrite X; reflexivity). set (u := r_schema (arep a)) in *.
      (* the object of the extension *)
      assert (Sub : forall d2 l2, in_step d2 l2 -> Forall (fun e => filed L (snd e)) d2 ->
         (forall k, In k (map fst d2) -> exists b, In b pre /\ r_ext (arep b) = true /\ r_schema (arep b) = u /\ k = r_attr (arep b)) ->
         in_step (sset (r_attr (arep a)) v d2) (sset (lower (r_attr (arep a))) (r_attr (arep a)) l2) /\ Forall (fun e => filed L (snd e)) (sset (r_attr (arep a)) v d2)
         /\ forall k, In k (map fst (sset (r_attr (arep a)) v d2)) -> exists b, In b (pre ++ [a]) /\ r_ext (arep b) = true /\ r_schema (arep b) = u /\ k = r_attr (arep b)).
      { intros d2 l2 S2 F2 K2. split; [|split].
        - apply step_set; [exact S2|]. intros k I E. destruct (K2 k I) as [b [Ib [Xb [Eb ->]]]]. exact (U2 b Ib eq_refl Xb Eb E).
        - apply sset_Forall; assumption.
        - intros k I. apply sset_In_key in I as [->|I]; [exists a; auto | apply Wu, K2, I]. }
      assert (Put : forall d1 q1, in_step d1 q1 -> Forall (fun e => filed L (snd e)) d1 -> (forall k, In k (map fst d1) -> exists b, In b (pre ++ [a]) /\ k = topkey (arep b)) ->
         (forall u', In u' uris -> forall x, sget u' d1 = Some x -> exists d2 l2, x = VCont d2 l2 /\ in_step d2 l2 /\ Forall (fun e => filed L (snd e)) d2
           /\ forall k, In k (map fst d2) -> exists b, In b pre /\ r_ext (arep b) = true /\ r_schema (arep b) = u' /\ k = r_attr (arep b)) ->
         In u (map fst d1) -> shelved L uris (pre ++ [a]) (match sget u d1 with Some (VCont d2 l2) => VCont (sset u (set_plain d2 l2 (r_attr (arep a)) v) d1) q1 | _ => VCont d q end)).
      { intros d1 q1 S1 F1 K1 H1 Iu. destruct (sget u d1) as [x|] eqn:G.
        - destruct (H1 u Fa x G) as [d2 [l2 [-> [S2 [F2 K2]]]]]. destruct (Sub d2 l2 S2 F2 K2) as [T1 [T2 T3]]. exists (sset u (set_plain d2 l2 (r_attr (arep a)) v) d1), q1. split; [reflexivity|].
          pose proof (keys_set u (set_plain d2 l2 (r_attr (arep a)) v) d1 Iu) as Ks. split; [|split; [|split]].
          + destruct S1 as [E N]. split; [rewrite <- (map_map fst (fun k => (lower k, k))), Ks, map_map; exact E | rewrite <- (map_map fst lower), Ks, map_map; exact N].
          + apply sset_Forall; [|exact F1]. unfold set_plain. apply filed_cont; assumption.
          + rewrite Ks. exact K1.
          + intros u' Iu' x. rewrite sget_sset. destruct (str_eqb u u') eqn:E.
            * apply str_eqb_eq in E. subst u'. intros Y. injection Y as <-. eexists _, _. split; [reflexivity|]. auto.
            * intros Y. destruct (H1 u' Iu' x Y) as [d3 [l3 [-> [S3 [F3 K3]]]]]. exists d3, l3. split; [reflexivity|]. split; [exact S3|]. split; [exact F3|]. intros k I. apply Wu, K3, I.
        - exfalso. clear -Iu G. unfold sget in G. induction d1 as [|[k x] t IH]; [destruct Iu|]. cbn [map fst aget] in *. destruct (str_eqb k u) eqn:E; [discriminate G|]. destruct Iu as [->|Iu]; [rewrite str_eqb_refl in E; discriminate E | exact (IH Iu G)]. }
      destruct (sget (lower u) q) as [k|] eqn:G.
      + destruct (step_found _ _ _ _ Hs G) as [Ik Ek]. destruct (Hk k Ik) as [b [Ib Eb]]. assert (Ku : k = u). { rewrite Eb, (U1 b Ib); [exact Kt|]. rewrite Kt, <- Eb. exact Ek. } clear Eb. subst k.
        apply Put; [exact Hs | exact Hf | intros k I; apply Wk, Hk, I | exact Hu | exact Ik].
      + pose proof (step_index _ _ _ Hs G) as Nk. apply Put.
        * apply step_set; [exact Hs|]. intros k I E. exfalso. apply Nk. rewrite <- E. apply in_map_iff in I as [e [<- I]]. apply (in_map (fun e => lower (fst e))). exact I.
        * apply sset_Forall; [|exact Hf]. unfold empty_cont. apply filed_cont; [split; [reflexivity | constructor] | constructor].
        * intros k I. apply sset_In_key in I as [->|I]; [exists a; auto | apply Wk, Hk, I].
        * intros u' Iu' x. rewrite sget_sset. destruct (str_eqb u u'); [|apply Hu; exact Iu']. intros Y. injection Y as <-. exists [], []. split; [reflexivity|]. split; [split; [reflexivity | constructor]|]. split; [constructor | intros k []].
        * apply sset_In_key. left; reflexivity.
    - assert (Kt : topkey (arep a) = r_attr (arep a)) by (unfold topkey; rewrite X; reflexivity). rewrite Kt in U1. unfold set_plain. eexists _, _. split; [reflexivity|]. split; [|split; [|split]].
      + apply step_set; [exact Hs|]. intros k I E. destruct (Hk k I) as [b [Ib ->]]. exact (U1 b Ib E).
      + apply sset_Forall; assumption.
      + intros k I. apply sset_In_key in I as [->|I]; [exists a; auto | apply Wk, Hk, I].
      + intros u Iu x. rewrite sget_sset. destruct (str_eqb (r_attr (arep a)) u) eqn:E.
        * exfalso. apply str_eqb_eq in E. apply Fa. rewrite E. apply in_map. exact Iu.
        * intros Y. destruct (Hu u Iu x Y) as [d3 [l3 [-> [S3 [F3 K3]]]]]. exists d3, l3. split; [reflexivity|]. split; [exact S3|]. split; [exact F3|]. intros k I. apply Wu, K3, I.
  Qed.

  Lemma page_filed s L c xs vs : wf_schema s -> mirrors c (at_top (sc_attrs s)) xs -> map fst xs = map fst vs -> Forall (fun e => filed L (snd e)) vs -> filed L (page vs) /\ is_cont (page vs) = true.
  Proof.
    intros Hw M E F. destruct (tops_fit s Hw) as [Hnd Hf]. rewrite Forall_forall in Hf.
    assert (Iv : forall e, In e vs -> In (fst e) (at_top (sc_attrs s))).
    { intros e I. assert (I' : In (fst e) (map fst vs)) by (apply in_map; exact I). rewrite <- E in I'. apply in_map_iff in I' as [e' [<- I']]. apply (mirrors_in _ _ _ M e' I'). }
    pose proof (ws_attrs _ Hw) as W. rewrite Forall_forall in W. pose proof (ws_distinct _ Hw) as D.
    assert (Same : forall a b, In a (at_top (sc_attrs s)) -> In b (at_top (sc_attrs s)) -> lower (r_schema (arep a)) = lower (r_schema (arep b)) -> lower (r_attr (arep a)) = lower (r_attr (arep b)) -> a = b).
    { intros a b Ia Ib E1 E2. apply (NoDup_map_eq _ _ a b D Ia Ib). rewrite E1, E2. reflexivity. }
    assert (U1 : forall a b, In a (at_top (sc_attrs s)) -> In b (at_top (sc_attrs s)) -> lower (topkey (arep b)) = lower (topkey (arep a)) -> topkey (arep b) = topkey (arep a)).
    { intros a b Ia Ib X. destruct (Hf a Ia) as [_ [_ Fa]]. destruct (Hf b Ib) as [_ [_ Fb]]. destruct (W a Ia) as [_ [_ [_ Sa]]]. destruct (W b Ib) as [_ [_ [_ Sb]]]. unfold topkey in *.
      destruct (r_ext (arep a)), (r_ext (arep b)).
      - exact (NoDup_map_eq lower _ _ _ Hnd Fb Fa X).
      - exfalso. apply Fb. rewrite X. apply in_map. exact Fa.
      - exfalso. apply Fa. rewrite <- X. apply in_map. exact Fb.
      - rewrite (Same a b Ia Ib); [reflexivity | congruence | symmetry; exact X]. }
    assert (Main : forall ws c0 pre, (forall e, In e ws -> In (fst e) (at_top (sc_attrs s)) /\ filed L (snd e)) -> (forall b, In b pre -> In b (at_top (sc_attrs s))) ->
       shelved L (map fst (sc_exts s)) pre c0 -> exists pre', shelved L (map fst (sc_exts s)) pre' (put_tops (outs_of ws) c0)).
    { induction ws as [|[a v] t IH]; intros c0 pre Hws Hp Hc; [exists pre; exact Hc|]. cbn [outs_of map put_tops fold_left]. destruct (Hws (a, v) (or_introl eq_refl)) as [Ia Fv]. cbn [fst snd] in *.
      apply (IH _ (pre ++ [a])).
      - intros e I. apply Hws. right; exact I.
      - intros b I. apply in_app_iff in I as [I|[<-|[]]]; [apply Hp, I | exact Ia].
      - apply shelved_put; [exact Hnd | apply Hf, Ia | intros b Ib; apply U1; [exact Ia | apply Hp, Ib] | | exact Hc | exact Fv].
        intros b Ib Xa Xb Es El. rewrite (Same a b Ia (Hp b Ib)); [reflexivity | congruence | symmetry; exact El]. }
    destruct (Main vs empty_cont []) as [pre' [d [q [Ep [Hs [Hff _]]]]]].
    - rewrite Forall_forall in F. intros e I. split; [apply Iv, I | apply F, I].
    - intros b [].
    - exists [], []. split; [reflexivity|]. split; [split; [reflexivity | constructor]|]. split; [constructor|]. split; [intros k []|]. intros u _ x G. discriminate G.
    - fold (page vs) in Ep. rewrite Ep. split; [apply filed_cont; assumption | reflexivity].
  Qed.

  Theorem doc_filed m s doc y : wf_schema s -> Forall steady (at_top (sc_attrs s)) -> Forall typed (at_top (sc_attrs s)) -> is_object doc -> doc_runs m s doc y ->
    filed (leaf m) y /\ is_cont y = true.
  Proof.
    intros Hw St Ty Ho R. apply (doc_runs_iff _ _ _ _ Hw Ho) in R as [vs [[xs [M E]] [-> _]]]. rewrite Forall_forall in St, Ty.
    apply (page_filed s (leaf m) (mk_cont doc) xs vs Hw M (each_fst _ _ _ E)). pose proof (mirrors_in _ _ _ M) as Min. clear M.
    induction E as [|[a x] [a' v] xs vs [E1 R] E IHE]; constructor; cbn [fst snd] in *.
    - subst a'. destruct (Min (a, x) (or_introl eq_refl)) as [Ia _]. exact (runs_filed m a (St a Ia) (Ty a Ia) x v R).
    - apply IHE. intros e I. apply Min. right; exact I.
  Qed.

  Lemma parse_refiled m s y d : is_cont y = true -> to_dict y = VDict d -> mk_cont (VDict d) = y -> base_parse m s (VDict d) = base_parse m s y.
  Proof. intros C _ E. destruct y; try discriminate C. unfold base_parse, process_data. rewrite E. reflexivity. Qed.
End Env.
