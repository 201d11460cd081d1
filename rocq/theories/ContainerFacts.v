(** Proofs about data containers (Container.v). *)
From Verif Require Import PyBase BaseFacts PyNum AttrRep AttrRepSpec AttrRepFacts Value Container ValueFacts ContainerSpec.

(** ** Lossless loading *)

Lemma sset_absent {V} k (v : V) d : ~ In k (map fst d) -> sset k v d = d ++ [(k, v)].
Proof. apply (aset_absent _ str_eqb_eq). Qed.

Definition key_str (k : dkey) : str := match k with KStr s => s | KOther _ => [] end.

Lemma load_data d : forall data l2o,
  NoDup (map fst data ++ map (fun e => key_str (fst e)) d) ->
  Forall (fun e => exists s, fst e = KStr s) d ->
  exists l2o', load d data l2o = VCont (data ++ map (fun e => (key_str (fst e), conv (snd e))) d) l2o'.
Proof.
  induction d as [|[k x] t IH]; intros data l2o Hnd Hstr; cbn [load map].
  - exists l2o. rewrite app_nil_r. reflexivity.
  - inversion Hstr as [|? ? [s Hs] Ht]; subst. cbn [fst] in Hs; subst k. cbn [key_str fst snd map] in *.
    assert (Hk : ~ In s (map fst data)).
    { intros Hin. apply NoDup_remove_2 in Hnd. apply Hnd. apply in_app_iff; left; exact Hin. }
    rewrite sset_absent by exact Hk.
    destruct (IH (data ++ [(s, conv x)]) (sset (lower s) s l2o)) as [l2o' ->].
    + rewrite map_app, <- app_assoc. exact Hnd.
    + exact Ht.
    + exists l2o'. rewrite <- app_assoc. reflexivity.
Qed.

Lemma json_keys d : NoDup (map fst d) -> Forall (fun e : dkey * value => exists s, fst e = KStr s) d ->
  NoDup (map (fun e => key_str (fst e)) d).
Proof.
  induction d as [|[k x] t IH]; cbn [map fst]; intros Hnd Hs; [constructor|].
  inversion Hnd as [|? ? Hk Ht]; subst. inversion Hs as [|? ? [s Hk'] Hst]; subst. cbn [fst] in Hk'; subst k.
  constructor; [|apply IH; assumption]. cbn [key_str]. intros Hin. apply Hk.
  apply in_map_iff in Hin as [[k' x'] [H1 H2]]. rewrite Forall_forall in Hst.
  destruct (Hst _ H2) as [s' Hs']. cbn [fst] in *. subst k'. cbn in H1; subst s'.
  change (KStr s) with (fst (KStr s, x')). apply in_map; exact H2.
Qed.

Lemma to_dict_mk_cont d : json (VDict d) ->
  Forall (fun e => unconv (conv (snd e)) = snd e) d -> to_dict (mk_cont (VDict d)) = VDict d.
Proof.
  intros Hj Hall. inversion Hj as [| | | | | |d' Hnd Hs Hv]; subst.
  rewrite mk_cont_dict. destruct (load_data d [] []) as [l2o' ->]; [cbn; apply json_keys; assumption | exact Hs|].
  rewrite to_dict_eq. f_equal. cbn [app]. rewrite map_map.
  clear Hj Hnd Hv. induction d as [|[k x] t IH]; [reflexivity|].
  inversion Hs as [|? ? [s Hk] Hst]; subst. inversion Hall as [|? ? Hx Ht]; subst. cbn [fst snd] in *; subst k.
  cbn [map fst snd key_str]. rewrite Hx. f_equal. apply IH; assumption.
Qed.

Lemma mk_cont_is_cont v : is_cont (mk_cont v) = true.
Proof.
  destruct v; try reflexivity. rewrite mk_cont_dict. generalize (@nil (str * value)) (@nil (str * str)).
  induction d as [|[[k|n] x] t IH]; intros; cbn [load]; [reflexivity | apply IH | apply IH].
Qed.

Lemma unconv_cont x : is_cont x = true -> unconv x = to_dict x /\ unconv_item x = to_dict x.
Proof. destruct x; try discriminate. split; reflexivity. Qed.

Lemma unconv_conv v : json v -> unconv (conv v) = v /\ unconv_item (conv_item v) = v.
Proof.
  induction v as [v Ha|l IH|d IH|data l2o IH] using value_ind2; intros Hj.
  - destruct v; try contradiction; split; reflexivity.
  - inversion Hj as [| | | | |l' Hl|]; subst. cbn [conv unconv conv_item]. split; [|reflexivity]. f_equal.
    clear Hj. induction l as [|x t IHt]; [reflexivity|].
    inversion IH as [|? ? Hx Ht]; subst. inversion Hl as [|? ? Hx' Ht']; subst.
    cbn [map]. rewrite (proj2 (Hx Hx')). f_equal. apply IHt; assumption.
  - assert (E : to_dict (mk_cont (VDict d)) = VDict d).
    { apply to_dict_mk_cont; [exact Hj|]. inversion Hj as [| | | | | |d' _ _ Hv]; subst.
      rewrite Forall_forall in *. intros e He. apply (IH e He), Hv, He. }
    cbn [conv conv_item]. destruct (unconv_cont (mk_cont (VDict d)) (mk_cont_is_cont _)) as [E1 E2].
    rewrite E1, E2. split; exact E.
  - inversion Hj.
Qed.

(** ** The index is sound *)

Definition index_ok (data : list (str * value)) (l2o : list (str * str)) : Prop :=
  forall lk k, sget lk l2o = Some k -> lower k = lk /\ In k (map fst data).

Inductive good : value -> Prop :=
| good_atom v : atomic v -> good v
| good_list l : Forall good l -> good (VList l)
| good_dict d : good (VDict d)
| good_cont data l2o : NoDup (map fst data) -> NoDup (map fst l2o) -> index_ok data l2o -> Forall (fun e => good (snd e)) data ->
                       good (VCont data l2o).

Section ReachInd.
  Variable P : value -> Prop.
  Hypothesis H1 : forall v, json v -> P v.
  Hypothesis H2 : forall l, Forall reach l -> Forall P l -> P (VList l).
  Hypothesis H3 : P VMissing.
  Hypothesis H4 : P (mk_cont VNone).
  Hypothesis H5 : forall d, json (VDict d) -> P (mk_cont (VDict d)).
  Hypothesis H6 : forall c r x c', reach c -> P c -> reach x -> P x -> set_item c r x = Ok c' -> P c'.
  Hypothesis H7 : forall c r c', reach c -> P c -> del_item c r = Ok c' -> P c'.
  Fixpoint reach_ind2 (v : value) (h : reach v) {struct h} : P v :=
    match h in reach v return P v with
    | reach_json v j => H1 v j
    | reach_list l f => H2 l f ((fix go (l : list value) (f : Forall reach l) {struct f} : Forall P l :=
                                   match f in Forall _ l return Forall P l with
                                   | Forall_nil _ => Forall_nil P
                                   | Forall_cons x a b => Forall_cons x (reach_ind2 x a) (go _ b)
                                   end) l f)
    | reach_missing => H3
    | reach_empty => H4
    | reach_load d j => H5 d j
    | reach_set c r x c' a b e => H6 c r x c' a (reach_ind2 c a) b (reach_ind2 x b) e
    | reach_del c r c' a e => H7 c r c' a (reach_ind2 c a) e
    end.
End ReachInd.

Lemma good_cont_inv data l2o : good (VCont data l2o) ->
  NoDup (map fst data) /\ NoDup (map fst l2o) /\ index_ok data l2o /\ Forall (fun e => good (snd e)) data.
Proof. intros H; inversion H; subst; [contradiction | exact (conj H2 (conj H3 (conj H4 H5)))]. Qed.

Lemma good_list_inv l : good (VList l) -> Forall good l.
Proof. intros H; inversion H; subst; [contradiction | assumption]. Qed.

Lemma sset_In_key {V} k (v : V) d k' : In k' (map fst (sset k v d)) <-> k' = k \/ In k' (map fst d).
Proof.
  rewrite <- !sget_Some_key. rewrite sget_sset. destruct (str_eqb_spec k k') as [->|Hne].
  - split; [left; reflexivity | intros _; exists v; reflexivity].
  - split; [right; assumption | intros [->|H]; [contradiction | exact H]].
Qed.

Lemma sset_Forall {V} (P : V -> Prop) k v d : P v -> Forall (fun e : str * V => P (snd e)) d ->
  Forall (fun e => P (snd e)) (sset k v d).
Proof.
  intros Hv H. unfold sset. induction d as [|[k' v'] t IH]; cbn [aset]; [repeat constructor; exact Hv|].
  inversion H; subst. destruct (str_eqb k' k); constructor; auto.
Qed.

Lemma sset_NoDup {V} k (v : V) d : NoDup (map fst d) -> NoDup (map fst (sset k v d)).
Proof. apply (aset_NoDup _ str_eqb_eq). Qed.

Lemma index_ok_sset data l2o k v : index_ok data l2o -> index_ok (sset k v data) (sset (lower k) k l2o).
Proof.
  intros H lk k' E. rewrite sget_sset in E. rewrite sset_In_key.
  destruct (str_eqb_spec (lower k) lk) as [<-|Hne].
  - injection E as <-. split; [reflexivity | left; reflexivity].
  - destruct (H lk k' E) as [H1 H2]. split; [exact H1 | right; exact H2].
Qed.
Lemma index_ok_data data l2o k v : index_ok data l2o -> index_ok (sset k v data) l2o.
Proof.
  intros H lk k' E. destruct (H lk k' E) as [H1 H2]. split; [exact H1|]. apply sset_In_key; right; exact H2.
Qed.

Lemma good_sset data l2o k v : good (VCont data l2o) -> good v -> good (VCont (sset k v data) (sset (lower k) k l2o)).
Proof.
  intros H Hv. apply good_cont_inv in H as [H1 [H0 [H2 H3]]].
  constructor; [apply sset_NoDup; exact H1 | apply sset_NoDup; exact H0 | apply index_ok_sset; exact H2 | apply sset_Forall; assumption].
Qed.
Lemma good_sset_data data l2o k v : good (VCont data l2o) -> good v -> good (VCont (sset k v data) l2o).
Proof.
  intros H Hv. apply good_cont_inv in H as [H1 [H0 [H2 H3]]].
  constructor; [apply sset_NoDup; exact H1 | exact H0 | apply index_ok_data; exact H2 | apply sset_Forall; assumption].
Qed.

Lemma good_empty : good empty_cont.
Proof. constructor; [constructor | constructor | intros lk k E; discriminate | constructor]. Qed.

Lemma good_load d : forall data l2o, good (VCont data l2o) -> Forall (fun e => good (conv (snd e))) d ->
  good (load d data l2o).
Proof.
  induction d as [|[[k|n] x] t IH]; intros data l2o Hg Hd; cbn [load]; [exact Hg| |];
    inversion Hd as [|? ? Hx Ht]; subst; apply IH; try assumption.
  apply good_sset; assumption.
Qed.

Lemma json_good v : json v -> good v.
Proof.
  induction v as [v Ha|l IH|d IH|data l2o IH] using value_ind2; intros Hj.
  - apply good_atom; exact Ha.
  - inversion Hj; subst. apply good_list. rewrite Forall_forall in *. auto.
  - apply good_dict.
  - inversion Hj.
Qed.

Lemma conv_good v : json v -> good (conv v) /\ good (conv_item v).
Proof.
  induction v as [v Ha|l IH|d IH|data l2o IH] using value_ind2; intros Hj.
  - destruct v; try contradiction; split; apply good_atom; exact I.
  - pose proof (json_good _ Hj) as Hg. inversion Hj as [| | | | |l' Hl|]; subst.
    split; [|exact Hg]. cbn [conv]. apply good_list. apply Forall_map.
    rewrite Forall_forall in *. intros x Hx. apply (IH x Hx), Hl, Hx.
  - assert (E : good (mk_cont (VDict d))).
    { rewrite mk_cont_dict. apply good_load; [apply good_empty|].
      inversion Hj as [| | | | | |d' _ _ Hv]; subst. rewrite Forall_forall in *. intros e He. apply (IH e He), Hv, He. }
    split; exact E.
  - inversion Hj.
Qed.

Lemma good_get data l2o k x : good (VCont data l2o) -> sget k data = Some x -> good x.
Proof.
  intros H E. apply good_cont_inv in H as [_ [_ [_ H]]]. apply sget_In in E. rewrite Forall_forall in H. apply (H _ E).
Qed.

Lemma set_leaf_ok c a x c' : set_leaf c a x = Ok c' ->
  exists data l2o, c = VCont data l2o /\ attr_name_ok a = true /\ c' = set_plain data l2o a x.
Proof.
  unfold set_leaf. destruct (mk_rep [] a [] false) as [r|] eqn:E; cbn [bind]; [|discriminate].
  apply mk_rep_iff in E as [Ha [_ ->]]. destruct c; try discriminate. intros H; injection H as <-.
  exists data, l2o; repeat split. exact Ha.
Qed.

Lemma good_set_leaf c a x c' : good c -> good x -> set_leaf c a x = Ok c' -> good c'.
Proof.
  intros Hc Hx H. apply set_leaf_ok in H as [data [l2o [-> [_ ->]]]]. apply good_sset; assumption.
Qed.

Lemma good_set_leaves sub vals : forall conts conts',
  Forall good conts -> Forall good vals -> set_leaves sub vals conts = Ok conts' -> Forall good conts'.
Proof.
  induction vals as [|x vals IH]; intros conts conts' Hc Hv H; cbn [set_leaves] in H.
  - injection H as <-. exact Hc.
  - destruct conts as [|c conts]; [injection H as <-; constructor|].
    inversion Hc as [|? ? Hc1 Hc2]; subst. inversion Hv as [|? ? Hv1 Hv2]; subst.
    apply bind_ok in H as [c' [H1 H2]]. apply bind_ok in H2 as [cs [H2 H3]]. injection H3 as <-.
    constructor; [|exact (IH _ _ Hc2 Hv2 H2)].
    destruct x; try (eapply good_set_leaf; [exact Hc1 | | exact H1]; exact Hv1). injection H1 as <-. exact Hc1.
Qed.

Lemma good_repeat n : Forall good (repeat empty_cont n).
Proof. apply Forall_forall. intros x Hx. apply repeat_spec in Hx as ->. apply good_empty. Qed.

Lemma good_set_noext c a sub x c' : good c -> good x -> set_noext c a sub x = Ok c' -> good c'.
Proof.
  intros Hc Hx H. unfold set_noext in H. destruct c; try discriminate.
  destruct sub as [|s sub]; [injection H as <-; apply good_sset; assumption|].
  unfold set_sub in H. apply bind_ok in H as [[[key data'] l2o'] [H1 H2]].
  assert (Hg : good (VCont data' l2o')).
  { destruct (sget (lower a) l2o) as [k|].
    - destruct (sget k data) as [cur|]; [|discriminate]. destruct (can_assign cur x); [|discriminate].
      injection H1 as <- <- <-. exact Hc.
    - injection H1 as <- <- <-. apply good_sset; [exact Hc|].
      destruct x; try apply good_empty. apply good_list; constructor. }
  destruct (sget key data') as [cur|] eqn:Ec; [|discriminate].
  pose proof (good_get _ _ _ _ Hg Ec) as Hcur.
  assert (Hleaf : forall c2, set_leaf cur (s :: sub) x = Ok c2 -> good (VCont (sset key c2 data') l2o')).
  { intros c2 E. apply good_sset_data; [exact Hg|]. exact (good_set_leaf _ _ _ _ Hcur Hx E). }
  destruct x; try (apply bind_ok in H2 as [c2 [E H2]]; injection H2 as <-; apply Hleaf; exact E).
  destruct cur; try discriminate. apply bind_ok in H2 as [cs [E H2]]. injection H2 as <-.
  apply good_sset_data; [exact Hg|]. apply good_list.
  eapply good_set_leaves; [| |exact E].
  - apply Forall_app; split; [apply good_list_inv; exact Hcur | apply good_repeat].
  - apply good_list_inv; exact Hx.
Qed.

Lemma good_set_item c r x c' : good c -> good x -> set_item c r x = Ok c' -> good c'.
Proof.
  intros Hc Hx H. unfold set_item in H. destruct c; try discriminate.
  destruct (r_ext r); [|exact (good_set_noext _ _ _ _ _ Hc Hx H)].
  set (p := match sget (lower (r_schema r)) l2o with
            | Some _ => (data, l2o)
            | None => (sset (r_schema r) empty_cont data, sset (lower (r_schema r)) (r_schema r) l2o)
            end) in H.
  assert (Hg : good (VCont (fst p) (snd p))).
  { unfold p. destruct (sget (lower (r_schema r)) l2o); cbn [fst snd]; [exact Hc|].
    apply good_sset; [exact Hc | apply good_empty]. }
  destruct p as [data' l2o']; cbn [fst snd] in Hg.
  destruct (sget (r_schema r) data') as [sub|] eqn:E; [|discriminate].
  apply bind_ok in H as [r' [H1 H]]. apply bind_ok in H as [sub' [H2 H]]. injection H as <-.
  apply good_sset_data; [exact Hg|]. eapply good_set_noext; [|exact Hx|exact H2].
  eapply good_get; eassumption.
Qed.

Lemma sdel_In_key {V} k (d : list (str * V)) k' : NoDup (map fst d) ->
  (In k' (map fst (sdel k d)) <-> k' <> k /\ In k' (map fst d)).
Proof.
  intros Hnd. rewrite <- !sget_Some_key. unfold sget, sdel. destruct (str_eqb_spec k' k) as [->|Hne].
  - rewrite (aget_adel_same _ str_eqb_eq) by exact Hnd. split; [intros [v H]; discriminate | intros [H _]; contradiction].
  - rewrite (aget_adel_other _ str_eqb_eq) by congruence. tauto.
Qed.
Lemma sget_sdel_other {V} k k' (d : list (str * V)) : k' <> k -> sget k' (sdel k d) = sget k' d.
Proof. intros H. apply (aget_adel_other _ str_eqb_eq). congruence. Qed.
Lemma sget_sdel_same {V} k (d : list (str * V)) : NoDup (map fst d) -> sget k (sdel k d) = None.
Proof. apply (aget_adel_same _ str_eqb_eq). Qed.
Lemma sdel_Forall {V} (P : V -> Prop) k d : Forall (fun e : str * V => P (snd e)) d ->
  Forall (fun e => P (snd e)) (sdel k d).
Proof.
  intros H. unfold sdel. induction d as [|[k' v'] t IH]; cbn [adel]; [constructor|].
  inversion H; subst. destruct (str_eqb k' k); [assumption | constructor; auto].
Qed.

Lemma mapM_Forall {A B} (f : A -> res B) (P : A -> Prop) (Q : B -> Prop) l l' :
  (forall x y, P x -> f x = Ok y -> Q y) -> Forall P l -> mapM f l = Ok l' -> Forall Q l'.
Proof.
  intros H. revert l'; induction l as [|x t IH]; intros l' Hp Hm; cbn [mapM] in Hm.
  - injection Hm as <-. constructor.
  - apply bind_ok in Hm as [y [H1 Hm]]. apply bind_ok in Hm as [ys [H2 Hm]]. injection Hm as <-.
    inversion Hp; subst. constructor; [eapply H; eassumption | apply IH; assumption].
Qed.

Lemma good_cont_aupd data l2o k f data' :
  good (VCont data l2o) -> aupd k f data = Ok data' ->
  (forall x x', sget k data = Some x -> good x -> f x = Ok x' -> good x') -> good (VCont data' l2o).
Proof.
  intros Hg Hu Hf. apply good_cont_inv in Hg as [Hnd [Hnd2 [Hix Hgood]]].
  pose proof (aupd_keys _ _ _ _ Hu) as Hk.
  constructor; [rewrite Hk; exact Hnd | exact Hnd2 | intros lk k' E; rewrite Hk; apply (Hix lk k' E)|].
  apply Forall_forall. intros [k' x'] Hin. cbn [snd].
  assert (E : sget k' data' = Some x') by (apply sget_NoDup; [rewrite Hk; exact Hnd | exact Hin]).
  destruct (aupd_get _ _ _ _ Hu) as [x [y [H1 [H2 [H3 H4]]]]].
  rewrite Forall_forall in Hgood.
  destruct (str_eqb_spec k' k) as [->|Hne].
  - rewrite H3 in E; injection E as <-. eapply Hf; [exact H1 | | exact H2].
    apply sget_In in H1. apply (Hgood _ H1).
  - rewrite H4 in E by exact Hne. apply sget_In in E. apply (Hgood _ E).
Qed.

Lemma good_del v : forall r v', good v -> del_item v r = Ok v' -> good v'.
Proof.
  induction v as [v Ha|l IH|d IH|data l2o IH] using value_ind3; intros r v' Hg H.
  - destruct v; try contradiction; discriminate.
  - discriminate.
  - discriminate.
  - pose proof Hg as Hg0. apply good_cont_inv in Hg as [Hnd [Hnd2 [Hix Hgood]]]. rewrite del_item_eq in H.
    assert (HP : forall k x, sget k data = Some x ->
              (forall r v', good x -> del_item x r = Ok v' -> good v')
              /\ items_too (fun x => forall r v', good x -> del_item x r = Ok v' -> good v') x).
    { intros k x E. apply sget_In in E. rewrite Forall_forall in IH. apply (IH _ E). }
    destruct (sget (lower (r_schema r)) l2o) as [ext|].
    + apply bind_ok in H as [r' [_ H]]. apply bind_ok in H as [data' [Hu H]]. injection H as <-.
      eapply good_cont_aupd; [exact Hg0 | exact Hu|]. intros x x' E Hx Hd. exact (proj1 (HP _ _ E) _ _ Hx Hd).
    + destruct (sget (lower (r_attr r)) l2o) as [a|] eqn:Ea.
      2:{ injection H as <-. exact Hg0. }
      destruct (r_sub r) as [|c sub].
      * destruct (sget a data) as [x|] eqn:Ex; [|discriminate]. injection H as <-.
        apply good_cont.
        -- apply (adel_NoDup str_eqb); exact Hnd.
        -- apply (adel_NoDup str_eqb); exact Hnd2.
        -- intros lk k E. destruct (str_eqb_spec lk (lower (r_attr r))) as [->|Hne].
           ++ rewrite sget_sdel_same in E by exact Hnd2. discriminate.
           ++ rewrite sget_sdel_other in E by exact Hne. destruct (Hix lk k E) as [H1 H2].
              split; [exact H1|]. apply sdel_In_key; [exact Hnd|]. split; [|exact H2].
              intros ->. destruct (Hix _ _ Ea) as [Hl _]. congruence.
        -- apply sdel_Forall; exact Hgood.
      * apply bind_ok in H as [data' [Hu H]]. injection H as <-.
        eapply good_cont_aupd; [exact Hg0 | exact Hu|]. intros x x' E Hx Hd. cbv beta in Hd.
        unfold del_sub in Hd. destruct (HP _ _ E) as [HP1 HP2].
        destruct x; try (injection Hd as <-; exact Hx).
        -- apply bind_ok in Hd as [ys [Hm Hd]]. injection Hd as <-. apply good_list.
           apply good_list_inv in Hx. cbn [items_too] in HP2.
           assert (Hl : Forall (fun y => good y /\ forall r v', good y -> del_item y r = Ok v' -> good v') l)
             by (rewrite Forall_forall in *; intros y Hy; split; [apply Hx, Hy | apply (HP2 y Hy)]).
           eapply mapM_Forall; [|exact Hl|exact Hm]. intros y z [Hy1 Hy2] Hz. cbv beta in Hz.
           apply bind_ok in Hz as [r' [_ Hz]]. exact (Hy2 _ _ Hy1 Hz).
        -- apply bind_ok in Hd as [r' [_ Hd]]. exact (HP1 _ _ Hx Hd).
Qed.

Lemma reach_good v : reach v -> good v.
Proof.
  intros H. induction H as [v Hj|l Hl IH| | |d Hj|c r x c' Hc IHc Hx IHx Hs|c r c' Hc IHc Hd] using reach_ind2.
  - apply json_good; exact Hj.
  - apply good_list; exact IH.
  - apply good_atom; exact I.
  - apply good_empty.
  - apply (conv_good (VDict d)); exact Hj.
  - exact (good_set_item _ _ _ _ IHc IHx Hs).
  - exact (good_del _ _ _ IHc Hd).
Qed.

(** ** Reads never hit a missing index entry *)

Lemma mk_rep_not_key schema attr sub ext : mk_rep schema attr sub ext <> Raise KeyErr.
Proof. intros H; apply mk_rep_raise in H; discriminate. Qed.

Lemma mapM_raise {A B} (f : A -> res B) l e : mapM f l = Raise e -> exists x, In x l /\ f x = Raise e.
Proof.
  induction l as [|x t IH]; cbn [mapM]; [discriminate|].
  destruct (f x) as [y|e'] eqn:E; cbn [bind].
  - destruct (mapM f t) as [ys|e']; cbn [bind]; [discriminate|]. intros H.
    destruct IH as [z [Hz1 Hz2]]; [congruence|]. exists z; split; [right; exact Hz1 | exact Hz2].
  - intros H; exists x; split; [left; reflexivity | congruence].
Qed.

Lemma good_index data l2o lk k : good (VCont data l2o) -> sget lk l2o = Some k ->
  lower k = lk /\ exists x, sget k data = Some x /\ good x.
Proof.
  intros Hg E. pose proof Hg as Hg0. apply good_cont_inv in Hg as [_ [_ [Hix _]]].
  destruct (Hix lk k E) as [H1 H2]. split; [exact H1|]. apply sget_Some_key in H2 as [x Hx].
  exists x; split; [exact Hx | eapply good_get; eassumption].
Qed.

Lemma get_not_key v : forall r, good v -> get_item v r <> Raise KeyErr.
Proof.
  induction v as [v Ha|l IH|d IH|data l2o IH] using value_ind3; intros r Hg.
  - destruct v; try contradiction; discriminate.
  - discriminate.
  - discriminate.
  - rewrite get_item_eq.
    assert (HP : forall k x, sget k data = Some x ->
              (forall r, good x -> get_item x r <> Raise KeyErr)
              /\ items_too (fun x => forall r, good x -> get_item x r <> Raise KeyErr) x).
    { intros k x E. apply sget_In in E. rewrite Forall_forall in IH. apply (IH _ E). }
    destruct (sget (lower (r_schema r)) l2o) as [ext|] eqn:Ee.
    + destruct (good_index _ _ _ _ Hg Ee) as [_ [x [Hx Hgx]]]. rewrite Hx.
      destruct (mk_rep [] (r_attr r) (r_sub r) false) as [r'|e] eqn:Er; cbn [bind].
      * apply (HP _ _ Hx); exact Hgx.
      * intros H; injection H as ->. eapply mk_rep_not_key; exact Er.
    + destruct (sget (lower (r_attr r)) l2o) as [a|] eqn:Ea; [|discriminate].
      destruct (good_index _ _ _ _ Hg Ea) as [_ [x [Hx Hgx]]]. rewrite Hx.
      destruct (HP _ _ Hx) as [HP1 HP2].
      unfold get_sub. destruct (r_sub r) as [|c sub]; [discriminate|].
      destruct x; try discriminate.
      * destruct (mapM _ l) as [vs|e] eqn:Em; cbn [bind]; [discriminate|].
        intros H; injection H as ->. apply mapM_raise in Em as [y [Hy1 Hy2]].
        destruct (mk_rep [] (c :: sub) [] false) as [r'|e] eqn:Er; cbn [bind] in Hy2.
        -- cbn [items_too] in HP2. rewrite Forall_forall in HP2. apply (HP2 y Hy1 r'); [|exact Hy2].
           apply good_list_inv in Hgx. rewrite Forall_forall in Hgx. apply Hgx, Hy1.
        -- injection Hy2 as ->. eapply mk_rep_not_key; exact Er.
      * destruct (mk_rep [] (c :: sub) [] false) as [r'|e] eqn:Er; cbn [bind].
        -- apply HP1; exact Hgx.
        -- intros H; injection H as ->. eapply mk_rep_not_key; exact Er.
Qed.

Lemma del_not_key v : forall r, good v -> del_item v r <> Raise KeyErr.
Proof.
  induction v as [v Ha|l IH|d IH|data l2o IH] using value_ind3; intros r Hg.
  - destruct v; try contradiction; discriminate.
  - discriminate.
  - discriminate.
  - rewrite del_item_eq.
    assert (HP : forall k x, sget k data = Some x ->
              (forall r, good x -> del_item x r <> Raise KeyErr)
              /\ items_too (fun x => forall r, good x -> del_item x r <> Raise KeyErr) x).
    { intros k x E. apply sget_In in E. rewrite Forall_forall in IH. apply (IH _ E). }
    destruct (sget (lower (r_schema r)) l2o) as [ext|] eqn:Ee.
    + destruct (good_index _ _ _ _ Hg Ee) as [_ [x [Hx Hgx]]].
      destruct (mk_rep [] (r_attr r) (r_sub r) false) as [r'|e] eqn:Er; cbn [bind].
      * destruct (aupd ext _ data) as [d'|e] eqn:Eu; cbn [bind]; [discriminate|].
        intros H; injection H as ->. apply aupd_raise in Eu as [[Eu _]|[y [Ey Eu]]]; [congruence|].
        rewrite Hx in Ey; injection Ey as <-. eapply (proj1 (HP _ _ Hx)); eassumption.
      * intros H; injection H as ->. eapply mk_rep_not_key; exact Er.
    + destruct (sget (lower (r_attr r)) l2o) as [a|] eqn:Ea; [|discriminate].
      destruct (good_index _ _ _ _ Hg Ea) as [_ [x [Hx Hgx]]].
      destruct (r_sub r) as [|c sub]; [rewrite Hx; discriminate|].
      destruct (aupd a _ data) as [d'|e] eqn:Eu; cbn [bind]; [discriminate|].
      intros H; injection H as ->. apply aupd_raise in Eu as [[Eu _]|[y [Ey Eu]]]; [congruence|].
      rewrite Hx in Ey; injection Ey as <-. destruct (HP _ _ Hx) as [HP1 HP2].
      unfold del_sub in Eu. destruct x; try discriminate.
      * destruct (mapM _ l) as [vs|e] eqn:Em; cbn [bind] in Eu; [discriminate|].
        injection Eu as ->. apply mapM_raise in Em as [y [Hy1 Hy2]].
        destruct (mk_rep [] (c :: sub) [] false) as [r'|e] eqn:Er; cbn [bind] in Hy2.
        -- cbn [items_too] in HP2. rewrite Forall_forall in HP2. apply (HP2 y Hy1 r'); [|exact Hy2].
           apply good_list_inv in Hgx. rewrite Forall_forall in Hgx. apply Hgx, Hy1.
        -- injection Hy2 as ->. eapply mk_rep_not_key; exact Er.
      * destruct (mk_rep [] (c :: sub) [] false) as [r'|e] eqn:Er; cbn [bind] in Eu.
        -- eapply HP1; eassumption.
        -- injection Eu as ->. eapply mk_rep_not_key; exact Er.
Qed.
