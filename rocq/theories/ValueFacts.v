(** Induction over values and unfolding equations of the container functions. *)
From Verif Require Import PyBase BaseFacts PyNum AttrRep AttrRepSpec AttrRepFacts Value Container.

Definition atomic (v : value) : Prop :=
  match v with VList _ | VDict _ | VCont _ _ => False | _ => True end.

Section ValueInd.
  Variable P : value -> Prop.
  Hypothesis HA : forall v, atomic v -> P v.
  Hypothesis HL : forall l, Forall P l -> P (VList l).
  Hypothesis HD : forall d, Forall (fun e => P (snd e)) d -> P (VDict d).
  Hypothesis HC : forall data l2o, Forall (fun e => P (snd e)) data -> P (VCont data l2o).
  Fixpoint value_ind2 (v : value) : P v :=
    match v with
    | VList l => HL l ((fix go (l : list value) : Forall P l :=
                          match l with
                          | [] => Forall_nil P
                          | x :: t => Forall_cons x (value_ind2 x) (go t)
                          end) l)
    | VDict d => HD d ((fix go (d : list (dkey * value)) : Forall (fun e => P (snd e)) d :=
                          match d with
                          | [] => Forall_nil _
                          | (k, x) :: t => Forall_cons (k, x) (value_ind2 x) (go t)
                          end) d)
    | VCont d m => HC d m ((fix go (d : list (str * value)) : Forall (fun e => P (snd e)) d :=
                          match d with
                          | [] => Forall_nil _
                          | (k, x) :: t => Forall_cons (k, x) (value_ind2 x) (go t)
                          end) d)
    | v => HA v I
    end.
End ValueInd.

(** The same with access to the items of the lists stored in a container. *)
Definition items_too (P : value -> Prop) (v : value) : Prop :=
  match v with VList l => Forall P l | _ => True end.
Lemma value_ind3 (P : value -> Prop)
  (HA : forall v, atomic v -> P v)
  (HL : forall l, Forall P l -> P (VList l))
  (HD : forall d, Forall (fun e => P (snd e)) d -> P (VDict d))
  (HC : forall data l2o, Forall (fun e => P (snd e) /\ items_too P (snd e)) data -> P (VCont data l2o)) :
  forall v, P v.
Proof.
  intros v. cut (P v /\ items_too P v); [intros [H _]; exact H|].
  induction v as [v Ha|l IH|d IH|data l2o IH] using value_ind2.
  - split; [apply HA; exact Ha | destruct v; try exact I; contradiction].
  - assert (H : Forall P l) by (revert IH; apply Forall_impl; intros x [H _]; exact H).
    split; [apply HL; exact H | exact H].
  - split; [|exact I]. apply HD. revert IH; apply Forall_impl; intros x [H _]; exact H.
  - split; [apply HC; exact IH | exact I].
Qed.

Lemma sget_sset {V} k k' (v : V) d : sget k' (sset k v d) = if str_eqb k k' then Some v else sget k' d.
Proof. apply (aget_aset _ str_eqb_eq). Qed.
Lemma sget_sset_same {V} k (v : V) d : sget k (sset k v d) = Some v.
Proof. rewrite sget_sset, str_eqb_refl; reflexivity. Qed.
Lemma sget_sset_other {V} k k' (v : V) d : k <> k' -> sget k' (sset k v d) = sget k' d.
Proof. intros H; rewrite sget_sset, (proj2 (str_eqb_neq _ _) H); reflexivity. Qed.
Lemma sget_In {V} k (v : V) d : sget k d = Some v -> In (k, v) d.
Proof. apply (aget_In _ str_eqb_eq). Qed.
Lemma sget_None {V} k (d : list (str * V)) : sget k d = None <-> ~ In k (map fst d).
Proof. apply (aget_None _ str_eqb_eq). Qed.
Lemma sget_Some_key {V} k (d : list (str * V)) : (exists v, sget k d = Some v) <-> In k (map fst d).
Proof. apply (aget_Some_key _ str_eqb_eq). Qed.
Lemma sget_NoDup {V} k (v : V) d : NoDup (map fst d) -> In (k, v) d -> sget k d = Some v.
Proof. apply (aget_NoDup _ str_eqb_eq). Qed.

(** ** Loading *)

Definition conv_item (y : value) : value := match y with VDict _ => mk_cont y | _ => y end.
Definition conv (x : value) : value :=
  match x with VDict _ => mk_cont x | VList l => VList (map conv_item l) | _ => x end.

Fixpoint load (d : list (dkey * value)) (data : list (str * value)) (l2o : list (str * str)) : value :=
  match d with
  | [] => VCont data l2o
  | (KOther _, _) :: t => load t data l2o
  | (KStr k, x) :: t => load t (sset k (conv x) data) (sset (lower k) k l2o)
  end.

Lemma mk_cont_dict d : mk_cont (VDict d) = load d [] [].
Proof.
  cbn [mk_cont]. generalize (@nil (str * value)) (@nil (str * str)).
  induction d as [|[[k|n] x] t IH]; intros data l2o; cbn [load]; [reflexivity | | apply IH].
  etransitivity; [|apply IH]. destruct x; reflexivity.
Qed.

(** ** Reading *)

Definition get_sub (x : value) (sub : str) : res value :=
  match sub with
  | [] => Ok x
  | _ =>
      match x with
      | VCont _ _ => let! r' := mk_rep [] sub [] false in get_item x r'
      | VList l => let! vs := mapM (fun y => let! r' := mk_rep [] sub [] false in get_item y r') l in Ok (VList vs)
      | _ => Ok VMissing
      end
  end.

Lemma get_item_eq data l2o r :
  get_item (VCont data l2o) r =
  match sget (lower (r_schema r)) l2o with
  | Some ext =>
      let! r' := mk_rep [] (r_attr r) (r_sub r) false in
      match sget ext data with None => Raise KeyErr | Some x => get_item x r' end
  | None =>
      match sget (lower (r_attr r)) l2o with
      | None => Ok VMissing
      | Some a => match sget a data with None => Raise KeyErr | Some x => get_sub x (r_sub r) end
      end
  end.
Proof.
  cbn [get_item]. destruct (sget (lower (r_schema r)) l2o) as [ext|].
  - apply bind_ext; intros r'. unfold sget.
    induction data as [|[k x] t IH]; cbn [aget]; [reflexivity|].
    destruct (str_eqb k ext); [reflexivity | exact IH].
  - destruct (sget (lower (r_attr r)) l2o) as [a|]; [|reflexivity]. unfold sget.
    induction data as [|[k x] t IH]; cbn [aget]; [reflexivity|].
    destruct (str_eqb k a); [|exact IH]. clear IH. unfold get_sub.
    destruct (r_sub r) as [|c sub]; [reflexivity|].
    destruct x; try reflexivity. f_equal.
    induction l as [|y l IH]; cbn [mapM]; [reflexivity|].
    rewrite bind_assoc. apply bind_ext; intros r'. apply bind_ext; intros z. rewrite IH. reflexivity.
Qed.

Lemma get_item_notcont v r : is_cont v = false -> get_item v r = Raise TypeErr.
Proof. destruct v; try reflexivity; discriminate. Qed.

(** ** Deleting *)

(** Update the first entry with key [k] by a function that may raise. *)
Fixpoint aupd (k : str) (f : value -> res value) (d : list (str * value)) : res (list (str * value)) :=
  match d with
  | [] => Raise KeyErr
  | (k', x) :: t =>
      if str_eqb k' k then let! x' := f x in Ok ((k', x') :: t)
      else let! t' := aupd k f t in Ok ((k', x) :: t')
  end.

Definition del_sub (x : value) (sub : str) : res value :=
  match x with
  | VCont _ _ => let! r' := mk_rep [] sub [] false in del_item x r'
  | VList l => let! vs := mapM (fun y => let! r' := mk_rep [] sub [] false in del_item y r') l in Ok (VList vs)
  | _ => Ok x
  end.

Lemma del_item_eq data l2o r :
  del_item (VCont data l2o) r =
  match sget (lower (r_schema r)) l2o with
  | Some ext =>
      let! r' := mk_rep [] (r_attr r) (r_sub r) false in
      let! data' := aupd ext (fun x => del_item x r') data in Ok (VCont data' l2o)
  | None =>
      match sget (lower (r_attr r)) l2o with
      | None => Ok (VCont data l2o)
      | Some a =>
          match r_sub r with
          | [] => match sget a data with
                  | None => Raise KeyErr
                  | Some _ => Ok (VCont (sdel a data) (sdel (lower (r_attr r)) l2o))
                  end
          | _ :: _ => let! data' := aupd a (fun x => del_sub x (r_sub r)) data in Ok (VCont data' l2o)
          end
      end
  end.
Proof.
  cbn [del_item]. destruct (sget (lower (r_schema r)) l2o) as [ext|].
  - apply bind_ext; intros r'. f_equal.
    induction data as [|[k x] t IH]; cbn [aupd]; [reflexivity|].
    destruct (str_eqb k ext); [reflexivity | rewrite IH; reflexivity].
  - destruct (sget (lower (r_attr r)) l2o) as [a|]; [|reflexivity].
    destruct (r_sub r) as [|c sub]; [reflexivity|]. f_equal.
    induction data as [|[k x] t IH]; cbn [aupd]; [reflexivity|].
    destruct (str_eqb k a); [|rewrite IH; reflexivity]. f_equal. unfold del_sub.
    destruct x; try reflexivity. f_equal.
    induction l as [|y l IH2]; cbn [mapM]; [reflexivity|].
    rewrite bind_assoc. apply bind_ext; intros r'. apply bind_ext; intros z. rewrite IH2. reflexivity.
Qed.

Lemma del_item_notcont v r : is_cont v = false -> del_item v r = Raise TypeErr.
Proof. destruct v; try reflexivity; discriminate. Qed.

Lemma aupd_keys k f d d' : aupd k f d = Ok d' -> map fst d' = map fst d.
Proof.
  revert d'; induction d as [|[k' x] t IH]; intros d'; cbn [aupd]; [discriminate|].
  destruct (str_eqb k' k).
  - destruct (f x); cbn [bind]; [|discriminate]. intros H; injection H as <-. reflexivity.
  - destruct (aupd k f t) as [t'|]; cbn [bind]; [|discriminate]. intros H; injection H as <-.
    cbn [map fst]. f_equal. apply IH; reflexivity.
Qed.

Lemma aupd_get k f d d' : aupd k f d = Ok d' ->
  exists x x', sget k d = Some x /\ f x = Ok x' /\ sget k d' = Some x'
               /\ forall k', k' <> k -> sget k' d' = sget k' d.
Proof.
  revert d'; induction d as [|[k' x] t IH]; intros d'; cbn [aupd]; [discriminate|].
  unfold sget; cbn [aget]. destruct (str_eqb k' k) eqn:E.
  - destruct (f x) as [x'|] eqn:Ef; cbn [bind]; [|discriminate]. intros H; injection H as <-.
    exists x, x'. cbn [aget]. rewrite E. repeat split; [exact Ef|].
    intros k2 Hk2. cbn [aget]. apply str_eqb_eq in E as ->.
    rewrite (proj2 (str_eqb_neq k k2)) by congruence. reflexivity.
  - destruct (aupd k f t) as [t'|] eqn:Et; cbn [bind]; [|discriminate]. intros H; injection H as <-.
    destruct (IH t' eq_refl) as [y [y' [H1 [H2 [H3 H4]]]]]. exists y, y'. cbn [aget]. rewrite E.
    repeat split; [exact H1 | exact H2 | exact H3|]. intros k2 Hk2. cbn [aget].
    destruct (str_eqb k' k2); [reflexivity | apply (H4 k2 Hk2)].
Qed.

Lemma aupd_raise k f d e : aupd k f d = Raise e ->
  (sget k d = None /\ e = KeyErr) \/ exists x, sget k d = Some x /\ f x = Raise e.
Proof.
  induction d as [|[k' x] t IH]; cbn [aupd]; unfold sget; cbn [aget].
  - intros H; left; split; congruence.
  - destruct (str_eqb k' k).
    + destruct (f x) eqn:E; cbn [bind]; [discriminate|]. intros H; right; exists x; split; congruence.
    + destruct (aupd k f t) eqn:E; cbn [bind]; [discriminate|]. intros H. apply IH. congruence.
Qed.

(** ** Dumping *)

Definition unconv_entry (z : value) : value := match z with VCont _ _ => to_dict z | _ => z end.
Definition unconv_item (y : value) : value :=
  match y with
  | VCont _ _ => to_dict y
  | VDict d => VDict (map (fun e => (fst e, unconv_entry (snd e))) d)
  | _ => y
  end.
Definition unconv (x : value) : value :=
  match x with VCont _ _ => to_dict x | VList l => VList (map unconv_item l) | _ => x end.

Lemma to_dict_eq data l2o :
  to_dict (VCont data l2o) = VDict (map (fun e => (KStr (fst e), unconv (snd e))) data).
Proof.
  cbn [to_dict]. f_equal. induction data as [|[k x] t IH]; cbn [map fst snd]; [reflexivity|].
  rewrite IH. f_equal. f_equal. destruct x; try reflexivity. cbn [unconv]. f_equal.
  induction l as [|y l IH2]; cbn [map]; [reflexivity|]. rewrite IH2. f_equal.
  destruct y; try reflexivity. cbn [unconv_item]. f_equal.
  clear. induction d as [|[k' z] t IH]; cbn [map fst snd]; [reflexivity|]. rewrite IH. reflexivity.
Qed.
