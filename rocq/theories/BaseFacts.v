(** Lemmas about the base layer (PyBase.v). *)
From Verif Require Import PyBase.

(** ** Results *)

Lemma bind_ok {A B} (m : res A) (f : A -> res B) b :
  bind m f = Ok b <-> exists a, m = Ok a /\ f a = Ok b.
Proof.
  destruct m as [a|e]; simpl; split.
  - intros H; exists a; auto.
  - intros [a' [H1 H2]]; injection H1 as ->; exact H2.
  - discriminate.
  - intros [a' [H1 _]]; discriminate.
Qed.

Lemma bind_raise {A B} (m : res A) (f : A -> res B) e :
  bind m f = Raise e <-> m = Raise e \/ exists a, m = Ok a /\ f a = Raise e.
Proof.
  destruct m as [a|e']; simpl; split.
  - intros H; right; exists a; auto.
  - intros [H|[a' [H1 H2]]]; [discriminate|injection H1 as ->; exact H2].
  - intros H; left; congruence.
  - intros [H|[a' [H1 _]]]; [congruence|discriminate].
Qed.

Lemma bind_assoc {A B C} (m : res A) (f : A -> res B) (g : B -> res C) :
  bind (bind m f) g = bind m (fun a => bind (f a) g).
Proof. destruct m; reflexivity. Qed.

Lemma bind_ext {A B} (m : res A) (f g : A -> res B) :
  (forall a, f a = g a) -> bind m f = bind m g.
Proof. intros H; destruct m; simpl; auto. Qed.

Lemma mapM_ok {A B} (f : A -> res B) l ys :
  mapM f l = Ok ys <-> Forall2 (fun x y => f x = Ok y) l ys.
Proof.
  revert ys; induction l as [|x t IH]; intros ys; cbn [mapM].
  - split; intros H; [injection H as <-; constructor | inversion H; reflexivity].
  - rewrite bind_ok; split.
    + intros [y [Hy H]]. apply bind_ok in H as [ys' [Hys H]].
      injection H as <-. constructor; [exact Hy | apply IH; exact Hys].
    + intros H; inversion H as [|? y ? ys' Hy Hys]; subst.
      exists y; split; [exact Hy|]. apply bind_ok. exists ys'; split; [apply IH; exact Hys | reflexivity].
Qed.

Lemma Forall2_len {A B} (R : A -> B -> Prop) l l' : Forall2 R l l' -> length l = length l'.
Proof. induction 1; cbn; congruence. Qed.

Lemma Forall2_nth_l {A B} (R : A -> B -> Prop) l l' : Forall2 R l l' ->
  forall k x, nth_error l k = Some x -> exists y, nth_error l' k = Some y /\ R x y.
Proof.
  induction 1 as [|a b l l' Hab _ IH]; intros [|k] x Hk; cbn in Hk; try discriminate.
  - injection Hk as <-. exists b. split; [reflexivity | exact Hab].
  - apply IH; exact Hk.
Qed.
Lemma Forall2_nth_r {A B} (R : A -> B -> Prop) l l' : Forall2 R l l' ->
  forall k y, nth_error l' k = Some y -> exists x, nth_error l k = Some x /\ R x y.
Proof.
  induction 1 as [|a b l l' Hab _ IH]; intros [|k] y Hk; cbn in Hk; try discriminate.
  - injection Hk as <-. exists a. split; [reflexivity | exact Hab].
  - apply IH; exact Hk.
Qed.

Lemma nth_map {A B} (f : A -> B) l k y : nth_error (map f l) k = Some y -> exists x, nth_error l k = Some x /\ f x = y.
Proof.
  revert k; induction l as [|a t IH]; intros [|k] H; cbn in H; try discriminate.
  - injection H as <-. exists a. split; reflexivity.
  - apply IH; exact H.
Qed.

Lemma mapM_length {A B} (f : A -> res B) l ys : mapM f l = Ok ys -> length ys = length l.
Proof. intros H; apply mapM_ok in H; symmetry; eapply Forall2_len; exact H. Qed.

Lemma mapM_total {A B} (f : A -> res B) l :
  (forall x, In x l -> exists y, f x = Ok y) -> exists ys, mapM f l = Ok ys.
Proof.
  induction l as [|x t IH]; intros H; cbn [mapM].
  - exists []; reflexivity.
  - destruct (H x (or_introl eq_refl)) as [y Hy].
    destruct IH as [ys Hys]; [intros z Hz; apply H; right; exact Hz|].
    exists (y :: ys); rewrite Hy; simpl; rewrite Hys; reflexivity.
Qed.

Lemma mapM_ext {A B} (f g : A -> res B) l : (forall x, In x l -> f x = g x) -> mapM f l = mapM g l.
Proof.
  induction l as [|x t IH]; intros H; cbn [mapM]; [reflexivity|].
  rewrite (H x) by (left; reflexivity). apply bind_ext; intros y.
  rewrite IH by (intros z Hz; apply H; right; exact Hz); reflexivity.
Qed.

Lemma mapM_pure {A B} (f : A -> B) l : mapM (fun x => Ok (f x)) l = Ok (map f l).
Proof. induction l as [|x t IH]; cbn [mapM map]; [reflexivity | rewrite IH; reflexivity]. Qed.

Lemma foldM_app {A S} (f : S -> A -> res S) l1 l2 s :
  foldM f (l1 ++ l2) s = bind (foldM f l1 s) (foldM f l2).
Proof.
  revert s; induction l1 as [|x t IH]; intros s; cbn [foldM app]; [reflexivity|].
  rewrite bind_assoc; apply bind_ext; intros s'; apply IH.
Qed.

Lemma foldM_inv {A S} (f : S -> A -> res S) (P : S -> Prop) l s s' :
  (forall s x s', In x l -> P s -> f s x = Ok s' -> P s') -> P s -> foldM f l s = Ok s' -> P s'.
Proof.
  revert s; induction l as [|x t IH]; intros s Hf Hs H; cbn [foldM] in H.
  - injection H as <-; exact Hs.
  - apply bind_ok in H as [s1 [H1 H]]. eapply IH; [|eapply Hf; [left; reflexivity|exact Hs|exact H1]|exact H].
    intros s0 y s2 Hy; apply Hf; right; exact Hy.
Qed.

Lemma foldM_total {A S} (f : S -> A -> res S) (P : S -> Prop) l s :
  P s -> (forall s x, In x l -> P s -> exists s', f s x = Ok s' /\ P s') ->
  exists s', foldM f l s = Ok s' /\ P s'.
Proof.
  revert s; induction l as [|x t IH]; intros s Hs Hf; cbn [foldM].
  - exists s; auto.
  - destruct (Hf s x (or_introl eq_refl) Hs) as [s1 [H1 Hs1]]. rewrite H1; simpl.
    apply IH; [exact Hs1|]. intros s0 y Hy; apply Hf; right; exact Hy.
Qed.

Lemma foldM_ext {A S} (f g : S -> A -> res S) l s :
  (forall s x, In x l -> f s x = g s x) -> foldM f l s = foldM g l s.
Proof.
  revert s; induction l as [|x t IH]; intros s H; cbn [foldM]; [reflexivity|].
  rewrite (H s x) by (left; reflexivity). apply bind_ext; intros s'. apply IH.
  intros s0 y Hy; apply H; right; exact Hy.
Qed.

(** ** Booleans and strings *)

Lemma chr_eqb_spec a b : reflect (a = b) (chr_eqb a b).
Proof. apply Ascii.eqb_spec. Qed.
Lemma chr_eqb_refl c : chr_eqb c c = true.
Proof. apply Ascii.eqb_refl. Qed.
Lemma chr_eqb_eq a b : chr_eqb a b = true <-> a = b.
Proof. apply Ascii.eqb_eq. Qed.
Lemma chr_eqb_neq a b : chr_eqb a b = false <-> a <> b.
Proof. apply Ascii.eqb_neq. Qed.
Lemma chr_eqb_sym a b : chr_eqb a b = chr_eqb b a.
Proof. apply Ascii.eqb_sym. Qed.

Lemma str_eqb_refl s : str_eqb s s = true.
Proof. induction s as [|c s IH]; cbn [str_eqb]; [reflexivity | rewrite chr_eqb_refl; exact IH]. Qed.

Lemma str_eqb_eq s t : str_eqb s t = true <-> s = t.
Proof.
  revert t; induction s as [|c s IH]; intros [|d t]; cbn [str_eqb]; split; intros H; try easy.
  - apply andb_true_iff in H as [H1 H2]. apply chr_eqb_eq in H1 as ->. f_equal; apply IH; exact H2.
  - injection H as -> ->. rewrite chr_eqb_refl; apply str_eqb_refl.
Qed.

Lemma str_eqb_neq s t : str_eqb s t = false <-> s <> t.
Proof.
  destruct (str_eqb s t) eqn:E; split; intros H; try easy.
  - apply str_eqb_eq in E as ->; contradiction.
  - intros ->; rewrite str_eqb_refl in E; discriminate.
Qed.

Lemma str_eqb_spec s t : reflect (s = t) (str_eqb s t).
Proof.
  destruct (str_eqb s t) eqn:E; constructor; [apply str_eqb_eq | apply str_eqb_neq]; exact E.
Qed.

Lemma str_eqb_sym s t : str_eqb s t = str_eqb t s.
Proof. destruct (str_eqb_spec s t), (str_eqb_spec t s); congruence. Qed.

Lemma smem_In s l : smem s l = true <-> In s l.
Proof.
  unfold smem; rewrite existsb_exists; split.
  - intros [x [Hx H]]; apply str_eqb_eq in H as ->; exact Hx.
  - intros H; exists s; split; [exact H | apply str_eqb_refl].
Qed.

Lemma smem_not_In s l : smem s l = false <-> ~ In s l.
Proof.
  rewrite <- smem_In; destruct (smem s l); split; intros H; congruence.
Qed.

(** ** Characters: finite checks over the 256 code points *)

Definition all_chars : list ascii := map (fun n => ascii_of_nat n) (seq 0 256).
Lemma all_chars_In c : In c all_chars.
Proof.
  unfold all_chars. rewrite <- (ascii_nat_embedding c). apply in_map. apply in_seq.
  split; [lia|]. simpl. apply nat_ascii_bounded.
Qed.
Lemma check_all_chars (P : ascii -> bool) : forallb P all_chars = true -> forall c, P c = true.
Proof. intros H c; rewrite forallb_forall in H; apply H; apply all_chars_In. Qed.
Ltac all_chars_tac c :=
  pattern c; revert c; apply check_all_chars; vm_compute; reflexivity.

Lemma lower_chr_idem c : lower_chr (lower_chr c) = lower_chr c.
Proof. apply chr_eqb_eq. all_chars_tac c. Qed.

Lemma lower_idem s : lower (lower s) = lower s.
Proof. unfold lower; rewrite map_map; apply map_ext; apply lower_chr_idem. Qed.

Lemma lower_length s : length (lower s) = length s.
Proof. apply map_length. Qed.

Lemma lower_app s t : lower (s ++ t) = lower s ++ lower t.
Proof. apply map_app. Qed.

Lemma lower_nil s : lower s = [] <-> s = [].
Proof. destruct s; simpl; split; easy. Qed.

(** ** Association lists *)

Section AssocFacts.
  Context {K V : Type}.
  Variable eqb : K -> K -> bool.
  Hypothesis eqb_eq : forall a b, eqb a b = true <-> a = b.

  Lemma eqb_rf a : eqb a a = true.
  Proof. apply eqb_eq; reflexivity. Qed.
  Lemma eqb_nf a b : eqb a b = false <-> a <> b.
  Proof.
    rewrite <- eqb_eq; destruct (eqb a b); split; intros H; congruence.
  Qed.

  Lemma aget_aset_same k v (l : list (K * V)) : aget eqb k (aset eqb k v l) = Some v.
  Proof.
    induction l as [|[k' v'] t IH]; cbn [aset aget].
    - rewrite eqb_rf; reflexivity.
    - destruct (eqb k' k) eqn:E; cbn [aget]; rewrite E; [reflexivity | exact IH].
  Qed.

  Lemma aget_aset_other k k' v (l : list (K * V)) : k <> k' -> aget eqb k' (aset eqb k v l) = aget eqb k' l.
  Proof.
    intros Hne; induction l as [|[k2 v2] t IH]; cbn [aset aget].
    - assert (E : eqb k k' = false) by (apply eqb_nf; exact Hne). rewrite E; reflexivity.
    - destruct (eqb k2 k) eqn:E; cbn [aget].
      + apply eqb_eq in E as ->. assert (E : eqb k k' = false) by (apply eqb_nf; exact Hne).
        rewrite E; reflexivity.
      + destruct (eqb k2 k'); [reflexivity | exact IH].
  Qed.

  Lemma aget_aset k k' v (l : list (K * V)) :
    aget eqb k' (aset eqb k v l) = if eqb k k' then Some v else aget eqb k' l.
  Proof.
    destruct (eqb k k') eqn:E.
    - apply eqb_eq in E as ->; apply aget_aset_same.
    - apply aget_aset_other; apply eqb_nf; exact E.
  Qed.

  Lemma aget_In k v (l : list (K * V)) : aget eqb k l = Some v -> In (k, v) l.
  Proof.
    induction l as [|[k' v'] t IH]; cbn [aget]; [discriminate|].
    destruct (eqb k' k) eqn:E; intros H.
    - apply eqb_eq in E as ->; injection H as ->; left; reflexivity.
    - right; apply IH; exact H.
  Qed.

  Lemma aget_None k (l : list (K * V)) : aget eqb k l = None <-> ~ In k (map fst l).
  Proof.
    induction l as [|[k' v'] t IH]; cbn [aget map fst In]; [easy|].
    destruct (eqb k' k) eqn:E.
    - apply eqb_eq in E as ->; split; [discriminate | intros H; exfalso; apply H; left; reflexivity].
    - apply eqb_nf in E. rewrite IH; split; intros H; [intros [H'|H']; [apply E; exact H' | apply H; exact H']|].
      intros H'; apply H; right; exact H'.
  Qed.

  Lemma aget_Some_key k (l : list (K * V)) : (exists v, aget eqb k l = Some v) <-> In k (map fst l).
  Proof.
    destruct (aget eqb k l) as [v|] eqn:E; split.
    - intros _. apply aget_In in E. change k with (fst (k, v)). apply in_map; exact E.
    - intros _; exists v; reflexivity.
    - intros [v H]; discriminate.
    - intros H. apply aget_None in E. contradiction.
  Qed.

  Lemma amem_In k (l : list (K * V)) : amem eqb k l = true <-> In k (map fst l).
  Proof.
    unfold amem; rewrite <- aget_Some_key. destruct (aget eqb k l) as [v|]; split; try easy.
    - intros _; exists v; reflexivity.
    - intros [v H]; discriminate.
  Qed.

  Lemma aget_NoDup k v (l : list (K * V)) : NoDup (map fst l) -> In (k, v) l -> aget eqb k l = Some v.
  Proof.
    induction l as [|[k' v'] t IH]; cbn [map fst aget In]; intros Hnd H; [contradiction|].
    inversion Hnd as [|? ? Hni Hnd']; subst. destruct H as [H|H].
    - injection H as -> ->; rewrite eqb_rf; reflexivity.
    - destruct (eqb k' k) eqn:E; [|apply IH; assumption].
      apply eqb_eq in E as ->. exfalso; apply Hni. change k with (fst (k, v)); apply in_map; exact H.
  Qed.

  Lemma aset_keys k v (l : list (K * V)) :
    map fst (aset eqb k v l) = if amem eqb k l then map fst l else map fst l ++ [k].
  Proof.
    unfold amem; induction l as [|[k' v'] t IH]; cbn [aset map fst aget app]; [reflexivity|].
    destruct (eqb k' k) eqn:E; cbn [map fst]; [reflexivity|].
    rewrite IH; destruct (aget eqb k t); reflexivity.
  Qed.

  Lemma aset_NoDup k v (l : list (K * V)) : NoDup (map fst l) -> NoDup (map fst (aset eqb k v l)).
  Proof.
    intros H; rewrite aset_keys. destruct (amem eqb k l) eqn:E; [exact H|].
    assert (Hn : ~ In k (map fst l)) by (rewrite <- amem_In, E; discriminate).
    clear E. induction (map fst l) as [|x t IH]; cbn [app].
    - constructor; [easy | constructor].
    - inversion H as [|? ? Hx Ht]; subst. constructor.
      + rewrite in_app_iff; intros [H'|[H'|[]]]; [apply Hx; exact H'|]. apply Hn; left; symmetry; exact H'.
      + apply IH; [exact Ht|]. intros H'; apply Hn; right; exact H'.
  Qed.

  Lemma aset_absent k v (l : list (K * V)) : ~ In k (map fst l) -> aset eqb k v l = l ++ [(k, v)].
  Proof.
    induction l as [|[k' v'] t IH]; cbn [aset map fst app]; intros H; [reflexivity|].
    assert (E : eqb k' k = false) by (apply eqb_nf; intros ->; apply H; left; reflexivity).
    rewrite E, IH; [reflexivity|]. intros H'; apply H; right; exact H'.
  Qed.

  Lemma adel_keys_incl k (l : list (K * V)) : incl (map fst (adel eqb k l)) (map fst l).
  Proof.
    induction l as [|[k' v'] t IH]; cbn [adel map fst]; [intros x Hx; exact Hx|].
    destruct (eqb k' k); cbn [map fst]; intros x Hx; [right; exact Hx|].
    destruct Hx as [Hx|Hx]; [left; exact Hx | right; apply IH; exact Hx].
  Qed.

  Lemma adel_NoDup k (l : list (K * V)) : NoDup (map fst l) -> NoDup (map fst (adel eqb k l)).
  Proof.
    induction l as [|[k' v'] t IH]; cbn [adel map fst]; intros H; [constructor|].
    inversion H as [|? ? Hni Hnd]; subst. destruct (eqb k' k); cbn [map fst]; [exact Hnd|].
    constructor; [|apply IH; exact Hnd]. intros H'; apply Hni; eapply adel_keys_incl; exact H'.
  Qed.

  Lemma aget_adel_other k k' (l : list (K * V)) : k <> k' -> aget eqb k' (adel eqb k l) = aget eqb k' l.
  Proof.
    intros Hne; induction l as [|[k2 v2] t IH]; cbn [adel aget]; [reflexivity|].
    destruct (eqb k2 k) eqn:E; cbn [aget].
    - apply eqb_eq in E as ->. assert (E : eqb k k' = false) by (apply eqb_nf; exact Hne).
      rewrite E; reflexivity.
    - destruct (eqb k2 k'); [reflexivity | exact IH].
  Qed.

  Lemma aget_adel_same k (l : list (K * V)) : NoDup (map fst l) -> aget eqb k (adel eqb k l) = None.
  Proof.
    induction l as [|[k' v'] t IH]; cbn [adel map fst aget]; intros H; [reflexivity|].
    inversion H as [|? ? Hni Hnd]; subst. destruct (eqb k' k) eqn:E.
    - apply eqb_eq in E as ->. apply aget_None; exact Hni.
    - cbn [aget]; rewrite E; apply IH; exact Hnd.
  Qed.

  Lemma aget_app k (l1 l2 : list (K * V)) :
    aget eqb k (l1 ++ l2) = match aget eqb k l1 with Some v => Some v | None => aget eqb k l2 end.
  Proof.
    induction l1 as [|[k' v'] t IH]; cbn [app aget]; [reflexivity|].
    destruct (eqb k' k); [reflexivity | exact IH].
  Qed.
End AssocFacts.

(** ** enumerate, set_nth *)

Lemma enum_from_app {A} i (l1 l2 : list A) :
  enum_from i (l1 ++ l2) = enum_from i l1 ++ enum_from (i + length l1) l2.
Proof.
  revert i; induction l1 as [|x t IH]; intros i; cbn [app enum_from length].
  - rewrite Nat.add_0_r; reflexivity.
  - rewrite IH, Nat.add_succ_r; reflexivity.
Qed.

Lemma enum_from_length {A} i (l : list A) : length (enum_from i l) = length l.
Proof. revert i; induction l as [|x t IH]; intros i; cbn; [reflexivity | rewrite IH; reflexivity]. Qed.

Lemma enum_from_snd {A} i (l : list A) : map snd (enum_from i l) = l.
Proof. revert i; induction l as [|x t IH]; intros i; cbn; [reflexivity | rewrite IH; reflexivity]. Qed.

Lemma enum_from_nth {A} i (l : list A) k :
  nth_error (enum_from i l) k = match nth_error l k with Some x => Some (i + k, x) | None => None end.
Proof.
  revert i k; induction l as [|x t IH]; intros i [|k]; cbn; try reflexivity.
  - rewrite Nat.add_0_r; reflexivity.
  - rewrite IH, Nat.add_succ_r; reflexivity.
Qed.

Lemma enum_from_In {A} i (l : list A) k x : In (k, x) (enum_from i l) <-> exists j, k = i + j /\ nth_error l j = Some x.
Proof.
  revert i; induction l as [|y t IH]; intros i; cbn [enum_from In].
  - split; [easy | intros [j [_ H]]; destruct j; discriminate].
  - rewrite IH; split.
    + intros [H|[j [H1 H2]]].
      * injection H as <- <-; exists 0; split; [lia | reflexivity].
      * exists (S j); split; [lia | exact H2].
    + intros [[|j] [H1 H2]].
      * left; cbn in H2; injection H2 as ->; rewrite H1, Nat.add_0_r; reflexivity.
      * right; exists j; split; [lia | exact H2].
Qed.

Lemma set_nth_length {A} i (x : A) l : length (set_nth i x l) = length l.
Proof. revert i; induction l as [|y t IH]; intros [|i]; cbn; auto. Qed.

Lemma set_nth_nth {A} i (x : A) l j :
  nth_error (set_nth i x l) j = if Nat.eqb i j then match nth_error l j with Some _ => Some x | None => None end
                                else nth_error l j.
Proof.
  revert i j; induction l as [|y t IH]; intros [|i] [|j]; cbn; try reflexivity.
  - destruct (Nat.eqb i j); reflexivity.
  - apply IH.
Qed.
