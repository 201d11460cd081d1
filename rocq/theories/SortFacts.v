(** Lemmas about sorting. *)
From Coq Require Import Sorting.Sorted Sorting.Permutation.
From Verif Require Import PyBase BaseFacts PyNum NumFacts Issues AttrRep Value Container ContainerSpec ContainerFacts ContainerEq Types Attr Schema Match MatchSpec MatchFacts MatchCompare FilterParse Sort SortSpec.

(** ** The sort *)

Section Generic.
  Context {A : Type} (T : A -> A -> Prop) (P : skey -> Prop) (lt : skey -> skey -> bool).
  Hypothesis Hlt : forall a b, P a -> P b -> key_lt a b = Ok (lt a b).
  Hypothesis Hasym : forall a b, P a -> P b -> lt a b = true -> lt b a = false.
  Hypothesis Htrans : forall a b c, P a -> P b -> P c -> lt b a = false -> lt c b = false -> lt c a = false.
  Definition placed (p q : skey * A) : Prop := lt (fst p) (fst q) = true \/ (lt (fst q) (fst p) = false /\ T (snd p) (snd q)).

  Lemma insert_spec x l : P (fst x) -> Forall (fun y => P (fst y)) l -> StronglySorted placed l -> Forall (fun y => T (snd x) (snd y)) l ->
    exists l', insert_key x l = Ok l' /\ Permutation (x :: l) l' /\ StronglySorted placed l'.
  Proof.
    intros Px. induction l as [|y t IH]; intros Pl S Ht; [exists [x]; cbn; repeat constructor|]. cbn [insert_key].
    inversion Pl as [|? ? Py Pt]; inversion S as [|? ? St Fy]; inversion Ht as [|? ? Hy Htt]; subst. rewrite (Hlt _ _ Py Px). cbn [bind].
    destruct (lt (fst y) (fst x)) eqn:E.
    - destruct (IH Pt St Htt) as [t' [-> [Pm St']]]. exists (y :: t'). split; [reflexivity|]. split; [rewrite perm_swap; constructor; exact Pm|].
      constructor; [exact St'|]. rewrite <- Pm. constructor; [left; exact E | exact Fy].
    - exists (x :: y :: t). split; [reflexivity|]. split; [reflexivity|]. constructor; [exact S|]. constructor; [right; auto|].
      rewrite Forall_forall in *. intros z Hz. right. split; [|apply Htt, Hz]. apply (Htrans _ (fst y)); auto.
      destruct (Fy z Hz) as [L|[L _]]; [apply Hasym; auto | exact L].
  Qed.
  Lemma sort_spec l : Forall (fun y => P (fst y)) l -> StronglySorted (fun p q => T (snd p) (snd q)) l ->
    exists l', sort_keys l = Ok l' /\ Permutation l l' /\ StronglySorted placed l'.
  Proof.
    induction l as [|x t IH]; intros Pl S; [exists []; repeat constructor|]. inversion Pl; inversion S; subst. cbn [sort_keys].
    destruct IH as [t' [-> [Pm St]]]; try assumption. cbn [bind]. destruct (insert_spec x t') as [l' [-> [Pm' S']]]; try assumption.
    - rewrite <- Pm. assumption.
    - rewrite <- Pm. assumption.
    - exists l'. split; [reflexivity|]. split; [rewrite <- Pm'; constructor; exact Pm | exact S'].
  Qed.
End Generic.

Lemma sorted_app {A} (R : A -> A -> Prop) l m : StronglySorted R l -> StronglySorted R m -> Forall (fun x => Forall (R x) m) l -> StronglySorted R (l ++ m).
Proof.
  induction l as [|x l IH]; intros Sl Sm H; [exact Sm|]. inversion Sl; inversion H; subst. cbn [app]. constructor; [apply IH; assumption|]. apply Forall_app. auto.
Qed.
Lemma sorted_rev {A} (R : A -> A -> Prop) l : StronglySorted R l -> StronglySorted (fun a b => R b a) (rev l).
Proof.
  induction 1 as [|x l S IH H]; [constructor|]. cbn [rev]. apply sorted_app; [exact IH | repeat constructor|].
  apply Forall_rev. revert H. apply Forall_impl. intros y Hy. constructor; [exact Hy | constructor].
Qed.
Lemma sorted_impl {A} (R Q : A -> A -> Prop) l : (forall a b, In a l -> In b l -> R a b -> Q a b) -> StronglySorted R l -> StronglySorted Q l.
Proof.
  induction l as [|x l IH]; intros H S; [constructor|]. inversion S as [|? ? S' F]; subst. constructor.
  - apply IH; [|exact S']. intros a b Ha Hb. apply H; right; assumption.
  - rewrite Forall_forall in *. intros y Hy. apply H; [left; reflexivity | right; exact Hy | apply F, Hy].
Qed.
Lemma sorted_map {A B} (f : A -> B) (R : B -> B -> Prop) l : StronglySorted (fun a b => R (f a) (f b)) l <-> StronglySorted R (map f l).
Proof.
  induction l as [|x l IH]; [split; constructor|]. cbn [map]. split; intros S; inversion S as [|? ? S' F]; subst; (constructor; [apply IH, S'|]).
  - rewrite Forall_map. exact F.
  - rewrite Forall_map in F. exact F.
Qed.
Lemma enum_sorted {A} (l : list A) : forall n, StronglySorted (fun p q => fst p < fst q) (enum_from n l) /\ Forall (fun p => n <= fst p) (enum_from n l).
Proof.
  induction l as [|x l IH]; intros n; [split; constructor|]. cbn [enum_from]. destruct (IH (S n)) as [H1 H2]. split.
  - constructor; [exact H1|]. revert H2. apply Forall_impl. cbn. lia.
  - constructor; [cbn; lia|]. revert H2. apply Forall_impl. lia.
Qed.

(** sorted() of keys all comparable. *)
Section Sorted.
  Context {A : Type} (P : skey -> Prop) (lt : skey -> skey -> bool) (pos : A -> nat).
  Hypothesis Hlt : forall a b, P a -> P b -> key_lt a b = Ok (lt a b).
  Hypothesis Hasym : forall a b, P a -> P b -> lt a b = true -> lt b a = false.
  Hypothesis Htrans : forall a b c, P a -> P b -> P c -> lt b a = false -> lt c b = false -> lt c a = false.
  Definition put (reverse : bool) (p q : skey * A) : Prop :=
    (if reverse then lt (fst q) (fst p) = true else lt (fst p) (fst q) = true)
    \/ (lt (fst p) (fst q) = false /\ lt (fst q) (fst p) = false /\ pos (snd p) < pos (snd q)).
  Lemma py_sorted_spec l reverse : Forall (fun y => P (fst y)) l -> StronglySorted (fun p q => pos (snd p) < pos (snd q)) l ->
    exists l', py_sorted l reverse = Ok (map snd l') /\ Permutation l l' /\ StronglySorted (put reverse) l'.
  Proof.
    intros Pl S. unfold py_sorted. destruct reverse.
    - destruct (sort_spec (fun a b => pos b < pos a) P lt Hlt Hasym Htrans (rev l)) as [l' [-> [Pm S']]].
      + apply Forall_rev, Pl.
      + apply sorted_rev in S. exact S.
      + cbn [bind]. exists (rev l'). rewrite map_rev. split; [reflexivity|]. split; [transitivity (rev l); [apply Permutation_rev | rewrite Pm; apply Permutation_rev]|].
        apply sorted_rev in S'. revert S'. apply sorted_impl. intros a b Ha Hb [H|[H1 H2]]; [left; exact H|].
        destruct (lt (fst b) (fst a)) eqn:E; [left; exact E | right; auto].
    - destruct (sort_spec (fun a b => pos a < pos b) P lt Hlt Hasym Htrans l) as [l' [-> [Pm S']]]; [exact Pl | exact S|].
      cbn [bind]. exists l'. split; [reflexivity|]. split; [exact Pm|]. revert S'. apply sorted_impl. intros a b Ha Hb [H|[H1 H2]]; [left; exact H|].
      destruct (lt (fst a) (fst b)) eqn:E; [left; exact E | right; auto].
  Qed.
End Sorted.

(** ** The order on keys *)

Inductive stands (exact : bool) : skey -> basis -> Prop :=
| sd_last : stands exact KLast Nothing
| sd_text s : stands exact (KText s exact) (Text s)
| sd_number w x : number w = Some x -> stands exact (KVal w) (Number x)
| sd_moment d : stands exact (KVal (VDate d)) (Moment d).
Inductive kd := KdText | KdNum | KdMom (d0 : datetime).
Definition in_kind (c : kd) (k : basis) : Prop :=
  k = Nothing \/ match c with
                 | KdText => exists s, k = Text s
                 | KdNum => exists x, k = Number x /\ x <> FNan
                 | KdMom d0 => exists d, k = Moment d /\ same_kind d0 d
                 end.
Lemma uniform_kind ks : uniform ks -> exists c, Forall (in_kind c) ks.
Proof. intros [H|[H|[d0 H]]]; [exists KdText | exists KdNum | exists (KdMom d0)]; exact H. Qed.

Definition bcmp (exact : bool) (k k' : basis) : comparison :=
  match k, k' with
  | Nothing, Nothing => Eq
  | Nothing, _ => Gt
  | _, Nothing => Lt
  | Text s, Text t => str_cmp (folded exact s) (folded exact t)
  | Number x, Number y => match fcmp x y with Some c => c | None => Eq end
  | Moment x, Moment y => Z.compare (moment x) (moment y)
  | _, _ => Eq
  end.
Lemma bcmp_less e c k k' : in_kind c k -> in_kind c k' -> (bcmp e k k' = Lt <-> less e k k').
Proof.
  intros [->|H] [->|H']; try (cbn; split; (discriminate || tauto)).
  - destruct k'; cbn; split; (discriminate || tauto).
  - destruct c; [destruct H as [s ->] | destruct H as [s [-> _]] | destruct H as [s [-> _]]]; cbn; tauto.
  - destruct c.
    + destruct H as [s ->], H' as [t ->]. cbn. apply str_cmp_lt.
    + destruct H as [x [-> Nx]], H' as [y [-> Ny]]. cbn. rewrite num_less_iff. destruct (fcmp_some x y Nx Ny) as [r ->]. split; congruence.
    + destruct H as [x [-> Nx]], H' as [y [-> Ny]]. cbn. apply Z.compare_lt_iff.
Qed.
Lemma bcmp_alike e c k k' : in_kind c k -> in_kind c k' -> (bcmp e k k' = Eq <-> alike e k k').
Proof.
  intros [->|H] [->|H']; try (cbn; split; (discriminate || tauto)).
  - destruct c; [destruct H' as [s ->] | destruct H' as [s [-> _]] | destruct H' as [s [-> _]]]; cbn; split; (discriminate || tauto).
  - destruct c; [destruct H as [s ->] | destruct H as [s [-> _]] | destruct H as [s [-> _]]]; cbn; split; (discriminate || tauto).
  - destruct c.
    + destruct H as [s ->], H' as [t ->]. cbn. apply str_cmp_eq.
    + destruct H as [x [-> Nx]], H' as [y [-> Ny]]. cbn. rewrite same_number_cmp. destruct (fcmp_some x y Nx Ny) as [r ->]. split; congruence.
    + destruct H as [x [-> Nx]], H' as [y [-> Ny]]. cbn. apply Z.compare_eq_iff.
Qed.
Lemma bcmp_sym e k k' : bcmp e k' k = CompOpp (bcmp e k k').
Proof.
  destruct k, k'; try reflexivity; cbn.
  - apply str_cmp_sym.
  - rewrite (fcmp_sym f f0). destruct (fcmp f f0); reflexivity.
  - apply Z.compare_antisym.
Qed.
Lemma text_lt_trans s t u : text_lt s t -> text_lt t u -> text_lt s u.
Proof.
  intros H. revert u. induction H as [c t|c s d t L|c s t H IH]; intros u K; inversion K; subst; first [apply tl_end | apply tl_first; lia | apply tl_next, IH; assumption].
Qed.
Lemma str_cmp_trans s t u : str_cmp s t <> Gt -> str_cmp t u <> Gt -> str_cmp s u <> Gt.
Proof.
  intros H1 H2. destruct (str_cmp s t) eqn:E1; [apply str_cmp_eq in E1; subst; exact H2| |contradiction].
  destruct (str_cmp t u) eqn:E2; [apply str_cmp_eq in E2; subst; rewrite E1; exact H1| |contradiction].
  apply str_cmp_lt in E1, E2. assert (E : str_cmp s u = Lt) by (apply str_cmp_lt; eapply text_lt_trans; eassumption). rewrite E. discriminate.
Qed.
Lemma bcmp_trans e c a b d : in_kind c a -> in_kind c b -> in_kind c d -> bcmp e a b <> Gt -> bcmp e b d <> Gt -> bcmp e a d <> Gt.
Proof.
  assert (N : forall k, in_kind c k -> k <> Nothing -> match c with KdText => exists s, k = Text s | KdNum => exists x, k = Number x /\ x <> FNan | KdMom d0 => exists d, k = Moment d /\ same_kind d0 d end) by (intros k [->|H] X; [contradiction | exact H]).
  intros Ha Hb Hd H1 H2. destruct d as [| | |]; [destruct a; discriminate| | |];
    (destruct b; [destruct a; cbn in *; congruence| | |]); (destruct a; [cbn in *; congruence| | |]);
    (pose proof (N _ Ha ltac:(discriminate)) as Na; pose proof (N _ Hb ltac:(discriminate)) as Nb; pose proof (N _ Hd ltac:(discriminate)) as Nd; clear N Ha Hb Hd; destruct c);
    repeat match goal with X : exists _, _ |- _ => destruct X as [? X] | X : _ /\ _ |- _ => destruct X end; try discriminate;
    repeat match goal with X : Text _ = Text _ |- _ => injection X as <- | X : Number _ = Number _ |- _ => injection X as <- | X : Moment _ = Moment _ |- _ => injection X as <- end; cbn in *.
  - eapply str_cmp_trans; eassumption.
  - destruct (fcmp_some f1 f0) as [x Ex]; [assumption|assumption|]. destruct (fcmp_some f0 f) as [y Ey]; [assumption|assumption|]. rewrite Ex in H1. rewrite Ey in H2.
    destruct (fcmp_trans _ _ _ _ _ Ex Ey H1 H2) as [z [-> [Hz _]]]. exact Hz.
  - rewrite Z.compare_gt_iff in *. lia.
Qed.

Definition ltb (a b : skey) : bool := match key_lt a b with Ok r => r | Raise _ => false end.
Definition is_lt (c : comparison) : bool := match c with Lt => true | _ => false end.
Lemma key_lt_spec e c a b k k' : stands e a k -> stands e b k' -> in_kind c k -> in_kind c k' -> key_lt a b = Ok (is_lt (bcmp e k k')).
Proof.
  intros Ha Hb Ck Ck'. destruct Ha as [|s|w x Hx|d]; destruct Hb as [|s'|w' x' Hx'|d']; try reflexivity;
    try (exfalso; destruct Ck as [Ck|Ck]; [discriminate|]; destruct Ck' as [Ck'|Ck']; [discriminate|]; destruct c; repeat match goal with X : exists _, _ |- _ => destruct X as [? X] | X : _ /\ _ |- _ => destruct X end; discriminate).
  - cbn. destruct e; cbn; unfold str_ltb; destruct (str_cmp _ _); reflexivity.
  - cbn [key_lt bcmp]. destruct Ck as [Ck|Ck]; [discriminate|]. destruct Ck' as [Ck'|Ck']; [discriminate|].
    destruct c; [destruct Ck; discriminate| |destruct Ck as [? [? _]]; discriminate]. destruct Ck as [y [E Ny]], Ck' as [y' [E' Ny']]. injection E as <-. injection E' as <-.
    assert (O : py_lt w w' = match order w w' with Some c => Ok (cmp_holds OpLt c) | None => Raise TypeErr end) by (destruct w; try discriminate Hx; reflexivity).
    rewrite O, (order_num w w' x x' Hx Hx'). destruct (fcmp_some x x' Ny Ny') as [r ->]. destruct r; reflexivity.
  - cbn [key_lt bcmp py_lt order]. destruct Ck as [Ck|Ck]; [discriminate|]. destruct Ck' as [Ck'|Ck']; [discriminate|].
    destruct c; [destruct Ck; discriminate|destruct Ck as [? [? _]]; discriminate|]. destruct Ck as [y [E Ny]], Ck' as [y' [E' Ny']]. injection E as <-. injection E' as <-.
    rewrite dt_cmp_kind by (unfold same_kind in *; tauto). destruct (Z.compare _ _); reflexivity.
Qed.

(** ** The keys of resources *)

Lemma value_sub_find l o : value_sub l o <-> find (fun s => str_eqb (lower (r_attr (arep s))) ($"value")) l = o.
Proof.
  split.
  - induction 1 as [|a l H|a l o H _ IH]; [reflexivity| |]; cbn [find].
    + rewrite H. reflexivity.
    + rewrite (proj2 (str_eqb_neq _ _) H). exact IH.
  - revert o. induction l as [|a l IH]; intros o H; cbn [find] in H; [subst; constructor|]. destruct (str_eqb_spec (lower (r_attr (arep a))) ($"value")) as [E|E].
    + subst o. apply vs_here, E.
    + apply vs_next; [exact E | apply IH, H].
Qed.
Definition keyed_by (a : attribute) : option attribute :=
  if a_multi (info a) && is_complex a then find (fun s => str_eqb (lower (r_attr (arep s))) ($"value")) (sub_attrs a) else Some a.
Lemma key_attr_iff a o : key_attr a o <-> keyed_by a = o.
Proof. unfold key_attr, keyed_by. destruct (_ && _); [apply value_sub_find | split; congruence]. Qed.
Definition exactness (a : attribute) : bool := match keyed_by a with Some b => a_case_exact (info b) | None => false end.
Lemma exact_for_iff a e : exact_for a e <-> e = exactness a.
Proof.
  unfold exact_for, exactness. split; [intros [o [H ->]]; apply key_attr_iff in H; rewrite H; reflexivity|].
  intros ->. exists (keyed_by a). split; [apply key_attr_iff; reflexivity | reflexivity].
Qed.
Lemma blank_iff w : blank w <-> truthy w = false.
Proof.
  split; [destruct 1; reflexivity|]. destruct w; cbn; intros H; try discriminate H; try solve [constructor].
  - subst. constructor.
  - apply negb_false_iff, Z.eqb_eq in H. subst. constructor.
  - destruct f; try discriminate. apply negb_false_iff, Z.eqb_eq in H. subst. constructor.
  - destruct s; [constructor | discriminate].
  - destruct l; [constructor | discriminate].
  - destruct d; [constructor | discriminate].
Qed.
Lemma get_key_spec o w k e : basis_of o w k -> (forall b, o = Some b -> e = a_case_exact (info b)) -> stands e (get_key w o) k.
Proof.
  intros H He. unfold get_key. destruct H as [w Hb|w ->|b s -> Hn Ht|b s -> Ht|b w x -> Hb Hn Hx|b d ->].
  - apply blank_iff in Hb. rewrite Hb. constructor.
  - destruct (truthy w); constructor.
  - cbn [truthy]. destruct s; [contradiction|]. cbn [nonempty negb]. rewrite Ht, (He b eq_refl). constructor.
  - cbn [truthy]. destruct s; [constructor|]. cbn [nonempty negb]. destruct (a_type (info b)); try constructor. contradiction.
  - destruct (truthy w) eqn:E; [|exfalso; apply Hb, blank_iff, E]. destruct w; try discriminate Hn; cbn [negb]; constructor; exact Hn.
  - cbn. constructor.
Qed.
Lemma primary_spec a pre x post w : Forall not_primary pre -> get_item_str x ($"primary") = Ok (VBool true) -> get_item_str x ($"value") = Ok w ->
  primary_value a (pre ++ x :: post) = Ok (w, find (fun s => str_eqb (lower (r_attr (arep s))) ($"value")) (sub_attrs a)).
Proof.
  intros H Hp Hv. induction H as [|y pre [p [Ey Np]] _ IH]; cbn [app primary_value].
  - rewrite Hp. cbn [bind]. rewrite Hv. reflexivity.
  - rewrite Ey. cbn [bind]. rewrite IH. destruct p; try reflexivity. destruct b; [contradiction | reflexivity].
Qed.
Lemma no_primary_spec a l : Forall not_primary l -> primary_value a l = Ok (VNone, Some a).
Proof.
  induction 1 as [|y l [p [Ey Np]] _ IH]; cbn [primary_value]; [reflexivity|]. rewrite Ey. cbn [bind]. rewrite IH. destruct p; try reflexivity. destruct b; [contradiction | reflexivity].
Qed.
Lemma none_basis o k : basis_of o VNone k -> k = Nothing.
Proof. intros H. inversion H; subst; try reflexivity. discriminate. Qed.
Lemma attr_key_spec r x sc a v k : find_attr (at_all (sc_attrs sc)) r = Some a -> get_item x r = Ok v -> sorts_by a v k ->
  exists sk, attr_key r x sc = Ok sk /\ stands (exactness a) sk k.
Proof.
  intros Hf Hg [o [w [Ho [Hp Hb]]]]. apply key_attr_iff in Ho. unfold attr_key. rewrite Hf, Hg. cbn [bind].
  assert (K : forall o', o' = o \/ w = VNone -> stands (exactness a) (get_key w o') k).
  { intros o' [->| ->]; [|apply none_basis in Hb; subst k; constructor]. apply get_key_spec; [exact Hb|]. intros b ->. unfold exactness. rewrite Ho. reflexivity. }
  unfold keyed_by in Ho. destruct Hp as [|v Hm|x0 l Hm Hc|pre x0 post w Hm Hc H1 H2 H3|l Hm Hc H1].
  - cbn [is_missing negb andb]. eexists. split; [reflexivity|]. pose proof (none_basis _ _ Hb). subst k. constructor.
  - rewrite Hm, andb_false_r. eexists. split; [reflexivity|]. apply K. left. rewrite Hm in Ho. exact Ho.
  - cbn [is_missing negb andb]. rewrite Hm, Hc. cbn [index0 bind]. eexists. split; [reflexivity|]. apply K. left. rewrite Hm, Hc in Ho. exact Ho.
  - cbn [is_missing negb andb]. rewrite Hm, Hc. cbn [iter_value bind]. rewrite (primary_spec a pre x0 post w H1 H2 H3). cbn [bind]. eexists. split; [reflexivity|].
    apply K. left. rewrite Hm, Hc in Ho. exact Ho.
  - cbn [is_missing negb andb]. rewrite Hm, Hc. cbn [iter_value bind]. rewrite (no_primary_spec a l H1). cbn [bind]. eexists. split; [reflexivity|]. apply K. right. reflexivity.
Qed.
Lemma falsy_nothing a v k : truthy v = false -> sorts_by a v k -> k = Nothing.
Proof.
  intros Hv [o [w [_ [Hp Hb]]]]. destruct Hp as [|v Hm|x l Hm Hc|pre x post w Hm Hc H1 H2 H3|l Hm Hc H1]; try (apply none_basis in Hb; exact Hb).
  - apply blank_iff in Hv. inversion Hb; subst; try reflexivity; inversion Hv; subst; contradiction.
  - discriminate.
  - destruct pre; discriminate.
Qed.

Lemma any_value_spec r data : Forall (fun x => exists v, get_item x r = Ok v) data ->
  exists b, any_value r data = Ok b /\ (b = false -> Forall (fun x => exists v, get_item x r = Ok v /\ truthy v = false) data).
Proof.
  induction 1 as [|x data [v Hv] _ [b [IH1 IH2]]]; [exists false; split; [reflexivity | constructor]|]. cbn [any_value]. rewrite Hv. cbn [bind].
  destruct (truthy v) eqn:E; [exists true; split; [reflexivity | discriminate]|]. exists b. split; [exact IH1|]. intros Hb. constructor; [eauto | apply IH2, Hb].
Qed.

(** The schemas of the resources: a single one. *)
Inductive all_of (sc : schema) : sort_schema -> Prop :=
| ao_one : all_of sc (OneSchema sc)
| ao_many n k : all_of sc (ManySchemas (repeat (Some (n, sc)) (S k))).
Lemma all_of_single sc s : all_of sc s -> single_schema s = OneSchema sc.
Proof.
  intros [|n k]; [reflexivity|]. cbn [repeat single_schema]. replace (forallb _ (repeat _ k)) with true; [reflexivity|]. symmetry. apply forallb_forall.
  intros e He. apply repeat_spec in He. subst e. apply Nat.eqb_refl.
Qed.

Section Keys.
  Context (r : attr_rep) (sc : schema) (a : attribute).
  Hypothesis Ha : find_attr (at_all (sc_attrs sc)) r = Some a.
  Definition has_basis (x : value) (k : basis) : Prop := exists v, get_item x r = Ok v /\ sorts_by a v k.

  Lemma keyed_spec : forall (data : list value) (ks : list basis), Forall2 has_basis data ks -> forall n (f : nat * value -> res skey),
    (forall i x, f (i, x) = attr_key r x sc) ->
    exists keyed, mapM (fun e => let! k := f e in Ok (k, e)) (enum_from n data) = Ok keyed /\ map snd keyed = enum_from n data
      /\ Forall (fun p => n <= fst (snd p) /\ stands (exactness a) (fst p) (nth (fst (snd p) - n) ks Nothing)) keyed.
  Proof.
    induction 1 as [|x k data ks [v [Hg Hs]] _ IH]; intros n f Hf; [exists []; repeat split; constructor|]. cbn [enum_from mapM]. rewrite Hf.
    destruct (attr_key_spec r x sc a v k Ha Hg Hs) as [sk [-> St]]. cbn [bind]. destruct (IH (S n) f Hf) as [keyed [-> [E F]]]. cbn [bind].
    exists ((sk, (n, x)) :: keyed). split; [reflexivity|]. split; [cbn [map snd]; rewrite E; reflexivity|]. constructor.
    - cbn [fst snd]. split; [lia|]. rewrite Nat.sub_diag. exact St.
    - revert F. apply Forall_impl. intros [sk' [i y]] [H1 H2]. cbn [fst snd] in *. split; [lia|]. replace (i - n) with (S (i - S n)) by lia. exact H2.
  Qed.
  Lemma sort_known so data ks s : so_rep so = r -> all_of sc s -> Forall2 has_basis data ks -> uniform ks ->
    exists out, sort_tagged so data s = Ok out /\ Permutation (enumerate data) out /\ StronglySorted (comes_before (exactness a) (so_asc so) ks) out.
  Proof.
    intros Hr Hs H Hu. unfold sort_tagged. rewrite Hr, (all_of_single sc s Hs). destruct (any_value_spec r data) as [b [-> Hb]].
    { clear Hu. induction H as [|x k data ks [v [Hg _]] _ IH]; constructor; eauto. }
    cbn [bind]. destruct b; cbn [negb].
    2: { exists (enumerate data). split; [reflexivity|]. split; [reflexivity|]. specialize (Hb eq_refl).
         assert (N : forall i, nth i ks Nothing = Nothing).
         { clear Hu. induction H as [|x k data ks [v [Hg Hs']] _ IH]; intros i; [destruct i; reflexivity|]. inversion Hb as [|? ? [v' [Hg' Hv']] Hb']; subst.
           destruct i; cbn [nth]; [|apply IH, Hb']. assert (v' = v) by congruence. subst v'. exact (falsy_nothing a v k Hv' Hs'). }
         destruct (enum_sorted data 0) as [S _]. revert S. apply sorted_impl. intros p q _ _ L. unfold comes_before. cbv zeta. rewrite !N. right. split; [exact I | exact L]. }
    destruct (keyed_spec data ks H 0 (fun e => item_key r (OneSchema sc) data (fst e) (snd e)) (fun i x => eq_refl)) as [keyed [E [Em F]]].
    unfold enumerate. rewrite E. cbn [bind]. apply uniform_kind in Hu as [c Hc].
    set (P := fun sk => exists k, stands (exactness a) sk k /\ in_kind c k).
    assert (Kn : forall i, in_kind c (nth i ks Nothing)).
    { intros i. destruct (nth_in_or_default i ks Nothing) as [Hi|Hi]; [rewrite Forall_forall in Hc; apply Hc, Hi | rewrite Hi; left; reflexivity]. }
    assert (L : forall x y k k', stands (exactness a) x k -> stands (exactness a) y k' -> in_kind c k -> in_kind c k' -> ltb x y = is_lt (bcmp (exactness a) k k')).
    { intros x y k k' H1 H2 H3 H4. unfold ltb. rewrite (key_lt_spec (exactness a) c x y k k') by assumption; reflexivity. }
    destruct (py_sorted_spec P ltb (@fst nat value)) with (l := keyed) (reverse := negb (so_asc so)) as [l' [-> [Pm S]]].
    - intros x y [k [H1 H2]] [k' [H3 H4]]. unfold ltb. rewrite (key_lt_spec (exactness a) c x y k k') by assumption; reflexivity.
    - intros x y [k [H1 H2]] [k' [H3 H4]]. rewrite (L x y k k'), (L y x k' k), (bcmp_sym (exactness a) k k') by assumption. destruct (bcmp _ k k'); cbn; congruence.
    - intros x y z [k1 [A1 B1]] [k2 [A2 B2]] [k3 [A3 B3]]. rewrite (L y x k2 k1), (L z y k3 k2), (L z x k3 k1) by assumption.
      pose proof (bcmp_trans (exactness a) c k1 k2 k3 B1 B2 B3) as T. rewrite (bcmp_sym (exactness a) k1 k2), (bcmp_sym (exactness a) k2 k3), (bcmp_sym (exactness a) k1 k3).
      destruct (bcmp _ k1 k2), (bcmp _ k2 k3), (bcmp _ k1 k3); cbn; try congruence; intros _ _; exfalso; apply T; congruence.
    - revert F. apply Forall_impl. intros [sk [i x]] [_ H1]. cbn [fst snd] in *. rewrite Nat.sub_0_r in H1. exists (nth i ks Nothing). auto.
    - apply (sorted_map snd (fun p q : nat * value => fst p < fst q)). rewrite Em. apply enum_sorted.
    - exists (map snd l'). split; [reflexivity|]. split; [rewrite <- Em; apply Permutation_map, Pm|].
      apply (sorted_map snd). rewrite Forall_forall in F.
      revert S. apply sorted_impl. intros p q Hp Hq. pose proof (Permutation_in _ (Permutation_sym Pm) Hp) as Ip. pose proof (Permutation_in _ (Permutation_sym Pm) Hq) as Iq.
      destruct (F _ Ip) as [_ Sp], (F _ Iq) as [_ Sq]. rewrite Nat.sub_0_r in Sp, Sq. unfold put, comes_before. cbv zeta.
      set (kp := nth (fst (snd p)) ks Nothing) in *. set (kq := nth (fst (snd q)) ks Nothing) in *.
      assert (Kp : in_kind c kp) by apply Kn. assert (Kq : in_kind c kq) by apply Kn.
      rewrite (L (fst p) (fst q) kp kq), (L (fst q) (fst p) kq kp) by assumption.
      pose proof (bcmp_less (exactness a) c kp kq Kp Kq) as L1. pose proof (bcmp_less (exactness a) c kq kp Kq Kp) as L2. pose proof (bcmp_alike (exactness a) c kp kq Kp Kq) as L3.
      pose proof (bcmp_sym (exactness a) kp kq) as Sy.
      intros [H1|[H1 [H2 H3]]].
      + left. clear Sy. destruct (so_asc so); cbn [negb] in H1; [apply L1; destruct (bcmp (exactness a) kp kq) | apply L2; destruct (bcmp (exactness a) kq kp)]; cbn in H1; congruence.
      + right. split; [|exact H3]. apply L3. rewrite Sy in H2. destruct (bcmp _ kp kq); cbn in *; congruence.
  Qed.
End Keys.

(** ** Whatever the keys *)

Lemma insert_perm {A} (x : skey * A) l : forall l', insert_key x l = Ok l' -> Permutation (x :: l) l'.
Proof.
  induction l as [|y t IH]; intros l' H; cbn [insert_key] in H; [injection H as <-; reflexivity|]. destruct (key_lt _ _) as [[|]|]; cbn [bind] in H; try discriminate.
  - destruct (insert_key x t) as [t'|]; cbn [bind] in H; [|discriminate]. injection H as <-. rewrite perm_swap. constructor. apply IH. reflexivity.
  - injection H as <-. reflexivity.
Qed.
Lemma sort_perm {A} (l : list (skey * A)) : forall l', sort_keys l = Ok l' -> Permutation l l'.
Proof.
  induction l as [|x t IH]; intros l' H; cbn [sort_keys] in H; [injection H as <-; constructor|]. destruct (sort_keys t) as [t'|]; cbn [bind] in H; [|discriminate].
  apply insert_perm in H. rewrite <- H. constructor. apply IH. reflexivity.
Qed.
Lemma py_sorted_perm {A} (l : list (skey * A)) reverse l' : py_sorted l reverse = Ok l' -> Permutation (map snd l) l'.
Proof.
  unfold py_sorted. destruct reverse.
  - destruct (sort_keys (rev l)) as [m|] eqn:E; cbn [bind]; [|discriminate]. intros H. injection H as <-. apply sort_perm in E. rewrite <- map_rev. apply Permutation_map.
    transitivity (rev l); [apply Permutation_rev | rewrite E; apply Permutation_rev].
  - destruct (sort_keys l) as [m|] eqn:E; cbn [bind]; [|discriminate]. intros H. injection H as <-. apply sort_perm in E. apply Permutation_map, E.
Qed.
Lemma mapM_snd {A} (f : A -> res skey) l : forall m, mapM (fun e => let! k := f e in Ok (k, e)) l = Ok m -> map snd m = l /\ Forall (fun p => f (snd p) = Ok (fst p)) m.
Proof.
  induction l as [|x l IH]; intros m H; cbn [mapM] in H; [injection H as <-; split; [reflexivity | constructor]|]. destruct (f x) as [k|] eqn:E; cbn [bind] in H; [|discriminate].
  destruct (mapM _ l) as [m'|]; cbn [bind] in H; [|discriminate]. injection H as <-. destruct (IH _ eq_refl) as [E' F]. split; [cbn [map snd]; rewrite E'; reflexivity | constructor; [exact E | exact F]].
Qed.
Lemma tagged_perm so data s out : sort_tagged so data s = Ok out -> Permutation (enumerate data) out.
Proof.
  unfold sort_tagged. destruct (any_value _ _) as [[|]|]; cbn [bind negb]; try discriminate; [|intros H; injection H as <-; reflexivity].
  destruct (mapM _ _) as [m|] eqn:E; cbn [bind]; [|discriminate]. intros H. apply py_sorted_perm in H. apply mapM_snd in E as [E _]. rewrite E in H. exact H.
Qed.

(** Items without a key go to the end, in their order. *)
Definition is_last {A} (p : skey * A) : bool := match fst p with KLast => true | _ => false end.
Lemma last_lt k : k <> KLast -> key_lt k KLast = Ok true /\ key_lt KLast k = Ok false.
Proof. destruct k; [contradiction| |]; auto. Qed.
Lemma is_last_iff {A} (p : skey * A) : is_last p = true <-> fst p = KLast.
Proof. unfold is_last. destruct (fst p); split; congruence. Qed.
Lemma insert_last {A} (x : skey * A) a b : Forall (fun p => is_last p = false) a -> Forall (fun p => is_last p = true) b -> forall l', insert_key x (a ++ b) = Ok l' ->
  if is_last x then l' = a ++ x :: b else exists a', l' = a' ++ b /\ Permutation (x :: a) a'.
Proof.
  intros Ha Hb. induction Ha as [|y a Hy Ha IH]; intros l' H.
  - cbn [app] in H. assert (E : l' = x :: b).
    { destruct Hb as [|z b Hz Hb]; cbn [insert_key] in H; [congruence|]. apply is_last_iff in Hz. rewrite Hz in H. cbn [key_lt bind] in H. congruence. }
    destruct (is_last x); [exact E | exists [x]; split; [exact E | reflexivity]].
  - cbn [app insert_key] in H. destruct (is_last x) eqn:Ex.
    + pose proof (proj1 (is_last_iff x) Ex) as Kx. assert (Ny : fst y <> KLast) by (intros E; apply is_last_iff in E; congruence). rewrite Kx, (proj1 (last_lt _ Ny)) in H. cbn [bind] in H.
      destruct (insert_key x (a ++ b)) as [t'|]; cbn [bind] in H; [|discriminate]. injection H as <-. rewrite (IH _ eq_refl). reflexivity.
    + destruct (key_lt (fst y) (fst x)) as [[|]|]; cbn [bind] in H; try discriminate.
      * destruct (insert_key x (a ++ b)) as [t'|]; cbn [bind] in H; [|discriminate]. injection H as <-. destruct (IH _ eq_refl) as [a' [-> P]]. exists (y :: a'). split; [reflexivity|].
        rewrite perm_swap. constructor. exact P.
      * injection H as <-. exists (x :: y :: a). split; reflexivity.
Qed.
Lemma sort_last {A} (l : list (skey * A)) : forall l', sort_keys l = Ok l' ->
  exists a, l' = a ++ filter is_last l /\ Permutation (filter (fun p => negb (is_last p)) l) a.
Proof.
  induction l as [|x t IH]; intros l' H; cbn [sort_keys] in H; [injection H as <-; exists []; split; [reflexivity | constructor]|].
  destruct (sort_keys t) as [t'|]; cbn [bind] in H; [|discriminate]. destruct (IH _ eq_refl) as [a [-> P]]. apply insert_last in H.
  - cbn [filter]. destruct (is_last x); cbn [negb]; [exists a; auto|]. destruct H as [a' [-> P']]. exists a'. split; [reflexivity|]. rewrite <- P'. constructor. exact P.
  - rewrite <- P. apply Forall_forall. intros p Hp. apply filter_In in Hp as [_ Hp]. apply negb_true_iff, Hp.
  - apply Forall_forall. intros p Hp. apply filter_In in Hp as [_ Hp]. exact Hp.
Qed.

(** Sorting twice. *)
Definition adjacent {A} (l : list (skey * A)) : Prop := Sorted (fun p q => key_lt (fst q) (fst p) = Ok false) l.
Lemma adjacent_fixed {A} (l : list (skey * A)) : adjacent l -> sort_keys l = Ok l.
Proof.
  induction 1 as [|x t S IH H]; [reflexivity|]. cbn [sort_keys]. rewrite IH. cbn [bind]. destruct H as [|y t H]; [reflexivity|]. cbn [insert_key]. rewrite H. reflexivity.
Qed.
Lemma insert_adjacent {A} (x : skey * A) l : (forall y, In y l -> key_lt (fst y) (fst x) = Ok true -> key_lt (fst x) (fst y) = Ok false) -> adjacent l ->
  forall l', insert_key x l = Ok l' -> adjacent l' /\ forall y, hd_error l' = Some y -> y = x \/ hd_error l = Some y.
Proof.
  induction l as [|y t IH]; intros As S l' H; cbn [insert_key] in H; [injection H as <-; split; [repeat constructor | intros y E; injection E as <-; auto]|].
  destruct (key_lt (fst y) (fst x)) as [[|]|] eqn:E; cbn [bind] in H; try discriminate.
  - destruct (insert_key x t) as [t'|]; cbn [bind] in H; [|discriminate]. injection H as <-. inversion S as [|? ? St Hd]; subst.
    destruct (IH (fun z Hz => As z (or_intror Hz)) St _ eq_refl) as [S' Hh]. split; [|cbn; auto].
    constructor; [exact S'|]. destruct t' as [|z t']; constructor. destruct (Hh z eq_refl) as [->|Hz]; [apply As; [left; reflexivity | exact E]|].
    destruct t as [|z' t]; [discriminate|]. injection Hz as ->. inversion Hd. assumption.
  - injection H as <-. split; [|cbn; auto; intros z Hz; injection Hz as <-; auto]. constructor; [exact S | constructor; exact E].
Qed.
Lemma sort_adjacent {A} (l : list (skey * A)) : (forall x y, In x l -> In y l -> key_lt (fst y) (fst x) = Ok true -> key_lt (fst x) (fst y) = Ok false) ->
  forall l', sort_keys l = Ok l' -> adjacent l'.
Proof.
  induction l as [|x t IH]; intros As l' H; cbn [sort_keys] in H; [injection H as <-; constructor|]. destruct (sort_keys t) as [t'|] eqn:E; cbn [bind] in H; [|discriminate].
  apply insert_adjacent in H; [apply H| |].
  - intros y Hy. apply As; [left; reflexivity|]. right. apply sort_perm in E. exact (Permutation_in _ (Permutation_sym E) Hy).
  - apply IH; [|reflexivity]. intros a b Ha Hb. apply As; right; assumption.
Qed.
Lemma order_sym a b c : order a b = Some c -> order b a = Some (option_map CompOpp c).
Proof.
  unfold order. destruct a as [| | |x|x|x|s|d| | | | | | | | |], b as [| | |y|y|y|t|d'| | | | | | | | |]; cbn [num_of]; try discriminate;
    try (intros H; injection H as <-; rewrite fcmp_sym; reflexivity).
  - intros H. injection H as <-. cbn. rewrite str_cmp_sym. reflexivity.
  - destruct (same_kind_dec d d') as [K|K]; [|rewrite (dt_cmp_other _ _ K); discriminate]. rewrite (dt_cmp_kind _ _ K), (dt_cmp_kind d' d) by (unfold same_kind in *; tauto).
    intros H. injection H as <-. cbn. rewrite Z.compare_antisym. reflexivity.
Qed.
Lemma key_lt_asym a b : (forall l, a <> KVal (VList l)) -> (forall l, b <> KVal (VList l)) -> key_lt a b = Ok true -> key_lt b a = Ok false.
Proof.
  destruct a as [|s e|v], b as [|t e'|w]; cbn [key_lt]; intros Ha Hb H; try discriminate H; try reflexivity.
  - f_equal. injection H as H. rewrite (orb_comm e' e). unfold str_ltb in *. destruct (e || e').
    + rewrite (str_cmp_sym s t). destruct (str_cmp s t); try discriminate; reflexivity.
    + rewrite (str_cmp_sym (lower s) (lower t)). destruct (str_cmp (lower s) (lower t)); try discriminate; reflexivity.
  - assert (P : forall v w, (forall l, KVal v <> KVal (VList l)) -> py_lt v w = match order v w with Some c => Ok (cmp_holds OpLt c) | None => Raise TypeErr end).
    { intros v' w' N. destruct v'; try reflexivity. exfalso. eapply N. reflexivity. }
    rewrite P in H |- * by assumption. destruct (order v w) as [c|] eqn:E; [|discriminate]. rewrite (order_sym _ _ _ E). destruct c as [[| |]|]; try discriminate H. reflexivity.
Qed.
