(** Equality of filters. *)
From Verif Require Import PyBase BaseFacts PyNum NumFacts Issues AttrRep AttrRepSpec AttrRepFacts Value Container ContainerSpec ContainerFacts ContainerEq PropContainer Types Attr Match MatchFacts
  FilterParse FilterSpec FilterText FilterTotal FilterTree FilterRound.

Section OperInd.
  Variable P : oper -> Prop.
  Hypothesis H1 : forall r, P (OPresent r).
  Hypothesis H2 : forall b r l, P (OBin b r l).
  Hypothesis H3 : forall r o, P o -> P (OComplex r o).
  Hypothesis H4 : forall l, Forall P l -> P (OAnd l).
  Hypothesis H5 : forall l, Forall P l -> P (OOr l).
  Hypothesis H6 : forall o, P o -> P (ONot o).
  Hypothesis H7 : P ONone.
  Fixpoint oper_rect' (o : oper) : P o :=
    match o with
    | OPresent r => H1 r
    | OBin b r l => H2 b r l
    | OComplex r o => H3 r o (oper_rect' o)
    | OAnd l => H4 l ((fix go l := match l return Forall P l with [] => Forall_nil _ | x :: t => Forall_cons x (oper_rect' x) (go t) end) l)
    | OOr l => H5 l ((fix go l := match l return Forall P l with [] => Forall_nil _ | x :: t => Forall_cons x (oper_rect' x) (go t) end) l)
    | ONot o => H6 o (oper_rect' o)
    | ONone => H7
    end.
End OperInd.

(** ** The container of a filter *)

Definition cont_of (d : list (str * value)) : value := VCont d (map (fun e => (lower (fst e), fst e)) d).
Definition op_of (o : oper) : str :=
  match o with OPresent _ => $"pr" | OBin b _ _ => op_word b | OComplex _ _ => $"complex" | OAnd _ => $"and" | OOr _ => $"or" | ONot _ => $"not" | ONone => [] end.
Fixpoint doc (o : oper) : value :=
  let op := ($"op", VStr (op_of o)) in
  match o with
  | OPresent r => cont_of [op; ($"attr_rep", VStr (rep_text r))]
  | OBin b r l => cont_of [op; ($"attr_rep", VStr (rep_text r)); ($"value", v_of_lit l)]
  | OComplex r s => cont_of [op; ($"attr_rep", VStr (rep_text r)); ($"sub_op", doc s)]
  | OAnd l | OOr l => cont_of [op; ($"sub_ops", VList (map doc l))]
  | ONot s => cont_of [op; ($"sub_op", doc s)]
  | ONone => VNone
  end.
Lemma doc_dict : forall o, regular o -> exists d, oper_to_dict o = Ok (VDict d) /\ mk_cont (VDict d) = doc o.
Proof.
  assert (L : forall l, Forall (fun o => regular o -> exists d, oper_to_dict o = Ok (VDict d) /\ mk_cont (VDict d) = doc o) l -> Forall regular l ->
    exists ds, (fix go (l : list oper) : res (list value) := match l with [] => Ok [] | s :: t => let! d := oper_to_dict s in let! ds := go t in Ok (d :: ds) end) l = Ok ds
      /\ (fix items (l : list value) : list value := match l with [] => [] | y :: t' => match y with VDict _ => mk_cont y | _ => y end :: items t' end) ds = map doc l).
  { intros l IH H. induction H as [|o l Ho _ IHl]; [exists []; split; reflexivity|]. inversion IH as [|? ? I1 I2]; subst. destruct (I1 Ho) as [d [E D]]. destruct (IHl I2) as [ds [Es Ds]].
    exists (VDict d :: ds). rewrite E. cbn [bind]. rewrite Es. split; [reflexivity|]. rewrite Ds. cbn [map]. rewrite <- D. reflexivity. }
  induction o as [r|b r l|r o IH|l IH|l IH|o IH|] using oper_rect'; intros H; inversion H; subst.
  - eexists. split; [reflexivity|]. reflexivity.
  - eexists. split; [reflexivity|]. destruct b, l; reflexivity.
  - destruct (IH ltac:(assumption)) as [d [E D]]. cbn [oper_to_dict]. rewrite E. eexists. split; [reflexivity|]. cbn [doc]. rewrite <- D. reflexivity.
  - destruct (L l IH ltac:(assumption)) as [ds [E D]]. cbn [oper_to_dict]. rewrite E. eexists. split; [reflexivity|]. cbn [doc]. rewrite <- D. reflexivity.
  - destruct (L l IH ltac:(assumption)) as [ds [E D]]. cbn [oper_to_dict]. rewrite E. eexists. split; [reflexivity|]. cbn [doc]. rewrite <- D. reflexivity.
  - destruct (IH ltac:(assumption)) as [d [E D]]. cbn [oper_to_dict]. rewrite E. eexists. split; [reflexivity|]. cbn [doc]. rewrite <- D. reflexivity.
Qed.

Lemma clean_of d : Forall (fun e => attr_ok (fst e)) d -> NoDup (map (fun e => lower (fst e)) d) -> Forall (fun e => clean (snd e)) d -> clean (cont_of d).
Proof.
  intros H1 H2 H3. apply clean_cont; try assumption. apply index_tac_lemma; rewrite ?map_map; try reflexivity. exact H2.
Qed.
Lemma key_ok k : In k [$"op"; $"attr_rep"; $"value"; $"sub_op"; $"sub_ops"] -> attr_ok k.
Proof. intros H. left. cbn in H. repeat (destruct H as [<-|H]; [split; [discriminate | repeat constructor]|]). contradiction. Qed.
Lemma lit_clean l : l <> LitFloat FNan -> clean (v_of_lit l).
Proof. intros H. apply clean_scalar. destruct l; cbn; try exact I. intros ->. apply H. reflexivity. Qed.
Ltac keys_tac := repeat (apply Forall_cons; [apply key_ok; cbn [fst In]; repeat (first [left; reflexivity | right])|]); apply Forall_nil.
Ltac distinct_tac := cbn [map fst]; repeat (apply NoDup_cons; [intros X; cbn in X; repeat (destruct X as [X|X]; [discriminate|]); contradiction|]); apply NoDup_nil.
Lemma doc_clean : forall o, regular o -> clean (doc o).
Proof.
  assert (L : forall l, Forall (fun o => regular o -> clean (doc o)) l -> Forall regular l -> clean (VList (map doc l))).
  { intros l IH H. apply clean_list, Forall_map. rewrite Forall_forall in *. auto. }
  assert (S : forall s, clean (VStr s)) by (intros s; apply clean_scalar; exact I).
  induction o as [r|b r l|r o IH|l IH|l IH|o IH|] using oper_rect'; intros H; inversion H; subst; cbn [doc]; (apply clean_of; [keys_tac|distinct_tac|
    repeat (apply Forall_cons; [cbn [snd]; first [apply S | apply lit_clean; assumption | apply IH; assumption | apply L; assumption]|]); apply Forall_nil]).
Qed.

(** ** What equality of containers says about filters *)

Lemma covered_fields ks xs ys m m' : NoDup (map lower ks) -> length xs = length ks -> length ys = length ks ->
  (covered (VCont (List.combine ks xs) m) (VCont (List.combine ks ys) m') <-> Forall2 covered ys xs).
Proof.
  intros Hk Hx Hy. split.
  - intros H. pose proof (covered_inv_cont _ _ _ _ H) as C. clear H. revert xs ys Hx Hy C.
    assert (G : forall ks', incl ks' ks -> NoDup (map lower ks') -> forall xs ys, length xs = length ks' -> length ys = length ks' ->
       (forall k x, In (k, x) (List.combine ks' xs) -> exists k' y, In (k', y) (List.combine ks' ys) /\ same_text k k' /\ covered y x) -> Forall2 covered ys xs).
    { intros ks' _. induction ks' as [|k ks' IH]; intros Hk' xs ys Hx Hy C; destruct xs as [|x xs], ys as [|y ys]; try discriminate; [constructor|].
      inversion Hk' as [|? ? Hn Hd]; subst. cbn [List.combine] in C. constructor.
      - destruct (C k x (or_introl eq_refl)) as [k' [y' [[E|Hin] [Hs Hc]]]]; [injection E as <- <-; exact Hc|]. exfalso. apply Hn. apply in_combine_l in Hin. unfold same_text in Hs. rewrite Hs. apply in_map. exact Hin.
      - apply IH; [exact Hd | injection Hx as ->; reflexivity | injection Hy as ->; reflexivity|]. intros k0 x0 Hin. destruct (C k0 x0 (or_intror Hin)) as [k' [y' [[E|Hin'] [Hs Hc]]]]; [|eauto].
        exfalso. injection E as <- <-. apply Hn. unfold same_text in Hs. rewrite <- Hs. apply in_map. apply in_combine_l in Hin. exact Hin. }
    intros xs ys Hx Hy C. apply (G ks); try assumption. apply incl_refl.
  - intros H. apply cv_cont. clear Hk. revert ks Hx Hy. induction H as [|y x ys xs Hc _ IH]; intros ks Hx Hy k x0 Hin; [destruct ks; contradiction|].
    destruct ks as [|k0 ks]; [discriminate|]. cbn [List.combine] in *. destruct Hin as [E|Hin].
    + injection E as -> ->. exists k, y. split; [left; reflexivity|]. split; [reflexivity | exact Hc].
    + destruct (IH ks ltac:(injection Hx as ->; reflexivity) ltac:(injection Hy as ->; reflexivity) k x0 Hin) as [k' [y' [A B]]]. exists k', y'. split; [right; exact A | exact B].
Qed.
Lemma covered_str s t : covered (VStr s) (VStr t) <-> s = t.
Proof. split; [intros H; inversion H; subst; assumption | intros ->; apply cv_scalar; exact I || reflexivity]. Qed.
Lemma covered_op s t d d' m m' : ~ In ($"op") (map (fun e => lower (fst e)) d') -> covered (VCont (($"op", VStr s) :: d) m) (VCont (($"op", VStr t) :: d') m') -> s = t.
Proof.
  intros N H. destruct (covered_inv_cont _ _ _ _ H ($"op") (VStr s) (or_introl eq_refl)) as [k [y [[E|Hin] [Hs Hc]]]].
  - injection E as <- <-. apply covered_str in Hc. auto.
  - exfalso. apply N. apply in_map_iff. exists (k, y). split; [symmetry; exact Hs | exact Hin].
Qed.
Lemma doc_op a b : regular a -> regular b -> covered (doc a) (doc b) -> op_of a = op_of b.
Proof.
  assert (D : forall o, regular o -> exists d, doc o = cont_of (($"op", VStr (op_of o)) :: d) /\ ~ In ($"op") (map (fun e => lower (fst e)) d)).
  { intros o H. destruct H; eexists; (split; [reflexivity|]); intros X; cbn in X; repeat (destruct X as [X|X]; [discriminate|]); contradiction. }
  intros Ha Hb H. destruct (D a Ha) as [d [Ea _]], (D b Hb) as [d' [Eb N]]. rewrite Ea, Eb in H. unfold cont_of in H. cbn [map] in H. apply covered_op in H; assumption.
Qed.

Lemma plain_rep_text r : plain_rep r -> parse_rep (rep_text r) = Some r.
Proof.
  intros [Hs [He [s [segs [Hn Hj]]]]]. assert (E : rep_text r = s).
  { unfold rep_text, attr_with_schema. rewrite Hs, Hj. destruct Hn as [H1 [_ [_ ->]]]. rewrite app_nil_r. destruct segs as [|x segs]; [reflexivity|]. rewrite terminated_joined by discriminate. rewrite <- app_assoc. cbn [app].
    destruct (joined (x :: segs)) eqn:Ej; [apply joined_nil in Ej; [discriminate | exact H1] | reflexivity]. }
  rewrite E, (names_parse _ _ _ _ Hn). destruct r as [sc at_ su ex]. cbn in *. subst. reflexivity.
Qed.
Lemma rep_text_inj r r' : plain_rep r -> plain_rep r' -> rep_text r = rep_text r' -> r = r'.
Proof. intros H H' E. apply plain_rep_text in H. apply plain_rep_text in H'. rewrite E in H. congruence. Qed.

Lemma same_scalar_lit l l' : l <> LitFloat FNan -> l' <> LitFloat FNan -> (same_scalar (v_of_lit l) (v_of_lit l') <-> same_lit l l').
Proof.
  intros H H'. split.
  - assert (N : forall u w, lit_number l = Some u -> lit_number l' = Some w -> (forall b, u = FInf b -> l = LitFloat u) -> (forall b, w = FInf b -> l' = LitFloat w) -> same_number u w -> same_lit l l').
    { intros u w E E' I I' S. destruct u as [m e|b|], w as [m' e'|b'|]; cbn in S; try contradiction.
      - destruct S as [k [K1 [K2 K3]]]. eapply sl_num; eassumption.
      - subst b'. rewrite (I b eq_refl), (I' b eq_refl). constructor. }
    intros S. destruct l as [|b|z|f|s], l' as [|b'|z'|f'|s']; try (destruct b; contradiction S); try (destruct b'; contradiction S); try contradiction S;
      first [solve [subst; constructor] | solve [cbn in S; subst; constructor]
      | solve [refine (N _ _ eq_refl eq_refl _ _ _); [intros ? X; (discriminate X || reflexivity) | intros ? X; (discriminate X || reflexivity) | repeat match goal with b : bool |- _ => destruct b end; exact S]] | idtac].
  - intros S. destruct S as [| s | l l' m e m' e' k E E' K1 K2 K3 | b]; cbn; try exact I; try reflexivity.
    destruct l as [|b|z|f|s], l' as [|b'|z'|f'|s']; try discriminate; cbn [v_of_lit same_scalar number];
      repeat match goal with b : bool |- _ => destruct b end; inversion E; inversion E'; subst; exists k; auto.
Qed.

Lemma covered_lit l l' : l <> LitFloat FNan -> l' <> LitFloat FNan -> (covered (v_of_lit l') (v_of_lit l) <-> same_lit l' l).
Proof.
  intros H H'. rewrite <- same_scalar_lit by assumption. split.
  - intros C. inversion C as [? ? _ _ S E1 E2|? ? _ E1 E2|? ? ? ? _ E1 E2]; subst; [exact S | |]; destruct l'; discriminate.
  - intros C. apply cv_scalar; [| |exact C]; [destruct l' | destruct l]; cbn; try exact I; intros ->; [apply H' | apply H]; reflexivity.
Qed.
Lemma same_lit_sym l l' : same_lit l l' -> same_lit l' l.
Proof. intros H. destruct H; try constructor. eapply sl_num; eauto. Qed.
Lemma same_filter_sym : forall a b, same_filter a b -> same_filter b a.
Proof.
  assert (L : forall l l', Forall (fun a => forall b, same_filter a b -> same_filter b a) l -> Forall2 same_filter l l' -> Forall2 same_filter l' l).
  { intros l l' IH H. induction H; [constructor|]. inversion IH; subst. constructor; auto. }
  induction a as [r|b r l|r o IH|l IH|l IH|o IH|] using oper_rect'; intros c H; inversion H; subst; constructor; auto. apply same_lit_sym. assumption.
Qed.

Ltac nd := repeat (apply NoDup_cons; [intros X; cbn in X; repeat (destruct X as [X|X]; [discriminate|]); contradiction|]); apply NoDup_nil.
Lemma keys2 k : NoDup (map lower [$"op"; k]) \/ lower k = $"op".
Proof. destruct (str_eqb_spec (lower k) ($"op")) as [E|E]; [right; exact E | left]. cbn [map]. apply NoDup_cons; [intros [X|[]]; apply E; rewrite X; reflexivity|]. apply NoDup_cons; [intros []|apply NoDup_nil]. Qed.

(** The fields of documents of the same operator. *)
Lemma same_fields ks xs ys : NoDup (map lower ks) -> length xs = length ks -> length ys = length ks -> (covered (cont_of (List.combine ks xs)) (cont_of (List.combine ks ys)) <-> Forall2 covered ys xs).
Proof. apply covered_fields. Qed.
Lemma forall2_2 {A} (R : A -> A -> Prop) a b c d : Forall2 R [a; b] [c; d] <-> R a c /\ R b d.
Proof. split; [intros H; inversion H as [|? ? ? ? H1 H2]; inversion H2; subst; auto | intros [H1 H2]; auto]. Qed.
Lemma forall2_3 {A} (R : A -> A -> Prop) a b c d e f : Forall2 R [a; b; c] [d; e; f] <-> R a d /\ R b e /\ R c f.
Proof. split; [intros H; inversion H as [|? ? ? ? X1 X2]; inversion X2 as [|? ? ? ? X3 X4]; inversion X4; subst; auto | intros [X1 [X2 X3]]; auto]. Qed.
Lemma doc_present r r' : covered (doc (OPresent r)) (doc (OPresent r')) <-> rep_text r' = rep_text r.
Proof.
  cbn [doc op_of]. rewrite (same_fields [$"op"; $"attr_rep"] [VStr ($"pr"); VStr (rep_text r)] [VStr ($"pr"); VStr (rep_text r')]) by (nd || reflexivity).
  rewrite forall2_2, !covered_str. tauto.
Qed.
Lemma doc_bin b r l r' l' : covered (doc (OBin b r l)) (doc (OBin b r' l')) <-> rep_text r' = rep_text r /\ covered (v_of_lit l') (v_of_lit l).
Proof.
  cbn [doc op_of]. rewrite (same_fields [$"op"; $"attr_rep"; $"value"] [VStr (op_word b); VStr (rep_text r); v_of_lit l] [VStr (op_word b); VStr (rep_text r'); v_of_lit l']) by (nd || reflexivity).
  rewrite forall2_3, !covered_str. tauto.
Qed.
Lemma doc_complex r s r' s' : covered (doc (OComplex r s)) (doc (OComplex r' s')) <-> rep_text r' = rep_text r /\ covered (doc s') (doc s).
Proof.
  cbn [doc op_of]. rewrite (same_fields [$"op"; $"attr_rep"; $"sub_op"] [VStr ($"complex"); VStr (rep_text r); doc s] [VStr ($"complex"); VStr (rep_text r'); doc s']) by (nd || reflexivity).
  rewrite forall2_3, !covered_str. tauto.
Qed.
Lemma doc_not s s' : covered (doc (ONot s)) (doc (ONot s')) <-> covered (doc s') (doc s).
Proof.
  cbn [doc op_of]. rewrite (same_fields [$"op"; $"sub_op"] [VStr ($"not"); doc s] [VStr ($"not"); doc s']) by (nd || reflexivity). rewrite forall2_2, !covered_str. tauto.
Qed.
Lemma covered_list l m : covered (VList l) (VList m) <-> Forall2 covered l m.
Proof. split; [apply covered_inv_list | intros; apply cv_list; assumption]. Qed.
Lemma doc_and l l' : covered (doc (OAnd l)) (doc (OAnd l')) <-> Forall2 covered (map doc l') (map doc l).
Proof.
  cbn [doc op_of]. rewrite (same_fields [$"op"; $"sub_ops"] [VStr ($"and"); VList (map doc l)] [VStr ($"and"); VList (map doc l')]) by (nd || reflexivity). rewrite forall2_2, !covered_str, covered_list. tauto.
Qed.
Lemma doc_or l l' : covered (doc (OOr l)) (doc (OOr l')) <-> Forall2 covered (map doc l') (map doc l).
Proof.
  cbn [doc op_of]. rewrite (same_fields [$"op"; $"sub_ops"] [VStr ($"or"); VList (map doc l)] [VStr ($"or"); VList (map doc l')]) by (nd || reflexivity). rewrite forall2_2, !covered_str, covered_list. tauto.
Qed.
Lemma op_word_inj b b' : op_word b = op_word b' -> b = b'.
Proof. destruct b, b'; try discriminate; reflexivity. Qed.

Lemma doc_same : forall a, regular a -> forall b, regular b -> (covered (doc a) (doc b) <-> same_filter a b) /\ (covered (doc b) (doc a) <-> same_filter a b).
Proof.
  assert (L : forall l, Forall (fun a => regular a -> forall b, regular b -> (covered (doc a) (doc b) <-> same_filter a b) /\ (covered (doc b) (doc a) <-> same_filter a b)) l -> Forall regular l ->
    forall l', Forall regular l' -> (Forall2 covered (map doc l') (map doc l) <-> Forall2 same_filter l l') /\ (Forall2 covered (map doc l) (map doc l') <-> Forall2 same_filter l l')).
  { intros l IH H. induction H as [|a l Ha _ IHl]; intros l' H'; destruct H' as [|b l' Hb Hl']; cbn [map]; try solve [split; split; intros X; inversion X; constructor].
    inversion IH as [|? ? I1 I2]; subst. destruct (I1 Ha b Hb) as [A B]. destruct (IHl I2 l' Hl') as [A' B'].
    split; split; intros X; inversion X; subst; constructor; try (apply A; assumption); try (apply B; assumption); try (apply A'; assumption); try (apply B'; assumption). }
  assert (Op : forall a b, regular a -> regular b -> op_of a <> op_of b -> ~ covered (doc a) (doc b) /\ ~ covered (doc b) (doc a)).
  { intros a b Ha Hb N. split; intros C; apply N; [|symmetry]; apply doc_op; assumption. }
  assert (F : forall P Q : Prop, ~ P -> ~ Q -> (P <-> Q)) by tauto.
  induction a as [r|bo r l|r o IH|l IH|l IH|o IH|] using oper_rect'; intros Ha b Hb; inversion Ha; subst.
  all: match goal with |- (covered (doc ?a) _ <-> _) /\ _ => destruct (list_eq_dec Ascii.ascii_dec (op_of a) (op_of b)) as [E|E]; [|destruct (Op a b Ha Hb E) as [N1 N2]; assert (N3 : ~ same_filter a b) by (intros S; apply E; inversion S; subst; reflexivity); tauto] end.
  all: destruct b as [r'|bo' r' l'|l'|l'|o'|r' o'|]; try (exfalso; revert E; clear; cbn; repeat match goal with b : binop |- _ => destruct b end; discriminate); inversion Hb; subst.
  - rewrite !doc_present. split; split; intros X; try (apply rep_text_inj in X; [|assumption|assumption]; subst; constructor); inversion X; subst; reflexivity.
  - cbn [op_of] in E. apply op_word_inj in E. subst bo'. rewrite !doc_bin, !covered_lit by assumption.
    split; split.
    + intros [X Y]. apply rep_text_inj in X; [|assumption|assumption]. subst. constructor. apply same_lit_sym. exact Y.
    + intros X. inversion X; subst. split; [reflexivity | apply same_lit_sym; assumption].
    + intros [X Y]. apply rep_text_inj in X; [|assumption|assumption]. subst. constructor. exact Y.
    + intros X. inversion X; subst. split; [reflexivity | assumption].
  - rewrite !doc_complex. destruct (IH ltac:(assumption) o' ltac:(assumption)) as [A B]. rewrite A, B.
    split; split; try (intros [X Y]; apply rep_text_inj in X; [|assumption|assumption]; subst; constructor; assumption); intros X; inversion X; subst; auto.
  - rewrite !doc_and. destruct (L l IH ltac:(assumption) l' ltac:(assumption)) as [A B]. rewrite A, B. split; split; intros X; try (constructor; assumption); inversion X; assumption.
  - rewrite !doc_or. destruct (L l IH ltac:(assumption) l' ltac:(assumption)) as [A B]. rewrite A, B. split; split; intros X; try (constructor; assumption); inversion X; assumption.
  - rewrite !doc_not. destruct (IH ltac:(assumption) o' ltac:(assumption)) as [A B]. rewrite A, B. split; split; intros X; try (constructor; assumption); inversion X; assumption.
Qed.
Theorem filter_eq_spec a b : regular a -> regular b -> exists r, filter_eq a b = Ok r /\ (r = true <-> same_filter a b).
Proof.
  intros Ha Hb. destruct (doc_dict a Ha) as [d [Ea Da]], (doc_dict b Hb) as [d' [Eb Db]]. unfold filter_eq. rewrite Ea, Eb. cbn [bind]. rewrite Da, Db.
  destruct (C15_exact_partial (doc a) (doc b) (doc_clean a Ha) (doc_clean b Hb)) as [r [E H]]. exists r. split; [exact E|]. rewrite H. apply doc_same; assumption.
Qed.
Lemma complete_regular : forall o, complete o -> regular o.
Proof.
  induction o as [r|bo r l|r o IH|l IH|l IH|o IH|] using oper_rect'; intros H; inversion H; subst; constructor; auto.
  - intros ->. match goal with H : finite_lit _ |- _ => destruct (H _ eq_refl) as [m [e X]] end. discriminate.
  - rewrite Forall_forall in *. auto.
  - rewrite Forall_forall in *. auto.
Qed.
Lemma same_filter_refl : forall a, regular a -> same_filter a a.
Proof.
  assert (L : forall l, Forall (fun a => regular a -> same_filter a a) l -> Forall regular l -> Forall2 same_filter l l).
  { intros l IH H. induction H; inversion IH; subst; constructor; auto. }
  induction a as [r|bo r l|r o IH|l IH|l IH|o IH|] using oper_rect'; intros H; inversion H; subst; constructor; auto.
  apply same_scalar_lit; try assumption. destruct l as [|b|z|f|s]; cbn; try exact I; try reflexivity; [destruct b; exists 0%Z; lia | exists 0%Z; lia|].
  apply same_number_iff, feqb_refl. intros ->. match goal with H : LitFloat FNan <> _ |- _ => apply H; reflexivity end.
Qed.
Lemma same_lit_number l l' : same_lit l l' -> l = l' \/ exists u w, number (v_of_lit l) = Some u /\ number (v_of_lit l') = Some w /\ feqb u w = true.
Proof.
  intros H. destruct H as [|s|l l' m e m' e' k E E' K1 K2 K3|b]; auto. right. exists (FFin m e), (FFin m' e'). rewrite <- E, <- E'.
  split; [destruct l as [|[]| | |]; reflexivity|]. split; [destruct l' as [|[]| | |]; reflexivity|]. apply same_number_iff. exists k. auto.
Qed.
Lemma same_lit_trans a b c : same_lit a b -> same_lit b c -> same_lit a c.
Proof.
  intros H1 H2. destruct H1 as [|s|l l' m e m' e' k E E' K1 K2 K3|x]; try exact H2. inversion H2 as [E1|s E1|l0 l0' n f n' f' k' F F' L1 L2 L3|x E1]; subst; try discriminate.
  - rewrite E' in F. injection F as <- <-. assert (T : feqb (FFin m e) (FFin n' f') = true) by (apply feqb_trans with (FFin m' e'); apply same_number_iff; [exists k | exists k']; auto).
    apply same_number_iff in T as [j [J1 [J2 J3]]]. eapply sl_num; eassumption.
Qed.
Lemma same_filter_trans : forall a b c, same_filter a b -> same_filter b c -> same_filter a c.
Proof.
  assert (L : forall l, Forall (fun a => forall b c, same_filter a b -> same_filter b c -> same_filter a c) l -> forall l' l'', Forall2 same_filter l l' -> Forall2 same_filter l' l'' -> Forall2 same_filter l l'').
  { intros l IH l' l'' H. revert l''. induction H; intros l'' H'; inversion H'; subst; constructor; inversion IH; subst; eauto. }
  induction a as [r|bo r l|r o IH|l IH|l IH|o IH|] using oper_rect'; intros b c H1 H2; inversion H1; subst; inversion H2; subst; constructor; eauto. eapply same_lit_trans; eassumption.
Qed.

(** ** Equal filters match alike *)

Lemma feqb_cong a b x : feqb a b = true -> feqb x a = feqb x b /\ fcmp x a = fcmp x b.
Proof.
  intros H. assert (C : fcmp x a = fcmp x b).
  { apply feqb_iff in H. destruct a as [m e|p|], b as [m' e'|q|]; try discriminate H; try (destruct p; discriminate H); try (destruct q; discriminate H).
    - destruct x as [n f|y|]; try reflexivity. destruct (exists_scale e e' f) as [k [K1 [K2 K3]]]. rewrite (fcmp_fin _ _ _ _ k K1 K2) in H. rewrite (fcmp_fin _ _ _ _ k K3 K1), (fcmp_fin _ _ _ _ k K3 K2).
      injection H as H. apply Z.compare_eq in H. rewrite H. reflexivity.
    - destruct p, q; try discriminate H; reflexivity. }
  split; [|exact C]. destruct (feqb x a) eqn:E1, (feqb x b) eqn:E2; try reflexivity.
  - apply feqb_iff in E1. assert (feqb x b = true) by (apply feqb_iff; congruence). congruence.
  - apply feqb_iff in E2. assert (feqb x a = true) by (apply feqb_iff; congruence). congruence.
Qed.

Lemma eq_number f x y w : num_of y = Some w -> py_eq (S f) x y = match num_of x with Some u => Ok (feqb u w) | None => Ok false end.
Proof. intros H. destruct y; try discriminate; destruct x; try reflexivity; cbn [num_of] in *; injection H as <-; reflexivity. Qed.
Lemma vsize_number y w : num_of y = Some w -> vsize y = 1.
Proof. destruct y; try discriminate; reflexivity. Qed.
Lemma veq_number x y y' w w' : num_of y = Some w -> num_of y' = Some w' -> feqb w w' = true -> veq x y = veq x y'.
Proof.
  intros H H' E. unfold veq. rewrite (eq_number _ _ _ _ H), (eq_number _ _ _ _ H'). destruct (num_of x) as [u|]; [|reflexivity]. f_equal. apply (feqb_cong w w' u E).
Qed.
Lemma op_number b x y y' w w' : num_of y = Some w -> num_of y' = Some w' -> feqb w w' = true -> apply_op b x y = apply_op b x y'.
Proof.
  intros H H' E. pose proof (fun z => veq_number z y y' w w' H H' E) as V.
  assert (O : order x y = order x y').
  { assert (O1 : forall y w, num_of y = Some w -> order x y = match num_of x with Some u => Some (fcmp u w) | None => None end).
    { intros z v Hz. destruct z; try discriminate; destruct x; try reflexivity; cbn [num_of order] in *; injection Hz as <-; reflexivity. }
    rewrite (O1 y w H), (O1 y' w' H'). destruct (num_of x) as [u|]; [|reflexivity]. f_equal. apply (feqb_cong w w' u E). }
  assert (N : forall s, y <> VStr s) by (intros s ->; discriminate). assert (N' : forall s, y' <> VStr s) by (intros s ->; discriminate).
  destruct b; cbn [apply_op]; try (rewrite O; reflexivity); try (rewrite V; reflexivity).
  - destruct x as [| | | | | |s|d|l|d|d m| | | | | |]; try reflexivity; try (destruct y, y'; try discriminate; reflexivity).
    clear O. induction l as [|z l IH]; [reflexivity|]. rewrite V. destruct (veq z y') as [e|e]; [|reflexivity]. cbn [bind]. destruct e; [reflexivity | exact IH].
  - destruct x; try reflexivity; destruct y, y'; try discriminate; reflexivity.
  - destruct x; try reflexivity; destruct y, y'; try discriminate; reflexivity.
Qed.
Section Env.
  Context {env : PyEnv}.
  Lemma binary_same b r l l' v la strict : same_lit l l' -> binary_match b r l v la strict = binary_match b r l' v la strict.
  Proof.
    intros H. destruct (same_lit_number l l' H) as [->|[u [w [E [E' F]]]]]; [reflexivity|]. rewrite number_num in E, E'.
    unfold binary_match. destruct (find_attr la r) as [a|]; [|reflexivity].
    assert (C : (comparison_values b l v a = comparison_values b l' v a /\ (forall e, comparison_values b l v a <> Ok (Some e)))
      \/ exists items, comparison_values b l v a = Ok (Some (map (fun x => (x, v_of_lit l)) items)) /\ comparison_values b l' v a = Ok (Some (map (fun x => (x, v_of_lit l')) items))).
    { unfold comparison_values. destruct (scim_name (a_type (info a))) as [name|e]; [|left; split; [reflexivity | discriminate]]. cbn [bind]. destruct (negb (type_supported b name)); [left; split; [reflexivity | discriminate]|].
      match goal with |- context [bind ?m _] => destruct m as [[v'|]|e] end; cbn [bind]; [|left; split; [reflexivity | discriminate]|left; split; [reflexivity | discriminate]].
      destruct (str_eqb name ($"dateTime")).
      - left. destruct v'; try (split; [reflexivity | discriminate]). destruct (env_fromiso s); [|split; [reflexivity | discriminate]]. destruct l, l'; try discriminate; split; try reflexivity; discriminate.
      - right. exists (match v' with VList l0 => l0 | _ => [v'] end). destruct l, l'; try discriminate; split; reflexivity. }
    assert (A : forall items, any_pair b (map (fun x => (x, v_of_lit l)) items) = any_pair b (map (fun x => (x, v_of_lit l')) items)).
    { induction items as [|x t IH]; [reflexivity|]. cbn [map any_pair]. rewrite (op_number b x _ _ _ _ E E' F), IH. reflexivity. }
    destruct v; try reflexivity; (destruct C as [[-> _]|[items [-> ->]]]; [reflexivity|]; cbn [bind]; rewrite A; reflexivity).
  Qed.
  Lemma same_matches : forall o o', same_filter o o' -> (forall v, Match.operand o v = Match.operand o' v) /\ is_logical o = is_logical o' /\ is_attr_op o = is_attr_op o' /\ oper_rep o = oper_rep o'
    /\ forall v l strict, matches o v l strict = matches o' v l strict.
  Proof.
    induction o as [r|bo r l|r o IH|l IH|l IH|o IH|] using oper_rect'; intros o' H; inversion H; subst; (split; [reflexivity|]); (split; [reflexivity|]); (split; [reflexivity|]); (split; [reflexivity|]).
    - reflexivity.
    - intros v la strict. cbn [matches]. apply binary_same. assumption.
    - destruct (IH _ ltac:(eassumption)) as [A [B [C [D E]]]]. intros v la strict. cbn [matches]. destruct (find_attr la r) as [a|]; [|reflexivity]. destruct (negb (is_complex a)); [reflexivity|].
      match goal with |- (if ?c then _ else _) = _ => destruct c; [reflexivity|] end. rewrite <- C, <- D.
      generalize (if truthy v then v else if a_multi (info a) then VList [] else empty_cont). intros u. generalize (match u with VList l0 => l0 | _ => [u] end). intros items. destruct (is_attr_op o).
      + generalize false. induction items as [|x t IHt]; intros hv; [reflexivity|]. destruct (oper_rep o) as [sr|]; [|reflexivity]. destruct (get_item x sr) as [iv|e]; [|reflexivity]. cbn [bind]. rewrite E.
        destruct (matches o'0 iv (sub_attrs a) strict) as [m|e]; [|reflexivity]. cbn [bind]. destruct m; try reflexivity; apply IHt.
      + generalize false. induction items as [|x t IHt]; intros hv; [reflexivity|]. rewrite E. destruct (matches o'0 x (sub_attrs a) strict) as [m|e]; [|reflexivity]. cbn [bind]. destruct m; try reflexivity; apply IHt.
    - intros v la strict. cbn [matches]. generalize (or_empty v) as u. intros u. generalize false. clear H. revert IH. match goal with F : Forall2 _ l _ |- _ => induction F as [|x y xs ys Hx Hxs IHl] end; intros IH missing; [reflexivity|].
      inversion IH as [|? ? I1 I2]; subst. destruct (I1 _ Hx) as [A [_ [_ [_ E]]]]. rewrite A. destruct (Match.operand y u) as [z|e]; [|reflexivity]. cbn [bind]. rewrite E. destruct (matches y z la strict) as [m|e]; [|reflexivity]. cbn [bind].
      destruct m; try reflexivity; apply IHl; exact I2.
    - intros v la strict. cbn [matches]. generalize (or_empty v) as u. intros u. generalize false. clear H. revert IH. match goal with F : Forall2 _ l _ |- _ => induction F as [|x y xs ys Hx Hxs IHl] end; intros IH missing; [reflexivity|].
      inversion IH as [|? ? I1 I2]; subst. destruct (I1 _ Hx) as [A [_ [_ [_ E]]]]. rewrite A. destruct (Match.operand y u) as [z|e]; [|reflexivity]. cbn [bind]. rewrite E. destruct (matches y z la strict) as [m|e]; [|reflexivity]. cbn [bind].
      destruct m; try reflexivity; apply IHl; exact I2.
    - destruct (IH _ ltac:(eassumption)) as [A [B [_ [_ E]]]]. intros v la strict. cbn [matches]. rewrite A, <- B. destruct (Match.operand o'0 (or_empty v)) as [x|e]; [|reflexivity]. cbn [bind]. rewrite E. reflexivity.
  Qed.
  Theorem same_apply o o' : same_filter o o' -> forall data l strict, filter_apply o data l strict = filter_apply o' data l strict.
  Proof. intros H data l strict. destruct (same_matches o o' H) as [A [_ [_ [_ E]]]]. unfold filter_apply. rewrite A. destruct (Match.operand o' data) as [x|e]; [|reflexivity]. cbn [bind]. apply E. Qed.
End Env.
