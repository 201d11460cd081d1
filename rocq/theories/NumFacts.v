(** Facts about Python number comparison. *)
From Verif Require Import PyBase PyNum.
Local Open Scope Z_scope.

Lemma pow2_pos k : 0 <= k -> 0 < 2 ^ k.
Proof. intros H. apply Z.pow_pos_nonneg; lia. Qed.

Lemma compare_scale a b c : 0 < c -> Z.compare (a * c) (b * c) = Z.compare a b.
Proof.
  intros Hc. destruct (Z.compare_spec a b) as [->|H|H].
  - apply Z.compare_refl.
  - apply Z.compare_lt_iff. nia.
  - apply Z.compare_gt_iff. nia.
Qed.

Lemma fcmp_fin m e m' e' k : 0 <= e + k -> 0 <= e' + k ->
  fcmp (FFin m e) (FFin m' e') = Some (Z.compare (m * 2 ^ (e + k)) (m' * 2 ^ (e' + k))).
Proof.
  intros H1 H2. cbn [fcmp]. f_equal. set (lo := Z.min e e').
  assert (Hlo : 0 <= lo + k) by (unfold lo; lia).
  assert (E : forall n x, lo <= x -> n * 2 ^ (x + k) = n * 2 ^ (x - lo) * 2 ^ (lo + k)).
  { intros n x Hx. rewrite <- Z.mul_assoc, <- Z.pow_add_r by lia. f_equal. f_equal. lia. }
  rewrite (E m e), (E m' e') by (unfold lo; lia).
  symmetry. apply compare_scale. apply pow2_pos; exact Hlo.
Qed.

Lemma exists_scale e e' e'' : exists k, 0 <= e + k /\ 0 <= e' + k /\ 0 <= e'' + k.
Proof. exists (Z.abs e + Z.abs e' + Z.abs e''). lia. Qed.

Lemma fcmp_refl f : f <> FNan -> fcmp f f = Some Eq.
Proof.
  destruct f as [m e|b|]; intros H; [|destruct b; reflexivity|contradiction].
  destruct (exists_scale e e e) as [k [H1 _]]. rewrite (fcmp_fin _ _ _ _ k H1 H1), Z.compare_refl. reflexivity.
Qed.
Lemma fcmp_sym a b : fcmp b a = option_map CompOpp (fcmp a b).
Proof.
  destruct a as [m e|x|], b as [m' e'|y|]; try reflexivity.
  - destruct (exists_scale e e' e) as [k [H1 [H2 _]]].
    rewrite (fcmp_fin _ _ _ _ k H1 H2), (fcmp_fin _ _ _ _ k H2 H1), Z.compare_antisym. reflexivity.
  - destruct y; reflexivity.
  - destruct x; reflexivity.
  - destruct x, y; reflexivity.
Qed.
Lemma fcmp_some a b : a <> FNan -> b <> FNan -> exists c, fcmp a b = Some c.
Proof. destruct a, b; intros; try contradiction; eexists; reflexivity. Qed.
Lemma fcmp_nan a b c : fcmp a b = Some c -> a <> FNan /\ b <> FNan.
Proof. destruct a, b; try discriminate; intros _; split; discriminate. Qed.

(** Comparison is transitive in all combinations. *)
Definition le_c (c : comparison) : Prop := c <> Gt.
Lemma fcmp_trans a b c x y : fcmp a b = Some x -> fcmp b c = Some y -> le_c x -> le_c y ->
  exists z, fcmp a c = Some z /\ le_c z /\ (z = Eq -> x = Eq /\ y = Eq) /\ (x = Eq -> y = Eq -> z = Eq).
Proof.
  intros H1 H2 Hx Hy.
  destruct (fcmp_nan _ _ _ H1) as [Na Nb]. destruct (fcmp_nan _ _ _ H2) as [_ Nc].
  assert (D : forall p q, le_c (Z.compare p q) <-> p <= q).
  { intros p q. unfold le_c. apply Z.compare_le_iff. }
  destruct a as [m e|p|]; [| |contradiction]; (destruct b as [m' e'|q|]; [| |contradiction]);
    (destruct c as [m'' e''|r|]; [| |contradiction]).
  - destruct (exists_scale e e' e'') as [k [K1 [K2 K3]]].
    rewrite (fcmp_fin _ _ _ _ k K1 K2) in H1. rewrite (fcmp_fin _ _ _ _ k K2 K3) in H2.
    rewrite (fcmp_fin _ _ _ _ k K1 K3).
    injection H1 as <-. injection H2 as <-. apply (proj1 (D _ _)) in Hx. apply (proj1 (D _ _)) in Hy. eexists. split; [reflexivity|].
    rewrite D. revert Hx Hy. generalize (m * 2 ^ (e + k)), (m' * 2 ^ (e' + k)), (m'' * 2 ^ (e'' + k)). intros u v w Hx Hy.
    rewrite !Z.compare_eq_iff. split; [lia|]. split; [intros ->; split; lia | intros -> ->; reflexivity].
  - cbn in *. injection H2 as <-. destruct r; [exfalso; apply Hy; reflexivity|].
    exists Lt. repeat split; try discriminate.
  - cbn in *. injection H2 as <-. injection H1 as <-. destruct q; [exfalso; apply Hx; reflexivity | exfalso; apply Hy; reflexivity].
  - cbn in *. injection H2 as <-. injection H1 as <-. destruct q, r; try (exfalso; apply Hx; reflexivity);
      try (exfalso; apply Hy; reflexivity); exists Lt; repeat split; try discriminate.
  - cbn in *. injection H1 as <-. destruct p; [|exfalso; apply Hx; reflexivity].
    exists Lt. repeat split; try discriminate.
  - cbn in *. injection H2 as <-. injection H1 as <-. destruct p; [|exfalso; apply Hx; reflexivity].
    destruct r; [exfalso; apply Hy; reflexivity|]. exists Lt. repeat split; try discriminate.
  - cbn in *. injection H2 as <-. injection H1 as <-. destruct q; [|exfalso; apply Hy; reflexivity].
    destruct p; [|exfalso; apply Hx; reflexivity]. exists Lt. repeat split; try discriminate.
  - cbn in *. injection H2 as <-. injection H1 as <-.
    destruct p, q, r; try (exfalso; apply Hx; reflexivity); try (exfalso; apply Hy; reflexivity);
      first [exists Eq; repeat split; discriminate | exists Lt; repeat split; discriminate].
Qed.

Lemma feqb_iff a b : feqb a b = true <-> fcmp a b = Some Eq.
Proof. unfold feqb. destruct (fcmp a b) as [[]|]; split; congruence. Qed.
Lemma feqb_refl f : f <> FNan -> feqb f f = true.
Proof. intros H. rewrite feqb_iff. apply fcmp_refl; exact H. Qed.
Lemma feqb_sym a b : feqb a b = feqb b a.
Proof. apply eq_true_iff_eq. rewrite !feqb_iff, (fcmp_sym a b). destruct (fcmp a b) as [[]|]; cbn; split; congruence. Qed.
Lemma feqb_trans a b c : feqb a b = true -> feqb b c = true -> feqb a c = true.
Proof.
  rewrite !feqb_iff. intros H1 H2. destruct (fcmp_trans _ _ _ _ _ H1 H2) as [z [Hz [_ [_ H]]]]; try discriminate.
  rewrite Hz, H; reflexivity.
Qed.
