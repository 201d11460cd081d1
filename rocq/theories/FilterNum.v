(** Number literals of filters. *)
From Verif Require Import PyBase BaseFacts PyNum NumFacts NumSpec NumRound Issues AttrRep AttrRepSpec AttrRepFacts Value ValueFacts Container Types Attr Match MatchCompare FilterParse FilterSpec FilterText.
Local Open Scope Z_scope.

(** ** Digits *)

Lemma is_digit_iff c : is_digit c = true <-> (48 <= code c <= 57)%N.
Proof. unfold is_digit, in_range. rewrite andb_true_iff, !N.leb_le. reflexivity. Qed.
Lemma digits_bool s : Forall (fun c => (48 <= code c <= 57)%N) s <-> Forall (fun c => is_digit c = true) s.
Proof. split; apply Forall_impl; intros c; apply is_digit_iff. Qed.
Lemma digits_value_fold s : forall a, digits_value a s = fold_left (fun a c => 10 * a + Z.of_N (code c - 48)) s a.
Proof. induction s as [|c s IH]; intros a; [reflexivity|]. cbn [digits_value fold_left]. apply IH. Qed.
Lemma z_of_digits_value s : z_of_digits s = digits_value 0 s.
Proof. unfold z_of_digits. rewrite digits_value_fold. reflexivity. Qed.
Lemma digits_value_nonneg s : forall a, 0 <= a -> 0 <= digits_value a s.
Proof. induction s as [|c s IH]; intros a H; [exact H|]. cbn [digits_value]. apply IH. lia. Qed.

Lemma span_digits_app ds r : Forall (fun c => is_digit c = true) ds -> (forall c t, r = c :: t -> is_digit c = false) -> span_digits (ds ++ r) = (ds, r).
Proof.
  intros H Hr. induction H as [|c ds Hc Hd IH]; cbn [app span_digits].
  - destruct r as [|c t]; [reflexivity|]. cbn [span_digits]. rewrite (Hr c t eq_refl). reflexivity.
  - rewrite Hc, IH. reflexivity.
Qed.
Lemma span_digits_inv s : forall ds r, span_digits s = (ds, r) -> s = ds ++ r /\ Forall (fun c => is_digit c = true) ds /\ (forall c t, r = c :: t -> is_digit c = false).
Proof.
  induction s as [|c s IH]; intros ds r; cbn [span_digits]; [intros E; injection E as <- <-; repeat split; [constructor | discriminate]|].
  destruct (is_digit c) eqn:Ec.
  - destruct (span_digits s) as [a b] eqn:Es. intros E. injection E as <- <-. destruct (IH a b eq_refl) as [-> [H1 H2]]. repeat split; [constructor; assumption | exact H2].
  - intros E. injection E as <- <-. repeat split; [constructor|]. intros x t Ex. injection Ex as <- _. exact Ec.
Qed.

(** ** Texts without spaces or underscores *)

Definition tight (s : str) : Prop := Forall (fun c => is_space c = false /\ c <> "_"%char) s.
Lemma c_space_is_space c : c_space c = true -> is_space c = true.
Proof. revert c. apply implb_chars. vm_compute. reflexivity. Qed.
Lemma num_space_tight s c : is_space c = false -> num_space s c = false.
Proof. intros H. unfold num_space. destruct (forallb _ s); [|exact H]. destruct (c_space c) eqn:E; [apply c_space_is_space in E; congruence | reflexivity]. Qed.
Lemma drop_while_tight p s : Forall (fun c => p c = false) s -> drop_while p s = s.
Proof. destruct 1 as [|c s Hc _]; [reflexivity|]. cbn [drop_while]. rewrite Hc. reflexivity. Qed.
Lemma num_strip_tight s : tight s -> num_strip s = s.
Proof.
  intros H. unfold num_strip. assert (F : Forall (fun c => num_space s c = false) s) by (revert H; apply Forall_impl; intros c [Hc _]; apply num_space_tight; exact Hc).
  rewrite (drop_while_tight _ s F). rewrite drop_while_tight by (apply Forall_rev; exact F). apply rev_involutive.
Qed.
Lemma drop_underscores_tight s : Forall (fun c => c <> "_"%char) s -> forall b, drop_underscores b false s = Some s.
Proof.
  induction 1 as [|c s Hc Hs IH]; intros b; [reflexivity|]. cbn [drop_underscores]. apply chr_eqb_neq in Hc. rewrite Hc. cbn [andb]. rewrite IH. reflexivity.
Qed.

(** ** Reading numerals *)

Lemma sign_digit c : is_digit c = true -> c <> "-"%char /\ c <> "+"%char /\ c <> "."%char /\ c <> "e"%char /\ c <> "E"%char /\ c <> "_"%char /\ is_space c = false /\ c <> "i"%char /\ c <> "n"%char.
Proof.
  intros H. repeat split; try (intros ->; discriminate). apply negb_true_iff. revert c H. apply implb_chars. vm_compute. reflexivity.
Qed.
Lemma take_sign_text s g r : sign_text s g -> (forall c t, r = c :: t -> c <> "-"%char /\ c <> "+"%char) -> take_sign (s ++ r) = (Z.ltb g 0, r).
Proof.
  intros H Hr. destruct H; try reflexivity. cbn [app]. destruct r as [|c t]; [reflexivity|]. destruct (Hr c t eq_refl) as [H1 H2].
  unfold take_sign. rewrite (proj2 (chr_eqb_neq c "-"%char) H1), (proj2 (chr_eqb_neq c "+"%char) H2). reflexivity.
Qed.
Lemma take_sign_inv s b u : take_sign s = (b, u) -> exists t g, s = t ++ u /\ sign_text t g /\ b = Z.ltb g 0.
Proof.
  unfold take_sign. destruct s as [|c s].
  - intros E. injection E as <- <-. exists [], 1. repeat split; constructor.
  - destruct (chr_eqb c "-"%char) eqn:E1; [|destruct (chr_eqb c "+"%char) eqn:E2]; intros E; injection E as <- <-.
    + apply chr_eqb_eq in E1. subst. exists ($"-"), (-1). repeat split; constructor.
    + apply chr_eqb_eq in E2. subst. exists ($"+"), 1. repeat split; constructor.
    + exists [], 1. repeat split; constructor.
Qed.
Lemma digits_head s c t : digits s -> s = c :: t -> is_digit c = true.
Proof. intros [_ H] E. rewrite digits_bool in H. subst. inversion H; assumption. Qed.

Lemma parse_exp_ok e x : exponent_text e x -> parse_exp e = Some x.
Proof.
  intros H. destruct H as [|c s g ds Hc Hs Hd]; [reflexivity|]. unfold parse_exp.
  assert (Ec : chr_eqb c "e"%char || chr_eqb c "E"%char = true) by (destruct Hc; subst; reflexivity). rewrite Ec.
  rewrite (take_sign_text s g ds Hs) by (intros c' t E; pose proof (sign_digit _ (digits_head _ _ _ Hd E)); tauto).
  destruct Hd as [Hn Hd]. apply digits_bool in Hd. pose proof (span_digits_app ds [] Hd ltac:(discriminate)) as S. rewrite app_nil_r in S. rewrite S.
  destruct ds as [|d ds]; [contradiction|]. rewrite z_of_digits_value. destruct Hs; cbn [Z.ltb Z.compare]; f_equal; lia.
Qed.
Lemma parse_exp_inv e x : parse_exp e = Some x -> exponent_text e x.
Proof.
  unfold parse_exp. destruct e as [|c t]; [intros E; injection E as <-; constructor|]. destruct (chr_eqb c "e"%char || chr_eqb c "E"%char) eqn:Ec; [|discriminate].
  destruct (take_sign t) as [b u] eqn:Es. apply take_sign_inv in Es as [s [g [-> [Hs ->]]]]. destruct (span_digits u) as [ds r] eqn:Ed. apply span_digits_inv in Ed as [-> [Hd _]].
  destruct ds as [|d ds]; [discriminate|]. destruct r as [|]; [|discriminate]. intros E. injection E as <-. rewrite app_nil_r, z_of_digits_value.
  replace (if g <? 0 then - digits_value 0 (d :: ds) else digits_value 0 (d :: ds)) with (g * digits_value 0 (d :: ds)) by (destruct Hs; cbn [Z.ltb Z.compare]; lia).
  constructor; [|exact Hs|split; [discriminate | apply digits_bool; exact Hd]]. apply orb_true_iff in Ec as [Ec|Ec]; apply chr_eqb_eq in Ec; auto.
Qed.
Lemma digits0_bool s : digits0 s <-> Forall (fun c => is_digit c = true) s.
Proof.
  split; [intros [->|[_ H]]; [constructor | apply digits_bool; exact H]|]. intros H. destruct s; [left; reflexivity|]. right. split; [discriminate | apply digits_bool; exact H].
Qed.
Lemma parse_udec_ok ip f fp e x : digits0 ip -> fraction_text f fp -> ip ++ fp <> [] -> exponent_text e x ->
  parse_udec (ip ++ f ++ e) = Some (dec_to_float (digits_value 0 (ip ++ fp)) (x - Z.of_nat (length fp))).
Proof.
  intros Hip Hf Hn He. apply digits0_bool in Hip. unfold parse_udec.
  assert (He0 : forall c t, e = c :: t -> is_digit c = false /\ c <> "."%char) by (intros c t E; destruct He as [|c' s g ds Hc _ _]; [discriminate|]; injection E as <- _; destruct Hc; subst; split; (reflexivity || discriminate)).
  destruct Hf as [|fp Hfp].
  - cbn [app]. rewrite span_digits_app by (try exact Hip; intros c t E; apply (He0 c t E)).
    assert (M : match e with c :: t => if chr_eqb c "."%char then (span_digits t, true) else (([], e), false) | [] => (([], []), false) end = (([], e), false)).
    { destruct e as [|c t]; [reflexivity|]. destruct (He0 c t eq_refl) as [_ H]. apply chr_eqb_neq in H. rewrite H. reflexivity. }
    rewrite M. rewrite (parse_exp_ok e x He). rewrite app_nil_r in *. destruct ip as [|c ip]; [contradiction|]. rewrite z_of_digits_value. reflexivity.
  - apply digits0_bool in Hfp. cbn [app]. rewrite span_digits_app by (try exact Hip; intros c t E; injection E as <- _; reflexivity).
    change (chr_eqb "."%char "."%char) with true. cbn iota. rewrite span_digits_app by (try exact Hfp; intros c t E; apply (He0 c t E)). rewrite (parse_exp_ok e x He), z_of_digits_value.
    destruct ip; [destruct fp; [contradiction | reflexivity] | reflexivity].
Qed.
Lemma parse_udec_inv u f : parse_udec u = Some f -> exists ip ft fp e x, u = ip ++ ft ++ e /\ digits0 ip /\ fraction_text ft fp /\ ip ++ fp <> [] /\ exponent_text e x
  /\ f = dec_to_float (digits_value 0 (ip ++ fp)) (x - Z.of_nat (length fp)).
Proof.
  unfold parse_udec. destruct (span_digits u) as [ip r] eqn:Ed. apply span_digits_inv in Ed as [-> [Hip Hr]]. apply digits0_bool in Hip.
  destruct r as [|c t].
  - destruct ip as [|d ip]; [discriminate|]. cbn [parse_exp]. intros E. injection E as <-. exists (d :: ip), [], [], [], 0. rewrite !app_nil_r, z_of_digits_value. repeat split; [exact Hip | constructor | discriminate | constructor].
  - destruct (chr_eqb c "."%char) eqn:Ec.
    + apply chr_eqb_eq in Ec. subst c. destruct (span_digits t) as [fp r2] eqn:Ed2. apply span_digits_inv in Ed2 as [-> [Hfp _]]. apply digits0_bool in Hfp.
      intros E. assert (Hn : ip ++ fp <> []) by (intros X; apply app_eq_nil in X as [-> ->]; discriminate).
      assert (E' : match parse_exp r2 with Some x => Some (dec_to_float (z_of_digits (ip ++ fp)) (x - Z.of_nat (length fp))) | None => None end = Some f) by (destruct ip, fp; exact E || discriminate). clear E.
      destruct (parse_exp r2) as [x|] eqn:Ex; [|discriminate]. injection E' as <-. apply parse_exp_inv in Ex. exists ip, ("."%char :: fp), fp, r2, x. rewrite z_of_digits_value. repeat split; try assumption. constructor. exact Hfp.
    + destruct ip as [|d ip]; [discriminate|]. destruct (parse_exp (c :: t)) as [x|] eqn:Ex; [|discriminate]. intros E. injection E as <-. apply parse_exp_inv in Ex.
      exists (d :: ip), [], [], (c :: t), x. rewrite z_of_digits_value. cbn [app]. repeat split; try assumption; [constructor | discriminate].
Qed.
Lemma udec_head ip f fp e x c t : digits0 ip -> fraction_text f fp -> ip ++ fp <> [] -> exponent_text e x -> ip ++ f ++ e = c :: t -> is_digit c = true \/ c = "."%char.
Proof.
  intros Hip Hf Hn He E. destruct ip as [|d ip].
  - destruct Hf as [|fp Hfp]; [contradiction|]. cbn in E. injection E as <- _. right. reflexivity.
  - cbn in E. injection E as <- _. left. apply digits0_bool in Hip. inversion Hip; assumption.
Qed.
Lemma decimal_tight s m x : decimal s m x -> tight s.
Proof.
  assert (D : forall ds, digits0 ds -> tight ds) by (intros ds H; apply digits0_bool in H; revert H; apply Forall_impl; intros c Hc; pose proof (sign_digit c Hc); tauto).
  assert (S : forall s g, sign_text s g -> tight s) by (intros ? ? H; destruct H; repeat constructor; discriminate).
  intros H. destruct H as [s g ip f fp e x Hs Hip Hf _ He]. unfold tight. rewrite !Forall_app. split; [apply (S s g Hs)|]. split; [apply D; exact Hip|]. split.
  - destruct Hf as [|fp Hfp]; [constructor|]. constructor; [split; [reflexivity | discriminate] | apply D; exact Hfp].
  - destruct He as [|c s' g' ds Hc Hs' Hd]; [constructor|]. constructor; [destruct Hc; subst; split; (reflexivity || discriminate)|]. apply Forall_app. split; [apply (S s' g' Hs') | apply D; right; exact Hd].
Qed.
Lemma lower_digit c : is_digit c = true -> chr_eqb (lower_chr c) c = true.
Proof. revert c. apply (implb_chars is_digit (fun c => chr_eqb (lower_chr c) c)). vm_compute. reflexivity. Qed.
Lemma lower_special u : In (lower u) [$"inf"; $"infinity"; $"nan"] -> exists c t, u = c :: t /\ is_digit c = false /\ c <> "."%char.
Proof.
  destruct u as [|c t]; [cbn; intros [H|[H|[H|[]]]]; discriminate|]. intros H. exists c, t. split; [reflexivity|].
  destruct (is_digit c) eqn:Ed.
  - exfalso. assert (El : chr_eqb (lower_chr c) c = true) by (apply lower_digit; exact Ed). apply chr_eqb_eq in El.
    unfold lower in H. cbn [map] in H. rewrite El in H. destruct H as [H|[H|[H|[]]]]; injection H as H _; subst c; discriminate.
  - split; [reflexivity|]. intros ->. unfold lower in H. cbn [map] in H. destruct H as [H|[H|[H|[]]]]; injection H as H _; discriminate.
Qed.
Definition signed (g : Z) (f : pyfloat) : pyfloat := if Z.ltb g 0 then fneg f else f.
(** float() on a decimal numeral. *)
Lemma parse_float_decimal s g ip f fp e x : sign_text s g -> digits0 ip -> fraction_text f fp -> ip ++ fp <> [] -> exponent_text e x ->
  parse_float (s ++ ip ++ f ++ e) = Some (signed g (dec_to_float (digits_value 0 (ip ++ fp)) (x - Z.of_nat (length fp)))).
Proof.
  intros Hs Hip Hf Hn He. pose proof (decimal_tight _ _ _ (dc s g ip f fp e x Hs Hip Hf Hn He)) as T. unfold parse_float. rewrite num_strip_tight by exact T.
  rewrite drop_underscores_tight by (revert T; apply Forall_impl; tauto).
  rewrite (take_sign_text s g); [|exact Hs|intros c t E; destruct (udec_head _ _ _ _ _ _ _ Hip Hf Hn He E) as [H|H]; [pose proof (sign_digit c H); tauto | subst; split; discriminate]].
  assert (N : forall w, In w [$"inf"; $"infinity"; $"nan"] -> str_eqb (lower (ip ++ f ++ e)) w = false).
  { intros w Hw. destruct (str_eqb_spec (lower (ip ++ f ++ e)) w) as [E|]; [|reflexivity]. exfalso. rewrite <- E in Hw. apply lower_special in Hw as [c [t [Eu [H1 H2]]]].
    destruct (udec_head _ _ _ _ _ _ _ Hip Hf Hn He Eu); congruence. }
  rewrite !N by (cbn; auto). cbn [orb]. rewrite (parse_udec_ok ip f fp e x Hip Hf Hn He). reflexivity.
Qed.
Lemma parse_float_inv s v : tight s -> parse_float s = Some v -> special s \/ exists m x, decimal s m x.
Proof.
  intros T. unfold parse_float. rewrite num_strip_tight by exact T. rewrite drop_underscores_tight by (revert T; apply Forall_impl; tauto).
  destruct (take_sign s) as [b u] eqn:Es. apply take_sign_inv in Es as [t [g [-> [Hs ->]]]].
  destruct (str_eqb_spec (lower u) ($"inf")) as [E|_]; [intros _; left; exists t, g, u; rewrite E; cbn; auto|].
  destruct (str_eqb_spec (lower u) ($"infinity")) as [E|_]; [intros _; left; exists t, g, u; rewrite E; cbn; auto|].
  destruct (str_eqb_spec (lower u) ($"nan")) as [E|_]; [intros _; left; exists t, g, u; rewrite E; cbn; auto 6|]. cbn [orb].
  destruct (parse_udec u) as [f|] eqn:Eu; [|discriminate]. intros _. right. apply parse_udec_inv in Eu as [ip [ft [fp [e [x [-> [H1 [H2 [H3 [H4 _]]]]]]]]]]. eexists _, _. constructor; eassumption.
Qed.

(** ** The value *)

Lemma dec_to_float_spec m x : 0 <= m ->
  (overflows (numerator m x) (denominator x) /\ dec_to_float m x = FInf false) \/ (~ overflows (numerator m x) (denominator x) /\ nearest (numerator m x) (denominator x) (dec_to_float m x)).
Proof.
  intros Hm. unfold dec_to_float, numerator, denominator. assert (P : forall k, 0 <= k -> 0 < 10 ^ k) by (intros; apply Z.pow_pos_nonneg; lia).
  destruct (Z.eqb_spec m 0) as [->|Hz].
  - right. rewrite Z.mul_0_l. pose proof (P (Z.max (- x) 0) ltac:(lia)). split.
    + unfold overflows. cbn [Z.abs]. assert (0 < 2 ^ 1024 - 2 ^ 970) by reflexivity. nia.
    + split; [apply double_zero|]. intros h _. cbn [units]. rewrite !Z.mul_0_l. cbn [Z.sub Z.opp Z.add Z.abs]. lia.
  - destruct (Z.leb_spec 0 x).
    + rewrite (Z.max_l x 0), (Z.max_r (- x) 0) by lia. rewrite Z.pow_0_r. apply round_pos_spec; [|lia]. pose proof (P x). nia.
    + rewrite (Z.max_r x 0), (Z.max_l (- x) 0) by lia. rewrite Z.pow_0_r, Z.mul_1_r. apply round_pos_spec; [lia|]. apply P. lia.
Qed.
Lemma signed_spec m x g : 0 <= m -> g = 1 \/ g = -1 ->
  (overflows (numerator (g * m) x) (denominator x) /\ exists b, signed g (dec_to_float m x) = FInf b) \/ (~ overflows (numerator (g * m) x) (denominator x) /\ nearest (numerator (g * m) x) (denominator x) (signed g (dec_to_float m x))).
Proof.
  intros Hm Hg. destruct Hg as [-> | ->]; unfold signed; cbn [Z.ltb Z.compare].
  - rewrite Z.mul_1_l. destruct (dec_to_float_spec m x Hm) as [[H1 H2]|H]; [left; eauto | right; exact H].
  - assert (E : numerator (-1 * m) x = - numerator m x) by (unfold numerator; ring). rewrite E. unfold overflows. rewrite Z.abs_opp. fold (overflows (numerator m x) (denominator x)).
    destruct (dec_to_float_spec m x Hm) as [[H1 H2]|[H1 H2]]; [left; rewrite H2; split; [exact H1 | eexists; reflexivity] | right; split; [exact H1 | apply nearest_neg; exact H2]].
Qed.

(** A finite float is an integer or not. *)
Lemma float_int f : double f -> (exists z, units f = z * 2 ^ 1074 /\ int_of_float f = Ok z /\ feqb f (fint z) = true)
  \/ ((forall z, units f <> z * 2 ^ 1074) /\ exists z, int_of_float f = Ok z /\ feqb f (fint z) = false).
Proof.
  intros [m [e [-> [He _]]]]. cbn [units int_of_float].
  assert (F : forall z, feqb (FFin m e) (fint z) = true <-> m * 2 ^ (e + 1074) = z * 2 ^ 1074).
  { intros z. rewrite feqb_iff. unfold fint. rewrite (fcmp_fin m e z 0 1074) by lia. rewrite Z.add_0_l. split; [intros E; injection E as E; apply Z.compare_eq; exact E | intros ->; rewrite Z.compare_refl; reflexivity]. }
  destruct (Z.leb_spec 0 e) as [H|H].
  - left. exists (m * 2 ^ e). split; [rewrite Z.pow_add_r by lia; ring|]. split; [reflexivity|]. apply F. rewrite Z.pow_add_r by lia. ring.
  - set (q := Z.quot m (2 ^ (- e))). destruct (feqb (FFin m e) (fint q)) eqn:Eq.
    + left. exists q. split; [apply F; exact Eq | auto].
    + right. split; [|exists q; auto]. intros z Ez. assert (Em : m = z * 2 ^ (- e)).
      { assert (P : 0 < 2 ^ (e + 1074)) by (apply Z.pow_pos_nonneg; lia). assert (S : 2 ^ 1074 = 2 ^ (- e) * 2 ^ (e + 1074)) by (rewrite <- Z.pow_add_r by lia; f_equal; lia).
        rewrite S in Ez. generalize dependent (2 ^ (e + 1074)). intros y. intros. nia. }
      assert (Qz : q = z) by (unfold q; rewrite Em; apply Z.quot_mul; apply Z.pow_nonzero; lia). rewrite Qz in Eq. apply F in Ez. congruence.
Qed.

Definition unquoted (s : str) : Prop := Forall (fun c => c <> double_quote /\ c <> single_quote) s.
Lemma unquoted_not s : unquoted s -> (starts_with s [dquote] && ends_with s [dquote]) || (starts_with s [squote] && ends_with s [squote]) = false.
Proof.
  intros H. assert (N : forall q, (q = dquote \/ q = squote) -> starts_with s [q] = false).
  { intros q Hq. destruct (starts_with s [q]) eqn:E; [|reflexivity]. apply starts_with_spec in E as [t ->]. inversion H as [|? ? [H1 H2] _]; subst. destruct Hq; subst; exfalso; [apply H1 | apply H2]; reflexivity. }
  rewrite !N by auto. reflexivity.
Qed.
Lemma decimal_unquoted s m x : decimal s m x -> unquoted s.
Proof.
  assert (D : forall ds, digits0 ds -> unquoted ds) by (intros ds H; apply digits0_bool in H; revert H; apply Forall_impl; intros c Hc; split; intros ->; discriminate).
  assert (S : forall s g, sign_text s g -> unquoted s) by (intros ? ? H; destruct H; repeat constructor; discriminate).
  intros H. destruct H as [s g ip f fp e x Hs Hip Hf _ He]. unfold unquoted. rewrite !Forall_app. split; [apply (S s g Hs)|]. split; [apply D; exact Hip|]. split.
  - destruct Hf as [|fp Hfp]; [constructor|]. constructor; [split; discriminate | apply D; exact Hfp].
  - destruct He as [|c s' g' ds Hc Hs' Hd]; [constructor|]. constructor; [destruct Hc; subst; split; discriminate|]. apply Forall_app. split; [apply (S s' g' Hs') | apply D; right; exact Hd].
Qed.
Lemma decimal_not_const s m x : decimal s m x -> s <> $"true" /\ s <> $"false" /\ s <> $"null".
Proof.
  intros H. destruct H as [s g ip f fp e x Hs Hip Hf Hn He].
  assert (A : forall c t, s ++ ip ++ f ++ e = c :: t -> is_digit c = true \/ c = "."%char \/ c = "+"%char \/ c = "-"%char).
  { intros c t E. destruct Hs; cbn in E; try (injection E as <- _; auto). destruct (udec_head _ _ _ _ _ _ _ Hip Hf Hn He E); auto. }
  repeat split; intros E; destruct (A _ _ E) as [H|[H|[H|H]]]; discriminate.
Qed.
Lemma decimal_value s m x : decimal s m x ->
  (overflows (numerator m x) (denominator x) /\ parse_comparison_value s = Raise OverflowErr)
  \/ (~ overflows (numerator m x) (denominator x) /\ exists f, nearest (numerator m x) (denominator x) f
      /\ ((exists z, units f = z * 2 ^ 1074 /\ parse_comparison_value s = Ok (LitInt z)) \/ ((forall z, units f <> z * 2 ^ 1074) /\ parse_comparison_value s = Ok (LitFloat f)))).
Proof.
  intros H. pose proof (decimal_unquoted s m x H) as U. destruct (decimal_not_const s m x H) as [C1 [C2 C3]].
  assert (E : parse_comparison_value s = match parse_float s with None => Raise ValueErr | Some f => let! z := int_of_float f in if feqb f (fint z) then Ok (LitInt z) else Ok (LitFloat f) end).
  { unfold parse_comparison_value. rewrite unquoted_not by exact U. rewrite (proj2 (str_eqb_neq _ _) C2), (proj2 (str_eqb_neq _ _) C1), (proj2 (str_eqb_neq _ _) C3). reflexivity. }
  rewrite E. clear E U C1 C2 C3. destruct H as [s g ip f fp e x Hs Hip Hf Hn He]. rewrite (parse_float_decimal s g ip f fp e x Hs Hip Hf Hn He).
  destruct (signed_spec (digits_value 0 (ip ++ fp)) (x - Z.of_nat (length fp)) g) as [[H1 [b H2]]|[H1 H2]].
  - apply digits_value_nonneg. lia.
  - destruct Hs; auto.
  - left. rewrite H2. split; [exact H1 | reflexivity].
  - right. split; [exact H1|]. eexists. split; [exact H2|]. destruct (float_int _ (proj1 H2)) as [[z [U [I F]]]|[U [z [I F]]]].
    + left. exists z. split; [exact U|]. rewrite I. cbn [bind]. rewrite F. reflexivity.
    + right. split; [exact U|]. rewrite I. cbn [bind]. rewrite F. reflexivity.
Qed.
(** Integers within 2^53 are exact. *)
Lemma nearest_int z f : Z.abs z <= 2 ^ 53 -> nearest z 1 f -> units f = z * 2 ^ 1074.
Proof.
  intros Hz [Hd H]. assert (D : double (fint z)).
  { exists z, 0. split; [reflexivity|]. split; [lia|]. cbn [units fint]. rewrite Z.add_0_l. split.
    - rewrite Z.abs_mul, (Z.abs_eq (2 ^ 1074)) by (apply Z.pow_nonneg; lia). rewrite Z.pow_add_r by lia. apply Z.mul_lt_mono_pos_r; [reflexivity|]. apply Z.le_lt_trans with (2 ^ 53); [exact Hz | reflexivity].
    - destruct (Z.eq_dec (Z.abs z) (2 ^ 53)) as [E|E].
      + exists (Z.sgn z), 53. split; [destruct z; cbn; lia|]. split; [lia|]. rewrite Z.pow_add_r by lia. rewrite <- E. assert (Ez : z = Z.sgn z * Z.abs z) by (destruct z; cbn; lia). rewrite Ez at 1. ring.
      + exists z, 0. split; [lia|]. split; [lia|]. reflexivity. }
  specialize (H _ D). cbn [units fint] in H. rewrite Z.add_0_l, !Z.mul_1_r, Z.sub_diag in H. cbn [Z.abs] in H. lia.
Qed.
Lemma integer_value s m : decimal s m 0 -> Z.abs m <= 2 ^ 53 -> parse_comparison_value s = Ok (LitInt m).
Proof.
  intros H Hm. assert (En : numerator m 0 = m) by (unfold numerator; cbn; lia). assert (Ed : denominator 0 = 1) by reflexivity.
  destruct (decimal_value s m 0 H) as [[O _]|[_ [f [N [[z [U V]]|[U V]]]]]].
  - exfalso. rewrite En, Ed in O. unfold overflows in O. assert (2 ^ 53 < 2 ^ 1024 - 2 ^ 970) by reflexivity. rewrite Z.mul_1_r in O. lia.
  - rewrite En, Ed in N. apply nearest_int in N; [|exact Hm]. rewrite V. do 2 f_equal. rewrite N in U. apply Z.mul_cancel_r in U; [auto | apply Z.pow_nonzero; lia].
  - exfalso. rewrite En, Ed in N. apply nearest_int in N; [|exact Hm]. apply (U m N).
Qed.
Lemma digits_decimal s : digits s -> decimal s (digits_value 0 s) 0.
Proof.
  intros H. pose proof (dc [] 1 s [] [] [] 0 sg_none (or_intror H) fr_none ltac:(rewrite app_nil_r; apply H) ex_none) as D. cbn [app length Z.of_nat Z.sub] in D. rewrite !app_nil_r, Z.mul_1_l in D. exact D.
Qed.
Lemma neg_digits_decimal s : digits s -> decimal ("-"%char :: s) (- digits_value 0 s) 0.
Proof.
  intros H. pose proof (dc ($"-") (-1) s [] [] [] 0 sg_minus (or_intror H) fr_none ltac:(rewrite app_nil_r; apply H) ex_none) as D. cbn [app length Z.of_nat Z.sub] in D. rewrite !app_nil_r in D.
  replace (-1 * digits_value 0 s) with (- digits_value 0 s) in D by ring. exact D.
Qed.
Lemma shows_value t l : shows t l -> parse_comparison_value t = Ok l.
Proof.
  intros H. destruct H as [| | |s Hs Hb|s Hs Hb]; try reflexivity.
  - apply integer_value; [apply digits_decimal; exact Hs|]. rewrite Z.abs_eq; [exact Hb | apply digits_value_nonneg; lia].
  - apply integer_value; [apply neg_digits_decimal; exact Hs|]. rewrite Z.abs_opp, Z.abs_eq; [exact Hb | apply digits_value_nonneg; lia].
Qed.
Lemma quoted_value q c : q = dquote \/ q = squote -> parse_comparison_value (q :: c ++ [q]) = Ok (LitStr c).
Proof.
  intros Hq. unfold parse_comparison_value.
  assert (S : starts_with (q :: c ++ [q]) [q] = true) by (apply starts_with_spec; exists (c ++ [q]); reflexivity).
  assert (E : ends_with (q :: c ++ [q]) [q] = true) by (apply ends_with_spec; exists (q :: c); reflexivity).
  assert (C : (starts_with (q :: c ++ [q]) [dquote] && ends_with (q :: c ++ [q]) [dquote]) || (starts_with (q :: c ++ [q]) [squote] && ends_with (q :: c ++ [q]) [squote]) = true).
  { destruct Hq as [-> | ->]; rewrite S, E; [reflexivity | apply orb_true_r]. }
  rewrite C. cbn [tl]. rewrite removelast_last. reflexivity.
Qed.
Lemma other_value s : tight s -> unquoted s -> s <> $"true" -> s <> $"false" -> s <> $"null" -> ~ special s -> (forall m x, ~ decimal s m x) -> parse_comparison_value s = Raise ValueErr.
Proof.
  intros T U C1 C2 C3 Sp D. unfold parse_comparison_value. rewrite unquoted_not by exact U. rewrite (proj2 (str_eqb_neq _ _) C2), (proj2 (str_eqb_neq _ _) C1), (proj2 (str_eqb_neq _ _) C3).
  destruct (parse_float s) as [f|] eqn:E; [|reflexivity]. exfalso. destruct (parse_float_inv s f T E) as [H|[m [x H]]]; [contradiction | exact (D m x H)].
Qed.
