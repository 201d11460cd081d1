(** Rounding to binary64: [round_pos] gives a nearest representable number. *)
From Verif Require Import PyBase PyNum NumFacts NumSpec.
Local Open Scope Z_scope.

(** ** Removing trailing zero bits keeps the value *)

Lemma strip_twos_value fuel : forall m e k, m <> 0 -> 0 <= e + k ->
  let (m', e') := strip_twos fuel m e in e <= e' /\ m' * 2 ^ (e' + k) = m * 2 ^ (e + k) /\ m' <> 0.
Proof.
  induction fuel as [|f IH]; intros m e k Hm Hk; cbn [strip_twos]; [repeat split; [lia | exact Hm]|].
  destruct (Z.even m) eqn:Ev; [|repeat split; [lia | exact Hm]].
  apply Z.even_spec in Ev as [h ->]. replace (2 * h / 2) with h by (symmetry; rewrite Z.mul_comm; apply Z.div_mul; lia).
  specialize (IH h (e + 1) k ltac:(lia) ltac:(lia)). destruct (strip_twos f h (e + 1)) as [m' e'].
  destruct IH as [H1 [H2 H3]]. split; [lia|]. split; [|exact H3]. rewrite H2.
  replace (e + 1 + k) with (Z.succ (e + k)) by lia. rewrite Z.pow_succ_r by lia. ring.
Qed.

Lemma fcanon_value m e k : 0 <= e + k -> 0 <= k ->
  exists m' e', fcanon m e = FFin m' e' /\ 0 <= e' + k /\ m' * 2 ^ (e' + k) = m * 2 ^ (e + k).
Proof.
  intros Hk H0. unfold fcanon. destruct (Z.eqb_spec m 0) as [->|Hm].
  - exists 0, 0. split; [reflexivity|]. split; [lia | lia].
  - pose proof (strip_twos_value (Z.to_nat (Z.log2 (Z.abs m)) + 1) m e k Hm Hk) as H.
    destruct (strip_twos _ m e) as [m' e']. destruct H as [H1 [H2 _]].
    exists m', e'. split; [reflexivity|]. split; [lia | exact H2].
Qed.

(** ** Rounding a quotient to the nearest integer *)

Definition round_div (n d : Z) : Z :=
  let q := n / d in
  let r := n mod d in
  match Z.compare (2 * r) d with
  | Lt => q
  | Gt => q + 1
  | Eq => if Z.even q then q else q + 1
  end.

Lemma round_div_half n d : 0 < d -> 2 * Z.abs (n - round_div n d * d) <= d.
Proof.
  intros Hd. unfold round_div. pose proof (Z.div_mod n d ltac:(lia)) as E. pose proof (Z.mod_pos_bound n d Hd) as B.
  set (q := n / d) in *. set (r := n mod d) in *.
  destruct (Z.compare_spec (2 * r) d); [destruct (Z.even q)| |];
    try replace (n - q * d) with r by lia; try replace (n - (q + 1) * d) with (r - d) by lia; lia.
Qed.
(** ... and no integer is nearer. *)
Lemma round_div_nearest n d g : 0 < d -> Z.abs (n - round_div n d * d) <= Z.abs (n - g * d).
Proof.
  intros Hd. pose proof (round_div_half n d Hd) as H. set (q := round_div n d) in *.
  destruct (Z.eq_dec g q) as [->|Hne]; [lia|].
  assert (Z.abs (q * d - g * d) >= d) by (rewrite <- Z.mul_sub_distr_r, Z.abs_mul; nia).
  lia.
Qed.
Lemma round_div_even n d : 0 < d -> 2 * Z.abs (n - round_div n d * d) = d -> Z.even (round_div n d) = true.
Proof.
  intros Hd. unfold round_div. pose proof (Z.div_mod n d ltac:(lia)) as E. pose proof (Z.mod_pos_bound n d Hd) as B.
  set (q := n / d) in *. set (r := n mod d) in *.
  destruct (Z.compare_spec (2 * r) d) as [H|H|H].
  - destruct (Z.even q) eqn:Ev; [intros _; exact Ev|]. intros _. rewrite Z.even_add, Ev. reflexivity.
  - replace (n - q * d) with r by lia. lia.
  - replace (n - (q + 1) * d) with (r - d) by lia. lia.
Qed.
Lemma round_div_mono_ge n d g : 0 < d -> g * d <= n -> g <= round_div n d.
Proof.
  intros Hd Hg. unfold round_div. assert (g <= n / d) by (apply Z.div_le_lower_bound; lia).
  destruct (Z.compare (2 * (n mod d)) d); [destruct (Z.even (n / d))| |]; lia.
Qed.
Lemma round_div_mono_le n d g : 0 < d -> n <= g * d -> round_div n d <= g.
Proof.
  intros Hd Hg. pose proof (round_div_half n d Hd) as H.
  destruct (Z_le_gt_dec (round_div n d) g) as [|Hgt]; [assumption|].
  assert (n = g * d) by nia. subst n. exfalso.
  unfold round_div in Hgt. rewrite Z.div_mul, Z.mod_mul in Hgt by lia.
  destruct (Z.compare_spec (2 * 0) d); lia.
Qed.

(** ** The binary64 grid *)

(** The rational n/d is compared with m * 2^e after multiplying by d * 2^k. *)
Definition dist (n d m e k : Z) : Z := Z.abs (n * 2 ^ k - m * 2 ^ (e + k) * d).

Definition round_exp (n d : Z) : Z :=
  let k := Z.log2 n - Z.log2 d in
  let below := if 0 <=? k then n <? d * 2 ^ k else n * 2 ^ (- k) <? d in
  Z.max ((if below then k - 1 else k) - 52) (-1074).
Definition round_mant (n d : Z) : Z :=
  let e := round_exp n d in
  round_div (if 0 <=? e then n else n * 2 ^ (- e)) (if 0 <=? e then d * 2 ^ e else d).

Lemma round_pos_eq n d : round_pos n d =
  if (0 <=? round_exp n d) && (2 ^ 1024 <=? round_mant n d * 2 ^ round_exp n d) then FInf false
  else fcanon (round_mant n d) (round_exp n d).
Proof. reflexivity. Qed.

(** Bounds of the scaled quotient: n/d < 2^(53+e), and n/d >= 2^(52+e) unless
    the exponent is minimal. *)
Lemma round_exp_upper n d : 0 < n -> 0 < d -> forall k, 0 <= round_exp n d + k -> 0 <= k ->
  n * 2 ^ k < 2 ^ (53 + round_exp n d + k) * d.
Proof.
  intros Hn Hd k Hk H0. unfold round_exp in *. set (l := Z.log2 n - Z.log2 d) in *.
  pose proof (Z.log2_spec n Hn) as [Ln1 Ln2]. pose proof (Z.log2_spec d Hd) as [Ld1 Ld2].
  pose proof (Z.log2_nonneg n) as Hln. pose proof (Z.log2_nonneg d) as Hld.
  set (below := if 0 <=? l then n <? d * 2 ^ l else n * 2 ^ (- l) <? d) in *.
  set (k' := if below then l - 1 else l) in *.
  assert (Hup : forall j, 0 <= j -> 0 <= k' + 1 + j -> n * 2 ^ j < 2 ^ (k' + 1 + j) * d).
  { intros j Hj Hkj. unfold k' in *. destruct below eqn:Eb.
    - replace (l - 1 + 1 + j) with (l + j) in * by lia. unfold below in Eb.
      destruct (Z.leb_spec 0 l).
      + apply Z.ltb_lt in Eb. rewrite Z.pow_add_r by lia. pose proof (pow2_pos j Hj). nia.
      + apply Z.ltb_lt in Eb. replace j with ((- l) + (l + j)) at 1 by lia. rewrite Z.pow_add_r by lia.
        pose proof (pow2_pos (l + j) ltac:(lia)). nia.
    - (* n < 2^(log2 n + 1) = 2^(l + 1 + log2 d) <= 2^(l+1) d *)
      assert (n * 2 ^ j < 2 ^ (Z.log2 n + 1) * 2 ^ j).
      { apply Z.mul_lt_mono_pos_r; [apply pow2_pos; exact Hj|]. exact Ln2. }
      rewrite <- Z.pow_add_r in H by lia.
      replace (Z.log2 n + 1 + j) with ((l + 1 + j) + Z.log2 d) in H by (unfold l; lia).
      rewrite Z.pow_add_r in H by lia. pose proof (pow2_pos (l + 1 + j) ltac:(lia)). nia. }
  set (e := Z.max (k' - 52) (-1074)) in *.
  set (s := Z.abs k' + 1).
  assert (H1 : n * 2 ^ (k + s) < 2 ^ (k' + 1 + (k + s)) * d) by (apply Hup; lia).
  assert (H2 : 2 ^ (k' + 1 + (k + s)) <= 2 ^ (53 + e + k + s)) by (apply Z.pow_le_mono_r; lia).
  rewrite (Z.pow_add_r 2 k s) in H1 by lia. rewrite (Z.pow_add_r 2 (53 + e + k) s) in H2 by lia.
  pose proof (pow2_pos s ltac:(lia)) as Hs. nia.
Qed.

Lemma round_exp_lower n d : 0 < n -> 0 < d -> -1074 < round_exp n d ->
  forall k, 0 <= round_exp n d + k -> 0 <= k -> 2 ^ (52 + round_exp n d + k) * d <= n * 2 ^ k.
Proof.
  intros Hn Hd Hgt k Hk H0. unfold round_exp in *. set (l := Z.log2 n - Z.log2 d) in *.
  pose proof (Z.log2_spec n Hn) as [Ln1 Ln2]. pose proof (Z.log2_spec d Hd) as [Ld1 Ld2].
  pose proof (Z.log2_nonneg n) as Hln. pose proof (Z.log2_nonneg d) as Hld.
  set (below := if 0 <=? l then n <? d * 2 ^ l else n * 2 ^ (- l) <? d) in *.
  set (k' := if below then l - 1 else l) in *.
  replace (Z.max (k' - 52) (-1074)) with (k' - 52) in * by lia.
  replace (52 + (k' - 52) + k) with (k' + k) by lia.
  assert (Hlo : forall j, 0 <= j -> 0 <= k' + j -> 2 ^ (k' + j) * d <= n * 2 ^ j).
  { intros j Hj Hkj. unfold k' in *. destruct below eqn:Eb.
    - (* d < 2^(log2 d + 1), so d 2^(l-1+j) < 2^(log2 n + j) <= n 2^j *)
      assert (2 ^ (l - 1 + j) * d <= 2 ^ (l - 1 + j) * 2 ^ (Z.log2 d + 1)).
      { apply Z.mul_le_mono_nonneg_l; [pose proof (pow2_pos (l - 1 + j) Hkj); lia|].
        change (Z.log2 d + 1) with (Z.succ (Z.log2 d)). lia. }
      rewrite <- Z.pow_add_r in H by lia.
      replace (l - 1 + j + (Z.log2 d + 1)) with (Z.log2 n + j) in H by (unfold l; lia).
      rewrite (Z.pow_add_r 2 (Z.log2 n) j) in H by lia. pose proof (pow2_pos j Hj). nia.
    - unfold below in Eb. destruct (Z.leb_spec 0 l).
      + apply Z.ltb_ge in Eb. rewrite Z.pow_add_r by lia. pose proof (pow2_pos j Hj). nia.
      + apply Z.ltb_ge in Eb. replace j with ((- l) + (l + j)) at 2 by lia. rewrite (Z.pow_add_r 2 (- l)) by lia.
        pose proof (pow2_pos (l + j) ltac:(lia)). nia. }
  set (s := Z.abs k' + 1).
  assert (H1 : 2 ^ (k' + (k + s)) * d <= n * 2 ^ (k + s)) by (apply Hlo; lia).
  replace (k' + (k + s)) with (k' + k + s) in H1 by lia.
  rewrite (Z.pow_add_r 2 k s) in H1 by lia. rewrite (Z.pow_add_r 2 (k' + k) s) in H1 by lia.
  pose proof (pow2_pos s ltac:(lia)) as Hs. nia.
Qed.

(** The mantissa is the nearest integer of the scaled quotient, at any scale. *)
Lemma round_mant_eq n d k : 0 <= round_exp n d + k -> 0 <= k -> 0 < d ->
  exists c, 0 < c /\ (let D := 2 ^ (round_exp n d + k) * d in
    (exists N, N * c = n * 2 ^ k /\ exists D', 0 < D' /\ D' * c = D /\ round_mant n d = round_div N D')).
Proof.
  intros Hk H0 Hd. unfold round_mant. set (e := round_exp n d) in *. destruct (Z.leb_spec 0 e).
  - exists (2 ^ k). split; [apply pow2_pos; exact H0|]. exists n. split; [reflexivity|].
    exists (d * 2 ^ e). split; [pose proof (pow2_pos e ltac:(lia)); nia|]. split; [|reflexivity].
    rewrite Z.pow_add_r by lia. ring.
  - exists (2 ^ (e + k)). split; [apply pow2_pos; exact Hk|]. exists (n * 2 ^ (- e)). split.
    + rewrite <- Z.mul_assoc, <- Z.pow_add_r by lia. f_equal. f_equal. lia.
    + exists d. split; [exact Hd|]. split; [ring | reflexivity].
Qed.

Lemma round_mant_nearest n d k g : 0 <= round_exp n d + k -> 0 <= k -> 0 < d ->
  dist n d (round_mant n d) (round_exp n d) k <= dist n d g (round_exp n d) k.
Proof.
  intros Hk H0 Hd. destruct (round_mant_eq n d k Hk H0 Hd) as [c [Hc [N [HN [D [HD [HD' ->]]]]]]].
  unfold dist. set (q := round_div N D).
  assert (E : forall x, n * 2 ^ k - x * 2 ^ (round_exp n d + k) * d = (N - x * D) * c).
  { intros x. rewrite <- HN, <- Z.mul_assoc, <- HD'. ring. }
  rewrite !E.
  rewrite !Z.abs_mul. apply Z.mul_le_mono_nonneg_r; [lia|]. apply round_div_nearest. exact HD.
Qed.

Lemma round_mant_bounds n d : 0 < n -> 0 < d ->
  0 <= round_mant n d <= 2 ^ 53 /\ (-1074 < round_exp n d -> 2 ^ 52 <= round_mant n d).
Proof.
  intros Hn Hd. set (k := Z.abs (round_exp n d)).
  assert (Hk : 0 <= round_exp n d + k) by lia. assert (H0 : 0 <= k) by lia.
  pose proof (round_exp_upper n d Hn Hd k Hk H0) as Hup.
  destruct (round_mant_eq n d k Hk H0 Hd) as [c [Hc [N [HN [D [HD [HD' ->]]]]]]].
  replace (53 + round_exp n d + k) with (53 + (round_exp n d + k)) in Hup by lia. rewrite Z.pow_add_r in Hup by lia.
  split; [split|].
  - apply round_div_mono_ge; [exact HD|]. pose proof (pow2_pos k H0). nia.
  - apply round_div_mono_le; [exact HD|]. nia.
  - intros Hgt. pose proof (round_exp_lower n d Hn Hd Hgt k Hk H0) as Hlo.
    replace (52 + round_exp n d + k) with (52 + (round_exp n d + k)) in Hlo by lia. rewrite Z.pow_add_r in Hlo by lia.
    apply round_div_mono_ge; [exact HD|]. nia.
Qed.

(** No number of at most 53 bits on the grid is nearer. *)
Theorem round_nearest n d m e k : 0 < n -> 0 < d -> Z.abs m < 2 ^ 53 -> -1074 <= e ->
  0 <= round_exp n d + k -> 0 <= e + k -> 0 <= k ->
  dist n d (round_mant n d) (round_exp n d) k <= dist n d m e k.
Proof.
  intros Hn Hd Hm He Hk1 Hk2 H0. set (E := round_exp n d) in *.
  destruct (Z_le_gt_dec E e) as [Hle|Hgt].
  - replace (dist n d m e k) with (dist n d (m * 2 ^ (e - E)) E k); [apply round_mant_nearest; assumption|].
    unfold dist. f_equal. f_equal. f_equal. rewrite <- Z.mul_assoc, <- Z.pow_add_r by lia. f_equal. f_equal. lia.
  - (* the candidate is below 2^52 * 2^E, hence farther than that grid point *)
    apply Z.le_trans with (dist n d (2 ^ 52) E k); [apply round_mant_nearest; assumption|].
    pose proof (round_exp_lower n d Hn Hd ltac:(lia) k Hk1 H0) as Hlo. fold E in Hlo.
    unfold dist. rewrite <- Z.pow_add_r by lia. replace (52 + (E + k)) with (52 + E + k) by lia.
    assert (Hsm : m * 2 ^ (e + k) <= 2 ^ (52 + E + k)).
    { apply Z.le_trans with (2 ^ 53 * 2 ^ (e + k)).
      - pose proof (pow2_pos (e + k) Hk2). nia.
      - rewrite <- Z.pow_add_r by lia. apply Z.pow_le_mono_r; lia. }
    assert (m * 2 ^ (e + k) * d <= 2 ^ (52 + E + k) * d) by nia. lia.
Qed.

(** ** Overflow *)

Lemma round_exp_max n d : 0 < n -> 0 < d ->
  (2 ^ 1024 * d <= n -> 972 <= round_exp n d) /\ (n < 2 ^ 1023 * d -> round_exp n d <= 970).
Proof.
  intros Hn Hd. set (E := round_exp n d). split.
  - intros H. destruct (Z_le_gt_dec 972 E) as [|Hlt]; [assumption|]. exfalso.
    set (k := Z.abs E). pose proof (round_exp_upper n d Hn Hd k ltac:(lia) ltac:(lia)) as Hup. fold E in Hup.
    assert (2 ^ (53 + E + k) <= 2 ^ (1024 + k)) by (apply Z.pow_le_mono_r; lia).
    rewrite (Z.pow_add_r 2 1024 k) in H0 by lia. pose proof (pow2_pos k ltac:(lia)).
    generalize dependent (2 ^ (53 + E + k)). generalize dependent (2 ^ 1024). intros; nia.
  - intros H. destruct (Z_le_gt_dec E 970) as [|Hgt]; [assumption|]. exfalso.
    pose proof (round_exp_lower n d Hn Hd ltac:(lia) 0 ltac:(lia) ltac:(lia)) as Hlo. fold E in Hlo.
    assert (2 ^ 1023 <= 2 ^ (52 + E + 0)) by (apply Z.pow_le_mono_r; lia).
    change (2 ^ 0) with 1 in Hlo. generalize dependent (2 ^ (52 + E + 0)). generalize dependent (2 ^ 1023). intros; nia.
Qed.

Lemma round_overflow n d : 0 < n -> 0 < d ->
  ((0 <=? round_exp n d) && (2 ^ 1024 <=? round_mant n d * 2 ^ round_exp n d) = true <->
   (2 ^ 1024 - 2 ^ 970) * d <= n).
Proof.
  intros Hn Hd. set (E := round_exp n d). set (q := round_mant n d).
  destruct (round_mant_bounds n d Hn Hd) as [[Hq0 Hq1] Hq2]. fold q in Hq0, Hq1, Hq2. fold E in Hq2.
  destruct (round_exp_max n d Hn Hd) as [Hmax1 Hmax2]. fold E in Hmax1, Hmax2.
  assert (Hsplit : E <= 970 \/ E = 971 \/ 972 <= E) by lia.
  rewrite andb_true_iff, Z.leb_le, Z.leb_le.
  assert (P970 : 2 ^ 1024 = 2 ^ 970 * 2 ^ 54) by (rewrite <- Z.pow_add_r by lia; reflexivity).
  assert (P971 : 2 ^ 971 = 2 ^ 970 * 2) by reflexivity.
  destruct Hsplit as [H|[H|H]].
  - split; [|intros Hov].
    + intros [HE Hov]. exfalso.
      assert (2 ^ E <= 2 ^ 970) by (apply Z.pow_le_mono_r; lia). pose proof (pow2_pos 970 ltac:(lia)).
      pose proof (pow2_pos E HE). change (2 ^ 53) with 9007199254740992 in Hq1. change (2 ^ 54) with 18014398509481984 in P970.
      generalize dependent (2 ^ E). generalize dependent (2 ^ 970). generalize dependent (2 ^ 1024). intros; nia.
    + exfalso. (* n/d >= 2^1024 - 2^970 >= 2^1023, but E <= 970 means n/d < 2^1023 *)
      set (k := Z.abs E). pose proof (round_exp_upper n d Hn Hd k ltac:(lia) ltac:(lia)) as Hup. fold E in Hup.
      assert (Hp : 2 ^ (53 + E + k) <= 2 ^ (1023 + k)) by (apply Z.pow_le_mono_r; lia).
      rewrite (Z.pow_add_r 2 1023 k) in Hp by lia. pose proof (pow2_pos k ltac:(lia)).
      assert (P1023 : 2 ^ 1023 = 2 ^ 970 * 2 ^ 53) by (rewrite <- Z.pow_add_r by lia; reflexivity).
      pose proof (pow2_pos 970 ltac:(lia)).
      change (2 ^ 53) with 9007199254740992 in P1023. change (2 ^ 54) with 18014398509481984 in P970.
      generalize dependent (2 ^ (53 + E + k)). generalize dependent (2 ^ 1023). generalize dependent (2 ^ 1024).
      generalize dependent (2 ^ 970). intros; nia.
  - assert (Hm : q = round_div n (d * 2 ^ 971)) by (unfold q, round_mant; fold E; rewrite H; reflexivity).
    rewrite H, P971. clear Hmax1 Hmax2. clearbody q. clearbody E. clear E H Hq2.
    pose proof (pow2_pos 970 ltac:(lia)) as Hp. rewrite P970. rewrite P971 in Hm. clear P970 P971.
    change (2 ^ 53) with 9007199254740992 in Hq1. change (2 ^ 54) with 18014398509481984.
    generalize dependent (2 ^ 970). intros h Hm Hp.
    pose proof (round_div_half n (d * (h * 2)) ltac:(nia)) as Hh. rewrite <- Hm in Hh.
    pose proof (round_div_even n (d * (h * 2)) ltac:(nia)) as He. rewrite <- Hm in He.
    split.
    + intros [_ Hov]. assert (Hq' : q = 9007199254740992) by nia. rewrite Hq' in Hh. nia.
    + intros Hov. split; [lia|]. assert (9007199254740992 <= q); [|nia].
      destruct (Z_le_gt_dec 9007199254740992 q) as [|Hlt]; [assumption|]. exfalso.
      assert (Hq : q <= 9007199254740991) by lia.
      assert (Hq' : q = 9007199254740991) by nia. rewrite Hq' in He, Hh.
      assert (Hev : Z.even 9007199254740991 = true) by (apply He; nia). discriminate Hev.
  - split; [intros _|intros _; split; [lia|]].
    + assert (Hlo := round_exp_lower n d Hn Hd ltac:(fold E; lia) 0 ltac:(fold E; lia) ltac:(lia)). fold E in Hlo.
      assert (2 ^ 1024 <= 2 ^ (52 + E + 0)) by (apply Z.pow_le_mono_r; lia).
      pose proof (pow2_pos 970 ltac:(lia)). change (2 ^ 0) with 1 in Hlo.
      generalize dependent (2 ^ (52 + E + 0)). generalize dependent (2 ^ 1024). generalize dependent (2 ^ 970). intros; nia.
    + assert (Hq : 2 ^ 52 <= q) by (apply Hq2; lia).
      assert (2 ^ 1024 <= 2 ^ 52 * 2 ^ E) by (rewrite <- Z.pow_add_r by lia; apply Z.pow_le_mono_r; lia).
      pose proof (pow2_pos E ltac:(lia)). generalize dependent (2 ^ E). generalize dependent (2 ^ 52).
      generalize dependent (2 ^ 1024). intros; nia.
Qed.

(** ** Summary *)

Lemma round_exp_min n d : -1074 <= round_exp n d.
Proof. unfold round_exp. lia. Qed.

Lemma fcanon_units m e : -1074 <= e -> exists m' e', fcanon m e = FFin m' e' /\ -1074 <= e'
  /\ units (fcanon m e) = m * 2 ^ (e + 1074).
Proof.
  intros He. destruct (fcanon_value m e 1074 ltac:(lia) ltac:(lia)) as [m' [e' [E [H1 H2]]]].
  exists m', e'. rewrite E. split; [reflexivity|]. split; [lia | exact H2].
Qed.

Lemma round_pos_spec n d : 0 < n -> 0 < d ->
  (overflows n d /\ round_pos n d = FInf false) \/ (~ overflows n d /\ nearest n d (round_pos n d)).
Proof.
  intros Hn Hd. unfold overflows. rewrite Z.abs_eq by lia. rewrite round_pos_eq.
  pose proof (round_overflow n d Hn Hd) as Hov.
  destruct ((0 <=? round_exp n d) && (2 ^ 1024 <=? round_mant n d * 2 ^ round_exp n d)) eqn:Eo.
  - left. split; [apply Hov; reflexivity | reflexivity].
  - right. split; [intros H; apply Hov in H; discriminate|].
    pose proof (round_exp_min n d) as Hmin. destruct (round_mant_bounds n d Hn Hd) as [[Hq0 Hq1] _].
    set (E := round_exp n d) in *. set (q := round_mant n d) in *.
    destruct (fcanon_units q E Hmin) as [m' [e' [Ef [He' Hu]]]].
    assert (Hmag : Z.abs (q * 2 ^ (E + 1074)) < 2 ^ (1024 + 1074)).
    { pose proof (pow2_pos (E + 1074) ltac:(lia)). rewrite Z.abs_eq by nia.
      destruct (Z_le_gt_dec 0 E) as [H0|H0].
      - replace (0 <=? E) with true in Eo by (symmetry; apply Z.leb_le; exact H0). cbn [andb] in Eo.
        apply Z.leb_gt in Eo. rewrite !Z.pow_add_r by lia. pose proof (pow2_pos 1074 ltac:(lia)).
        generalize dependent (2 ^ E). generalize dependent (2 ^ 1074). generalize dependent (2 ^ 1024). intros; nia.
      - apply Z.le_lt_trans with (2 ^ 53 * 2 ^ (E + 1074)); [nia|]. rewrite <- Z.pow_add_r by lia.
        apply Z.pow_lt_mono_r; lia. }
    split.
    + exists m', e'. split; [exact Ef|]. split; [exact He'|]. rewrite Hu. split; [exact Hmag|].
      destruct (Z.eq_dec q (2 ^ 53)) as [->|Hne].
      * exists (2 ^ 52), (E + 1). split; [reflexivity|]. split; [lia|].
        rewrite <- !Z.pow_add_r by lia. f_equal. lia.
      * exists q, E. split; [lia|]. split; [exact Hmin | reflexivity].
    + intros g [gm [ge [-> [Hge [_ [m0 [e0 [Hm0 [He0 Hg]]]]]]]]]. rewrite Hg, Hu.
      pose proof (round_nearest n d m0 e0 1074 Hn Hd Hm0 He0 ltac:(fold E; lia) ltac:(lia) ltac:(lia)) as H.
      exact H.
Qed.

Lemma units_neg f : units (fneg f) = - units f.
Proof. destruct f; cbn; try reflexivity. ring. Qed.
Lemma double_neg f : double f -> double (fneg f).
Proof.
  intros [m [e [-> [He [Hb [m0 [e0 [H1 [H2 H3]]]]]]]]]. exists (- m), e. split; [reflexivity|]. split; [exact He|].
  split; [rewrite units_neg, Z.abs_opp; exact Hb|]. exists (- m0), e0. rewrite Z.abs_opp, units_neg, H3.
  split; [exact H1|]. split; [exact H2 | ring].
Qed.
Lemma fneg_invol f : fneg (fneg f) = f.
Proof. destruct f; cbn; [f_equal; lia | f_equal; apply negb_involutive | reflexivity]. Qed.
Lemma nearest_neg n d f : nearest n d f -> nearest (- n) d (fneg f).
Proof.
  intros [H1 H2]. split; [apply double_neg; exact H1|]. intros g Hg. apply double_neg in Hg. specialize (H2 _ Hg).
  rewrite units_neg in *. replace (- n * 2 ^ 1074 - - units f * d) with (- (n * 2 ^ 1074 - units f * d)) by ring.
  replace (- n * 2 ^ 1074 - units g * d) with (- (n * 2 ^ 1074 - - units g * d)) by ring. rewrite !Z.abs_opp. exact H2.
Qed.
Lemma double_zero : double (FFin 0 0).
Proof. exists 0, 0. split; [reflexivity|]. split; [lia|]. split; [reflexivity|]. exists 0, 0. repeat split; lia. Qed.

(** float(z) for an int is a nearest float, or OverflowError. *)
Theorem float_of_int_spec z :
  (overflows z 1 /\ float_of_int z = Raise OverflowErr)
  \/ (~ overflows z 1 /\ exists f, float_of_int z = Ok f /\ nearest z 1 f).
Proof.
  unfold float_of_int. destruct (Z.eqb_spec z 0) as [->|Hz].
  - right. split; [unfold overflows; cbn; lia|]. exists (FFin 0 0). split; [reflexivity|].
    split; [exact double_zero|]. intros g _. cbn. lia.
  - destruct (round_pos_spec (Z.abs z) 1 ltac:(lia) ltac:(lia)) as [[H1 ->]|[H1 H2]].
    + left. unfold overflows in *. rewrite Z.abs_involutive in H1. split; [exact H1 | reflexivity].
    + right. unfold overflows in *. rewrite Z.abs_involutive in H1. split; [exact H1|].
      destruct H2 as [Hd Hn]. pose proof Hd as [m [e [Ef _]]]. rewrite Ef. rewrite <- Ef.
      destruct (Z.ltb_spec z 0).
      * exists (fneg (round_pos (Z.abs z) 1)). rewrite Ef. split; [reflexivity|]. rewrite <- Ef.
        replace (nearest z 1) with (nearest (- Z.abs z) 1) by (f_equal; lia). apply nearest_neg. split; assumption.
      * exists (round_pos (Z.abs z) 1). rewrite Ef. split; [reflexivity|]. rewrite <- Ef.
        replace (nearest z 1) with (nearest (Z.abs z) 1) by (f_equal; lia). split; assumption.
Qed.
