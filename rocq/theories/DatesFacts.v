(** Facts about the model of dates. *)
From Coq Require Import ZArith Lia.
From Verif Require Import PyBase Value Dates DatesSpec.
Local Open Scope Z_scope.

(** ** Digits *)

Lemma ten z : 0 <= z <= 9 -> z = 0 \/ z = 1 \/ z = 2 \/ z = 3 \/ z = 4 \/ z = 5 \/ z = 6 \/ z = 7 \/ z = 8 \/ z = 9.
Proof. lia. Qed.
Ltac by_ten H := apply ten in H; repeat (destruct H as [H|H]; [subst; reflexivity|]); subst; reflexivity.
Lemma dig_is z : 0 <= z <= 9 -> is_dig (dig z) = true.
Proof. intros H. by_ten H. Qed.
Lemma dig_code z : 0 <= z <= 9 -> code (dig z) = 48 + z.
Proof. intros H. by_ten H. Qed.
Lemma dig_figure z : 0 <= z <= 9 -> figure z = dig z.
Proof. intros H. by_ten H. Qed.
Definition sign (c : ascii) : Prop := is_dig c = false.
Lemma dig_other z c : 0 <= z <= 9 -> sign c -> Ascii.eqb (dig z) c = false.
Proof. intros H S. destruct (Ascii.eqb_spec (dig z) c) as [<-|]; [|reflexivity]. unfold sign in S. rewrite (dig_is z H) in S. discriminate S. Qed.

Lemma pow_S k : 10 ^ Z.of_nat (S k) = 10 * 10 ^ Z.of_nat k.
Proof. rewrite Nat2Z.inj_succ, Z.pow_succ_r by lia. reflexivity. Qed.
Lemma pow_pos k : 0 < 10 ^ Z.of_nat k.
Proof. apply Z.pow_pos_nonneg; lia. Qed.

Lemma digits_more n m a l x r : digits n a l = Some (x, r) -> digits (n + m) a l = digits m x r.
Proof.
  revert a l. induction n as [|n IH]; intros a l H; cbn [digits] in H.
  - injection H as <- <-. reflexivity.
  - destruct l as [|c l]; [discriminate H|]. cbn [Nat.add digits]. destruct (is_dig c); [|discriminate H]. exact (IH _ _ H).
Qed.
Lemma div10 z k : 0 <= z < 10 ^ Z.of_nat (S k) -> 0 <= z / 10 < 10 ^ Z.of_nat k.
Proof. rewrite pow_S. intros H. split; [apply Z.div_pos; lia | apply Z.div_lt_upper_bound; lia]. Qed.
Lemma mod10 z : 0 <= z mod 10 <= 9.
Proof. pose proof (Z.mod_pos_bound z 10). lia. Qed.
Lemma digits_pad k : forall z a r, 0 <= z < 10 ^ Z.of_nat k -> digits k a (pad k z ++ r) = Some (a * 10 ^ Z.of_nat k + z, r).
Proof.
  induction k as [|k IH]; intros z a r H.
  - cbn [digits pad app]. change (10 ^ Z.of_nat 0) with 1 in *. do 2 f_equal. lia.
  - cbn [pad]. rewrite <- app_assoc. cbn [app]. rewrite <- (Nat.add_1_r k). rewrite (digits_more k 1 _ _ _ _ (IH _ a (dig (z mod 10) :: r) (div10 z k H))).
    cbn [digits]. rewrite (dig_is _ (mod10 z)), (dig_code _ (mod10 z)). rewrite Nat.add_1_r, pow_S. pose proof (Z.div_mod z 10 ltac:(lia)). do 2 f_equal. lia.
Qed.
Lemma pad_dig k z : Forall (fun c => exists x, 0 <= x <= 9 /\ c = dig x) (pad k z).
Proof. revert z. induction k as [|k IH]; intros z; cbn [pad]; [constructor|]. apply Forall_app. split; [apply IH|]. constructor; [|constructor]. eexists. split; [apply mod10 | reflexivity]. Qed.
Lemma pad_length k z : length (pad k z) = k.
Proof. revert z. induction k as [|k IH]; intros z; cbn [pad]; [reflexivity|]. rewrite app_length, IH. cbn. lia. Qed.
Lemma pad2 z : pad 2 z = [dig (z / 10 mod 10); dig (z mod 10)].
Proof. reflexivity. Qed.
Lemma pad4 z : pad 4 z = [dig (z / 10 / 10 / 10 mod 10); dig (z / 10 / 10 mod 10); dig (z / 10 mod 10); dig (z mod 10)].
Proof. reflexivity. Qed.

(** ** The calendar *)

Lemma leap_spec y : leap y = true <-> leaps y.
Proof.
  unfold leap, leaps. rewrite andb_true_iff, orb_true_iff, negb_true_iff, !Z.eqb_eq, Z.eqb_neq.
  rewrite !Z.mod_divide by lia. reflexivity.
Qed.
Lemma days_before_next y : days_before (y + 1) = days_before y + (if leap y then 366 else 365).
Proof.
  unfold days_before, leap. set (p := y - 1). replace (y + 1 - 1) with y by lia.
  pose proof (Z.div_mod y 4 ltac:(lia)). pose proof (Z.mod_pos_bound y 4 ltac:(lia)).
  pose proof (Z.div_mod y 100 ltac:(lia)). pose proof (Z.mod_pos_bound y 100 ltac:(lia)).
  pose proof (Z.div_mod y 400 ltac:(lia)). pose proof (Z.mod_pos_bound y 400 ltac:(lia)).
  pose proof (Z.div_mod p 4 ltac:(lia)). pose proof (Z.mod_pos_bound p 4 ltac:(lia)).
  pose proof (Z.div_mod p 100 ltac:(lia)). pose proof (Z.mod_pos_bound p 100 ltac:(lia)).
  pose proof (Z.div_mod p 400 ltac:(lia)). pose proof (Z.mod_pos_bound p 400 ltac:(lia)).
  destruct (Z.eqb_spec (y mod 4) 0); destruct (Z.eqb_spec (y mod 100) 0); destruct (Z.eqb_spec (y mod 400) 0); cbn [andb orb negb]; unfold p in *; lia.
Qed.
Lemma year_days_leap y k : year_days y k -> k = if leap y then 366 else 365.
Proof. intros [y' H|y' H]; pose proof (leap_spec y') as L; destruct (leap y') eqn:E; try reflexivity; exfalso; [apply L in H; discriminate H | apply H, L; reflexivity]. Qed.
Lemma days_to_year_before y n : days_to_year y n -> n = days_before y.
Proof. intros H. induction H as [|y n k H IH K]; [reflexivity|]. rewrite days_before_next, IH, (year_days_leap y k K). reflexivity. Qed.
Lemma days_to_year_made y : 1 <= y -> days_to_year y (days_before y).
Proof.
  intros H. replace y with (1 + Z.of_nat (Z.to_nat (y - 1))) by lia. generalize (Z.to_nat (y - 1)) as n. clear H y.
  induction n as [|n IH]; [exact dy_first|]. replace (1 + Z.of_nat (S n)) with (1 + Z.of_nat n + 1) by lia. rewrite days_before_next. apply (dy_next _ _ _ IH).
  pose proof (leap_spec (1 + Z.of_nat n)) as L. destruct (leap (1 + Z.of_nat n)); constructor; [apply L; reflexivity|]. intros F. apply L in F. discriminate F.
Qed.

Lemma twelve m : 1 <= m <= 12 -> m = 1 \/ m = 2 \/ m = 3 \/ m = 4 \/ m = 5 \/ m = 6 \/ m = 7 \/ m = 8 \/ m = 9 \/ m = 10 \/ m = 11 \/ m = 12.
Proof. lia. Qed.
Lemma month_days_made y m : 1 <= m <= 12 -> month_days y m (month_length y m).
Proof.
  intros H. pose proof (leap_spec y) as L. apply twelve in H.
  repeat (destruct H as [H|H]; [subst m; unfold month_length; cbn; try (apply md_31; cbn; tauto); try (apply md_30; cbn; tauto)|]);
    [|subst m; apply md_31; cbn; tauto].
  destruct (leap y); constructor; [apply L; reflexivity|]. intros F. apply L in F. discriminate F.
Qed.
Lemma month_days_length y m k : month_days y m k -> 1 <= m <= 12 /\ k = month_length y m.
Proof.
  pose proof (leap_spec y) as L. intros H. inversion H as [F|F|m' I|m' I]; subst.
  - split; [lia|]. unfold month_length. cbn. apply L in F. rewrite F. reflexivity.
  - split; [lia|]. unfold month_length. cbn. destruct (leap y); [exfalso; apply F, L; reflexivity | reflexivity].
  - cbn in I. repeat (destruct I as [I|I]; [subst m; split; [lia | reflexivity]|]). destruct I.
  - cbn in I. repeat (destruct I as [I|I]; [subst m; split; [lia | reflexivity]|]). destruct I.
Qed.
Lemma month_before_next y m : 1 <= m <= 12 -> month_before y (m + 1) = month_before y m + month_length y m.
Proof. intros H. apply twelve in H. unfold month_before, month_length, month_lengths. repeat (destruct H as [H|H]; [subst m; cbn; destruct (leap y); reflexivity|]). subst m. cbn. destruct (leap y); reflexivity. Qed.
Lemma days_to_month_made y m : 1 <= m <= 12 -> days_to_month y m (month_before y m).
Proof.
  intros H. replace m with (1 + Z.of_nat (Z.to_nat (m - 1))) in * by lia. revert H. generalize (Z.to_nat (m - 1)) as n. clear m.
  induction n as [|n IH]; intros H; [exact (dm_first y)|]. replace (1 + Z.of_nat (S n)) with (1 + Z.of_nat n + 1) by lia. rewrite month_before_next by lia.
  apply (dm_next _ _ _ _ (IH ltac:(lia))). apply month_days_made. lia.
Qed.

(** The day found for a number is the one with that number. *)
Lemma find_month_spec y : forall d, 0 <= d < (if leap y then 366 else 365) ->
  exists m e, find_month (month_lengths y) 1 d = (m, e) /\ 1 <= m <= 12 /\ 1 <= e <= month_length y m /\ month_before y m + e = d + 1.
Proof.
  intros d H. unfold month_length, month_before, month_lengths. destruct (leap y);
  (match goal with |- context [find_month ?ls _ _] => set (lens := ls) in |- * at 2 3 end;
  assert (F : forall m e, 1 <= m <= 12 -> 1 <= e <= nth (Z.to_nat (m - 1)) lens 0 -> fold_left Z.add (firstn (Z.to_nat (m - 1)) lens) 0 + e = d + 1 ->
    exists m' e', (m, e) = (m', e') /\ 1 <= m' <= 12 /\ 1 <= e' <= nth (Z.to_nat (m' - 1)) lens 0 /\ fold_left Z.add (firstn (Z.to_nat (m' - 1)) lens) 0 + e' = d + 1) by (intros m e A B C; exists m, e; auto);
  cbn [find_month];
  repeat match goal with |- context [if ?a <? ?b then _ else _] => destruct (Z.ltb_spec a b);
    [match goal with |- context [(?m, ?e) = _] => let m' := eval compute in m in change m with m' end; apply F; [lia | |];
     [match goal with |- _ <= _ <= ?l => let l' := eval compute in l in change l with l' end; lia
     |match goal with |- ?l + _ = _ => let l' := eval compute in l in change l with l' end; lia]|] end; exfalso; lia).
Qed.
Lemma date_of_spec n : 0 <= n < last_day -> match date_of n with (y, m, d) => date_ok y m d = true /\ day_number y m d = n + 1 end.
Proof.
  intros H. unfold last_day in H. unfold date_of.
  set (a := n / 146097). set (r := n mod 146097). set (b := Z.min 3 (r / 36524)). set (r1 := r - 36524 * b).
  set (c := r1 / 1461). set (r2 := r1 mod 1461). set (e := Z.min 3 (r2 / 365)). set (r3 := r2 - 365 * e).
  pose proof (Z.div_mod n 146097 ltac:(lia)) as Ha. pose proof (Z.mod_pos_bound n 146097 ltac:(lia)) as Hr. fold a r in Ha, Hr.
  pose proof (Z.div_mod r 36524 ltac:(lia)) as Hb. pose proof (Z.mod_pos_bound r 36524 ltac:(lia)) as Hb'.
  pose proof (Z.div_mod r1 1461 ltac:(lia)) as Hc. pose proof (Z.mod_pos_bound r1 1461 ltac:(lia)) as Hc'. fold c r2 in Hc, Hc'.
  pose proof (Z.div_mod r2 365 ltac:(lia)) as He. pose proof (Z.mod_pos_bound r2 365 ltac:(lia)) as He'.
  assert (A0 : 0 <= a <= 24) by lia.
  assert (B0 : 0 <= b <= 3 /\ 0 <= r1 <= 36524 /\ (b < 3 -> r1 < 36524)) by (unfold r1, b; lia).
  assert (C0 : 0 <= c <= 24) by lia.
  assert (E0 : 0 <= e <= 3 /\ 0 <= r3 <= 365 /\ (e < 3 -> r3 < 365)) by (unfold r3, e; lia).
  set (y := 400 * a + 100 * b + 4 * c + e + 1).
  assert (Y4 : (y - 1) / 4 = 100 * a + 25 * b + c) by (symmetry; apply (Z.div_unique _ _ _ e); unfold y; lia).
  assert (Y100 : (y - 1) / 100 = 4 * a + b) by (symmetry; apply (Z.div_unique _ _ _ (4 * c + e)); unfold y; lia).
  assert (Y400 : (y - 1) / 400 = a) by (symmetry; apply (Z.div_unique _ _ _ (100 * b + 4 * c + e)); unfold y; lia).
  assert (D : days_before y = n - r3) by (unfold days_before; rewrite Y4, Y100, Y400; unfold y, r3; lia).
  assert (R : 0 <= r3 < (if leap y then 366 else 365)).
  { destruct (leap y) eqn:L; [lia|]. split; [lia|]. destruct (Z.eq_dec r3 365) as [E|]; [exfalso|lia].
    assert (e = 3) by lia. assert (r2 = 1460) by (unfold r3 in E; lia). assert (c = 24 -> b = 3) by lia.
    assert (leap y = true); [|congruence]. apply leap_spec. split; [exists (100 * a + 25 * b + c + 1); unfold y; lia|].
    destruct (Z.eq_dec c 24) as [C|C]; [right; exists (a + 1); unfold y; lia | left]. intros [q Q]. unfold y in Q. lia. }
  destruct (find_month_spec y r3 R) as [m [d [E [M [K S']]]]]. rewrite E. split.
  - unfold date_ok. rewrite !andb_true_iff, !Z.leb_le. repeat split; try lia; unfold y; try lia.
  - unfold day_number. lia.
Qed.

(** ** Reading what is written *)

Definition figs (l : str) : Prop := Forall (fun c => exists x, 0 <= x <= 9 /\ c = dig x) l.
Lemma figs_dig l : figs l -> forallb is_dig l = true.
Proof. intros H. induction H as [|c l [x [Hx ->]] H IH]; [reflexivity|]. cbn [forallb]. rewrite (dig_is x Hx). exact IH. Qed.
Lemma skip_figs l r : figs l -> sign (peek r) -> skip_digits (l ++ r) = r.
Proof.
  intros H S. induction H as [|c l [x [Hx ->]] H IH].
  - destruct r as [|c r]; [reflexivity|]. cbn [app skip_digits]. unfold sign in S. cbn [peek] in S. rewrite S. reflexivity.
  - cbn [app skip_digits]. rewrite (dig_is x Hx). exact IH.
Qed.
(** The number a row of figures stands for. *)
Definition worth (a : Z) (l : str) : Z := fold_left (fun a c => a * 10 + (code c - 48)) l a.
Lemma digits_figs l : forall a r, figs l -> digits (length l) a (l ++ r) = Some (worth a l, r).
Proof. induction l as [|c l IH]; intros a r H; [reflexivity|]. inversion H as [|c' l' [x [Hx ->]] H']; subst. cbn [length digits app]. rewrite (dig_is x Hx). exact (IH _ r H'). Qed.
Lemma digits2 z a r : 0 <= z <= 99 -> digits 2 a (pad 2 z ++ r) = Some (a * 100 + z, r).
Proof. intros H. rewrite (digits_pad 2 z a r). { reflexivity. } change (10 ^ Z.of_nat 2) with 100. lia. Qed.

(** The microseconds of a fraction. *)
Definition micros (f : str) : Z := worth 0 (firstn 6 f) * 10 ^ Z.of_nat (6 - Nat.min (length f) 6).
Lemma read_fraction_figs v f r : figs f -> sign (peek r) ->
  read_fraction v (f ++ r) (length f) = Some (clock_of v (micros f) (negb (Ascii.eqb (peek r) nul))).
Proof.
  intros H S. unfold read_fraction, micros. set (k := Nat.min (length f) 6).
  assert (L : length (firstn 6 f) = k) by (rewrite firstn_length; apply Nat.min_comm).
  assert (E : f ++ r = firstn 6 f ++ (skipn 6 f ++ r)) by (rewrite app_assoc, firstn_skipn; reflexivity).
  unfold figs in H. rewrite <- (firstn_skipn 6 f) in H. apply Forall_app in H as [H1 H2].
  rewrite E. rewrite <- L. rewrite (digits_figs _ 0 _ H1). rewrite (skip_figs _ r H2 S). reflexivity.
Qed.

(** A clock of hours, minutes, seconds and perhaps a fraction; and one of hours and minutes. *)
Definition with_fraction (f : str) : str := match f with [] => [] | _ => "."%char :: f end.
Definition hms (h m s : Z) (f : str) : str := pad 2 h ++ ":"%char :: pad 2 m ++ ":"%char :: pad 2 s ++ with_fraction f.
Definition hm (h m : Z) : str := pad 2 h ++ ":"%char :: pad 2 m.
Lemma hms_length h m s f : length (hms h m s f) = (8 + length (with_fraction f))%nat.
Proof. reflexivity. Qed.
Lemma read_hms h m s f r : 0 <= h <= 99 -> 0 <= m <= 99 -> 0 <= s <= 99 -> figs f -> sign (peek r) ->
  read_clock (hms h m s f ++ r) (length (hms h m s f)) = Some (h, m, s, micros f, negb (Ascii.eqb (peek r) nul)).
Proof.
  intros Hh Hm Hs Hf Hr. rewrite hms_length. unfold hms, read_clock. rewrite <- !app_assoc. cbn [app]. rewrite <- !app_assoc. cbn [app]. rewrite <- !app_assoc.
  cbn [read_fields]. rewrite (digits2 h 0 _ Hh). cbn [peek tl]. change (Ascii.eqb ":" ":") with true.
  replace (Nat.leb (8 + length (with_fraction f)) 3) with false by reflexivity. cbn [andb].
  replace (8 + length (with_fraction f) - 3)%nat with (5 + length (with_fraction f))%nat by lia.
  rewrite (digits2 m 0 _ Hm). cbn [peek tl]. change (Ascii.eqb ":" ":") with true.
  replace (Nat.leb (5 + length (with_fraction f)) 3) with false by reflexivity. cbn [andb].
  replace (5 + length (with_fraction f) - 3)%nat with (2 + length (with_fraction f))%nat by lia.
  rewrite (digits2 s 0 _ Hs). destruct f as [|c f].
  - reflexivity.
  - cbn [with_fraction app peek tl length]. change (Ascii.eqb "." ":") with false. change (Ascii.eqb "." ".") with true. cbn [andb orb].
    replace (Nat.leb (2 + S (S (length f))) 3) with false by reflexivity. replace (2 + S (S (length f)) - 3)%nat with (length (c :: f)) by (cbn [length]; lia).
    change (c :: f ++ r) with ((c :: f) ++ r). rewrite (read_fraction_figs _ (c :: f) r Hf Hr). reflexivity.
Qed.
Lemma read_hm h m r : 0 <= h <= 99 -> 0 <= m <= 99 ->
  read_clock (hm h m ++ r) 5 = Some (h, m, 0, 0, negb (Ascii.eqb (peek r) nul)).
Proof.
  intros Hh Hm. unfold hm, read_clock. rewrite <- !app_assoc. cbn [app].
  cbn [read_fields]. rewrite (digits2 h 0 _ Hh). cbn [peek tl]. change (Ascii.eqb ":" ":") with true. cbn [Nat.leb andb Nat.sub].
  rewrite (digits2 m 0 _ Hm). reflexivity.
Qed.

(** Where the offset starts. *)
Lemma zone_at_app l r : Forall (fun c => is_zone c = false) l -> (r = [] \/ is_zone (peek r) = true) -> zone_at (l ++ r) = length l.
Proof.
  intros H R. induction H as [|c l Hc H IH]; cbn [app zone_at length]; [|rewrite Hc, IH; reflexivity].
  destruct R as [->|R]; [reflexivity|]. destruct r as [|c r]; [reflexivity|]. cbn [zone_at peek] in *. rewrite R. reflexivity.
Qed.
Lemma dig_zone x : 0 <= x <= 9 -> is_zone (dig x) = false.
Proof. intros H. by_ten H. Qed.
Lemma figs_zone l : figs l -> Forall (fun c => is_zone c = false) l.
Proof. intros H. eapply Forall_impl; [|exact H]. intros c [x [Hx ->]]. exact (dig_zone x Hx). Qed.
Lemma hms_zone h m s f : figs f -> Forall (fun c => is_zone c = false) (hms h m s f).
Proof.
  intros H. unfold hms. repeat (first [apply Forall_app; split; [apply figs_zone, pad_dig|] | constructor; [reflexivity|]]).
  destruct f as [|c f]; [constructor|]. constructor; [reflexivity | exact (figs_zone _ H)].
Qed.
Lemma read_time_hms h m s f z off : 0 <= h <= 23 -> 0 <= m <= 59 -> 0 <= s <= 59 -> figs f -> (z = [] \/ is_zone (peek z) = true) -> read_zone z = Some off ->
  read_time (hms h m s f ++ z) = Some (((h * 60 + m) * 60 + s) * second_us + micros f, off).
Proof.
  intros Hh Hm Hs Hf Hz Ho. unfold read_time. rewrite (zone_at_app _ z (hms_zone h m s f Hf) Hz).
  assert (Sg : sign (peek z)) by (destruct Hz as [->|Hz]; [reflexivity|]; revert Hz; unfold is_zone, sign; destruct (Ascii.eqb_spec (peek z) "+") as [->|_]; [reflexivity|]; destruct (Ascii.eqb_spec (peek z) "-") as [->|_]; [reflexivity|]; destruct (Ascii.eqb_spec (peek z) "Z") as [->|_]; [reflexivity | discriminate]).
  rewrite (read_hms h m s f z) by (try assumption; lia).
  rewrite skipn_app, skipn_all, Nat.sub_diag. cbn [skipn app]. rewrite Ho.
  replace (negb _ && _) with false.
  2: { symmetry. apply andb_false_iff. destruct Hz as [->|Hz]; [left; reflexivity|]. right. apply Nat.eqb_neq. rewrite app_length. destruct z; [discriminate Hz|]. cbn [length]. lia. }
  replace (h <=? 23) with true by (symmetry; apply Z.leb_le; lia). replace (m <=? 59) with true by (symmetry; apply Z.leb_le; lia). replace (s <=? 59) with true by (symmetry; apply Z.leb_le; lia).
  reflexivity.
Qed.

(** The date. *)
Definition ymd (y m d : Z) : str := pad 4 y ++ "-"%char :: pad 2 m ++ "-"%char :: pad 2 d.
Lemma date_ok_range y m d : date_ok y m d = true -> 1 <= y <= 9999 /\ 1 <= m <= 12 /\ 1 <= d <= month_length y m /\ month_length y m <= 31.
Proof.
  unfold date_ok. rewrite !andb_true_iff, !Z.leb_le. intros H. split; [lia|]. split; [lia|]. split; [lia|]. assert (M : 1 <= m <= 12) by lia. clear H. apply twelve in M. unfold month_length, month_lengths.
  repeat (destruct M as [M|M]; [subst m; destruct (leap y); compute; discriminate|]). subst m. compute. discriminate.
Qed.
Lemma day_number_range y m d : date_ok y m d = true -> 1 <= day_number y m d <= last_day.
Proof.
  intros H. apply date_ok_range in H as [Hy [Hm [Hd _]]].
  assert (A : 0 <= days_before y /\ days_before y + (if leap y then 366 else 365) <= last_day).
  { rewrite <- days_before_next. unfold days_before, last_day.
    pose proof (Z.div_mod (y - 1) 4 ltac:(lia)). pose proof (Z.mod_pos_bound (y - 1) 4 ltac:(lia)).
    pose proof (Z.div_mod (y - 1) 100 ltac:(lia)). pose proof (Z.mod_pos_bound (y - 1) 100 ltac:(lia)).
    pose proof (Z.div_mod (y - 1) 400 ltac:(lia)). pose proof (Z.mod_pos_bound (y - 1) 400 ltac:(lia)).
    replace (y + 1 - 1) with y by lia.
    pose proof (Z.div_mod y 4 ltac:(lia)). pose proof (Z.mod_pos_bound y 4 ltac:(lia)).
    pose proof (Z.div_mod y 100 ltac:(lia)). pose proof (Z.mod_pos_bound y 100 ltac:(lia)).
    pose proof (Z.div_mod y 400 ltac:(lia)). pose proof (Z.mod_pos_bound y 400 ltac:(lia)). lia. }
  assert (B : 0 <= month_before y m /\ month_before y m + month_length y m <= (if leap y then 366 else 365)).
  { apply twelve in Hm. clear Hd A Hy. unfold month_before, month_length, month_lengths. destruct (leap y);
    (repeat (destruct Hm as [Hm|Hm]; [subst m; split; compute; discriminate|]); subst m; split; compute; discriminate). }
  unfold day_number. lia.
Qed.
Lemma read_ymd y m d r n : date_ok y m d = true -> read_date (ymd y m d ++ r) n = Some (day_number y m d).
Proof.
  intros H. pose proof (date_ok_range y m d H) as [Hy [Hm [Hd Hl]]]. unfold read_date, ymd. rewrite <- !app_assoc. cbn [app]. rewrite <- !app_assoc. cbn [app].
  rewrite (digits_pad 4 y 0) by (change (10 ^ Z.of_nat 4) with 10000; lia). cbn [Z.mul Z.add]. cbn [peek tl]. change (Ascii.eqb "-" "-") with true.
  cbv beta zeta iota. assert (W : forall t, Ascii.eqb (peek (pad 2 m ++ t)) "W" = false) by (intros t; rewrite pad2; cbn [app peek]; apply dig_other; [apply mod10 | reflexivity]).
  cbn [tl]. rewrite W. rewrite (digits2 m 0) by lia. cbn [Z.mul Z.add dash peek tl]. change (Ascii.eqb "-" "-") with true. cbn iota.
  rewrite (digits2 d 0) by lia. cbn [Z.mul Z.add]. rewrite H. reflexivity.
Qed.
Lemma ymd_separator y m d r : r <> [] -> separator (ymd y m d ++ r) = Some 10%nat.
Proof.
  intros R. unfold separator. replace (length (ymd y m d ++ r)) with (10 + length r)%nat by (rewrite app_length; reflexivity). cbn [Nat.add Nat.eqb].
  unfold ymd. rewrite pad4, pad2. cbn [app at_pos nth]. change (Ascii.eqb "-" "-") with true. rewrite dig_other by (reflexivity || apply mod10). reflexivity.
Qed.

(** Texts of plain characters. *)
Definition plain_char (c : ascii) : Prop := code c <? 128 = true.
Lemma utf8_plain s : Forall plain_char s -> utf8 s = s.
Proof. intros H. induction H as [|c s Hc H IH]; [reflexivity|]. unfold utf8 in *. cbn [flat_map]. unfold plain_char in Hc. rewrite Hc. cbn [app]. f_equal. exact IH. Qed.
Lemma figs_plain l : figs l -> Forall plain_char l.
Proof. intros H. eapply Forall_impl; [|exact H]. intros c [x [Hx ->]]. unfold plain_char. rewrite (dig_code x Hx). apply Z.ltb_lt. lia. Qed.
Lemma hms_plain h m s f : figs f -> Forall plain_char (hms h m s f).
Proof.
  intros H. unfold hms. repeat (first [apply Forall_app; split; [apply figs_plain, pad_dig|] | constructor; [reflexivity|]]).
  destruct f as [|c f]; [constructor|]. constructor; [reflexivity | exact (figs_plain _ H)].
Qed.
Lemma ymd_plain y m d : Forall plain_char (ymd y m d).
Proof. unfold ymd. repeat (first [apply Forall_app; split; [apply figs_plain, pad_dig|] | constructor; [reflexivity|]]). apply figs_plain, pad_dig. Qed.

Lemma from_iso_text y mo d h m s f z off : date_ok y mo d = true -> 0 <= h <= 23 -> 0 <= m <= 59 -> 0 <= s <= 59 -> figs f ->
  (z = [] \/ is_zone (peek z) = true) -> Forall plain_char z -> read_zone z = Some off ->
  from_iso (ymd y mo d ++ "T"%char :: hms h m s f ++ z) = Some (mkDT ((day_number y mo d - 1) * day_us + (((h * 60 + m) * 60 + s) * second_us + micros f)) off).
Proof.
  intros H Hh Hm Hs Hf Hz Pz Ho. unfold from_iso. rewrite utf8_plain.
  2: { apply Forall_app; split; [apply ymd_plain|]. constructor; [reflexivity|]. apply Forall_app; split; [exact (hms_plain h m s f Hf) | exact Pz]. }
  replace (Nat.ltb _ 7) with false by reflexivity. rewrite ymd_separator by discriminate. rewrite (read_ymd _ _ _ _ _ H).
  pose proof (day_number_range _ _ _ H) as R. replace (1 <=? _) with true by (symmetry; apply Z.leb_le; lia). replace (_ <=? last_day) with true by (symmetry; apply Z.leb_le; lia). cbn [andb].
  replace (skipn 10 _) with ("T"%char :: hms h m s f ++ z) by reflexivity. change (code "T" <? 128) with true. cbn iota. rewrite (read_time_hms h m s f z off Hh Hm Hs Hf Hz Ho). reflexivity.
Qed.

(** ** What reading yields *)

Lemma is_dig_code c : is_dig c = true -> 0 <= code c - 48 <= 9.
Proof. unfold is_dig. rewrite andb_true_iff, !Z.leb_le. lia. Qed.
Lemma digits_range n : forall a l x r, digits n a l = Some (x, r) -> a * 10 ^ Z.of_nat n <= x < (a + 1) * 10 ^ Z.of_nat n.
Proof.
  induction n as [|n IH]; intros a l x r H; cbn [digits] in H.
  - injection H as <- <-. change (10 ^ Z.of_nat 0) with 1. lia.
  - destruct l as [|c l]; [discriminate H|]. destruct (is_dig c) eqn:D; [|discriminate H]. apply is_dig_code in D. apply IH in H. rewrite pow_S.
    pose proof (pow_pos n). split; [eapply Z.le_trans; [|exact (proj1 H)] | eapply Z.lt_le_trans; [exact (proj2 H)|]]; nia.
Qed.
Definition fair (c : clock) : Prop := match c with (h, m, s, us, _) => 0 <= h /\ 0 <= m /\ 0 <= s /\ 0 <= us < second_us end.
Lemma clock_fair v us b : Forall (fun x => 0 <= x) v -> 0 <= us < second_us -> fair (clock_of v us b).
Proof.
  intros H U. assert (A : forall k, 0 <= hand k v) by (intros k; unfold hand; destruct (Nat.lt_ge_cases k (length v)) as [L|L]; [rewrite Forall_forall in H; apply H, nth_In, L | rewrite nth_overflow by exact L; lia]).
  unfold clock_of, fair. auto.
Qed.
Lemma fraction_fair v l n c : Forall (fun x => 0 <= x) v -> read_fraction v l n = Some c -> fair c.
Proof.
  intros H R. unfold read_fraction in R. set (k := Nat.min n 6) in R. destruct (digits k 0 l) as [[u r]|] eqn:D; [|discriminate R]. injection R as <-.
  apply clock_fair; [exact H|]. apply digits_range in D. assert (K : (k <= 6)%nat) by apply Nat.le_min_r.
  assert (P : 10 ^ Z.of_nat k * 10 ^ Z.of_nat (6 - k) = second_us) by (rewrite <- Z.pow_add_r, <- Nat2Z.inj_add by lia; replace (k + (6 - k))%nat with 6%nat by lia; reflexivity).
  pose proof (pow_pos (6 - k)). pose proof (pow_pos k). split; [nia|]. rewrite <- P. apply Z.mul_lt_mono_pos_r; lia.
Qed.
Lemma fields_fair k : forall first hs v l n c, Forall (fun x => 0 <= x) v -> read_fields k first hs v l n = Some c -> fair c.
Proof.
  induction k as [|k IH]; intros first hs v l n c H R; cbn [read_fields] in R; [exact (fraction_fair _ _ _ _ H R)|].
  destruct (digits 2 0 l) as [[x r]|] eqn:D; [|discriminate R]. apply digits_range in D.
  assert (V : Forall (fun x => 0 <= x) (v ++ [x])) by (apply Forall_app; split; [exact H | constructor; [lia | constructor]]).
  destruct (Nat.leb n 3); [injection R as <-; apply clock_fair; [exact V | unfold second_us; lia]|].
  destruct (_ && _); [exact (IH _ _ _ _ _ _ V R)|]. destruct (_ || _); [exact (fraction_fair _ _ _ _ V R)|]. destruct (if first then _ else _); [discriminate R | exact (IH _ _ _ _ _ _ V R)].
Qed.
Lemma clock_is_fair l n c : read_clock l n = Some c -> fair c.
Proof. apply fields_fair. constructor. Qed.

(** Offsets that are read: less than a day, and either none or a second at least. *)
Definition offset_ok (off : option Z) : Prop := match off with None => True | Some o => o = 0 \/ second_us <= Z.abs o < day_us end.
Lemma zone_ok z off : read_zone z = Some off -> offset_ok off.
Proof.
  unfold read_zone. destruct z as [|c l]; [intros [= <-]; exact I|]. destruct (Ascii.eqb c "Z"); [destruct (Ascii.eqb _ _); [intros [= <-]; left; reflexivity | discriminate]|].
  destruct (read_clock l (length l)) as [[[[[h m] s] us] [|]]|] eqn:R; try discriminate. apply clock_is_fair in R as [Hh [Hm [Hs Hu]]].
  set (sec := h * 3600 + m * 60 + s). set (o := if sec =? 0 then 0 else sec * second_us + us). destruct (Z.ltb_spec o day_us) as [L|]; [|discriminate]. intros [= <-].
  unfold offset_ok. assert (0 <= sec) by (unfold sec; lia). unfold o in *. destruct (Z.eqb_spec sec 0) as [E|E]; [left; destruct (Ascii.eqb c "-"); reflexivity|]. right. unfold second_us in *. destruct (Ascii.eqb c "-"); lia.
Qed.
Lemma time_ok l t off : read_time l = Some (t, off) -> 0 <= t < day_us /\ offset_ok off.
Proof.
  unfold read_time. destruct (read_clock _ _) as [[[[[h m] s] us] more]|] eqn:R; [|discriminate]. apply clock_is_fair in R as [Hh [Hm [Hs Hu]]].
  destruct (_ && Nat.eqb _ _); [discriminate|]. destruct (read_zone _) as [off'|] eqn:Z; [|discriminate]. apply zone_ok in Z.
  destruct ((h <=? 23) && (m <=? 59) && (s <=? 59)) eqn:B; [|discriminate]. rewrite !andb_true_iff, !Z.leb_le in B. intros E. injection E as <- <-. split; [|exact Z]. unfold day_us, second_us in *. lia.
Qed.
Lemma from_iso_ok s d : from_iso s = Some d -> 0 <= dt_local d / day_us < last_day /\ offset_ok (dt_off d).
Proof.
  unfold from_iso. destruct (Nat.ltb _ _); [discriminate|]. destruct (separator _) as [k|]; [|discriminate]. destruct (read_date _ k) as [o|]; [|discriminate].
  destruct ((1 <=? o) && (o <=? last_day)) eqn:B; [|discriminate]. rewrite andb_true_iff, !Z.leb_le in B.
  assert (Q : forall t, 0 <= t < day_us -> 0 <= ((o - 1) * day_us + t) / day_us < last_day).
  { intros t T. rewrite Z.div_add_l by (unfold day_us, second_us; lia). rewrite (Z.div_small t) by exact T. lia. }
  destruct (skipn k _) as [|c t].
  - intros [= <-]. cbn [dt_local dt_off]. split; [|exact I]. rewrite <- (Z.add_0_r ((o - 1) * day_us)). apply Q. unfold day_us, second_us. lia.
  - destruct (read_time _) as [[us off]|] eqn:R; [|discriminate]. intros E. injection E as <-. cbn [dt_local dt_off]. apply time_ok in R as [T O]. split; [apply Q, T | exact O].
Qed.

(** ** Writing *)

Lemma micros_pad us : 0 <= us < second_us -> micros (pad 6 us) = us.
Proof.
  intros H. unfold micros. rewrite pad_length. rewrite firstn_all2 by (rewrite pad_length; lia). change (6 - Nat.min 6 6)%nat with 0%nat. change (10 ^ Z.of_nat 0) with 1.
  pose proof (digits_figs (pad 6 us) 0 [] (pad_dig 6 us)) as D. rewrite pad_length, digits_pad in D by (change (10 ^ Z.of_nat 6) with 1000000; unfold second_us in H; lia).
  apply (f_equal (fun o => match o with Some (x, _) => x | None => 0 end)) in D. cbn [Z.mul Z.add] in D. lia.
Qed.
Definition fraction_of (us : Z) : str := if us =? 0 then [] else pad 6 us.
Lemma fraction_shown us : (if us =? 0 then [] else "."%char :: pad 6 us) = with_fraction (fraction_of us).
Proof. unfold fraction_of. destruct (us =? 0); [reflexivity|]. unfold with_fraction. destruct (pad 6 us) eqn:E; [|reflexivity]. pose proof (pad_length 6 us) as L. rewrite E in L. discriminate L. Qed.
Lemma fraction_figs us : figs (fraction_of us).
Proof. unfold fraction_of. destruct (us =? 0); [constructor | apply pad_dig]. Qed.
Lemma fraction_micros us : 0 <= us < second_us -> micros (fraction_of us) = us.
Proof. intros H. unfold fraction_of. destruct (Z.eqb_spec us 0) as [->|]; [reflexivity | exact (micros_pad us H)]. Qed.
Lemma to_iso_text d : to_iso d = match date_of (dt_local d / day_us) with (y, mo, da) =>
    let t := dt_local d mod day_us in let s := t / second_us in
    ymd y mo da ++ "T"%char :: hms (s / 3600) (s / 60 mod 60) (s mod 60) (fraction_of (t mod second_us)) ++ show_zone (dt_off d) end.
Proof.
  unfold to_iso. destruct (date_of _) as [[y mo] da]. cbv zeta. rewrite fraction_shown. unfold ymd, hms.
  rewrite <- !app_assoc. cbn [app]. rewrite <- !app_assoc. cbn [app]. rewrite <- !app_assoc. cbn [app]. reflexivity.
Qed.
Lemma clock_parts t : 0 <= t < day_us -> let s := t / second_us in
  0 <= s / 3600 <= 23 /\ 0 <= s / 60 mod 60 <= 59 /\ 0 <= s mod 60 <= 59 /\ 0 <= t mod second_us < second_us
  /\ ((s / 3600 * 60 + s / 60 mod 60) * 60 + s mod 60) * second_us + t mod second_us = t.
Proof.
  intros H s. unfold day_us in H. pose proof (Z.div_mod t second_us ltac:(unfold second_us; lia)) as T. pose proof (Z.mod_pos_bound t second_us ltac:(unfold second_us; lia)) as T'. fold s in T.
  pose proof (Z.div_mod s 60 ltac:(lia)) as A. pose proof (Z.mod_pos_bound s 60 ltac:(lia)) as A'.
  pose proof (Z.div_mod (s / 60) 60 ltac:(lia)) as B. pose proof (Z.mod_pos_bound (s / 60) 60 ltac:(lia)) as B'.
  rewrite Z.div_div in B by lia. change (60 * 60) with 3600 in B. unfold second_us in *.
  assert (0 <= s < 86400) by lia. repeat match goal with |- _ /\ _ => split end; try lia.
Qed.
Lemma show_zone_plain off : Forall plain_char (show_zone off).
Proof.
  destruct off as [o|]; [|constructor]. unfold show_zone. constructor; [destruct (o <? 0); reflexivity|].
  apply Forall_app. split; [apply figs_plain, pad_dig|]. constructor; [reflexivity|]. apply Forall_app. split; [apply figs_plain, pad_dig|].
  destruct (_ && _); [constructor|]. constructor; [reflexivity|]. apply Forall_app. split; [apply figs_plain, pad_dig|]. destruct (_ =? _); constructor; [reflexivity | apply figs_plain, pad_dig].
Qed.
Lemma show_zone_start off : show_zone off = [] \/ is_zone (peek (show_zone off)) = true.
Proof. destruct off as [o|]; [right | left; reflexivity]. unfold show_zone. cbn [peek]. destruct (o <? 0); reflexivity. Qed.
Lemma read_shown_zone off : offset_ok off -> read_zone (show_zone off) = Some off.
Proof.
  intros H. destruct off as [o|]; [|reflexivity]. unfold show_zone. set (a := Z.abs o). set (us := a mod second_us). set (s := a / second_us).
  assert (A : 0 <= a < day_us) by (unfold offset_ok in H; unfold a, day_us, second_us in *; lia).
  pose proof (clock_parts a A) as P. fold s us in P. cbv zeta in P. destruct P as [P1 [P2 [P3 [P4 P5]]]]. fold us in P4, P5.
  cbn [read_zone]. replace (Ascii.eqb (if o <? 0 then "-"%char else "+"%char) "Z") with false by (destruct (o <? 0); reflexivity).
  assert (Z0 : s = 0 -> us = 0 /\ o = 0) by (intros E; unfold offset_ok in H; unfold s, us in *; destruct H as [->|H]; [split; reflexivity|]; exfalso; fold a in H; unfold second_us in *; pose proof (Z.div_mod a 1000000 ltac:(lia)); pose proof (Z.mod_pos_bound a 1000000 ltac:(lia)); lia).
  assert (R : read_clock (pad 2 (s / 3600) ++ ":"%char :: pad 2 (s / 60 mod 60) ++ (if (us =? 0) && (s mod 60 =? 0) then [] else ":"%char :: pad 2 (s mod 60) ++ (if us =? 0 then [] else "."%char :: pad 6 us)))
                (length (pad 2 (s / 3600) ++ ":"%char :: pad 2 (s / 60 mod 60) ++ (if (us =? 0) && (s mod 60 =? 0) then [] else ":"%char :: pad 2 (s mod 60) ++ (if us =? 0 then [] else "."%char :: pad 6 us))))
              = Some (s / 3600, s / 60 mod 60, s mod 60, us, false)).
  { rewrite fraction_shown. destruct ((us =? 0) && (s mod 60 =? 0)) eqn:E.
    - apply andb_prop in E as [E1 E2]. apply Z.eqb_eq in E1, E2. rewrite E1, E2. rewrite app_nil_r. pose proof (read_hm (s / 3600) (s / 60 mod 60) [] ltac:(lia) ltac:(lia)) as Q. rewrite app_nil_r in Q. exact Q.
    - pose proof (read_hms (s / 3600) (s / 60 mod 60) (s mod 60) (fraction_of us) [] ltac:(lia) ltac:(lia) ltac:(lia) (fraction_figs us) eq_refl) as Q.
      rewrite (fraction_micros us P4) in Q. unfold hms in Q. rewrite app_nil_r in Q. exact Q. }
  rewrite R. set (sec := s / 3600 * 3600 + s / 60 mod 60 * 60 + s mod 60). assert (S0 : sec = s) by (unfold sec, second_us in *; pose proof (Z.div_mod a 1000000 ltac:(lia)); unfold s, us, second_us in *; lia).
  rewrite S0. assert (V : (if s =? 0 then 0 else s * second_us + us) = a).
  { destruct (Z.eqb_spec s 0) as [E|E]; [destruct (Z0 E) as [_ ->]; reflexivity|]. unfold s, us. pose proof (Z.div_mod a second_us ltac:(unfold second_us; lia)). lia. }
  rewrite V. replace (a <? day_us) with true by (symmetry; apply Z.ltb_lt; lia). unfold a. destruct (Z.ltb_spec o 0); cbn; do 2 f_equal; lia.
Qed.

(** A date that was read is read again from its own text. *)
Lemma iso_back s d : from_iso s = Some d -> from_iso (to_iso d) = Some d.
Proof.
  intros H. apply from_iso_ok in H as [D O]. rewrite to_iso_text. pose proof (date_of_spec _ D) as Sp. destruct (date_of (dt_local d / day_us)) as [[y mo] da]. destruct Sp as [Ok N]. cbv zeta.
  assert (P : 0 < day_us) by reflexivity. pose proof (Z.mod_pos_bound (dt_local d) day_us P) as T. pose proof (clock_parts _ T) as C. cbv zeta in C. destruct C as [C1 [C2 [C3 [C4 C5]]]].
  rewrite (from_iso_text y mo da _ _ _ _ _ (dt_off d) Ok C1 C2 C3 (fraction_figs _) (show_zone_start _) (show_zone_plain _) (read_shown_zone _ O)).
  rewrite (fraction_micros _ C4), C5, N. pose proof (Z.div_mod (dt_local d) day_us ltac:(lia)) as Q. destruct d as [l o]. cbn [dt_local dt_off] in *. do 2 f_equal. lia.
Qed.
