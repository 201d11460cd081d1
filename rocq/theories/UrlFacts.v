(** Facts about the model of absolute URLs. *)
From Coq Require Import Lia.
From Verif Require Import PyBase Value Dates Urls UrlSpec.

(** ** Characters *)

Lemma ascii_all (P : ascii -> bool) : (forall a b c d e f g h, P (Ascii a b c d e f g h) = true) -> forall x, P x = true.
Proof. intros H [a b c d e f g h]. apply H. Qed.
Ltac each_char := apply ascii_all; intros [|] [|] [|] [|] [|] [|] [|] [|]; reflexivity.
Definition in_text (s : str) (c : ascii) : bool := existsb (Ascii.eqb c) s.
Lemma in_text_In s c : in_text s c = true <-> In c s.
Proof. unfold in_text. rewrite existsb_exists. split; [intros [x [H E]]; apply Ascii.eqb_eq in E; subst; exact H | intros H; exists c; split; [exact H | apply Ascii.eqb_refl]]. Qed.
Lemma letter_In c : is_letter c = true <-> In c letters.
Proof. rewrite <- in_text_In. assert (H : forall c, Bool.eqb (is_letter c) (in_text letters c) = true) by each_char. specialize (H c). apply Bool.eqb_prop in H. rewrite H. reflexivity. Qed.
Lemma scheme_char_In c : is_scheme_char c = true <-> In c scheme_characters.
Proof. rewrite <- in_text_In. assert (H : forall c, Bool.eqb (is_scheme_char c) (in_text scheme_characters c) = true) by each_char. specialize (H c). apply Bool.eqb_prop in H. rewrite H. reflexivity. Qed.
Lemma hex_In c : is_hex c = true <-> In c hex_figures.
Proof. rewrite <- in_text_In. assert (H : forall c, Bool.eqb (is_hex c) (in_text hex_figures c) = true) by each_char. specialize (H c). apply Bool.eqb_prop in H. rewrite H. reflexivity. Qed.
Lemma letter_scheme c : In c letters -> In c scheme_characters.
Proof. intros H. apply in_or_app. left. exact H. Qed.
Lemma break_is c : is_break c = true <-> break c.
Proof.
  unfold break. assert (H : forall c, Bool.eqb (is_break c) (existsb (Nat.eqb (nat_of_ascii c)) [9; 10; 13]) = true) by each_char. specialize (H c). apply Bool.eqb_prop in H. rewrite H, existsb_exists.
  split; [intros [x [I E]]; apply Nat.eqb_eq in E; rewrite E; exact I | intros I; exists (nat_of_ascii c); split; [exact I | apply Nat.eqb_refl]].
Qed.
Lemma below_is c : between 0 32 c = true <-> below_33 c.
Proof.
  unfold below_33. assert (H : forall c, Bool.eqb (between 0 32 c) (Nat.leb (nat_of_ascii c) 32) = true) by each_char. specialize (H c). apply Bool.eqb_prop in H. rewrite H. apply Nat.leb_le.
Qed.

(** ** Cleaning *)

Lemma filter_unbroken s : unbroken s (filter (fun c => negb (is_break c)) s).
Proof.
  induction s as [|c s IH]; [constructor|]. cbn [filter]. destruct (is_break c) eqn:E; cbn [negb].
  - apply ub_drop; [apply break_is, E | exact IH].
  - apply ub_keep; [intros B; apply break_is in B; congruence | exact IH].
Qed.
Lemma unbroken_filter s t : unbroken s t -> t = filter (fun c => negb (is_break c)) s.
Proof.
  intros H. induction H as [|c s t B H IH|c s t B H IH]; [reflexivity| |]; cbn [filter].
  - apply break_is in B. rewrite B. exact IH.
  - destruct (is_break c) eqn:E; [exfalso; apply B, break_is, E|]. cbn [negb]. f_equal. exact IH.
Qed.
Lemma drop_front p q : Forall below_33 p -> (q = [] \/ exists c r, q = c :: r /\ ~ below_33 c) -> drop_blank (p ++ q) = q.
Proof.
  intros H Q. induction H as [|c p Hc H IH]; cbn [app drop_blank].
  - destruct Q as [->|[c [r [-> N]]]]; [reflexivity|]. cbn [drop_blank]. destruct (between 0 32 c) eqn:E; [exfalso; apply N, below_is, E | reflexivity].
  - apply below_is in Hc. rewrite Hc. exact IH.
Qed.
Lemma drop_split s : exists p, s = p ++ drop_blank s /\ Forall below_33 p /\ (drop_blank s = [] \/ exists c r, drop_blank s = c :: r /\ ~ below_33 c).
Proof.
  induction s as [|c s [p [E [F D]]]]; [exists []; auto|]. cbn [drop_blank]. destruct (between 0 32 c) eqn:B.
  - exists (c :: p). split; [cbn [app]; f_equal; exact E|]. split; [constructor; [apply below_is, B | exact F] | exact D].
  - exists []. split; [reflexivity|]. split; [constructor|]. right. exists c, s. split; [reflexivity|]. intros N. apply below_is in N. congruence.
Qed.
Lemma tidied_is s t : tidied s t <-> t = cleaned s.
Proof.
  split.
  - intros [p [q [-> [F [D U]]]]]. unfold cleaned. rewrite (drop_front p q F D). exact (unbroken_filter q t U).
  - intros ->. destruct (drop_split s) as [p [E [F D]]]. exists p, (drop_blank s). split; [exact E|]. split; [exact F|]. split; [exact D | apply filter_unbroken].
Qed.

(** ** Taking apart *)

Lemma up_to_app p a b : forallb (fun c => negb (p c)) a = true -> (b = [] \/ p (peek b) = true) -> up_to p (a ++ b) = (a, b).
Proof.
  intros H B. induction a as [|c a IH]; cbn [app up_to forallb] in *.
  - destruct b as [|c b]; [reflexivity|]. destruct B as [B|B]; [discriminate B|]. cbn [up_to peek] in *. rewrite B. reflexivity.
  - apply andb_prop in H as [H1 H2]. destruct (p c); [discriminate H1|]. rewrite (IH H2). reflexivity.
Qed.
Lemma up_to_spec p s : let (a, b) := up_to p s in s = a ++ b /\ forallb (fun c => negb (p c)) a = true /\ (b = [] \/ p (peek b) = true).
Proof.
  induction s as [|c s IH]; cbn [up_to]; [repeat split; auto|]. destruct (p c) eqn:E; [split; [reflexivity|]; split; [reflexivity | right; exact E]|].
  destruct (up_to p s) as [a b]. destruct IH as [-> [F B]]. split; [reflexivity|]. split; [cbn [forallb]; rewrite E; exact F | exact B].
Qed.
Lemma has_In c s : has c s = true <-> In c s.
Proof. exact (in_text_In s c). Qed.
Lemma has_not c s : has c s = false <-> ~ In c s.
Proof. rewrite <- has_In. destruct (has c s); split; intros H; try reflexivity; try discriminate; exfalso; apply H; reflexivity. Qed.
Lemma not_in_forall c s : ~ In c s -> forallb (fun x => negb (Ascii.eqb c x)) s = true.
Proof. intros H. apply forallb_forall. intros x I. destruct (Ascii.eqb_spec c x) as [<-|]; [destruct (H I) | reflexivity]. Qed.
Lemma parted_at c a b : ~ In c a -> parted c (a ++ c :: b) = (a, true, b).
Proof. intros H. unfold parted. rewrite (up_to_app _ a (c :: b) (not_in_forall c a H)); [reflexivity | right; apply Ascii.eqb_refl]. Qed.

Definition stop (c : ascii) : bool := Ascii.eqb c "/" || Ascii.eqb c "?" || Ascii.eqb c "#".
Lemma stop_In c : stop c = true <-> In c ($"/?#").
Proof. unfold stop. rewrite !orb_true_iff, !Ascii.eqb_eq. cbn. intuition auto. Qed.
Lemma authority_part a t : Forall (fun x => ~ In x ($"/?#")) a -> rest t -> up_to stop (a ++ t) = (a, t).
Proof.
  intros H R. apply up_to_app.
  - apply forallb_forall. rewrite Forall_forall in H. intros x I. destruct (stop x) eqn:E; [destruct (H x I); apply stop_In, E | reflexivity].
  - destruct R as [->|[c [r [-> I]]]]; [left; reflexivity | right; apply stop_In, I].
Qed.

(** An absolute URL is found exactly where the cleaned text is one. *)
Lemma abs_url_made s sc a t : cleaned s = sc ++ $"://" ++ a ++ t -> scheme sc -> Forall (fun x => ~ In x ($"/?#")) a -> rest t -> abs_url s = netloc_ok a.
Proof.
  intros E [c [r [-> [Hc Hr]]]] Ha Ht. unfold abs_url. rewrite E.
  assert (Sc : Forall (fun x => In x scheme_characters) (c :: r)) by (constructor; [exact (letter_scheme c Hc) | exact Hr]).
  assert (N : ~ In ":"%char (c :: r)).
  { intros I. rewrite Forall_forall in Sc. apply Sc in I. apply in_text_In in I. discriminate I. }
  change ($"://" ++ a ++ t) with (":"%char :: "/"%char :: "/"%char :: a ++ t). rewrite (parted_at ":" (c :: r) _ N).
  cbn [app peek andb]. apply letter_In in Hc as ->. cbn [andb].
  replace (forallb is_scheme_char (c :: r)) with true by (symmetry; apply forallb_forall; intros x I; apply scheme_char_In; rewrite Forall_forall in Sc; exact (Sc x I)).
  change (fun c0 => Ascii.eqb c0 "/" || Ascii.eqb c0 "?" || Ascii.eqb c0 "#") with stop. rewrite (authority_part a t Ha Ht). reflexivity.
Qed.
Lemma abs_url_found s : abs_url s = true ->
  exists sc a t, cleaned s = sc ++ $"://" ++ a ++ t /\ scheme sc /\ Forall (fun x => ~ In x ($"/?#")) a /\ rest t /\ netloc_ok a = true.
Proof.
  unfold abs_url, parted. pose proof (up_to_spec (Ascii.eqb ":") (cleaned s)) as U. destruct (up_to (Ascii.eqb ":") (cleaned s)) as [sc b]. destruct U as [E [_ B]]. intros H.
  apply andb_prop in H as [H H4]. apply andb_prop in H as [H H3]. apply andb_prop in H as [H1 H2].
  destruct b as [|c b]; [discriminate H1|]. destruct B as [B|B]; [discriminate B|]. cbn [peek] in B. apply Ascii.eqb_eq in B. subst c. cbn [tl] in H4.
  destruct b as [|x [|y r]]; try discriminate H4. apply andb_prop in H4 as [H4 H5]. apply andb_prop in H4 as [H4 H6]. apply Ascii.eqb_eq in H4, H6. subst x y.
  change (fun c0 => Ascii.eqb c0 "/" || Ascii.eqb c0 "?" || Ascii.eqb c0 "#") with stop in H5. pose proof (up_to_spec stop r) as V. destruct (up_to stop r) as [a t]. destruct V as [-> [F G]]. cbn [fst] in H5.
  exists sc, a, t. split; [exact E|]. split; [|split; [|split; [|exact H5]]].
  - destruct sc as [|c sc]; [rewrite E in H2; discriminate H2|]. exists c, sc. split; [reflexivity|]. rewrite E in H2. cbn [app peek] in H2. split; [apply letter_In, H2|].
    cbn [forallb] in H3. apply andb_prop in H3 as [_ H3]. apply Forall_forall. intros z I. apply scheme_char_In. rewrite forallb_forall in H3. exact (H3 z I).
  - apply Forall_forall. intros z I N. apply stop_In in N. rewrite forallb_forall in F. apply F in I. rewrite N in I. discriminate I.
  - destruct G as [->|G]; [left; reflexivity|]. destruct t as [|c t]; [left; reflexivity|]. right. exists c, t. split; [reflexivity | apply stop_In, G].
Qed.

(** Locations without brackets. *)
Lemma bare_ok a : ~ In "["%char a -> ~ In "]"%char a -> netloc_ok a = negb (blank a).
Proof. intros H1 H2. unfold netloc_ok. apply has_not in H1 as ->. apply has_not in H2 as ->. apply andb_true_r. Qed.

(** ** Hosts in brackets *)

Lemma pieces_sep c g r : ~ In c g -> pieces c (g ++ c :: r) = g :: pieces c r.
Proof.
  intros H. induction g as [|x g IH]; cbn [app pieces]; [rewrite Ascii.eqb_refl; reflexivity|].
  destruct (Ascii.eqb_spec c x) as [<-|]; [exfalso; apply H; left; reflexivity|]. rewrite IH by (intros I; apply H; right; exact I). reflexivity.
Qed.
Lemma pieces_one c g : ~ In c g -> pieces c g = [g].
Proof.
  intros H. induction g as [|x g IH]; cbn [pieces]; [reflexivity|]. destruct (Ascii.eqb_spec c x) as [<-|]; [exfalso; apply H; left; reflexivity|]. rewrite IH by (intros I; apply H; right; exact I). reflexivity.
Qed.
Lemma group_free g c : group g -> ~ In c hex_figures -> ~ In c g.
Proof. intros [_ F] H I. rewrite Forall_forall in F. exact (H (F c I)). Qed.
Lemma no_colon : ~ In ":"%char hex_figures. Proof. intros H. apply in_text_In in H. discriminate H. Qed.
Lemma no_dot : ~ In "."%char hex_figures. Proof. intros H. apply in_text_In in H. discriminate H. Qed.
Lemma pieces_colons gs : gs <> [] -> Forall group gs -> pieces ":" (colons gs) = gs.
Proof.
  intros N H. induction H as [|g gs Hg H IH]; [destruct (N eq_refl)|]. destruct gs as [|h gs].
  - cbn [colons]. apply pieces_one. exact (group_free g _ Hg no_colon).
  - change (colons (g :: h :: gs)) with (g ++ ":"%char :: colons (h :: gs)). rewrite (pieces_sep _ g _ (group_free g _ Hg no_colon)). f_equal. apply IH. discriminate.
Qed.
Lemma pieces_colons_then gs r : gs <> [] -> Forall group gs -> pieces ":" (colons gs ++ ":"%char :: r) = gs ++ pieces ":" r.
Proof.
  intros N H. induction H as [|g gs Hg H IH]; [destruct (N eq_refl)|]. destruct gs as [|h gs].
  - cbn [colons app]. apply pieces_sep. exact (group_free g _ Hg no_colon).
  - change (colons (g :: h :: gs)) with (g ++ ":"%char :: colons (h :: gs)). rewrite <- app_assoc. cbn [app]. rewrite (pieces_sep _ g _ (group_free g _ Hg no_colon)). f_equal. apply IH. discriminate.
Qed.
Lemma group_hextet g : group g -> hextet g = true /\ blank g = false.
Proof.
  intros [L F]. unfold hextet, blank. destruct g as [|c g]; [cbn in L; lia|]. split; [|reflexivity]. cbn [negb Nat.eqb length andb]. apply andb_true_intro. split; [apply Nat.leb_le; exact (proj2 L)|].
  apply forallb_forall. intros x I. apply hex_In. rewrite Forall_forall in F. exact (F x I).
Qed.
Lemma groups_hextet gs : Forall group gs -> forallb hextet gs = true.
Proof. intros H. apply forallb_forall. rewrite Forall_forall in H. intros g I. apply (group_hextet g (H g I)). Qed.
Lemma no_gaps gs : Forall group gs -> gaps gs = [].
Proof.
  intros H. unfold gaps. assert (G : forall i, In i (seq 1 (length gs - 2)) -> blank (nth i gs []) = false).
  { intros i I. apply in_seq in I. rewrite Forall_forall in H. apply group_hextet, H, nth_In. lia. }
  revert G. generalize (seq 1 (length gs - 2)) as l. induction l as [|i l IH]; intros G; [reflexivity|]. cbn [filter]. rewrite (G i) by (left; reflexivity). apply IH. intros j J. apply G. right. exact J.
Qed.
Lemma full_parts gs : Forall group gs -> length gs = 8 -> ipv6_parts gs = true.
Proof. intros H L. unfold ipv6_parts. rewrite (no_gaps gs H), L, (groups_hextet gs H). reflexivity. Qed.
Lemma filter_none {A} (p : A -> bool) l : (forall x, In x l -> p x = false) -> filter p l = [].
Proof. induction l as [|x l IH]; intros H; [reflexivity|]. cbn [filter]. rewrite (H x) by (left; reflexivity). apply IH. intros y I. apply H. right. exact I. Qed.
Definition ends (gs : list str) : list str := match gs with [] => [[]] | _ => gs end.
Lemma ends_length gs : (1 <= length (ends gs))%nat.
Proof. destruct gs; cbn; lia. Qed.
Lemma one_gap hi lo : Forall group hi -> Forall group lo -> gaps (ends hi ++ [] :: ends lo) = [length (ends hi)].
Proof.
  intros H L. unfold gaps. rewrite app_length. cbn [length]. set (h := length (ends hi)). set (l := length (ends lo)).
  pose proof (ends_length hi) as Ph. pose proof (ends_length lo) as Pl. fold h in Ph. fold l in Pl.
  replace (h + S l - 2)%nat with ((h - 1) + (1 + (l - 1)))%nat by lia. rewrite seq_app, filter_app. replace (1 + (h - 1))%nat with h by lia. rewrite seq_app, filter_app. cbn [seq].
  rewrite (filter_none _ (seq 1 (h - 1))).
  - cbn [app filter]. unfold h at 1. rewrite (app_nth2 (ends hi)) by lia. rewrite Nat.sub_diag. cbn [nth blank length Nat.eqb app]. rewrite filter_none; [reflexivity|].
    intros i I. apply in_seq in I. unfold h in I. rewrite app_nth2 by lia. replace (i - length (ends hi))%nat with (S (i - h - 1)) by (unfold h; lia). cbn [nth].
    destruct lo as [|g lo]; [cbn in l; unfold l in I; lia|]. apply group_hextet. rewrite Forall_forall in L. apply L, nth_In. unfold l in I. cbn [ends] in I. unfold h in *. lia.
  - intros i I. apply in_seq in I. rewrite app_nth1 by (fold h; lia). destruct hi as [|g hi]; [unfold h in I; cbn in I; lia|]. apply group_hextet. rewrite Forall_forall in H. apply H, nth_In. unfold h in I. cbn [ends] in I. lia.
Qed.
Lemma short_parts hi lo : Forall group hi -> Forall group lo -> (length hi + length lo <= 7)%nat -> ipv6_parts (ends hi ++ [] :: ends lo) = true.
Proof.
  intros H L N. unfold ipv6_parts. rewrite (one_gap hi lo H L).
  set (p := ends hi ++ [] :: ends lo).
  assert (F : blank (nth 0 p []) = match hi with [] => true | _ => false end) by (unfold p; destruct hi as [|g hi]; [reflexivity|]; cbn [ends app nth]; inversion H; subst; apply group_hextet; assumption).
  assert (Lp : length p = (length (ends hi) + S (length (ends lo)))%nat) by (unfold p; rewrite app_length; reflexivity).
  assert (G : blank (nth (length p - 1) p []) = match lo with [] => true | _ => false end).
  { rewrite Lp. unfold p. pose proof (ends_length lo). rewrite app_nth2 by lia. replace (length (ends hi) + S (length (ends lo)) - 1 - length (ends hi))%nat with (S (length (ends lo) - 1)) by lia. cbn [nth].
    destruct lo as [|g lo]; [reflexivity|]. apply group_hextet. rewrite Forall_forall in L. apply L, nth_In. cbn [ends length]. lia. }
  rewrite F, G. rewrite Lp.
  assert (A : (if match hi with [] => true | _ => false end then (length (ends hi) - 1)%nat else length (ends hi)) = length hi) by (destruct hi; reflexivity).
  assert (B : (if match lo with [] => true | _ => false end then (length (ends hi) + S (length (ends lo)) - length (ends hi) - 2)%nat else (length (ends hi) + S (length (ends lo)) - length (ends hi) - 1)%nat) = length lo) by (destruct lo; cbn [ends length]; lia).
  rewrite A, B. replace (Nat.leb (length hi + length lo) 7) with true by (symmetry; apply Nat.leb_le; exact N).
  assert (P1 : firstn (length hi) p = hi) by (unfold p; destruct hi as [|g hi]; [reflexivity|]; cbn [ends]; rewrite firstn_app, Nat.sub_diag, firstn_all; apply app_nil_r).
  assert (P2 : skipn (length (ends hi) + S (length (ends lo)) - length lo) p = lo).
  { unfold p. rewrite skipn_app. destruct lo as [|g lo].
    - cbn [ends length]. rewrite skipn_all2 by lia. replace (length (ends hi) + 2 - 0 - length (ends hi))%nat with 2%nat by lia. reflexivity.
    - cbn [ends]. rewrite skipn_all2 by lia. replace (length (ends hi) + S (length (g :: lo)) - length (g :: lo) - length (ends hi))%nat with 1%nat by lia. reflexivity. }
  rewrite P1, P2, (groups_hextet hi H), (groups_hextet lo L). destruct hi, lo; reflexivity.
Qed.
Lemma short_pieces hi lo : Forall group hi -> Forall group lo -> pieces ":" (colons hi ++ $"::" ++ colons lo) = ends hi ++ [] :: ends lo.
Proof.
  intros H L. assert (E : pieces ":" (":"%char :: colons lo) = [] :: ends lo).
  { change (":"%char :: colons lo) with ([] ++ ":"%char :: colons lo). rewrite pieces_sep by (intros []). f_equal. destruct lo as [|g lo]; [reflexivity|]. apply pieces_colons; [discriminate | exact L]. }
  change ($"::" ++ colons lo) with (":"%char :: ":"%char :: colons lo). destruct hi as [|g hi].
  - cbn [colons]. change ([] ++ ":"%char :: ":"%char :: colons lo) with ([] ++ ":"%char :: (":"%char :: colons lo)). rewrite pieces_sep by (intros []). rewrite E. reflexivity.
  - rewrite pieces_colons_then by (discriminate || exact H). rewrite E. reflexivity.
Qed.
Definition host_char (c : ascii) : Prop := In c (":"%char :: hex_figures).
Lemma colons_chars gs : Forall group gs -> Forall host_char (colons gs).
Proof.
  intros H. assert (G : forall g, group g -> Forall host_char g) by (intros g [_ F]; eapply Forall_impl; [|exact F]; intros c I; right; exact I).
  induction H as [|g gs Hg H IH]; [constructor|]. destruct gs as [|h gs]; [exact (G g Hg)|]. change (colons (g :: h :: gs)) with (g ++ ":"%char :: colons (h :: gs)). apply Forall_app. split; [exact (G g Hg)|]. constructor; [left; reflexivity | exact IH].
Qed.
Lemma six_chars h : six h -> Forall host_char h.
Proof.
  intros [gs H L|hi lo H L N]; [exact (colons_chars gs H)|]. apply Forall_app. split; [exact (colons_chars hi H)|]. constructor; [left; reflexivity|]. constructor; [left; reflexivity | exact (colons_chars lo L)].
Qed.
Lemma host_without c h : Forall host_char h -> in_text (":"%char :: hex_figures) c = false -> ~ In c h.
Proof. intros H N I. rewrite Forall_forall in H. apply H, in_text_In in I. congruence. Qed.
Lemma parted_none c s : ~ In c s -> parted c s = (s, false, []).
Proof. intros H. unfold parted. pose proof (up_to_app (Ascii.eqb c) s [] (not_in_forall c s H) (or_introl eq_refl)) as E. rewrite app_nil_r in E. rewrite E. reflexivity. Qed.
Lemma no_dots g : group g -> has "." g = false.
Proof. intros H. apply has_not. exact (group_free g _ H no_dot). Qed.
Lemma six_host h : six h -> bracketed_host h = true.
Proof.
  intros S. pose proof (six_chars h S) as C.
  assert (V : ipv6 h = true).
  { unfold ipv6. rewrite (parted_none "%" h) by (apply (host_without _ h C); reflexivity). cbn [andb]. destruct S as [gs H L|hi lo H L N].
    - rewrite pieces_colons by (try assumption; intros ->; discriminate L). rewrite L. cbn [Nat.ltb Nat.leb]. rewrite no_dots by (rewrite Forall_forall in H; apply H, nth_In; lia). cbn [andb]. exact (full_parts gs H L).
    - rewrite (short_pieces hi lo H L). assert (Lp : length (ends hi ++ [] :: ends lo) = (length (ends hi) + S (length (ends lo)))%nat) by (rewrite app_length; reflexivity).
      pose proof (ends_length hi) as Ph. pose proof (ends_length lo) as Pl. rewrite Lp. replace (Nat.ltb _ 3) with false by (symmetry; apply Nat.ltb_ge; lia).
      assert (D : has "." (nth (length (ends hi) + S (length (ends lo)) - 1) (ends hi ++ [] :: ends lo) []) = false).
      { rewrite app_nth2 by lia. replace (length (ends hi) + S (length (ends lo)) - 1 - length (ends hi))%nat with (S (length (ends lo) - 1)) by lia. cbn [nth]. destruct lo as [|g lo]; [reflexivity|]. apply no_dots. rewrite Forall_forall in L. apply L, nth_In. cbn [ends length]. lia. }
      rewrite D. rewrite (short_parts hi lo H L N). rewrite andb_true_r. apply Nat.leb_le. destruct hi, lo; cbn [ends length] in *; lia. }
  unfold bracketed_host. destruct h as [|c t]; [discriminate V|]. destruct (Ascii.eqb_spec c "v") as [->|]; [|exact V]. inversion C as [|x y Hx Hy]; subst. apply in_text_In in Hx. discriminate Hx.
Qed.
Lemma boxed_ok a : boxed a -> netloc_ok a = true /\ Forall (fun x => ~ In x ($"/?#")) a.
Proof.
  intros [u [h [p [S [Fu [Fp ->]]]]]]. pose proof (six_chars h S) as C.
  change ($"[" ++ h ++ $"]" ++ p) with ("["%char :: h ++ "]"%char :: p). split.
  - unfold netloc_ok. assert (B : blank (u ++ "["%char :: h ++ "]"%char :: p) = false) by (unfold blank; rewrite app_length; cbn [length]; apply Nat.eqb_neq; lia). rewrite B.
    assert (H1 : has "[" (u ++ "["%char :: h ++ "]"%char :: p) = true) by (apply has_In, in_or_app; right; left; reflexivity). rewrite H1.
    assert (H2 : has "]" (u ++ "["%char :: h ++ "]"%char :: p) = true) by (apply has_In, in_or_app; right; right; apply in_or_app; right; left; reflexivity). rewrite H2. cbn [negb andb].
    rewrite parted_at by (intros I; rewrite Forall_forall in Fu; apply (Fu _ I); cbn; tauto). rewrite parted_at by (apply (host_without _ h C); reflexivity). exact (six_host h S).
  - assert (K : forall l, Forall (fun x => ~ In x ($"/?#[]")) l -> Forall (fun x => ~ In x ($"/?#")) l) by (intros l; apply Forall_impl; intros x N I; apply N; cbn in *; tauto).
    apply Forall_app. split; [exact (K u Fu)|]. constructor; [intros I; apply in_text_In in I; discriminate I|]. apply Forall_app. split; [|constructor; [intros I; apply in_text_In in I; discriminate I | exact (K p Fp)]].
    eapply Forall_impl; [|exact C]. intros x Hx I. apply in_text_In in Hx. cbn in I. destruct I as [<-|[<-|[<-|[]]]]; discriminate Hx.
Qed.
