(** Lemmas about the text operations used by the filter parser. *)
From Verif Require Import PyBase BaseFacts PyNum Issues AttrRep AttrRepSpec AttrRepFacts Value Container Types Attr Match MatchCompare FilterParse FilterSpec.

(** ** Decimal numerals *)

Lemma digit_chr_digit n : n < 10 -> is_digit (digit_chr n) = true /\ digit_val (digit_chr n) = n.
Proof. intros H. do 10 (destruct n as [|n]; [split; reflexivity|]). lia. Qed.
Lemma dec_aux_spec : forall fuel n acc, n < fuel -> exists ds, dec_aux fuel n acc = ds ++ acc /\ ds <> [] /\ forallb is_digit ds = true /\ nat_of_dec ds = n.
Proof.
  assert (App : forall ds c, nat_of_dec (ds ++ [c]) = 10 * nat_of_dec ds + digit_val c) by (intros; unfold nat_of_dec; rewrite fold_left_app; reflexivity).
  induction fuel as [|f IH]; intros n acc Hn; [lia|]. cbn [dec_aux].
  assert (Hm : n mod 10 < 10) by (apply Nat.mod_upper_bound; lia). destruct (digit_chr_digit _ Hm) as [D1 D2].
  destruct (Nat.ltb_spec n 10) as [L|L].
  - exists [digit_chr (n mod 10)]. split; [reflexivity|]. split; [discriminate|]. split; [cbn [forallb]; rewrite D1; reflexivity|].
    unfold nat_of_dec. cbn [fold_left]. rewrite D2. rewrite Nat.mod_small by lia. reflexivity.
  - assert (Hd : n / 10 < f) by (assert (n / 10 < n) by (apply Nat.div_lt; lia); lia).
    destruct (IH (n / 10) (digit_chr (n mod 10) :: acc) Hd) as [ds [E [N1 [N2 N3]]]].
    exists (ds ++ [digit_chr (n mod 10)]). rewrite E, <- app_assoc. split; [reflexivity|]. split; [intros G; apply app_eq_nil in G as [_ G]; discriminate|].
    split; [rewrite forallb_app, N2; cbn [forallb andb]; rewrite D1; reflexivity|]. rewrite App, N3, D2. symmetry. apply Nat.div_mod. lia.
Qed.
Lemma dec_of_nat_spec n : dec_of_nat n <> [] /\ forallb is_digit (dec_of_nat n) = true /\ nat_of_dec (dec_of_nat n) = n.
Proof.
  unfold dec_of_nat. destruct (dec_aux_spec (S n) n [] (Nat.lt_succ_diag_r n)) as [ds [E [H1 [H2 H3]]]]. rewrite E, app_nil_r. auto.
Qed.

(** ** Placeholders *)

Lemma starts_with_app p s : starts_with (p ++ s) p = true.
Proof. apply starts_with_spec. exists s. reflexivity. Qed.
Lemma skipn_app_exact {A} (p s : list A) : skipn (length p) (p ++ s) = s.
Proof. rewrite skipn_app, skipn_all, Nat.sub_diag. reflexivity. Qed.
Lemma match_ph_placeholder i rest : match_ph (placeholder i ++ rest) = Some (dec_of_nat i, rest).
Proof.
  unfold match_ph, placeholder. rewrite <- app_assoc, starts_with_app, skipn_app_exact, <- app_assoc.
  destruct (dec_of_nat_spec i) as [H1 [H2 _]]. rewrite (span_app is_digit (dec_of_nat i) (ph_close ++ rest)); [|exact H2|reflexivity].
  destruct (dec_of_nat i) as [|c t] eqn:E; [contradiction|]. rewrite starts_with_app, skipn_app_exact. reflexivity.
Qed.
Lemma parse_placeholder_ok i : parse_placeholder (placeholder i) = Some i.
Proof.
  unfold parse_placeholder. rewrite <- (app_nil_r (placeholder i)), match_ph_placeholder. f_equal. apply dec_of_nat_spec.
Qed.
Lemma find_phs_skip s : forall k, length s <= k -> find_phs s k = [].
Proof. induction s as [|c t IH]; intros k H; [reflexivity|]. destruct k; [cbn in H; lia|]. cbn [find_phs]. apply IH. cbn in H. lia. Qed.
Lemma placeholder_cons i : exists t, placeholder i = "|"%char :: t.
Proof. eexists. reflexivity. Qed.
Lemma find_phs_placeholder i : find_phs (placeholder i) 0 = [dec_of_nat i].
Proof.
  pose proof (match_ph_placeholder i []) as M. rewrite app_nil_r in M. destruct (placeholder_cons i) as [t E]. rewrite E in M |- *. cbn [find_phs]. rewrite M.
  rewrite find_phs_skip; [reflexivity|]. cbn. lia.
Qed.
Lemma find_phs_none s : ~ In "|"%char s -> find_phs s 0 = [].
Proof.
  induction s as [|c t IH]; intros H; [reflexivity|]. cbn [find_phs].
  assert (E : match_ph (c :: t) = None).
  { unfold match_ph. destruct (starts_with (c :: t) ph_open) eqn:E; [|reflexivity]. exfalso. apply starts_with_spec in E as [q E]. injection E as -> _. apply H. left. reflexivity. }
  rewrite E. apply IH. intros G. apply H. right. exact G.
Qed.
Lemma replace_all_skip p r : forall s k, length s <= k -> replace_all_aux s p r k = [].
Proof. induction s as [|c t IH]; intros k H; [reflexivity|]. destruct k; [cbn in H; lia|]. cbn [replace_all_aux]. apply IH. cbn in H. lia. Qed.
Lemma replace_all_self p r : p <> [] -> replace_all p p r = r.
Proof.
  intros H. unfold replace_all. destruct p as [|c t] eqn:Ep; [contradiction|]. cbn [replace_all_aux]. rewrite <- Ep at 1 2. rewrite <- (app_nil_r p) at 1.
  rewrite starts_with_app, replace_all_skip; [apply app_nil_r | cbn; lia].
Qed.
Lemma encode_placeholder i strings v : iget i strings = Some v -> encode_strings (placeholder i) strings = v.
Proof.
  intros H. unfold encode_strings. rewrite find_phs_placeholder. cbn [fold_left]. rewrite (proj2 (proj2 (dec_of_nat_spec i))), H.
  apply replace_all_self. destruct (placeholder_cons i) as [t E]. unfold placeholder in E. rewrite E. discriminate.
Qed.
Lemma encode_plain s strings : ~ In "|"%char s -> encode_strings s strings = s.
Proof. intros H. unfold encode_strings. rewrite find_phs_none by exact H. reflexivity. Qed.

(** ** Replacing the first occurrence *)

Lemma first_split {A} (c : A) u v u' v' : ~ In c u -> ~ In c u' -> u ++ c :: v = u' ++ c :: v' -> u = u' /\ v = v'.
Proof.
  revert u'. induction u as [|x u IH]; intros [|y u'] H H' E.
  - injection E as ->. auto.
  - injection E as -> _. exfalso. apply H'. left. reflexivity.
  - injection E as -> _. exfalso. apply H. left. reflexivity.
  - injection E as -> E. destruct (IH u') as [-> ->]; auto; intros G; [apply H | apply H']; right; exact G.
Qed.
Lemma replace_first_at c n q r : ~ In c n -> forall a b, ~ In c a ->
  replace_first (a ++ (n ++ c :: q) ++ b) (n ++ c :: q) r = a ++ r ++ b.
Proof.
  intros Hn. induction a as [|x a IH]; intros b Ha.
  - cbn [app]. destruct ((n ++ c :: q) ++ b) as [|y t] eqn:E; [destruct n; discriminate|]. cbn [replace_first]. rewrite <- E, starts_with_app, skipn_app_exact. reflexivity.
  - cbn [app replace_first]. rewrite IH by (intros G; apply Ha; right; exact G).
    destruct (starts_with (x :: a ++ (n ++ c :: q) ++ b) (n ++ c :: q)) eqn:E; [|reflexivity].
    exfalso. apply starts_with_spec in E as [d E].
    assert (E' : ((x :: a) ++ n) ++ c :: (q ++ b) = n ++ c :: (q ++ d)) by (cbn [app]; rewrite <- !app_assoc; cbn [app]; rewrite <- !app_assoc in E; cbn [app] in E; exact E).
    apply first_split in E' as [E' _].
    + apply (f_equal (@length _)) in E'. rewrite app_length in E'. cbn in E'. lia.
    + intros G. apply in_app_or in G as [G|G]; contradiction.
    + exact Hn.
Qed.

(** ** Words separated by single spaces *)

Definition sp : ascii := " "%char.
Fixpoint spaced (ws : list str) : str :=
  match ws with [] => [] | w :: t => match t with [] => w | _ => w ++ sp :: spaced t end end.
Lemma spaced_cons w t : t <> [] -> spaced (w :: t) = w ++ sp :: spaced t.
Proof. destruct t; [contradiction | reflexivity]. Qed.
Lemma spaced_app xs ys : xs <> [] -> ys <> [] -> spaced (xs ++ ys) = spaced xs ++ sp :: spaced ys.
Proof.
  intros Hx Hy. induction xs as [|x t IH]; [contradiction|]. destruct t as [|y t'].
  - cbn [app]. rewrite spaced_cons by exact Hy. reflexivity.
  - cbn [app] in *. rewrite (spaced_cons x (y :: t' ++ ys)) by discriminate. rewrite IH by discriminate. rewrite (spaced_cons x (y :: t')) by discriminate.
    rewrite <- app_assoc. reflexivity.
Qed.
(** A word: not empty, no whitespace. *)
Definition solid (w : str) : Prop := w <> [] /\ Forall (fun c => is_space c = false) w.
Lemma spaced_head ws : ws <> [] -> Forall solid ws -> exists c t, spaced ws = c :: t /\ is_space c = false.
Proof.
  destruct ws as [|w ws]; [contradiction|]. intros _ H. inversion H as [|? ? [Hn Hs] _]; subst. destruct w as [|c w]; [contradiction|].
  inversion Hs; subst. destruct ws; [exists c, w | exists c, (w ++ sp :: spaced (s :: ws))]; auto.
Qed.
Lemma spaced_last ws : ws <> [] -> Forall solid ws -> exists c t, spaced ws = t ++ [c] /\ is_space c = false.
Proof.
  induction ws as [|w ws IH]; [contradiction|]. intros _ H. inversion H as [|? ? [Hn Hs] Hw]; subst. destruct ws as [|w' ws].
  - cbn [spaced]. destruct (exists_last Hn) as [t [c ->]]. exists c, t. split; [reflexivity|]. rewrite Forall_app in Hs. destruct Hs as [_ Hs]. inversion Hs; auto.
  - destruct (IH ltac:(discriminate) Hw) as [c [t [E Hc]]]. exists c, (w ++ sp :: t). rewrite spaced_cons by discriminate. rewrite E. split; [rewrite <- app_assoc; reflexivity | exact Hc].
Qed.
Lemma lstrip_solid c t : is_space c = false -> lstrip (c :: t) = c :: t.
Proof. intros H. cbn [lstrip]. rewrite H. reflexivity. Qed.
Lemma strip_ends c t d u : c :: t = u ++ [d] -> is_space c = false -> is_space d = false -> strip (c :: t) = c :: t.
Proof.
  intros E Hc Hd. unfold strip. rewrite lstrip_solid by exact Hc. unfold rstrip. rewrite E, rev_app_distr. cbn [rev app]. rewrite lstrip_solid by exact Hd.
  cbn [rev]. rewrite rev_involutive. reflexivity.
Qed.
Lemma strip_spaced ws : ws <> [] -> Forall solid ws -> strip (spaced ws) = spaced ws.
Proof.
  intros H1 H2. destruct (spaced_head ws H1 H2) as [c [t [E Hc]]]. destruct (spaced_last ws H1 H2) as [d [u [E' Hd]]].
  rewrite E. apply (strip_ends c t d u); congruence.
Qed.

Lemma split_ws_word w : Forall (fun c => is_space c = false) w -> forall b tail acc, w <> [] -> split_ws (w ++ tail) b acc = split_ws tail false (rev w ++ acc).
Proof.
  induction w as [|c w IH]; intros H b tail acc Hn; [contradiction|]. inversion H; subst. cbn [app split_ws]. rewrite H2. destruct w as [|d w].
  - reflexivity.
  - rewrite IH by (assumption || discriminate). cbn [rev]. rewrite <- !app_assoc. reflexivity.
Qed.
Lemma split_ws_spaced ws : ws <> [] -> Forall solid ws -> forall b, split_ws (spaced ws) b [] = ws.
Proof.
  induction ws as [|w ws IH]; [contradiction|]. intros _ H b. inversion H as [|? ? [Hn Hs] Hw]; subst. destruct ws as [|w' ws].
  - cbn [spaced]. rewrite <- (app_nil_r w) at 1. rewrite split_ws_word by assumption. cbn [split_ws]. rewrite app_nil_r, rev_involutive. reflexivity.
  - rewrite spaced_cons by discriminate. rewrite split_ws_word by assumption. cbn [split_ws]. rewrite app_nil_r, rev_involutive.
    assert (S : is_space sp = true) by reflexivity. rewrite S. rewrite IH by (discriminate || assumption). reflexivity.
Qed.

(** ** Keywords *)

Lemma last_chr_snoc prev a c : last_chr prev (a ++ [c]) = Some c.
Proof. unfold last_chr. rewrite rev_app_distr. reflexivity. Qed.
Lemma last_chr_app prev a b : last_chr prev (a ++ b) = last_chr (last_chr prev a) b.
Proof. unfold last_chr. rewrite rev_app_distr. destruct (rev b); reflexivity. Qed.
Lemma last_chr_cons prev c t : last_chr prev (c :: t) = last_chr (Some c) t.
Proof. change (c :: t) with ([c] ++ t). apply last_chr_app. Qed.

Lemma solid_span w tail : solid w -> span is_space (w ++ tail) = ([], w ++ tail).
Proof. intros [Hn Hs]. destruct w as [|c w]; [contradiction|]. inversion Hs; subst. cbn [app span]. rewrite H1. reflexivity. Qed.

Definition ended (tail : str) : Prop := tail = [] \/ exists t, tail = sp :: t.
Lemma prefix_solid kw v tail d : Forall (fun c => is_space c = false) kw -> ended tail -> v ++ tail = kw ++ d -> exists b, v = kw ++ b /\ d = b ++ tail.
Proof.
  intros Hk Ht. revert kw Hk. induction v as [|c v IH]; intros kw Hk E.
  - destruct kw as [|k kw]; [exists []; auto|]. cbn [app] in E. destruct Ht as [->|[t ->]]; [discriminate|]. injection E as <- _. inversion Hk; subst. discriminate.
  - destruct kw as [|k kw]; [exists (c :: v); auto|]. cbn [app] in E. injection E as -> E. inversion Hk; subst. destruct (IH kw H2 E) as [b [-> ->]]. exists b. auto.
Qed.
(** No match inside a word that does not mention the keyword. *)
Lemma no_match_inside kw a v tail prev : solid kw -> ~ mentions kw (a ++ v) -> solid v -> ended tail -> is_word_opt prev = false ->
  match_kw kw (last_chr prev a) (v ++ tail) = None.
Proof.
  intros [Hk1 Hk2] Hm Hv Ht Hp. unfold match_kw. rewrite solid_span by exact Hv. unfold last_chr at 2. cbn [rev].
  destruct (is_word_opt (last_chr prev a)) eqn:Ew; [unfold last_chr in *; cbn [rev] in *; rewrite Ew; reflexivity|].
  unfold last_chr at 1. cbn [rev]. fold (last_chr prev a). rewrite Ew.
  destruct (starts_with (v ++ tail) kw) eqn:Es; [|reflexivity]. apply starts_with_spec in Es as [d Es].
  destruct (prefix_solid kw v tail d Hk2 Ht Es) as [b [-> ->]]. rewrite <- app_assoc, skipn_app_exact.
  destruct (is_word_opt (hd_error (b ++ tail))) eqn:Eb; [reflexivity|]. exfalso. apply Hm. exists a, b. split; [rewrite <- ?app_assoc; reflexivity|]. split.
  - destruct a as [|x a] using rev_ind; [left; reflexivity|]. right. rewrite last_chr_snoc in Ew. exists a, x. split; [reflexivity | exact Ew].
  - destruct b as [|x b]; [left; reflexivity|]. right. exists x, b. split; [reflexivity | exact Eb].
Qed.
Lemma no_match_space kw w tail prev : solid kw -> ~ mentions kw w -> solid w -> ended tail ->
  match_kw kw prev (sp :: w ++ tail) = None.
Proof.
  intros [Hk1 Hk2] Hm Hw Ht. unfold match_kw. cbn [span]. assert (S : is_space sp = true) by reflexivity. rewrite S.
  rewrite solid_span by exact Hw. unfold last_chr. cbn [rev app]. cbn [is_word_opt]. assert (W : is_word sp = false) by reflexivity. rewrite W.
  destruct (starts_with (w ++ tail) kw) eqn:Es; [|reflexivity]. apply starts_with_spec in Es as [d Es].
  destruct (prefix_solid kw w tail d Hk2 Ht Es) as [b [-> ->]]. rewrite <- app_assoc, skipn_app_exact.
  destruct (is_word_opt (hd_error (b ++ tail))) eqn:Eb; [reflexivity|]. exfalso. apply Hm. exists [], b. split; [reflexivity|]. split; [left; reflexivity|].
  destruct b as [|x b]; [left; reflexivity|]. right. exists x, b. split; [reflexivity | exact Eb].
Qed.
(** The keyword between spaces matches, with both spaces. *)
Lemma match_space kw c t prev : solid kw -> is_space c = false -> match_kw kw prev (sp :: kw ++ sp :: c :: t) = Some (sp :: kw ++ [sp], c :: t).
Proof.
  intros Hk Hc. unfold match_kw. cbn [span]. assert (S : is_space sp = true) by reflexivity. rewrite S.
  rewrite solid_span by exact Hk. unfold last_chr. cbn [rev app]. cbn [is_word_opt]. assert (W : is_word sp = false) by reflexivity. rewrite W.
  rewrite starts_with_app, skipn_app_exact. cbn [hd_error is_word_opt]. rewrite W. cbn [span]. rewrite S, Hc. reflexivity.
Qed.
Lemma match_start kw c t : solid kw -> is_space c = false -> match_kw kw None (kw ++ sp :: c :: t) = Some (kw ++ [sp], c :: t).
Proof.
  intros Hk Hc. unfold match_kw. rewrite solid_span by exact Hk. unfold last_chr. cbn [rev is_word_opt]. assert (S : is_space sp = true) by reflexivity. assert (W : is_word sp = false) by reflexivity.
  rewrite starts_with_app, skipn_app_exact. cbn [hd_error is_word_opt]. rewrite W. cbn [span]. rewrite S, Hc. reflexivity.
Qed.

Lemma split_kw_skip kw : forall u prev rest acc, split_kw kw prev (u ++ rest) (length u) acc = split_kw kw (last_chr prev u) rest 0 acc.
Proof.
  induction u as [|c u IH]; intros prev rest acc; [reflexivity|]. cbn [app length split_kw]. rewrite IH, <- last_chr_cons with (prev := prev). reflexivity.
Qed.
Lemma split_kw_word kw tail prev : solid kw -> ended tail -> is_word_opt prev = false -> forall v a acc, ~ mentions kw (a ++ v) -> Forall (fun c => is_space c = false) v ->
  split_kw kw (last_chr prev a) (v ++ tail) 0 acc = split_kw kw (last_chr prev (a ++ v)) tail 0 (rev v ++ acc).
Proof.
  intros Hk Ht Hp. induction v as [|c v IH]; intros a acc Hm Hs; [rewrite app_nil_r; reflexivity|].
  pose proof (no_match_inside kw a (c :: v) tail prev Hk Hm) as N. cbn [app split_kw] in *. rewrite N; [|split; [discriminate | exact Hs]|exact Ht|exact Hp].
  inversion Hs; subst. assert (E : last_chr prev (a ++ [c]) = Some c) by apply last_chr_snoc. rewrite <- E. rewrite IH; [|rewrite <- app_assoc; exact Hm|assumption].
  rewrite <- !app_assoc. cbn [rev app]. rewrite <- app_assoc. reflexivity.
Qed.

(** Pieces joined by a keyword between spaces. *)
Fixpoint kw_join (kw : str) (ps : list str) : str :=
  match ps with [] => [] | p :: t => match t with [] => p | _ => p ++ sp :: kw ++ sp :: kw_join kw t end end.
Definition plain_piece (kw : str) (ws : list str) : Prop := ws <> [] /\ Forall (fun w => solid w /\ ~ mentions kw w) ws.

Lemma piece_solid kw ws : plain_piece kw ws -> ws <> [] /\ Forall solid ws.
Proof. intros [H1 H2]. split; [exact H1|]. revert H2. apply Forall_impl. tauto. Qed.
Lemma kw_join_head kw p t : plain_piece kw p -> exists c u, kw_join kw (map spaced (p :: t)) = c :: u /\ is_space c = false.
Proof.
  intros H. apply piece_solid in H as [H1 H2]. destruct (spaced_head p H1 H2) as [c [u [E Hc]]]. cbn [map kw_join]. destruct (map spaced t) eqn:Em; rewrite E; eexists _, _; split; try reflexivity; exact Hc.
Qed.
Lemma split_kw_piece kw tail prev : solid kw -> ended tail -> is_word_opt prev = false -> forall ws acc, Forall (fun w => solid w /\ ~ mentions kw w) ws -> ws <> [] ->
  exists prev', split_kw kw prev (spaced ws ++ tail) 0 acc = split_kw kw prev' tail 0 (rev (spaced ws) ++ acc).
Proof.
  intros Hk Ht Hp ws. revert prev Hp. induction ws as [|w ws IH]; intros prev Hp acc H Hn; [contradiction|]. inversion H as [|? ? [Hs Hm] Hw]; subst. destruct ws as [|w' ws].
  - cbn [spaced]. pose proof (split_kw_word kw tail prev Hk Ht Hp w [] acc Hm (proj2 Hs)) as E. cbn [app] in E. unfold last_chr at 1 in E. cbn [rev] in E. eexists. exact E.
  - rewrite spaced_cons by discriminate. rewrite <- app_assoc. cbn [app].
    pose proof (split_kw_word kw (sp :: spaced (w' :: ws) ++ tail) prev Hk (or_intror (ex_intro _ _ eq_refl)) Hp w [] acc Hm (proj2 Hs)) as E. cbn [app] in E. unfold last_chr at 1 in E. cbn [rev] in E. rewrite E.
    cbn [split_kw]. inversion Hw as [|? ? [Hs' Hm'] _]; subst.
    assert (N : forall pr, match_kw kw pr (sp :: spaced (w' :: ws) ++ tail) = None).
    { intros pr. destruct ws as [|w'' ws].
      - cbn [spaced]. apply no_match_space; assumption.
      - rewrite spaced_cons by discriminate. rewrite <- app_assoc. apply no_match_space; try assumption. right. eexists. reflexivity. }
    rewrite N. destruct (IH (Some sp) eq_refl (sp :: rev w ++ acc) Hw ltac:(discriminate)) as [prev' E']. exists prev'. rewrite E'. f_equal.
    rewrite rev_app_distr. cbn [rev]. rewrite <- !app_assoc. reflexivity.
Qed.
Lemma split_kw_join kw ps : solid kw -> ps <> [] -> Forall (plain_piece kw) ps -> forall prev, is_word_opt prev = false ->
  split_kw kw prev (kw_join kw (map spaced ps)) 0 [] = map spaced ps.
Proof.
  intros Hk. induction ps as [|p t IH]; intros Hn H prev Hp; [contradiction|]. inversion H as [|? ? [Hp1 Hp2] Ht]; subst. destruct t as [|q t].
  - cbn [map kw_join]. rewrite <- (app_nil_r (spaced p)) at 1. destruct (split_kw_piece kw [] prev Hk (or_introl eq_refl) Hp p [] Hp2 Hp1) as [prev' E]. rewrite E.
    cbn [split_kw]. rewrite app_nil_r, rev_involutive. reflexivity.
  - assert (J : kw_join kw (map spaced (p :: q :: t)) = spaced p ++ sp :: kw ++ sp :: kw_join kw (map spaced (q :: t))) by reflexivity. rewrite J.
    destruct (split_kw_piece kw (sp :: kw ++ sp :: kw_join kw (map spaced (q :: t))) prev Hk (or_intror (ex_intro _ _ eq_refl)) Hp p [] Hp2 Hp1) as [prev' E]. rewrite E. clear E J.
    inversion Ht as [|? ? Hq _]; subst. destruct (kw_join_head kw q t Hq) as [c [u [E Hc]]]. cbn [split_kw]. rewrite E, match_space by assumption.
    rewrite app_nil_r, rev_involutive. cbn [map]. f_equal.
    assert (L : length (kw ++ sp :: c :: u) - length (c :: u) = length (kw ++ [sp])) by (rewrite !app_length; cbn; lia). rewrite L.
    replace (kw ++ sp :: c :: u) with ((kw ++ [sp]) ++ c :: u) by (rewrite <- app_assoc; reflexivity). rewrite split_kw_skip, last_chr_snoc, <- E.
    apply IH; [discriminate | exact Ht | reflexivity].
Qed.
Lemma operand_errors_none ps : Forall (fun p => p <> []) ps -> operand_errors ps = [].
Proof.
  induction ps as [|p t IH]; intros H; [reflexivity|]. inversion H; subst. cbn [operand_errors]. destruct t as [|q t]; [reflexivity|]. inversion H3; subst.
  rewrite IH by assumption. destruct p; [contradiction|]. destruct q; [contradiction|]. reflexivity.
Qed.
Lemma split_operands_join kw ps : solid kw -> ps <> [] -> Forall (plain_piece kw) ps ->
  split_operands kw (kw_join kw (map spaced ps)) = (map spaced ps, []).
Proof.
  intros Hk Hn H. unfold split_operands. rewrite split_kw_join by (assumption || reflexivity).
  assert (N : Forall (fun p => p <> []) (map spaced ps)).
  { apply Forall_forall. intros s Hs. apply in_map_iff in Hs as [p [<- Hp]]. rewrite Forall_forall in H. destruct (piece_solid _ _ (H p Hp)) as [H1 H2].
    destruct (spaced_head p H1 H2) as [c [u [E _]]]. rewrite E. discriminate. }
  rewrite operand_errors_none by exact N. f_equal. clear - N. induction N as [|s t Hs _ IH]; [reflexivity|]. cbn [filter]. destruct s; [contradiction|]. cbn [nonempty]. rewrite IH. reflexivity.
Qed.
(** No "not" in front. *)
Lemma no_not kw w ws : solid kw -> solid w -> ~ mentions kw w -> match_kw kw None (spaced (w :: ws)) = None.
Proof.
  intros Hk Hw Hm. pose proof (fun tail H => no_match_inside kw [] w tail None Hk Hm Hw H eq_refl) as N. unfold last_chr in N. cbn [rev] in N. destruct ws as [|w' ws].
  - cbn [spaced]. rewrite <- (app_nil_r w). apply N. left. reflexivity.
  - rewrite spaced_cons by discriminate. apply N. right. eexists. reflexivity.
Qed.

(** Words mention no other word. *)
Lemma mentions_first c kw w : ~ In c w -> ~ mentions (c :: kw) w.
Proof. intros H [a [b [-> _]]]. apply H. apply in_or_app. right. left. reflexivity. Qed.
Lemma mentions_word kw w : Forall (fun c => is_word c = true) w -> mentions kw w -> w = kw.
Proof.
  intros H [a [b [-> [Ha Hb]]]]. rewrite !Forall_app in H. destruct H as [H1 [_ H3]]. destruct Ha as [->|[a' [c [-> Hc]]]].
  - destruct Hb as [->|[c [b' [-> Hc]]]]; [rewrite app_nil_r; reflexivity|]. inversion H3; congruence.
  - rewrite Forall_app in H1. destruct H1 as [_ H1]. inversion H1; congruence.
Qed.
Lemma placeholder_chars i c : In c (placeholder i) -> In c (ph_open ++ ph_close) \/ is_digit c = true.
Proof.
  unfold placeholder. rewrite !in_app_iff. intros [H|[H|H]]; auto. right. destruct (dec_of_nat_spec i) as [_ [H2 _]]. rewrite forallb_forall in H2. apply H2. exact H.
Qed.
Lemma placeholder_no c i : ~ In c (ph_open ++ ph_close) -> is_digit c = false -> ~ In c (placeholder i).
Proof. intros H1 H2 H. apply placeholder_chars in H as [H|H]; [contradiction | congruence]. Qed.
Lemma placeholder_solid i : solid (placeholder i).
Proof.
  split; [destruct (placeholder_cons i) as [t E]; rewrite E; discriminate|]. apply Forall_forall. intros c H. apply placeholder_chars in H as [H|H].
  - cbn in H. repeat (destruct H as [<-|H]; [reflexivity|]). contradiction.
  - apply negb_true_iff. revert c H. apply (implb_chars is_digit (fun c => negb (is_space c))). vm_compute. reflexivity.
Qed.
