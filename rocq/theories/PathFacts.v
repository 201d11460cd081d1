(** Lemmas on patch paths. *)
From Verif Require Import PyBase BaseFacts PyNum Issues IssuesSpec IssuesFacts AttrRep AttrRepSpec AttrRepFacts Value Container Types Attr Match MatchSpec MatchCompare PresenceSpec PresenceFacts
  FilterParse FilterSpec FilterText FilterTotal FilterTree FilterMask FilterNum FilterRound Path PathSpec.

(** ** Putting the literals back *)

(** A text in pieces: plain text, and literals hidden behind a placeholder. *)
Inductive piece := Plain (x : str) | Hidden (i : nat) (v : str).
Definition piece_text (t : piece) : str := match t with Plain x => x | Hidden _ v => v end.
Definition shown (ds : list nat) (t : piece) : str :=
  match t with Plain x => x | Hidden i v => if existsb (Nat.eqb i) ds then v else placeholder i end.
Definition otext (ts : list piece) : str := flat_map piece_text ts.
Definition mtext (ts : list piece) : str := flat_map (shown []) ts.
Definition piece_ok (d : idict str) (t : piece) : Prop :=
  unmarked (piece_text t) /\ match t with Plain _ => True | Hidden i v => iget i d = Some v end.

Lemma replace_unmarked u p r : ~ In "|"%char u -> forall rest, replace_all_aux (u ++ rest) ("|"%char :: p) r 0 = u ++ replace_all_aux rest ("|"%char :: p) r 0.
Proof.
  induction u as [|c u IH]; intros H rest; [reflexivity|]. cbn [app replace_all_aux starts_with].
  destruct (chr_eqb c "|"%char) eqn:E; [apply chr_eqb_eq in E; subst; exfalso; apply H; left; reflexivity|]. cbn [andb]. rewrite IH; [reflexivity|]. intros X. apply H. right. exact X.
Qed.
Lemma replace_skip u : forall rest p r, replace_all_aux (u ++ rest) p r (length u) = replace_all_aux rest p r 0.
Proof. induction u as [|c u IH]; intros rest p r; [reflexivity|]. cbn [app length replace_all_aux]. apply IH. Qed.
Lemma replace_hit i r rest : replace_all_aux (placeholder i ++ rest) (placeholder i) r 0 = r ++ replace_all_aux rest (placeholder i) r 0.
Proof.
  destruct (placeholder_cons i) as [t E]. assert (S : starts_with (placeholder i ++ rest) (placeholder i) = true) by apply starts_with_app.
  rewrite E in *. cbn [app] in *. cbn [replace_all_aux]. rewrite S. f_equal. cbn [length]. rewrite Nat.sub_succ, Nat.sub_0_r. apply replace_skip.
Qed.
Lemma dec_inj i j : dec_of_nat i = dec_of_nat j -> i = j.
Proof. intros H. rewrite <- (proj2 (proj2 (dec_of_nat_spec i))), <- (proj2 (proj2 (dec_of_nat_spec j))), H. reflexivity. Qed.
Lemma no_amp_digits ds : forallb is_digit ds = true -> ~ In "&"%char ds.
Proof. intros H X. rewrite forallb_forall in H. apply H in X. discriminate X. Qed.
Lemma placeholder_head i j rest w : placeholder i ++ rest = placeholder j ++ w -> i = j.
Proof.
  intros E. apply dec_inj. pose proof (match_ph_placeholder i rest) as A. rewrite E, match_ph_placeholder in A. injection A as A _. symmetry. exact A.
Qed.
Definition gentle (rest : str) : Prop := forall t, rest <> "&"%char :: t.
Lemma ph_body i : placeholder i = "|"%char :: (tl ph_open ++ dec_of_nat i ++ ["&"%char]) ++ ["|"%char] /\ ~ In "|"%char (tl ph_open ++ dec_of_nat i ++ ["&"%char]).
Proof.
  split; [unfold placeholder; rewrite <- !app_assoc; reflexivity|]. rewrite !in_app_iff. intros [H|[H|H]].
  - cbn in H. repeat (destruct H as [H|H]; [discriminate|]). contradiction.
  - destruct (dec_of_nat_spec i) as [_ [D _]]. rewrite forallb_forall in D. apply D in H. discriminate H.
  - destruct H as [H|[]]. discriminate.
Qed.
Lemma replace_miss i j r rest : i <> j -> gentle rest -> replace_all_aux (placeholder j ++ rest) (placeholder i) r 0 = placeholder j ++ replace_all_aux rest (placeholder i) r 0.
Proof.
  intros Hij Hg. assert (S : starts_with (placeholder j ++ rest) (placeholder i) = false).
  { apply not_true_iff_false. intros S. apply starts_with_spec in S as [w S]. apply placeholder_head in S. congruence. }
  assert (Et : exists t', placeholder i = "|"%char :: "&"%char :: t') by (eexists; reflexivity). destruct Et as [t' Ei].
  destruct (ph_body j) as [E Nb]. set (b := tl ph_open ++ dec_of_nat j ++ ["&"%char]) in *. clearbody b.
  rewrite E in *. rewrite Ei in *. change (("|"%char :: b ++ ["|"%char]) ++ rest) with ("|"%char :: (b ++ ["|"%char]) ++ rest) in *. cbn [replace_all_aux]. rewrite S.
  cbn [app]. f_equal. rewrite <- !app_assoc. rewrite replace_unmarked by exact Nb. f_equal. cbn [app replace_all_aux].
  assert (S2 : starts_with ("|"%char :: rest) ("|"%char :: "&"%char :: t') = false).
  { apply not_true_iff_false. intros X. apply starts_with_spec in X as [w X]. cbn [app] in X. injection X as X. exact (Hg _ X). }
  rewrite S2. reflexivity.
Qed.

Lemma shown_gentle ds ts : Forall (fun t => unmarked (piece_text t)) ts -> gentle (flat_map (shown ds) ts).
Proof.
  induction 1 as [|t ts Ht _ IH]; intros w E; [discriminate|]. cbn [flat_map] in E. destruct (shown ds t) as [|c s] eqn:Es; [exact (IH w E)|]. cbn [app] in E. injection E as -> _.
  assert (X : In "&"%char (piece_text t) \/ exists i, shown ds t = placeholder i).
  { destruct t as [x|i v]; cbn [shown piece_text] in *; [left; rewrite Es; left; reflexivity|]. destruct (existsb (Nat.eqb i) ds); [left; rewrite Es; left; reflexivity | right; eauto]. }
  destruct X as [X|[i X]]; [destruct Ht; contradiction|]. rewrite Es in X. destruct (placeholder_cons i) as [u Eu]. rewrite Eu in X. discriminate X.
Qed.
Lemma replace_shown i r ds ts : Forall (fun t => unmarked (piece_text t)) ts -> (forall v, In (Hidden i v) ts -> v = r) ->
  replace_all (flat_map (shown ds) ts) (placeholder i) r = flat_map (shown (i :: ds)) ts.
Proof.
  unfold replace_all. induction 1 as [|t ts Ht Hts IH]; intros Hv; [reflexivity|]. cbn [flat_map].
  assert (IHv : replace_all_aux (flat_map (shown ds) ts) (placeholder i) r 0 = flat_map (shown (i :: ds)) ts) by (apply IH; intros v H; apply Hv; right; exact H).
  assert (U : forall u, unmarked u -> replace_all_aux (u ++ flat_map (shown ds) ts) (placeholder i) r 0 = u ++ flat_map (shown (i :: ds)) ts).
  { intros u [Hu _]. rewrite <- IHv. destruct (placeholder_cons i) as [p ->]. apply replace_unmarked. exact Hu. }
  destruct t as [x|j v]; cbn [shown piece_text] in *; [apply U; exact Ht|]. cbn [existsb]. destruct (existsb (Nat.eqb j) ds) eqn:Ej.
  - rewrite orb_true_r. apply U. exact Ht.
  - rewrite orb_false_r. destruct (Nat.eqb_spec j i) as [->|Hn].
    + rewrite replace_hit, IHv. rewrite (Hv v) by (left; reflexivity). reflexivity.
    + rewrite replace_miss by (auto using shown_gentle). rewrite IHv. reflexivity.
Qed.

Lemma find_phs_drop u : forall rest, find_phs (u ++ rest) (length u) = find_phs rest 0.
Proof. induction u as [|c u IH]; intros rest; [reflexivity|]. cbn [app length find_phs]. apply IH. Qed.
Definition indices (ts : list piece) : list nat := flat_map (fun t => match t with Plain _ => [] | Hidden i _ => [i] end) ts.
Lemma find_pieces ts : Forall (fun t => unmarked (piece_text t)) ts -> find_phs (mtext ts) 0 = map dec_of_nat (indices ts).
Proof.
  unfold mtext. induction 1 as [|t ts Ht Hts IH]; [reflexivity|].
  assert (Ei : indices (t :: ts) = match t with Plain _ => [] | Hidden i _ => [i] end ++ indices ts) by reflexivity. rewrite Ei. clear Ei.
  cbn [flat_map]. destruct t as [x|i v]; cbn [shown piece_text existsb app map] in *.
  - rewrite <- IH. destruct Ht as [Ht _]. clear IH. induction x as [|c x IH]; [reflexivity|]. cbn [app find_phs].
    assert (E : match_ph (c :: x ++ flat_map (shown []) ts) = None).
    { unfold match_ph. destruct (starts_with _ ph_open) eqn:E; [|reflexivity]. exfalso. apply starts_with_spec in E as [q E]. injection E as -> _. apply Ht. left. reflexivity. }
    rewrite E. apply IH. intros X. apply Ht. right. exact X.
  - pose proof (match_ph_placeholder i (flat_map (shown []) ts)) as M. destruct (placeholder_cons i) as [t E]. rewrite E in *. cbn [app] in *. cbn [find_phs]. rewrite M. f_equal.
    replace (length (t ++ flat_map (shown []) ts) - length (flat_map (shown []) ts)) with (length t) by (rewrite app_length; lia). rewrite find_phs_drop. exact IH.
Qed.
Theorem encode_pieces d ts : Forall (piece_ok d) ts -> encode_strings (mtext ts) d = otext ts.
Proof.
  intros H. assert (Hu : Forall (fun t => unmarked (piece_text t)) ts) by (eapply Forall_impl; [|exact H]; intros t [X _]; exact X).
  unfold encode_strings. rewrite find_pieces by exact Hu.
  assert (G : forall is ds, incl is (indices ts) -> fold_left (fun enc x => match iget (nat_of_dec x) d with Some v => replace_all enc (ph_open ++ x ++ ph_close) v | None => enc end) (map dec_of_nat is) (flat_map (shown ds) ts)
    = flat_map (shown (rev is ++ ds)) ts).
  { induction is as [|i is IH]; intros ds Hi; [reflexivity|]. cbn [map fold_left rev]. rewrite (proj2 (proj2 (dec_of_nat_spec i))).
    assert (Hd : exists v, iget i d = Some v /\ forall w, In (Hidden i w) ts -> w = v).
    { rewrite Forall_forall in H. pose proof (Hi i (or_introl eq_refl)) as X. unfold indices in X. apply in_flat_map in X as [t [Ht X]]. destruct t as [x|j v]; [contradiction|]. destruct X as [X|[]]. subst j.
      destruct (H _ Ht) as [_ E]. exists v. split; [exact E|]. intros w Hw. destruct (H _ Hw) as [_ E']. congruence. }
    destruct Hd as [v [E Hv]]. rewrite E. fold (placeholder i). rewrite replace_shown by assumption. rewrite IH by (intros x X; apply Hi; right; exact X). rewrite <- app_assoc. reflexivity. }
  unfold mtext. rewrite G by (apply incl_refl). rewrite app_nil_r. unfold otext. rewrite !flat_map_concat_map. f_equal. apply map_ext_in. intros t Ht. destruct t as [x|i v]; cbn [shown piece_text]; [reflexivity|].
  assert (X : existsb (Nat.eqb i) (rev (indices ts)) = true); [|rewrite X; reflexivity]. apply existsb_exists. exists i. split; [|apply Nat.eqb_refl]. apply in_rev. rewrite rev_involutive. unfold indices. apply in_flat_map. exists (Hidden i v). split; [exact Ht | left; reflexivity].
Qed.

(** ** Hiding the literals *)

Lemma unmarked_app a b : unmarked (a ++ b) <-> unmarked a /\ unmarked b.
Proof. unfold unmarked. rewrite !in_app_iff. tauto. Qed.
Lemma unmarked_cons c a : unmarked (c :: a) <-> unmarked [c] /\ unmarked a.
Proof. change (c :: a) with ([c] ++ a). apply unmarked_app. Qed.

(** The characters of interest in the hidden text are those outside literals. *)
Definition mute (c : ascii) : Prop := ~ In c (ph_open ++ ph_close) /\ is_digit c = false.
Definition piece_made (t : piece) : Prop :=
  match t with Plain x => exists c, x = [c] | Hidden _ v => exists q b, v = q :: b /\ (q = double_quote \/ q = single_quote) end.
Lemma outside_pieces s u : outside s u -> unmarked s -> forall p d, exists ts d',
  masks p d s (mtext ts) d' /\ otext ts = s
  /\ Forall (fun t => piece_ok d' t /\ match t with Plain _ => True | Hidden i _ => i < p + length s end) ts
  /\ (forall f, (forall c, f c = true -> mute c) -> filter f (mtext ts) = filter f u)
  /\ Forall piece_made ts.
Proof.
  induction 1 as [|c s u H1 H2 Ho IH|q b s u Hq Hb Ho IH]; intros Hm p d.
  - exists [], d. split; [apply masks_plain; split; intros []|]. repeat split; auto.
  - apply unmarked_cons in Hm as [Hc Hm]. destruct (IH Hm (p + 1) d) as [ts [d' [M [E [F [G Sd]]]]]]. exists (Plain [c] :: ts), d'. split; [|split; [|split; [|split]]].
    + unfold mtext. cbn [flat_map shown]. change (c :: s) with ([c] ++ s). apply (masks_app p d [c] [c] d); [apply masks_plain; split; intros [X|[]]; [exact (H1 X) | exact (H2 X)] | exact M].
    + unfold otext in *. cbn [flat_map piece_text app]. rewrite E. reflexivity.
    + constructor; [split; [split; [exact Hc | exact I] | exact I]|]. eapply Forall_impl; [|exact F]. intros t [X Y]. split; [exact X|]. destruct t; [exact I|]. cbn [length]. lia.
    + intros f Hf. unfold mtext in *. cbn [flat_map shown app filter]. rewrite G by exact Hf. reflexivity.
    + constructor; [exists c; reflexivity | exact Sd].
  - apply unmarked_cons in Hm as [Hmq Hm]. apply unmarked_app in Hm as [Hmb Hm]. apply unmarked_cons in Hm as [_ Hm].
    set (l := q :: b ++ [q]). assert (El : q :: b ++ q :: s = l ++ s) by (unfold l; cbn [app]; rewrite <- app_assoc; reflexivity).
    destruct (IH Hm (p + length l) (iset p l d)) as [ts [d' [M [E [F [G Sd]]]]]]. exists (Hidden p l :: ts), d'. rewrite El. split; [|split; [|split; [|split]]].
    + unfold mtext. cbn [flat_map shown existsb]. apply (masks_app p d l (placeholder p) (iset p l d)); [apply masks_quoted; assumption | exact M].
    + unfold otext in *. cbn [flat_map piece_text]. rewrite E. reflexivity.
    + constructor.
      * split; [split|].
        -- unfold l. apply unmarked_cons. split; [exact Hmq|]. apply unmarked_app. auto.
        -- destruct M as [ms [_ [_ [_ K]]]]. rewrite K by (unfold l; cbn; lia). rewrite iget_iset, Nat.eqb_refl. reflexivity.
        -- rewrite app_length. unfold l. cbn. lia.
      * eapply Forall_impl; [|exact F]. intros t [X Y]. split; [exact X|]. destruct t; [exact I|]. rewrite app_length. lia.
    + intros f Hf. unfold mtext in *. cbn [flat_map shown existsb]. rewrite filter_app, G by exact Hf.
      assert (Ef : filter f (placeholder p) = []); [|rewrite Ef; reflexivity]. destruct (filter f (placeholder p)) as [|c t] eqn:Ef; [reflexivity|]. exfalso.
      assert (X : In c (filter f (placeholder p))) by (rewrite Ef; left; reflexivity). apply filter_In in X as [X Y]. apply Hf in Y as [Y1 Y2]. revert X. apply placeholder_no; assumption.
    + constructor; [exists q, (b ++ [q]); auto | exact Sd].
Qed.

Lemma outside_split s u1 c u2 : outside s (u1 ++ c :: u2) -> exists s1 s2, s = s1 ++ c :: s2 /\ outside s1 u1 /\ outside s2 u2.
Proof.
  intros H. remember (u1 ++ c :: u2) as u eqn:E. revert u1 E. induction H as [|x s u H1 H2 Ho IH|q b s u Hq Hb Ho IH]; intros u1 E.
  - destruct u1; discriminate.
  - destruct u1 as [|y u1]; cbn [app] in E; injection E as -> ->.
    + exists [], s. repeat split; auto. constructor.
    + destruct (IH u1 eq_refl) as [s1 [s2 [-> [A B]]]]. exists (y :: s1), s2. repeat split; auto. constructor; auto.
  - destruct (IH u1 E) as [s1 [s2 [-> [A B]]]]. exists (q :: b ++ q :: s1), s2. split; [cbn [app]; rewrite <- app_assoc; reflexivity|]. split; [constructor; auto | exact B].
Qed.
Lemma outside_join s1 u1 c s2 u2 : c <> double_quote -> c <> single_quote -> outside s1 u1 -> outside s2 u2 -> outside (s1 ++ c :: s2) (u1 ++ c :: u2).
Proof.
  intros H1 H2 A B. induction A as [|x s u X1 X2 Ho IH|q b s u Hq Hb Ho IH]; cbn [app].
  - constructor; auto.
  - constructor; auto.
  - rewrite <- app_assoc. cbn [app]. constructor; auto.
Qed.
(** What is outside the literals is determined by the text. *)
Lemma outside_fun s u v : outside s u -> outside s v -> u = v.
Proof.
  intros H. revert v. induction H as [|c s u H1 H2 Ho IH|q b s u Hq Hb Ho IH]; intros v H'.
  - inversion H'. reflexivity.
  - inversion H' as [|? ? ? ? ? A|q b ? ? Hq]; subst; [f_equal; auto|]. destruct Hq; contradiction.
  - inversion H' as [|? ? ? N1 N2 A|q' b' s' ? Hq' Hb' A E]; subst; [destruct Hq; congruence|].
    match goal with E : _ ++ _ :: _ = _ ++ _ :: _ |- _ => apply first_split in E as [-> ->]; auto end.
Qed.

(** ** The bracket test *)

Definition br (c : ascii) : bool := chr_eqb c lbrk || chr_eqb c rbrk.
Lemma br_mute c : br c = true -> mute c.
Proof.
  unfold br. intros H. apply orb_true_iff in H as [H|H]; apply chr_eqb_eq in H; subst c; (split; [|reflexivity]); intros X; cbn in X; repeat (destruct X as [X|X]; [discriminate|]); contradiction.
Qed.
Lemma filter_first (f : ascii -> bool) y : match filter f y with
  | [] => forallb (fun c => negb (f c)) y = true
  | x :: w => exists a b, y = a ++ x :: b /\ forallb (fun c => negb (f c)) a = true /\ f x = true /\ filter f b = w
  end.
Proof.
  induction y as [|c y IH]; [reflexivity|]. cbn [filter]. destruct (f c) eqn:E; [exists [], y; auto|]. destruct (filter f y) as [|x w].
  - cbn [forallb]. rewrite E. exact IH.
  - destruct IH as [a [b [-> [A [B C]]]]]. exists (c :: a), b. cbn [app forallb]. rewrite E. auto.
Qed.
Lemma free_iff y : forallb (fun c => negb (br c)) y = true <-> bracket_free y.
Proof.
  rewrite forallb_forall. unfold bracket_free, br. split.
  - intros H. split; intros X; apply H in X; discriminate X.
  - intros [H1 H2] c Hc. destruct (chr_eqb c lbrk) eqn:E1; [apply chr_eqb_eq in E1; subst; contradiction|]. destruct (chr_eqb c rbrk) eqn:E2; [apply chr_eqb_eq in E2; subst; contradiction|]. reflexivity.
Qed.
Lemma filter_free f y : forallb (fun c => negb (f c)) y = true -> filter f y = ([] : str).
Proof. induction y as [|c y IH]; [reflexivity|]. cbn [forallb filter]. intros H. apply andb_true_iff in H as [H1 H2]. apply negb_true_iff in H1. rewrite H1. auto. Qed.
Lemma filter_br_free y : bracket_free y <-> filter br y = [].
Proof. rewrite <- free_iff. split; [apply filter_free|]. intros H. pose proof (filter_first br y) as X. rewrite H in X. exact X. Qed.
Lemma count_free c y : ~ In c y -> count_chr c y = 0.
Proof.
  intros H. unfold count_chr. rewrite filter_free; [reflexivity|]. apply forallb_forall. intros x Hx. apply negb_true_iff. destruct (chr_eqb c x) eqn:E; [|reflexivity]. apply chr_eqb_eq in E. subst. contradiction.
Qed.
Lemma count_app c x y : count_chr c (x ++ y) = count_chr c x + count_chr c y.
Proof. unfold count_chr. rewrite filter_app, app_length. reflexivity. Qed.
Lemma count_cons c x y : count_chr c (x :: y) = (if chr_eqb c x then 1 else 0) + count_chr c y.
Proof. unfold count_chr. cbn [filter]. destruct (chr_eqb c x); reflexivity. Qed.
Lemma index_at c a b : ~ In c a -> index_chr c (a ++ c :: b) = length a.
Proof.
  intros H. unfold index_chr. rewrite (span_app _ a (c :: b)); [reflexivity| |].
  - apply forallb_forall. intros x Hx. apply negb_true_iff. destruct (chr_eqb x c) eqn:E; [|reflexivity]. apply chr_eqb_eq in E. subst. contradiction.
  - rewrite chr_eqb_refl. reflexivity.
Qed.
Lemma one_pair a b c : bracket_free a -> bracket_free b -> bracket_free c -> bad_brackets (a ++ lbrk :: b ++ rbrk :: c) = false.
Proof.
  intros [A1 A2] [B1 B2] [C1 C2]. unfold bad_brackets. rewrite !count_app, !count_cons, !count_app, !count_cons, !(count_free _ a), !(count_free _ b), !(count_free _ c) by assumption.
  rewrite (index_at lbrk a) by exact A1. replace (a ++ lbrk :: b ++ rbrk :: c) with ((a ++ lbrk :: b) ++ rbrk :: c) by (rewrite <- app_assoc; reflexivity).
  rewrite (index_at rbrk) by (rewrite in_app_iff; intros [X|[X|X]]; [contradiction | discriminate | contradiction]). rewrite app_length. cbn [length].
  assert (L : Nat.ltb (length a + S (length b)) (length a) = false) by (apply Nat.ltb_ge; lia). rewrite L. reflexivity.
Qed.
Lemma bad_iff y : bad_brackets y = false -> filter br y = [] \/ filter br y = [lbrk; rbrk].
Proof.
  intros H. pose proof (filter_first br y) as X. destruct (filter br y) as [|x w]; [auto|right]. destruct X as [a [b [-> [Ha [Hx Hb]]]]]. apply free_iff in Ha.
  pose proof (filter_first br b) as Y. rewrite Hb in Y.
  assert (Br : forall z, br z = true -> z = lbrk \/ z = rbrk) by (intros z Hz; unfold br in Hz; apply orb_true_iff in Hz as [Hz|Hz]; apply chr_eqb_eq in Hz; auto). apply Br in Hx.
  unfold bad_brackets in H. rewrite !count_app, !count_cons, !(count_free _ a) in H by apply Ha. destruct w as [|x2 w].
  - apply free_iff in Y. rewrite !(count_free _ b) in H by apply Y. destruct Hx as [-> | ->]; discriminate H.
  - destruct Y as [b1 [b2 [-> [Hb1 [Hx2 Hb2]]]]]. apply free_iff in Hb1. apply Br in Hx2. rewrite !count_app, !count_cons, !(count_free _ b1) in H by apply Hb1.
    destruct Hx as [-> | ->], Hx2 as [-> | ->].
    + exfalso. cbn in H. rewrite ?orb_true_r in H. discriminate H.
    + pose proof (filter_first br b2) as Z. rewrite Hb2 in Z. destruct w as [|x3 w]; [reflexivity|]. destruct Z as [c1 [c2 [-> [Hc1 [Hx3 _]]]]]. apply Br in Hx3. rewrite !count_app, !count_cons in H.
      destruct Hx3 as [-> | ->]; cbn [Nat.add] in H; rewrite !chr_eqb_refl, !Nat.add_succ_r in H; cbn in H; rewrite ?orb_true_r in H; discriminate H.
    + rewrite (index_at rbrk a) in H by apply Ha. replace (a ++ rbrk :: b1 ++ lbrk :: b2) with ((a ++ rbrk :: b1) ++ lbrk :: b2) in H by (rewrite <- app_assoc; reflexivity).
      rewrite (index_at lbrk) in H by (rewrite in_app_iff; destruct Ha, Hb1; intros [X|[X|X]]; [contradiction | discriminate | contradiction]). rewrite app_length in H. cbn [length] in H.
      assert (L : Nat.ltb (length a) (length a + S (length b1)) = true) by (apply Nat.ltb_lt; lia). rewrite L in H. cbn in H. rewrite !orb_true_r in H. discriminate H.
    + exfalso. cbn in H. rewrite ?orb_true_r in H. discriminate H.
Qed.

(** ** Parsing a balanced text *)

Definition finish_path (o : oper) (t : str) : res outcome :=
  match t with
  | [] => let! r := oper_attr_rep o in let! p := mk_path r (Some o) None in Ok (VPath p, no_issues)
  | c :: t' =>
      let! r := oper_attr_rep o in
      let! s := sub_attr_rep r (if chr_eqb c dot then t' else c :: t') in
      match s with
      | inr e => Ok (VInvalid, iss_of [e])
      | inl s => let! p := mk_path r (Some o) (Some s) in Ok (VPath p, no_issues)
      end
  end.
Lemma forall_and_l {A} (P Q : A -> Prop) l : Forall (fun x => P x /\ Q x) l -> Forall P l.
Proof. apply Forall_impl. intros a [H _]. exact H. Qed.

Lemma path_cut head t u v w : outside head (u ++ lbrk :: v) -> bracket_free u -> bracket_free v -> outside t w -> bracket_free w -> unmarked head -> unmarked t ->
  parse_path (head ++ rbrk :: t) = let! (o, errs) := parse_filter_core (head ++ [rbrk]) in match errs with _ :: _ => Ok (VInvalid, iss_of errs) | [] => finish_path o t end.
Proof.
  intros Hh Hu Hv Ht Hw Mh Mt. destruct (outside_pieces head _ Hh Mh 0 []) as [ts [d [M [E [F [G _]]]]]].
  destruct (outside_pieces t w Ht Mt (length head + 1) d) as [ts2 [d2 [M2 [E2 [F2 [G2 S2]]]]]].
  assert (Mr : masks (0 + length head) d [rbrk] [rbrk] d) by (apply masks_plain; split; intros [X|[]]; discriminate X).
  pose proof (masks_app _ _ _ _ _ _ _ _ M (masks_app _ _ _ _ _ _ _ _ Mr M2)) as MM. cbn [app] in MM. apply mask_whole in MM. unfold parse_path. rewrite MM.
  assert (Gh : filter br (mtext ts) = [lbrk]).
  { rewrite (G br br_mute), filter_app. cbn [filter]. apply filter_br_free in Hu, Hv. rewrite Hu, Hv. reflexivity. }
  assert (Gt : bracket_free (mtext ts2)) by (apply filter_br_free; rewrite (G2 br br_mute); apply filter_br_free; exact Hw).
  pose proof (filter_first br (mtext ts)) as X. rewrite Gh in X. destruct X as [a [b [Em [Ha [_ Hb]]]]]. apply free_iff in Ha. apply filter_br_free in Hb.
  assert (Bb : bad_brackets (mtext ts ++ rbrk :: mtext ts2) = false) by (rewrite Em, <- app_assoc; cbn [app]; apply one_pair; assumption). rewrite Bb.
  assert (Lt : Nat.ltb 0 (count_chr lbrk (mtext ts ++ rbrk :: mtext ts2)) = true) by (rewrite Em, <- app_assoc, count_app; cbn [app]; rewrite count_cons, chr_eqb_refl; apply Nat.ltb_lt; lia). rewrite Lt.
  unfold parse_complex_path. rewrite index_at by (rewrite Em, in_app_iff; destruct Ha, Hb; intros [X|[X|X]]; [contradiction | discriminate | contradiction]).
  assert (Cut : mtext ts ++ rbrk :: mtext ts2 = (mtext ts ++ [rbrk]) ++ mtext ts2) by (rewrite <- app_assoc; reflexivity).
  assert (Len : S (length (mtext ts)) = length (mtext ts ++ [rbrk])) by (rewrite app_length; cbn; lia).
  rewrite Cut, Len, firstn_app, firstn_all, Nat.sub_diag, skipn_app_exact. cbn [firstn]. rewrite app_nil_r.
  assert (Ok1 : Forall (piece_ok d2) (ts ++ [Plain [rbrk]])).
  { apply Forall_app. split.
    - rewrite Forall_forall in *. intros x Hx. destruct (F x Hx) as [[P1 P2] P3]. split; [exact P1|]. destruct x as [x|i y]; [exact I|]. destruct M2 as [ms [_ [_ [_ K]]]]. rewrite K by lia. exact P2.
    - constructor; [|constructor]. split; [|exact I]. split; intros [X|[]]; discriminate X. }
  assert (Ok2 : Forall (piece_ok d2) ts2) by (exact (forall_and_l _ _ _ F2)).
  assert (Emt : mtext ts ++ [rbrk] = mtext (ts ++ [Plain [rbrk]])) by (unfold mtext; rewrite flat_map_app; reflexivity).
  rewrite Emt, (encode_pieces _ _ Ok1). assert (Eo : otext (ts ++ [Plain [rbrk]]) = head ++ [rbrk]) by (unfold otext in *; rewrite flat_map_app, E; reflexivity). rewrite Eo.
  destruct (parse_filter_core (head ++ [rbrk])) as [[o [|e es]]|e]; cbn [bind]; [|reflexivity|reflexivity]. clear - E2 S2 Ok2.
  destruct ts2 as [|x ts2]; [unfold otext in E2; cbn in E2; subst t; reflexivity|]. inversion S2 as [|? ? Sx _]; subst. inversion Ok2 as [|? ? _ Ok3]; subst. destruct x as [x|i v]; cbn [piece_made] in Sx.
  - destruct Sx as [c ->]. pose proof (encode_pieces _ _ Ok2) as X. pose proof (encode_pieces _ _ Ok3) as Y. unfold mtext, otext in *. cbn [flat_map shown piece_text app] in *. unfold finish_path. destruct (chr_eqb c dot); [rewrite Y | rewrite X]; reflexivity.
  - destruct Sx as [q [b [-> Hq]]]. pose proof (encode_pieces _ _ Ok2) as X. destruct (placeholder_cons i) as [p Ep]. unfold mtext, otext in *. cbn [flat_map shown piece_text existsb app] in *. rewrite Ep in *. cbn [app] in *.
    unfold finish_path. assert (N : chr_eqb "|"%char dot = false) by reflexivity. rewrite N, X. assert (Nq : chr_eqb q dot = false) by (destruct Hq; subst q; reflexivity). rewrite Nq. reflexivity.
Qed.
Lemma path_name s u : outside s u -> unmarked s -> bracket_free u ->
  parse_path s = match parse_rep s with None => Ok (VInvalid, iss_of [e_bad_name]) | Some r => let! p := mk_path r None None in Ok (VPath p, no_issues) end.
Proof.
  intros Ho Hm Hu. destruct (outside_pieces s u Ho Hm 0 []) as [ts [d [M [E [F [G _]]]]]]. apply mask_whole in M. unfold parse_path. rewrite M.
  assert (B : bracket_free (mtext ts)) by (apply filter_br_free; rewrite (G br br_mute); apply filter_br_free; exact Hu).
  assert (Bb : bad_brackets (mtext ts) = false) by (unfold bad_brackets; rewrite !count_free by apply B; reflexivity). rewrite Bb, count_free by apply B. cbn [Nat.ltb Nat.leb].
  rewrite (encode_pieces d ts), E by exact (forall_and_l _ _ _ F). reflexivity.
Qed.
Lemma path_bad s u : outside s u -> unmarked s -> filter br u <> [] -> filter br u <> [lbrk; rbrk] -> parse_path s = Ok (VInvalid, iss_of [e_bad_path]).
Proof.
  intros Ho Hm H1 H2. destruct (outside_pieces s u Ho Hm 0 []) as [ts [d [M [E [F [G _]]]]]]. apply mask_whole in M. unfold parse_path. rewrite M.
  destruct (bad_brackets (mtext ts)) eqn:Eb; [reflexivity|]. apply bad_iff in Eb. rewrite (G br br_mute) in Eb. destruct Eb; contradiction.
Qed.
