(** Masking of string literals and of bracketed attributes in a rendered
    expression. *)
From Verif Require Import PyBase BaseFacts PyNum Issues AttrRep AttrRepSpec AttrRepFacts Value Container Types Attr Match MatchCompare FilterParse FilterSpec FilterText FilterTotal FilterTree.

(** ** Left-to-right rewriting of the text of an expression *)

(** Same expression with some leaves replaced. *)
Inductive rel (deep : bool) (atom : exp -> exp -> Prop) : exp -> exp -> Prop :=
| rl_atom e e' : level e = 0 -> level e' = 0 -> atom e e' -> rel deep atom e e'
| rl_brk n e e' : deep = true -> rel deep atom e e' -> rel deep atom (Brk n e) (Brk n e')
| rl_and l l' : Forall2 (rel deep atom) l l' -> rel deep atom (EAnd l) (EAnd l')
| rl_or l l' : Forall2 (rel deep atom) l l' -> rel deep atom (EOr l) (EOr l')
| rl_not e e' : rel deep atom e e' -> rel deep atom (ENot e) (ENot e').
Lemma rel_mono deep (A B : exp -> exp -> Prop) : (forall e e', A e e' -> B e e') -> forall e e', rel deep A e e' -> rel deep B e e'.
Proof.
  intros H. fix IH 3. intros e e' R. destruct R as [e e' L L' a|n e e' D r|l l' r|l l' r|e e' r].
  - apply rl_atom; auto.
  - apply rl_brk; auto.
  - apply rl_and. induction r; constructor; auto.
  - apply rl_or. induction r; constructor; auto.
  - apply rl_not; auto.
Qed.
Lemma rel_level deep A e e' : rel deep A e e' -> level e = level e'.
Proof. intros R. destruct R; cbn; congruence. Qed.

Definition sepc (c : ascii) : Prop := c = sp \/ c = lpar \/ c = rpar.

Section Transform.
  Context {V : Type} (Sc : nat -> idict V -> str -> str -> idict V -> Prop) (atom : nat -> idict V -> exp -> exp -> Prop) (deep : bool).
  Hypothesis app_r : forall p d x y d' c x2 y2 d'', sepc c -> Sc p d x y d' -> Sc (p + length x) d' (c :: x2) y2 d'' -> Sc p d (x ++ c :: x2) (y ++ y2) d''.
  Hypothesis app_l : forall p d x c y d' x2 y2 d'', sepc c -> Sc p d (x ++ [c]) y d' -> Sc (p + length (x ++ [c])) d' x2 y2 d'' -> Sc p d ((x ++ [c]) ++ x2) (y ++ y2) d''.
  Hypothesis lit : forall p d x, In x [$" and "; $" or "; $"not "; $"("; $")"] -> Sc p d x x d.
  Hypothesis keep : forall p d x y d', Sc p d x y d' -> forall k, k < p -> iget k d' = iget k d.
  Hypothesis atom_mono : forall b d b2 d2 e e', atom b d e e' -> b <= b2 -> (forall k, k < b -> iget k d2 = iget k d) -> atom b2 d2 e e'.

  Definition transf (e : exp) : Prop := forall p d, exists e' d', Sc p d (etext e) (etext e') d' /\ rel deep (atom (p + length (etext e)) d') e e'.

  Lemma transf_arg k e : transf e -> forall p d, exists e' d', Sc p d (arg_text etext k e) (arg_text etext k e') d' /\ rel deep (atom (p + length (arg_text etext k e)) d') e e'.
  Proof.
    intros H p d. unfold arg_text. destruct (par k e) eqn:Ep.
    - destruct (H (p + 1) d) as [e' [d' [S R]]]. exists e', d'. pose proof (rel_level _ _ _ _ R) as L.
      assert (Ep' : par k e' = true) by (unfold par in *; rewrite <- L; exact Ep). rewrite Ep'. split.
      + unfold parens. apply (app_l p d [] "("%char ($"(") d (etext e ++ [")"%char]) (etext e' ++ [")"%char]) d'); [right; left; reflexivity | apply lit; cbn; auto 6|].
        cbn [app length]. apply (app_r (p + 1) d (etext e) (etext e') d' ")"%char [] ($")") d'); [right; right; reflexivity | exact S | apply lit; cbn; auto 6].
      + revert R. apply rel_mono. intros x x' A. eapply atom_mono; [exact A| |auto]. unfold parens. cbn. rewrite app_length. cbn. lia.
    - destruct (H p d) as [e' [d' [S R]]]. exists e', d'. pose proof (rel_level _ _ _ _ R) as L.
      assert (Ep' : par k e' = false) by (unfold par in *; rewrite <- L; exact Ep). rewrite Ep'. auto.
  Qed.
  Lemma transf_list k kw l : In (sp :: kw ++ [sp]) [$" and "; $" or "; $"not "; $"("; $")"] -> l <> [] -> Forall transf l ->
    forall p d, exists l' d', Sc p d (sep_by (sp :: kw ++ [sp]) (map (arg_text etext k) l)) (sep_by (sp :: kw ++ [sp]) (map (arg_text etext k) l')) d'
      /\ Forall2 (rel deep (atom (p + length (sep_by (sp :: kw ++ [sp]) (map (arg_text etext k) l))) d')) l l'.
  Proof.
    intros Hk. set (s := sp :: kw ++ [sp]) in *. induction l as [|e l IH]; intros Hn H p d; [contradiction|]. inversion H as [|? ? He Hl]; subst. destruct l as [|e2 l].
    - destruct (transf_arg k e He p d) as [e' [d' [S R]]]. exists [e'], d'. cbn [map sep_by]. split; [exact S | constructor; [exact R | constructor]].
    - destruct (transf_arg k e He p d) as [e' [d1 [S R]]].
      destruct (IH ltac:(discriminate) Hl (p + length (arg_text etext k e) + length s) d1) as [l' [d2 [S2 R2]]].
      exists (e' :: l'), d2. assert (El' : exists e2' t', l' = e2' :: t') by (inversion R2; eauto). destruct El' as [e2' [t' ->]].
      change (sep_by s (map (arg_text etext k) (e :: e2 :: l))) with (arg_text etext k e ++ s ++ sep_by s (map (arg_text etext k) (e2 :: l))).
      change (sep_by s (map (arg_text etext k) (e' :: e2' :: t'))) with (arg_text etext k e' ++ s ++ sep_by s (map (arg_text etext k) (e2' :: t'))).
      split.
      + unfold s at 1. cbn [app]. apply (app_r p d _ _ d1 sp _ _ d2 (or_introl eq_refl) S).
        change (sp :: (kw ++ [sp]) ++ sep_by s (map (arg_text etext k) (e2 :: l))) with ((sp :: kw ++ [sp]) ++ sep_by s (map (arg_text etext k) (e2 :: l))).
        change (sp :: kw ++ [sp]) with ((sp :: kw) ++ [sp]). apply (app_l _ d1 (sp :: kw) sp (sp :: kw ++ [sp]) d1 _ _ d2 (or_introl eq_refl)); [apply lit; exact Hk | exact S2].
      + assert (L : length (arg_text etext k e ++ s ++ sep_by s (map (arg_text etext k) (e2 :: l))) = length (arg_text etext k e) + length s + length (sep_by s (map (arg_text etext k) (e2 :: l)))) by (rewrite !app_length; lia).
        constructor.
        * revert R. apply rel_mono. intros x x' A. eapply atom_mono; [exact A | lia|]. intros j Hj. apply (keep _ _ _ _ _ S2). lia.
        * rewrite L. rewrite !Nat.add_assoc. exact R2.
  Qed.
  Lemma transf_and l : l <> [] -> Forall transf l -> transf (EAnd l).
  Proof.
    intros Hn H p d. destruct (transf_list 2 ($"and") l ltac:(left; reflexivity) Hn H p d) as [l' [d' [S R]]]. exists (EAnd l'), d'. split; [exact S | apply rl_and; exact R].
  Qed.
  Lemma transf_or l : l <> [] -> Forall transf l -> transf (EOr l).
  Proof.
    intros Hn H p d. destruct (transf_list 3 ($"or") l ltac:(right; left; reflexivity) Hn H p d) as [l' [d' [S R]]]. exists (EOr l'), d'. split; [exact S | apply rl_or; exact R].
  Qed.
  Lemma transf_not e : transf e -> transf (ENot e).
  Proof.
    intros H p d. destruct (transf_arg 1 e H (p + 4) d) as [e' [d' [S R]]]. exists (ENot e'), d'. cbn [etext]. split.
    - change ($"not ") with ($"not" ++ [sp]). apply (app_l p d ($"not") sp ($"not ") d _ _ d' (or_introl eq_refl)); [apply lit; cbn; auto 6 | exact S].
    - apply rl_not. revert R. apply rel_mono. intros x x' A. eapply atom_mono; [exact A| |auto]. rewrite app_length. cbn. lia.
  Qed.
End Transform.

(** ** String literals *)

Definition noq (s : str) : Prop := ~ In dquote s /\ ~ In squote s.
Lemma noq_app a b : noq (a ++ b) <-> noq a /\ noq b.
Proof. unfold noq. rewrite !in_app_iff. tauto. Qed.
Lemma placeholder_noq i : noq (placeholder i).
Proof. split; (apply placeholder_no; [|reflexivity]; intros H; cbn in H; repeat (destruct H as [H|H]; [discriminate|]); contradiction). Qed.

Definition mask_step (st : str * idict str) (m : nat * str) : str * idict str :=
  (replace_first (fst st) (snd m) (placeholder (fst m)), iset (fst m) (snd m) (snd st)).

Definition masks (p : nat) (d : idict str) (x y : str) (d' : idict str) : Prop :=
  exists ms, (forall rest, find_strings (x ++ rest) p 0 = ms ++ find_strings rest (p + length x) 0)
    /\ (forall done rest, noq done -> fold_left mask_step ms (done ++ x ++ rest, d) = (done ++ y ++ rest, d'))
    /\ noq y /\ forall k, k < p -> iget k d' = iget k d.
Lemma masks_app p d x y d' x2 y2 d'' : masks p d x y d' -> masks (p + length x) d' x2 y2 d'' -> masks p d (x ++ x2) (y ++ y2) d''.
Proof.
  intros [ms [A [B [C D]]]] [ms2 [A2 [B2 [C2 D2]]]]. exists (ms ++ ms2). split; [|split; [|split]].
  - intros rest. rewrite <- app_assoc, A, A2, app_length, <- app_assoc, Nat.add_assoc. reflexivity.
  - intros done rest Hd. rewrite fold_left_app, <- app_assoc, B by exact Hd.
    pose proof (B2 (done ++ y) rest ltac:(apply noq_app; auto)) as E. rewrite <- !app_assoc in E. rewrite E. rewrite <- !app_assoc. reflexivity.
  - apply noq_app. auto.
  - intros k Hk. rewrite D2 by lia. apply D. exact Hk.
Qed.
Lemma match_string_noq c t : noq (c :: t) -> match_string (c :: t) = None.
Proof.
  intros [H1 H2]. unfold match_string. destruct (chr_eqb c squote) eqn:E1; [apply chr_eqb_eq in E1; subst; exfalso; apply H2; left; reflexivity|].
  destruct (chr_eqb c dquote) eqn:E2; [apply chr_eqb_eq in E2; subst; exfalso; apply H1; left; reflexivity | reflexivity].
Qed.
Lemma masks_plain p d x : noq x -> masks p d x x d.
Proof.
  intros H. exists []. split; [|split; [reflexivity | split; [exact H | reflexivity]]]. intros rest. cbn [app]. revert p. induction x as [|c x IH]; intros p; [cbn; f_equal; lia|].
  cbn [app find_strings length]. assert (Hc : noq [c] /\ noq x) by (apply noq_app; exact H). destruct Hc as [Hc Hx].
  assert (M : match_string (c :: x ++ rest) = None).
  { unfold match_string. destruct Hc as [C1 C2]. destruct (chr_eqb c squote) eqn:E1; [apply chr_eqb_eq in E1; subst; exfalso; apply C2; left; reflexivity|].
    destruct (chr_eqb c dquote) eqn:E2; [apply chr_eqb_eq in E2; subst; exfalso; apply C1; left; reflexivity | reflexivity]. }
  rewrite M, IH by exact Hx. f_equal. lia.
Qed.
Lemma until_quote q c rest : ~ In q c -> until q (c ++ q :: rest) = Some (c ++ [q]).
Proof.
  induction c as [|x c IH]; intros H; cbn [app until]; [rewrite chr_eqb_refl; reflexivity|].
  destruct (chr_eqb x q) eqn:E; [apply chr_eqb_eq in E; subst; exfalso; apply H; left; reflexivity|]. rewrite IH by (intros X; apply H; right; exact X). reflexivity.
Qed.
Lemma find_skip x : forall rest p, find_strings (x ++ rest) p (length x) = find_strings rest (p + length x) 0.
Proof. induction x as [|c x IH]; intros rest p; [cbn; f_equal; lia|]. cbn [app find_strings length]. rewrite IH. f_equal. lia. Qed.
Lemma masks_quoted p d q c : q = dquote \/ q = squote -> ~ In q c ->
  masks p d (q :: c ++ [q]) (placeholder p) (iset p (q :: c ++ [q]) d).
Proof.
  intros Hq Hc. exists [(p, q :: c ++ [q])]. split; [|split; [|split; [apply placeholder_noq|]]].
  - intros rest. change ((q :: c ++ [q]) ++ rest) with (q :: (c ++ [q]) ++ rest). cbn [find_strings].
    assert (M : match_string (q :: (c ++ [q]) ++ rest) = Some (q :: c ++ [q])).
    { unfold match_string. rewrite <- app_assoc. cbn [app]. rewrite until_quote by exact Hc. destruct Hq as [-> | ->]; reflexivity. }
    rewrite M. cbn [app]. f_equal. replace (length (q :: c ++ [q]) - 1) with (length (c ++ [q])) by (cbn; lia). rewrite find_skip. f_equal. cbn [length]. lia.
  - intros done rest [H1 H2]. cbn [fold_left]. unfold mask_step. cbn [fst snd]. f_equal. change (q :: c ++ [q]) with ([] ++ q :: c ++ [q]). apply replace_first_at; [intros [] | destruct Hq; subst; assumption].
  - intros k Hk. rewrite iget_iset. destruct (Nat.eqb_spec p k); [lia | reflexivity].
Qed.
Lemma mask_whole x y d : masks 0 [] x y d -> mask_strings x = (y, d).
Proof.
  intros [ms [A [B _]]]. specialize (A []). specialize (B [] [] ltac:(split; intros [])). rewrite !app_nil_r in *. cbn [app] in B.
  unfold mask_strings. rewrite A. cbn [find_strings]. rewrite ?app_nil_r. exact B.
Qed.

Definition unquote (b : nat) (d : idict str) (e e' : exp) : Prop :=
  (exists ws, e = Words ws /\ e' = e)
  \/ exists n o q c i, e = QTest n o q c /\ e' = Words [n; o; placeholder i] /\ i < b /\ iget i d = Some (q :: c ++ [q]).

(** Expressions whose words, names and literals can be masked. *)
Inductive maskable : exp -> Prop :=
| mk_words ws : ws <> [] -> Forall noq ws -> maskable (Words ws)
| mk_test n o q c : noq n -> noq o -> (q = dquote \/ q = squote) -> ~ In q c -> maskable (QTest n o q c)
| mk_brk n e : noq n -> maskable e -> maskable (Brk n e)
| mk_and l : l <> [] -> Forall maskable l -> maskable (EAnd l)
| mk_or l : l <> [] -> Forall maskable l -> maskable (EOr l)
| mk_not e : maskable e -> maskable (ENot e).

Lemma noq_spaced ws : Forall noq ws -> noq (spaced ws).
Proof.
  induction 1 as [|w t Hw Ht IH]; [split; intros []|]. cbn [spaced]. destruct t; [exact Hw|]. apply noq_app. split; [exact Hw|]. change (sp :: spaced (s :: t)) with ([sp] ++ spaced (s :: t)). apply noq_app.
  split; [split; intros [X|[]]; discriminate | exact IH].
Qed.
Theorem mask_transf e : maskable e -> transf masks unquote true e.
Proof.
  assert (Hr : forall p d x y d' c x2 y2 d'', sepc c -> masks p d x y d' -> masks (p + length x) d' (c :: x2) y2 d'' -> masks p d (x ++ c :: x2) (y ++ y2) d'') by (intros; eapply masks_app; eassumption).
  assert (Hl : forall p d x c y d' x2 y2 d'', sepc c -> masks p d (x ++ [c]) y d' -> masks (p + length (x ++ [c])) d' x2 y2 d'' -> masks p d ((x ++ [c]) ++ x2) (y ++ y2) d'') by (intros; eapply masks_app; eassumption).
  assert (Ht : forall p d x, In x [$" and "; $" or "; $"not "; $"("; $")"] -> masks p d x x d).
  { intros p d x H. apply masks_plain. cbn in H. repeat (destruct H as [<-|H]; [split; intros X; cbn in X; repeat (destruct X as [X|X]; [discriminate|]); contradiction|]). contradiction. }
  assert (Hk : forall p d x y d', masks p d x y d' -> forall k, k < p -> iget k d' = iget k d) by (intros p d x y d' [ms H]; apply H).
  assert (Hm : forall b d b2 d2 e e', unquote b d e e' -> b <= b2 -> (forall k, k < b -> iget k d2 = iget k d) -> unquote b2 d2 e e').
  { intros b d b2 d2 x x' [H|[n [o [q [c [i [E [E' [Hi Hg]]]]]]]]] Hb K; [left; exact H|]. right. exists n, o, q, c, i. repeat split; auto; [lia | rewrite K by exact Hi; exact Hg]. }
  induction e as [ws|n o q c|n e IH|l IH|l IH|e IH] using exp_rect'; intros H; inversion H; subst.
  - intros p d. exists (Words ws), d. split; [apply masks_plain; apply noq_spaced; assumption|]. apply rl_atom; [reflexivity|reflexivity|]. left. eauto.
  - intros p d. exists (Words [n; o; placeholder (p + length n + 1 + length o + 1)]), (iset (p + length n + 1 + length o + 1) (q :: c ++ [q]) d).
    assert (Nsp : noq [sp]) by (split; intros [X|[]]; discriminate). split.
    + cbn [etext spaced]. replace (n ++ sp :: o ++ sp :: q :: c ++ [q]) with ((n ++ [sp] ++ o ++ [sp]) ++ q :: c ++ [q]) by (rewrite <- !app_assoc; reflexivity).
      replace (n ++ sp :: o ++ sp :: placeholder (p + length n + 1 + length o + 1)) with ((n ++ [sp] ++ o ++ [sp]) ++ placeholder (p + length n + 1 + length o + 1)) by (rewrite <- !app_assoc; reflexivity).
      eapply masks_app; [apply masks_plain; rewrite !noq_app; auto|]. replace (p + length (n ++ [sp] ++ o ++ [sp])) with (p + length n + 1 + length o + 1) by (rewrite !app_length; cbn; lia). apply masks_quoted; assumption.
    + apply rl_atom; [reflexivity|reflexivity|]. right. exists n, o, q, c, (p + length n + 1 + length o + 1). repeat split; [|rewrite iget_iset, Nat.eqb_refl; reflexivity].
      cbn [etext]. rewrite app_length. cbn [length]. rewrite app_length. cbn [length]. rewrite app_length. cbn. lia.
  - intros p d. assert (IHe : transf masks unquote true e) by (apply IH; assumption). destruct (IHe (p + length (n ++ [lbrk])) d) as [e' [d' [S R]]]. exists (Brk n e'), d'. split.
    + cbn [etext]. replace (n ++ lbrk :: etext e ++ [rbrk]) with ((n ++ [lbrk]) ++ etext e ++ [rbrk]) by (rewrite <- !app_assoc; reflexivity).
      replace (n ++ lbrk :: etext e' ++ [rbrk]) with ((n ++ [lbrk]) ++ etext e' ++ [rbrk]) by (rewrite <- !app_assoc; reflexivity).
      eapply masks_app; [apply masks_plain; apply noq_app; split; [assumption|]; split; intros [X|[]]; discriminate|].
      eapply masks_app; [exact S|]. apply masks_plain. split; intros [X|[]]; discriminate.
    + apply rl_brk; [reflexivity|]. revert R. apply rel_mono. intros x x' A. eapply Hm; [exact A| |auto]. cbn [etext]. rewrite !app_length. cbn [length]. rewrite app_length. cbn. lia.
  - apply transf_and; auto. rewrite Forall_forall in *. auto.
  - apply transf_or; auto. rewrite Forall_forall in *. auto.
  - apply transf_not; auto.
Qed.

(** ** Bracketed attributes *)

Definition name_chr (c : ascii) : bool := is_word c || chr_eqb c colon || chr_eqb c dot.
Definition no_brackets (s : str) : Prop := ~ In lbrk s /\ ~ In rbrk s /\ ~ In dquote s.
Lemma no_brackets_app a b : no_brackets (a ++ b) <-> no_brackets a /\ no_brackets b.
Proof. unfold no_brackets. rewrite !in_app_iff. tauto. Qed.

Section Brackets.
  Context (strings : idict str) (full : str).
  Notation run := (foldM (complex_step strings full)).
  Definition starts_sep (x : str) : Prop := exists c t, x = c :: t /\ sepc c.
  Definition ends_sep (x : str) : Prop := exists c t, x = t ++ [c] /\ sepc c.
  Definition hides (p : nat) (d : idict pres) (x y : str) (d' : idict pres) : Prop :=
    x <> [] /\ ~ In lbrk y /\ (forall k, k < p -> iget k d' = iget k d)
    /\ forall pre nm done rest, length pre = p -> full = pre ++ x ++ rest -> (nm = [] \/ starts_sep x) -> ~ In lbrk done ->
       exists nm', run (enum_from p (x ++ rest)) (mkC false None nm d (done ++ x ++ rest) [] false) = run (enum_from (p + length x) rest) (mkC false None nm' d' (done ++ y ++ rest) [] false)
         /\ (ends_sep x -> nm' = []).
  Lemma sep_facts c : sepc c -> name_chr c = false /\ c <> lbrk /\ c <> rbrk /\ c <> dquote.
  Proof. intros [-> | [-> | ->]]; repeat split; discriminate. Qed.
  Lemma hides_app p d x y d' x2 y2 d'' : (ends_sep x \/ starts_sep x2) -> hides p d x y d' -> hides (p + length x) d' x2 y2 d'' -> hides p d (x ++ x2) (y ++ y2) d''.
  Proof.
    intros J [A [B [C D]]] [A2 [B2 [C2 D2]]]. split; [|split; [|split]].
    - intros E. apply app_eq_nil in E as [E _]. contradiction.
    - rewrite in_app_iff. tauto.
    - intros k Hk. rewrite C2 by lia. apply C. exact Hk.
    - intros pre nm done rest Hp Hf Hn Hd. rewrite <- !app_assoc in *.
      destruct (D pre nm done (x2 ++ rest) Hp Hf) as [nm1 [E1 N1]]; [|exact Hd|].
      { destruct Hn as [->|[c [t [E Hc]]]]; [left; reflexivity|]. destruct x as [|c' x]; [contradiction|]. cbn in E. injection E as -> _. right. exists c, x. auto. }
      rewrite E1. destruct (D2 (pre ++ x) nm1 (done ++ y) rest) as [nm2 [E2 N2]].
      + rewrite app_length. lia.
      + rewrite <- app_assoc. exact Hf.
      + destruct J as [J|J]; [left; apply N1; exact J | right; exact J].
      + rewrite in_app_iff. tauto.
      + rewrite <- !app_assoc in E2. exists nm2. rewrite E2. rewrite app_length, Nat.add_assoc. split; [reflexivity|].
        intros [c [t [E Hc]]]. apply N2. destruct (exists_last A2) as [t2 [c2 E2']]. exists c2, t2. split; [exact E2'|]. rewrite E2', app_assoc in E. apply app_inj_tail in E as [_ ->]. exact Hc.
  Qed.
  Lemma hides_run x : no_brackets x -> forall p nm d txt rest, exists nm',
    run (enum_from p (x ++ rest)) (mkC false None nm d txt [] false) = run (enum_from (p + length x) rest) (mkC false None nm' d txt [] false) /\ (ends_sep x -> nm' = []).
  Proof.
    induction x as [|c x IH]; intros H p nm d txt rest.
    - exists nm. cbn. rewrite Nat.add_0_r. split; [reflexivity|]. intros [c [t [E _]]]. destruct t; discriminate.
    - assert (Hc : no_brackets [c] /\ no_brackets x) by (apply no_brackets_app; exact H). destruct Hc as [Hc Hx].
      assert (C1 : chr_eqb c lbrk = false) by (apply chr_eqb_neq; intros ->; destruct Hc as [Hc _]; apply Hc; left; reflexivity).
      assert (C2 : chr_eqb c rbrk = false) by (apply chr_eqb_neq; intros ->; destruct Hc as [_ [Hc _]]; apply Hc; left; reflexivity).
      assert (C3 : chr_eqb c dquote = false) by (apply chr_eqb_neq; intros ->; destruct Hc as [_ [_ Hc]]; apply Hc; left; reflexivity).
      cbn [app enum_from foldM length].
      assert (St : complex_step strings full (mkC false None nm d txt [] false) (p, c) = Ok (mkC false None (if name_chr c then nm ++ [c] else []) d txt [] false)).
      { unfold complex_step. cbn [c_break c_ignore c_open c_name c_ops c_text c_errs]. rewrite C1, C2, C3. fold (name_chr c). destruct (name_chr c); reflexivity. }
      rewrite St. cbn [bind]. destruct (IH Hx (S p) (if name_chr c then nm ++ [c] else []) d txt rest) as [nm' [E N]]. destruct x as [|c2 x].
      + cbn [app length] in *. exists (if name_chr c then nm ++ [c] else []). rewrite Nat.add_1_r. split; [reflexivity|]. intros [c' [t [Ec Hs]]]. destruct t as [|? [|]]; try discriminate. injection Ec as <-. apply sep_facts in Hs as [-> _]. reflexivity.
      + exists nm'. rewrite E. split; [f_equal; f_equal; cbn; lia|]. intros [c' [t [Ec Hs]]]. apply N. destruct t as [|z t]; [discriminate|]. cbn in Ec. injection Ec as _ Ec. exists c', t. auto.
  Qed.
  Lemma hides_plain p d x : x <> [] -> no_brackets x -> hides p d x x d.
  Proof.
    intros Hn Hx. split; [exact Hn|]. split; [apply Hx|]. split; [reflexivity|]. intros pre nm done rest _ _ _ _. apply hides_run. exact Hx.
  Qed.
  Lemma name_run n : Forall (fun c => name_chr c = true) n -> forall p nm d txt rest,
    run (enum_from p (n ++ rest)) (mkC false None nm d txt [] false) = run (enum_from (p + length n) rest) (mkC false None (nm ++ n) d txt [] false).
  Proof.
    assert (Q : forall c, name_chr c = true -> chr_eqb c dquote = false).
    { intros c H. apply negb_true_iff. revert c H. apply implb_chars. vm_compute. reflexivity. }
    induction 1 as [|c n Hc Hn IH]; intros p nm d txt rest; [cbn; rewrite Nat.add_0_r, app_nil_r; reflexivity|]. cbn [app enum_from foldM length].
    assert (St : complex_step strings full (mkC false None nm d txt [] false) (p, c) = Ok (mkC false None (nm ++ [c]) d txt [] false)).
    { unfold complex_step. cbn [c_break c_ignore c_open c_name c_ops c_text c_errs]. rewrite (Q c Hc). fold (name_chr c). rewrite Hc. reflexivity. }
    rewrite St. cbn [bind]. rewrite IH. rewrite <- app_assoc. f_equal. f_equal. cbn; lia.
  Qed.
  Lemma inner_run u : no_brackets u -> forall p o nm d txt rest,
    run (enum_from p (u ++ rest)) (mkC false (Some o) nm d txt [] false) = run (enum_from (p + length u) rest) (mkC false (Some o) nm d txt [] false).
  Proof.
    induction u as [|c u IH]; intros H p o nm d txt rest; [cbn; rewrite Nat.add_0_r; reflexivity|].
    assert (Hc : no_brackets [c] /\ no_brackets u) by (apply no_brackets_app; exact H). destruct Hc as [Hc Hx].
    assert (C1 : chr_eqb c lbrk = false) by (apply chr_eqb_neq; intros ->; destruct Hc as [Hc _]; apply Hc; left; reflexivity).
    assert (C2 : chr_eqb c rbrk = false) by (apply chr_eqb_neq; intros ->; destruct Hc as [_ [Hc _]]; apply Hc; left; reflexivity).
    assert (C3 : chr_eqb c dquote = false) by (apply chr_eqb_neq; intros ->; destruct Hc as [_ [_ Hc]]; apply Hc; left; reflexivity).
    cbn [app enum_from foldM length].
    assert (St : complex_step strings full (mkC false (Some o) nm d txt [] false) (p, c) = Ok (mkC false (Some o) nm d txt [] false)).
    { unfold complex_step. cbn [c_break c_ignore c_open c_name c_ops c_text c_errs]. rewrite C1, C2, C3. reflexivity. }
    rewrite St. cbn [bind]. rewrite IH by exact Hx. f_equal. f_equal. cbn; lia.
  Qed.
  Lemma hides_brk p d n u q : n <> [] -> Forall (fun c => name_chr c = true) n -> no_brackets u -> parse_complex strings n u = Ok q ->
    hides p d (n ++ lbrk :: u ++ [rbrk]) (placeholder p) (iset p q d).
  Proof.
    intros Hn0 Hn Hu Hq. split; [destruct n; [contradiction | discriminate]|]. split; [apply placeholder_no; [|reflexivity]; intros H; cbn in H; repeat (destruct H as [H|H]; [discriminate|]); contradiction|].
    split; [intros k Hk; rewrite iget_iset; destruct (Nat.eqb_spec p k); [lia | reflexivity]|].
    intros pre nm done rest Hp Hf Hs Hd.
    assert (Enm : nm = []).
    { destruct Hs as [Hs|[c [t [E Hc]]]]; [exact Hs|]. destruct n as [|c' n]; [contradiction|]. cbn in E. injection E as -> _. inversion Hn; subst. apply sep_facts in Hc as [Hc _]. congruence. }
    subst nm. exists []. split; [|auto]. rewrite <- !app_assoc. cbn [app]. rewrite name_run by exact Hn. cbn [app enum_from foldM].
    assert (St1 : complex_step strings full (mkC false None n d (done ++ n ++ lbrk :: (u ++ [rbrk]) ++ rest) [] false) (p + length n, lbrk) = Ok (mkC false (Some (p + length n)) n d (done ++ n ++ lbrk :: (u ++ [rbrk]) ++ rest) [] false)) by reflexivity.
    rewrite St1. cbn [bind]. clear St1. rewrite <- app_assoc. rewrite inner_run by exact Hu. cbn [app enum_from foldM].
    assert (Sl : slice (S (p + length n)) (S (p + length n) + length u) full = u).
    { rewrite Hf. pose proof (slice_mid (pre ++ n ++ [lbrk]) u ([rbrk] ++ rest)) as S. rewrite !app_length in S. cbn [length] in S. replace (length pre + (length n + 1)) with (Datatypes.S (p + length n)) in S by lia.
      etransitivity; [|exact S]. f_equal. rewrite <- !app_assoc. cbn [app]. rewrite <- !app_assoc. reflexivity. }
    assert (St2 : complex_step strings full (mkC false (Some (p + length n)) n d (done ++ n ++ lbrk :: u ++ rbrk :: rest) [] false) (S (p + length n) + length u, rbrk)
      = Ok (mkC false None [] (iset p q d) (done ++ placeholder p ++ rest) [] false)).
    { unfold complex_step. cbn [c_break c_ignore c_open c_name c_ops c_text c_errs]. change (chr_eqb rbrk dquote) with false. change (chr_eqb rbrk lbrk) with false. change (chr_eqb rbrk rbrk) with true. rewrite Sl, Hq. cbn [bind].
      replace (p + length n - length n) with p by lia. f_equal. f_equal.
      replace (done ++ n ++ lbrk :: u ++ rbrk :: rest) with (done ++ (n ++ lbrk :: u ++ [rbrk]) ++ rest) by (rewrite <- !app_assoc; cbn [app]; rewrite <- !app_assoc; reflexivity).
      apply replace_first_at; [|exact Hd]. intros X. rewrite Forall_forall in Hn. specialize (Hn _ X). discriminate. }
    rewrite St2. cbn [bind]. f_equal. f_equal. rewrite !app_length. cbn [length]. rewrite app_length. cbn [length]. lia.
  Qed.

  Definition unbracket (b : nat) (d : idict pres) (e e' : exp) : Prop :=
    (exists ws, e = Words ws /\ e' = e)
    \/ exists n x i q, e = Brk n x /\ e' = Words [placeholder i] /\ i < b /\ iget i d = Some q /\ parse_complex strings n (etext x) = Ok q.
  Inductive hideable : exp -> Prop :=
  | hd_words ws : ws <> [] -> spaced ws <> [] -> Forall no_brackets ws -> hideable (Words ws)
  | hd_brk n e q : n <> [] -> Forall (fun c => name_chr c = true) n -> no_brackets (etext e) -> parse_complex strings n (etext e) = Ok q -> hideable (Brk n e)
  | hd_and l : l <> [] -> Forall hideable l -> hideable (EAnd l)
  | hd_or l : l <> [] -> Forall hideable l -> hideable (EOr l)
  | hd_not e : hideable e -> hideable (ENot e).
  Lemma no_brackets_spaced ws : Forall no_brackets ws -> no_brackets (spaced ws).
  Proof.
    induction 1 as [|w t Hw Ht IH]; [repeat split; intros []|]. cbn [spaced]. destruct t; [exact Hw|]. apply no_brackets_app. split; [exact Hw|]. change (sp :: spaced (s :: t)) with ([sp] ++ spaced (s :: t)). apply no_brackets_app.
    split; [repeat split; intros [X|[]]; discriminate | exact IH].
  Qed.
  Theorem hide_transf e : hideable e -> transf hides unbracket false e.
  Proof.
    assert (Hr : forall p d x y d' c x2 y2 d'', sepc c -> hides p d x y d' -> hides (p + length x) d' (c :: x2) y2 d'' -> hides p d (x ++ c :: x2) (y ++ y2) d'') by (intros; eapply hides_app; eauto; right; eexists _, _; eauto).
    assert (Hl : forall p d x c y d' x2 y2 d'', sepc c -> hides p d (x ++ [c]) y d' -> hides (p + length (x ++ [c])) d' x2 y2 d'' -> hides p d ((x ++ [c]) ++ x2) (y ++ y2) d'') by (intros; eapply hides_app; eauto; left; eexists _, _; eauto).
    assert (Ht : forall p d x, In x [$" and "; $" or "; $"not "; $"("; $")"] -> hides p d x x d).
    { intros p d x H. apply hides_plain; cbn in H; repeat (destruct H as [<-|H]; [try discriminate; repeat split; intros X; cbn in X; repeat (destruct X as [X|X]; [discriminate|]); contradiction|]); contradiction. }
    assert (Hk : forall p d x y d', hides p d x y d' -> forall k, k < p -> iget k d' = iget k d) by (intros p d x y d' H; apply H).
    assert (Hm : forall b d b2 d2 e e', unbracket b d e e' -> b <= b2 -> (forall k, k < b -> iget k d2 = iget k d) -> unbracket b2 d2 e e').
    { intros b d b2 d2 x x' [H|[n [y [i [q [E [E' [Hi [Hg Hq]]]]]]]]] Hb K; [left; exact H|]. right. exists n, y, i, q. repeat split; auto; [lia | rewrite K by exact Hi; exact Hg]. }
    induction e as [ws|n o q c|n e IH|l IH|l IH|e IH] using exp_rect'; intros H; inversion H; subst.
    - intros p d. exists (Words ws), d. split; [apply hides_plain; [assumption|]; apply no_brackets_spaced; assumption|]. apply rl_atom; [reflexivity|reflexivity|]. left. eauto.
    - intros p d. exists (Words [placeholder p]), (iset p q d). split; [cbn [etext spaced]; apply hides_brk; assumption|]. apply rl_atom; [reflexivity|reflexivity|]. right. exists n, e, p, q.
      repeat split; auto; [|rewrite iget_iset, Nat.eqb_refl; reflexivity]. cbn [etext]. rewrite app_length. cbn. lia.
    - apply transf_and; auto. rewrite Forall_forall in *. auto.
    - apply transf_or; auto. rewrite Forall_forall in *. auto.
    - apply transf_not; auto.
  Qed.
End Brackets.
