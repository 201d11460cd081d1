(** Parsing the text of an expression gives its meaning. *)
From Verif Require Import PyBase BaseFacts PyNum Issues AttrRep AttrRepSpec AttrRepFacts Value Container Types Attr Match MatchCompare FilterParse FilterSpec FilterText FilterTotal FilterTree FilterMask FilterNum.

Section Ind.
  Variable P : fexp -> Prop.
  Hypothesis Hp : forall n o, P (FPresent n o).
  Hypothesis Hc : forall n o x, P (FCompare n o x).
  Hypothesis Hb : forall n e, P e -> P (FBracket n e).
  Hypothesis Ha : forall l, Forall P l -> P (FAnd l).
  Hypothesis Ho : forall l, Forall P l -> P (FOr l).
  Hypothesis Hn : forall e, P e -> P (FNot e).
  Fixpoint fexp_rect' (e : fexp) : P e :=
    match e with
    | FPresent n o => Hp n o
    | FCompare n o x => Hc n o x
    | FBracket n e => Hb n e (fexp_rect' e)
    | FAnd l => Ha l ((fix go l := match l return Forall P l with [] => Forall_nil _ | x :: t => Forall_cons x (fexp_rect' x) (go t) end) l)
    | FOr l => Ho l ((fix go l := match l return Forall P l with [] => Forall_nil _ | x :: t => Forall_cons x (fexp_rect' x) (go t) end) l)
    | FNot e => Hn e (fexp_rect' e)
    end.
End Ind.

Fixpoint skel (e : fexp) : exp :=
  match e with
  | FPresent n o => Words [n; o]
  | FCompare n o (Bare t) => Words [n; o; t]
  | FCompare n o (Quoted q c) => QTest n o q c
  | FBracket n e => Brk n (skel e)
  | FAnd l => EAnd (map skel l)
  | FOr l => EOr (map skel l)
  | FNot e => ENot (skel e)
  end.
Lemma par_skel e : par 3 (skel e) = is_or e /\ par 2 (skel e) = is_and_or e /\ par 1 (skel e) = is_logic e.
Proof. destruct e as [| n o [|]| | | |]; repeat split. Qed.
Lemma text_skel e : text e = etext (skel e).
Proof.
  induction e as [n o|n o x|n e IH|l IH|l IH|e IH] using fexp_rect'; cbn [text skel etext].
  - reflexivity.
  - destruct x; reflexivity.
  - rewrite IH. reflexivity.
  - f_equal. rewrite map_map. apply map_ext_in. intros e He. unfold arg_text. rewrite (proj1 (proj2 (par_skel e))). rewrite Forall_forall in IH. rewrite (IH e He). reflexivity.
  - f_equal. rewrite map_map. apply map_ext_in. intros e He. unfold arg_text. rewrite (proj1 (par_skel e)). rewrite Forall_forall in IH. rewrite (IH e He). reflexivity.
  - f_equal. unfold arg_text. rewrite (proj2 (proj2 (par_skel e))), IH. reflexivity.
Qed.

(** ** Words of a filter *)

(** Harmless: none of the characters that matter to the scans. *)
Definition calm (c : ascii) : bool :=
  negb (is_space c) && negb (existsb (chr_eqb c) [dquote; squote; lpar; rpar; lbrk; rbrk; "|"%char]).
Lemma calm_facts w : w <> [] -> Forall (fun c => calm c = true) w -> solid w /\ Forall quiet w /\ noq w /\ no_brackets w /\ ~ In "|"%char w.
Proof.
  intros Hn H. assert (C : forall c, In c w -> is_space c = false /\ c <> dquote /\ c <> squote /\ c <> lpar /\ c <> rpar /\ c <> lbrk /\ c <> rbrk /\ c <> "|"%char).
  { intros c Hc. rewrite Forall_forall in H. specialize (H c Hc). unfold calm in H. apply andb_true_iff in H as [H1 H2]. apply negb_true_iff in H1. apply negb_true_iff in H2.
    split; [exact H1|]. repeat split; intros ->; discriminate H2. }
  split; [split; [exact Hn|]; apply Forall_forall; intros c Hc; apply (C c Hc)|]. split; [apply Forall_forall; intros c Hc; destruct (C c Hc) as [_ [A [_ [B [D _]]]]]; repeat split; assumption|].
  repeat split; intros X; destruct (C _ X) as [_ [? [? [? [? [? [? ?]]]]]]]; congruence.
Qed.
Lemma word_calm c : is_word c = true -> calm c = true.
Proof. revert c. apply implb_chars. vm_compute. reflexivity. Qed.
Lemma name_calm n segs attr sub : names_attr n segs attr sub -> n <> [] /\ Forall (fun c => calm c = true) n.
Proof.
  assert (Wc : forall w, word w -> Forall (fun c => calm c = true) w) by (intros w [_ H]; revert H; apply Forall_impl; intros c; apply word_calm).
  intros [Hs [Ha [Hb ->]]]. split.
  - intros E. apply app_eq_nil in E as [_ E]. apply app_eq_nil in E as [E _]. destruct Ha as [[Ha _]|Ha]; [contradiction | subst; discriminate].
  - apply Forall_app. split; [|apply Forall_app; split].
    + unfold terminated. induction Hs as [|s segs [_ Hseg] Hs IH]; [constructor|]. cbn [map concat]. apply Forall_app. split; [|exact IH]. apply Forall_app. split; [|repeat constructor].
      revert Hseg. apply Forall_impl. intros c [H|[-> | ->]]; [apply word_calm; exact H | reflexivity | reflexivity].
    + destruct Ha as [Ha| ->]; [apply Wc; exact Ha | repeat constructor].
    + destruct sub as [|c s]; [constructor|]. constructor; [reflexivity|]. destruct Hb as [Hb|Hb]; [discriminate | apply Wc; exact Hb].
Qed.
Lemma lower_letter c : is_word (lower_chr c) = true -> is_word c = true.
Proof. revert c. apply (implb_chars (fun c => is_word (lower_chr c)) is_word). vm_compute. reflexivity. Qed.
Lemma op_calm w k : lower w = k -> Forall (fun c => is_word c = true) k -> k <> [] -> k <> $"or" -> k <> $"and" -> k <> $"not" -> (w <> [] /\ Forall (fun c => calm c = true) w) /\ keyword_free w.
Proof.
  intros E Hk Hn N1 N2 N3. assert (Hw : Forall (fun c => is_word c = true) w).
  { rewrite <- E in Hk. unfold lower in Hk. rewrite Forall_map in Hk. revert Hk. apply Forall_impl. intros c. apply lower_letter. }
  split; [split; [intros ->; subst; contradiction | revert Hw; apply Forall_impl; intros c; apply word_calm]|].
  repeat split; intros M; apply mentions_word in M; try exact Hw; subst w; subst k; [apply N1 | apply N2 | apply N3]; reflexivity.
Qed.
Lemma op_word_facts b : Forall (fun c => is_word c = true) (op_word b) /\ op_word b <> [] /\ op_word b <> $"or" /\ op_word b <> $"and" /\ op_word b <> $"not".
Proof. destruct b; repeat split; try discriminate; repeat constructor. Qed.
Lemma binop_of_word b : binop_of (op_word b) = Some b.
Proof. destruct b; reflexivity. Qed.
Lemma digit_calm c : is_digit c = true -> calm c = true /\ c <> "o"%char /\ c <> "a"%char /\ c <> "n"%char.
Proof. intros H. split; [revert c H; apply implb_chars; vm_compute; reflexivity|]. repeat split; intros ->; discriminate. Qed.
Lemma shows_calm t l : shows t l -> (t <> [] /\ Forall (fun c => calm c = true) t) /\ keyword_free t.
Proof.
  assert (D : forall s, digits s -> (s <> [] /\ Forall (fun c => calm c = true) s) /\ (~ In "o"%char s /\ ~ In "a"%char s /\ ~ In "n"%char s)).
  { intros s [Hn Hs]. apply digits_bool in Hs. split; [split; [exact Hn | revert Hs; apply Forall_impl; intros c Hc; apply (digit_calm c Hc)]|].
    rewrite Forall_forall in Hs. repeat split; intros X; destruct (digit_calm _ (Hs _ X)) as [_ [A [B C]]]; [apply A | apply B | apply C]; reflexivity. }
  assert (K : forall w, Forall (fun c => is_word c = true) w -> w <> [] -> w <> $"or" -> w <> $"and" -> w <> $"not" -> (w <> [] /\ Forall (fun c => calm c = true) w) /\ keyword_free w).
  { intros w Hw Hn N1 N2 N3. split; [split; [exact Hn | revert Hw; apply Forall_impl; intros c; apply word_calm]|]. repeat split; intros M; apply mentions_word in M; try exact Hw; contradiction. }
  intros H. destruct H as [| | |s Hs _|s Hs _].
  - apply K; try discriminate; repeat constructor.
  - apply K; try discriminate; repeat constructor.
  - apply K; try discriminate; repeat constructor.
  - destruct (D s Hs) as [A [B1 [B2 B3]]]. split; [exact A|]. repeat split; apply mentions_first; assumption.
  - destruct (D s Hs) as [[A1 A2] [B1 [B2 B3]]]. split; [split; [discriminate | constructor; [reflexivity | exact A2]]|].
    repeat split; apply mentions_first; intros [X|X]; try discriminate; contradiction.
Qed.

(** ** Leaves *)

Lemma match_ph_inv s ds rest : match_ph s = Some (ds, rest) -> s = ph_open ++ ds ++ ph_close ++ rest /\ forallb is_digit ds = true.
Proof.
  unfold match_ph. destruct (starts_with s ph_open) eqn:E; [|discriminate]. apply starts_with_spec in E as [q ->]. rewrite skipn_app_exact.
  destruct (span is_digit q) as [d r] eqn:Es. apply span_spec in Es as [-> [H1 _]]. destruct d as [|x d]; [discriminate|]. destruct (starts_with r ph_close) eqn:E2; [|discriminate].
  apply starts_with_spec in E2 as [r' ->]. rewrite skipn_app_exact. intros E. injection E as <- <-. split; [reflexivity | exact H1].
Qed.
Lemma spaced_not_ph a b t : parse_placeholder (spaced (a :: b :: t)) = None.
Proof.
  unfold parse_placeholder. destruct (match_ph (spaced (a :: b :: t))) as [[ds [|c r]]|] eqn:E; try reflexivity. exfalso. apply match_ph_inv in E as [E H]. rewrite app_nil_r in E.
  assert (X : In sp (ph_open ++ ds ++ ph_close)) by (rewrite <- E, spaced_cons by discriminate; apply in_or_app; right; left; reflexivity).
  rewrite !in_app_iff in X. destruct X as [X|[X|X]].
  - cbn in X. repeat (destruct X as [X|X]; [discriminate|]). contradiction.
  - rewrite forallb_forall in H. specialize (H _ X). discriminate.
  - cbn in X. repeat (destruct X as [X|X]; [discriminate|]). contradiction.
Qed.
Lemma names_parse n segs attr sub : names_attr n segs attr sub -> parse_rep n = Some (mkRep (joined segs) attr sub false).
Proof. intros H. apply parse_rep_iff. exists segs. auto. Qed.
Lemma wrap_condition n segs attr sub mk : names_attr n segs attr sub -> wrap_sub (mkRep (joined segs) attr sub false) mk = Ok (condition segs attr sub mk).
Proof.
  intros [_ [Ha [Hs _]]]. unfold wrap_sub, condition. cbn [r_sub r_schema r_attr]. destruct sub as [|c s]; [reflexivity|]. destruct Hs as [Hs|Hs]; [discriminate|].
  rewrite mk_rep_ok by (try (apply attr_name_ok_spec; exact Ha); discriminate). cbn [bind]. rewrite mk_rep_ok by (try (apply attr_name_ok_spec; left; exact Hs); discriminate). reflexivity.
Qed.
Lemma leaf_present n w segs attr sub strings cx b : names_attr n segs attr sub -> lower w = $"pr" -> solid w -> leaf strings cx b [n; w] (condition segs attr sub OPresent).
Proof.
  intros Hn Hw Hs g _. destruct (name_calm _ _ _ _ Hn) as [N1 N2]. destruct (calm_facts n N1 N2) as [Sn _]. unfold parse_attr_exp. assert (F : Forall solid [n; w]) by (repeat (constructor; [assumption|]); constructor).
  rewrite strip_spaced by (discriminate || exact F). rewrite spaced_not_ph, split_ws_spaced by (discriminate || exact F). rewrite (names_parse _ _ _ _ Hn), Hw. cbn [str_eqb]. change (str_eqb ($"pr") ($"pr")) with true. cbn iota.
  rewrite (wrap_condition _ _ _ _ _ Hn). reflexivity.
Qed.
Lemma leaf_compare n w t segs attr sub bo l strings cx b : names_attr n segs attr sub -> lower w = op_word bo -> solid w -> solid t -> suits bo l -> parse_comparison_value (encode_strings t strings) = Ok l ->
  leaf strings cx b [n; w; t] (condition segs attr sub (fun r => OBin bo r l)).
Proof.
  intros Hn Hw Hs Ht Hl Hv g _. destruct (name_calm _ _ _ _ Hn) as [N1 N2]. destruct (calm_facts n N1 N2) as [Sn _]. unfold parse_attr_exp. assert (F : Forall solid [n; w; t]) by (repeat (constructor; [assumption|]); constructor).
  rewrite strip_spaced by (discriminate || exact F). rewrite spaced_not_ph, split_ws_spaced by (discriminate || exact F). rewrite (names_parse _ _ _ _ Hn), Hw, binop_of_word, Hv. cbn [app finish_binary].
  apply lit_allowed_iff in Hl. rewrite Hl, (wrap_condition _ _ _ _ _ Hn). reflexivity.
Qed.

(** ** The three stages *)

Lemma means_list {A : fexp -> oper -> Prop} {B : fexp -> Prop} l os : Forall (fun e => forall o, A e o -> B e) l -> Forall2 A l os -> Forall B l.
Proof. intros H F. induction F; [constructor|]. inversion H; subst. constructor; eauto. Qed.
Lemma test_words n segs attr sub : names_attr n segs attr sub -> solid n /\ Forall quiet n /\ noq n /\ no_brackets n /\ ~ In "|"%char n.
Proof. intros H. destruct (name_calm _ _ _ _ H) as [A B]. apply calm_facts; assumption. Qed.
Lemma pr_facts w : lower w = $"pr" -> (solid w /\ Forall quiet w /\ noq w /\ no_brackets w /\ ~ In "|"%char w) /\ keyword_free w.
Proof. intros H. destruct (op_calm w _ H) as [[A B] K]; try discriminate; [repeat constructor|]. split; [apply calm_facts; assumption | exact K]. Qed.
Lemma bin_facts w b : lower w = op_word b -> (solid w /\ Forall quiet w /\ noq w /\ no_brackets w /\ ~ In "|"%char w) /\ keyword_free w.
Proof. intros H. destruct (op_word_facts b) as [F1 [F2 [F3 [F4 F5]]]]. destruct (op_calm w _ H F1 F2 F3 F4 F5) as [[A B] K]. split; [apply calm_facts; assumption | exact K]. Qed.
Lemma show_facts t l : shows t l -> (solid t /\ Forall quiet t /\ noq t /\ no_brackets t /\ ~ In "|"%char t) /\ keyword_free t.
Proof. intros H. destruct (shows_calm t l H) as [[A B] K]. split; [apply calm_facts; assumption | exact K]. Qed.
Lemma means_maskable : forall e o, means e o -> maskable (skel e).
Proof.
  induction e as [n w|n w x|n e IH|l IH|l IH|e IH] using fexp_rect'; intros o H; inversion H as [? ? ? ? ? Hn Hk Hw|? ? ? ? ? ? b lt Hn Hk Hw Hx Hs|? ? ? ? o1 Hn Hb He Ho|? os Hl Hf|? os Hl Hf|? o1 Ho]; subst; cbn [skel].
  - destruct (test_words _ _ _ _ Hn) as [_ [_ [Q _]]]. destruct (pr_facts w Hw) as [[_ [_ [Q' _]]] _].
    constructor; [discriminate | repeat (constructor; [assumption|]); constructor].
  - destruct (test_words _ _ _ _ Hn) as [_ [_ [Q _]]]. destruct (bin_facts w b Hw) as [[_ [_ [Q' _]]] _]. destruct Hx as [q c Hq Hc|t l Ht].
    + constructor; assumption.
    + destruct (show_facts t l Ht) as [[_ [_ [Qt _]]] _]. constructor; [discriminate|]. repeat (constructor; [assumption|]). constructor.
  - destruct (test_words _ _ _ _ Hn) as [_ [_ [Q _]]]. constructor; [exact Q | eapply IH; eassumption].
  - constructor; [destruct l; [cbn in *; lia | discriminate]|]. apply Forall_map. eapply means_list; eassumption.
  - constructor; [destruct l; [cbn in *; lia | discriminate]|]. apply Forall_map. eapply means_list; eassumption.
  - constructor. eapply IH; eassumption.
Qed.

Section Stages.
  Context (strings : idict str) (b0 : nat).
  Notation masked := (rel true (unquote b0 strings)).

  Lemma masked_words ws e : masked (Words ws) e -> e = Words ws.
  Proof. intros H. inversion H as [? ? _ _ [[ws' [E ->]]|[n [o [q [c [i [E _]]]]]]]| | | |]; subst; [reflexivity | discriminate]. Qed.
  Lemma masked_test n o q c e : masked (QTest n o q c) e -> exists i, e = Words [n; o; placeholder i] /\ iget i strings = Some (q :: c ++ [q]).
  Proof. intros H. inversion H as [? ? _ _ [[ws' [E ->]]|[n' [o' [q' [c' [i [E [-> [_ Hi]]]]]]]]]| | | |]; subst; [discriminate|]. injection E as -> -> -> ->. eauto. Qed.
  Lemma masked_brk n x e : masked (Brk n x) e -> exists x', e = Brk n x' /\ masked x x'.
  Proof. intros H. inversion H as [? ? _ _ [[ws' [E ->]]|[n' [o' [q' [c' [i [E _]]]]]]]|? ? x' _ Hx| | |]; subst; try discriminate. eauto. Qed.
  Lemma masked_and l e : masked (EAnd l) e -> exists l', e = EAnd l' /\ Forall2 masked l l'.
  Proof. intros H. inversion H; subst; [discriminate | eauto]. Qed.
  Lemma masked_or l e : masked (EOr l) e -> exists l', e = EOr l' /\ Forall2 masked l l'.
  Proof. intros H. inversion H; subst; [discriminate | eauto]. Qed.
  Lemma masked_not x e : masked (ENot x) e -> exists x', e = ENot x' /\ masked x x'.
  Proof. intros H. inversion H; subst; [discriminate | eauto]. Qed.

  (** A test after masking: the words, and what they read as. *)
  Lemma test_reads e o e1 : means e o -> level (skel e) = 0 -> has_bracket e = false -> masked (skel e) e1 ->
    exists ws, e1 = Words ws /\ ws <> [] /\ Forall good_word ws /\ Forall no_brackets ws /\ forall cx b, leaf strings cx b ws o.
  Proof.
    intros H Hl Hb Hm. inversion H as [n w segs attr sub Hn Hk Hw|n w x segs attr sub b lt Hn Hk Hw Hx Hs| | | |]; subst; try discriminate; cbn [skel] in Hm.
    - apply masked_words in Hm. subst e1. destruct (test_words _ _ _ _ Hn) as [A1 [A2 [_ [A4 _]]]]. destruct (pr_facts w Hw) as [[B1 [B2 [_ [B4 _]]]] Kw].
      exists [n; w]. split; [reflexivity|]. split; [discriminate|]. split; [repeat (constructor; [split; [assumption | split; assumption]|]); constructor|]. split; [repeat (constructor; [assumption|]); constructor|].
      intros cx b. apply leaf_present; assumption.
    - destruct (test_words _ _ _ _ Hn) as [A1 [A2 [_ [A4 _]]]]. destruct (bin_facts w b Hw) as [[B1 [B2 [_ [B4 _]]]] Kw].
      destruct Hx as [q c Hq Hc|t l Ht].
      + apply masked_test in Hm as [i [-> Hi]]. exists [n; w; placeholder i]. split; [reflexivity|]. split; [discriminate|].
        assert (P0 : forall c0, ~ In c0 (ph_open ++ ph_close) -> is_digit c0 = false -> ~ In c0 (placeholder i)) by (intros; apply placeholder_no; assumption).
        assert (P2 : Forall quiet (placeholder i)). { apply Forall_forall. intros c0 Hc0. repeat split; intros ->; revert Hc0; apply P0; try reflexivity; intros X; cbn in X; repeat (destruct X as [X|X]; [discriminate|]); contradiction. }
        assert (P4 : no_brackets (placeholder i)). { repeat split; apply P0; try reflexivity; intros X; cbn in X; repeat (destruct X as [X|X]; [discriminate|]); contradiction. }
        destruct (placeholder_free i) as [P1 P3].
        split; [repeat (constructor; [split; [assumption | split; assumption]|]); constructor|]. split; [repeat (constructor; [assumption|]); constructor|].
        intros cx b1. apply leaf_compare; try assumption. rewrite (encode_placeholder i strings _ Hi). apply quoted_value. exact Hq.
      + apply masked_words in Hm. subst e1. destruct (show_facts t l Ht) as [[C1 [C2 [_ [C4 C5]]]] Kt].
        exists [n; w; t]. split; [reflexivity|]. split; [discriminate|]. split; [repeat (constructor; [split; [assumption | split; assumption]|]); constructor|]. split; [repeat (constructor; [assumption|]); constructor|].
        intros cx b1. apply leaf_compare; try assumption. rewrite encode_plain by exact C5. apply shows_value. exact Ht.
  Qed.

  (** Without brackets the masked expression reads as its meaning. *)
  Lemma sep_no_brackets s l : no_brackets s -> Forall no_brackets l -> no_brackets (sep_by s l).
  Proof. intros Hs H. induction H as [|x t Hx Ht IH]; [repeat split; intros []|]. cbn [sep_by]. destruct t; [exact Hx|]. apply no_brackets_app. split; [exact Hx|]. apply no_brackets_app. auto. Qed.
  Lemma arg_no_brackets k e : no_brackets (etext e) -> no_brackets (arg_text etext k e).
  Proof.
    intros H. unfold arg_text. destruct (par k e); [|exact H]. unfold parens. change ("("%char :: etext e ++ [")"%char]) with (["("%char] ++ etext e ++ [")"%char]). rewrite !no_brackets_app.
    repeat split; try apply H; intros [X|[]]; discriminate.
  Qed.
  Lemma kw_no_brackets : no_brackets ($" and ") /\ no_brackets ($" or ") /\ no_brackets ($"not ").
  Proof. repeat split; intros X; cbn in X; repeat (destruct X as [X|X]; [discriminate|]); contradiction. Qed.
  Lemma plain_reads : forall e o, means e o -> has_bracket e = false -> forall e1, masked (skel e) e1 ->
    no_brackets (etext e1) /\ forall cx b, reads strings cx b e1 o.
  Proof.
    assert (T : forall e o, means e o -> level (skel e) = 0 -> has_bracket e = false -> forall e1, masked (skel e) e1 -> no_brackets (etext e1) /\ forall cx b, reads strings cx b e1 o).
    { intros e o H Hl Hb e1 Hm. destruct (test_reads e o e1 H Hl Hb Hm) as [ws [-> [A [B [C D]]]]]. split; [apply no_brackets_spaced; exact C|]. intros cx b. constructor; auto. }
    assert (L : forall k s l, no_brackets s -> Forall (fun e => forall o, means e o -> has_bracket e = false -> forall e1, masked (skel e) e1 -> no_brackets (etext e1) /\ forall cx b, reads strings cx b e1 o) l ->
      forall os, Forall2 means l os -> existsb has_bracket l = false -> forall l', Forall2 masked (map skel l) l' ->
      no_brackets (sep_by s (map (arg_text etext k) l')) /\ forall cx b, Forall2 (fun e o => reads strings cx (if par k e then egroups e else b) e o) l' os).
    { intros k s l Hs IH os H Hb l' Hm.
      assert (X : Forall (fun e => no_brackets (etext e)) l' /\ forall cx b, Forall2 (fun e o => reads strings cx (if par k e then egroups e else b) e o) l' os).
      { revert IH Hb l' Hm. induction H as [|e o l os He _ IHl]; intros IH Hb l' Hm; cbn [map] in Hm; inversion Hm as [|? y ? l2 Hy Hl2]; subst; [split; constructor|].
        inversion IH as [|? ? I1 I2]; subst. cbn [existsb] in Hb. apply orb_false_iff in Hb as [Hb1 Hb2]. destruct (I1 o He Hb1 y Hy) as [A B]. destruct (IHl I2 Hb2 l2 Hl2) as [A' B'].
        split; [constructor; assumption|]. intros cx b. constructor; [apply B | apply B']. }
      destruct X as [X1 X2]. split; [|exact X2]. apply sep_no_brackets; [exact Hs|]. apply Forall_map. revert X1. apply Forall_impl. intros e. apply arg_no_brackets. }
    destruct kw_no_brackets as [K1 [K2 K3]].
    induction e as [n w|n w x|n e IH|l IH|l IH|e IH] using fexp_rect'; intros o H Hb e1 Hm.
    - apply (T _ _ H eq_refl Hb _ Hm).
    - apply (T _ _ H) with (e1 := e1); try assumption. destruct x; reflexivity.
    - discriminate.
    - inversion H as [| | |? os Hl Hf| |]; subst. cbn [skel] in Hm. apply masked_and in Hm as [l' [-> Hm]]. destruct (L 2 ($" and ") l K1 IH os Hf Hb l' Hm) as [A B]. split; [exact A|]. intros cx b. constructor; [|apply B].
      pose proof (Forall2_len _ _ _ Hm) as E. rewrite map_length in E. lia.
    - inversion H as [| | | |? os Hl Hf|]; subst. cbn [skel] in Hm. apply masked_or in Hm as [l' [-> Hm]]. destruct (L 3 ($" or ") l K2 IH os Hf Hb l' Hm) as [A B]. split; [exact A|]. intros cx b. constructor; [|apply B].
      pose proof (Forall2_len _ _ _ Hm) as E. rewrite map_length in E. lia.
    - inversion H as [| | | | |? o1 Ho]; subst. cbn [skel] in Hm. apply masked_not in Hm as [x' [-> Hm]]. destruct (IH _ Ho Hb x' Hm) as [A B]. split.
      + cbn [etext]. apply no_brackets_app. split; [exact K3 | apply arg_no_brackets; exact A].
      + intros cx b. constructor. apply B.
  Qed.

  (** A bracketed attribute parses as the complex condition. *)
  Lemma spaced_ne ws : ws <> [] -> Forall solid ws -> spaced ws <> [].
  Proof. intros H1 H2. destruct (spaced_head ws H1 H2) as [c [t [E _]]]. rewrite E. discriminate. Qed.
  Lemma strip_ne s : (exists c, In c s /\ is_space c = false) -> strip s <> [].
  Proof.
    assert (Ls : forall s, (exists c, In c s /\ is_space c = false) -> exists c, In c (lstrip s) /\ is_space c = false).
    { induction s0 as [|x s0 IH]; intros [c [Hc Hs]]; [contradiction|]. cbn [lstrip]. destruct (is_space x) eqn:Ex; [|exists c; auto]. apply IH. destruct Hc as [->|Hc]; [congruence | eauto]. }
    intros H. unfold strip, rstrip. apply Ls in H. assert (H' : exists c, In c (rev (lstrip s)) /\ is_space c = false) by (destruct H as [c [H1 H2]]; exists c; rewrite <- in_rev; auto).
    apply Ls in H' as [c [H1 _]]. intros E. apply (f_equal (@rev ascii)) in E. rewrite rev_involutive in E. rewrite E in H1. contradiction.
  Qed.
  Lemma bracket_parses n e o segs attr e1 : names_attr n segs attr [] -> has_bracket e = false -> means e o -> masked (skel e) e1 ->
    parse_complex strings n (etext e1) = Ok (OComplex (mkRep (joined segs) attr [] false) o, []).
  Proof.
    intros Hn Hb Ho Hm. destruct (plain_reads e o Ho Hb e1 Hm) as [_ R]. specialize (R [] (egroups e1)). unfold parse_complex.
    destruct (reads_tokens strings [] e1 _ _ R) as [T1 T2].
    assert (Ne : strip (etext e1) <> []).
    { apply strip_ne. pose proof (operator_reads strings [] (S (length (etext e1))) e1 o R ltac:(lia)) as P. destruct (existsb (fun c => negb (is_space c)) (etext e1)) eqn:Ex.
      - apply existsb_exists in Ex as [c [H1 H2]]. apply negb_true_iff in H2. eauto.
      - exfalso. clear Hm.
        assert (W : forall e b o, reads strings [] b e o -> exists c, In c (etext e) /\ is_space c = false).
        { clear. assert (A : forall k e, (exists c, In c (etext e) /\ is_space c = false) -> exists c, In c (arg_text etext k e) /\ is_space c = false).
          { intros k e [c [H1 H2]]. exists c. split; [|exact H2]. unfold arg_text. destruct (par k e); [|exact H1]. right. apply in_or_app. left. exact H1. }
          assert (S : forall s x t, (exists c, In c x /\ is_space c = false) -> exists c, In c (sep_by s (x :: t)) /\ is_space c = false).
          { intros s x t [c [H1 H2]]. exists c. split; [|exact H2]. cbn [sep_by]. destruct t; [exact H1 | apply in_or_app; left; exact H1]. }
          induction e as [ws|n o q c|n e IH|l IH|l IH|e IH] using exp_rect'; intros b o0 H; inversion H; subst.
          - destruct ws as [|w ws]; [contradiction|]. match goal with H : Forall good_word (w :: ws) |- _ => inversion H as [|? ? [[Hn Hs] _] _]; subst end. destruct w as [|c w]; [contradiction|]. inversion Hs; subst.
            exists c. split; [|assumption]. cbn [etext spaced]. destruct ws; left; reflexivity.
          - destruct l as [|e l]; [cbn in *; lia|]. cbn [etext map]. apply S, A. inversion IH; subst. match goal with H : Forall2 _ (e :: l) _ |- _ => inversion H; subst end. eauto.
          - destruct l as [|e l]; [cbn in *; lia|]. cbn [etext map]. apply S, A. inversion IH; subst. match goal with H : Forall2 _ (e :: l) _ |- _ => inversion H; subst end. eauto.
          - exists "n"%char. split; [left; reflexivity | reflexivity]. }
        destruct (W e1 _ _ R) as [c [H1 H2]]. assert (X : existsb (fun c => negb (is_space c)) (etext e1) = true) by (apply existsb_exists; exists c; rewrite H2; auto). congruence. }
    destruct (strip (etext e1)) as [|c s]; [contradiction|]. rewrite (names_parse _ _ _ _ Hn). cbn [r_sub nonempty app].
    rewrite (operator_reads strings [] (S (length (etext e1))) e1 o R) by lia. reflexivity.
  Qed.

  Lemma bracket_name_chr n : bracket_name n -> Forall (fun c => name_chr c = true) n.
  Proof. apply Forall_impl. intros c [H|[-> | ->]]; [|reflexivity|reflexivity]. unfold name_chr. rewrite H. reflexivity. Qed.
  Lemma means_hideable : forall e o, means e o -> forall e1, masked (skel e) e1 -> hideable strings e1.
  Proof.
    assert (T : forall e o, means e o -> level (skel e) = 0 -> has_bracket e = false -> forall e1, masked (skel e) e1 -> hideable strings e1).
    { intros e o H Hl Hb e1 Hm. destruct (test_reads e o e1 H Hl Hb Hm) as [ws [-> [A [B [C D]]]]]. constructor; [exact A | apply spaced_ne; [exact A | revert B; apply Forall_impl; intros w Hw; apply Hw] | exact C]. }
    assert (L : forall l os, Forall (fun e => forall o, means e o -> forall e1, masked (skel e) e1 -> hideable strings e1) l -> Forall2 means l os -> forall l', Forall2 masked (map skel l) l' -> Forall (hideable strings) l').
    { intros l os IH H. induction H as [|e o l os He _ IHl]; intros l' Hm; cbn [map] in Hm; inversion Hm; subst; [constructor|]. inversion IH; subst. constructor; eauto. }
    induction e as [n w|n w x|n e IH|l IH|l IH|e IH] using fexp_rect'; intros o H e1 Hm.
    - apply (T _ _ H eq_refl eq_refl _ Hm).
    - apply (T _ _ H) with (e1 := e1); try assumption; destruct x; reflexivity.
    - inversion H as [| |? ? segs attr o1 Hn Hbn He Ho| | |]; subst. cbn [skel] in Hm. apply masked_brk in Hm as [x' [-> Hm]]. destruct (name_calm _ _ _ _ Hn) as [N1 _]. eapply hd_brk.
      + exact N1.
      + apply bracket_name_chr. assumption.
      + apply (plain_reads e o1 Ho He x' Hm).
      + eapply bracket_parses; eassumption.
    - inversion H as [| | |? os Hl Hf| |]; subst. cbn [skel] in Hm. apply masked_and in Hm as [l' [-> Hm]]. constructor; [|eapply L; eassumption]. pose proof (Forall2_len _ _ _ Hm) as E. rewrite map_length in E. destruct l'; [cbn in *; lia | discriminate].
    - inversion H as [| | | |? os Hl Hf|]; subst. cbn [skel] in Hm. apply masked_or in Hm as [l' [-> Hm]]. constructor; [|eapply L; eassumption]. pose proof (Forall2_len _ _ _ Hm) as E. rewrite map_length in E. destruct l'; [cbn in *; lia | discriminate].
    - inversion H as [| | | | |? o1 Ho]; subst. cbn [skel] in Hm. apply masked_not in Hm as [x' [-> Hm]]. constructor. eapply IH; eassumption.
  Qed.

  (** ** After hiding the brackets *)
  Context (cx : idict pres) (b1 : nat).
  Notation hidden := (rel false (unbracket strings b1 cx)).

  Lemma par_rel deep A e e' k : rel deep A e e' -> par k e = par k e'.
  Proof. intros R. unfold par. rewrite (rel_level _ _ _ _ R). reflexivity. Qed.
  Lemma flat_groups e : level e = 0 -> egroups e = false.
  Proof. destruct e; cbn; intros; try reflexivity; discriminate. Qed.
  Lemma rel_groups deep A : forall e e', rel deep A e e' -> egroups e = egroups e'.
  Proof.
    induction e as [ws|n o q c|n e IH|l IH|l IH|e IH] using exp_rect'; intros e' R; inversion R as [? ? L L' _|? ? ? _ _|? l' F|? l' F|? ? F]; subst; try discriminate;
      try (rewrite (flat_groups e') by assumption); try reflexivity; cbn [egroups].
    - clear R. revert IH. induction F as [|x x' l l' Hx _ IHl]; intros IH; [reflexivity|]. cbn [existsb]. inversion IH as [|? ? I1 I2]; subst. rewrite (par_rel _ _ _ _ 2 Hx), (I1 _ Hx), IHl; auto.
    - clear R. revert IH. induction F as [|x x' l l' Hx _ IHl]; intros IH; [reflexivity|]. cbn [existsb]. inversion IH as [|? ? I1 I2]; subst. rewrite (par_rel _ _ _ _ 3 Hx), (I1 _ Hx), IHl; auto.
    - rewrite (par_rel _ _ _ _ 1 F), (IH _ F). reflexivity.
  Qed.
  Lemma skel_groups : forall e, egroups (skel e) = level_groups e.
  Proof.
    assert (B : forall a b c, b = c -> a || b = a || (negb a && c)) by (intros [] b c ->; destruct c; reflexivity).
    induction e as [n w|n w x|n e IH|l IH|l IH|e IH] using fexp_rect'; cbn [skel egroups]; unfold level_groups; cbn [level_has]; try reflexivity.
    - destruct x; reflexivity.
    - cbn [parenthesised]. clear - IH B. induction IH as [|x l Hx _ IHl]; [reflexivity|]. cbn [map existsb]. rewrite IHl. rewrite (proj1 (proj2 (par_skel x))). f_equal. apply B. exact Hx.
    - cbn [parenthesised]. clear - IH B. induction IH as [|x l Hx _ IHl]; [reflexivity|]. cbn [map existsb]. rewrite IHl. rewrite (proj1 (par_skel x)). f_equal. apply B. exact Hx.
    - cbn [parenthesised]. rewrite (proj2 (proj2 (par_skel e))). apply B. exact IH.
  Qed.

  Lemma hidden_words ws e : hidden (Words ws) e -> e = Words ws.
  Proof. intros H. inversion H as [? ? _ _ [[ws' [E ->]]|[n [x [i [q [E _]]]]]]| | | |]; subst; [reflexivity | discriminate]. Qed.
  Lemma hidden_brk n x e : hidden (Brk n x) e -> exists i q, e = Words [placeholder i] /\ iget i cx = Some q /\ parse_complex strings n (etext x) = Ok q.
  Proof. intros H. inversion H as [? ? _ _ [[ws' [E _]]|[n' [x' [i [q [E [-> [_ [Hi Hq]]]]]]]]]|? ? ? D _| | |]; subst; try discriminate. injection E as -> ->. eauto. Qed.

  Lemma placeholder_good i : good_word (placeholder i).
  Proof.
    destruct (placeholder_free i) as [P1 P3]. split; [exact P1|]. split; [|exact P3]. apply Forall_forall. intros c0 Hc0.
    repeat split; intros ->; revert Hc0; apply placeholder_no; try reflexivity; intros X; cbn in X; repeat (destruct X as [X|X]; [discriminate|]); contradiction.
  Qed.
  Lemma leaf_complex i o : iget i cx = Some (o, []) -> leaf strings cx false [placeholder i] o.
  Proof.
    intros H g Hg. rewrite (Hg eq_refl). unfold parse_attr_exp. assert (F : Forall solid [placeholder i]) by (constructor; [apply placeholder_solid | constructor]). rewrite strip_spaced by (discriminate || exact F). cbn [spaced].
    rewrite parse_placeholder_ok. cbn [iget]. rewrite H. reflexivity.
  Qed.

  Lemma hidden_reads : forall e o, means e o -> levels_apart e -> forall e1, masked (skel e) e1 -> forall e2, hidden e1 e2 ->
    forall b, (b = true -> level_brackets e = false) -> reads strings cx b e2 o.
  Proof.
    assert (T : forall e o, means e o -> level (skel e) = 0 -> has_bracket e = false -> forall e1, masked (skel e) e1 -> forall e2, hidden e1 e2 -> forall b, reads strings cx b e2 o).
    { intros e o H Hl Hb e1 Hm e2 Hh b. destruct (test_reads e o e1 H Hl Hb Hm) as [ws [-> [A [B [C D]]]]]. apply hidden_words in Hh. subst e2. constructor; auto. }
    (* an operand *)
    assert (A : forall k e o e1 e2 b outer,
      (levels_apart e -> forall e1, masked (skel e) e1 -> forall e2, hidden e1 e2 -> forall b, (b = true -> level_brackets e = false) -> reads strings cx b e2 o) ->
      parenthesised outer e = par k (skel e) -> (parenthesised outer e = true -> level_groups e && level_brackets e = false) -> levels_apart e ->
      masked (skel e) e1 -> hidden e1 e2 -> (b = true -> is_bracket e || (negb (parenthesised outer e) && level_has (fun _ x => is_bracket x) e) = false) ->
      reads strings cx (if par k e2 then egroups e2 else b) e2 o).
    { intros k e o e1 e2 b outer IH Ep Hp Ha Hm Hh Hb. apply (IH Ha e1 Hm e2 Hh). rewrite <- (par_rel _ _ _ _ k Hh), <- (par_rel _ _ _ _ k Hm), <- Ep. destruct (parenthesised outer e) eqn:E.
      - intros G. rewrite <- (rel_groups _ _ _ _ Hh), <- (rel_groups _ _ _ _ Hm), skel_groups in G. specialize (Hp eq_refl). rewrite G in Hp. exact Hp.
      - intros ->. apply Hb. reflexivity. }
    (* operands *)
    assert (L : forall k outer l os l1 l2 b,
      Forall (fun e => forall o, means e o -> levels_apart e -> forall e1, masked (skel e) e1 -> forall e2, hidden e1 e2 -> forall b, (b = true -> level_brackets e = false) -> reads strings cx b e2 o) l ->
      (forall e, parenthesised outer e = par k (skel e)) -> Forall2 means l os ->
      fold_right (fun x p => (parenthesised outer x = true -> level_groups x && level_brackets x = false) /\ levels_apart x /\ p) True l ->
      Forall2 masked (map skel l) l1 -> Forall2 hidden l1 l2 ->
      (b = true -> existsb (fun x => is_bracket x || (negb (parenthesised outer x) && level_has (fun _ x => is_bracket x) x)) l = false) ->
      Forall2 (fun e o => reads strings cx (if par k e then egroups e else b) e o) l2 os).
    { intros k outer l os l1 l2 b IH Ep Hf. revert l1 l2. induction Hf as [|e o l os He _ IHl]; intros l1 l2 Ha Hm Hh Hb; cbn [map] in Hm; inversion Hm; subst; inversion Hh; subst; [constructor|].
      inversion IH as [|? ? I1 I2]; subst. cbn [fold_right] in Ha. destruct Ha as [Ha1 [Ha2 Ha3]]. constructor.
      - eapply (A k e o); try eassumption; [intros Hx; apply (I1 o He Hx) | apply Ep|]. intros Eb. specialize (Hb Eb). cbn [existsb] in Hb. apply orb_false_iff in Hb. apply Hb.
      - eapply IHl; try eassumption. intros Eb. specialize (Hb Eb). cbn [existsb] in Hb. apply orb_false_iff in Hb. apply Hb. }
    induction e as [n w|n w x|n e IH|l IH|l IH|e IH] using fexp_rect'; intros o H Ha e1 Hm e2 Hh b Hb.
    - apply (T _ _ H eq_refl eq_refl _ Hm _ Hh).
    - apply (T _ _ H) with (e1 := e1); try assumption; destruct x; reflexivity.
    - inversion H as [| |? ? segs attr o1 Hn Hbn He Ho| | |]; subst. cbn [skel] in Hm. apply masked_brk in Hm as [x' [-> Hm]]. apply hidden_brk in Hh as [i [q [-> [Hi Hq]]]].
      rewrite (bracket_parses n e o1 segs attr x' Hn He Ho Hm) in Hq. injection Hq as <-. destruct b; [discriminate (Hb eq_refl)|].
      constructor; [discriminate | constructor; [apply placeholder_good | constructor] | apply leaf_complex; exact Hi].
    - inversion H as [| | |? os Hl Hf| |]; subst. cbn [skel] in Hm. apply masked_and in Hm as [l1 [-> Hm]]. inversion Hh as [? ? L1 _ _|? ? ? _ _|? l2 Hh'|? l2 Hh'|? ? F]; subst; [discriminate|].
      constructor; [pose proof (Forall2_len _ _ _ Hm) as E; pose proof (Forall2_len _ _ _ Hh') as E'; rewrite map_length in E; lia|].
      apply (L 2 (FAnd l) l os l1 l2 b); try assumption. intros x. cbn [parenthesised]. symmetry. apply par_skel.
    - inversion H as [| | | |? os Hl Hf|]; subst. cbn [skel] in Hm. apply masked_or in Hm as [l1 [-> Hm]]. inversion Hh as [? ? L1 _ _|? ? ? _ _|? l2 Hh'|? l2 Hh'|? ? F]; subst; [discriminate|].
      constructor; [pose proof (Forall2_len _ _ _ Hm) as E; pose proof (Forall2_len _ _ _ Hh') as E'; rewrite map_length in E; lia|].
      apply (L 3 (FOr l) l os l1 l2 b); try assumption. intros x. cbn [parenthesised]. symmetry. apply par_skel.
    - inversion H as [| | | | |? o1 Ho]; subst. cbn [skel] in Hm. apply masked_not in Hm as [x1 [-> Hm]]. inversion Hh as [? ? L1 _ _|? ? ? _ _|? l2 Hh'|? l2 Hh'|? x2 Hh']; subst; [discriminate|].
      cbn [levels_apart] in Ha. destruct Ha as [Ha1 Ha2]. constructor. apply (A 1 e o1 x1 x2 b (FNot e)); try assumption; [intros Hx; apply (IH o1 Ho Hx)|]. cbn [parenthesised]. symmetry. apply par_skel.
  Qed.
End Stages.

(** ** The whole parser *)

Theorem round_trip e o : means e o -> separated e -> parse_filter (text e) = Ok (VFilter o, no_issues).
Proof.
  intros H [Hs Ha]. rewrite text_skel. destruct (mask_transf (skel e) (means_maskable e o H) 0 []) as [e1 [strings [M1 M2]]].
  unfold parse_filter, parse_filter_core. rewrite (mask_whole _ _ _ M1).
  pose proof (means_hideable strings _ e o H e1 M2) as Hd. destruct (hide_transf strings (etext e1) e1 Hd 0 []) as [e2 [cx [H1 H2]]].
  pose proof (hidden_reads strings _ cx _ e o H Ha e1 M2 e2 H2 (egroups e2)) as R.
  assert (G : egroups e2 = level_groups e) by (rewrite <- (rel_groups _ _ _ _ H2), <- (rel_groups _ _ _ _ M2); apply skel_groups).
  assert (R' : reads strings cx (egroups e2) e2 o). { apply R. rewrite G. intros E. rewrite E in Hs. exact Hs. }
  destruct H1 as [Hne [_ [_ H1]]]. destruct (H1 [] [] [] [] eq_refl) as [nm [H3 _]]; [rewrite app_nil_r; reflexivity | left; reflexivity | intros []|].
  rewrite !app_nil_r in H3. cbn [app enum_from foldM] in H3. unfold enumerate. rewrite H3. cbn [bind c_errs c_open c_text c_ops].
  rewrite (operator_reads strings cx (S (length (etext e2))) e2 o R') by lia. reflexivity.
Qed.
