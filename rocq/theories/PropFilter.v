(** Properties of filter parsing: C39, C40, C41, C42, C43, C44, C45. *)
From Verif Require Import PyBase BaseFacts PyNum NumSpec NumFacts Issues IssuesSpec IssuesFacts AttrRep AttrRepSpec AttrRepFacts Value Container Types Attr Match MatchSpec MatchFacts PropAttr
  FilterParse FilterSpec FilterText FilterTotal FilterTree FilterMask FilterNum FilterRound FilterLit FilterSame.

(** * C39 *)

(** Partial: on every string the parser ends, with a report or with OverflowError. *)
Theorem C39_terminates_partial s :
  (exists v iss, parse_filter s = Ok (v, iss)) \/ parse_filter s = Raise OverflowErr.
Proof.
  unfold parse_filter. pose proof (core_ends s) as H. destruct (parse_filter_core s) as [[o [|e es]]|e]; cbn.
  - left. eauto.
  - left. eauto.
  - right. cbn in H. subst e. reflexivity.
Qed.

(** The full claim is false: a number out of range of floats raises. *)
Theorem C39_overflow_refuted : ~ (forall s, exists v iss, parse_filter s = Ok (v, iss)).
Proof. intros H. destruct (H ($"a eq 1e400")) as [v [iss E]]. vm_compute in E. discriminate E. Qed.

Example ex_C39 : (exists v iss, parse_filter ($"a eq 1 and (b[c pr) or ") = Ok (v, iss)) /\ parse_filter ($"a eq inf") = Raise OverflowErr.
Proof. split; [eexists; eexists|]; vm_compute; reflexivity. Qed.

(** * C40 *)

Lemma root_errors l : forall i, errs_at (fold_left (fun i e => add_issue i e false []) l i) [] = errs_at i [] ++ l.
Proof.
  induction l as [|e l IH]; intros i; cbn [fold_left]; [rewrite app_nil_r; reflexivity|]. rewrite IH. unfold add_issue, errs_at at 1. cbn [i_errs].
  unfold lget, lset. rewrite (aget_aset_same loc_eqb loc_eqb_eq). rewrite <- app_assoc. reflexivity.
Qed.

(** A filter (without holes) comes with an empty report; otherwise the result is
    Invalid and the report has an error at the root that stops processing. *)
Theorem C40_result s v iss :
  parse_filter s = Ok (v, iss) ->
  (exists o, v = VFilter o /\ complete o /\ i_errs iss = [] /\ i_stop iss = [])
  \/ (v = VInvalid /\ errs_at iss [] <> [] /\ has_issues iss [] = true /\ can_proceed iss [] = false).
Proof.
  unfold parse_filter. pose proof (core_ends s) as H. destruct (parse_filter_core s) as [[o es]|e]; cbn [bind]; [|discriminate]. cbn [ends] in H.
  destruct es as [|e es]; intros E; injection E as <- <-.
  - left. exists o. repeat split. apply H. reflexivity.
  - right. split; [reflexivity|]. set (l := e :: es). assert (Hl : l <> []) by discriminate. clearbody l. clear H.
    split; [unfold iss_of; rewrite root_errors; exact Hl|].
    destruct (exists_last Hl) as [l' [x ->]]. unfold iss_of. rewrite fold_left_app. cbn [fold_left]. set (i := fold_left _ _ _). clearbody i.
    unfold has_issues, can_proceed, add_issue. cbn [i_errs i_stop existsb forallb prefixes map seq length firstn].
    split.
    + apply orb_true_intro. left. unfold lset. destruct (i_errs i) as [|[k es'] d]; [reflexivity|]. cbn [aset]. destruct (loc_eqb k []); reflexivity.
    + unfold lset. unfold amem. rewrite (aget_aset_same loc_eqb loc_eqb_eq). reflexivity.
Qed.

Example ex_C40 : (exists o, parse_filter ($"a eq 1") = Ok (VFilter o, no_issues)) /\ exists iss, parse_filter ($"a eq") = Ok (VInvalid, iss).
Proof. split; eexists; vm_compute; reflexivity. Qed.

(** * C41 *)

(** Partial: parsing the text of an expression gives its meaning, for all
    expressions without a level holding both a parenthesised group and a
    bracketed attribute. *)
Theorem C41_round_trip_partial e o :
  means e o -> separated e -> parse_filter (text e) = Ok (VFilter o, no_issues).
Proof. exact (round_trip e o). Qed.

(** The operators that have such a text without brackets. *)
Definition printable_lit (l : lit) : Prop :=
  match l with
  | LitNone | LitBool _ => True
  | LitInt z => (Z.abs z <= 2 ^ 53)%Z
  | LitStr s => ~ In double_quote s \/ ~ In single_quote s
  | LitFloat _ => False
  end.
Inductive printable : oper -> Prop :=
| pt_present n segs attr sub : names_attr n segs attr sub -> keyword_free n -> printable (condition segs attr sub OPresent)
| pt_bin b l n segs attr sub : names_attr n segs attr sub -> keyword_free n -> suits b l -> printable_lit l ->
    printable (condition segs attr sub (fun r => OBin b r l))
| pt_and l : 2 <= length l -> Forall printable l -> printable (OAnd l)
| pt_or l : 2 <= length l -> Forall printable l -> printable (OOr l)
| pt_not o : printable o -> printable (ONot o).

Lemma bracketless e : has_bracket e = false -> level_brackets e = false /\ levels_apart e.
Proof.
  revert e. assert (G : forall outer e, has_bracket e = false -> (has_bracket e = false -> level_brackets e = false /\ levels_apart e) ->
    (parenthesised outer e = true -> level_groups e && level_brackets e = false) /\ levels_apart e).
  { intros outer e H K. destruct (K H) as [A B]. rewrite A, andb_false_r. auto. }
  assert (L : forall (outer : fexp) l, Forall (fun e => has_bracket e = false -> level_brackets e = false /\ levels_apart e) l -> existsb has_bracket l = false ->
    (forall w : fexp -> bool, existsb (fun x => is_bracket x || (w x && level_has (fun _ x => is_bracket x) x)) l = false)
    /\ fold_right (fun x p => (parenthesised outer x = true -> level_groups x && level_brackets x = false) /\ levels_apart x /\ p) True l).
  { intros outer l. induction 1 as [|e l He _ IH]; intros Hb; [split; [reflexivity | exact I]|]. cbn [existsb] in Hb. apply orb_false_iff in Hb as [H1 H2]. destruct (IH H2) as [A B].
    destruct (G outer e H1 He) as [C D]. destruct (He H1) as [F _]. unfold level_brackets in F. apply orb_false_iff in F as [F1 F2]. split.
    - intros w. cbn [existsb]. rewrite F1, F2, andb_false_r, A. reflexivity.
    - cbn [fold_right]. auto. }
  induction e using fexp_rect'; intros Hb; try (split; [reflexivity | exact I]); try discriminate.
  - cbn [has_bracket] in Hb. destruct (L (FAnd l) l H Hb) as [A B]. split; [|exact B]. unfold level_brackets. cbn [is_bracket orb level_has]. apply A.
  - cbn [has_bracket] in Hb. destruct (L (FOr l) l H Hb) as [A B]. split; [|exact B]. unfold level_brackets. cbn [is_bracket orb level_has]. apply A.
  - cbn [has_bracket] in Hb. destruct (IHe Hb) as [A B]. destruct (G (FNot e) e Hb IHe) as [C D]. split; [|cbn [levels_apart]; auto].
    unfold level_brackets in A |- *. apply orb_false_iff in A as [A1 A2]. cbn [is_bracket orb level_has]. rewrite A1, A2, andb_false_r. reflexivity.
Qed.
Lemma bracketless_separated e : has_bracket e = false -> separated e.
Proof. intros H. destruct (bracketless e H) as [A B]. split; [rewrite A; apply andb_false_r | exact B]. Qed.

Lemma digits_exist z : (0 <= z)%Z -> exists s, digits s /\ digits_value 0 s = z.
Proof.
  intros Hz. destruct (dec_of_nat_spec (Z.to_nat z)) as [H1 [H2 H3]]. exists (dec_of_nat (Z.to_nat z)). rewrite forallb_forall in H2. split.
  - split; [exact H1|]. apply Forall_forall. intros c Hc. apply is_digit_iff, H2, Hc.
  - rewrite <- (Z2Nat.id z Hz) at 2. rewrite <- H3 at 2. generalize (dec_of_nat (Z.to_nat z)) as s. clear. intros s. unfold nat_of_dec.
    assert (G : forall a, digits_value (Z.of_nat a) s = Z.of_nat (fold_left (fun a c => 10 * a + digit_val c) s a)); [|exact (G 0)].
    induction s as [|c s IH]; intros a; [reflexivity|]. cbn [digits_value fold_left]. rewrite <- IH. f_equal. unfold digit_val. lia.
Qed.
Lemma operand_exists l : printable_lit l -> exists x, operand_lit x l.
Proof.
  destruct l as [|b|z|f|s]; cbn.
  - exists (Bare ($"null")). constructor. constructor.
  - exists (Bare (if b then $"true" else $"false")). constructor. destruct b; constructor.
  - intros H. destruct (Z.leb_spec 0 z).
    + destruct (digits_exist z) as [s [H1 H2]]; [assumption|]. exists (Bare s). constructor. rewrite <- H2. constructor; [exact H1 | lia].
    + destruct (digits_exist (- z)) as [s [H1 H2]]; [lia|]. exists (Bare ("-"%char :: s)). constructor. replace z with (- digits_value 0 s)%Z by lia. constructor; [exact H1 | lia].
  - intros [].
  - intros [H|H]; eexists; (constructor; [|exact H]); auto.
Qed.

(** Every printable filter has a text, which parses back to it. *)
Theorem C41_printable_partial o :
  printable o -> exists e, means e o /\ has_bracket e = false /\ parse_filter (text e) = Ok (VFilter o, no_issues).
Proof.
  intros H. assert (G : exists e, means e o /\ has_bracket e = false).
  { revert o H. fix go 2. intros o H. destruct H as [n segs attr sub Hn Hk | b l n segs attr sub Hn Hk Hs Hl | l H2 Hf | l H2 Hf | o H].
    - exists (FPresent n ($"pr")). split; [constructor; [exact Hn | exact Hk | reflexivity] | reflexivity].
    - destruct (operand_exists l Hl) as [x Hx]. exists (FCompare n (op_word b) x). split; [|reflexivity]. apply me_compare; try assumption. destruct b; reflexivity.
    - assert (G : exists es, Forall2 means es l /\ existsb has_bracket es = false).
      { clear H2. revert l Hf. fix lo 2. intros l Hf. destruct Hf as [|x l Hx Hf]; [exists []; split; [constructor | reflexivity]|].
        destruct (go x Hx) as [e [A B]]. destruct (lo l Hf) as [es [C D]]. exists (e :: es). split; [constructor; assumption|]. cbn [existsb]. rewrite B, D. reflexivity. }
      destruct G as [es [A B]]. exists (FAnd es). split; [|exact B]. constructor; [|exact A]. apply Forall2_len in A. lia.
    - assert (G : exists es, Forall2 means es l /\ existsb has_bracket es = false).
      { clear H2. revert l Hf. fix lo 2. intros l Hf. destruct Hf as [|x l Hx Hf]; [exists []; split; [constructor | reflexivity]|].
        destruct (go x Hx) as [e [A B]]. destruct (lo l Hf) as [es [C D]]. exists (e :: es). split; [constructor; assumption|]. cbn [existsb]. rewrite B, D. reflexivity. }
      destruct G as [es [A B]]. exists (FOr es). split; [|exact B]. constructor; [|exact A]. apply Forall2_len in A. lia.
    - destruct (go o H) as [e [A B]]. exists (FNot e). split; [constructor; exact A | exact B]. }
  destruct G as [e [A B]]. exists e. split; [exact A|]. split; [exact B|]. apply round_trip; [exact A | apply bracketless_separated, B].
Qed.

(** Concrete conditions on one-word names. *)
Lemma word_free n : Forall (fun c => is_word c = true) n -> ~ In n [$"or"; $"and"; $"not"] -> keyword_free n.
Proof. intros H N. repeat split; intros M; apply (mentions_word _ _ H) in M; apply N; rewrite M; cbn; auto. Qed.
Lemma plain_word n : word n -> names_attr n [] n [].
Proof. intros H. repeat split; auto. cbn. rewrite app_nil_r. reflexivity. Qed.
Definition fpr (n : str) : fexp := FPresent n ($"pr").
Lemma fpr_means n : word n -> ~ In n [$"or"; $"and"; $"not"] -> means (fpr n) (OPresent (simple_name n)).
Proof.
  intros H N. apply (me_present n ($"pr") [] n []); [apply plain_word, H | apply word_free; [apply H | exact N] | reflexivity].
Qed.
Ltac in_no H := cbn in H; repeat (destruct H as [H|H]; [discriminate H|]); exact H.
Ltac a_word := split; [discriminate | repeat constructor].
Ltac pr_means := apply fpr_means; [a_word | let H := fresh in intros H; in_no H].

(** The full claim is false: with a long enough text before them, a bracketed
    attribute and a group get the same number, and the group takes the place of
    the attribute. *)
Definition crowded (k : nat) : fexp :=
  FAnd [FBracket (repeat "a"%char k) (fpr ($"x")); FBracket ($"b") (fpr ($"y")); FOr [fpr ($"z"); fpr ($"w")]].
Definition crowded_op (k : nat) : oper :=
  OAnd [OComplex (simple_name (repeat "a"%char k)) (OPresent (simple_name ($"x"))); OComplex (simple_name ($"b")) (OPresent (simple_name ($"y")));
        OOr [OPresent (simple_name ($"z")); OPresent (simple_name ($"w"))]].
Lemma crowded_means k : k <> 0 -> means (crowded k) (crowded_op k).
Proof.
  intros Hk. assert (W : Forall (fun c => is_word c = true) (repeat "a"%char k)) by (apply Forall_forall; intros c Hc; apply repeat_spec in Hc; subst c; reflexivity).
  constructor; [cbn; lia|]. repeat apply Forall2_cons; [| | |constructor].
  - apply (me_bracket _ _ [] (repeat "a"%char k)); [apply plain_word; split; [destruct k; [contradiction | discriminate] | exact W] | | reflexivity | pr_means].
    revert W. apply Forall_impl. auto.
  - apply (me_bracket _ _ [] ($"b")); [apply plain_word; a_word | repeat constructor | reflexivity | pr_means].
  - constructor; [cbn; lia|]. repeat apply Forall2_cons; [pr_means | pr_means | constructor].
Qed.
Theorem C41_crowded_refuted : ~ (forall e o, means e o -> parse_filter (text e) = Ok (VFilter o, no_issues)).
Proof.
  intros H. specialize (H _ _ (crowded_means 36 ltac:(discriminate))). vm_compute in H. discriminate H.
Qed.

Example ex_C41 : means (FNot (FOr [FAnd [fpr ($"a"); fpr ($"b")]; FCompare ($"c.d") ($"Eq") (Quoted double_quote ($"x or (y"))]))
    (ONot (OOr [OAnd [OPresent (simple_name ($"a")); OPresent (simple_name ($"b"))]; OComplex (simple_name ($"c")) (OBin OpEq (simple_name ($"d")) (LitStr ($"x or (y")))]))
  /\ text (FNot (FOr [FAnd [fpr ($"a"); fpr ($"b")]; FCompare ($"c.d") ($"Eq") (Quoted single_quote ($"x or (y"))])) = $"not (a pr and b pr or c.d Eq 'x or (y')".
Proof.
  split; [|reflexivity]. constructor. constructor; [cbn; lia|]. repeat apply Forall2_cons; [| |constructor].
  - constructor; [cbn; lia|]. repeat apply Forall2_cons; [pr_means | pr_means | constructor].
  - apply (me_compare ($"c.d") ($"Eq") (Quoted double_quote ($"x or (y")) [] ($"c") ($"d") OpEq).
    + split; [constructor|]. split; [left; a_word|]. split; [right; a_word | reflexivity].
    + repeat split; apply mentions_first; intros H; in_no H.
    + reflexivity.
    + constructor; [left; reflexivity | intros H; in_no H].
    + exact I.
Qed.
Example ex_C41_crowded : separated (FBracket ($"b") (FAnd [fpr ($"y"); FOr [fpr ($"z"); fpr ($"w")]])) /\ ~ separated (crowded 1).
Proof. split; [repeat split | intros [H _]; discriminate H]. Qed.

(** * C42 *)

(** An operand: a condition or a bracketed attribute, possibly negated. *)
Definition item_text (x : bool * fexp) : str := (if fst x then $"not " else []) ++ text (snd x).
Definition item_means (x : bool * fexp) (o : oper) : Prop :=
  is_logic (snd x) = false /\ exists o', means (snd x) o' /\ o = if fst x then ONot o' else o'.
(** Operands under an operator; a single operand stands for itself. *)
Definition grouped (mk : list oper -> oper) (l : list oper) : oper := match l with [o] => o | _ => mk l end.

Definition item (x : bool * fexp) : fexp := if fst x then FNot (snd x) else snd x.
Definition fgroup (mk : list fexp -> fexp) (l : list fexp) : fexp := match l with [e] => e | _ => mk l end.
Lemma item_facts x o : item_means x o ->
  text (item x) = item_text x /\ means (item x) o /\ is_and_or (item x) = false /\ level_groups (item x) = false /\ levels_apart (item x).
Proof.
  destruct x as [neg e]. intros [H [o' [M ->]]]. cbn in *. assert (A : level_groups e = false /\ levels_apart e).
  { destruct M; try discriminate H; try (split; [reflexivity | exact I]). split; [reflexivity|]. cbn [levels_apart]. apply bracketless. assumption. }
  destruct A as [A B]. destruct neg.
  - cbn [item item_text fst snd text is_and_or levels_apart parenthesised]. rewrite H. unfold level_groups in *. cbn [level_has parenthesised]. rewrite H, A. repeat split; auto; try discriminate; constructor; exact M.
  - repeat split; auto. destruct e; try reflexivity; discriminate H.
Qed.
Lemma conj_facts ys os : ys <> [] -> Forall2 item_means ys os ->
  let e := fgroup FAnd (map item ys) in
  text e = sep_by ($" and ") (map item_text ys) /\ means e (grouped OAnd os) /\ is_or e = false /\ level_groups e = false /\ levels_apart e.
Proof.
  intros Hn H. assert (T : map (fun e => if is_and_or e then parens (text e) else text e) (map item ys) = map item_text ys).
  { clear Hn. induction H as [|x o ys os Hx H IH]; [reflexivity|]. cbn [map]. destruct (item_facts _ _ Hx) as [A [_ [B _]]]. rewrite B, A, IH. reflexivity. }
  assert (M : Forall2 means (map item ys) os).
  { clear - H. induction H as [|x o ys os Hx H IH]; [constructor|]. cbn [map]. constructor; [apply item_facts, Hx | exact IH]. }
  assert (G : forall e, is_and_or e = false -> parenthesised (FAnd (map item ys)) e = false) by (intros e E; exact E).
  assert (L : existsb (fun x => parenthesised (FAnd (map item ys)) x || (negb (parenthesised (FAnd (map item ys)) x) && level_has parenthesised x)) (map item ys) = false
    /\ fold_right (fun x p => (parenthesised (FAnd (map item ys)) x = true -> level_groups x && level_brackets x = false) /\ levels_apart x /\ p) True (map item ys)).
  { revert G. generalize (FAnd (map item ys)) as outer. intros outer G. clear - H G. induction H as [|x o ys os Hx H IH]; [split; [reflexivity | exact I]|]. destruct IH as [IH1 IH2].
    cbn [map existsb fold_right]. destruct (item_facts _ _ Hx) as [_ [_ [B [C D]]]]. unfold level_groups in C. rewrite (G _ B), C. split; [exact IH1|]. split; [discriminate|]. auto. }
  destruct H as [|x o [|x' ys] os Hx H]; [contradiction| |].
  - inversion H; subst. cbn. destruct (item_facts _ _ Hx) as [A [B [C [D E]]]]. repeat split; auto. destruct (item x); try discriminate C; reflexivity.
  - cbv zeta. change (fgroup FAnd (map item (x :: x' :: ys))) with (FAnd (map item (x :: x' :: ys))). destruct os as [|o' os']; [inversion H|].
    change (grouped OAnd (o :: o' :: os')) with (OAnd (o :: o' :: os')). split; [cbn [text]; rewrite T; reflexivity|].
    split; [constructor; [rewrite map_length; cbn; lia | exact M]|]. split; [reflexivity|]. exact L.
Qed.
Lemma disj_facts xs os : xs <> [] -> Forall2 (fun ys o => ys <> [] /\ exists os, Forall2 item_means ys os /\ o = grouped OAnd os) xs os ->
  let e := fgroup FOr (map (fun ys => fgroup FAnd (map item ys)) xs) in
  text e = sep_by ($" or ") (map (fun ys => sep_by ($" and ") (map item_text ys)) xs) /\ means e (grouped OOr os) /\ level_groups e = false /\ levels_apart e.
Proof.
  intros Hn H. set (conj := fun ys => fgroup FAnd (map item ys)).
  assert (F : forall ys o, (ys <> [] /\ exists os, Forall2 item_means ys os /\ o = grouped OAnd os) ->
    text (conj ys) = sep_by ($" and ") (map item_text ys) /\ means (conj ys) o /\ is_or (conj ys) = false /\ level_groups (conj ys) = false /\ levels_apart (conj ys)).
  { intros ys o [N [os' [K ->]]]. exact (conj_facts ys os' N K). }
  clearbody conj.
  assert (T : map (fun e => if is_or e then parens (text e) else text e) (map conj xs) = map (fun ys => sep_by ($" and ") (map item_text ys)) xs).
  { clear Hn. induction H as [|x o ys os Hx H IH]; [reflexivity|]. cbn [map]. destruct (F _ _ Hx) as [A [_ [B _]]]. rewrite B, A, IH. reflexivity. }
  assert (M : Forall2 means (map conj xs) os).
  { clear - H F. induction H as [|x o ys os Hx H IH]; [constructor|]. cbn [map]. constructor; [apply F, Hx | exact IH]. }
  assert (G : forall e, is_or e = false -> parenthesised (FOr (map conj xs)) e = false) by (intros e E; exact E).
  assert (L : existsb (fun x => parenthesised (FOr (map conj xs)) x || (negb (parenthesised (FOr (map conj xs)) x) && level_has parenthesised x)) (map conj xs) = false
    /\ fold_right (fun x p => (parenthesised (FOr (map conj xs)) x = true -> level_groups x && level_brackets x = false) /\ levels_apart x /\ p) True (map conj xs)).
  { revert G. generalize (FOr (map conj xs)) as outer. intros outer G. clear - H G F. induction H as [|x o ys os Hx H IH]; [split; [reflexivity | exact I]|]. destruct IH as [IH1 IH2].
    cbn [map existsb fold_right]. destruct (F _ _ Hx) as [_ [_ [B [C D]]]]. unfold level_groups in C. rewrite (G _ B), C. split; [exact IH1|]. split; [discriminate|]. auto. }
  destruct H as [|x o [|x' ys] os Hx H]; [contradiction| |].
  - inversion H; subst. cbn. destruct (F _ _ Hx) as [A [B [C [D E]]]]. repeat split; auto.
  - cbv zeta. change (fgroup FOr (map conj (x :: x' :: ys))) with (FOr (map conj (x :: x' :: ys))). destruct os as [|o' os']; [inversion H|].
    change (grouped OOr (o :: o' :: os')) with (OOr (o :: o' :: os')). split; [cbn [text]; rewrite T; reflexivity|].
    split; [constructor; [rewrite map_length; cbn; lia | exact M]|]. exact L.
Qed.

(** Operands joined with "and", joined with "or": the "or" of the "and"s of the
    operands, each negated if preceded by "not". *)
Theorem C42_precedence xss oss :
  xss <> [] -> Forall (fun xs => xs <> []) xss -> Forall2 (Forall2 item_means) xss oss ->
  parse_filter (sep_by ($" or ") (map (fun xs => sep_by ($" and ") (map item_text xs)) xss))
  = Ok (VFilter (grouped OOr (map (grouped OAnd) oss)), no_issues).
Proof.
  intros Hn Hf H. destruct (disj_facts xss (map (grouped OAnd) oss) Hn) as [T [M [G A]]].
  - clear Hn. induction H as [|xs os xss oss Hx H IH]; [constructor|]. inversion Hf; subst. cbn [map]. constructor; [eauto | apply IH; assumption].
  - rewrite <- T. apply round_trip; [exact M|]. split; [rewrite G; reflexivity | exact A].
Qed.

Example ex_C42 : parse_filter ($"a pr or b pr and not c pr")
  = Ok (VFilter (OOr [OPresent (simple_name ($"a")); OAnd [OPresent (simple_name ($"b")); ONot (OPresent (simple_name ($"c")))]]), no_issues).
Proof.
  apply (C42_precedence [[(false, fpr ($"a"))]; [(false, fpr ($"b")); (true, fpr ($"c"))]]
    [[OPresent (simple_name ($"a"))]; [OPresent (simple_name ($"b")); ONot (OPresent (simple_name ($"c")))]]).
  - discriminate.
  - repeat (apply Forall_cons; [discriminate|]). constructor.
  - assert (P : forall neg n, word n -> ~ In n [$"or"; $"and"; $"not"] -> item_means (neg, fpr n) (if neg then ONot (OPresent (simple_name n)) else OPresent (simple_name n))).
    { intros neg n A B. split; [reflexivity|]. eexists. split; [apply fpr_means; assumption | reflexivity]. }
    repeat first [apply Forall2_nil | apply Forall2_cons]; [apply (P false) | apply (P false) | apply (P true)]; try a_word; intros H; in_no H.
Qed.

(** * C43 *)

(** The same expression but for the contents of quoted literals. *)
Inductive refilled : fexp -> fexp -> Prop :=
| rf_present n w : refilled (FPresent n w) (FPresent n w)
| rf_quoted n w q c c' : ~ In q c' -> refilled (FCompare n w (Quoted q c)) (FCompare n w (Quoted q c'))
| rf_bare n w t : refilled (FCompare n w (Bare t)) (FCompare n w (Bare t))
| rf_bracket n e e' : refilled e e' -> refilled (FBracket n e) (FBracket n e')
| rf_and l l' : Forall2 refilled l l' -> refilled (FAnd l) (FAnd l')
| rf_or l l' : Forall2 refilled l l' -> refilled (FOr l) (FOr l')
| rf_not e e' : refilled e e' -> refilled (FNot e) (FNot e').
(** The same filter but for string literals. *)
Inductive same_shape : oper -> oper -> Prop :=
| ss_present r : same_shape (OPresent r) (OPresent r)
| ss_lit b r l : same_shape (OBin b r l) (OBin b r l)
| ss_str b r s s' : same_shape (OBin b r (LitStr s)) (OBin b r (LitStr s'))
| ss_complex r o o' : same_shape o o' -> same_shape (OComplex r o) (OComplex r o')
| ss_and l l' : Forall2 same_shape l l' -> same_shape (OAnd l) (OAnd l')
| ss_or l l' : Forall2 same_shape l l' -> same_shape (OOr l) (OOr l')
| ss_not o o' : same_shape o o' -> same_shape (ONot o) (ONot o').

Definition alike (e e' : fexp) : Prop :=
  is_or e = is_or e' /\ is_and_or e = is_and_or e' /\ is_logic e = is_logic e' /\ is_bracket e = is_bracket e' /\ has_bracket e = has_bracket e'
  /\ level_groups e = level_groups e' /\ level_brackets e = level_brackets e' /\ (levels_apart e -> levels_apart e').
Lemma refilled_alike : forall e e', refilled e e' -> alike e e'.
Proof.
  assert (L : forall outer outer' l l', (forall e e', alike e e' -> parenthesised outer e = parenthesised outer' e') -> Forall2 alike l l' ->
    existsb has_bracket l = existsb has_bracket l'
    /\ existsb (fun x => parenthesised outer x || (negb (parenthesised outer x) && level_has parenthesised x)) l = existsb (fun x => parenthesised outer' x || (negb (parenthesised outer' x) && level_has parenthesised x)) l'
    /\ existsb (fun x => is_bracket x || (negb (parenthesised outer x) && level_has (fun _ x => is_bracket x) x)) l = existsb (fun x => is_bracket x || (negb (parenthesised outer' x) && level_has (fun _ x => is_bracket x) x)) l'
    /\ (fold_right (fun x p => (parenthesised outer x = true -> level_groups x && level_brackets x = false) /\ levels_apart x /\ p) True l ->
        fold_right (fun x p => (parenthesised outer' x = true -> level_groups x && level_brackets x = false) /\ levels_apart x /\ p) True l')).
  { intros outer outer' l l' P. induction 1 as [|e e' l l' He _ [I1 [I2 [I3 I4]]]]; [repeat split; auto|]. pose proof (P _ _ He) as Ep.
    destruct He as [A1 [A2 [A3 [A4 [A5 [A6 [A7 A8]]]]]]]. cbn [existsb fold_right]. rewrite I1, I2, I3, Ep, A5, A4.
    unfold level_brackets in A7. rewrite A4 in A7. unfold level_groups in A6. rewrite A6.
    split; [reflexivity|]. split; [reflexivity|]. split.
    - destruct (is_bracket e') eqn:Eb; [reflexivity|]. cbn [orb] in A7 |- *. rewrite A7. reflexivity.
    - intros [B1 [B2 B3]]. split; [|split; auto]. intros Q. specialize (B1 Q). unfold level_groups, level_brackets in *. rewrite A6, A4, A7 in B1. exact B1. }
  assert (G : forall l l', Forall (fun e => forall e', refilled e e' -> alike e e') l -> Forall2 refilled l l' -> Forall2 alike l l').
  { intros l l' H F. induction F as [|e e' l l' He F IH]; [constructor|]. inversion H; subst. constructor; auto. }
  induction e using fexp_rect'; intros e' R; inversion R; subst; try (repeat split; auto; fail).
  - destruct (IHe _ H2) as [A1 [A2 [A3 [A4 [A5 [A6 [A7 A8]]]]]]]. repeat split; auto.
  - match goal with F : Forall2 refilled l ?l2 |- _ => pose proof (L (FAnd l) (FAnd l2) l l2 ltac:(intros ? ? A; apply A) (G _ _ H F)) as [I1 [I2 [I3 I4]]] end. repeat split; auto.
  - match goal with F : Forall2 refilled l ?l2 |- _ => pose proof (L (FOr l) (FOr l2) l l2 ltac:(intros ? ? A; apply A) (G _ _ H F)) as [I1 [I2 [I3 I4]]] end. repeat split; auto.
  - match goal with F : refilled e ?e2 |- _ => destruct (L (FNot e) (FNot e2) [e] [e2] ltac:(intros ? ? A; apply A) ltac:(constructor; [apply IHe; exact F | constructor])) as [I1 [I2 [I3 I4]]] end.
    cbn [existsb fold_right] in I1, I2, I3, I4. rewrite !orb_false_r in I1, I2, I3. unfold alike. repeat match goal with |- _ = _ /\ _ => split; [auto|] end. cbn [levels_apart]. intros [B1 B2]. destruct I4 as [C1 [C2 _]]; auto.
Qed.
Lemma refilled_means : forall e o, means e o -> forall e', refilled e e' -> exists o', means e' o' /\ same_shape o o'.
Proof.
  assert (C : forall segs attr sub (mk mk' : attr_rep -> oper), (forall r, same_shape (mk r) (mk' r)) -> same_shape (condition segs attr sub mk) (condition segs attr sub mk')).
  { intros segs attr sub mk mk' H. unfold condition. destruct sub; [apply H | constructor; apply H]. }
  fix go 3. intros e o M. destruct M as [n w segs attr sub Hn Hk Hw | n w x segs attr sub b l Hn Hk Hw Hx Hs | n e segs attr o Hn Hb Hh M | l os Hl F | l os Hl F | e o M]; intros e' R.
  - inversion R; subst. eexists. split; [apply me_present; eassumption|]. apply C. intros r. constructor.
  - inversion R; subst.
    + inversion Hx; subst. match goal with N : ~ In q c' |- _ => rename N into Nq end. exists (condition segs attr sub (fun r => OBin b r (LitStr c'))). split.
      * apply me_compare; try assumption; [constructor; assumption|]. destruct b; cbn; eauto.
      * apply C. intros r. constructor.
    + eexists. split; [apply me_compare; eassumption|]. apply C. intros r. constructor.
  - inversion R; subst. match goal with F : refilled e ?e2 |- _ => destruct (go _ _ M _ F) as [o' [M' S']]; pose proof (refilled_alike _ _ F) as A end.
    eexists. split; [apply me_bracket; try eassumption | constructor; exact S']. destruct A as [_ [_ [_ [_ [A _]]]]]. congruence.
  - inversion R as [| | | |l1 l' F'| |]; subst. clear R. assert (G : exists os', Forall2 means l' os' /\ Forall2 same_shape os os').
    { clear Hl. revert l os F l' F'. fix lo 3. intros l os F. destruct F as [|x o l os Hx F]; intros l' F'; inversion F'; subst; [exists []; split; constructor|].
      match goal with X : refilled x _, Y : Forall2 refilled l _ |- _ => destruct (go _ _ Hx _ X) as [o' [A B]]; destruct (lo _ _ F _ Y) as [os' [C' D]] end. exists (o' :: os'). split; constructor; assumption. }
    destruct G as [os' [A B]]. exists (OAnd os'). split; constructor; try assumption. apply Forall2_len in F'. lia.
  - inversion R as [| | | | |l1 l' F'|]; subst. clear R. assert (G : exists os', Forall2 means l' os' /\ Forall2 same_shape os os').
    { clear Hl. revert l os F l' F'. fix lo 3. intros l os F. destruct F as [|x o l os Hx F]; intros l' F'; inversion F'; subst; [exists []; split; constructor|].
      match goal with X : refilled x _, Y : Forall2 refilled l _ |- _ => destruct (go _ _ Hx _ X) as [o' [A B]]; destruct (lo _ _ F _ Y) as [os' [C' D]] end. exists (o' :: os'). split; constructor; assumption. }
    destruct G as [os' [A B]]. exists (OOr os'). split; constructor; try assumption. apply Forall2_len in F'. lia.
  - inversion R; subst. match goal with F : refilled e ?e2 |- _ => destruct (go _ _ M _ F) as [o' [A B]] end. exists (ONot o'). split; constructor; assumption.
Qed.

(** Partial (separated expressions): changing the contents of quoted literals
    changes nothing but the string literals of the parsed filter, which become
    the new contents. *)
Theorem C43_contents_partial e e' o :
  means e o -> separated e -> refilled e e' ->
  exists o', means e' o' /\ same_shape o o'
    /\ parse_filter (text e) = Ok (VFilter o, no_issues) /\ parse_filter (text e') = Ok (VFilter o', no_issues).
Proof.
  intros M [S1 S2] R. destruct (refilled_means e o M e' R) as [o' [M' Sh]]. exists o'. split; [exact M'|]. split; [exact Sh|].
  split; [apply round_trip; [exact M | split; assumption]|]. apply round_trip; [exact M'|].
  destruct (refilled_alike e e' R) as [_ [_ [_ [_ [_ [A6 [A7 A8]]]]]]]. split; [rewrite <- A6, <- A7; exact S1 | auto].
Qed.
(** A single comparison stores the literal as it is, whatever it contains. *)
Theorem C43_stored n segs attr sub w b q c :
  names_attr n segs attr sub -> keyword_free n -> lower w = op_word b -> (q = double_quote \/ q = single_quote) -> ~ In q c ->
  parse_filter (n ++ space ++ w ++ space ++ (q :: c ++ [q])) = Ok (VFilter (condition segs attr sub (fun r => OBin b r (LitStr c))), no_issues).
Proof.
  intros Hn Hk Hw Hq Hc. apply (round_trip (FCompare n w (Quoted q c))).
  - apply me_compare; try assumption; [constructor; assumption|]. destruct b; cbn; eauto.
  - split; [reflexivity | exact I].
Qed.

(** The full claim is false: the length of a literal can make a bracketed
    attribute and a group get the same number. *)
Definition padded (k : nat) : fexp :=
  FAnd [FCompare ($"u") ($"eq") (Quoted double_quote (repeat "L"%char k)); FBracket (repeat "a"%char 16) (FCompare ($"x") ($"eq") (Quoted double_quote ($"1")));
        FBracket ($"b") (fpr ($"y")); FOr [fpr ($"z"); fpr ($"w")]].
Theorem C43_contents_refuted :
  exists e e' o o' p, means e o /\ means e' o' /\ refilled e e' /\ parse_filter (text e) = Ok (VFilter o, no_issues)
    /\ parse_filter (text e') = Ok (VFilter p, no_issues) /\ ~ same_shape o p.
Proof.
  set (eq := fun n s => OBin OpEq (simple_name n) (LitStr s)).
  set (op := fun k => OAnd [eq ($"u") (repeat "L"%char k); OComplex (simple_name (repeat "a"%char 16)) (eq ($"x") ($"1"));
    OComplex (simple_name ($"b")) (OPresent (simple_name ($"y"))); OOr [OPresent (simple_name ($"z")); OPresent (simple_name ($"w"))]]).
  assert (Q : forall n s, word n -> ~ In n [$"or"; $"and"; $"not"] -> ~ In double_quote s -> means (FCompare n ($"eq") (Quoted double_quote s)) (eq n s)).
  { intros n s A B D. apply (me_compare n ($"eq") (Quoted double_quote s) [] n [] OpEq (LitStr s)); [apply plain_word, A | apply word_free; [apply A | exact B] | reflexivity | constructor; [left; reflexivity | exact D] | exact I]. }
  assert (M : forall k, means (padded k) (op k)).
  { intros k. constructor; [cbn; lia|]. repeat apply Forall2_cons; [| | | |constructor].
    - apply Q; [a_word | intros H; in_no H | intros H; apply repeat_spec in H; discriminate].
    - apply (me_bracket _ _ [] (repeat "a"%char 16)); [apply plain_word; a_word | repeat (apply Forall_cons; [left; reflexivity|]); constructor | reflexivity|].
      apply Q; [a_word | intros H; in_no H | intros H; in_no H].
    - apply (me_bracket _ _ [] ($"b")); [apply plain_word; a_word | repeat constructor | reflexivity | pr_means].
    - constructor; [cbn; lia|]. repeat apply Forall2_cons; [pr_means | pr_means | constructor]. }
  exists (padded 64), (padded 66), (op 64), (op 66). eexists. split; [apply M|]. split; [apply M|]. split.
  { unfold padded. constructor. repeat apply Forall2_cons; [| | | |constructor].
    - constructor. intros H. apply repeat_spec in H. discriminate.
    - constructor. constructor. intros H. in_no H.
    - constructor. constructor.
    - constructor. repeat apply Forall2_cons; [constructor | constructor | constructor]. }
  split; [vm_compute; reflexivity|]. split; [vm_compute; reflexivity|].
  intros H. inversion H as [| | | |l l' F E1 E2| |]; subst. repeat match goal with F : Forall2 same_shape (_ :: _) _ |- _ => inversion F; clear F; subst end.
  match goal with F : same_shape (OComplex _ (OPresent _)) _ |- _ => inversion F end.
Qed.

Example ex_C43 : refilled (FCompare ($"a") ($"eq") (Quoted double_quote ($"x"))) (FCompare ($"a") ($"eq") (Quoted double_quote ($") or (b pr and |&PLACE_HOLDER_7&|")))
  /\ parse_filter (text (FCompare ($"a") ($"eq") (Quoted double_quote ($") or (b pr and |&PLACE_HOLDER_7&|"))))
     = Ok (VFilter (OBin OpEq (simple_name ($"a")) (LitStr ($") or (b pr and |&PLACE_HOLDER_7&|"))), no_issues).
Proof. split; [constructor; intros H; in_no H | vm_compute; reflexivity]. Qed.

(** * C44 *)

(** The literal for the number m * 10^x: the nearest float, as an integer when
    it is one. *)
Definition number_lit (m x : Z) (l : lit) : Prop :=
  exists f, nearest (numerator m x) (denominator x) f
    /\ ((exists z, units f = (z * 2 ^ 1074)%Z /\ l = LitInt z) \/ ((forall z, units f <> (z * 2 ^ 1074)%Z) /\ l = LitFloat f)).
(** The result of a comparison whose literal is [l]: an operator with it, or an
    error when the operator does not take such literals. *)
Definition compares_with (s : str) (b : binop) (segs : list str) (attr sub : str) (l : lit) : Prop :=
  (suits b l -> parse_filter s = Ok (VFilter (condition segs attr sub (fun r => OBin b r l)), no_issues))
  /\ (~ suits b l -> exists iss, parse_filter s = Ok (VInvalid, iss) /\ i_errs iss = [([], [e_incompatible])]).

Definition numeral_chr (c : ascii) : bool := is_digit c || existsb (chr_eqb c) ($"+-.eE").
Lemma decimal_chars s m x : decimal s m x -> s <> [] /\ Forall (fun c => numeral_chr c = true) s.
Proof.
  assert (D : forall ds, digits0 ds -> Forall (fun c => numeral_chr c = true) ds) by (intros ds H; apply digits0_bool in H; revert H; apply Forall_impl; intros c Hc; unfold numeral_chr; rewrite Hc; reflexivity).
  assert (S : forall s g, sign_text s g -> Forall (fun c => numeral_chr c = true) s) by (intros ? ? H; destruct H; repeat constructor).
  intros H. destruct H as [s g ip f fp e x Hs Hip Hf Hn He]. split.
  { destruct Hf; [destruct ip; [contradiction|]; destruct s; discriminate|]. destruct s, ip; discriminate. }
  rewrite !Forall_app. split; [apply (S s g Hs)|]. split; [apply D; exact Hip|]. split.
  - destruct Hf as [|fp Hfp]; [constructor|]. constructor; [reflexivity | apply D; exact Hfp].
  - destruct He as [|c s' g' ds Hc Hs' Hd]; [constructor|]. constructor; [destruct Hc; subst; reflexivity|]. apply Forall_app. split; [apply (S s' g' Hs') | apply D; right; exact Hd].
Qed.
Lemma calm_ordinary t : t <> [] -> keyword_free t -> Forall (fun c => calm c = true) t -> ordinary t.
Proof.
  intros Hn Hk H. split; [exact Hn|]. split; [exact Hk|]. revert H. apply Forall_impl. intros c Hc. unfold calm in Hc. apply andb_true_iff in Hc as [H1 H2]. apply negb_true_iff in H1, H2.
  split; [exact H1|]. intros Hin. assert (X : existsb (chr_eqb c) [double_quote; single_quote; "("%char; ")"%char; "["%char; "]"%char; "|"%char] = true) by (apply existsb_exists; exists c; split; [exact Hin | apply chr_eqb_refl]).
  unfold double_quote, single_quote in X. unfold dquote, squote, lpar, rpar, lbrk, rbrk in H2. rewrite X in H2. discriminate.
Qed.
Lemma decimal_ordinary s m x : decimal s m x -> ordinary s.
Proof.
  intros H. destruct (decimal_chars s m x H) as [Hn Hc]. apply calm_ordinary; [exact Hn| |].
  - assert (N : forall c, numeral_chr c = false -> ~ In c s) by (intros c E Hin; rewrite Forall_forall in Hc; specialize (Hc c Hin); congruence).
    repeat split; apply mentions_first, N; reflexivity.
  - revert Hc. apply Forall_impl. apply implb_chars. vm_compute. reflexivity.
Qed.
Lemma special_value t g u : sign_text t g ->
  (In (lower u) [$"inf"; $"infinity"] -> parse_comparison_value (t ++ u) = Raise OverflowErr)
  /\ (lower u = $"nan" -> parse_comparison_value (t ++ u) = Raise ValueErr).
Proof.
  intros Hs. assert (K : In (lower u) [$"inf"; $"infinity"; $"nan"] -> parse_comparison_value (t ++ u) =
    match (if str_eqb (lower u) ($"nan") then FNan else FInf false) with FNan => Raise ValueErr | _ => Raise OverflowErr end).
  { intros Hu. destruct (lower_special u Hu) as [c [r [Eu [Hc Hd]]]].
    assert (L : Forall (fun c => negb (is_space c) && negb (chr_eqb c "_"%char) && negb (chr_eqb c dquote) && negb (chr_eqb c squote) = true) u).
    { assert (M : Forall (fun c => is_word (lower_chr c) && negb (chr_eqb (lower_chr c) "_"%char) = true) u).
      { assert (M : Forall (fun c => is_word c && negb (chr_eqb c "_"%char) = true) (lower u)) by (cbn [In] in Hu; repeat (destruct Hu as [Hu|Hu]; [rewrite <- Hu; repeat constructor|]); contradiction).
        unfold lower in M. rewrite Forall_map in M. exact M. }
      revert M. apply Forall_impl. apply implb_chars. vm_compute. reflexivity. }
    assert (T : Forall (fun c => negb (is_space c) && negb (chr_eqb c "_"%char) && negb (chr_eqb c dquote) && negb (chr_eqb c squote) = true) (t ++ u)).
    { apply Forall_app. split; [destruct Hs; repeat constructor | exact L]. }
    assert (P : tight (t ++ u) /\ unquoted (t ++ u)).
    { split; revert T; apply Forall_impl; intros a Ha; rewrite !andb_true_iff, !negb_true_iff, !chr_eqb_neq in Ha; destruct Ha as [[[A1 A2] A3] A4]; split; assumption. }
    destruct P as [P1 P2]. unfold parse_comparison_value. rewrite unquoted_not by exact P2.
    assert (N : forall k, In k [$"false"; $"true"; $"null"] -> str_eqb (t ++ u) k = false).
    { intros k Hk. apply str_eqb_neq. intros E. destruct Hs; cbn [app] in E.
      - rewrite <- E in Hk. cbn [In] in Hu, Hk. repeat (destruct Hk as [Hk|Hk]; [rewrite <- Hk in Hu; in_no Hu|]). contradiction.
      - subst k. in_no Hk.
      - subst k. in_no Hk. }
    rewrite !N by (cbn; auto). unfold parse_float. rewrite num_strip_tight by exact P1. rewrite drop_underscores_tight by (revert P1; apply Forall_impl; tauto).
    rewrite (take_sign_text t g); [|exact Hs|].
    2: { intros c' r' E. rewrite Eu in E. injection E as <- <-. rewrite Eu in L. inversion L as [|? ? X _]; subst. cbn [In] in Hu.
         split; intros ->; repeat (destruct Hu as [Hu|Hu]; [discriminate Hu|]); contradiction. }
    cbn [In] in Hu. repeat (destruct Hu as [Hu|Hu]; [rewrite <- Hu; destruct (g <? 0)%Z; reflexivity|]). contradiction. }
  split; intros Hu.
  - rewrite K by (cbn [In] in *; tauto). cbn [In] in Hu. repeat (destruct Hu as [Hu|Hu]; [rewrite <- Hu; reflexivity|]). contradiction.
  - rewrite K by (rewrite Hu; cbn; auto). rewrite Hu. reflexivity.
Qed.

Section Literal.
  Context (n w t : str) (segs : list str) (attr sub : str) (b : binop).
  Hypothesis Hn : names_attr n segs attr sub.
  Hypothesis Hk : keyword_free n.
  Hypothesis Hw : lower w = op_word b.
  Let s := n ++ space ++ w ++ space ++ t.

  Lemma literal_read l : ordinary t -> parse_comparison_value t = Ok l -> compares_with s b segs attr sub l.
  Proof.
    intros Ht E. unfold compares_with, parse_filter, s. rewrite (test_core n w t segs attr sub b Hn Hk Hw Ht), E. destruct (lit_allowed b l) eqn:Ea.
    - split; [reflexivity|]. intros N. apply lit_allowed_iff in Ea. contradiction.
    - split; [intros S; apply lit_allowed_iff in S; congruence|]. intros _. eexists. split; reflexivity.
  Qed.

  (** true, false and null (in lower case) are the constants. *)
  Theorem C44_constants l : In (t, l) [($"true", LitBool true); ($"false", LitBool false); ($"null", LitNone)] -> compares_with s b segs attr sub l.
  Proof.
    intros H. apply literal_read.
    - cbn [In] in H. repeat (destruct H as [H|H]; [injection H as <- <-; apply calm_ordinary; [discriminate | apply word_free; [repeat constructor | intros X; in_no X] | repeat constructor]|]). contradiction.
    - cbn [In] in H. repeat (destruct H as [H|H]; [injection H as <- <-; reflexivity|]). contradiction.
  Qed.
  (** An integer up to 2^53 is read exactly. *)
  Theorem C44_integers_partial m : decimal t m 0 -> (Z.abs m <= 2 ^ 53)%Z -> compares_with s b segs attr sub (LitInt m).
  Proof. intros H L. apply literal_read; [eapply decimal_ordinary, H | apply integer_value; assumption]. Qed.
  (** A decimal numeral within the range of floats is read as the nearest float. *)
  Theorem C44_decimals m x : decimal t m x -> ~ overflows (numerator m x) (denominator x) -> exists l, number_lit m x l /\ compares_with s b segs attr sub l.
  Proof.
    intros H N. destruct (decimal_value t m x H) as [[O _]|[_ [f [Hf [[z [Ez E]]|[Ez E]]]]]]; [contradiction| |].
    - exists (LitInt z). split; [exists f; eauto | apply literal_read; [eapply decimal_ordinary, H | exact E]].
    - exists (LitFloat f). split; [exists f; eauto | apply literal_read; [eapply decimal_ordinary, H | exact E]].
  Qed.
  (** Out of that range the parser raises. *)
  Theorem C44_overflow m x : decimal t m x -> overflows (numerator m x) (denominator x) -> parse_filter s = Raise OverflowErr.
  Proof.
    intros H O. destruct (decimal_value t m x H) as [[_ E]|[N _]]; [|contradiction].
    unfold parse_filter, s. rewrite (test_core n w t segs attr sub b Hn Hk Hw (decimal_ordinary t m x H)), E. reflexivity.
  Qed.
  (** Any other word is rejected. *)
  Theorem C44_rejected_partial :
    ordinary t -> ~ In "_"%char t -> ~ In t [$"true"; $"false"; $"null"] -> ~ special t -> (forall m x, ~ decimal t m x) ->
    exists iss, parse_filter s = Ok (VInvalid, iss) /\ i_errs iss = [([], [e_bad_comparison])].
  Proof.
    intros Ht Hu Hc Hs Hd. assert (E : parse_comparison_value t = Raise ValueErr).
    { destruct Ht as [_ [_ Ht]]. apply other_value; try assumption; try (intros ->; apply Hc; cbn; tauto).
      - apply Forall_forall. intros c Hin. rewrite Forall_forall in Ht. split; [apply Ht, Hin | intros ->; contradiction].
      - apply Forall_forall. intros c Hin. rewrite Forall_forall in Ht. destruct (Ht c Hin) as [_ X]. split; intros ->; apply X; cbn; auto. }
    unfold parse_filter, s. rewrite (test_core n w t segs attr sub b Hn Hk Hw Ht), E. eexists. split; reflexivity.
  Qed.
  (** The names of infinity raise, those of NaN are rejected. *)
  Theorem C44_infinity_partial g u r : t = g ++ u -> sign_text g r -> ordinary t ->
    (In (lower u) [$"inf"; $"infinity"] -> parse_filter s = Raise OverflowErr)
    /\ (lower u = $"nan" -> exists iss, parse_filter s = Ok (VInvalid, iss) /\ i_errs iss = [([], [e_bad_comparison])]).
  Proof.
    intros E Hg Ht. destruct (special_value g r u Hg) as [A B]. rewrite <- E in A, B.
    unfold parse_filter, s. rewrite (test_core n w t segs attr sub b Hn Hk Hw Ht). split; intros Hu.
    - rewrite A by exact Hu. reflexivity.
    - rewrite B by exact Hu. eexists. split; reflexivity.
  Qed.
End Literal.

(** The full claim is false: an integer beyond 2^53 is rounded, digits may be
    grouped with underscores, and a number out of range raises. *)
Theorem C44_literals_refuted :
  (exists s m, decimal s m 0 /\ parse_filter ($"a eq " ++ s) = Ok (VFilter (OBin OpEq (simple_name ($"a")) (LitInt (m - 1))), no_issues))
  /\ (exists s, (forall m x, ~ decimal s m x) /\ parse_filter ($"a eq " ++ s) = Ok (VFilter (OBin OpEq (simple_name ($"a")) (LitInt 10)), no_issues))
  /\ parse_filter ($"a eq 1e400") = Raise OverflowErr.
Proof.
  split; [|split].
  - exists ($"9007199254740993"), (digits_value 0 ($"9007199254740993")). split; [|vm_compute; reflexivity].
    apply digits_decimal. split; [discriminate|]. repeat (apply Forall_cons; [vm_compute; split; discriminate|]). constructor.
  - exists ($"1_0"). split; [|vm_compute; reflexivity]. intros m x H. apply decimal_tight in H. inversion H as [|? ? _ H1]; subst. inversion H1 as [|? ? [_ H2] _]; subst. apply H2. reflexivity.
  - vm_compute. reflexivity.
Qed.

Example ex_C44 : decimal ($"-2.50e1") (-250) (-1) /\ compares_with ($"a eq -2.50e1") OpEq [] ($"a") [] (LitInt (-25))
  /\ parse_filter ($"a eq 1.5.1") = Ok (VInvalid, iss_of [e_bad_comparison]) /\ parse_filter ($"a co 1.5") = Ok (VInvalid, iss_of [e_incompatible]).
Proof.
  assert (D : forall ds, ds <> [] -> forallb is_digit ds = true -> digits ds) by (intros ds H1 H2; split; [exact H1|]; apply Forall_forall; intros c Hc; apply is_digit_iff; rewrite forallb_forall in H2; apply H2, Hc).
  split.
  { apply (dc ($"-") (-1) ($"2") ($".50") ($"50") ($"e1") 1); [constructor | right; apply D; [discriminate | reflexivity] | apply fr_some; right; apply D; [discriminate | reflexivity] | discriminate|].
    apply (ex_some "e"%char [] 1 ($"1")); [left; reflexivity | constructor | apply D; [discriminate | reflexivity]]. }
  split; [split; [intros _; vm_compute; reflexivity | intros H; exfalso; apply H; exact I]|]. split; vm_compute; reflexivity.
Qed.
Example ex_C44_overflow : decimal ($"1e400") 1 400 /\ overflows (numerator 1 400) (denominator 400) /\ ordinary ($"1x") /\ ~ special ($"1x").
Proof.
  assert (D : forall ds, ds <> [] -> forallb is_digit ds = true -> digits ds) by (intros ds H1 H2; split; [exact H1|]; apply Forall_forall; intros c Hc; apply is_digit_iff; rewrite forallb_forall in H2; apply H2, Hc).
  split; [|split; [|split]].
  - apply (dc [] 1 ($"1") [] [] ($"e400") 400); [constructor | right; apply D; [discriminate | reflexivity] | constructor | discriminate|].
    apply (ex_some "e"%char [] 1 ($"400")); [left; reflexivity | constructor | apply D; [discriminate | reflexivity]].
  - vm_compute. intros H. discriminate H.
  - apply calm_ordinary; [discriminate | apply word_free; [repeat constructor | intros X; in_no X] | repeat constructor].
  - intros [t [g [u [E [Hs Hu]]]]]. destruct Hs; cbn [app] in E; [subst u; in_no Hu | discriminate E | discriminate E].
Qed.

(** * C45 *)

(** Partial (operators without sub-attribute names, as the parser builds them):
    equality is the same tree with literals of the same value. *)
Theorem C45_decides_partial a b :
  regular a -> regular b -> exists r, filter_eq a b = Ok r /\ (r = true <-> same_filter a b).
Proof. exact (filter_eq_spec a b). Qed.
Lemma eq_same a b : regular a -> regular b -> (filter_eq a b = Ok true <-> same_filter a b).
Proof.
  intros Ha Hb. destruct (filter_eq_spec a b Ha Hb) as [r [-> H]]. split; intros K; [apply H; congruence | apply H in K; subst; reflexivity].
Qed.
Theorem C45_equivalence_partial a b c :
  regular a -> regular b -> regular c ->
  filter_eq a a = Ok true /\ filter_eq b a = filter_eq a b
  /\ (filter_eq a b = Ok true -> filter_eq b c = Ok true -> filter_eq a c = Ok true).
Proof.
  intros Ha Hb Hc. split; [apply eq_same; [exact Ha | exact Ha | apply same_filter_refl, Ha]|]. split.
  - destruct (filter_eq_spec a b Ha Hb) as [r [-> H]], (filter_eq_spec b a Hb Ha) as [r' [-> H']]. f_equal.
    destruct r, r'; try reflexivity; [assert (X : false = true) by (apply H', same_filter_sym, H; reflexivity) | assert (X : false = true) by (apply H, same_filter_sym, H'; reflexivity)]; discriminate X.
  - intros H1 H2. apply eq_same in H1; try assumption. apply eq_same in H2; try assumption. apply eq_same; try assumption. eapply same_filter_trans; eassumption.
Qed.
(** Equal filters give the same result on every resource, schema and mode. *)
Theorem C45_meaning_partial (env : PyEnv) a b :
  regular a -> regular b -> filter_eq a b = Ok true ->
  forall data attrs strict, filter_apply a data attrs strict = filter_apply b data attrs strict.
Proof. intros Ha Hb H. apply same_apply. apply eq_same; assumption. Qed.
(** Parsed filters are of that kind. *)
Theorem C45_parsed s o iss : parse_filter s = Ok (VFilter o, iss) -> regular o /\ filter_eq o o = Ok true.
Proof.
  intros H. apply C40_result in H as [[o' [E [C _]]]|[E _]]; [|discriminate E]. injection E as <-.
  pose proof (complete_regular o C) as R. split; [exact R|]. apply eq_same; [exact R | exact R | apply same_filter_refl, R].
Qed.

(** The full claim is false: comparing operators built by hand on a.b and c.b
    looks at b only. *)
Definition sub_name (n s : str) : attr_rep := mkRep [] n s false.
Definition sub_list : list attribute :=
  [mk_simple (with_rep (sub_name ($"name") ($"v")) (plain ($"v") TString)); mk_simple (with_rep (sub_name ($"email") ($"v")) (plain ($"v") TString))].
Theorem C45_sub_attributes_refuted :
  exists (env : PyEnv) a b data strict, filter_eq a b = Ok true /\ filter_apply a data sub_list strict <> filter_apply b data sub_list strict.
Proof.
  exists no_env, (OBin OpEq (sub_name ($"name") ($"v")) (LitStr ($"x"))), (OBin OpEq (sub_name ($"email") ($"v")) (LitStr ($"x"))).
  exists (mk_cont (dict_of [($"name", dict_of [($"v", VStr ($"x"))])])), true. split; [vm_compute; reflexivity|]. vm_compute. discriminate.
Qed.

Example ex_C45 : let f l := OAnd [OBin OpGe (simple_name ($"age")) l; OPresent (simple_name ($"b"))] in
  regular (f (LitInt 2)) /\ regular (f (LitFloat (FFin 4 (-1)))) /\ same_filter (f (LitInt 2)) (f (LitFloat (FFin 4 (-1))))
  /\ filter_eq (f (LitInt 2)) (f (LitFloat (FFin 4 (-1)))) = Ok true /\ filter_eq (f (LitInt 2)) (f (LitInt 3)) = Ok false.
Proof.
  cbv zeta. assert (P : forall n, word n -> plain_rep (simple_name n)) by (intros n H; split; [reflexivity|]; split; [reflexivity|]; exists n, []; split; [apply plain_word, H | reflexivity]).
  assert (R : forall l, l <> LitFloat FNan -> regular (OAnd [OBin OpGe (simple_name ($"age")) l; OPresent (simple_name ($"b"))])).
  { intros l H. constructor. apply Forall_cons; [constructor; [apply P; a_word | exact H]|]. apply Forall_cons; [constructor; apply P; a_word | constructor]. }
  split; [apply R; discriminate|]. split; [apply R; discriminate|]. split.
  - constructor. apply Forall2_cons; [constructor | apply Forall2_cons; constructor]. apply (sl_num _ _ 2 0 4 (-1) 1); try reflexivity; discriminate.
  - split; vm_compute; reflexivity.
Qed.

Print Assumptions C39_terminates_partial.
Print Assumptions C39_overflow_refuted.
Print Assumptions C40_result.
Print Assumptions C41_round_trip_partial.
Print Assumptions C41_printable_partial.
Print Assumptions C41_crowded_refuted.
Print Assumptions C42_precedence.
Print Assumptions C43_contents_partial.
Print Assumptions C43_stored.
Print Assumptions C43_contents_refuted.
Print Assumptions C44_constants.
Print Assumptions C44_integers_partial.
Print Assumptions C44_decimals.
Print Assumptions C44_overflow.
Print Assumptions C44_rejected_partial.
Print Assumptions C44_infinity_partial.
Print Assumptions C44_literals_refuted.
Print Assumptions C45_decides_partial.
Print Assumptions C45_equivalence_partial.
Print Assumptions C45_meaning_partial.
Print Assumptions C45_parsed.
Print Assumptions C45_sub_attributes_refuted.
