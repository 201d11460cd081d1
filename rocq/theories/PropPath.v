(** Properties of patch paths: C49. *)
From Verif Require Import PyBase BaseFacts PyNum NumSpec Issues IssuesSpec IssuesFacts AttrRep AttrRepSpec AttrRepFacts Value Container Types Attr Match MatchSpec PropAttr PresenceSpec PresenceFacts
  ContainerSpec FilterParse FilterSpec FilterText FilterTotal FilterTree FilterMask FilterNum FilterRound PropFilter Path PathSpec PathFacts.

Lemma rep_refl r : rep_eqb r r = true.
Proof. unfold rep_eqb. rewrite !str_eqb_refl. cbn [negb]. rewrite andb_false_r. reflexivity. Qed.
Lemma top_sym a b : top_level_equals a b = top_level_equals b a.
Proof.
  unfold top_level_equals. rewrite (andb_comm (nonempty (r_schema b))).
  assert (S : forall x y, str_eqb x y = str_eqb y x) by (intros x y; destruct (str_eqb x y) eqn:E, (str_eqb y x) eqn:E'; auto; [apply str_eqb_eq in E; subst; rewrite str_eqb_refl in E'; discriminate | apply str_eqb_eq in E'; subst; rewrite str_eqb_refl in E; discriminate]).
  destruct (_ && _); apply S.
Qed.
Lemma top_same r s : attr_ok (r_attr r) -> attr_ok (r_attr s) -> (top_level_equals r s = true <-> same_attr r (r_schema s) (r_attr s)).
Proof. intros Hr Hs. rewrite (top_level_iff r s Hr Hs). reflexivity. Qed.
Lemma mk_path_complex r o : r_sub r = [] -> mk_path r (Some (OComplex r o)) None = Ok (mkPath r (Some (OComplex r o)) None).
Proof. intros H. unfold mk_path. rewrite H. cbn [nonempty andb bind]. rewrite rep_refl. reflexivity. Qed.
Lemma mk_path_sub r o s : r_sub r = [] -> r_sub s <> [] -> top_level_equals s r = true -> mk_path r (Some (OComplex r o)) (Some s) = Ok (mkPath r (Some (OComplex r o)) (Some s)).
Proof. intros H Hs Ht. unfold mk_path. rewrite H. cbn [nonempty andb]. destruct (r_sub s) as [|c t]; [contradiction|]. cbn [nonempty negb]. rewrite Ht. cbn [negb bind]. rewrite rep_refl. reflexivity. Qed.
Lemma mk_path_inv r f s p : mk_path r f s = Ok p -> p = mkPath r f s /\ forall o, f = Some o -> exists r' o', o = OComplex r' o' /\ rep_eqb r' r = true.
Proof.
  unfold mk_path. destruct (_ && _); [discriminate|]. intros H.
  assert (X : match f with Some (OComplex fr _) => if rep_eqb fr r then Ok (mkPath r f s) else Raise ValueErr | Some _ => Raise ValueErr | None => Ok (mkPath r f s) end = Ok p).
  { destruct s as [s|]; [|exact H]. destruct (negb (nonempty (r_sub s))); [discriminate|]. destruct (negb (top_level_equals s r)); [discriminate | exact H]. }
  destruct f as [f|]; [|injection X as <-; split; [reflexivity | discriminate]]. destruct f as [| | | | |fr fo|]; try discriminate. destruct (rep_eqb fr r) eqn:Er; [|discriminate].
  injection X as <-. split; [reflexivity|]. intros o E. injection E as <-. eauto.
Qed.

(** What follows the bracket. *)
Lemma sub_rep_iff r x s : attr_ok (r_attr r) -> r_ext r = false ->
  (sub_attr_rep r x = Ok (inl s) <-> (exists segs a, names_attr x segs a [] /\ s = mkRep (r_schema r) (r_attr r) a false)
                                     \/ exists segs a b, names_attr x segs a b /\ b <> [] /\ same_attr r (joined segs) a /\ s = mkRep (joined segs) a b false).
Proof.
  intros Hr Hx. unfold sub_attr_rep. assert (Ar : attr_name_ok (r_attr r) = true) by (apply attr_name_ok_spec; exact Hr). split.
  - destruct (parse_rep x) as [y|] eqn:E; [|discriminate]. apply parse_rep_iff in E as [segs [N [J Xe]]]. destruct (r_sub y) as [|c t] eqn:Es; cbn [nonempty].
    + rewrite mk_rep_ok by (exact Ar || discriminate). cbn [bind]. intros H. injection H as <-. left. eauto.
    + assert (Ay : attr_ok (r_attr y)) by apply N. destruct (top_level_equals r y) eqn:Et; [|discriminate]. intros H. injection H as <-. right. exists segs, (r_attr y), (c :: t).
      split; [exact N|]. split; [discriminate|]. split; [rewrite <- J; apply top_same; assumption|]. destruct y as [ys ya yb ye]. cbn in *. subst. reflexivity.
  - intros [[segs [a [N ->]]]|[segs [a [b [N [Hb [Hs ->]]]]]]].
    + rewrite (names_parse _ _ _ _ N). cbn [r_sub nonempty]. rewrite mk_rep_ok by (exact Ar || discriminate). reflexivity.
    + rewrite (names_parse _ _ _ _ N). cbn [r_sub]. destruct b as [|c t]; [contradiction|]. cbn [nonempty].
      assert (Et : top_level_equals r (mkRep (joined segs) a (c :: t) false) = true) by (apply top_same; [exact Hr | apply N | exact Hs]). rewrite Et. reflexivity.
Qed.
Lemma same_attr_top r s : attr_ok (r_attr r) -> attr_ok (r_attr s) -> same_attr r (r_schema s) (r_attr s) -> top_level_equals s r = true.
Proof. intros Hr Hs H. rewrite top_sym. apply top_same; assumption. Qed.

Lemma plain_ok r : plain_rep r -> attr_ok (r_attr r) /\ r_ext r = false /\ r_sub r = [].
Proof. intros [H1 [H2 [s [segs [N _]]]]]. split; [apply N | auto]. Qed.

Lemma finish_iff o t p iss : complete o ->
  (finish_path o t = Ok (VPath p, iss) <-> iss = no_issues /\ exists r o' sub, o = OComplex r o' /\ sub_part r t sub /\ p = mkPath r (Some o) sub).
Proof.
  intros Hc. split.
  - assert (Inv : forall r sub, oper_attr_rep o = Ok r -> (let! q := mk_path r (Some o) sub in Ok (VPath q, no_issues)) = Ok (VPath p, iss) ->
      iss = no_issues /\ p = mkPath r (Some o) sub /\ exists o', o = OComplex r o').
    { intros r sub Er H. destruct (mk_path r (Some o) sub) as [q|] eqn:Eq; [|discriminate]. cbn [bind] in H. injection H as <- <-. apply mk_path_inv in Eq as [-> Eq].
      destruct (Eq o eq_refl) as [r' [o' [Eo _]]]. split; [reflexivity|]. split; [reflexivity|]. subst o. cbn in Er. injection Er as <-. eauto. }
    destruct t as [|c t]; cbn [finish_path].
    + destruct (oper_attr_rep o) as [r|] eqn:Er; [|discriminate]. cbn [bind]. intros H. destruct (Inv r None eq_refl H) as [-> [-> [o' Eo]]]. split; [reflexivity|]. exists r, o', None. split; [exact Eo|]. split; [constructor | reflexivity].
    + set (x := if chr_eqb c dot then t else c :: t).
      assert (D : after_dot (c :: t) x).
      { unfold x, after_dot. destruct (chr_eqb c dot) eqn:Ed; [apply chr_eqb_eq in Ed; subst; left; reflexivity|]. right. split; [reflexivity|]. split; [discriminate|]. intros y E. injection E as -> _. discriminate Ed. }
      destruct (oper_attr_rep o) as [r|] eqn:Er; [|discriminate]. cbn [bind]. match goal with |- context [sub_attr_rep r ?e] => change e with x end. destruct (sub_attr_rep r x) as [[s|e]|] eqn:Es; cbn [bind]; [|discriminate|discriminate]. intros H.
      destruct (Inv r (Some s) eq_refl H) as [-> [-> [o' Eo]]]. split; [reflexivity|]. exists r, o', (Some s). split; [exact Eo|]. split; [|reflexivity].
      subst o. inversion Hc as [| |? ? Pr _| | |]; subst. destruct (plain_ok r Pr) as [A [X _]]. apply (sub_rep_iff r x s A X) in Es as [[segs [a [N ->]]]|[segs [a [b [N [Hb [Hs ->]]]]]]].
      * eapply sp_name; eassumption.
      * eapply sp_full; eassumption.
  - intros [-> [r [o' [sub [-> [Hs ->]]]]]]. inversion Hc as [| |? ? Pr _| | |]; subst. destruct (plain_ok r Pr) as [A [X S]].
    assert (Fin : forall t x s, after_dot t x -> sub_attr_rep r x = Ok (inl s) -> r_sub s <> [] -> top_level_equals s r = true -> finish_path (OComplex r o') t = Ok (VPath (mkPath r (Some (OComplex r o')) (Some s)), no_issues)).
    { intros t0 x s D E Hn Ht. assert (Ex : exists c t', t0 = c :: t' /\ x = if chr_eqb c dot then t' else c :: t').
      { destruct D as [->|[<- [Hn0 Hd]]]; [exists dot, x; auto|]. destruct t0 as [|c t']; [contradiction|]. exists c, t'. split; [reflexivity|]. destruct (chr_eqb c dot) eqn:Ed; [|reflexivity]. apply chr_eqb_eq in Ed. subst c. exfalso. exact (Hd t' eq_refl). }
      destruct Ex as [c [t' [-> ->]]]. cbn [finish_path oper_attr_rep oper_rep bind]. rewrite E. cbn [bind]. rewrite mk_path_sub by assumption. reflexivity. }
    inversion Hs as [|t0 x segs a D N|t0 x segs a b D N Hb Hsame]; subst.
    + cbn [finish_path oper_attr_rep oper_rep bind]. rewrite mk_path_complex by exact S. reflexivity.
    + apply (Fin t x); [exact D | apply sub_rep_iff; eauto | |].
      * cbn [r_sub]. destruct N as [_ [[[Hn _]|Hn] _]]; [exact Hn | rewrite Hn; discriminate].
      * apply same_attr_top; [exact A | exact A|]. split; [right; right; reflexivity | reflexivity].
    + apply (Fin t x); [exact D | apply sub_rep_iff; auto; right; exists segs, a, b; auto | exact Hb |]. apply same_attr_top; [exact A | apply N | exact Hsame].
Qed.

Lemma filter_core_iff s o : parse_filter s = Ok (VFilter o, no_issues) <-> parse_filter_core s = Ok (o, []).
Proof.
  unfold parse_filter. split; [|intros ->; reflexivity]. destruct (parse_filter_core s) as [[o' [|e es]]|]; cbn [bind]; intros H; [injection H as <-; reflexivity | discriminate | discriminate].
Qed.

Lemma name_outside s segs a b : names_attr s segs a b -> outside s s /\ bracket_free s.
Proof.
  intros H. destruct (test_words _ _ _ _ H) as [_ [_ [[Q1 Q2] [[B1 [B2 _]] _]]]]. split; [|split; assumption]. clear - Q1 Q2.
  induction s as [|c s IH]; [constructor|]. constructor; [intros ->; apply Q1; left; reflexivity | intros ->; apply Q2; left; reflexivity|]. apply IH; intros X; [apply Q1 | apply Q2]; right; exact X.
Qed.

(** * C49 *)

(** Partial: a text with balanced quotes and without the characters | and & is
    accepted iff it is a name, or a bracketed filter of one attribute followed by
    the name of a sub-attribute or by nothing; the parts of the result are those
    of the text. *)
Theorem C49_accepted_partial s u p iss : outside s u -> unmarked s ->
  (parse_path s = Ok (VPath p, iss) <-> iss = no_issues /\ path_reads s p).
Proof.
  intros Ho Hm. split.
  - pose proof (filter_first br u) as X. destruct (filter br u) as [|x1 w1] eqn:Ew.
    + apply free_iff in X. rewrite (path_name s u Ho Hm X). destruct (parse_rep s) as [r|] eqn:Er; [|discriminate]. destruct (mk_path r None None) as [q|] eqn:Eq; [|discriminate]. cbn [bind]. intros H. injection H as <- <-.
      apply mk_path_inv in Eq as [-> _]. split; [reflexivity|]. apply parse_rep_iff in Er as [segs [N [J E]]]. destruct r as [rs ra rb re]. cbn in *. subst. econstructor. exact N.
    + destruct (list_eq_dec ascii_dec (x1 :: w1) [lbrk; rbrk]) as [E|E]; [|rewrite (path_bad s u Ho Hm) by (rewrite Ew; congruence); discriminate].
      injection E as -> ->. destruct X as [u1 [u2 [-> [H1 [_ Hw]]]]]. pose proof (filter_first br u2) as Y. rewrite Hw in Y. destruct Y as [u3 [u4 [-> [H3 [_ H4]]]]].
      apply free_iff in H1, H3. apply filter_br_free in H4. replace (u1 ++ lbrk :: u3 ++ rbrk :: u4) with ((u1 ++ lbrk :: u3) ++ rbrk :: u4) in Ho by (rewrite <- app_assoc; reflexivity).
      apply outside_split in Ho as [head [t [-> [Hh Ht]]]]. apply unmarked_app in Hm as [Mh Mt]. apply unmarked_cons in Mt as [_ Mt].
      rewrite (path_cut head t u1 u3 u4) by assumption. pose proof (core_ends (head ++ [rbrk])) as C. destruct (parse_filter_core (head ++ [rbrk])) as [[o [|e es]]|e] eqn:Ec; cbn [bind]; [|discriminate|discriminate].
      cbn [ends] in C. intros H. apply finish_iff in H as [-> [r [o' [sub [-> [Hs ->]]]]]]; [|apply C; reflexivity]. split; [reflexivity|].
      apply (pr_filter head t u1 u3 u4); auto. apply filter_core_iff. exact Ec.
  - intros [-> H]. inversion H as [? segs a b N|head t u1 u3 u4 r o sub Hh H1 H3 Ht H4 Hf Hs]; subst.
    + destruct (name_outside _ _ _ _ N) as [No Nb]. rewrite (path_name s s No Hm Nb), (names_parse _ _ _ _ N). unfold mk_path. cbn [andb orb]. rewrite andb_false_r. reflexivity.
    + apply unmarked_app in Hm as [Mh Mt]. apply unmarked_cons in Mt as [_ Mt]. change "]"%char with rbrk. rewrite (path_cut head t u1 u3 u4) by assumption. apply filter_core_iff in Hf. change ($"]") with [rbrk] in Hf. rewrite Hf. cbn [bind].
      apply finish_iff; [|split; [reflexivity|]; exists r, o, sub; auto]. pose proof (core_ends (head ++ [rbrk])) as C. rewrite Hf in C. apply C. reflexivity.
Qed.

(** A name, with or without sub-attribute, is accepted as it is. *)
Theorem C49_name s segs attr sub : names_attr s segs attr sub ->
  parse_path s = Ok (VPath (mkPath (mkRep (joined segs) attr sub false) None None), no_issues).
Proof.
  intros N. assert (M : masks 0 [] s s []) by (apply masks_plain; apply (test_words _ _ _ _ N)). apply mask_whole in M. destruct (name_outside _ _ _ _ N) as [_ B].
  unfold parse_path. rewrite M. assert (Bb : bad_brackets s = false) by (unfold bad_brackets; rewrite !count_free by apply B; reflexivity). rewrite Bb, count_free by apply B. cbn [Nat.ltb Nat.leb].
  destruct (test_words _ _ _ _ N) as [_ [_ [_ [_ Hp]]]]. rewrite encode_plain by exact Hp. rewrite (names_parse _ _ _ _ N). unfold mk_path. cbn [andb orb]. rewrite andb_false_r. reflexivity.
Qed.

(** ** Texts of filter expressions *)

Definition free (s : str) : Prop := exists u, outside s u /\ bracket_free u.
Lemma outside_app s1 u1 s2 u2 : outside s1 u1 -> outside s2 u2 -> outside (s1 ++ s2) (u1 ++ u2).
Proof. intros A B. induction A; cbn [app]; [exact B | constructor; auto|]. rewrite <- app_assoc. cbn [app]. constructor; auto. Qed.
Lemma free_app a b : free a -> free b -> free (a ++ b).
Proof.
  intros [u [A [A1 A2]]] [v [B [B1 B2]]]. exists (u ++ v). split; [apply outside_app; assumption|]. split; rewrite in_app_iff; tauto.
Qed.
Lemma free_plain s : Forall (fun c => ~ In c [double_quote; single_quote; "["%char; "]"%char]) s -> free s.
Proof.
  intros H. exists s. split; [|split; intros X; rewrite Forall_forall in H; apply (H _ X); cbn; auto].
  induction H as [|c s Hc _ IH]; [constructor|]. constructor; [intros ->; apply Hc; cbn; auto | intros ->; apply Hc; cbn; auto | exact IH].
Qed.
Lemma free_calm s : Forall (fun c => calm c = true) s -> free s.
Proof. intros H. apply free_plain. revert H. apply Forall_impl. intros c Hc X. cbn in X. repeat (destruct X as [<-|X]; [discriminate Hc|]). contradiction. Qed.
Lemma free_quoted q b : q = double_quote \/ q = single_quote -> ~ In q b -> free (q :: b ++ [q]).
Proof. intros Hq Hb. exists []. split; [apply os_lit; auto; constructor | split; intros []]. Qed.
Lemma free_lit s : forallb (fun c => negb (existsb (chr_eqb c) [double_quote; single_quote; "["%char; "]"%char])) s = true -> free s.
Proof.
  intros H. apply free_plain. apply Forall_forall. intros c Hc X. rewrite forallb_forall in H. apply H in Hc. apply negb_true_iff in Hc.
  assert (Y : existsb (chr_eqb c) [double_quote; single_quote; "["%char; "]"%char] = true) by (apply existsb_exists; exists c; split; [exact X | apply chr_eqb_refl]). rewrite Y in Hc. discriminate.
Qed.
Lemma free_sep s l : free s -> Forall free l -> free (sep_by s l).
Proof.
  intros Hs. induction 1 as [|x l Hx Hl IH]; [exists []; split; [constructor | split; intros []]|]. cbn [sep_by]. destruct l; [exact Hx|]. apply free_app; [exact Hx|]. apply free_app; assumption.
Qed.
Lemma free_parens s : free s -> free (parens s).
Proof. intros H. unfold parens. change ("("%char :: s ++ [")"%char]) with ($"(" ++ s ++ $")"). apply free_app; [apply free_lit; reflexivity|]. apply free_app; [exact H | apply free_lit; reflexivity]. Qed.
Lemma text_free : forall e o, means e o -> has_bracket e = false -> free (text e).
Proof.
  assert (P : forall (b : bool) s, free s -> free (if b then parens s else s)) by (intros b s H; destruct b; [apply free_parens|]; exact H).
  assert (L : forall (f : fexp -> bool) l os, Forall (fun e => forall o, means e o -> has_bracket e = false -> free (text e)) l -> Forall2 means l os -> existsb has_bracket l = false ->
    Forall free (map (fun e => if f e then parens (text e) else text e) l)).
  { intros f l os H F. induction F as [|e o l os He F IH]; intros E; [constructor|]. cbn [map existsb] in *. apply orb_false_iff in E as [E1 E2]. inversion H; subst. constructor; [apply P; eauto | apply IH; assumption]. }
  induction e as [n w|n w x|n e IH|l IH|l IH|e IH] using fexp_rect'; intros o H Hb; inversion H as [? ? segs ? ? Hn Hk Hw|? ? ? segs ? ? b lt Hn Hk Hw Hx Hs|? ? ? ? o1 Hn Hbn He Ho|? os Hl Hf|? os Hl Hf|? o1 Ho]; subst; cbn [text].
  - destruct (op_calm w _ Hw) as [[_ Cw] _]; try discriminate; [repeat constructor|]. destruct (name_calm _ _ _ _ Hn) as [_ Cn]. apply free_app; [apply free_calm; exact Cn|]. apply free_app; [apply free_lit; reflexivity | apply free_calm; exact Cw].
  - destruct (op_word_facts b) as [O1 [O2 [O3 [O4 O5]]]]. destruct (op_calm w _ Hw O1 O2 O3 O4 O5) as [[_ Cw] _]. destruct (name_calm _ _ _ _ Hn) as [_ Cn].
    apply free_app; [apply free_calm; exact Cn|]. apply free_app; [apply free_lit; reflexivity|]. apply free_app; [apply free_calm; exact Cw|]. apply free_app; [apply free_lit; reflexivity|].
    destruct Hx as [q c Hq Hc|t lx Ht]; cbn [operand_text]; [apply free_quoted; assumption|]. destruct (shows_calm _ _ Ht) as [[_ Ct] _]. apply free_calm. exact Ct.
  - discriminate Hb.
  - cbn [has_bracket] in Hb. apply free_sep; [apply free_lit; reflexivity | eapply L; eassumption].
  - cbn [has_bracket] in Hb. apply free_sep; [apply free_lit; reflexivity | eapply L; eassumption].
  - cbn [has_bracket] in Hb. apply free_app; [apply free_lit; reflexivity|]. apply P. eapply IH; eassumption.
Qed.

(** Partial: the text of a bracketed filter, followed by a dot and a word or by
    nothing, is accepted with the meaning of the filter. *)
Theorem C49_bracket_partial n e segs attr o t sub :
  names_attr n segs attr [] -> bracket_name n -> has_bracket e = false -> means e o -> separated (FBracket n e) ->
  unmarked (text (FBracket n e)) ->
  (t = [] /\ sub = None) \/ (exists w, word w /\ t = "."%char :: w /\ sub = Some (mkRep (joined segs) attr w false)) ->
  parse_path (text (FBracket n e) ++ t)
  = Ok (VPath (mkPath (mkRep (joined segs) attr [] false) (Some (OComplex (mkRep (joined segs) attr [] false) o)) sub), no_issues).
Proof.
  intros N B Hb M S U T. set (r := mkRep (joined segs) attr [] false).
  assert (Wd : forall w c, word w -> In c w -> is_word c = true) by (intros w c [_ H] Hc; rewrite Forall_forall in H; auto).
  assert (Sp : sub_part r t sub /\ free t /\ unmarked t).
  { destruct T as [[-> ->]|[w [Hw [-> ->]]]]; [split; [constructor|]; split; [apply free_lit; reflexivity | split; intros []]|]. split; [|split].
    - apply (sp_name r _ w [] w); [left; reflexivity|]. repeat split; auto. cbn [terminated map concat app]. rewrite app_nil_r. reflexivity.
    - apply free_plain. constructor; [intros X; cbn in X; repeat (destruct X as [X|X]; [discriminate|]); contradiction|]. apply Forall_forall. intros c Hc X. apply (Wd w c Hw) in Hc. cbn in X. repeat (destruct X as [<-|X]; [discriminate Hc|]). contradiction.
    - split; (intros [X|X]; [discriminate|]; apply (Wd w _ Hw) in X; discriminate X). }
  destruct Sp as [Sp [[w [Ow Fw]] Ut]].
  assert (Et : text (FBracket n e) ++ t = (n ++ "["%char :: text e) ++ "]"%char :: t) by (cbn [text]; rewrite <- !app_assoc; reflexivity).
  destruct (name_outside _ _ _ _ N) as [No Nb]. destruct (text_free e o M Hb) as [v [Ov Fv]].
  assert (Oh : outside (n ++ "["%char :: text e) (n ++ "["%char :: v)) by (apply outside_join; [discriminate | discriminate | exact No | exact Ov]).
  assert (Ho : outside (text (FBracket n e) ++ t) ((n ++ "["%char :: v) ++ "]"%char :: w)) by (rewrite Et; apply outside_join; [discriminate | discriminate | exact Oh | exact Ow]).
  apply (C49_accepted_partial _ _ _ no_issues Ho); [apply unmarked_app; auto|]. split; [reflexivity|]. rewrite Et. apply (pr_filter _ t n v w); auto.
  pose proof (C41_round_trip_partial (FBracket n e) (OComplex r o) ltac:(constructor; assumption) S) as X. cbn [text] in X. rewrite <- app_assoc. exact X.
Qed.

(** ** All texts *)

Lemma finish_result o t : complete o -> match finish_path o t with
  | Ok (v, iss) => (exists p, v = VPath p /\ iss = no_issues /\ whole_path p) \/ (v = VInvalid /\ errs_at iss [] <> [])
  | Raise e => e = AttributeErr \/ e = ValueErr
  end.
Proof.
  intros Hc. destruct (finish_path o t) as [[v iss]|e] eqn:E.
  - destruct v as [| | | | | | | | | | | | |p| | |]; try (exfalso; revert E; destruct t as [|? ?]; cbn [finish_path]; destruct (oper_attr_rep o); cbn [bind]; try discriminate;
      [destruct (mk_path _ _ _) | destruct (sub_attr_rep _ _) as [[?|?]|]; cbn [bind]; try destruct (mk_path _ _ _)]; cbn [bind]; discriminate).
    + right. split; [reflexivity|]. revert E. destruct t as [|c t]; cbn [finish_path]; destruct (oper_attr_rep o); cbn [bind]; try discriminate.
      * destruct (mk_path _ _ _); discriminate.
      * destruct (sub_attr_rep _ _) as [[s|e]|]; cbn [bind]; [destruct (mk_path _ _ _); discriminate | | discriminate]. intros X. injection X as <-. discriminate.
    + left. exists p. apply finish_iff in E as [-> [r [o' [sub [-> [Hs ->]]]]]]; [|exact Hc]. split; [reflexivity|]. split; [reflexivity|]. unfold whole_path. cbn [p_filter p_rep p_sub]. exists o'. split; [reflexivity|]. split; [exact Hc|].
      intros s ->. inversion Hs as [|? x segs a D N|? x segs a b D N Hb Hsame]; subst.
      * split; [split; [right; right; reflexivity | reflexivity]|]. apply N.
      * split; [exact Hsame|]. destruct N as [_ [_ [[N|N] _]]]; [contradiction | left; exact N].
  - assert (Mk : forall r f s e, mk_path r f s = Raise e -> e = ValueErr).
    { intros r f s e0. unfold mk_path. destruct (_ && _); [congruence|]. destruct s as [s|]; [destruct (negb (nonempty (r_sub s))); [cbn; congruence|]; destruct (negb (top_level_equals s r)); [cbn; congruence|]|]; cbn [bind];
        (destruct f as [f|]; [|discriminate]; destruct f; try congruence; destruct (rep_eqb _ _); congruence). }
    assert (Op : forall e, oper_attr_rep o = Raise e -> e = AttributeErr) by (unfold oper_attr_rep; destruct (oper_rep o); congruence).
    assert (Sb : forall r x e, sub_attr_rep r x = Raise e -> e = ValueErr).
    { intros r x e0. unfold sub_attr_rep. destruct (parse_rep x) as [s|]; [|discriminate]. destruct (nonempty (r_sub s)); [destruct (top_level_equals r s); discriminate|]. destruct (mk_rep _ _ _ _) eqn:Em; cbn [bind]; [discriminate|]. intros X. injection X as <-. apply mk_rep_raise in Em. exact Em. }
    revert E. destruct t as [|c t]; cbn [finish_path]; destruct (oper_attr_rep o) eqn:Eo; cbn [bind]; intros E; try (left; apply Op; congruence); right.
    + destruct (mk_path _ _ _) eqn:Em; cbn [bind] in E; [discriminate|]. injection E as <-. eapply Mk. exact Em.
    + destruct (sub_attr_rep _ _) as [[s|x]|x] eqn:Es; cbn [bind] in E; [|discriminate|injection E as <-; eapply Sb; exact Es]. destruct (mk_path _ _ _) eqn:Em; cbn [bind] in E; [discriminate|]. injection E as <-. eapply Mk. exact Em.
Qed.

(** On every text, the result is a well-formed path without issues, or Invalid
    with an issue at the root, or one of three exceptions; a text without an
    opening bracket never raises. *)
Theorem C49_result s : match parse_path s with
  | Ok (v, iss) => (exists p, v = VPath p /\ iss = no_issues /\ whole_path p) \/ (v = VInvalid /\ errs_at iss [] <> [])
  | Raise e => (e = OverflowErr \/ e = AttributeErr \/ e = ValueErr) /\ In "["%char s
  end.
Proof.
  unfold parse_path. destruct (mask_strings s) as [y d] eqn:Em. destruct (bad_brackets y); [right; split; [reflexivity | discriminate]|].
  destruct (Nat.ltb 0 (count_chr lbrk y)) eqn:El.
  - assert (Hb : In lbrk s).
    { apply Nat.ltb_lt in El. assert (Hy : In lbrk y) by (destruct (in_dec ascii_dec lbrk y) as [H|H]; [exact H|]; rewrite count_free in El by exact H; lia). clear El.
      unfold mask_strings in Em. assert (G : forall ms st, In lbrk (fst (fold_left mask_step ms st)) -> In lbrk (fst st)).
      { induction ms as [|m ms IH]; intros st H; [exact H|]. cbn [fold_left] in H. apply IH in H. unfold mask_step in H. cbn [fst] in H. clear - H. revert H. generalize (fst st) as x. intros x. 
        induction x as [|c x IH]; cbn [replace_first].
        - destruct (starts_with [] (snd m)); [|auto]. rewrite in_app_iff. intros [H|H]; [exfalso; revert H; apply placeholder_no; [|reflexivity]; intros X; cbn in X; repeat (destruct X as [X|X]; [discriminate|]); contradiction|]. rewrite skipn_nil in H. exact H.
        - destruct (starts_with (c :: x) (snd m)).
          + rewrite in_app_iff. intros [H|H]; [exfalso; revert H; apply placeholder_no; [|reflexivity]; intros X; cbn in X; repeat (destruct X as [X|X]; [discriminate|]); contradiction|].
            rewrite <- (firstn_skipn (length (snd m)) (c :: x)). apply in_app_iff. right. exact H.
          + intros [H|H]; [left; exact H | right; apply IH; exact H]. }
      specialize (G (find_strings s 0 0) (s, [])). unfold mask_step in G. rewrite Em in G. apply G. exact Hy. }
    set (R := parse_complex_path y d). assert (HR : match R with
      | Ok (v, iss) => (exists p, v = VPath p /\ iss = no_issues /\ whole_path p) \/ (v = VInvalid /\ errs_at iss [] <> [])
      | Raise e => e = OverflowErr \/ e = AttributeErr \/ e = ValueErr end); [|destruct R as [[v iss]|e]; auto].
    unfold R, parse_complex_path. set (cut := S (index_chr rbrk y)). pose proof (core_ends (encode_strings (firstn cut y) d)) as C.
    destruct (parse_filter_core _) as [[o [|e es]]|e]; cbn [bind ends] in *; [| |left; exact C].
    + pose proof (C eq_refl) as Hc. destruct (skipn cut y) as [|c t].
      * pose proof (finish_result o [] Hc) as F. cbn [finish_path] in F. destruct (let! r := oper_attr_rep o in _) as [[v iss]|e]; [exact F | right; exact F].
      * set (x := encode_strings _ d).
        assert (Fx : forall x, match (let! r := oper_attr_rep o in let! s0 := sub_attr_rep r x in match s0 with inl s1 => let! p := mk_path r (Some o) (Some s1) in Ok (VPath p, no_issues) | inr e => Ok (VInvalid, iss_of [e]) end) with
          | Ok (v, iss) => (exists p, v = VPath p /\ iss = no_issues /\ whole_path p) \/ (v = VInvalid /\ errs_at iss [] <> [])
          | Raise e => e = AttributeErr \/ e = ValueErr end) by (intros x0; exact (finish_result o (dot :: x0) Hc)).
        specialize (Fx x). destruct (let! r := oper_attr_rep o in _) as [[v iss]|e]; [exact Fx | right; exact Fx].
    + right. split; [reflexivity|]. unfold iss_of. rewrite root_errors. cbn [errs_at]. destruct (errs_at no_issues []); discriminate.
  - destruct (parse_rep (encode_strings y d)) as [r|] eqn:Er; [|right; split; [reflexivity | discriminate]]. unfold mk_path. cbn [andb orb]. rewrite andb_false_r. cbn [bind]. left. eexists. split; [reflexivity|]. split; [reflexivity|].
    unfold whole_path. cbn [p_filter p_rep p_sub]. split; [|reflexivity]. apply parse_rep_iff in Er as [segs [N [J E]]]. split; [exact E|]. eauto.
Qed.

(** The full claim is false: a bracketed filter below "not" raises. *)
Theorem C49_crash_refuted : ~ (forall s, exists v iss, parse_path s = Ok (v, iss)).
Proof. intros H. destruct (H ($"not emails[type pr]")) as [v [iss E]]. vm_compute in E. discriminate E. Qed.

(** More than the four forms is accepted: the dot may be missing, and the name
    of the attribute may be repeated, under another schema. *)
Definition four_forms (s : str) : Prop :=
  (exists segs attr sub, names_attr s segs attr sub)
  \/ exists n segs attr f w, names_attr n segs attr [] /\ (w = [] \/ exists x, word x /\ w = "."%char :: x) /\ s = n ++ "["%char :: f ++ "]"%char :: w.
Theorem C49_forms_refuted : ~ (forall s p iss, parse_path s = Ok (VPath p, iss) -> four_forms s).
Proof.
  intros H. assert (A : exists p iss, parse_path ($"emails[type pr]value") = Ok (VPath p, iss)) by (eexists; eexists; vm_compute; reflexivity).
  destruct A as [p [iss A]]. apply H in A as [[segs [attr [sub N]]]|[n [segs [attr [f [w [N [Hw E]]]]]]]].
  - destruct (name_outside _ _ _ _ N) as [_ [B _]]. apply B. cbn. auto 10.
  - assert (W : ~ In "]"%char w).
    { destruct Hw as [->|[x [[_ Hx] ->]]]; [intros []|]. intros [X|X]; [discriminate|]. rewrite Forall_forall in Hx. apply Hx in X. discriminate X. }
    apply (f_equal (@rev ascii)) in E. rewrite rev_app_distr in E. cbn [rev] in E. rewrite rev_app_distr in E. cbn [rev] in E. rewrite <- !app_assoc in E. cbn [app] in E.
    change (rev ($"emails[type pr]value")) with (rev ($"value") ++ "]"%char :: rev ($"emails[type pr")) in E.
    apply first_split in E as [E _]; [|cbn; intros X; repeat (destruct X as [X|X]; [discriminate|]); contradiction|rewrite <- in_rev; exact W].
    apply (f_equal (@rev ascii)) in E. rewrite !rev_involutive in E. subst w. destruct Hw as [Hw|[x [_ Hw]]]; discriminate Hw.
Qed.

Example ex_C49 : exists p,
  path_reads ($"emails[type eq ""a]b""].value") p
  /\ parse_path ($"emails[type eq ""a]b""].value") = Ok (VPath p, no_issues)
  /\ p = mkPath (mkRep [] ($"emails") [] false) (Some (OComplex (mkRep [] ($"emails") [] false) (OBin OpEq (mkRep [] ($"type") [] false) (LitStr ($"a]b"))))) (Some (mkRep [] ($"emails") ($"value") false)).
Proof.
  eexists. assert (P : parse_path ($"emails[type eq ""a]b""].value") = Ok (VPath (mkPath (mkRep [] ($"emails") [] false) (Some (OComplex (mkRep [] ($"emails") [] false) (OBin OpEq (mkRep [] ($"type") [] false) (LitStr ($"a]b"))))) (Some (mkRep [] ($"emails") ($"value") false))), no_issues)) by (vm_compute; reflexivity).
  split; [|split; [exact P | reflexivity]]. eapply C49_accepted_partial; [| |exact P].
  - assert (Sf : forall a b u v, outside a u -> outside b v -> outside (a ++ b) (u ++ v)) by (intros; apply outside_app; assumption).
    change ($"emails[type eq ""a]b""].value") with ($"emails[type eq " ++ (double_quote :: $"a]b" ++ double_quote :: []) ++ $"].value"). apply Sf; [|apply Sf].
    + repeat (apply os_chr; [discriminate | discriminate|]). constructor.
    + apply os_lit; [left; reflexivity | intros X; cbn in X; repeat (destruct X as [X|X]; [discriminate|]); contradiction | constructor].
    + repeat (apply os_chr; [discriminate | discriminate|]). constructor.
  - split; intros X; cbn in X; repeat (destruct X as [X|X]; [discriminate|]); contradiction.
Qed.
Example ex_C49_bad : exists i1 i2 i3, parse_path ($"emails[type pr") = Ok (VInvalid, i1) /\ parse_path ($"a b") = Ok (VInvalid, i2) /\ parse_path ($"emails[type pr].phones.value") = Ok (VInvalid, i3).
Proof. do 3 eexists. split; [|split]; vm_compute; reflexivity. Qed.

Print Assumptions C49_accepted_partial.
Print Assumptions C49_name.
Print Assumptions C49_bracket_partial.
Print Assumptions C49_result.
Print Assumptions C49_crash_refuted.
Print Assumptions C49_forms_refuted.
