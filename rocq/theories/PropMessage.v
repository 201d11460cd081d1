(** Property C75: the messages of errors. *)
From Coq Require Import Lia.
From Verif Require Import PyBase BaseFacts FilterText Issues Messages MessageSpec.

(** ** Templates *)

Lemma has_none c s : existsb (Ascii.eqb c) s = false -> ~ In c s.
Proof. intros H I. assert (T : existsb (Ascii.eqb c) s = true) by (apply existsb_exists; exists c; split; [exact I | apply Ascii.eqb_refl]). congruence. Qed.
Lemma rev_two {A} (s : list A) c b n : rev s = c :: b :: n -> s = rev n ++ [b; c].
Proof. intros H. rewrite <- (rev_involutive s), H. cbn [rev]. rewrite <- app_assoc. reflexivity. Qed.
Lemma field_text s x : ~ In "{"%char s -> ~ In "}"%char s -> field_of s = Ok x ->
  exists n, plain_name n /\ ((x = Field n false /\ s = n) \/ (x = Field n true /\ s = n ++ $"!r")).
Proof.
  intros O C H. unfold field_of in H. destruct (existsb (Ascii.eqb "!") s) eqn:E.
  - destruct (rev s) as [|c [|b n]] eqn:R; try discriminate H. destruct (_ && _) eqn:B; [|discriminate H]. injection H as <-. apply andb_prop in B as [B N]. apply andb_prop in B as [B1 B2]. apply Ascii.eqb_eq in B1, B2. subst b c.
    apply rev_two in R. apply negb_true_iff, has_none in N. exists (rev n). split; [|right; split; [reflexivity | exact R]].
    split; [|split]; intros I; [apply O | apply C | apply N]; [rewrite R; apply in_or_app; left; exact I | rewrite R; apply in_or_app; left; exact I | apply in_rev, I].
  - injection H as <-. exists s. split; [split; [exact O|]; split; [exact C | exact (has_none _ _ E)] | left; auto].
Qed.
Lemma field_end : forall s f l, ~ In "{"%char f -> ~ In "}"%char f -> segments (Some f) s = Ok l ->
  exists x n rest l', l = x :: l' /\ segments None rest = Ok l' /\ (length rest < length s)%nat /\ plain_name n
    /\ ((x = Field n false /\ rev f ++ s = n ++ $"}" ++ rest) \/ (x = Field n true /\ rev f ++ s = n ++ $"!r}" ++ rest)).
Proof.
  induction s as [|c s IH]; intros f l O C H; cbn [segments] in H; [discriminate H|]. destruct (Ascii.eqb_spec c "}") as [->|N].
  - apply bind_ok in H as [x [Hx H]]. apply bind_ok in H as [l' [Hl H]]. injection H as <-.
    destruct (field_text (rev f) x) as [n [P K]]; [intros I; apply O; apply in_rev; exact I | intros I; apply C; apply in_rev; exact I | exact Hx|].
    exists x, n, s, l'. split; [reflexivity|]. split; [exact Hl|]. split; [cbn; lia|]. split; [exact P|]. destruct K as [[-> K]|[-> K]]; [left | right]; (split; [reflexivity|]); rewrite K; [reflexivity|]. rewrite <- app_assoc. reflexivity.
  - destruct (Ascii.eqb_spec c "{") as [->|N']; [discriminate H|]. destruct (IH (c :: f) l) as [x [n [rest [l' [E [S [L [P K]]]]]]]].
    + intros [I|I]; [exact (N' I) | exact (O I)].
    + intros [I|I]; [exact (N I) | exact (C I)].
    + exact H.
    + exists x, n, rest, l'. split; [exact E|]. split; [exact S|]. split; [cbn [length]; lia|]. split; [exact P|]. cbn [rev] in K. rewrite <- app_assoc in K. exact K.
Qed.
Lemma fill_cons x l ctx m : fill (x :: l) ctx = Ok m ->
  exists p r, m = p ++ r /\ fill l ctx = Ok r /\ match x with Text s => p = s | Field n q => exists a, aget str_eqb n ctx = Some a /\ p = if q then a_repr a else a_str a end.
Proof.
  destruct x as [s|n q]; cbn [fill]; intros H.
  - apply bind_ok in H as [r [H1 H]]. injection H as <-. exists s, r. auto.
  - destruct (aget str_eqb n ctx) as [a|] eqn:A; [|discriminate H]. apply bind_ok in H as [r [H1 H]]. injection H as <-. exists (if q then a_repr a else a_str a), r. split; [reflexivity|]. split; [exact H1|]. exists a. auto.
Qed.
Lemma segments_filled ctx : forall n s l m, (length s <= n)%nat -> segments None s = Ok l -> fill l ctx = Ok m -> filled (fun k => aget str_eqb k ctx) s m.
Proof.
  induction n as [|n IH]; intros s l m L H F.
  - destruct s; [|cbn in L; lia]. injection H as <-. injection F as <-. constructor.
  - destruct s as [|c s]; [injection H as <-; injection F as <-; constructor|]. cbn [length] in L. cbn [segments] in H. destruct (Ascii.eqb_spec c "{") as [->|N].
    + destruct s as [|d t]; [discriminate H|]. destruct (Ascii.eqb_spec d "{") as [->|N].
      * apply bind_ok in H as [r [Hr H]]. injection H as <-. apply fill_cons in F as [p [m' [-> [F ->]]]]. apply (fd_open _ t m'). apply (IH t r m'); [cbn [length] in L; lia | exact Hr | exact F].
      * destruct (field_end (d :: t) [] l) as [x [k [rest [l' [-> [S [Lr [P K]]]]]]]]; [intros [] | intros [] | exact H|]. cbn [rev app] in K. apply fill_cons in F as [p [m' [-> [F X]]]].
        assert (G : filled (fun k => aget str_eqb k ctx) rest m') by (apply (IH rest l' m'); [lia | exact S | exact F]).
        destruct K as [[-> K]|[-> K]]; rewrite K; destruct X as [a [A ->]]; [apply (fd_plain _ k a rest m' P A G) | apply (fd_quoted _ k a rest m' P A G)].
    + destruct (Ascii.eqb_spec c "}") as [->|N'].
      * destruct s as [|d t]; [discriminate H|]. destruct (Ascii.eqb_spec d "}") as [->|]; [|discriminate H]. apply bind_ok in H as [r [Hr H]]. injection H as <-. apply fill_cons in F as [p [m' [-> [F ->]]]]. apply (fd_close _ t m'). apply (IH t r m'); [cbn [length] in L; lia | exact Hr | exact F].
      * apply bind_ok in H as [r [Hr H]]. injection H as <-. assert (E : exists m', m = c :: m' /\ fill r ctx = Ok m').
        { destruct r as [|[x|k q] r']; apply fill_cons in F as [p [m' [-> [F X]]]]; subst p; [exists m'; auto | | exists m'; auto]. exists (x ++ m'). split; [reflexivity|]. cbn [fill]. rewrite F. reflexivity. }
        destruct E as [m' [-> E]]. constructor; [exact N | exact N' |]. apply (IH s r m'); [lia | exact Hr | exact E].
Qed.

(** ** Every call *)

Definition parts_of (code : N) : list segment := match aget N.eqb code message_for_code with Some s => match segments None s with Ok l => l | Raise _ => [] end | None => [] end.
Definition fields (l : list segment) : list str := flat_map (fun x => match x with Field n _ => [n] | Text _ => [] end) l.
Lemma call_parts c : exists s, aget N.eqb (call_code c) message_for_code = Some s /\ segments None s = Ok (parts_of (call_code c)).
Proof. destruct c; (eexists; split; [reflexivity | vm_compute; reflexivity]). Qed.
Definition inside (l k : list str) : bool := forallb (fun x => existsb (str_eqb x) k) l.
Lemma inside_In l k x : inside l k = true -> In x l -> In x k.
Proof. intros H I. unfold inside in H. rewrite forallb_forall in H. specialize (H x I). apply existsb_exists in H as [y [J E]]. apply str_eqb_eq in E. subst y. exact J. Qed.
Lemma call_fields c : inside (map fst (call_context c)) (fields (parts_of (call_code c))) = true /\ inside (fields (parts_of (call_code c))) (map fst (call_context c)) = true.
Proof. destruct c; vm_compute; split; reflexivity. Qed.
Lemma fill_total l ctx : (forall n, In n (fields l) -> In n (map fst ctx)) -> exists m, fill l ctx = Ok m.
Proof.
  induction l as [|[s|n q] l IH]; intros H; cbn [fill]; [eexists; reflexivity| |].
  - destruct IH as [m E]; [intros k I; apply H; exact I|]. rewrite E. eexists. reflexivity.
  - destruct IH as [m E]; [intros k I; apply H; right; exact I|]. assert (I : In n (map fst ctx)) by (apply H; left; reflexivity).
    assert (A : exists a, aget str_eqb n ctx = Some a).
    { clear - I. induction ctx as [|[k a] t IHt]; [destruct I|]. cbn [aget]. destruct (str_eqb k n) eqn:Q; [exists a; reflexivity|]. destruct I as [I|I]; [cbn [fst] in I; subst k; rewrite str_eqb_refl in Q; discriminate Q | exact (IHt I)]. }
    destruct A as [a ->]. rewrite E. eexists. reflexivity.
Qed.
Lemma message_parts c : exists m, message c = Ok m /\ fill (parts_of (call_code c)) (call_context c) = Ok m.
Proof.
  destruct (call_parts c) as [s [A P]]. destruct (fill_total (parts_of (call_code c)) (call_context c)) as [m F]; [intros n I; exact (inside_In _ _ _ (proj2 (call_fields c)) I)|].
  exists m. split; [|exact F]. unfold message, new_message. rewrite A. unfold format. rewrite P. exact F.
Qed.
Lemma fill_within l ctx m n q : fill l ctx = Ok m -> In (Field n q) l -> forall a, aget str_eqb n ctx = Some a -> within (if q then a_repr a else a_str a) m.
Proof.
  revert m. induction l as [|x l IH]; intros m F I a A; [destruct I|]. apply fill_cons in F as [p [r [-> [F X]]]]. destruct I as [->|I].
  - destruct X as [b [B ->]]. rewrite A in B. injection B as <-. exists [], r. reflexivity.
  - destruct (IH r F I a A) as [u [v ->]]. exists (p ++ u), v. rewrite <- app_assoc. reflexivity.
Qed.

(** ** The theorems *)

(** Every call makes a message: its template with the fields filled in, each
    argument being shown. *)
Theorem C75_message : forall c, exists t m, In (call_code c, t) message_for_code /\ message c = Ok m
  /\ filled (fun n => aget str_eqb n (call_context c)) t m
  /\ forall n a, In (n, a) (call_context c) -> within (a_str a) m \/ within (a_repr a) m.
Proof.
  intros c. destruct (message_parts c) as [m [M F]]. destruct (call_parts c) as [t [A P]]. exists t, m. split.
  { clear - A. induction message_for_code as [|[k s] l IH]; [discriminate A|]. cbn [aget] in A. destruct (N.eqb_spec k (call_code c)) as [->|]; [injection A as <-; left; reflexivity | right; exact (IH A)]. }
  split; [exact M|]. split; [exact (segments_filled (call_context c) (length t) t _ m (le_n _) P F)|].
  intros n a I. assert (K : In n (fields (parts_of (call_code c)))) by (apply (inside_In _ _ _ (proj1 (call_fields c))), (in_map fst _ _ I)).
  unfold fields in K. apply in_flat_map in K as [x [Ix K]]. destruct x as [s|k q]; [destruct K|]. destruct K as [->|[]].
  assert (N : NoDup (map fst (call_context c))) by (destruct c; repeat constructor; cbn; intuition discriminate).
  assert (G : aget str_eqb n (call_context c) = Some a).
  { clear - I N. induction (call_context c) as [|[k b] l IH]; [destruct I|]. cbn [map fst] in N. inversion N as [|x y N1 N2]; subst. cbn [aget]. destruct I as [E|I]; [injection E as -> ->; rewrite str_eqb_refl; reflexivity|].
    destruct (str_eqb k n) eqn:Q; [apply str_eqb_eq in Q; subst k; destruct (N1 (in_map fst _ _ I)) | exact (IH I N2)]. }
  pose proof (fill_within _ _ _ _ _ F Ix a G) as W. destruct q; auto.
Qed.

(** ** Telling codes apart *)

Fixpoint clash (a b : str) : bool := match a, b with x :: a', y :: b' => negb (Ascii.eqb x y) || clash a' b' | _, _ => false end.
Lemma clash_app : forall a b u v, clash a b = true -> a ++ u <> b ++ v.
Proof.
  induction a as [|x a IH]; intros [|y b] u v H E; try discriminate H. cbn in H, E. injection E as -> E. rewrite Ascii.eqb_refl in H. exact (IH b u v H E).
Qed.
Definition front (l : list segment) : str := match l with Text s :: _ => s | _ => [] end.
Definition back (l : list segment) : str := match rev l with Text s :: _ => s | _ => [] end.
Lemma fill_front l ctx m : fill l ctx = Ok m -> exists u, m = front l ++ u.
Proof.
  intros F. destruct l as [|[s|n q] l]; [exists m; reflexivity | | exists m; reflexivity]. apply fill_cons in F as [p [r [-> [_ ->]]]]. exists r. reflexivity.
Qed.
Lemma fill_back l ctx : forall m, fill l ctx = Ok m -> exists u, m = u ++ back l.
Proof.
  unfold back. induction l as [|x l IH]; intros m F; [exists m; rewrite app_nil_r; reflexivity|]. apply fill_cons in F as [p [r [-> [F X]]]]. destruct (IH r F) as [u ->]. cbn [rev]. destruct (rev l) as [|y k] eqn:R.
  - destruct x as [s|n q]; cbn [app]; [|exists (p ++ u); rewrite app_nil_r, app_nil_r; reflexivity]. subst p. assert (l = []) by (rewrite <- (rev_involutive l), R; reflexivity). subst l. injection F as F. exists []. cbn [app]. rewrite app_nil_r in *. rewrite <- F. rewrite app_nil_r. reflexivity.
  - exists (p ++ u). rewrite <- app_assoc. reflexivity.
Qed.
Definition apart (a b : N) : bool := N.eqb a b || clash (front (parts_of a)) (front (parts_of b)) || clash (rev (back (parts_of a))) (rev (back (parts_of b))).
Lemma apart_messages c d m : message c = Ok m -> message d = Ok m -> apart (call_code c) (call_code d) = true -> call_code c = call_code d.
Proof.
  intros M N A. destruct (message_parts c) as [m1 [M1 F]]. rewrite M in M1. injection M1 as <-. destruct (message_parts d) as [m2 [M2 G]]. rewrite N in M2. injection M2 as <-.
  unfold apart in A. apply orb_prop in A as [A|A]; [apply orb_prop in A as [A|A]; [exact (proj1 (N.eqb_eq _ _) A)|]|].
  - destruct (fill_front _ _ _ F) as [u E], (fill_front _ _ _ G) as [v E']. rewrite E in E'. destruct (clash_app _ _ _ _ A E').
  - destruct (fill_back _ _ _ F) as [u E], (fill_back _ _ _ G) as [v E']. rewrite E in E'. apply (f_equal (@rev ascii)) in E'. rewrite !rev_app_distr in E'. destruct (clash_app _ _ _ _ A E').
Qed.

(** The three pairs of templates that have no fixed text in common places. *)
Definition close_pair (a b : N) : bool := existsb (fun p => (N.eqb (fst p) a && N.eqb (snd p) b) || (N.eqb (fst p) b && N.eqb (snd p) a)) [(7, 9); (8, 9); (105, 106)]%N.
Definition codes : list N := map fst message_for_code.
Lemma code_listed c : In (call_code c) codes.
Proof. destruct (call_parts c) as [s [A _]]. unfold codes. clear - A. induction message_for_code as [|[k t] l IH]; [discriminate A|]. cbn [aget] in A. destruct (N.eqb_spec k (call_code c)) as [->|]; [left; reflexivity | right; exact (IH A)]. Qed.
Lemma all_apart : forallb (fun a => forallb (fun b => apart a b || close_pair a b) codes) codes = true.
Proof. vm_compute. reflexivity. Qed.
Lemma apart_or_close c d : apart (call_code c) (call_code d) = true \/ close_pair (call_code c) (call_code d) = true.
Proof. pose proof all_apart as H. rewrite forallb_forall in H. specialize (H _ (code_listed c)). rewrite forallb_forall in H. specialize (H _ (code_listed d)). apply orb_prop in H. exact H. Qed.

Lemma dec_last n : exists u x, dec_of_nat n = u ++ [x] /\ is_digit x = true.
Proof.
  destruct (dec_of_nat_spec n) as [N [D _]]. destruct (exists_last N) as [u [x E]]. exists u, x. split; [exact E|]. rewrite E, forallb_app in D. apply andb_prop in D as [_ D]. cbn in D. rewrite andb_true_r in D. exact D.
Qed.
Lemma joined_last l : l <> [] -> exists u x, joined_numbers l = u ++ [x] /\ is_digit x = true.
Proof.
  destruct l as [|n t]; intros H; [destruct (H eq_refl)|]. clear H. unfold joined_numbers. destruct (rev t) as [|k r] eqn:R.
  - assert (t = []) by (rewrite <- (rev_involutive t), R; reflexivity). subst t. cbn. rewrite app_nil_r. apply dec_last.
  - assert (E : t = rev r ++ [k]) by (rewrite <- (rev_involutive t), R; reflexivity). destruct (dec_last k) as [u [x [Q D]]]. rewrite E, map_app, concat_app. cbn [map concat]. rewrite Q.
    eexists (dec_of_nat n ++ concat (map _ (rev r)) ++ $", " ++ u), x. split; [|exact D]. rewrite app_nil_r, <- !app_assoc. reflexivity.
Qed.
Lemma ends_in (u v : str) x (y : ascii) : u ++ [x] = v ++ [y] -> x = y.
Proof. intros E. apply app_inj_tail in E as [_ E]. exact E. Qed.
Lemma numbers_end l q m : l <> [] -> message (Call_multiple_primary_values l q) = Ok m -> exists u x, m = u ++ [x] /\ is_digit x = true.
Proof.
  intros H M. destruct (joined_last l H) as [u [x [E D]]]. destruct (message_parts (Call_multiple_primary_values l q)) as [m' [M' F]]. rewrite M in M'. injection M' as <-.
  cbn [call_code call_context] in F. revert F. generalize (joined_numbers l) E. intros j -> F. vm_compute parts_of in F. cbn [fill] in F. match type of F with context [aget ?f ?k ?c] => change (aget f k c) with (Some (mkArg (u ++ [x]) q)) in F end. cbn in F. injection F as <-. 
  rewrite app_nil_r. match goal with |- exists u0 x0, ?e = _ /\ _ => match e with context C [u ++ [x]] => let p := context C [u] in exists p, x end end. split; [reflexivity | exact D].
Qed.
Lemma quote_end c m : call_code c = 7%N \/ call_code c = 8%N -> message c = Ok m -> exists u x, m = u ++ [x] /\ is_digit x = false.
Proof.
  intros H M. destruct (message_parts c) as [m' [M' F]]. rewrite M in M'. injection M' as <-. destruct (fill_back _ _ _ F) as [u E].
  destruct H as [H|H]; rewrite H in E; vm_compute back in E; [exists (u ++ removelast (back (parts_of 7))), "e"%char | exists (u ++ removelast (back (parts_of 8))), "L"%char]; (split; [rewrite E, <- app_assoc; reflexivity | reflexivity]).
Qed.
Lemma operator_differs t o e x m : (a_str t = $"unary" \/ a_str t = $"binary") -> message (Call_unknown_operator t o e) = Ok m -> message (Call_unknown_expression x) = Ok m -> False.
Proof.
  intros T M N. destruct (message_parts (Call_unknown_operator t o e)) as [m1 [M1 F]]. rewrite M in M1. injection M1 as <-. destruct (message_parts (Call_unknown_expression x)) as [m2 [M2 G]]. rewrite N in M2. injection M2 as <-.
  cbn [call_code call_context] in F, G. vm_compute parts_of in F, G. apply fill_cons in F as [p [r [-> [F P]]]]. apply fill_cons in F as [p' [r' [-> [F P']]]]. apply fill_cons in G as [w [z [E [_ W]]]]. subst p w. destruct P' as [a [A ->]].
  assert (a = t) by (match type of A with ?l = _ => change l with (Some t) in A end; injection A as A; symmetry; exact A). subst a. cbn in E. destruct T as [T|T]; rewrite T in E; cbn in E; discriminate E.
Qed.

(** Errors whose messages are equal have the same code: ValidationIssues.pop,
    which compares messages, removes errors of the code it was asked for. *)
Theorem C75_codes : forall c d, plausible c -> plausible d -> same_message c d = Ok true -> call_code c = call_code d.
Proof.
  intros c d P Q S. destruct (message_parts c) as [m [M _]], (message_parts d) as [n [N _]]. unfold same_message in S. rewrite M in S. cbn [bind] in S. rewrite N in S. cbn [bind] in S. injection S as S. apply str_eqb_eq in S. subst n.
  destruct (apart_or_close c d) as [A|A]; [exact (apart_messages c d m M N A)|]. exfalso. revert c d P Q M N A.
  assert (K : forall c d, plausible c -> plausible d -> message c = Ok m -> message d = Ok m -> forall a b, In (a, b) [(7, 9); (8, 9); (105, 106)]%N -> call_code c = a -> call_code d = b -> False).
  { intros c d P Q M N a b I Ea Eb. destruct I as [I|[I|[I|[]]]]; injection I as <- <-.
    - destruct d; try discriminate Eb. destruct (numbers_end _ _ _ Q N) as [u [x [E D]]], (quote_end c m (or_introl Ea) M) as [v [y [E' D']]]. rewrite E in E'. rewrite (ends_in _ _ _ _ E') in D. congruence.
    - destruct d; try discriminate Eb. destruct (numbers_end _ _ _ Q N) as [u [x [E D]]], (quote_end c m (or_intror Ea) M) as [v [y [E' D']]]. rewrite E in E'. rewrite (ends_in _ _ _ _ E') in D. congruence.
    - destruct c; try discriminate Ea. destruct d; try discriminate Eb. exact (operator_differs _ _ _ _ _ P M N). }
  intros c d P Q M N A. unfold close_pair in A. apply existsb_exists in A as [[a b] [I A]]. cbn [fst snd] in A. apply orb_prop in A as [A|A]; apply andb_prop in A as [A B]; apply N.eqb_eq in A, B.
  - exact (K c d P Q M N a b I (eq_sym A) (eq_sym B)).
  - exact (K d c Q P N M a b I (eq_sym A) (eq_sym B)).
Qed.

(** Braces in an argument are shown as they are. *)
Example ex_C75 : message (Call_unknown_operator (mkArg ($"unary") []) (mkArg ($"{operator}") []) (mkArg ($"{0} pr") [])) = Ok ($"unknown unary operator '{operator}' in expression '{0} pr'")
  /\ message (Call_multiple_primary_values [1%nat; 12%nat] []) = Ok ($"'primary' attribute, in multi-valued attribute item, set to 'True', MUST appear no more than once, but these items have it: 1, 12")
  /\ plausible (Call_unknown_operator (mkArg ($"unary") []) (mkArg ($"{operator}") []) (mkArg ($"{0} pr") [])) /\ plausible (Call_multiple_primary_values [1%nat; 12%nat] []).
Proof. split; [vm_compute; reflexivity|]. split; [vm_compute; reflexivity|]. split; [left; reflexivity | discriminate]. Qed.
Example ex_C75_same : same_message (Call_reserved_keyword (mkArg ($"a") [])) (Call_reserved_keyword (mkArg ($"a") ($"'a'"))) = Ok true.
Proof. vm_compute. reflexivity. Qed.

(** With arguments the library never passes, two codes share a message. *)
Theorem C75_codes_refuted : ~ forall c d, same_message c d = Ok true -> call_code c = call_code d.
Proof.
  intros H. assert (N : 105%N = 106%N); [|discriminate N].
  apply (H (Call_unknown_operator (mkArg ($"expression 'q") []) (mkArg ($"o") []) (mkArg ($"e") [])) (Call_unknown_expression (mkArg ($"q operator 'o' in expression 'e") []))). vm_compute. reflexivity.
Qed.

(** Errors with equal messages need not be about the same arguments. *)
Theorem C75_arguments_refuted : exists c d, plausible c /\ plausible d /\ same_message c d = Ok true /\ map (fun p => a_str (snd p)) (call_context c) <> map (fun p => a_str (snd p)) (call_context d).
Proof.
  exists (Call_unknown_operator (mkArg ($"unary") []) (mkArg ($"a' in expression 'b") []) (mkArg ($"c") [])), (Call_unknown_operator (mkArg ($"unary") []) (mkArg ($"a") []) (mkArg ($"b' in expression 'c") [])).
  split; [left; reflexivity|]. split; [left; reflexivity|]. split; [vm_compute; reflexivity | discriminate].
Qed.

Print Assumptions C75_message.
Print Assumptions C75_codes.
Print Assumptions C75_codes_refuted.
Print Assumptions C75_arguments_refuted.
