(** Parsing a rendered expression: parenthesised groups, keywords and leaves. *)
From Verif Require Import PyBase BaseFacts PyNum Issues AttrRep AttrRepSpec AttrRepFacts Value Container Types Attr Match MatchCompare FilterParse FilterSpec FilterText FilterTotal.

(** ** Expressions over words *)

Inductive exp :=
| Words (ws : list str)
| QTest (n o : str) (q : ascii) (c : str)
| Brk (n : str) (e : exp)
| EAnd (l : list exp)
| EOr (l : list exp)
| ENot (e : exp).

Section Ind.
  Variable P : exp -> Prop.
  Hypothesis Hw : forall ws, P (Words ws).
  Hypothesis Hq : forall n o q c, P (QTest n o q c).
  Hypothesis Hb : forall n e, P e -> P (Brk n e).
  Hypothesis Ha : forall l, Forall P l -> P (EAnd l).
  Hypothesis Ho : forall l, Forall P l -> P (EOr l).
  Hypothesis Hn : forall e, P e -> P (ENot e).
  Fixpoint exp_rect' (e : exp) : P e :=
    match e with
    | Words ws => Hw ws
    | QTest n o q c => Hq n o q c
    | Brk n e => Hb n e (exp_rect' e)
    | EAnd l => Ha l ((fix go l := match l return Forall P l with [] => Forall_nil _ | x :: t => Forall_cons x (exp_rect' x) (go t) end) l)
    | EOr l => Ho l ((fix go l := match l return Forall P l with [] => Forall_nil _ | x :: t => Forall_cons x (exp_rect' x) (go t) end) l)
    | ENot e => Hn e (exp_rect' e)
    end.
End Ind.

(** Strength: how tightly the expression binds; an operand at least as weak as
    its place allows is put in parentheses. *)
Definition level (e : exp) : nat := match e with EOr _ => 3 | EAnd _ => 2 | ENot _ => 1 | _ => 0 end.
Definition par (k : nat) (e : exp) : bool := Nat.leb k (level e).
Definition arg_text (tx : exp -> str) (k : nat) (e : exp) : str := if par k e then parens (tx e) else tx e.
Fixpoint etext (e : exp) : str :=
  match e with
  | Words ws => spaced ws
  | QTest n o q c => n ++ sp :: o ++ sp :: q :: c ++ [q]
  | Brk n e => n ++ lbrk :: etext e ++ [rbrk]
  | EAnd l => sep_by ($" and ") (map (arg_text etext 2) l)
  | EOr l => sep_by ($" or ") (map (arg_text etext 3) l)
  | ENot e => $"not " ++ arg_text etext 1 e
  end.

(** ** Tokens of one level *)

Inductive gtok := W (w : str) | G (inner : str).
Definition gtext (t : gtok) : str := match t with W w => w | G u => parens u end.
Fixpoint sep_list {A} (x : A) (l : list (list A)) : list A :=
  match l with [] => [] | p :: t => match t with [] => p | _ => p ++ x :: sep_list x t end end.
Definition arg_toks (tk : exp -> list gtok) (k : nat) (e : exp) : list gtok := if par k e then [G (etext e)] else tk e.
Fixpoint etoks (e : exp) : list gtok :=
  match e with
  | Words ws => map W ws
  | QTest _ _ _ _ | Brk _ _ => [W (etext e)]
  | EAnd l => sep_list (W ($"and")) (map (arg_toks etoks 2) l)
  | EOr l => sep_list (W ($"or")) (map (arg_toks etoks 3) l)
  | ENot e => W ($"not") :: arg_toks etoks 1 e
  end.

(** ** The group scan *)

Definition quiet (c : ascii) : Prop := c <> dquote /\ c <> lpar /\ c <> rpar.
Inductive bal : str -> Prop :=
| bal_nil : bal []
| bal_chr c t : quiet c -> bal t -> bal (c :: t)
| bal_grp u t : bal u -> bal t -> bal (lpar :: u ++ rpar :: t).
Lemma bal_app u v : bal u -> bal v -> bal (u ++ v).
Proof.
  intros H Hv. induction H; [exact Hv | constructor; assumption|]. cbn [app]. rewrite <- app_assoc. cbn [app]. constructor; assumption.
Qed.
Lemma bal_quiet s : Forall quiet s -> bal s.
Proof. induction 1; constructor; assumption. Qed.
Lemma bal_parens u : bal u -> bal (parens u).
Proof. intros H. unfold parens. apply bal_grp; [exact H | constructor]. Qed.

Lemma chr_eqb_no a b : a <> b -> chr_eqb a b = false.
Proof. apply chr_eqb_neq. Qed.
Lemma enum_from_app {A} (u v : list A) : forall n, enum_from n (u ++ v) = enum_from n u ++ enum_from (n + length u) v.
Proof.
  induction u as [|x u IH]; intros n; cbn [app enum_from length]; [f_equal; lia|]. rewrite IH. cbn. do 2 f_equal. f_equal. lia.
Qed.
Lemma enum_from_snoc {A} (u v : list A) n : enum_from n (u ++ v) = enum_from n u ++ enum_from (n + length u) v.
Proof. apply enum_from_app. Qed.

Section Scan.
  Context (rec : str -> res pres) (full : str).
  Notation run := (foldM (group_step rec full)).

  Lemma scan_quiet u : Forall quiet u -> forall pos st, g_ignore st = false -> (g_open st <> None -> g_cnt st <> 0) ->
    run (enum_from pos u) st = Ok st.
  Proof.
    induction u as [|c u IH]; intros H pos st Hi Ho; [reflexivity|]. inversion H as [|? ? [H1 [H2 H3]] Hu]; subst. cbn [enum_from foldM].
    assert (E : group_step rec full st (pos, c) = Ok st).
    { unfold group_step. rewrite !chr_eqb_no by assumption. rewrite Hi. destruct st as [ig op cnt ops txt errs]. cbn in *. subst ig. destruct op as [o|]; [|reflexivity].
      destruct (Nat.eqb_spec cnt 0) as [->|]; [exfalso; apply Ho; [discriminate | reflexivity] | reflexivity]. }
    rewrite E. cbn [bind]. apply IH; assumption.
  Qed.
  Lemma scan_bal u : bal u -> forall pos o n ops txt errs rest,
    run (enum_from pos (u ++ rest)) (mkG false (Some o) (S n) ops txt errs) = run (enum_from (pos + length u) rest) (mkG false (Some o) (S n) ops txt errs).
  Proof.
    intros H. induction H as [|c t Hc Ht IH|u t Hu IHu Ht IHt]; intros pos o n ops txt errs rest.
    - cbn [app length]. rewrite Nat.add_0_r. reflexivity.
    - cbn [app length enum_from foldM]. destruct Hc as [H1 [H2 H3]]. unfold group_step at 1. rewrite !chr_eqb_no by assumption. cbn [g_ignore g_open g_cnt g_errs g_ops g_text Nat.eqb bind].
      rewrite IH. f_equal. f_equal. lia.
    - cbn [app length enum_from foldM]. unfold group_step at 1.
      assert (D1 : chr_eqb lpar dquote = false) by reflexivity. assert (D2 : chr_eqb lpar lpar = true) by reflexivity. rewrite D1, D2. cbn [g_ignore g_open g_cnt g_errs g_ops g_text Nat.eqb bind].
      rewrite <- app_assoc. rewrite IHu. cbn [app enum_from foldM]. unfold group_step at 1.
      assert (D3 : chr_eqb rpar dquote = false) by reflexivity. assert (D4 : chr_eqb rpar lpar = false) by reflexivity. assert (D5 : chr_eqb rpar rpar = true) by reflexivity. rewrite D3, D4, D5.
      cbn [g_ignore g_open g_cnt g_errs g_ops g_text Nat.sub Nat.eqb bind]. rewrite IHt. f_equal. f_equal. rewrite app_length. cbn [length]. lia.
  Qed.
  Lemma slice_mid (pre u v : str) : slice (length pre) (length pre + length u) (pre ++ u ++ v) = u.
  Proof. unfold slice. rewrite skipn_app_exact. replace (length pre + length u - length pre) with (length u) by lia. rewrite firstn_app, firstn_all, Nat.sub_diag, firstn_O, app_nil_r. reflexivity. Qed.
  Lemma scan_group pre u rest ops done errs p : full = pre ++ parens u ++ rest -> bal u -> rec u = Ok p -> ~ In lpar done ->
    run (enum_from (length pre) (parens u ++ rest)) (mkG false None 0 ops (done ++ parens u ++ rest) errs)
    = run (enum_from (length pre + length (parens u)) rest) (mkG false None 0 (iset (length pre) p ops) (done ++ placeholder (length pre) ++ rest) errs).
  Proof.
    intros Hf Hu Hr Hd. unfold parens at 1. cbn [app enum_from foldM]. unfold group_step at 1.
    change (chr_eqb "("%char dquote) with false. change (chr_eqb "("%char lpar) with true. cbn [g_ignore g_open g_cnt g_errs g_ops g_text Nat.eqb bind].
    rewrite <- app_assoc. rewrite scan_bal by exact Hu. cbn [app enum_from foldM]. unfold group_step at 1.
    change (chr_eqb ")"%char dquote) with false. change (chr_eqb ")"%char lpar) with false. change (chr_eqb ")"%char rpar) with true.
    cbn [g_ignore g_open g_cnt g_errs g_ops g_text Nat.eqb Nat.sub].
    assert (S1 : slice (S (length pre)) (S (length pre) + length u) full = u).
    { rewrite Hf. pose proof (slice_mid (pre ++ ["("%char]) u (")"%char :: rest)) as S. rewrite app_length in S. cbn [length] in S. rewrite Nat.add_1_r in S. etransitivity; [|exact S]. f_equal.
      unfold parens. rewrite <- !app_assoc. cbn [app]. rewrite <- app_assoc. reflexivity. }
    assert (S2 : slice (length pre) (S (S (length pre) + length u)) full = parens u).
    { rewrite Hf. pose proof (slice_mid pre (parens u) rest) as S. etransitivity; [|exact S]. f_equal. unfold parens. cbn [length]. rewrite app_length. cbn [length]. lia. }
    rewrite S1, S2, Hr. cbn [bind]. f_equal.
    - f_equal. unfold parens. cbn [length]. rewrite app_length. cbn. lia.
    - f_equal. change (parens u) with ([] ++ lpar :: u ++ [rpar]). apply replace_first_at; [intros [] | exact Hd].
  Qed.

  Definition tok_ok (t : gtok) : Prop :=
    match t with W w => Forall quiet w | G u => bal u /\ exists p, rec u = Ok p end.
  Definition reads_as (g : idict pres) (t : gtok) (w : str) : Prop :=
    match t with W v => w = v | G u => exists i p, w = placeholder i /\ iget i g = Some p /\ rec u = Ok p end.
  Lemma iget_iset {V} i j (v : V) d : iget i (iset j v d) = if Nat.eqb j i then Some v else iget i d.
  Proof.
    unfold iget, iset. induction d as [|[k x] d IH]; cbn [aset aget].
    - destruct (Nat.eqb j i); reflexivity.
    - destruct (Nat.eqb_spec k j) as [->|N]; cbn [aget].
      + destruct (Nat.eqb j i); reflexivity.
      + destruct (Nat.eqb_spec k i) as [->|]; [destruct (Nat.eqb_spec j i); [congruence | reflexivity] | exact IH].
  Qed.
  Lemma sp_quiet : Forall quiet [sp].
  Proof. repeat constructor; discriminate. Qed.
  Lemma placeholder_no_lpar i : ~ In lpar (placeholder i).
  Proof. apply placeholder_no; [|reflexivity]. intros H. cbn in H. repeat (destruct H as [H|H]; [discriminate|]). contradiction. Qed.
  Lemma scan_tok t pre rest ops done errs : full = pre ++ gtext t ++ rest -> tok_ok t -> ~ In lpar done ->
    exists w ops', run (enum_from (length pre) (gtext t ++ rest)) (mkG false None 0 ops (done ++ gtext t ++ rest) errs)
      = run (enum_from (length pre + length (gtext t)) rest) (mkG false None 0 ops' (done ++ w ++ rest) errs)
      /\ reads_as ops' t w /\ (forall k, k < length pre -> iget k ops' = iget k ops) /\ (forall v, t = W v -> ops' = ops)
      /\ (forall g, (forall k, k < length pre + length (gtext t) -> iget k g = iget k ops') -> reads_as g t w) /\ ~ In lpar w.
  Proof.
    intros Hf Ht Hd. destruct t as [w|u]; cbn [gtext tok_ok] in *.
    - exists w, ops. rewrite enum_from_app, foldM_app, scan_quiet by (try assumption; try reflexivity; cbn; congruence). cbn [bind]. split; [reflexivity|]. split; [reflexivity|]. split; [reflexivity|]. split; [reflexivity|]. split; [reflexivity|].
      intros Hin. rewrite Forall_forall in Ht. destruct (Ht _ Hin) as [_ [X _]]. contradiction.
    - destruct Ht as [Hu [p Hp]]. exists (placeholder (length pre)), (iset (length pre) p ops). rewrite (scan_group pre u rest ops done errs p) by assumption. split; [reflexivity|]. split.
      { exists (length pre), p. split; [reflexivity|]. split; [rewrite iget_iset, Nat.eqb_refl; reflexivity | exact Hp]. }
      split; [intros k Hk; rewrite iget_iset; destruct (Nat.eqb_spec (length pre) k); [lia | reflexivity]|]. split; [discriminate|]. split; [|apply placeholder_no_lpar].
      intros g Hg. exists (length pre), p. split; [reflexivity|]. split; [|exact Hp]. rewrite Hg by (unfold parens; cbn; lia). rewrite iget_iset, Nat.eqb_refl. reflexivity.
  Qed.
  Lemma scan_toks : forall toks pre ops done errs, toks <> [] -> full = pre ++ spaced (map gtext toks) -> Forall tok_ok toks -> ~ In lpar done ->
    exists ws ops', run (enum_from (length pre) (spaced (map gtext toks))) (mkG false None 0 ops (done ++ spaced (map gtext toks)) errs) = Ok (mkG false None 0 ops' (done ++ spaced ws) errs)
      /\ Forall2 (reads_as ops') toks ws /\ (forall k, k < length pre -> iget k ops' = iget k ops) /\ ((forall t, In t toks -> exists v, t = W v) -> ops' = ops).
  Proof.
    induction toks as [|t toks IH]; intros pre ops done errs Hn Hf Hok Hd; [contradiction|]. inversion Hok as [|? ? Ht Htl]; subst x l. destruct toks as [|t' toks].
    - cbn [map spaced] in *. destruct (scan_tok t pre [] ops done errs) as [w [ops' [E [R [K [N _]]]]]]; [rewrite app_nil_r; exact Hf|exact Ht|exact Hd|].
      rewrite !app_nil_r in E. exists [w], ops'. cbn [spaced]. rewrite E. split; [reflexivity|]. split; [repeat constructor; exact R|]. split; [exact K|].
      intros H. destruct (H t (or_introl eq_refl)) as [v ->]. apply (N v). reflexivity.
    - change (map gtext (t :: t' :: toks)) with (gtext t :: map gtext (t' :: toks)) in *. rewrite spaced_cons in * by discriminate.
      destruct (scan_tok t pre (sp :: spaced (map gtext (t' :: toks))) ops done errs Hf Ht Hd) as [w [ops1 [E [R [K [N [M L]]]]]]]. rewrite E. clear E.
      change (sp :: spaced (map gtext (t' :: toks))) with ([sp] ++ spaced (map gtext (t' :: toks))). rewrite enum_from_app, foldM_app, scan_quiet by (try exact sp_quiet; try reflexivity; cbn; congruence). cbn [bind].
      destruct (IH (pre ++ gtext t ++ [sp]) ops1 (done ++ w ++ [sp]) errs) as [ws [ops' [E [R' [K' N']]]]].
      + discriminate.
      + rewrite Hf. rewrite <- !app_assoc. reflexivity.
      + exact Htl.
      + rewrite !in_app_iff. intros [X|[X|[X|[]]]]; [contradiction|contradiction|discriminate].
      + exists (w :: ws), ops'. rewrite !app_length in E. cbn [length] in E. cbn [length]. rewrite Nat.add_assoc in E. rewrite <- !app_assoc in E. cbn [app] in E |- *. rewrite E.
        assert (Hws : ws <> []) by (intros ->; inversion R'). split; [|split; [|split]].
        * rewrite (spaced_cons w) by exact Hws. reflexivity.
        * constructor; [|exact R']. apply M. intros k Hk. apply K'. rewrite !app_length. lia.
        * intros k Hk. rewrite K' by (rewrite !app_length; lia). apply K. exact Hk.
        * intros H. rewrite N'; [|intros x Hx; apply H; right; exact Hx]. destruct (H t (or_introl eq_refl)) as [v ->]. apply (N v). reflexivity.
  Qed.
End Scan.

(** ** Lists of tokens *)

Lemma Forall2_len {A B} (R : A -> B -> Prop) l l' : Forall2 R l l' -> length l = length l'.
Proof. induction 1; cbn; congruence. Qed.

Lemma kw_join_sep kw l : kw_join kw l = sep_by (sp :: kw ++ [sp]) l.
Proof.
  induction l as [|p t IH]; [reflexivity|]. cbn [kw_join sep_by]. destruct t as [|q t]; [reflexivity|]. rewrite IH. cbn [app]. rewrite <- app_assoc. reflexivity.
Qed.
Lemma sep_list_ne {A} (x : A) ls : ls <> [] -> Forall (fun p => p <> []) ls -> sep_list x ls <> [].
Proof. destruct ls as [|p [|q t]]; intros H1 H2; [contradiction| |]; inversion H2; subst; cbn [sep_list]; [assumption|]. destruct p; [contradiction | discriminate]. Qed.
Lemma spaced_sep kw wss : Forall (fun p => p <> []) wss -> spaced (sep_list kw wss) = kw_join kw (map spaced wss).
Proof.
  induction wss as [|p t IH]; intros H; [reflexivity|]. inversion H; subst. destruct t as [|q t]; [reflexivity|].
  change (sep_list kw (p :: q :: t)) with (p ++ kw :: sep_list kw (q :: t)). rewrite spaced_app by (assumption || discriminate).
  rewrite spaced_cons by (apply sep_list_ne; [discriminate | assumption]). rewrite IH by assumption. reflexivity.
Qed.
Lemma map_sep_list {A B} (f : A -> B) x ls : map f (sep_list x ls) = sep_list (f x) (map (map f) ls).
Proof. induction ls as [|p t IH]; [reflexivity|]. cbn [sep_list map]. destruct t as [|q t]; [reflexivity|]. rewrite map_app. cbn [map]. rewrite IH. reflexivity. Qed.
Lemma Forall_sep_list {A} (P : A -> Prop) x ls : P x -> Forall (Forall P) ls -> Forall P (sep_list x ls).
Proof. intros Hx H. induction H as [|p t Hp Ht IH]; [constructor|]. cbn [sep_list]. destruct t; [exact Hp|]. apply Forall_app. split; [exact Hp|]. constructor; assumption. Qed.
Lemma Forall2_sep_list {A B} (R : A -> B -> Prop) x y : (forall w, R x w -> w = y) -> forall ls ws, Forall2 R (sep_list x ls) ws ->
  exists wss, ws = sep_list y wss /\ Forall2 (Forall2 R) ls wss.
Proof.
  intros Hx. induction ls as [|p t IH]; intros ws H.
  - inversion H; subst. exists []. split; [reflexivity | constructor].
  - cbn [sep_list] in H. destruct t as [|q t].
    + exists [ws]. split; [reflexivity | repeat constructor; exact H].
    + apply Forall2_app_inv_l in H as [u [v [H1 [H2 ->]]]]. inversion H2 as [|? w ? v' Hw Hv]; subst. apply Hx in Hw as ->. destruct (IH _ Hv) as [wss [-> Hwss]].
      exists (u :: wss). split; [|constructor; assumption]. inversion Hwss; subst. reflexivity.
Qed.
Lemma sep_by_length s l x : In x l -> length x <= length (sep_by s l).
Proof.
  induction l as [|y t IH]; [contradiction|]. intros [->|H]; cbn [sep_by]; (destruct t as [|z t]; [try lia; try contradiction|]).
  - rewrite app_length. lia.
  - specialize (IH H). rewrite !app_length. lia.
Qed.

(** ** Reading an expression *)

Definition good_word (w : str) : Prop := solid w /\ Forall quiet w /\ keyword_free w.
Fixpoint egroups (e : exp) : bool :=
  match e with
  | EAnd l => existsb (fun x => par 2 x || egroups x) l
  | EOr l => existsb (fun x => par 3 x || egroups x) l
  | ENot x => par 1 x || egroups x
  | _ => false
  end.

Section Read.
  Context (strings : idict str) (cx : idict pres).

  (** The leaf reads as the operator, whatever groups there are ([b]) or
      without any. *)
  Definition leaf (b : bool) (ws : list str) (o : oper) : Prop :=
    forall g, (b = false -> g = []) -> parse_attr_exp (spaced ws) strings g cx = Ok (o, []).
  Inductive reads : bool -> exp -> oper -> Prop :=
  | rd_words b ws o : ws <> [] -> Forall good_word ws -> leaf b ws o -> reads b (Words ws) o
  | rd_and b l os : 2 <= length l -> Forall2 (fun e o => reads (if par 2 e then egroups e else b) e o) l os -> reads b (EAnd l) (OAnd os)
  | rd_or b l os : 2 <= length l -> Forall2 (fun e o => reads (if par 3 e then egroups e else b) e o) l os -> reads b (EOr l) (OOr os)
  | rd_not b e o : reads (if par 1 e then egroups e else b) e o -> reads b (ENot e) (ONot o).

  Lemma quiet_kw : Forall quiet ($"and") /\ Forall quiet ($"or") /\ Forall quiet ($"not").
  Proof. repeat split; repeat constructor; discriminate. Qed.
  Lemma bal_sep s l : bal s -> Forall bal l -> bal (sep_by s l).
  Proof. intros Hs H. induction H as [|x t Hx Ht IH]; [constructor|]. cbn [sep_by]. destruct t; [exact Hx|]. apply bal_app; [exact Hx|]. apply bal_app; assumption. Qed.
  Lemma quiet_spaced ws : Forall (Forall quiet) ws -> Forall quiet (spaced ws).
  Proof.
    intros H. induction H as [|w t Hw Ht IH]; [constructor|]. cbn [spaced]. destruct t; [exact Hw|]. apply Forall_app. split; [exact Hw|]. constructor; [|exact IH]. repeat split; discriminate.
  Qed.
  Lemma arg_bal k e : bal (etext e) -> bal (arg_text etext k e).
  Proof. intros H. unfold arg_text. destruct (par k e); [apply bal_parens; exact H | exact H]. Qed.
  Lemma reads_bal : forall e b o, reads b e o -> bal (etext e).
  Proof.
    induction e as [ws|n o q c|n e IH|l IH|l IH|e IH] using exp_rect'; intros b x H; inversion H; subst; cbn [etext].
    - apply bal_quiet, quiet_spaced. match goal with H : Forall good_word ws |- _ => revert H; apply Forall_impl; intros w Hw; apply Hw end.
    - apply bal_sep; [apply bal_quiet; repeat constructor; discriminate|]. rewrite Forall_forall in IH |- *. intros s Hs. apply in_map_iff in Hs as [e [<- He]]. apply arg_bal.
      match goal with H : Forall2 _ l os |- _ => destruct (In_nth_error _ _ He) as [i Hi]; destruct (Forall2_nth_l _ _ _ H _ _ Hi) as [o [_ Ho]] end. apply (IH e He _ _ Ho).
    - apply bal_sep; [apply bal_quiet; repeat constructor; discriminate|]. rewrite Forall_forall in IH |- *. intros s Hs. apply in_map_iff in Hs as [e [<- He]]. apply arg_bal.
      match goal with H : Forall2 _ l os |- _ => destruct (In_nth_error _ _ He) as [i Hi]; destruct (Forall2_nth_l _ _ _ H _ _ Hi) as [o [_ Ho]] end. apply (IH e He _ _ Ho).
    - apply bal_app; [apply bal_quiet; repeat constructor; discriminate|]. apply arg_bal. eapply IH. eassumption.
  Qed.

  (** The text is the tokens with spaces between. *)
  Lemma arg_spaced k e : etext e = spaced (map gtext (etoks e)) -> arg_text etext k e = spaced (map gtext (arg_toks etoks k e)).
  Proof. intros H. unfold arg_text, arg_toks. destruct (par k e); [reflexivity | exact H]. Qed.
  Lemma arg_ne k e : etoks e <> [] -> arg_toks etoks k e <> [].
  Proof. unfold arg_toks. destruct (par k e); [discriminate | auto]. Qed.
  Lemma reads_tokens : forall e b o, reads b e o -> etoks e <> [] /\ etext e = spaced (map gtext (etoks e)).
  Proof.
    assert (L : forall k kw l, sp :: kw ++ [sp] <> [] -> 2 <= length l -> Forall (fun e => etoks e <> [] /\ etext e = spaced (map gtext (etoks e))) l ->
      sep_list (W kw) (map (arg_toks etoks k) l) <> [] /\ sep_by (sp :: kw ++ [sp]) (map (arg_text etext k) l) = spaced (map gtext (sep_list (W kw) (map (arg_toks etoks k) l)))).
    { intros k kw l _ Hl H. split.
      - apply sep_list_ne; [destruct l; [cbn in Hl; lia | discriminate]|]. apply Forall_map. revert H. apply Forall_impl. intros e [He _]. apply arg_ne. exact He.
      - rewrite map_sep_list. rewrite spaced_sep.
        + rewrite kw_join_sep. f_equal. rewrite !map_map. apply map_ext_in. intros e He. rewrite Forall_forall in H. apply arg_spaced. apply (H e He).
        + rewrite map_map. apply Forall_map. revert H. apply Forall_impl. intros e [He _] E. apply map_eq_nil in E. revert E. apply arg_ne. exact He. }
    induction e as [ws|n o q c|n e IH|l IH|l IH|e IH] using exp_rect'; intros b x H; inversion H; subst; cbn [etext etoks].
    - split; [destruct ws; [contradiction | discriminate]|]. rewrite map_map. cbn [gtext]. rewrite map_id. reflexivity.
    - apply (L 2 ($"and")); [discriminate|assumption|]. rewrite Forall_forall in IH |- *. intros e He.
      match goal with H : Forall2 _ l os |- _ => destruct (In_nth_error _ _ He) as [i Hi]; destruct (Forall2_nth_l _ _ _ H _ _ Hi) as [o [_ Ho]] end. apply (IH e He _ _ Ho).
    - apply (L 3 ($"or")); [discriminate|assumption|]. rewrite Forall_forall in IH |- *. intros e He.
      match goal with H : Forall2 _ l os |- _ => destruct (In_nth_error _ _ He) as [i Hi]; destruct (Forall2_nth_l _ _ _ H _ _ Hi) as [o [_ Ho]] end. apply (IH e He _ _ Ho).
    - split; [discriminate|]. match goal with H : reads _ e _ |- _ => destruct (IH _ _ H) as [N E] end. rewrite (arg_spaced 1 e E). cbn [map gtext].
      rewrite spaced_cons; [reflexivity|]. intros X. apply map_eq_nil in X. revert X. apply arg_ne. exact N.
  Qed.

  (** Words of a level, and what the parser of the level does with them. *)
  Definition free (k : nat) (ws : list str) : Prop :=
    ws <> [] /\ Forall (fun w => solid w /\ (k < 3 -> ~ mentions ($"or") w) /\ (k < 2 -> ~ mentions ($"and") w) /\ (k < 1 -> ~ mentions ($"not") w)) ws.
  Definition parse_level (k : nat) (g : idict pres) (s : str) : res pres :=
    match k with
    | 0 => parse_attr_exp s strings g cx
    | 1 => parse_not_exp s strings g cx
    | 2 => parse_and_exp strings g cx s
    | _ => parse_or_exp strings g cx s
    end.
  Lemma free_up k j ws : k <= j -> free k ws -> free j ws.
  Proof. intros H [H1 H2]. split; [exact H1|]. revert H2. apply Forall_impl. intros w [A [B [C D]]]. repeat split; try assumption; [apply A | apply A | |  |]; intros X; [apply B | apply C | apply D]; lia. Qed.
  Lemma free_piece kw k ws : (kw = $"or" /\ k < 3) \/ (kw = $"and" /\ k < 2) -> free k ws -> plain_piece kw ws.
  Proof. intros H [H1 H2]. split; [exact H1|]. revert H2. apply Forall_impl. intros w [A [B [C _]]]. split; [exact A|]. destruct H as [[-> H]|[-> H]]; auto. Qed.
  Lemma solid_kw : solid ($"and") /\ solid ($"or") /\ solid ($"not").
  Proof. repeat split; try discriminate; repeat constructor. Qed.
  Lemma lift_level g ws o : forall d k, k + d <= 3 -> free k ws -> parse_level k g (spaced ws) = Ok (o, []) -> parse_level (k + d) g (spaced ws) = Ok (o, []).
  Proof.
    induction d as [|d IH]; intros k Hk Hf H; [rewrite Nat.add_0_r; exact H|]. replace (k + S d) with (S k + d) by lia. apply IH; [lia | apply (free_up k); [lia | exact Hf]|].
    destruct k as [|[|[|k]]]; [| | |lia].
    - cbn [parse_level] in *. unfold parse_not_exp. destruct ws as [|w ws]; [destruct Hf; contradiction|]. destruct Hf as [_ Hf]. inversion Hf as [|? ? [A [_ [_ B]]] _]; subst.
      rewrite no_not; [exact H | apply solid_kw | exact A | apply B; lia].
    - cbn [parse_level] in *. unfold parse_and_exp. pose proof (split_operands_join ($"and") [ws] (proj1 solid_kw) ltac:(discriminate)) as S. cbn [map kw_join] in S. rewrite S; [|constructor; [|constructor]; apply (free_piece _ 1); [right; split; [reflexivity | lia] | exact Hf]].
      cbn [parse_operands]. rewrite H. reflexivity.
    - cbn [parse_level] in *. unfold parse_or_exp. pose proof (split_operands_join ($"or") [ws] (proj1 (proj2 solid_kw)) ltac:(discriminate)) as S. cbn [map kw_join] in S. rewrite S; [|constructor; [|constructor]; apply (free_piece _ 2); [left; split; [reflexivity | lia] | exact Hf]].
      cbn [parse_operands]. rewrite H. reflexivity.
  Qed.

  Lemma operands_ok f ss os : Forall2 (fun s o => f s = Ok (o, [])) ss os -> parse_operands f ss = Ok (os, []).
  Proof. induction 1 as [|s o ss os H _ IH]; [reflexivity|]. cbn [parse_operands]. rewrite H. cbn [bind]. rewrite IH. reflexivity. Qed.
  Lemma combine_ok mk os : 2 <= length os -> combine mk [] os [] = (mk os, []).
  Proof. destruct os as [|a [|b t]]; cbn; intros H; try lia. reflexivity. Qed.
  Lemma placeholder_free i : solid (placeholder i) /\ keyword_free (placeholder i).
  Proof.
    split; [apply placeholder_solid|]. assert (N : forall c, ~ In c (ph_open ++ ph_close) -> is_digit c = false -> ~ In c (placeholder i)) by (intros; apply placeholder_no; assumption).
    repeat split; apply mentions_first; apply N; try reflexivity; intros H; cbn in H; repeat (destruct H as [H|H]; [discriminate|]); contradiction.
  Qed.

  Section Level.
    Context (rec : str -> res pres) (g : idict pres) (bound : nat).
    Hypothesis Hrec : forall e o, reads (egroups e) e o -> length (etext e) < bound -> rec (etext e) = Ok (o, []).

    Definition level_ok (e : exp) : Prop := forall b o, reads b e o -> (b = false -> g = []) -> length (etext e) <= bound ->
      forall ws, Forall2 (reads_as rec g) (etoks e) ws -> free (level e) ws /\ parse_level (level e) g (spaced ws) = Ok (o, []).
    Lemma arg_ok k e b o : 1 <= k <= 3 -> level_ok e -> reads (if par k e then egroups e else b) e o -> (b = false -> g = []) -> length (arg_text etext k e) <= bound ->
      forall ws, Forall2 (reads_as rec g) (arg_toks etoks k e) ws -> free (k - 1) ws /\ parse_level (k - 1) g (spaced ws) = Ok (o, []).
    Proof.
      intros Hk IH Hr Hb Hl ws H. unfold arg_toks, arg_text in *. destruct (par k e) eqn:Ep.
      - inversion H as [|? w ? ws' Hw Hn]; subst. inversion Hn; subst. destruct Hw as [i [p [-> [Hi Hp]]]].
        rewrite (Hrec e o Hr) in Hp by (unfold parens in Hl; cbn in Hl; rewrite app_length in Hl; cbn in Hl; lia). injection Hp as <-.
        destruct (placeholder_free i) as [F1 [F2 [F3 F4]]]. assert (F : free 0 [placeholder i]) by (split; [discriminate|]; constructor; [|constructor]; split; [exact F1 | auto]).
        split; [apply (free_up 0); [lia | exact F]|]. replace (k - 1) with (0 + (k - 1)) by lia. apply lift_level; [lia | exact F|]. cbn [parse_level spaced].
        unfold parse_attr_exp. pose proof (strip_spaced [placeholder i] ltac:(discriminate) (Forall_cons _ F1 (Forall_nil _))) as S. cbn [spaced] in S. rewrite S, parse_placeholder_ok, Hi. reflexivity.
      - destruct (IH b o Hr Hb Hl ws H) as [F P]. unfold par in Ep. apply Nat.leb_gt in Ep. split; [apply (free_up (level e)); [lia | exact F]|].
        replace (k - 1) with (level e + (k - 1 - level e)) by lia. apply lift_level; [lia | exact F | exact P].
    Qed.
    Lemma list_ok k l b os : 2 <= k <= 3 -> Forall level_ok l -> Forall2 (fun e o => reads (if par k e then egroups e else b) e o) l os -> (b = false -> g = []) ->
      (forall e, In e l -> length (arg_text etext k e) <= bound) -> forall wss, Forall2 (Forall2 (reads_as rec g)) (map (arg_toks etoks k) l) wss ->
      Forall (free (k - 1)) wss /\ Forall2 (fun s o => parse_level (k - 1) g s = Ok (o, [])) (map spaced wss) os.
    Proof.
      intros Hk IH Hr Hb. induction Hr as [|e o l os He Hr IHr]; intros Hl wss H; cbn [map] in H; inversion H as [|? ws ? wss' H1 H2]; subst; [repeat constructor|].
      inversion IH; subst. destruct (arg_ok k e b o ltac:(lia) H4 He Hb (Hl e (or_introl eq_refl)) ws H1) as [F P].
      destruct (IHr H5 ltac:(intros; apply Hl; right; assumption) wss' H2) as [F' P']. split; constructor; assumption.
    Qed.
    Lemma Forall_sep_words kw k j wss : (forall w, In w [kw] -> solid w /\ (j < 3 -> ~ mentions ($"or") w) /\ (j < 2 -> ~ mentions ($"and") w) /\ (j < 1 -> ~ mentions ($"not") w)) -> k <= j ->
      wss <> [] -> Forall (free k) wss -> free j (sep_list kw wss).
    Proof.
      intros Hkw Hkj Hn H. split; [apply sep_list_ne; [exact Hn | revert H; apply Forall_impl; intros ws [A _]; exact A]|].
      apply Forall_sep_list; [apply Hkw; left; reflexivity|]. revert H. apply Forall_impl. intros ws Hf. apply (free_up k j) in Hf; [apply Hf | exact Hkj].
    Qed.
    Lemma kw_no_or w : w = $"and" \/ w = $"not" -> ~ mentions ($"or") w.
    Proof. intros H M. apply mentions_word in M; destruct H as [-> | ->]; try discriminate M; repeat constructor. Qed.
    Lemma kw_not_and : ~ mentions ($"and") ($"not").
    Proof. intros M. apply mentions_word in M; [discriminate M|]. repeat constructor. Qed.
    Lemma level_all e : level_ok e.
    Proof.
      induction e as [ws|n o q c|n e IH|l IH|l IH|e IH] using exp_rect'; intros b x Hr Hb Hl ws' H; inversion Hr; subst.
      - cbn [etoks level] in *. assert (E : ws' = ws). { revert H. clear. revert ws'. induction ws as [|w ws IH]; intros ws' H; inversion H; subst; [reflexivity|]. cbn in H2. subst. f_equal. apply IH. assumption. } subst ws'.
        split; [|cbn [parse_level]; match goal with H : leaf _ _ _ |- _ => apply H end; assumption]. split; [assumption|]. match goal with H : Forall good_word ws |- _ => revert H; apply Forall_impl end. intros w [A [_ [B [C D]]]]. auto.
      - cbn [etoks level] in *. apply (Forall2_sep_list (reads_as rec g) (W ($"and")) ($"and") ltac:(intros w E; exact E)) in H as [wss [-> H]].
        match goal with Hos : Forall2 _ l os |- _ => destruct (list_ok 2 l b os ltac:(lia) IH Hos Hb) with (wss := wss) as [F P] end; [|exact H|].
        { intros e He. eapply Nat.le_trans; [|exact Hl]. cbn [etext]. apply sep_by_length. apply in_map. exact He. }
        assert (Hne : wss <> []) by (intros ->; inversion P; subst; match goal with H : Forall2 _ l [] |- _ => inversion H; subst end; cbn in *; lia).
        split; [apply (Forall_sep_words _ 1 2); [|lia|exact Hne|exact F]; intros w [<-|[]]; split; [apply solid_kw|]; repeat split; intros; try lia; apply kw_no_or; left; reflexivity|].
        cbn [parse_level]. unfold parse_and_exp. rewrite spaced_sep by (revert F; apply Forall_impl; intros ws [A _]; exact A).
        rewrite split_operands_join; [|apply solid_kw|exact Hne|revert F; apply Forall_impl; intros ws; apply free_piece; right; split; [reflexivity | lia]].
        rewrite (operands_ok _ _ os); [|exact P]. cbn [bind]. rewrite combine_ok; [reflexivity|]. match goal with Hos : Forall2 _ l os |- _ => pose proof (Forall2_len _ _ _ Hos) end. lia.
      - cbn [etoks level] in *. apply (Forall2_sep_list (reads_as rec g) (W ($"or")) ($"or") ltac:(intros w E; exact E)) in H as [wss [-> H]].
        match goal with Hos : Forall2 _ l os |- _ => destruct (list_ok 3 l b os ltac:(lia) IH Hos Hb) with (wss := wss) as [F P] end; [|exact H|].
        { intros e He. eapply Nat.le_trans; [|exact Hl]. cbn [etext]. apply sep_by_length. apply in_map. exact He. }
        assert (Hne : wss <> []) by (intros ->; inversion P; subst; match goal with H : Forall2 _ l [] |- _ => inversion H; subst end; cbn in *; lia).
        split; [apply (Forall_sep_words _ 2 3); [|lia|exact Hne|exact F]; intros w [<-|[]]; split; [apply solid_kw|]; repeat split; intros; lia|].
        cbn [parse_level]. unfold parse_or_exp. rewrite spaced_sep by (revert F; apply Forall_impl; intros ws [A _]; exact A).
        rewrite split_operands_join; [|apply solid_kw|exact Hne|revert F; apply Forall_impl; intros ws; apply free_piece; left; split; [reflexivity | lia]].
        rewrite (operands_ok _ _ os); [|exact P]. cbn [bind]. rewrite combine_ok; [reflexivity|]. match goal with Hos : Forall2 _ l os |- _ => pose proof (Forall2_len _ _ _ Hos) end; lia.
      - cbn [etoks level] in *. inversion H as [|? w ? ws Hw Hws]; subst. cbn [reads_as] in Hw. subst w.
        match goal with Ho : reads _ e o |- _ => destruct (arg_ok 1 e b o ltac:(lia) IH Ho Hb) with (ws := ws) as [F P] end; [cbn [etext] in Hl; rewrite app_length in Hl; lia|exact Hws|]. cbn [Nat.sub] in F, P.
        split.
        + split; [discriminate|]. constructor; [|apply (free_up 0 1) in F; [apply F | lia]]. split; [apply solid_kw|]. repeat split; intros; try lia; [apply kw_no_or; right; reflexivity | apply kw_not_and].
        + cbn [parse_level] in *. rewrite spaced_cons by (apply F). unfold parse_not_exp. destruct F as [F1 F2].
          destruct (spaced_head ws F1) as [c [t [E Hc]]]; [revert F2; apply Forall_impl; intros w A; apply A|]. rewrite E in P |- *. rewrite match_start by (apply solid_kw || exact Hc). rewrite P. reflexivity.
    Qed.
  End Level.

  Theorem operator_reads : forall fuel e o, reads (egroups e) e o -> length (etext e) < fuel -> parse_operator fuel strings cx (etext e) = Ok (o, []).
  Proof.
    induction fuel as [|f IH]; intros e o Hr Hl; [lia|]. cbn [parse_operator]. destruct (reads_tokens e _ _ Hr) as [Hn Et].
    assert (Hsub : forall e' o', reads (egroups e') e' o' -> length (etext e') < length (etext e) -> parse_operator f strings cx (etext e') = Ok (o', [])) by (intros; apply IH; [assumption | lia]).
    assert (Htok : Forall (tok_ok (parse_operator f strings cx)) (etoks e) /\ (egroups e = false -> forall t, In t (etoks e) -> exists v, t = W v)).
    { assert (T : forall e b o, reads b e o -> forall big : str, length (etext e) <= length big -> (forall e' o', reads (egroups e') e' o' -> length (etext e') < length big -> parse_operator f strings cx (etext e') = Ok (o', [])) ->
        Forall (tok_ok (parse_operator f strings cx)) (etoks e) /\ (egroups e = false -> forall t, In t (etoks e) -> exists v, t = W v)).
      { clear. intros e.
        assert (A : forall k e b o (big : str), (forall b o, reads b e o -> length (etext e) <= length big -> Forall (tok_ok (parse_operator f strings cx)) (etoks e) /\ (egroups e = false -> forall t, In t (etoks e) -> exists v, t = W v)) ->
           (forall e' o', reads (egroups e') e' o' -> length (etext e') < length big -> parse_operator f strings cx (etext e') = Ok (o', [])) ->
           reads (if par k e then egroups e else b) e o -> length (arg_text etext k e) <= length big ->
           Forall (tok_ok (parse_operator f strings cx)) (arg_toks etoks k e) /\ (par k e || egroups e = false -> forall t, In t (arg_toks etoks k e) -> exists v, t = W v)).
        { intros k x b o big IHe Hrec Hx Hlen. unfold arg_toks, arg_text in *. destruct (par k x); [|destruct (IHe _ _ Hx Hlen); auto]. split; [|discriminate].
          constructor; [|constructor]. split; [apply (reads_bal _ _ _ Hx)|]. exists (o, []). apply Hrec; [exact Hx|]. unfold parens in Hlen. cbn in Hlen. rewrite app_length in Hlen. lia. }
        assert (AL : forall k kw l b os (big : str), Forall quiet kw -> Forall (fun e => forall b o, reads b e o -> length (etext e) <= length big -> Forall (tok_ok (parse_operator f strings cx)) (etoks e) /\ (egroups e = false -> forall t, In t (etoks e) -> exists v, t = W v)) l ->
           (forall e' o', reads (egroups e') e' o' -> length (etext e') < length big -> parse_operator f strings cx (etext e') = Ok (o', [])) ->
           Forall2 (fun e o => reads (if par k e then egroups e else b) e o) l os -> (forall x, In x l -> length (arg_text etext k x) <= length big) ->
           Forall (tok_ok (parse_operator f strings cx)) (sep_list (W kw) (map (arg_toks etoks k) l)) /\ (existsb (fun x => par k x || egroups x) l = false -> forall t, In t (sep_list (W kw) (map (arg_toks etoks k) l)) -> exists v, t = W v)).
        { intros k kw l b os big Hkw IHl Hrec Hos Hlen.
          assert (B : forall x, In x l -> Forall (tok_ok (parse_operator f strings cx)) (arg_toks etoks k x) /\ (par k x || egroups x = false -> forall t, In t (arg_toks etoks k x) -> exists v, t = W v)).
          { intros x Hx. destruct (In_nth_error _ _ Hx) as [i Hi]. destruct (Forall2_nth_l _ _ _ Hos _ _ Hi) as [o [_ Ho]]. rewrite Forall_forall in IHl. specialize (IHl x Hx). specialize (Hlen x Hx). apply (A k x b o big); assumption. }
          split.
          - apply Forall_sep_list; [exact Hkw|]. apply Forall_map, Forall_forall. intros x Hx. apply (B x Hx).
          - intros E. apply Forall_forall. apply Forall_sep_list; [eauto|]. apply Forall_map, Forall_forall. intros x Hx. apply Forall_forall. apply (B x Hx).
            destruct (par k x || egroups x) eqn:Ex; [|reflexivity]. rewrite <- E. symmetry. apply existsb_exists. eauto. }
        destruct quiet_kw as [Q1 [Q2 Q3]].
        induction e as [ws|n o q c|n e IHe|l IHl|l IHl|e IHe] using exp_rect'; intros b x Hx big Hlen Hrec; inversion Hx; subst; cbn [etoks egroups].
        - split; [|intros _ t Ht; apply in_map_iff in Ht as [w [<- _]]; eauto]. apply Forall_map. match goal with H : Forall good_word ws |- _ => revert H; apply Forall_impl; intros w Hw; apply Hw end.
        - eapply (AL 2 ($"and") l b os big); try eassumption.
          + revert IHl. apply Forall_impl. intros y Hy b' o' Hb' Hl'. eapply Hy; eassumption.
          + intros y Hy. eapply Nat.le_trans; [|exact Hlen]. cbn [etext]. apply sep_by_length. apply in_map. exact Hy.
        - eapply (AL 3 ($"or") l b os big); try eassumption.
          + revert IHl. apply Forall_impl. intros y Hy b' o' Hb' Hl'. eapply Hy; eassumption.
          + intros y Hy. eapply Nat.le_trans; [|exact Hlen]. cbn [etext]. apply sep_by_length. apply in_map. exact Hy.
        - destruct (A 1 e b o big) as [T1 T2]; try assumption.
          + intros b' o' Hb' Hl'. eapply IHe; eassumption.
          + cbn [etext] in Hlen. rewrite app_length in Hlen. lia.
          + split; [constructor; assumption|]. intros E t [<-|Ht]; [eauto | apply (T2 E t Ht)]. }
      apply (T e _ _ Hr (etext e)); [lia | exact Hsub]. }
    destruct Htok as [Htok Hnog].
    destruct (scan_toks (parse_operator f strings cx) (etext e) (etoks e) [] [] [] [] Hn Et Htok ltac:(intros [])) as [ws [g [Eg [R [_ K]]]]].
    cbn [app length] in Eg. rewrite <- Et in Eg. unfold enumerate. rewrite Eg. cbn [bind g_errs g_open g_text g_ops app].
    destruct (level_all (parse_operator f strings cx) g (length (etext e)) Hsub e _ _ Hr ltac:(intros E; apply K; apply Hnog; exact E) ltac:(lia) ws R) as [F P].
    assert (Fs : ws <> [] /\ Forall solid ws) by (destruct F as [F1 F2]; split; [exact F1|]; revert F2; apply Forall_impl; intros w A; apply A). destruct Fs as [F1 F2].
    rewrite strip_spaced by assumption. destruct (spaced_head ws F1 F2) as [c [t [Es _]]]. rewrite Es. rewrite <- Es.
    assert (L : level e <= 3) by (destruct e; cbn; lia). pose proof (lift_level g ws o (3 - level e) (level e) ltac:(lia) F P) as P3.
    replace (level e + (3 - level e)) with 3 in P3 by lia. exact P3.
  Qed.
End Read.
