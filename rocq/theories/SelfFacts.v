(** Lemmas about schemas that describe themselves. *)
From Coq Require Import Lia.
From Verif Require Import PyBase BaseFacts PyNum Issues IssuesSpec IssuesFacts AttrRep AttrRepSpec Value ValueFacts Container ContainerSpec ContainerFacts ContainerRW
  Types Attr AttrSpec AttrFacts AttrItems Schema Assets Patch SchemaS SchemaSpec SchemaFacts SchemaBuild PropSchema PatchFacts SelfSpec.

Section Env.
  Context {env : PyEnv}.

  Definition word_of (t : atype) : str := match scim_name t with Ok w => w | Raise _ => [] end.
  Lemma type_word_iff t w : type_word t w -> scim_name t = Ok w /\ word_of t = w.
  Proof. destruct 1; split; reflexivity. Qed.

  Definition canon_part (i : ainfo) : option value := match a_canon i with Some (l :: ls) => Some (VList (map v_of_lit (l :: ls))) | _ => None end.
  Definition ref_part (i : ainfo) : option value := match a_reftypes i with [] => None | rs => Some (VList (map VStr rs)) end.
  Definition one_if (k : str) (o : option value) : list (str * value) := match o with Some v => [(k, v)] | None => [] end.

  (** The entries as they are written, as they are read and as they are left. *)
  Definition in_card (i : ainfo) (sub : option value) : list (str * value) :=
    [($"name", VStr (r_attr (a_rep i))); ($"type", VStr (word_of (a_type i))); ($"multiValued", VBool (a_multi i)); ($"description", VStr (a_descr i));
     ($"required", VBool (a_required i)); ($"caseExact", VBool (a_case_exact i)); ($"mutability", VStr (mut_str (a_mut i))); ($"returned", VStr (ret_str (a_ret i)));
     ($"uniqueness", VStr (uniq_str (a_uniq i)))] ++ one_if ($"canonicalValues") (canon_part i) ++ one_if ($"referenceTypes") (ref_part i) ++ one_if ($"subAttributes") sub.
  Definition out_card (all : bool) (i : ainfo) (sub : option value) : list (str * value) :=
    [($"name", VStr (r_attr (a_rep i))); ($"type", VStr (word_of (a_type i)))] ++ one_if ($"subAttributes") sub
    ++ [($"multiValued", VBool (a_multi i)); ($"description", VStr (a_descr i)); ($"required", VBool (a_required i))]
    ++ one_if ($"canonicalValues") (canon_part i) ++ (if all then [($"caseExact", VBool (a_case_exact i))] else [])
    ++ [($"mutability", VStr (mut_str (a_mut i))); ($"returned", VStr (ret_str (a_ret i))); ($"uniqueness", VStr (uniq_str (a_uniq i)))] ++ one_if ($"referenceTypes") (ref_part i).

  Definition s_all : list attribute := [s_name; s_type; s_subs; s_multi; s_descr; s_required; s_canonical; s_case_exact; s_mutability; s_returned; s_uniqueness; s_reftypes].
  Lemma s_dedup : dedup_attrs s_all = s_all.
  Proof. reflexivity. Qed.

  Lemma items_same i l : a_canon i = None -> (forall x, In x l -> type_proc MDump (a_type i) x = Ok (pass x)) -> forall k acc, foldM (item_step MDump i) (enum_from k l) (acc, no_issues) = Ok (acc ++ l, no_issues).
  Proof.
    intros Hc. induction l as [|x l IH]; intros Ht k acc; cbn [enum_from foldM]; [rewrite app_nil_r; reflexivity|].
    assert (E : item_step MDump i (acc, no_issues) (k, x) = Ok (acc ++ [x], no_issues)).
    { unfold item_step. rewrite Ht by (left; reflexivity). unfold pass. cbn [bind fst snd]. rewrite merge_nil. unfold canon_step, is_canonical. rewrite Hc. destruct x; reflexivity. }
    rewrite E. cbn [bind]. rewrite IH, <- app_assoc; [reflexivity|]. intros y Hy. apply Ht. right. exact Hy.
  Qed.
  Lemma same_list i l : a_multi i = true -> a_canon i = None -> a_dumpers i = [] -> (forall x, In x l -> type_proc MDump (a_type i) x = Ok (pass x)) -> base_process MDump i (VList l) = Ok (VList l, no_issues).
  Proof.
    intros H1 H2 H3 H4. unfold base_process. rewrite H1. cbn [is_list andb negb]. unfold enumerate. rewrite items_same by assumption. cbn [bind app]. change (has_issues no_issues []) with false. cbv iota. cbn [procs_of]. rewrite H3. reflexivity.
  Qed.
  Lemma p_canon i v : canon_part i = Some v -> process s_canonical MDump v = Ok (v, no_issues).
  Proof.
    unfold canon_part. destruct (a_canon i) as [[|l ls]|]; intros E; try discriminate. injection E as <-. apply same_list; reflexivity.
  Qed.
  Lemma p_ref i v : ref_part i = Some v -> process s_reftypes MDump v = Ok (v, no_issues).
  Proof.
    unfold ref_part. destruct (a_reftypes i) as [|r rs]; intros E; [discriminate|]. injection E as <-. apply same_list; try reflexivity. intros x Hx. change (VStr r :: map VStr rs) with (map VStr (r :: rs)) in Hx.
    apply in_map_iff in Hx as [t [<- _]]. reflexivity.
  Qed.
  Lemma p_type t w : type_word t w -> t <> TDecimal -> process s_type MDump (VStr w) = Ok (VStr w, no_issues).
  Proof. destruct 1; congruence || reflexivity. Qed.
  Lemma p_mut m : process s_mutability MDump (VStr (mut_str m)) = Ok (VStr (mut_str m), no_issues).
  Proof. destruct m; reflexivity. Qed.
  Lemma p_ret m : process s_returned MDump (VStr (ret_str m)) = Ok (VStr (ret_str m), no_issues).
  Proof. destruct m; reflexivity. Qed.
  Lemma p_uniq m : process s_uniqueness MDump (VStr (uniq_str m)) = Ok (VStr (uniq_str m), no_issues).
  Proof. destruct m; reflexivity. Qed.

  Lemma card_read i sub p : (exists w, type_word (a_type i) w) -> a_type i <> TDecimal -> (forall v, sub = Some v -> exists l, v = VList l) ->
    walk MDump (tabled (in_card i sub)) p s_all empty_cont no_issues = Ok (tabled (out_card true i sub), no_issues).
  Proof.
    intros [w Hw] Nd Hs. destruct (type_word_iff _ _ Hw) as [_ Ew]. unfold in_card, out_card. rewrite Ew. pose proof (p_canon i) as Pc. pose proof (p_ref i) as Pr. pose proof (p_type _ _ Hw Nd) as Pt.
    assert (Nc : forall v, canon_part i = Some v -> exists l, v = VList l) by (unfold canon_part; destruct (a_canon i) as [[|]|]; intros v E; try discriminate; injection E as <-; eauto).
    assert (Nr : forall v, ref_part i = Some v -> exists l, v = VList l) by (unfold ref_part; destruct (a_reftypes i) as [|]; intros v E; try discriminate; injection E as <-; eauto).
    generalize (a_descr i) (r_attr (a_rep i)) (a_multi i) (a_required i) (a_case_exact i). intros ds nm mu rq ce.
    pose proof (p_mut (a_mut i)) as Pm. pose proof (p_ret (a_ret i)) as Pe. pose proof (p_uniq (a_uniq i)) as Pu. revert Pm Pe Pu. generalize (mut_str (a_mut i)) (ret_str (a_ret i)) (uniq_str (a_uniq i)). intros mw rw uw Pm Pe Pu.
    unfold s_all.
    destruct (canon_part i) as [cv|]; [destruct (Nc cv eq_refl) as [cl ->]; specialize (Pc _ eq_refl)|]; (destruct (ref_part i) as [rv|]; [destruct (Nr rv eq_refl) as [rl ->]; specialize (Pr _ eq_refl)|]);
    (destruct sub as [sv|]; [destruct (Hs sv eq_refl) as [sl ->]|]); cbn [one_if app];
    repeat (rewrite walk_cons;
      match goal with |- context [get_item ?c (arep ?s)] => let E := fresh in eassert (E : get_item c (arep s) = Ok _) by reflexivity; rewrite E; clear E end; cbn [bind];
      try (rewrite ?Pt, ?Pc, ?Pr, ?Pm, ?Pe, ?Pu;
           try match goal with |- context [process ?s MDump ?v] => let E := fresh in assert (E : process s MDump v = Ok (v, no_issues)) by reflexivity; rewrite E; clear E end;
           cbn [bind]; rewrite merge_nil;
           match goal with |- context [set_item ?c (arep ?s) ?v] => let E := fresh in eassert (E : set_item c (arep s) v = Ok _) by reflexivity; rewrite E; clear E end; cbn [bind])); reflexivity.
  Qed.

  (** ** The loop over the described attributes *)

  Definition is_text (i : ainfo) : bool := match a_type i with TString => true | _ => false end.
  Lemma item_simple dump k i iss : (exists w, type_word (a_type i) w) -> dump_attributes_item dump k (tabled (out_card true i None)) iss = Ok (tabled (out_card (is_text i) i None), iss).
  Proof.
    intros [w Hw]. destruct (type_word_iff _ _ Hw) as [_ Ew]. unfold out_card. rewrite Ew.
    generalize (a_descr i) (r_attr (a_rep i)) (a_multi i) (a_required i) (a_case_exact i). intros ds nm mu rq ce. generalize (mut_str (a_mut i)) (ret_str (a_ret i)) (uniq_str (a_uniq i)). intros mw rw uw.
    unfold is_text. destruct (canon_part i) as [cv|]; destruct (ref_part i) as [rv|]; destruct Hw; reflexivity.
  Qed.
  Lemma item_complex dump k i sub ds iss : a_type i = TComplex -> dump (VList sub) = Ok (VList ds, no_issues) ->
    dump_attributes_item dump k (tabled (out_card true i (Some (VList sub)))) iss = Ok (tabled (out_card (is_text i) i (Some (VList ds))), iss).
  Proof.
    intros Ht Hd. unfold out_card, is_text. rewrite Ht. change (word_of TComplex) with ($"complex").
    generalize (a_descr i) (r_attr (a_rep i)) (a_multi i) (a_required i) (a_case_exact i). intros de nm mu rq ce. generalize (mut_str (a_mut i)) (ret_str (a_ret i)) (uniq_str (a_uniq i)). intros mw rw uw.
    destruct (canon_part i) as [cv|]; destruct (ref_part i) as [rv|]; cbn [app one_if].
    all: unfold dump_attributes_item.
    all: match goal with |- context[get_item ?c (arep s_type)] => assert (E : get_item c (arep s_type) = Ok (VStr ($"complex"))) by reflexivity; assert (E' : get_item c (arep s_subs) = Ok (VList sub)) by reflexivity end.
    all: rewrite E, E'; clear E E'; cbn [bind is_none_or_missing]; change (negb (str_is (VStr ($"complex")) ($"complex"))) with false; cbv iota; rewrite Hd; cbn [bind]; rewrite merge_nil; reflexivity.
  Qed.

  Fixpoint raw (a : attribute) : value :=
    match a with MkAttr i sub => tabled (in_card i (match sub with Some (l, _, _) => Some (VList (map raw l)) | None => None end)) end.
  Fixpoint shown (a : attribute) : value :=
    match a with MkAttr i sub => tabled (out_card (is_text i) i (match sub with Some (l, _, _) => Some (VList (map shown l)) | None => None end)) end.
  Definition half (a : attribute) : value :=
    match a with MkAttr i sub => tabled (out_card true i (match sub with Some (l, _, _) => Some (VList (map raw l)) | None => None end)) end.

  Lemma describable_subs dec n i subs cps cds : describable dec n (MkAttr i (Some (subs, cps, cds))) -> a_type i = TComplex /\ exists n', n = S n' /\ Forall (describable dec n') subs.
  Proof.
    cbn [describable]. intros [_ [_ [Ht H]]]. split; [exact Ht|]. destruct n as [|n]; [destruct H|]. exists n. split; [reflexivity|]. induction subs as [|a l IH]; constructor; [apply H | apply IH; apply H].
  Qed.
  Lemma describable_type dec n i sub : describable dec n (MkAttr i sub) -> exists w, type_word (a_type i) w.
  Proof. intros [H _]. exact H. Qed.

  Lemma walk_raw n l : Forall (describable false n) l -> forall k acc, foldM (complex_items MDump s_all) (enum_from k (map raw l)) (acc, no_issues) = Ok (acc ++ map half l, no_issues).
  Proof.
    induction 1 as [|a l Ha _ IH]; intros k acc; cbn [map enum_from foldM]; [rewrite app_nil_r; reflexivity|].
    assert (E : complex_items MDump s_all (acc, no_issues) (k, raw a) = Ok (acc ++ [half a], no_issues)).
    { unfold complex_items. cbn [fst snd]. assert (M : mk_cont (raw a) = raw a) by (destruct a; reflexivity). rewrite M. destruct a as [i sub]. cbn [raw half]. rewrite card_read; [reflexivity | exact (describable_type _ _ _ _ Ha) | exact (proj1 (proj2 Ha) eq_refl)|].
      intros v E. destruct sub as [[[subs cps] cds]|]; [|discriminate]. injection E as <-. eauto. }
    rewrite E. cbn [bind]. rewrite IH, <- app_assoc. reflexivity.
  Qed.

  Lemma no_primary a : get_item_str (shown a) ($"primary") = Ok VMissing.
  Proof.
    destruct a as [i sub]. cbn [shown]. unfold out_card.
    destruct (match sub with Some (l, _, _) => _ | None => None end) as [sv|]; destruct (canon_part i) as [cv|]; destruct (ref_part i) as [rv|]; destruct (is_text i); reflexivity.
  Qed.
  Lemma no_primaries l : forall k, primary_entries k (map shown l) = Ok [].
  Proof.
    induction l as [|a l IH]; intros k; cbn [map primary_entries]; [reflexivity|]. rewrite no_primary, IH. reflexivity.
  Qed.

  (** What the processor that dumps nested attributes does. *)
  Definition deeper (n : nat) : proc := match n with O => fun _ => Raise OutOfFuel | S n' => process (attributes_attr n') MDump end.
  Definition dumps_deep (n : nat) : Prop := forall l n', n = S n' -> Forall (describable false n') l -> deeper n (VList (map raw l)) = Ok (VList (map shown l), no_issues).

  Lemma dump_items n l : dumps_deep n -> Forall (describable false n) l -> forall k acc,
    foldM (fun st e => let! (c, iss) := dump_attributes_item (deeper n) (fst e) (snd e) (snd st) in Ok (fst st ++ [c], iss)) (enum_from k (map half l)) (acc, no_issues) = Ok (acc ++ map shown l, no_issues).
  Proof.
    intros Hd. induction 1 as [|a l Ha _ IH]; intros k acc; cbn [map enum_from foldM]; [rewrite app_nil_r; reflexivity|].
    assert (E : dump_attributes_item (deeper n) k (half a) no_issues = Ok (shown a, no_issues)).
    { destruct a as [i [[[subs cps] cds]|]]; cbn [half shown].
      - destruct (describable_subs _ _ _ _ _ _ Ha) as [Ht [n' [Hn Hs]]]. apply item_complex; [exact Ht|]. exact (Hd _ _ Hn Hs).
      - apply item_simple. exact (describable_type _ _ _ _ Ha). }
    cbn [fst snd]. rewrite E. cbn [bind]. rewrite IH, <- app_assoc. reflexivity.
  Qed.

  Lemma dump_list n i cps l : dumps_deep n -> a_type i = TComplex -> a_multi i = true -> a_canon i = None -> a_dumpers i = [] -> Forall (describable false n) l ->
    process (MkAttr i (Some (s_all, cps, [dump_attributes (deeper n); single_primary]))) MDump (VList (map raw l)) = Ok (VList (map shown l), no_issues).
  Proof.
    intros Hd H1 H2 H3 H4 Hl; rewrite process_complex.
    assert (B : base_process MDump i (VList (map raw l)) = Ok (VList (map raw l), no_issues)) by (apply same_list; try assumption; intros x Hx; apply in_map_iff in Hx as [a [<- _]]; rewrite H1; destruct a; reflexivity).
    rewrite B; cbn [bind]; change (can_proceed no_issues []) with true; cbv iota; cbn [negb orb]; rewrite H2; unfold complex_part; cbn [iter_value bind].
    unfold enumerate; rewrite (walk_raw _ _ Hl); cbn [bind app]; change (has_issues no_issues []) with false; cbv iota.
    assert (D : dump_attributes (deeper n) (VList (map half l)) = Ok (VList (map shown l), no_issues)).
    { unfold dump_attributes. cbn [iter_value bind]. unfold enumerate. rewrite (dump_items _ _ Hd Hl). reflexivity. }
    assert (D' : single_primary (VList (map shown l)) = Ok (VList (map shown l), no_issues)).
    { unfold single_primary. cbn [iter_value bind]. rewrite no_primaries. reflexivity. }
    unfold run_procs. cbn [foldM fst snd]. rewrite D. cbn [bind fst snd]. rewrite D'. reflexivity.
  Qed.
  Lemma attributes_form n : attributes_attr n = MkAttr (with_mut ReadOnly (with_multi (plain ($"attributes") TComplex))) (Some (s_all, [single_primary], [dump_attributes (deeper n); single_primary])).
  Proof. destruct n; reflexivity. Qed.
  Lemma all_deep n : dumps_deep n.
  Proof.
    induction n as [|n IH]; intros l n' E Hl; [discriminate|]. injection E as <-. cbn [deeper].
    rewrite attributes_form. apply dump_list; [exact IH | reflexivity | reflexivity | reflexivity | reflexivity | exact Hl].
  Qed.
End Env.
