(** A single comparison as a whole filter text. *)
From Verif Require Import PyBase BaseFacts PyNum NumSpec Issues AttrRep AttrRepSpec AttrRepFacts Value Container Types Attr Match FilterParse FilterSpec FilterText FilterTotal FilterTree FilterMask FilterNum FilterRound.

Lemma ordinary_facts t : ordinary t -> good_word t /\ noq t /\ no_brackets t /\ ~ In "|"%char t.
Proof.
  intros [Hn [Hk H]]. assert (C : Forall (fun c => calm c = true) t).
  { revert H. apply Forall_impl. intros c [H1 H2]. unfold calm. rewrite H1. cbn [negb andb]. apply negb_true_iff. destruct (existsb (chr_eqb c) _) eqn:E; [|reflexivity]. exfalso. apply H2.
    apply existsb_exists in E as [x [Hx E]]. apply chr_eqb_eq in E. subst x. exact Hx. }
  destruct (calm_facts t Hn C) as [A [B [D [E F]]]]. repeat split; try assumption; try apply A; try apply D; try apply E; try apply Hk.
Qed.

(** The outcome of a text without brackets and keywords: that of its only
    condition. *)
Definition settle (r : res pres) : res pres := match r with Ok (o, []) => Ok (o, []) | Ok (_, es) => Ok (ONone, es) | Raise e => Raise e end.
Lemma settle_twice r : settle (settle r) = settle r.
Proof. destruct r as [[o [|e es]]|e]; reflexivity. Qed.
Lemma words_operator ws : ws <> [] -> Forall good_word ws -> parse_operator (S (length (spaced ws))) [] [] (spaced ws) = settle (parse_attr_exp (spaced ws) [] [] []).
Proof.
  intros Hn Hg. assert (Hs : Forall solid ws) by (revert Hg; apply Forall_impl; intros w Hw; apply Hw). cbn [parse_operator].
  assert (Q : Forall quiet (spaced ws)) by (apply quiet_spaced; revert Hg; apply Forall_impl; intros w Hw; apply Hw).
  unfold enumerate. rewrite scan_quiet; [|exact Q|reflexivity|intros X; exfalso; apply X; reflexivity]. cbn [bind g_errs g_open g_text g_ops app]. rewrite strip_spaced by assumption.
  destruct (spaced_head ws Hn Hs) as [c [t [Es _]]]. rewrite Es. rewrite <- Es.
  destruct solid_kw as [K1 [K2 K3]].
  assert (P : forall kw, kw = $"or" \/ kw = $"and" -> plain_piece kw ws).
  { intros kw Hkw. split; [exact Hn|]. revert Hg. apply Forall_impl. intros w [A [_ [B1 [B2 _]]]]. split; [exact A|]. destruct Hkw; subst; assumption. }
  assert (N : parse_not_exp (spaced ws) [] [] [] = parse_attr_exp (spaced ws) [] [] []).
  { unfold parse_not_exp. destruct ws as [|w ws]; [contradiction|]. inversion Hg as [|? ? [A [_ [_ [_ B]]]] _]; subst. rewrite no_not by assumption. reflexivity. }
  assert (A : parse_and_exp [] [] [] (spaced ws) = settle (parse_attr_exp (spaced ws) [] [] [])).
  { unfold parse_and_exp. pose proof (split_operands_join ($"and") [ws] K1 ltac:(discriminate)) as S. cbn [map kw_join] in S. rewrite S by (constructor; [apply P; right; reflexivity | constructor]).
    cbn [parse_operands]. rewrite N. destruct (parse_attr_exp (spaced ws) [] [] []) as [[o [|e es]]|e]; cbn [bind combine app settle]; [reflexivity | rewrite app_nil_r; reflexivity | reflexivity]. }
  unfold parse_or_exp. pose proof (split_operands_join ($"or") [ws] K2 ltac:(discriminate)) as S. cbn [map kw_join] in S. rewrite S by (constructor; [apply P; left; reflexivity | constructor]).
  cbn [parse_operands]. rewrite A. destruct (parse_attr_exp (spaced ws) [] [] []) as [[o [|e es]]|e]; cbn [bind combine app settle]; [reflexivity | rewrite app_nil_r; reflexivity | reflexivity].
Qed.
Lemma words_filter ws : ws <> [] -> Forall good_word ws -> Forall noq ws -> Forall no_brackets ws -> parse_filter_core (spaced ws) = settle (parse_attr_exp (spaced ws) [] [] []).
Proof.
  intros Hn Hg Hq Hb. assert (Hs : Forall solid ws) by (revert Hg; apply Forall_impl; intros w Hw; apply Hw). unfold parse_filter_core.
  rewrite (mask_whole _ _ _ (masks_plain 0 [] (spaced ws) (noq_spaced ws Hq))).
  pose proof (spaced_ne ws Hn Hs) as Ne. destruct (hides_plain [] (spaced ws) 0 [] (spaced ws) Ne (no_brackets_spaced ws Hb)) as [_ [_ [_ H]]].
  destruct (H [] [] [] [] eq_refl) as [nm [H3 _]]; [rewrite app_nil_r; reflexivity | left; reflexivity | intros []|].
  rewrite !app_nil_r in H3. cbn [app enum_from foldM] in H3. unfold enumerate. rewrite H3. cbn [bind c_errs c_open c_text c_ops]. apply words_operator; assumption.
Qed.

Lemma comparison_text n w t : n ++ space ++ w ++ space ++ t = spaced [n; w; t].
Proof. reflexivity. Qed.
Section Test.
  Context (n w t : str) (segs : list str) (attr sub : str) (b : binop).
  Hypothesis Hn : names_attr n segs attr sub.
  Hypothesis Hk : keyword_free n.
  Hypothesis Hw : lower w = op_word b.
  Hypothesis Ht : ordinary t.
  Lemma test_core : parse_filter_core (n ++ space ++ w ++ space ++ t)
    = match parse_comparison_value t with
      | Ok v => if lit_allowed b v then Ok (condition segs attr sub (fun r => OBin b r v), []) else Ok (ONone, [e_incompatible])
      | Raise ValueErr => Ok (ONone, [e_bad_comparison])
      | Raise e => Raise e
      end.
  Proof.
    destruct (ordinary_facts t Ht) as [T1 [T2 [T3 T4]]]. destruct (test_words _ _ _ _ Hn) as [A1 [A2 [A3 [A4 _]]]]. destruct (bin_facts w b Hw) as [[B1 [B2 [B3 [B4 _]]]] Kw].
    assert (G : Forall good_word [n; w; t]) by (constructor; [split; [exact A1 | split; [exact A2 | exact Hk]] | constructor; [split; [exact B1 | split; [exact B2 | exact Kw]] | constructor; [exact T1 | constructor]]]).
    rewrite comparison_text, words_filter; [|discriminate|exact G|repeat (constructor; [assumption|]); constructor|repeat (constructor; [assumption|]); constructor].
    assert (F : Forall solid [n; w; t]) by (revert G; apply Forall_impl; intros x Hx; apply Hx). unfold parse_attr_exp. rewrite strip_spaced by (discriminate || exact F). rewrite spaced_not_ph, split_ws_spaced by (discriminate || exact F).
    rewrite (names_parse _ _ _ _ Hn), Hw, binop_of_word, encode_plain by exact T4. cbn [app]. destruct (parse_comparison_value t) as [v|e].
    - cbn [finish_binary]. destruct (lit_allowed b v); [|reflexivity]. rewrite (wrap_condition _ _ _ _ _ Hn). reflexivity.
    - destruct e; reflexivity.
  Qed.
End Test.
