(** Proofs about attribute names (AttrRep.v). *)
From Verif Require Import PyBase BaseFacts AttrRep AttrRepSpec.

Lemma implb_chars (P Q : ascii -> bool) :
  forallb (fun c => implb (P c) (Q c)) all_chars = true -> forall c, P c = true -> Q c = true.
Proof.
  intros H c HP. pose proof (check_all_chars _ H c) as E. cbn beta in E. rewrite HP in E. exact E.
Qed.

Lemma is_word_not_colon c : is_word c = true -> negb (chr_eqb c colon) = true.
Proof. revert c; apply implb_chars. vm_compute. reflexivity. Qed.
Lemma is_word_not_dot c : is_word c = true -> negb (chr_eqb c dot) = true.
Proof. revert c; apply implb_chars. vm_compute. reflexivity. Qed.
Lemma is_uri_not_colon c : is_uri_chr c = true -> negb (chr_eqb c colon) = true.
Proof. revert c; apply implb_chars. vm_compute. reflexivity. Qed.

Lemma is_uri_chr_spec c : is_uri_chr c = true <-> is_word c = true \/ c = "."%char \/ c = "-"%char.
Proof. unfold is_uri_chr. rewrite !orb_true_iff, !chr_eqb_eq. unfold dot. tauto. Qed.

(** ** span *)

Lemma span_spec p s a b : span p s = (a, b) ->
  s = a ++ b /\ forallb p a = true /\ match b with [] => True | c :: _ => p c = false end.
Proof.
  revert a b; induction s as [|c s IH]; intros a b; cbn [span].
  - intros H; injection H as <- <-; repeat split.
  - destruct (p c) eqn:E.
    + destruct (span p s) as [a' b'] eqn:E2. intros H; injection H as <- <-.
      destruct (IH a' b' eq_refl) as [-> [H1 H2]]. repeat split; [|exact H2].
      cbn [forallb]; rewrite E; exact H1.
    + intros H; injection H as <- <-. repeat split; exact E.
Qed.

Lemma span_app p a b : forallb p a = true -> match b with [] => True | c :: _ => p c = false end ->
  span p (a ++ b) = (a, b).
Proof.
  induction a as [|c a IH]; cbn [app forallb]; intros Ha Hb.
  - destruct b as [|c b]; cbn [span]; [reflexivity | rewrite Hb; reflexivity].
  - apply andb_true_iff in Ha as [Hc Ha]. cbn [span]; rewrite Hc, IH by assumption. reflexivity.
Qed.

Lemma forallb_rev {A} (p : A -> bool) l : forallb p (rev l) = forallb p l.
Proof.
  induction l as [|x t IH]; cbn [rev forallb]; [reflexivity|].
  rewrite forallb_app, IH; cbn [forallb]. rewrite andb_true_r; apply andb_comm.
Qed.

Lemma Forall_forallb {A} (P : A -> Prop) (p : A -> bool) l :
  (forall x, p x = true <-> P x) -> (forallb p l = true <-> Forall P l).
Proof.
  intros H; rewrite forallb_forall, Forall_forall; split; intros G x Hx; apply H, G, Hx.
Qed.

Lemma forallb_impl {A} (p q : A -> bool) l :
  (forall x, p x = true -> q x = true) -> forallb p l = true -> forallb q l = true.
Proof. intros H; rewrite !forallb_forall; auto. Qed.

(** ** Words and URI prefixes *)

Lemma nonempty_word_spec s : nonempty_word s = true <-> word s.
Proof.
  unfold nonempty_word, word. destruct s as [|c s]; [split; [discriminate | intros [H _]; contradiction]|].
  rewrite (Forall_forallb (fun c => is_word c = true)) by (intros; reflexivity).
  split; [intros H; split; [discriminate | exact H] | intros [_ H]; exact H].
Qed.

Lemma attr_name_ok_spec s : attr_name_ok s = true <-> word s \/ s = $"$ref".
Proof. unfold attr_name_ok; rewrite orb_true_iff, nonempty_word_spec, str_eqb_eq. reflexivity. Qed.

Lemma terminated_cons s segs : terminated (s :: segs) = s ++ colon :: terminated segs.
Proof. unfold terminated; cbn [map concat]. rewrite <- app_assoc. reflexivity. Qed.

Lemma segment_spec s : segment s <-> s <> [] /\ forallb is_uri_chr s = true.
Proof.
  unfold segment. rewrite (Forall_forallb (fun c => is_word c = true \/ c = "."%char \/ c = "-"%char))
    by apply is_uri_chr_spec. reflexivity.
Qed.

Lemma uri_prefix_spec s :
  (uri_prefix_ok false s = true <-> exists segs, Forall segment segs /\ s = terminated segs)
  /\ (uri_prefix_ok true s = true
      <-> exists a segs, forallb is_uri_chr a = true /\ Forall segment segs /\ s = a ++ colon :: terminated segs).
Proof.
  induction s as [|c s [IH1 IH2]]; cbn [uri_prefix_ok].
  - split; split; intros H; try easy.
    + exists []; split; [constructor | reflexivity].
    + destruct H as [a [segs [_ [_ H]]]]; destruct a; discriminate.
  - destruct (chr_eqb c colon) eqn:E.
    + apply chr_eqb_eq in E as ->. cbn [andb]. split; split; intros H; try easy.
      * destruct H as [segs [Hs H]]. destruct segs as [|x segs]; [discriminate|].
        rewrite terminated_cons in H. inversion Hs as [|? ? Hx Ht]; subst.
        apply segment_spec in Hx as [Hne Hx]. destruct x as [|d x]; [contradiction|].
        injection H as <- _. discriminate.
      * apply IH1 in H as [segs [Hs ->]]. exists [], segs; repeat split; assumption.
      * destruct H as [a [segs [Ha [Hs H]]]]. apply IH1. destruct a as [|d a].
        -- injection H as ->. exists segs; split; [exact Hs | reflexivity].
        -- injection H as <- _. discriminate.
    + rewrite !andb_true_iff, IH2. split; split.
      * intros [Hc [a [segs [Ha [Hs ->]]]]]. exists ((c :: a) :: segs). split.
        -- constructor; [|exact Hs]. apply segment_spec; split; [discriminate|].
           cbn [forallb]; rewrite Hc; exact Ha.
        -- rewrite terminated_cons; reflexivity.
      * intros [segs [Hs H]]. destruct segs as [|x segs]; [discriminate|].
        rewrite terminated_cons in H. inversion Hs as [|? ? Hx Ht]; subst.
        apply segment_spec in Hx as [Hne Hx]. destruct x as [|d x]; [contradiction|].
        injection H as <- ->. cbn [forallb] in Hx. apply andb_true_iff in Hx as [H1 H2].
        split; [exact H1|]. exists x, segs; repeat split; assumption.
      * intros [Hc [a [segs [Ha [Hs ->]]]]]. exists (c :: a), segs.
        split; [cbn [forallb]; rewrite Hc; exact Ha|]. split; [exact Hs | reflexivity].
      * intros [a [segs [Ha [Hs H]]]]. destruct a as [|d a].
        -- injection H as -> _. rewrite chr_eqb_refl in E; discriminate.
        -- injection H as <- ->. cbn [forallb] in Ha. apply andb_true_iff in Ha as [H1 H2].
           split; [exact H1|]. exists a, segs; repeat split; assumption.
Qed.

Lemma removelast_snoc {A} (l : list A) x : removelast (l ++ [x]) = l.
Proof. apply removelast_last. Qed.

Lemma terminated_joined segs : segs <> [] -> terminated segs = joined segs ++ [colon].
Proof.
  induction segs as [|s segs IH]; intros H; [contradiction|]. rewrite terminated_cons.
  destruct segs as [|s' segs]; [reflexivity|].
  rewrite IH by discriminate. cbn [joined]. rewrite <- app_assoc. reflexivity.
Qed.

Lemma removelast_terminated segs : removelast (terminated segs) = joined segs.
Proof.
  destruct segs as [|s segs]; [reflexivity|]. rewrite terminated_joined by discriminate. apply removelast_snoc.
Qed.

(** A terminated prefix ends with a colon. *)
Lemma terminated_rev segs : terminated segs = [] \/ exists p, rev (terminated segs) = colon :: p.
Proof.
  destruct segs as [|s segs]; [left; reflexivity|]. right. rewrite terminated_joined by discriminate.
  rewrite rev_app_distr. exists (rev (joined (s :: segs))); reflexivity.
Qed.

Lemma name_no_colon s : attr_name_ok s = true -> forallb (fun c => negb (chr_eqb c colon)) s = true.
Proof.
  unfold attr_name_ok. intros H; apply orb_true_iff in H as [H|H].
  - destruct s as [|c s]; [reflexivity|]. revert H; apply forallb_impl. apply is_word_not_colon.
  - apply str_eqb_eq in H as ->. reflexivity.
Qed.
Lemma name_no_dot s : attr_name_ok s = true -> forallb (fun c => negb (chr_eqb c dot)) s = true.
Proof.
  unfold attr_name_ok. intros H; apply orb_true_iff in H as [H|H].
  - destruct s as [|c s]; [reflexivity|]. revert H; apply forallb_impl. apply is_word_not_dot.
  - apply str_eqb_eq in H as ->. reflexivity.
Qed.
Lemma word_no_colon s : word s -> forallb (fun c => negb (chr_eqb c colon)) s = true.
Proof.
  intros [_ H]. revert H. rewrite Forall_forall, forallb_forall. intros H c Hc. apply is_word_not_colon, H, Hc.
Qed.

Lemma match_attr_rep_complete s segs attr sub :
  names_attr s segs attr sub -> match_attr_rep s = Some (joined segs, attr, sub).
Proof.
  intros [Hs [Ha [Hb ->]]]. rewrite <- attr_name_ok_spec in Ha.
  set (tail := attr ++ match sub with [] => [] | _ => "."%char :: sub end).
  assert (Htail : forallb (fun c => negb (chr_eqb c colon)) tail = true).
  { unfold tail; rewrite forallb_app. rewrite name_no_colon by exact Ha. cbn [andb].
    destruct Hb as [->|Hw]; [reflexivity|]. apply word_no_colon in Hw. destruct sub; [reflexivity|].
    cbn [forallb] in *. rewrite Hw. reflexivity. }
  unfold match_attr_rep.
  rewrite rev_app_distr, span_app.
  2:{ rewrite forallb_rev; exact Htail. }
  2:{ destruct (terminated_rev segs) as [->|[p ->]]; [exact I|]. rewrite chr_eqb_refl. reflexivity. }
  rewrite !rev_involutive.
  rewrite (proj2 (proj1 (uri_prefix_spec _))) by (exists segs; split; [exact Hs | reflexivity]).
  unfold tail. rewrite span_app.
  2:{ apply name_no_dot; exact Ha. }
  2:{ destruct sub; [exact I | reflexivity]. }
  rewrite Ha, removelast_terminated. destruct Hb as [->|Hw]; [reflexivity|].
  destruct sub as [|c sub]; [destruct Hw; contradiction|].
  rewrite (proj2 (nonempty_word_spec _) Hw). reflexivity.
Qed.

Lemma match_attr_rep_sound s schema attr sub :
  match_attr_rep s = Some (schema, attr, sub) -> exists segs, schema = joined segs /\ names_attr s segs attr sub.
Proof.
  unfold match_attr_rep.
  destruct (span (fun c => negb (chr_eqb c colon)) (rev s)) as [rtail rpre] eqn:E.
  apply span_spec in E as [E _].
  destruct (uri_prefix_ok false (rev rpre)) eqn:Ep; [|discriminate].
  apply uri_prefix_spec in Ep as [segs [Hs Hpre]].
  destruct (span (fun c => negb (chr_eqb c dot)) (rev rtail)) as [name rest] eqn:E2.
  apply span_spec in E2 as [E2 [_ Hrest]].
  destruct (attr_name_ok name) eqn:En; [|discriminate].
  assert (Hsplit : s = terminated segs ++ name ++ rest).
  { rewrite <- E2, <- Hpre, <- rev_app_distr, <- E, rev_involutive. reflexivity. }
  destruct rest as [|c sub'].
  - intros H; injection H as <- <- <-. exists segs. rewrite Hpre, removelast_terminated.
    split; [reflexivity|]. split; [exact Hs|]. split; [apply attr_name_ok_spec; exact En|].
    split; [left; reflexivity | exact Hsplit].
  - destruct (nonempty_word sub') eqn:Ew; [|discriminate].
    intros H; injection H as <- <- <-. exists segs. rewrite Hpre, removelast_terminated.
    split; [reflexivity|]. split; [exact Hs|]. split; [apply attr_name_ok_spec; exact En|].
    split; [right; apply nonempty_word_spec; exact Ew|].
    apply negb_false_iff, chr_eqb_eq in Hrest as ->.
    destruct sub'; [discriminate | exact Hsplit].
Qed.

Lemma name_matches a : attr_name_ok a = true -> match_attr_rep a = Some ([], a, []).
Proof.
  intros H. apply (match_attr_rep_complete a [] a []). split; [constructor|].
  split; [apply attr_name_ok_spec; exact H|]. split; [left; reflexivity|]. rewrite app_nil_r; reflexivity.
Qed.

Lemma mk_rep_ok schema attr sub ext :
  attr_name_ok attr = true -> (ext = true -> schema <> []) -> mk_rep schema attr sub ext = Ok (mkRep schema attr sub ext).
Proof.
  intros Ha He. unfold mk_rep. rewrite Ha; cbn [negb]. rewrite name_matches by exact Ha.
  destruct ext; [|reflexivity]. destruct schema; [exfalso; apply He; reflexivity | reflexivity].
Qed.

Lemma mk_rep_iff schema attr sub ext r :
  mk_rep schema attr sub ext = Ok r
  <-> attr_name_ok attr = true /\ (ext = true -> schema <> []) /\ r = mkRep schema attr sub ext.
Proof.
  split.
  - unfold mk_rep. destruct (attr_name_ok attr) eqn:E; cbn [negb]; [|discriminate].
    rewrite name_matches by exact E. destruct ext, schema; intros H; try discriminate;
      injection H as <-; repeat split; discriminate.
  - intros [Ha [He ->]]. apply mk_rep_ok; assumption.
Qed.

Lemma mk_rep_raise schema attr sub ext e : mk_rep schema attr sub ext = Raise e -> e = ValueErr.
Proof.
  unfold mk_rep. destruct (attr_name_ok attr); cbn [negb]; [|congruence].
  destruct (match_attr_rep attr); [|congruence]. destruct ext, schema; congruence.
Qed.

Lemma parse_rep_iff s r :
  parse_rep s = Some r <-> exists segs, names_attr s segs (r_attr r) (r_sub r)
                                        /\ r_schema r = joined segs /\ r_ext r = false.
Proof.
  unfold parse_rep. split.
  - destruct (match_attr_rep s) as [[[schema attr] sub]|] eqn:E; [|discriminate].
    apply match_attr_rep_sound in E as [segs [-> H]].
    rewrite mk_rep_ok; [|apply attr_name_ok_spec; apply H|discriminate].
    intros E; injection E as <-. exists segs; repeat split; apply H.
  - intros [segs [H [Hj He]]]. rewrite (match_attr_rep_complete _ _ _ _ H).
    rewrite mk_rep_ok; [|apply attr_name_ok_spec; apply H|discriminate].
    destruct r as [a b c d]; cbn in *; subst; reflexivity.
Qed.

Lemma joined_nil segs : Forall segment segs -> joined segs = [] -> segs = [].
Proof.
  intros H E. destruct segs as [|s segs]; [reflexivity|]. inversion H as [|? ? [Hne _] _]; subst.
  destruct segs; cbn [joined] in E; [contradiction|]. apply app_eq_nil in E as [E _]; contradiction.
Qed.

Lemma rep_repr_names s segs r :
  names_attr s segs (r_attr r) (r_sub r) -> r_schema r = joined segs -> rep_repr r = s.
Proof.
  intros [Hs [_ [_ ->]]] Hj. unfold rep_repr. rewrite Hj. destruct (joined segs) as [|c t] eqn:E.
  - apply joined_nil in E; [|exact Hs]. subst segs. cbn [terminated map concat app].
    destruct (r_sub r); [rewrite app_nil_r|]; reflexivity.
  - assert (Hne : segs <> []) by (intros ->; discriminate).
    rewrite terminated_joined by exact Hne. rewrite E.
    destruct (r_sub r); rewrite ?app_nil_r, <- ?app_assoc; reflexivity.
Qed.

Lemma parse_rep_repr s r : parse_rep s = Some r -> rep_repr r = s.
Proof.
  intros H; apply parse_rep_iff in H as [segs [H [Hj _]]]. eapply rep_repr_names; eassumption.
Qed.

(** ** Equality *)

Lemma nonempty_spec s : nonempty s = true <-> s <> [].
Proof. destruct s; split; intros H; try easy; contradiction. Qed.

Lemma rep_eqb_iff a b :
  rep_eqb a b = true <->
  (r_schema a = [] \/ r_schema b = [] \/ same_text (r_schema a) (r_schema b))
  /\ same_text (r_attr a) (r_attr b) /\ same_text (r_sub a) (r_sub b).
Proof.
  unfold rep_eqb, same_text.
  destruct (str_eqb_spec (lower (r_schema a)) (lower (r_schema b))) as [E1|E1],
           (str_eqb_spec (lower (r_attr a)) (lower (r_attr b))) as [E2|E2],
           (str_eqb_spec (lower (r_sub a)) (lower (r_sub b))) as [E3|E3];
    cbn [negb]; rewrite ?andb_true_r, ?andb_false_r;
    destruct (r_schema a) as [|x s], (r_schema b) as [|y t]; cbn [nonempty andb]; split; intros H;
    try tauto; try discriminate; intuition congruence.
Qed.
