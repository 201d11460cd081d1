(** Lemmas about the resources of list responses (C67, C68). *)
From Coq Require Import Lia.
From Verif Require Import PyBase BaseFacts PyNum Issues IssuesSpec IssuesFacts AttrRep AttrRepSpec Value Container ContainerSpec ContainerFacts ContainerRW AttrRepFacts ValueFacts
  Types Attr Schema Assets Presence Match FilterParse Path Sort Patch ListResp Search Bulk Requests
  AttrSpec AttrFacts AttrItems SchemaSpec SchemaFacts SchemaBuild PropSchema MatchSpec MatchFacts PresenceSpec PresenceFacts PropPresence PatchSpec PatchFacts RequestSpec ListSpec RequestFacts MsgFacts BodyFacts PropRequest ListFacts ListItemSpec.

(** ** The schema of a resource *)

Lemma covered_spec s uris : forallb (fun v => match v with VStr x => smem (lower x) (map lower (sc_schemas s)) | _ => false end) (map VStr uris) = true <-> knows s uris.
Proof.
  unfold knows, listed. induction uris as [|u t IH]; cbn [map forallb]; [split; [constructor | reflexivity]|]. rewrite Bool.andb_true_iff, IH, smem_In. split.
  - intros [A B]. constructor; assumption.
  - intros A. inversion A; auto.
Qed.
Lemma texts_of vals s : forallb (fun v => match v with VStr x => smem (lower x) (map lower (sc_schemas s)) | _ => false end) vals = true -> exists uris, vals = map VStr uris.
Proof.
  induction vals as [|v t IH]; [exists []; reflexivity|]. cbn [forallb]. intros H. apply andb_prop in H as [H1 H2]. destruct v as [| | | | | |u| | | | | | | | | |]; try discriminate. destruct (IH H2) as [us ->]. exists (u :: us). reflexivity.
Qed.
Lemma first_some uris schemas : forall i k s, first_covering (map VStr uris) i schemas = Some (k, s) -> exists l1 l2, schemas = l1 ++ s :: l2 /\ knows s uris /\ Forall (fun s' => ~ knows s' uris) l1.
Proof.
  induction schemas as [|s0 t IH]; intros i k s H; cbn [first_covering] in H; [discriminate|].
  match type of H with (if ?b then _ else _) = _ => destruct b eqn:E end.
  - injection H as _ <-. exists [], t. split; [reflexivity|]. split; [apply covered_spec; exact E | constructor].
  - destruct (IH _ _ _ H) as [l1 [l2 [-> [A B]]]]. exists (s0 :: l1), l2. split; [reflexivity|]. split; [exact A|]. constructor; [|exact B]. intros G. apply covered_spec in G. rewrite E in G. discriminate.
Qed.
Lemma first_at uris l1 s l2 : knows s uris -> Forall (fun s' => ~ knows s' uris) l1 -> forall i, first_covering (map VStr uris) i (l1 ++ s :: l2) = Some (i + length l1, s).
Proof.
  intros K F. induction F as [|s0 t N F IH]; intros i; cbn [first_covering app length].
  - rewrite (proj2 (covered_spec s uris) K), Nat.add_0_r. reflexivity.
  - match goal with |- (if ?b then _ else _) = _ => destruct b eqn:E end; [apply covered_spec in E; contradiction|]. rewrite IH, Nat.add_succ_comm. reflexivity.
Qed.
Lemma first_texts vals schemas : forall i k s, first_covering vals i schemas = Some (k, s) -> exists uris, vals = map VStr uris.
Proof.
  induction schemas as [|s0 t IH]; intros i k s H; cbn [first_covering] in H; [discriminate|].
  match type of H with (if ?b then _ else _) = _ => destruct b eqn:E end; [exact (texts_of _ _ E) | exact (IH _ _ _ H)].
Qed.

Lemma get_schemas x v : ~ has_key x list_uri -> is_cont x = true -> get_item x (list_rep ($"schemas")) = Ok v -> v = VMissing \/ holds x ($"schemas") v.
Proof.
  intros N C H. destruct x as [| | | | | | | | | |data l2o| | | | | |]; try discriminate. apply not_has_key in N. rewrite get_item_eq in H. cbn [list_rep r_schema r_attr r_sub] in H. rewrite N in H.
  destruct (sget (lower ($"schemas")) l2o) as [k|] eqn:E; [|injection H as <-; auto]. destruct (sget k data) as [w|] eqn:Ek; [|discriminate]. right. exists data, l2o, k. cbn [get_sub] in H. injection H as ->. auto.
Qed.
Lemma holds_get x v : ~ has_key x list_uri -> holds x ($"schemas") v -> get_item x (list_rep ($"schemas")) = Ok v.
Proof.
  intros N [data [l2o [k [-> [E1 E2]]]]]. apply not_has_key in N. rewrite get_item_eq. cbn [list_rep r_schema r_attr r_sub]. rewrite N, E1, E2. reflexivity.
Qed.
Lemma hashable_texts uris : forallb hashable (map VStr uris) = true.
Proof. induction uris; [reflexivity | assumption]. Qed.

Lemma infer_claims schemas x uris : ~ has_key x list_uri -> claims x uris -> infer_schema schemas x = Ok (first_covering (map VStr uris) 0 schemas).
Proof.
  intros N [Nn H]. pose proof H as [d [l [k [Ex _]]]]. pose proof (holds_get _ _ N H) as G. unfold infer_schema. subst x. rewrite G. cbn [bind]. destruct uris as [|u t]; [contradiction Nn; reflexivity|].
  pose proof (hashable_texts (u :: t)) as Hh. cbn [map] in Hh |- *. rewrite Hh. reflexivity.
Qed.
Lemma infer_some schemas x k s : ~ has_key x list_uri -> infer_schema schemas x = Ok (Some (k, s)) -> exists uris, claims x uris /\ first_covering (map VStr uris) 0 schemas = Some (k, s).
Proof.
  intros N H. unfold infer_schema in H. destruct x as [| | | | | | | | | |data l2o| | | | | |]; try discriminate. apply bind_ok in H as [v [Hv H]].
  destruct v as [| | | | | | | |[|v t]| | | | | | | |]; try discriminate. match type of H with (if ?b then _ else _) = _ => destruct b end; [|discriminate]. injection H as H.
  destruct (first_texts _ _ _ _ _ H) as [uris E]. rewrite E in H. exists uris. split; [|exact H]. split; [intros ->; discriminate E|].
  destruct (get_schemas _ _ N eq_refl Hv) as [G|G]; [discriminate G|]. rewrite E in G. exact G.
Qed.
Lemma claims_same x u1 u2 : claims x u1 -> claims x u2 -> u1 = u2.
Proof.
  intros [_ [d1 [l1 [k1 [E1 [A1 B1]]]]]] [_ [d2 [l2 [k2 [E2 [A2 B2]]]]]]. rewrite E1 in E2. injection E2 as <- <-. rewrite A1 in A2. injection A2 as <-. rewrite B1 in B2. injection B2 as B2.
  clear - B2. revert u2 B2. induction u1 as [|u t IH]; intros [|u2 t2] H; try discriminate; [reflexivity|]. cbn [map] in H. injection H as -> H. f_equal. apply IH, H.
Qed.

Lemma infer_belongs schemas x k s : (forall s', schemas <> [s']) -> ~ has_key x list_uri -> infer_schema schemas x = Ok (Some (k, s)) -> belongs schemas x s.
Proof.
  intros M N H. destruct (infer_some _ _ _ _ N H) as [uris [C F]]. destruct (first_some _ _ _ _ _ F) as [l1 [l2 [E [A B]]]]. exact (belongs_first _ _ _ uris l1 l2 M C E A B).
Qed.
Lemma belongs_infer schemas x s : (forall s', schemas <> [s']) -> ~ has_key x list_uri -> belongs schemas x s -> exists k, infer_schema schemas x = Ok (Some (k, s)).
Proof.
  intros M N [E|uris l1 l2 _ C E A B]; [contradiction (M _ E)|]. rewrite (infer_claims _ _ _ N C), E, (first_at _ _ _ _ A B). eexists. reflexivity.
Qed.

(** What is known about one resource and the schema found for it. *)
Definition found (schemas : list schema) (x : value) (r : schema_ref) : Prop :=
  match r with Some (_, s) => belongs schemas x s /\ forall s', belongs schemas x s' -> s' = s | None => homeless schemas x end.
Lemma infer_found schemas x r : (forall s', schemas <> [s']) -> ~ has_key x list_uri -> infer_schema schemas x = Ok r -> found schemas x r.
Proof.
  intros M N H. destruct r as [[k s]|]; cbn [found].
  - split; [exact (infer_belongs _ _ _ _ M N H)|]. intros s' G. destruct (belongs_infer _ _ _ M N G) as [k' E]. rewrite H in E. injection E as _ ->. reflexivity.
  - intros s G. destruct (belongs_infer _ _ _ M N G) as [k' E]. rewrite H in E. discriminate.
Qed.
Lemma belongs_one s x s' : belongs [s] x s' -> s' = s.
Proof. intros [E|uris l1 l2 M _ _ _ _]; [injection E as ->; reflexivity | contradiction (M s eq_refl)]. Qed.
Lemma one_or_not (schemas : list schema) : (exists s, schemas = [s]) \/ forall s', schemas <> [s'].
Proof. destruct schemas as [|s [|s2 t]]; [right; discriminate | left; exists s; reflexivity | right; discriminate]. Qed.

Lemma mapM_nth {A B} (f : A -> res B) l : forall ys, mapM f l = Ok ys -> forall i x, nth_error l i = Some x -> exists y, nth_error ys i = Some y /\ f x = Ok y.
Proof.
  induction l as [|a t IH]; intros ys H i x Hx; [destruct i; discriminate|]. cbn [mapM] in H. apply bind_ok in H as [y [Hy H]]. apply bind_ok in H as [zs [Hz H]]. injection H as <-.
  destruct i; cbn [nth_error] in *; [injection Hx as ->; eauto | eauto].
Qed.
Lemma schemas_for_found schemas l ss i x : Forall (ordinary schemas) l -> schemas_for schemas l = Ok ss -> nth_error l i = Some x -> exists r, nth_error ss i = Some r /\ found schemas x r.
Proof.
  intros O H Hx. destruct (one_or_not schemas) as [[s ->]|M].
  - cbn [schemas_for] in H. injection H as <-. exists (Some (0, s)). split; [rewrite nth_error_map, Hx; reflexivity|]. split; [apply belongs_only; reflexivity | apply belongs_one].
  - assert (H' : mapM (infer_schema schemas) l = Ok ss) by (destruct schemas as [|s0 [|s1 t]]; try exact H; contradiction (M s0 eq_refl)).
    destruct (mapM_nth _ _ _ H' _ _ Hx) as [r [R1 R2]]. exists r. split; [exact R1|]. apply infer_found; [exact M| |exact R2].
    rewrite Forall_forall in O. destruct (O x (nth_error_In _ _ Hx)) as [[s E]|[G _]]; [contradiction (M s E) | exact G].
Qed.

Section Env.
  Context {env : PyEnv}.

  (** ** The resources after dumping *)

  Lemma word_not_uri n : attr_ok n -> lower n <> lower list_uri.
  Proof.
    intros Hn E. apply attr_name_ok_spec in Hn. assert (G : forall c, In c (lower n) -> c <> ":"%char).
    { intros c Hc ->. unfold lower in Hc. apply in_map_iff in Hc as [a [Ha Hin]].
      assert (Ea : a = ":"%char) by (clear - Ha; destruct a as [[] [] [] [] [] [] [] []]; vm_compute in Ha; congruence). subst a.
      apply attr_name_ok_spec in Hn as [[_ W]| ->].
      - rewrite Forall_forall in W. specialize (W _ Hin). vm_compute in W. discriminate.
      - vm_compute in Hin. intuition discriminate. }
    apply (G ":"%char); [|reflexivity]. rewrite E. vm_compute. tauto.
  Qed.
  Lemma parsed_no_list s m doc y iss : wf_schema s -> unlisted s -> is_object doc -> base_parse m s doc = Ok (y, iss) -> ~ has_key y list_uri.
  Proof.
    intros Hw Hu Hc H. destruct (parse_shape s m doc y iss Hw Hc H) as [outs [iss2 [Hg [-> _]]]].
    destruct (tops_fit s Hw) as [Hnd Hf].
    assert (Hfo : Forall (fun e => fits (map fst (sc_exts s)) (arep (fst e))) outs).
    { apply Forall_forall. intros [a o] Hin. rewrite Forall_forall in Hf. apply Hf. exact (proj1 (gather_top_In _ _ _ _ _ _ Hg Hin)). }
    destruct (put_tops_read _ _ Hnd Hfo (tops_apart s m _ outs Hw Hg) empty_cont (shelf_empty _)) as [Hsh _].
    destruct (put_tops_keys _ _ Hnd Hfo [] [] (shelf_empty _)) as [data [l2o [Ey [K1 _]]]]. change (VCont [] []) with empty_cont in Ey.
    rewrite Ey in *. destruct Hsh as [d' [m' [E' [Hidx _]]]]. injection E' as <- <-.
    intros [k Hk]. destruct (K1 _ _ Hk) as [G|[[a o] [G1 G2]]]; [discriminate|]. pose proof (Hidx _ _ Hk) as Hlk.
    cbn [fst] in G2. pose proof (proj1 (gather_top_In _ _ _ _ _ _ Hg G1)) as Hat. destruct Hw as [_ W2 _ _].
    rewrite Forall_forall in W2. destruct (W2 a Hat) as [_ [_ [Ok Sa]]]. unfold topkey in G2. destruct (r_ext (arep a)) eqn:Ee.
    - apply Hu. unfold listed, sc_schemas. cbn [map]. right. rewrite <- Hlk, G2. apply in_map. exact Sa.
    - rewrite G2 in Hlk. exact (word_not_uri _ Ok Hlk).
  Qed.

  Lemma dump_claims s x x' j uris : made s -> unlisted s -> regular s x -> claims x uris -> schema_dump s x = Ok (x', j) -> ~ has_key x' list_uri /\ claims x' uris.
  Proof.
    intros Hm Hu Hr [Nn Hc] H. apply dump_kind in H as [js [H _]]. pose proof Hc as [d [l [k [Ex _]]]].
    assert (Ob : is_object x) by (rewrite Ex; exact I). assert (Ec : mk_cont x = x) by (rewrite Ex; reflexivity).
    split; [exact (parsed_no_list _ _ _ _ _ (made_wf s Hm) Hu Ob H)|]. split; [exact Nn|].
    pose proof (C25_known_only_partial s MDump x x' js Hm Ob ltac:(rewrite Ec; exact Hr) H) as [K _]. rewrite Ec in K.
    destruct (made_schemas s Hm) as [_ Hin]. destruct (K _ (VList (map VStr uris)) Hin Hc ltac:(discriminate)) as [v [js' [Hp [Hv _]]]]. rewrite schemas_process in Hp. injection Hp as <- _.
    specialize (Hv (VList (map VStr uris))). apply Hv. reflexivity.
  Qed.

  (** What dumping says about one resource, and what it makes of it. *)
  Inductive treated (x : value) : schema_ref -> value -> issues -> Prop :=
  | treated_no : treated x None VInvalid (add_issue no_issues e_unknown_schema false [])
  | treated_by k s x' j : schema_dump s x = Ok (x', j) -> treated x (Some (k, s)) x' j.
  Lemma treated_wf x r x' j : (forall k s, r = Some (k, s) -> sound s) -> treated x r x' j -> wf j.
  Proof. intros Hs H. destruct H as [|k s x' j H]; [apply wf_add, wf_no_issues|]. exact (report_wf _ (dump_report _ _ _ _ (proj2 (Hs k s eq_refl)) H)). Qed.

  Lemma dump_resources_items l : forall i ss acc iss l' iss', (forall k s, In (Some (k, s)) ss -> sound s) -> length ss = length l -> wf iss -> dump_resources i l ss acc iss = Ok (l', iss') ->
    exists xs js, l' = acc ++ xs /\ length xs = length l /\ length js = length l
      /\ (forall n x r, nth_error l n = Some x -> nth_error ss n = Some r -> exists x' j, nth_error xs n = Some x' /\ nth_error js n = Some j /\ treated x r x' j)
      /\ (forall n p, errs_at iss' (LStr ($"Resources") :: LIdx n :: p) = errs_at iss (LStr ($"Resources") :: LIdx n :: p) ++ if n <? i then [] else match nth_error js (n - i) with Some j => errs_at j p | None => [] end).
  Proof.
    induction l as [|x t IH]; intros i ss acc iss l' iss' Hs Hl W H; cbn [dump_resources] in H.
    - injection H as <- <-. exists [], []. rewrite app_nil_r. repeat (split; [reflexivity|]). split; [intros [|n]; discriminate|]. intros n p. destruct (n <? i), (n - i); cbn [nth_error]; rewrite app_nil_r; reflexivity.
    - destruct ss as [|s ss]; [discriminate|]. cbn [length] in Hl. injection Hl as Hl. assert (Hs' : forall k s, In (Some (k, s)) ss -> sound s) by (intros k s' G; apply (Hs k); right; exact G).
      assert (Step : exists x' j iss1, treated x s x' j /\ wf iss1 /\ dump_resources (S i) t ss (acc ++ [x']) iss1 = Ok (l', iss')
        /\ forall n p, errs_at iss1 (LStr ($"Resources") :: LIdx n :: p) = errs_at iss (LStr ($"Resources") :: LIdx n :: p) ++ if n =? i then errs_at j p else []).
      { destruct s as [[k s]|].
        - apply bind_ok in H as [[x' j] [Hx H]]. exists x', j, (merge iss j (resource_loc i)). pose proof (report_wf _ (dump_report _ _ _ _ (proj2 (Hs k s (or_introl eq_refl))) Hx)) as Wj.
          split; [constructor; exact Hx|]. split; [apply wf_merge; assumption|]. split; [exact H|]. intros n p. rewrite errs_merge_wf by assumption. f_equal.
          destruct (Nat.eqb_spec n i) as [->|N].
          + change (LStr ($"Resources") :: LIdx i :: p) with (resource_loc i ++ p). rewrite loc_strip_app. reflexivity.
          + destruct (loc_strip (resource_loc i) _) as [q|] eqn:E; [|reflexivity]. apply loc_strip_spec in E. unfold resource_loc in E. cbn [app] in E. injection E as E _. contradiction.
        - exists VInvalid, (add_issue no_issues e_unknown_schema false []), (add_issue iss e_unknown_schema false (resource_loc i)). split; [constructor|]. split; [apply wf_add; exact W|]. split; [exact H|].
          intros n p. rewrite !errs_at_add. f_equal. change (errs_at no_issues p) with (@nil error). cbn [app]. destruct (Nat.eqb_spec n i) as [->|N].
          + destruct (loc_dec (resource_loc i) _) as [E|E], (loc_dec [] p) as [E'|E']; try reflexivity; exfalso.
            * apply E'. unfold resource_loc in E. injection E as E. exact E.
            * apply E. subst p. reflexivity.
          + destruct (loc_dec _ _) as [E|_]; [|reflexivity]. exfalso. unfold resource_loc in E. injection E as E _. congruence. }
      destruct Step as (x' & j & iss1 & T & W1 & H1 & E1). clear H. destruct (IH _ _ _ _ _ _ Hs' Hl W1 H1) as (xs & js & -> & L1 & L2 & G1 & G2).
      exists (x' :: xs), (j :: js). split; [rewrite <- app_assoc; reflexivity|]. split; [cbn [length]; congruence|]. split; [cbn [length]; congruence|]. split.
      + intros [|n] y r Hy Hr; cbn [nth_error] in *; [injection Hy as <-; injection Hr as <-; exists x', j; auto | eauto].
      + intros n p. rewrite G2, E1, <- app_assoc. f_equal. destruct (Nat.eqb_spec n i) as [->|N].
        * rewrite Nat.ltb_irrefl, Nat.sub_diag. destruct (Nat.ltb_spec i (S i)); [|lia]. apply app_nil_r.
        * cbn [app]. destruct (Nat.ltb_spec n (S i)), (Nat.ltb_spec n i); try lia; [reflexivity|]. replace (n - i) with (S (n - S i)) by lia. reflexivity.
  Qed.

  (** ** Dumping the list *)
  Lemma list_items schemas doc y js t si ipp l : Forall sound schemas -> message list_schema doc -> holds (mk_cont doc) ($"totalResults") (VInt t) ->
    given_int doc ($"startIndex") si -> given_int doc ($"itemsPerPage") ipp -> holds (mk_cont doc) ($"Resources") (VList l) -> list_dump schemas doc = Ok (y, js) ->
    exists ss xs jl, schemas_for schemas l = Ok ss /\ get_item y (list_rep ($"Resources")) = Ok (VList xs) /\ length xs = length l /\ length jl = length l
      /\ (forall n x r, nth_error l n = Some x -> nth_error ss n = Some r -> exists x' j, nth_error xs n = Some x' /\ nth_error jl n = Some j /\ treated x r x' j)
      /\ (forall n p, errs_at js (LStr ($"Resources") :: LIdx n :: p) = match nth_error jl n with Some j => errs_at j p | None => [] end)
      /\ (forall p, (forall n q, p <> LIdx n :: q) -> p <> [] -> errs_at js (LStr ($"Resources") :: p) = []).
  Proof.
    intros Hs Hd Ht Hsi Hi Hr H. unfold list_dump in H. apply bind_ok in H as [[d i1] [H1 H]].
    destruct (list_int doc d i1 3 ipp Hd H1 (or_intror (or_intror eq_refl)) Hi) as [P1 P2].
    destruct (list_resources doc d i1 (Some l) Hd H1 Hr) as [R1 R2].
    pose proof (message_clear list_schema MDump doc d i1 list_made eq_refl Hd H1) as C.
    pose proof (base_wf _ _ _ _ _ (proj2 (made_sound _ list_made)) H1) as Rep.
    assert (Cp : can_proceed i1 [] = true).
    { apply clear_proceeds; [exact Rep|]. intros q [<-|[]] a [x Ha]. apply eq_sym, app_eq_nil in Ha as [-> _]. exact C. }
    rewrite Cp in H. cbn [negb] in H. rewrite R1 in H. cbn [bind] in H.
    change (arep (list_attr 3)) with (list_rep ($"itemsPerPage")) in *. cbn [list_rep r_attr] in P2.
    assert (Cp2 : can_proceed i1 [[LStr ($"itemsPerPage")]] = true).
    { apply clear_proceeds; [exact Rep|]. intros q [<-|[]] a [x Ha]. destruct a as [|k a]; [exact C|]. injection Ha as <- Ha. apply eq_sym, app_eq_nil in Ha as [-> _]. apply P2. }
    rewrite Cp2, P1 in H. cbn [bind] in H. apply bind_ok in H as [ss [Hss H]]. apply bind_ok in H as [[l' i3] [H3 H]]. apply bind_ok in H as [d' [Hd' H]]. injection H as <- <-.
    set (k := items_per_page_issues (length l) (opt_int ipp)) in *.
    assert (K : wf k /\ forall p, p <> [] -> errs_at k (LStr ($"Resources") :: p) = []).
    { unfold k, items_per_page_issues, opt_int. destruct ipp as [p|]; [|split; [apply wf_no_issues | reflexivity]].
      destruct (Z.eqb p _); [split; [apply wf_no_issues | reflexivity]|]. split; [do 2 apply wf_add; apply wf_no_issues|].
      intros q Hq. rewrite !errs_at_add. destruct (loc_dec [LStr ($"Resources")] _) as [E|_]; [injection E as <-; contradiction Hq; reflexivity|]. destruct (loc_dec [LStr ($"itemsPerPage")] _) as [E|_]; [discriminate E | reflexivity]. }
    destruct K as [Kw K].
    pose proof (wf_merge _ _ [] (report_wf _ Rep) Kw) as W1.
    assert (Z : forall p, p <> [] -> errs_at (merge i1 k []) (LStr ($"Resources") :: p) = []).
    { intros p Np. rewrite errs_merge_wf by (first [exact (report_wf _ Rep) | exact Kw]). cbn [loc_strip]. rewrite R2, (K p Np). reflexivity. }
    destruct (dump_resources_items _ _ _ _ _ _ _ (schemas_for_sound _ _ _ Hs Hss) (schemas_for_length _ _ _ Hss) W1 H3) as (xs & jl & E0 & L1 & L2 & G1 & G2). cbn [app] in E0. subst l'.
    destruct (dump_resources_spec _ _ _ _ _ _ _ (schemas_for_sound _ _ _ Hs Hss) (schemas_for_length _ _ _ Hss) W1 H3) as [_ [_ E]].
    destruct (parsed_no_main list_schema MDump doc d i1 (made_wf _ list_made) (proj1 Hd) H1) as [[dd [ll [-> [Hidx _]]]] Hmain].
    destruct (field_write dd ll list_uri ($"Resources") (VList xs) d' Hidx Hmain) as [F1 _]; [vm_compute; discriminate | exact Hd'|].
    exists ss, xs, jl. split; [exact Hss|]. split; [exact F1|]. split; [exact L1|]. split; [exact L2|]. split; [exact G1|]. split.
    - intros n p. rewrite G2, Nat.sub_0_r, Z by discriminate. reflexivity.
    - intros p Hp Np. rewrite E; [exact (Z p Np)|]. intros n q G. injection G as ->. exact (Hp n q eq_refl).
  Qed.

  (** ** Checking the resources *)
  Lemma filter_loop_only o st l : forall i ss iss j, wf iss -> filter_loop o st i l ss iss = Ok j -> forall k, Forall (eq e_filter_mismatch) (errs_at iss [LIdx k]) -> Forall (eq e_filter_mismatch) (errs_at j [LIdx k]).
  Proof.
    induction l as [|x t IH]; intros i ss iss j W H k F; cbn [filter_loop] in H; [injection H as <-; exact F|]. destruct ss as [|[[k' s]|] ss]; [injection H as <-; exact F| |discriminate].
    apply bind_ok in H as [m [_ H]]. apply bind_ok in H as [b [_ H]]. apply (IH _ _ _ _ (wf_if _ _ _ _ _ W) H). unfold add_if. destruct (negb b); [|exact F].
    rewrite errs_at_add. apply Forall_app. split; [exact F|]. destruct (loc_dec _ _); repeat constructor.
  Qed.
  Lemma resources_presence_items c l : forall i ss iss j, wf iss -> length ss = length l -> resources_presence c i l ss iss = Ok j ->
    exists pl, length pl = length l
      /\ (forall n x r, nth_error l n = Some x -> nth_error ss n = Some r -> exists k s q, r = Some (k, s) /\ nth_error pl n = Some q /\ presence c x (at_all (sc_attrs s)) Response = Ok q)
      /\ forall n p, errs_at j (LIdx n :: p) = errs_at iss (LIdx n :: p) ++ if n <? i then [] else match nth_error pl (n - i) with Some q => errs_at q p | None => [] end.
  Proof.
    induction l as [|x t IH]; intros i ss iss j W Hl H; cbn [resources_presence] in H.
    - injection H as <-. exists []. split; [reflexivity|]. split; [intros [|n]; discriminate|]. intros n p. destruct (n <? i), (n - i); cbn [nth_error]; rewrite app_nil_r; reflexivity.
    - destruct ss as [|[[k s]|] ss]; [discriminate| |discriminate]. injection Hl as Hl. apply bind_ok in H as [q [Hq H]]. pose proof (report_wf _ (presence_report _ _ _ _ _ Hq)) as Wq.
      destruct (IH _ _ _ _ (wf_merge _ _ _ W Wq) Hl H) as (pl & L & G1 & G2). exists (q :: pl). split; [cbn [length]; congruence|]. split.
      + intros [|n] y r Hy Hr; cbn [nth_error] in *; [injection Hy as <-; injection Hr as <-; exists k, s, q; auto | eauto].
      + intros n p. rewrite G2, errs_merge_wf by assumption. rewrite <- app_assoc. f_equal. destruct (Nat.eqb_spec n i) as [->|N].
        * change (LIdx i :: p) with ([LIdx i] ++ p). rewrite loc_strip_app, Nat.ltb_irrefl, Nat.sub_diag. destruct (Nat.ltb_spec i (S i)); [|lia]. apply app_nil_r.
        * destruct (loc_strip [LIdx i] (LIdx n :: p)) as [u|] eqn:E; [apply loc_strip_spec in E; cbn [app] in E; injection E as E _; contradiction|]. cbn [app].
          destruct (Nat.ltb_spec n (S i)), (Nat.ltb_spec n i); try lia; [reflexivity|]. replace (n - i) with (S (n - S i)) by lia. reflexivity.
  Qed.

  Lemma check_items schemas y h l f so c iss rs iss' ss : wf iss -> (forall p, errs_at iss (resources_loc ++ p) = []) -> schemas_for schemas l = Ok ss ->
    check_resources schemas y h l f so c iss = Ok (rs, iss') ->
    exists pl, length pl = length l
      /\ (forall n x r, nth_error l n = Some x -> nth_error ss n = Some r -> exists k s q, r = Some (k, s) /\ nth_error pl n = Some q /\ presence (checker_or_default c) x (at_all (sc_attrs s)) Response = Ok q)
      /\ (forall n p, p <> [] -> errs_at iss' (resources_loc ++ LIdx n :: p) = match nth_error pl n with Some q => errs_at q p | None => [] end)
      /\ (forall n, Forall (eq e_filter_mismatch) (errs_at iss' (resources_loc ++ [LIdx n])))
      /\ (rs_body rs = VNone /\ has_issues iss' [] = true \/ rs_body rs = to_dict y /\ has_issues iss' [] = false).
  Proof.
    intros W Z Hss H. unfold check_resources in H. destruct (has_issues _ [resources_loc]) eqn:E0; [exfalso; exact (Bool.diff_true_false (eq_trans (eq_sym E0) (no_issues_below _ _ W Z)))|]. rewrite Hss in H. cbn [bind] in H. apply bind_ok in H as [i1 [H1 H]].
    assert (S1 : wf i1 /\ (forall n p, p <> [] -> errs_at i1 (resources_loc ++ LIdx n :: p) = []) /\ forall n, Forall (eq e_filter_mismatch) (errs_at i1 (resources_loc ++ [LIdx n]))).
    { destruct f as [o|]; [|injection H1 as <-; split; [exact W|]; split; [intros n p _; apply Z | intros n; rewrite Z; constructor]]. apply bind_ok in H1 as [fi [Hf H1]]. injection H1 as <-.
      assert (F : wf fi /\ (forall n p, p <> [] -> errs_at fi (LIdx n :: p) = []) /\ forall n, Forall (eq e_filter_mismatch) (errs_at fi [LIdx n])).
      { unfold resources_filtered in Hf. apply skip_inv in Hf as [Hf| ->]; [|split; [apply wf_no_issues|]; split; [reflexivity | constructor]].
        split; [exact (filter_loop_wf _ _ _ _ _ _ _ wf_no_issues Hf)|]. split.
        - intros n p Np. rewrite (filter_loop_root _ _ _ _ _ _ _ wf_no_issues Hf); [reflexivity|]. intros k G. injection G as _ G. exact (Np G).
        - intros n. apply (filter_loop_only _ _ _ _ _ _ _ wf_no_issues Hf). constructor. }
      destruct F as [Wf [F1 F2]]. split; [apply wf_merge; assumption|]. split.
      - intros n p Np. rewrite errs_merge_wf by assumption. rewrite Z, loc_strip_app. apply F1, Np.
      - intros n. rewrite errs_merge_wf by assumption. rewrite Z, loc_strip_app. apply F2. }
    destruct S1 as [W1 [Z1 F1]]. apply bind_ok in H as [i2 [H2 H]].
    assert (S2 : wf i2 /\ forall n p, errs_at i2 (resources_loc ++ LIdx n :: p) = errs_at i1 (resources_loc ++ LIdx n :: p)).
    { destruct so as [so|]; [|injection H2 as <-; auto]. apply bind_ok in H2 as [i [Hi H2]]. injection H2 as <-.
      assert (Wi : wf i /\ forall k p, errs_at i (LIdx k :: p) = []).
      { unfold resources_sorted in Hi. apply skip_inv in Hi as [Hi| ->]; [|split; [apply wf_no_issues | reflexivity]].
        apply bind_ok in Hi as [x [_ Hi]]. apply bind_ok in Hi as [d [_ Hi]]. injection Hi as <-. destruct d; [|split; [apply wf_no_issues | reflexivity]]. split; [apply wf_add, wf_no_issues | reflexivity]. }
      destruct Wi as [Wi Ri]. split; [apply wf_merge; assumption|]. intros n p. rewrite errs_merge_wf by assumption. rewrite loc_strip_app, Ri. apply app_nil_r. }
    destruct S2 as [W2 E2]. apply bind_ok in H as [ps [Hp H]]. cbn zeta in H. pose proof (resources_presence_wf _ _ _ _ _ _ wf_no_issues Hp) as Wp.
    destruct (resources_presence_items _ _ _ _ _ _ wf_no_issues (schemas_for_length _ _ _ Hss) Hp) as (pl & L & G1 & G2).
    assert (G : iss' = merge i2 ps resources_loc /\ (rs_body rs = VNone /\ has_issues iss' [] = true \/ rs_body rs = to_dict y /\ has_issues iss' [] = false)).
    { destruct (has_issues (merge i2 ps resources_loc) []) eqn:Eh; injection H as <- <-; split; auto. }
    destruct G as [-> G]. exists pl. split; [exact L|]. split; [exact G1|]. split; [|split; [|exact G]].
    - intros n p Np. rewrite errs_merge_wf by assumption. rewrite E2, (Z1 n p Np), loc_strip_app, G2, Nat.sub_0_r. reflexivity.
    - intros n. rewrite errs_merge_wf by assumption. rewrite E2, loc_strip_app, (resources_presence_item _ _ _ _ _ _ wf_no_issues Hp n). change (errs_at no_issues [LIdx n]) with (@nil error). rewrite app_nil_r. apply F1.
  Qed.

  (** ** The schemas are found again after dumping *)
  Lemma mapM_all {A B} (f : A -> res B) xs : forall ys, length ys = length xs -> (forall n x, nth_error xs n = Some x -> exists r, nth_error ys n = Some r /\ f x = Ok r) -> mapM f xs = Ok ys.
  Proof.
    induction xs as [|x t IH]; intros [|y ys] L H; try discriminate; [reflexivity|]. cbn [mapM]. destruct (H 0 x eq_refl) as [r [E1 E2]]. cbn [nth_error] in E1. injection E1 as <-. rewrite E2. cbn [bind].
    rewrite (IH ys); [reflexivity | injection L as L; exact L|]. intros n z Hz. exact (H (S n) z Hz).
  Qed.
  Lemma nth_same {A B} (l : list A) (l' : list B) n x : length l' = length l -> nth_error l n = Some x -> exists y, nth_error l' n = Some y.
  Proof.
    intros L H. destruct (nth_error l' n) as [y|] eqn:E; [eauto|]. exfalso. apply nth_error_None in E. assert (G : nth_error l n <> None) by congruence. apply nth_error_Some in G. lia.
  Qed.
  Lemma infer_again schemas l ss xs : Forall made schemas -> Forall unlisted schemas -> Forall (ordinary schemas) l -> schemas_for schemas l = Ok ss -> length xs = length l ->
    (forall n x r, nth_error l n = Some x -> nth_error ss n = Some r -> exists k s x' j, r = Some (k, s) /\ nth_error xs n = Some x' /\ schema_dump s x = Ok (x', j)) -> schemas_for schemas xs = Ok ss.
  Proof.
    intros Hm Hu O H L T. destruct (one_or_not schemas) as [[s ->]|M].
    - cbn [schemas_for] in *. injection H as <-. f_equal. clear - L. revert xs L. induction l as [|x t IH]; intros [|x' xs] L; try discriminate; [reflexivity|]. cbn [map]. f_equal. apply IH. injection L as L. exact L.
    - assert (U : forall k, schemas_for schemas k = mapM (infer_schema schemas) k) by (intros k; destruct schemas as [|s0 [|s1 t]]; try reflexivity; contradiction (M s0 eq_refl)).
      pose proof (schemas_for_length _ _ _ H) as Ls. rewrite U in H |- *. apply mapM_all; [exact (eq_trans Ls (eq_sym L))|]. intros n x' Hx'.
      destruct (nth_same xs l n x' (eq_sym L) Hx') as [x Hx]. destruct (mapM_nth _ _ _ H _ _ Hx) as [r [Hr Hi]]. exists r. split; [exact Hr|].
      destruct (T n x r Hx Hr) as (k & s & x2 & j & -> & E2 & Hd). rewrite Hx' in E2. injection E2 as <-.
      rewrite Forall_forall in O. destruct (O x (nth_error_In _ _ Hx)) as [[s' E]|[Nx Rx]]; [contradiction (M s' E)|].
      destruct (infer_some _ _ _ _ Nx Hi) as [uris [C F]]. destruct (first_some _ _ _ _ _ F) as [l1 [l2 [E [A B]]]].
      assert (Hin : In s schemas) by (rewrite E; apply in_or_app; right; left; reflexivity). rewrite Forall_forall in Hm, Hu.
      destruct (dump_claims s x x' j uris (Hm s Hin) (Hu s Hin) (Rx s (belongs_first _ _ _ uris l1 l2 M C E A B)) C Hd) as [N' C']. rewrite (infer_claims _ _ _ N' C'), F. reflexivity.
  Qed.

  (** ** The whole response *)
  Lemma right_numbers_iff count t ipp l : right_numbers count t ipp l <-> miscounted ipp (Some l) = false /\ number_errors count t (Z.of_nat (length l)) = [].
  Proof.
    unfold right_numbers, rule_page_size, rule_total, rule_all, rule_count, miscounted, number_errors. set (n := Z.of_nat (length l)). split.
    - intros [R0 [R1 [R2 R3]]]. split.
      + destruct ipp as [p|]; [|reflexivity]. rewrite (R0 p eq_refl), Z.eqb_refl. reflexivity.
      + destruct (Z.ltb_spec t n); [lia|]. cbn [app]. destruct count as [z|].
        * specialize (R3 z eq_refl). destruct (Z.ltb_spec z n); [lia | reflexivity].
        * specialize (R2 eq_refl). destruct (Z.ltb_spec n t); [lia | reflexivity].
    - intros [M N]. apply app_eq_nil in N as [N1 N2]. split; [|split; [|split]].
      + intros p ->. destruct (Z.eqb_spec p n); [assumption | discriminate].
      + destruct (Z.ltb_spec t n); [discriminate | assumption].
      + intros ->. destruct (Z.ltb_spec n t); [discriminate | assumption].
      + intros z ->. destruct (Z.ltb_spec z n); [discriminate | assumption].
  Qed.
  Definition noted (jl : list issues) (n : nat) (p : loc) : list error := match nth_error jl n with Some j => errs_at j p | None => [] end.

  Lemma listing_stage schemas doc count t si ipp l f c resp iss : listing schemas doc count t si ipp l f c resp iss ->
    exists y js ss xs jl, list_dump schemas doc = Ok (y, js) /\ get_item y (list_rep ($"Resources")) = Ok (VList xs) /\ schemas_for schemas l = Ok ss /\ length xs = length l /\ length jl = length l
      /\ (forall n x r, nth_error l n = Some x -> nth_error ss n = Some r -> exists x' j, nth_error xs n = Some x' /\ nth_error jl n = Some j /\ treated x r x' j)
      /\ ((~ right_numbers count t ipp l \/ exists n p, noted jl n p <> []) /\ (exists p, errs_at iss p <> [])
            /\ (forall n p, errs_at iss (at_resource n p) = noted jl n p)
          \/ right_numbers count t ipp l /\ (forall n p, noted jl n p = []) /\ exists pl, length pl = length l
            /\ (forall n x r, nth_error xs n = Some x -> nth_error ss n = Some r -> exists k s q, r = Some (k, s) /\ nth_error pl n = Some q /\ presence (checker_or_default c) x (at_all (sc_attrs s)) Response = Ok q)
            /\ (forall n p, p <> [] -> errs_at iss (at_resource n p) = noted pl n p)
            /\ (forall n, Forall (eq e_filter_mismatch) (errs_at iss (at_resource n [])))
            /\ (rs_body resp = VNone /\ has_issues iss [] = true \/ rs_body resp = to_dict y /\ has_issues iss [] = false)).
  Proof.
    intros [[Hm Hu] Hd Ht Hsi Hi Hr Ho [st [h [req [so H]]]]].
    assert (Hs : Forall sound schemas) by (clear - Hm; induction Hm; constructor; [apply made_sound|]; assumption).
    destruct (list_stage _ _ _ _ _ _ _ _ _ _ _ _ _ _ (Some l) Hs Hd Ht Hsi Hi Hr H) as (y & js & l' & Hy & Wj & _ & Hl' & _ & _ & _ & J4 & D).
    destruct (list_items _ _ _ _ _ _ _ _ Hs Hd Ht Hsi Hi Hr Hy) as (ss & xs & jl & Hss & Hxs & L1 & L2 & T & J & J').
    rewrite Hxs in Hl'. destruct l' as [l'|]; [|discriminate Hl']. injection Hl' as <-.
    exists y, js, ss, xs, jl. split; [exact Hy|]. split; [exact Hxs|]. split; [exact Hss|]. split; [exact L1|]. split; [exact L2|]. split; [exact T|].
    destruct D as [[M E]|[M [i3 [W3 [E3 D]]]]].
    - left. split; [|split].
      + left. intros G. apply right_numbers_iff in G as [G _]. congruence.
      + exists (at_body [LStr ($"Resources")]). rewrite E by discriminate. rewrite J4, M. discriminate.
      + intros n p. change (at_resource n p) with (at_body (LStr ($"Resources") :: LIdx n :: p)). rewrite E by discriminate. rewrite J. destruct (loc_dec [LStr ($"startIndex")] _) as [G|_]; [discriminate G|]. apply app_nil_r.
    - assert (E4 : forall p, errs_at i3 (resources_loc ++ p) = errs_at js (LStr ($"Resources") :: p) ++ if loc_dec [] p then number_errors count t (Z.of_nat (length l)) else []).
      { intros p. change (resources_loc ++ p) with (at_body (LStr ($"Resources") :: p)). rewrite E3 by discriminate. unfold errors_at.
        destruct (loc_dec [LStr ($"startIndex")] _) as [G|_]; [discriminate G|]. destruct (loc_dec [LStr ($"itemsPerPage")] _) as [G|_]; [discriminate G|]. cbn [app]. rewrite app_nil_r. f_equal.
        destruct (loc_dec [] p) as [<-|N], (loc_dec [LStr ($"Resources")] _) as [G|G]; try reflexivity; exfalso; [exact (G eq_refl)|]. injection G as G. exact (N G). }
      destruct (has_issues i3 [resources_loc]) eqn:Eh.
      + left. assert (Hx : exists p, errs_at i3 (resources_loc ++ p) <> []).
        { apply has_issues_spec in Eh as [q [u [[<-|[]] Hin]]]. exists u. intros G. apply (errs_at_nil_iff _ _ W3) in G. exact (G Hin). }
        unfold check_resources in D. rewrite Eh in D. injection D as <- <-. split; [|split].
        * destruct Hx as [p Hp]. rewrite E4 in Hp. destruct (loc_dec [] p) as [<-|N].
          { left. intros G. apply right_numbers_iff in G as [_ G]. rewrite G, J4, M in Hp. exact (Hp eq_refl). }
          right. rewrite app_nil_r in Hp. destruct p as [|[x|n] p]; [contradiction N; reflexivity| |].
          { exfalso. apply Hp, J'; discriminate. }
          { exists n, p. rewrite J in Hp. exact Hp. }
        * destruct Hx as [p Hp]. eauto.
        * intros n p. change (at_resource n p) with (resources_loc ++ LIdx n :: p). rewrite E4, J. destruct (loc_dec [] _) as [G|_]; [discriminate G|]. apply app_nil_r.
      + right. assert (Z : forall p, errs_at i3 (resources_loc ++ p) = []).
        { intros p. destruct (errs_at i3 (resources_loc ++ p)) eqn:Er; [reflexivity|]. exfalso. assert (G : has_issues i3 [resources_loc] = true); [|congruence]. apply has_issues_spec. exists resources_loc, p. split; [left; reflexivity|].
          destruct (in_dec loc_dec (resources_loc ++ p) (map fst (i_errs i3))) as [G|G]; [exact G|]. apply (errs_at_nil_iff _ _ W3) in G. congruence. }
        assert (Hc : forall n p, noted jl n p = []).
        { intros n p. specialize (Z (LIdx n :: p)). rewrite E4, J in Z. apply app_eq_nil in Z as [Z _]. exact Z. }
        split; [|split; [exact Hc|]].
        * apply right_numbers_iff. split; [exact M|]. specialize (Z []). rewrite E4 in Z. apply app_eq_nil in Z as [_ Z]. exact Z.
        * assert (Ha : schemas_for schemas xs = Ok ss).
          { apply (infer_again schemas l ss xs Hm Hu Ho Hss L1). intros n x r Hx Hr'. destruct (T n x r Hx Hr') as (x' & j & N1 & N2 & Tr). destruct Tr as [|k s x' j Hd'].
            - exfalso. specialize (Hc n []). unfold noted in Hc. rewrite N2 in Hc. discriminate Hc.
            - exists k, s, x', j. auto. }
          destruct (check_items _ _ _ _ _ _ _ _ _ _ _ W3 Z Ha D) as (pl & Lp & G1 & G2 & G3 & G4). exists pl. split; [congruence|]. split; [exact G1|]. split; [exact G2|]. split; [exact G3 | exact G4].
  Qed.

  Lemma own_iff schemas x r x' j e p : found schemas x r -> treated x r x' j -> (In e (errs_at j p) <-> own schemas x e p).
  Proof.
    intros F T. destruct T as [|k s x' j H]; cbn [found] in F.
    - rewrite errs_at_add. change (errs_at no_issues p) with (@nil error). cbn [app]. split.
      + destruct (loc_dec [] p) as [<-|_]; [intros [<-|[]] | intros []]. apply own_unknown; [exact F | reflexivity].
      + intros [_ ->|s x' j q B _ _]; [left; reflexivity | contradiction (F s B)].
    - destruct F as [B U]. split.
      + intros He. exact (own_dump _ _ _ s x' j p B H He).
      + intros [G _|s' x2 j2 q B' H' He]; [contradiction (G s B)|]. rewrite (U s' B') in H'. rewrite H in H'. injection H' as _ <-. exact He.
  Qed.

  (** A response with one resource that is dumped without complaint. *)
  Lemma single_response s x x' j c rs iss : made s -> schema_dump s x = Ok (x', j) -> (forall p, errs_at j p = []) -> get_dump s 200 x VNone c = Ok (rs, iss) ->
    exists q, presence (checker_or_default c) x' (at_all (sc_attrs s)) Response = Ok q /\ wf iss /\ (forall p, errs_at iss p = match loc_strip body_loc p with Some u => errs_at q u | None => [] end)
      /\ dump_body x' iss = Ok (rs_body rs).
  Proof.
    intros Hm Hd Hj H. unfold get_dump, dump_resource in H. change (truthy VNone) with false in H. cbv iota in H. rewrite Hd in H. cbn [bind] in H. pose proof (report_wf _ (dump_report _ _ _ _ (made_tops _ Hm) Hd)) as Wj.
    change (location_in_header (VDict []) false) with no_issues in H. change (status_code_issues 200 200) with no_issues in H. cbn zeta in H.
    set (i0 := merge (merge (merge no_issues j body_loc) no_issues [LStr ($"headers")]) no_issues status_loc) in *.
    assert (T : tight i0) by (unfold i0; repeat apply tight_merge; first [apply tight_none | exact Wj | apply wf_no_issues]).
    assert (Z : forall p, errs_at i0 p = []).
    { intros p. unfold i0. rewrite !errs_merge_wf by (repeat apply wf_merge; first [exact Wj | apply wf_no_issues]). destruct (loc_strip body_loc p), (loc_strip [LStr ($"headers")] p), (loc_strip status_loc p); rewrite ?Hj; reflexivity. }
    assert (C : can_proceed i0 [body_loc] = true) by (apply (tight_proceeds _ _ T); intros q _ a _; apply Z). rewrite C in H.
    apply bind_ok in H as [i1 [H1 H]]. apply bind_ok in H1 as [q [Hq H1]]. injection H1 as <-. apply bind_ok in H as [r [_ H]]. cbn [bind] in H. change (qget [] ($"Location") VNone) with VNone in H. rewrite Bool.andb_false_r in H. cbn [bind] in H.
    apply bind_ok in H as [b [Hb H]]. injection H as <- <-. pose proof (report_wf _ (presence_report _ _ _ _ _ Hq)) as Wq.
    exists q. split; [exact Hq|]. split; [apply wf_merge; [apply T | exact Wq]|]. split; [|exact Hb]. intros p. rewrite errs_merge_wf by (first [apply T | exact Wq]). rewrite Z. reflexivity.
  Qed.

  (** ** The fields of the dumped list are spelled like the attributes *)
  Lemma list_spelled schemas doc y js t si ipp l : Forall sound schemas -> message list_schema doc -> holds (mk_cont doc) ($"totalResults") (VInt t) ->
    given_int doc ($"startIndex") si -> given_int doc ($"itemsPerPage") ipp -> holds (mk_cont doc) ($"Resources") (VList l) -> list_dump schemas doc = Ok (y, js) ->
    exists data l2o, y = VCont data l2o /\ forall n v, In n counted -> get_item y (list_rep n) = Ok v -> v <> VMissing -> sget n data = Some v.
  Proof.
    intros Hs Hd Ht Hsi Hi Hr H. unfold list_dump in H. apply bind_ok in H as [[d i1] [H1 H]].
    destruct (list_int doc d i1 3 ipp Hd H1 (or_intror (or_intror eq_refl)) Hi) as [P1 P2].
    destruct (list_resources doc d i1 (Some l) Hd H1 Hr) as [R1 R2].
    pose proof (message_clear list_schema MDump doc d i1 list_made eq_refl Hd H1) as C.
    pose proof (base_wf _ _ _ _ _ (proj2 (made_sound _ list_made)) H1) as Rep.
    assert (Cp : can_proceed i1 [] = true).
    { apply clear_proceeds; [exact Rep|]. intros q [<-|[]] a [x Ha]. apply eq_sym, app_eq_nil in Ha as [-> _]. exact C. }
    rewrite Cp in H. cbn [negb] in H. rewrite R1 in H. cbn [bind] in H. apply bind_ok in H as [i2 [_ H]]. apply bind_ok in H as [ss [_ H]]. apply bind_ok in H as [[l' i3] [_ H]]. apply bind_ok in H as [d' [Hd' H]]. injection H as <- _.
    pose proof (C25_known_only_partial list_schema MDump doc d i1 list_made (proj1 Hd) (message_regular list_schema doc list_made eq_refl Hd) H1) as [_ [_ [[data [l2o [Ed K]]] _]]].
    destruct (parsed_no_main list_schema MDump doc d i1 (made_wf _ list_made) (proj1 Hd) H1) as [[dd [ll [E [Hidx _]]]] Hmain]. rewrite Ed in E. injection E as <- <-. subst d.
    destruct (field_write data l2o list_uri ($"Resources") (VList l') d' Hidx Hmain) as [F1 F2]; [vm_compute; discriminate | exact Hd'|].
    pose proof Hd' as Hset. cbn [set_item list_rep r_ext r_attr r_sub set_noext] in Hset. injection Hset as Hset. unfold set_plain in Hset. eexists _, _. split; [symmetry; exact Hset|].
    intros n v Hn Hv Nv. unfold list_rep in Hv. destruct (str_dec n ($"Resources")) as [->|N].
    { rewrite F1 in Hv. injection Hv as <-. apply sget_sset_same. }
    rewrite sget_sset_other by (intros G; apply N; first [exact G | symmetry; exact G]). rewrite F2 in Hv by (destruct Hn as [<-|[<-|[<-|[<-|[]]]]]; first [contradiction N; reflexivity | vm_compute; discriminate]).
    rewrite get_item_eq in Hv. cbn [r_schema r_attr r_sub] in Hv. apply not_has_key in Hmain. change (sc_uri list_schema) with list_uri in Hmain. rewrite Hmain in Hv.
    destruct (sget (lower n) l2o) as [k|] eqn:Ek; [|injection Hv as <-; contradiction Nv; reflexivity]. destruct (sget k data) as [w|] eqn:Ew; [|discriminate]. cbn [get_sub] in Hv. injection Hv as ->.
    assert (Ekn : k = n); [|subst k; exact Ew]. apply Hidx in Ek.
    assert (G : exists a, In a (at_top (sc_attrs list_schema)) /\ k = r_attr (arep a)).
    { destruct (K k v Ew) as [[a [A1 [_ [A2 _]]]]|[d2 [l2 [-> [Nd Kd]]]]]; [eauto|]. exfalso. destruct d2 as [|[k2 v2] d2]; [contradiction Nd; reflexivity|].
      destruct (Kd k2 v2) as [a [A1 [A2 _]]]; [unfold sget; cbn [aget]; rewrite (proj2 (str_eqb_eq k2 k2) eq_refl); reflexivity|]. destruct (made_no_ext _ list_made eq_refl a A1) as [A3 _]. congruence. }
    destruct G as [a [A1 A2]]. apply (in_map (fun a => r_attr (arep a))) in A1. rewrite <- A2 in A1.
    assert (Names : map (fun a => r_attr (arep a)) (at_top (sc_attrs list_schema)) = [$"schemas"; $"totalResults"; $"startIndex"; $"itemsPerPage"; $"Resources"]) by (vm_compute; reflexivity).
    rewrite Names in A1. clear - A1 Hn Ek. destruct Hn as [<-|[<-|[<-|[<-|[]]]]]; destruct A1 as [<-|[<-|[<-|[<-|[<-|[]]]]]]; first [reflexivity | exfalso; vm_compute in Ek; discriminate Ek].
  Qed.
  Lemma entry_of data l2o n v : sget n data = Some v -> entry (to_dict (VCont data l2o)) n (unconv v).
  Proof.
    intros H. rewrite to_dict_eq. induction data as [|[k w] t IH]; [discriminate H|]. unfold sget in H. cbn [aget] in H. destruct (str_eqb k n) eqn:E.
    - injection H as ->. apply str_eqb_eq in E. subst k. exists [], (map (fun e => (KStr (fst e), unconv (snd e))) t). split; [reflexivity | intros []].
    - destruct (IH H) as [l1 [l2 [G1 G2]]]. injection G1 as G1. exists ((KStr k, unconv w) :: l1), l2. cbn [map fst snd app]. rewrite G1. split; [reflexivity|]. intros [G|G]; [|exact (G2 G)].
      cbn [fst] in G. injection G as ->. rewrite (proj2 (str_eqb_eq n n) eq_refl) in E. discriminate.
  Qed.
End Env.
