(** The configuration of a server (C69). *)
From Coq Require Import Lia.
From Verif Require Import PyBase PyNum Issues AttrRep Value Container Types Attr Schema Assets Bulk Requests Config ConfigSpec.
From Verif Require Import BaseFacts ValueFacts AttrSpec MsgFacts ListSpec PropAttr PropRequest PropBulk.

Lemma key_eq a b : dkey_eqb a b = true <-> a = b.
Proof.
  destruct a as [s|n], b as [s'|n']; cbn [dkey_eqb]; try (split; discriminate).
  - rewrite str_eqb_eq. split; congruence.
  - rewrite N.eqb_eq. split; congruence.
Qed.

(** Looking up a key in a dictionary. *)
Lemma found_in (d : list (dkey * value)) k v : aget dkey_eqb k d = Some v -> In (k, v) d.
Proof.
  induction d as [|[k' v'] d IH]; cbn [aget]; [discriminate|]. destruct (dkey_eqb k' k) eqn:E.
  - apply key_eq in E as <-. intros H. injection H as ->. left. reflexivity.
  - intros H. right. auto.
Qed.
Lemma not_found (d : list (dkey * value)) k : aget dkey_eqb k d = None -> forall v, ~ In (k, v) d.
Proof.
  induction d as [|[k' v'] d IH]; cbn [aget]; [intros _ v []|]. destruct (dkey_eqb k' k) eqn:E; [discriminate|].
  intros H v [G|G]; [|exact (IH H v G)]. apply (f_equal fst) in G. cbn [fst] in G. subst. rewrite (proj2 (key_eq k k) eq_refl) in E. discriminate E.
Qed.
Lemma once d k v : distinct d -> In (k, v) d -> aget dkey_eqb k d = Some v.
Proof.
  intros D. induction d as [|[k' v'] d IH]; [intros []|]. inversion D as [|? ? N D']; subst. intros [G|G]; cbn [aget].
  - injection G as -> ->. rewrite (proj2 (key_eq k k) eq_refl). reflexivity.
  - destruct (dkey_eqb k' k) eqn:E; [|exact (IH D' G)]. apply key_eq in E as <-. exfalso. apply N. apply (in_map fst) in G. exact G.
Qed.
Lemma given_set d f v : is_set d f v (given d f v).
Proof.
  unfold given. destruct (aget dkey_eqb (KStr f) d) eqn:E; [apply set_stated, found_in, E | apply set_default, not_found, E].
Qed.

Lemma names_ok fields d : known_names fields d <-> keywords fields (VDict d) = Ok d.
Proof.
  cbn [keywords]. unfold known_names. split.
  - intros H. replace (forallb _ d) with true; [reflexivity|]. symmetry. apply forallb_forall. intros [k v] I. destruct (H k v I) as [f [F ->]]. cbn [fst]. apply smem_In, F.
  - destruct (forallb _ d) eqn:E; [|discriminate]. intros _ k v I. rewrite forallb_forall in E. specialize (E _ I). cbn [fst] in E. destruct k as [s|n]; [|discriminate E]. exists s. split; [apply smem_In, E | reflexivity].
Qed.
Lemma stated v d : states v d -> or_empty v = VDict d.
Proof.
  intros [d'|v' E]; unfold or_empty; [|rewrite E; reflexivity]. destruct d' as [|e d']; reflexivity.
Qed.
Lemma stated_back v d : or_empty v = VDict d -> states v d.
Proof.
  unfold or_empty. destruct (truthy v) eqn:E; intros H; [subst; constructor | injection H as <-; apply states_none, E].
Qed.
Lemma states_one v d d' : states v d -> states v d' -> d = d'.
Proof. intros A B. apply stated in A, B. rewrite A in B. injection B as ->. reflexivity. Qed.

Lemma keywords_inv fields v d : keywords fields (or_empty v) = Ok d -> states v d /\ known_names fields d.
Proof.
  intros H. destruct (or_empty v) as [ | | |b|z|f|s|t|l|d'|d' x|r|fl|p|c|so|o] eqn:E; try discriminate H.
  assert (d = d'). { cbn [keywords] in H. destruct (forallb _ d'); [|discriminate H]. injection H as ->. reflexivity. } subst d'.
  split; [apply stated_back, E | apply names_ok, H].
Qed.
Lemma keywords_raise fields v e : keywords fields v = Raise e -> e = TypeErr.
Proof. destruct v; cbn [keywords]; try congruence. destruct (forallb _ _); congruence. Qed.

Lemma switch_made v x : generic_option (or_empty v) = Ok x -> switched v x /\ exists d, states v d /\ known_names [$"supported"] d.
Proof.
  unfold generic_option. destruct (keywords _ (or_empty v)) as [d|] eqn:E; cbn [bind]; [|discriminate]. intros H. injection H as <-. apply keywords_inv in E as [S K].
  split; [exists d; split; [exact S | apply given_set] | exists d; auto].
Qed.
Lemma switch_ok v : switch v -> exists x, generic_option (or_empty v) = Ok x.
Proof.
  intros [d [S [_ K]]]. unfold generic_option. rewrite (stated _ _ S). apply names_ok in K. rewrite K. cbn [bind]. eauto.
Qed.

Lemma lacks_iff d limit : distinct d ->
  lacks d limit <-> truthy (given d ($"supported") (VBool false)) = true /\ truthy (given d limit VNone) = false.
Proof.
  intros D. unfold lacks, given. split.
  - intros [[s [I T]] L]. rewrite (once _ _ _ D I). split; [exact T|]. destruct (aget dkey_eqb (KStr limit) d) eqn:E; [apply L, found_in, E | reflexivity].
  - destruct (aget dkey_eqb (KStr ($"supported")) d) as [s|] eqn:E; [|intros [G _]; discriminate G]. intros [T L]. split; [exists s; split; [apply found_in, E | exact T]|].
    intros x I. rewrite (once _ _ _ D I) in L. exact L.
Qed.

Lemma scheme_ok v : complete_scheme v -> exists s, make_scheme v = Ok s.
Proof.
  intros [d [-> [D [K A]]]]. unfold make_scheme. apply names_ok in K. unfold scheme_names in K. rewrite K. cbn [bind].
  assert (G : forall f, In f scheme_names -> exists x, demanded d f = Ok x). { intros f I. destruct (A f I) as [x X]. unfold demanded. rewrite (once _ _ _ D X). eauto. }
  destruct (G ($"name")) as [a ->]; [cbn [In scheme_names]; auto|]. destruct (G ($"description")) as [b ->]; [cbn [In scheme_names]; auto|].
  destruct (G ($"spec_uri")) as [c ->]; [cbn [In scheme_names]; auto|]. destruct (G ($"documentation_uri")) as [e ->]; [cbn [In scheme_names]; auto|].
  destruct (G ($"type")) as [f ->]; [cbn [In scheme_names]; auto 6|]. cbn [bind]. eauto.
Qed.
Lemma demanded_in d f x : demanded d f = Ok x -> In (KStr f, x) d.
Proof. unfold demanded. destruct (aget dkey_eqb (KStr f) d) eqn:E; [|discriminate]. intros H. injection H as <-. apply found_in, E. Qed.
Lemma scheme_made v s : make_scheme v = Ok s -> described v s.
Proof.
  unfold make_scheme. destruct (keywords _ v) as [d|] eqn:E; cbn [bind]; [|discriminate].
  destruct (demanded d ($"name")) eqn:A; cbn [bind]; [|discriminate]. destruct (demanded d ($"description")) eqn:B; cbn [bind]; [|discriminate].
  destruct (demanded d ($"spec_uri")) eqn:C; cbn [bind]; [|discriminate]. destruct (demanded d ($"documentation_uri")) eqn:D; cbn [bind]; [|discriminate].
  destruct (demanded d ($"type")) eqn:F; cbn [bind]; [|discriminate]. intros H. injection H as <-.
  apply demanded_in in A, B, C, D, F. exists d. split; [|cbn [as_name as_description as_spec as_documentation as_type]; auto 6].
  destruct v; cbn [keywords] in E; try discriminate E. destruct (forallb _ _); [|discriminate E]. injection E as ->. reflexivity.
Qed.

(** Arguments that name only what there is are refused exactly when a limit is
    missing: those of bulk operations, or that of filtering. *)
Theorem C69_refused_iff : forall w db df ls, proper w db df ls ->
  (created w = Raise ValueErr <-> lacks db ($"max_operations") \/ lacks db ($"max_payload_size") \/ lacks df ($"max_results"))
  /\ ((exists c, created w = Ok c) <-> ~ (lacks db ($"max_operations") \/ lacks db ($"max_payload_size") \/ lacks df ($"max_results"))).
Proof.
  intros w db df ls [Hp [Sb [Db Kb]] [Sf [Df Kf]] Hc Hs He [Hl Ha]]. rewrite !(lacks_iff db), !(lacks_iff df) by assumption.
  unfold created, create_config. destruct (switch_ok _ Hp) as [p ->]. cbn [bind]. unfold make_bulk, make_filter_option. rewrite (stated _ _ Sb), (stated _ _ Sf).
  apply names_ok in Kb, Kf. unfold bulk_names in Kb. unfold filter_names in Kf. rewrite Kb, Kf. cbn [bind bo_supported bo_max_operations bo_max_payload fo_supported fo_max_results forallb].
  destruct (switch_ok _ Hc) as [c ->]. destruct (switch_ok _ Hs) as [s ->]. destruct (switch_ok _ He) as [e ->].
  assert (L : iter_value (if truthy (w_schemes w) then w_schemes w else VList []) = Ok ls). { destruct Hl as [->|[-> ->]]; [destruct ls; reflexivity | reflexivity]. }
  assert (M : exists l, mapM make_scheme ls = Ok l). { apply mapM_total. rewrite Forall_forall in Ha. intros x I. apply scheme_ok, Ha, I. } destruct M as [l M].
  destruct (truthy (given db ($"supported") (VBool false))), (truthy (given db ($"max_payload_size") VNone)), (truthy (given db ($"max_operations") VNone)),
    (truthy (given df ($"supported") (VBool false))), (truthy (given df ($"max_results") VNone)); cbn [andb negb bind]; rewrite ?L; cbn [bind]; rewrite ?M; cbn [bind];
    (split; split; [try discriminate; intuition discriminate | try reflexivity; intuition discriminate | intros [x X]; try discriminate X; intuition discriminate | intros X; try (eexists; reflexivity); exfalso; apply X; intuition reflexivity]).
Qed.

(** What is accepted is kept: every option as stated, or switched off. *)
Theorem C69_kept : forall w c, created w = Ok c ->
  cf_documentation c = w_doc w /\ switched (w_patch w) (cf_patch c) /\ switched (w_password w) (cf_change_password c)
  /\ switched (w_sort w) (cf_sort c) /\ switched (w_etag w) (cf_etag c)
  /\ (exists d, states (w_bulk w) d /\ known_names bulk_names d /\ is_set d ($"supported") (VBool false) (bo_supported (cf_bulk c))
        /\ is_set d ($"max_operations") VNone (bo_max_operations (cf_bulk c)) /\ is_set d ($"max_payload_size") VNone (bo_max_payload (cf_bulk c)))
  /\ (exists d, states (w_filter w) d /\ known_names filter_names d /\ is_set d ($"supported") (VBool false) (fo_supported (cf_filter c))
        /\ is_set d ($"max_results") VNone (fo_max_results (cf_filter c)))
  /\ ((exists l, w_schemes w = VList l /\ Forall2 described l (cf_schemes c)) \/ (truthy (w_schemes w) = false /\ cf_schemes c = [])).
Proof.
  intros w c. unfold created, create_config. destruct (generic_option (or_empty (w_patch w))) as [p|] eqn:P; cbn [bind]; [|discriminate]. destruct (make_bulk _) as [b|] eqn:B; cbn [bind]; [|discriminate].
  destruct (make_filter_option _) as [f|] eqn:F; cbn [bind]; [|discriminate]. destruct (generic_option (or_empty (w_password w))) as [pw|] eqn:W; cbn [bind]; [|discriminate].
  destruct (generic_option (or_empty (w_sort w))) as [s|] eqn:S1; cbn [bind]; [|discriminate]. destruct (generic_option (or_empty (w_etag w))) as [et|] eqn:E; cbn [bind]; [|discriminate].
  destruct (iter_value _) as [l|] eqn:L; cbn [bind]; [|discriminate]. destruct (mapM make_scheme l) as [ss|] eqn:M; cbn [bind]; [|discriminate]. intros H. injection H as <-.
  cbn [cf_documentation cf_patch cf_bulk cf_filter cf_change_password cf_sort cf_etag cf_schemes].
  split; [reflexivity|]. split; [apply switch_made, P|]. split; [apply switch_made, W|]. split; [apply switch_made, S1|]. split; [apply switch_made, E|]. split; [|split].
  - unfold make_bulk in B. destruct (keywords _ (or_empty (w_bulk w))) as [d|] eqn:K; cbn [bind] in B; [|discriminate B]. apply keywords_inv in K as [K1 K2]. exists d. split; [exact K1|]. split; [exact K2|].
    destruct (_ && _) in B; [discriminate B|]. injection B as <-. cbn [bo_supported bo_max_operations bo_max_payload]. split; [|split]; apply given_set.
  - unfold make_filter_option in F. destruct (keywords _ (or_empty (w_filter w))) as [d|] eqn:K; cbn [bind] in F; [|discriminate F]. apply keywords_inv in K as [K1 K2]. exists d. split; [exact K1|]. split; [exact K2|].
    destruct (_ && _) in F; [discriminate F|]. injection F as <-. cbn [fo_supported fo_max_results]. split; apply given_set.
  - destruct (truthy (w_schemes w)) eqn:T.
    + left. destruct (w_schemes w) as [ | | |b0|z|fl|st|t|l0|d|d x|r|fi|pa|ch|so|o]; cbn [iter_value] in L; try discriminate L.
      * injection L as <-. exfalso. destruct st as [|ch st]; [discriminate T|]. cbn [map mapM] in M. discriminate M.
      * injection L as ->. exists l. split; [reflexivity|]. clear -M. revert ss M. induction l as [|x l IH]; intros ss M; cbn [mapM] in M.
        -- injection M as <-. constructor.
        -- destruct (make_scheme x) as [y|] eqn:Y; cbn [bind] in M; [|discriminate M]. destruct (mapM make_scheme l) as [ys|]; cbn [bind] in M; [|discriminate M]. injection M as <-. constructor; [apply scheme_made, Y | apply IH; reflexivity].
      * injection L as <-. exfalso. destruct d as [|[k v] d]; [discriminate T|]. cbn [map mapM fst] in M. destruct k; discriminate M.
    + right. split; [reflexivity|]. injection L as <-. cbn [mapM] in M. injection M as <-. reflexivity.
Qed.

(** Nothing unknown is accepted. *)
Theorem C69_unknown_refused : forall w c, created w = Ok c -> forall v fields, In (v, fields)
    [(w_patch w, [$"supported"]); (w_bulk w, bulk_names); (w_filter w, filter_names); (w_password w, [$"supported"]); (w_sort w, [$"supported"]); (w_etag w, [$"supported"])] ->
  exists d, states v d /\ known_names fields d.
Proof.
  intros w c. unfold created, create_config. destruct (generic_option (or_empty (w_patch w))) as [p|] eqn:P; cbn [bind]; [|discriminate]. destruct (make_bulk _) as [b|] eqn:B; cbn [bind]; [|discriminate].
  destruct (make_filter_option _) as [f|] eqn:F; cbn [bind]; [|discriminate]. destruct (generic_option (or_empty (w_password w))) as [pw|] eqn:W; cbn [bind]; [|discriminate].
  destruct (generic_option (or_empty (w_sort w))) as [s|] eqn:S1; cbn [bind]; [|discriminate]. destruct (generic_option (or_empty (w_etag w))) as [et|] eqn:E; cbn [bind]; [|discriminate]. intros _ v fields I.
  cbn [In] in I. destruct I as [I|[I|[I|[I|[I|[I|[]]]]]]]; pose proof (f_equal fst I) as I1; pose proof (f_equal snd I) as I2; cbn [fst snd] in I1, I2; subst v fields.
  - apply (switch_made _ _ P).
  - unfold make_bulk in B. destruct (keywords _ (or_empty (w_bulk w))) as [d|] eqn:K; cbn [bind] in B; [|discriminate B]. exists d. exact (keywords_inv _ _ _ K).
  - unfold make_filter_option in F. destruct (keywords _ (or_empty (w_filter w))) as [d|] eqn:K; cbn [bind] in F; [|discriminate F]. exists d. exact (keywords_inv _ _ _ K).
  - apply (switch_made _ _ W).
  - apply (switch_made _ _ S1).
  - apply (switch_made _ _ E).
Qed.

Section Env.
  Context {env : PyEnv}.

  (** Without a limit -- bulk operations are not supported unless asked for -- no
      bulk request is let through ... *)
  Theorem C69_unlimited_never_kept : forall w c schemas body h q rq iss,
    created w = Ok c -> bo_max_operations (cf_bulk c) = VNone -> bulk_parse_request schemas (limit_of c) body h q = Ok (rq, iss) -> rq_body rq = VNone.
  Proof.
    intros w c schemas body h q rq iss _ N. unfold limit_of. rewrite N. unfold bulk_parse_request. intros H.
    repeat match type of H with
           | bind ?m _ = _ => destruct m as [[? ?]|]; cbn [bind] in H; [|discriminate H]
           | bind ?m _ = _ => destruct m; cbn [bind] in H; [|discriminate H]
           | (if ?b then _ else _) = _ => destruct b; [injection H as <- <-; reflexivity|]
           | Raise _ = _ => discriminate H
           end.
  Qed.

  (** The limit of operations that was asked for is the one that is enforced. *)
  Theorem C69_enforced_partial : forall w c d mx schemas doc h q rq iss l, created w = Ok c -> states (w_bulk w) d -> distinct d -> In (KStr ($"max_operations"), VInt mx) d ->
    message bulk_request_schema doc -> holds (mk_cont doc) ($"Operations") (VList l) -> bulk_parse_request schemas (limit_of c) doc h q = Ok (rq, iss) ->
    (In e_too_many_ops (errs_at iss (at_field ($"Operations"))) <-> (mx < Z.of_nat (length l))%Z).
  Proof.
    intros w c d mx schemas doc h q rq iss l Hc Sd Dd Im Hm Hl H. destruct (C69_kept _ _ Hc) as [_ [_ [_ [_ [_ [[d' [Sd' [_ [_ [Sm _]]]]] _]]]]]].
    assert (d' = d) as ->.
    { inversion Sd as [d1 E1 E2|v1 T1 E1 E2]; subst; [|destruct Im]. inversion Sd' as [d2 E3 E4|v2 T2 E3 E4]; subst; [congruence|]. rewrite <- E1 in T2. destruct d; [destruct Im | discriminate T2]. }
    assert (E : bo_max_operations (cf_bulk c) = VInt mx).
    { inversion Sm as [v Iv E|N E]; [|exfalso; exact (N _ Im)]. clear - Dd Im Iv. unfold distinct in Dd. induction d as [|[k x] d IH]; [destruct Im|]. cbn [map fst] in Dd. inversion Dd as [|k0 d0 Nk Nd]; subst.
      destruct Im as [Im|Im]; [injection Im as -> ->; destruct Iv as [Iv|Iv]; [injection Iv as <-; reflexivity|]; exfalso; apply Nk; apply in_map_iff; eexists; split; [|exact Iv]; reflexivity|].
      destruct Iv as [Iv|Iv]; [injection Iv as -> <-; exfalso; apply Nk; apply in_map_iff; eexists; split; [|exact Im]; reflexivity|]. apply IH; assumption. }
    unfold limit_of in H. rewrite E in H. exact (C52_request_limit_partial _ _ _ _ _ _ _ _ Hm Hl H).
  Qed.
End Env.

(** Sample arguments: filtering and bulk operations are supported, within limits,
    and one way to authenticate is described. *)
Definition ex_wish : wish := mkWish (VStr ($"https://example.com/doc")) (dict_of [($"supported", VBool true)])
  (dict_of [($"max_payload_size", VInt 1000); ($"supported", VBool true); ($"max_operations", VInt 10)])
  (dict_of [($"supported", VBool true); ($"max_results", VInt 50)]) VNone VNone (VDict [])
  (VList [dict_of [($"name", VStr ($"n")); ($"type", VStr ($"oauth")); ($"description", VStr ($"d")); ($"spec_uri", VStr ($"s")); ($"documentation_uri", VStr ($"u"))]]).
Definition entries (v : value) : list (dkey * value) := match v with VDict d => d | _ => [] end.
Definition items (v : value) : list value := match v with VList l => l | _ => [] end.

Ltac each := cbn [map fst]; repeat first [apply NoDup_nil | apply NoDup_cons; [cbn [In map fst]; intuition discriminate|]].
Ltac one_of := intros ? ? I; cbn [In map fst snd] in I; repeat (destruct I as [I|I]; [injection I as <- <-; eexists; split; [|reflexivity]; cbn [In bulk_names filter_names scheme_names]; tauto|]); destruct I.

Example ex_C69 : proper ex_wish (entries (w_bulk ex_wish)) (entries (w_filter ex_wish)) (items (w_schemes ex_wish)) /\ exists c, created ex_wish = Ok c /\ limit_of c = Some 10%Z /\ fo_max_results (cf_filter c) = VInt 50 /\ cf_sort c = VBool false /\ length (cf_schemes c) = 1.
Proof.
  split; [|eexists; split; [vm_compute; reflexivity | repeat split]]. unfold ex_wish. cbn [w_bulk w_filter w_schemes entries items dict_of map fst snd]. constructor; cbn [w_patch w_bulk w_filter w_password w_sort w_etag w_schemes dict_of map fst snd].
  - eexists. split; [apply states_dict|]. split; [unfold distinct; each | one_of].
  - split; [apply states_dict|]. split; [unfold distinct; each | one_of].
  - split; [apply states_dict|]. split; [unfold distinct; each | one_of].
  - exists []. split; [apply states_none; reflexivity|]. split; [unfold distinct; each | intros ? ? []].
  - exists []. split; [apply states_none; reflexivity|]. split; [unfold distinct; each | intros ? ? []].
  - exists []. split; [apply states_none; reflexivity|]. split; [unfold distinct; each | intros ? ? []].
  - split; [left; reflexivity|]. constructor; [|constructor]. eexists. split; [reflexivity|]. split; [unfold distinct; each|]. split; [one_of|].
    intros f I. cbn [In scheme_names] in I. repeat (destruct I as [I|I]; [subst f; eexists; cbn [In map fst snd]; eauto 10|]). destruct I.
Qed.
(** Two operations are too many where one was asked for. *)
Definition ex_single : wish := mkWish VNone VNone (dict_of [($"max_payload_size", VInt 1000); ($"supported", VBool true); ($"max_operations", VInt 1)]) VNone VNone VNone VNone VNone.
Example ex_C69_enforced : exists c, created ex_single = Ok c /\ states (w_bulk ex_single) (entries (w_bulk ex_single)) /\ distinct (entries (w_bulk ex_single))
  /\ In (KStr ($"max_operations"), VInt 1) (entries (w_bulk ex_single)) /\ message bulk_request_schema ex_sent /\ holds (mk_cont ex_sent) ($"Operations") (VList (ops_of ex_sent))
  /\ outcome_is (@bulk_parse_request no_env [group_schema] (limit_of c) ex_sent VNone VNone) (fun _ iss => In e_too_many_ops (errs_at iss (at_field ($"Operations")))).
Proof.
  assert (D : distinct (entries (w_bulk ex_single))) by (unfold distinct, ex_single; cbn [w_bulk entries dict_of map fst snd]; each).
  assert (M : In (KStr ($"max_operations"), VInt 1) (entries (w_bulk ex_single))) by (right; right; left; reflexivity).
  assert (C : match created ex_single with Ok c => limit_of c = Some 1%Z | Raise _ => False end) by (vm_compute; reflexivity).
  destruct (created ex_single) as [c|x]; [|contradiction]. exists c. rewrite C. split; [reflexivity|]. split; [apply states_dict|]. split; [exact D|]. split; [exact M|].
  destruct ex_C52 as [H1 [H2 [_ [H3 _]]]]. split; [exact H1|]. split; [exact H2 | exact H3].
Qed.
(** The same without the limit of operations. *)
Definition ex_lacking : wish := mkWish VNone VNone (dict_of [($"max_payload_size", VInt 1000); ($"supported", VBool true); ($"max_operations", VInt 0)]) VNone VNone VNone VNone VNone.
Example ex_C69_refused : created ex_lacking = Raise ValueErr /\ lacks (entries (w_bulk ex_lacking)) ($"max_operations").
Proof.
  split; [vm_compute; reflexivity|]. cbn [ex_lacking w_bulk entries dict_of map fst snd]. split; [exists (VBool true); cbn [In]; auto|].
  intros x [I|[I|[I|[]]]]; [discriminate I | discriminate I | injection I as <-; reflexivity].
Qed.

(** The full claim -- limits are limits, and a server that does not support bulk
    operations says so -- is false: a negative limit is accepted, under which every
    bulk request is too long, ... *)
Theorem C69_negative_refuted : exists w c z, created w = Ok c /\ truthy (bo_supported (cf_bulk c)) = true /\ bo_max_operations (cf_bulk c) = VInt z /\ (z < 0)%Z.
Proof.
  exists (mkWish VNone VNone (dict_of [($"max_payload_size", VInt 1000); ($"supported", VBool true); ($"max_operations", VInt (-1))]) VNone VNone VNone VNone VNone).
  eexists. exists (-1)%Z. split; [vm_compute; reflexivity|]. split; [reflexivity|]. split; reflexivity.
Qed.
(** ... as is a limit that is no number; and with the default configuration a bulk
    request is not answered at all. *)
Theorem C69_no_number_refuted : exists w c, created w = Ok c /\ truthy (bo_supported (cf_bulk c)) = true /\ limit_of c = None.
Proof.
  exists (mkWish VNone VNone (dict_of [($"max_payload_size", VInt 1000); ($"supported", VBool true); ($"max_operations", VStr ($"ten"))]) VNone VNone VNone VNone VNone).
  eexists. split; [vm_compute; reflexivity|]. split; reflexivity.
Qed.
Theorem C69_default_raises_refuted : exists (env : PyEnv) c schemas doc l, created (mkWish (VStr []) VNone VNone VNone VNone VNone VNone VNone) = Ok c
  /\ message bulk_request_schema doc /\ holds (mk_cont doc) ($"Operations") (VList l) /\ bulk_parse_request schemas (limit_of c) doc VNone VNone = Raise TypeErr.
Proof.
  destruct C52_no_limit_refuted as [e [ss [doc [l [A [B C]]]]]]. exists e. eexists. exists ss, doc, l. split; [vm_compute; reflexivity|]. split; [exact A|]. split; [exact B|]. exact C.
Qed.

Print Assumptions C69_refused_iff.
Print Assumptions C69_kept.
Print Assumptions C69_unknown_refused.
Print Assumptions C69_enforced_partial.
Print Assumptions ex_C69_enforced.
Print Assumptions C69_unlimited_never_kept.
Print Assumptions C69_negative_refuted.
Print Assumptions C69_no_number_refuted.
Print Assumptions C69_default_raises_refuted.
