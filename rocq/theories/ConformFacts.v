(** Lemmas for C76: what is let through without a report is what conforms. *)
From Coq Require Import Lia.
From Verif Require Import PyBase BaseFacts PyNum Issues IssuesSpec IssuesFacts AttrRep AttrRepSpec AttrRepFacts Value ValueFacts Base64 TypesFacts ContainerEq
  Container ContainerSpec ContainerFacts ContainerRW Types TypesSpec PropTypes Attr AttrSpec AttrFacts AttrItems PropAttr Schema SchemaSpec SchemaFacts SchemaBuild PropSchema
  PatchFacts RequestFacts RoundSpec RoundFacts RoundSchema ConformSpec.

Lemma usual_invalid v : usual v -> v <> VInvalid.
Proof. intros H ->. inversion H. Qed.
Lemma usual_missing v : usual v -> v <> VMissing.
Proof. intros H ->. inversion H. Qed.
Lemma usual_get data k v : Forall (fun e : str * value => usual (snd e)) data -> sget k data = Some v -> usual v.
Proof. intros H G. apply sget_In in G. rewrite Forall_forall in H. exact (H _ G). Qed.
Lemma usual_holds c n x : usual c -> holds c n x -> usual x.
Proof. intros U [d [q [k [-> [_ G]]]]]. inversion U; subst. exact (usual_get d k x H3 G). Qed.
Lemma usual_load d : forall data l2o, usual (VCont data l2o) -> Forall (fun e => fst e <> KStr []) d -> Forall (fun e => usual (conv (snd e))) d -> usual (load d data l2o).
Proof.
  induction d as [|[[k|n] x] t IH]; intros data l2o Hg Hk Hd; cbn [load]; [exact Hg| |];
    inversion Hd as [|? ? Hx Ht]; subst; inversion Hk as [|? ? Hk1 Hk2]; subst; apply IH; try assumption.
  inversion Hg as [| | | | | | |? ? Hi He Hf]; subst. constructor.
  - apply index_ok_sset. exact Hi.
  - rewrite sget_sset_other; [exact He|]. intros E. apply (proj1 (lower_nil _)) in E. apply Hk1. cbn [fst]. congruence.
  - apply sset_Forall; assumption.
Qed.
Lemma usual_empty : usual empty_cont.
Proof. constructor; [intros lk k H; discriminate | reflexivity | constructor]. Qed.
Lemma usual_conv v : usual v -> usual (conv v) /\ usual (conv_item v).
Proof.
  induction v as [v Ha|l IH|d IH|data l2o IH] using value_ind2; intros Hj.
  - destruct v; try contradiction; split; exact Hj.
  - split; [|exact Hj]. inversion Hj as [| | | | |l' Hl| |]; subst. cbn [conv]. constructor. apply Forall_map.
    rewrite Forall_forall in *. intros x Hx. apply (IH x Hx), Hl, Hx.
  - assert (E : usual (mk_cont (VDict d))).
    { rewrite mk_cont_dict. inversion Hj as [| | | | | |d' Hk Hv|]; subst. apply usual_load; [apply usual_empty | exact Hk|].
      rewrite Forall_forall in *. intros e He. apply (IH e He), Hv, He. }
    split; exact E.
  - split; exact Hj.
Qed.
Lemma usual_mk_cont v : usual v -> usual (mk_cont v).
Proof. intros H. destruct v; try exact usual_empty; try exact H. exact (proj1 (usual_conv _ H)). Qed.

Section Env.
  Context {env : PyEnv}.

  (** ** Types *)

  Lemma pass_inj v w : Ok (pass v) = Ok (pass w) -> v = w.
  Proof. intros H. exact (f_equal (fun r => match r with Ok o => fst o | _ => VNone end) H). Qed.
  Lemma fail_not e w : Ok (fail e) = Ok (pass w) -> False.
  Proof. intros H. pose proof (f_equal (fun r => match r with Ok o => snd o | _ => no_issues end) H) as X. discriminate X. Qed.
  Lemma check_pass ok name v w : Ok (type_check ok name v) = Ok (pass w) -> ok = true /\ w = v.
  Proof. unfold type_check. destruct ok; intros H; [split; [reflexivity | symmetry; exact (pass_inj _ _ H)] | exfalso; exact (fail_not _ _ H)]. Qed.

  Lemma whole_float f z : type_proc MParse TInteger (VFloat f) = Ok (pass (VInt z)) <-> same_number f (FFin z 0).
  Proof.
    destruct f as [n e| |].
    - destruct (C17_integer_float MParse n e) as [o [Eo [H1 H2]]].
      assert (Sh : exists z0, o = pass (VInt z0) \/ fst o = VInvalid).
      { cbn [type_proc integer_proc int_of_float bind] in Eo. match type of Eo with (if feqb (fint ?a) _ then _ else _) = _ => exists a end.
        destruct (feqb _ _); injection Eo as <-; [left | right]; reflexivity. }
      rewrite Eo. split.
      + intros E. assert (D : same_number (FFin n e) (FFin z 0) \/ ~ same_number (FFin n e) (FFin z 0)).
        { rewrite same_number_iff. destruct (feqb _ _); [left; reflexivity | right; discriminate]. }
        destruct D as [D|D]; [exact D|]. exfalso.
        assert (N : forall z', ~ same_number (FFin n e) (FFin z' 0)).
        { intros z' S'. destruct (H1 z' S') as [F _]. injection E as E. rewrite E in F. cbn [fst pass] in F. injection F as ->. contradiction. }
        destruct (H2 N) as [F _]. injection E as E. rewrite E in F. discriminate F.
      + intros S'. destruct (H1 z S') as [F _]. destruct Sh as [z0 [->|X]]; [|congruence]. cbn [fst pass] in F. injection F as ->. reflexivity.
    - split; [discriminate | contradiction].
    - split; [discriminate | contradiction].
  Qed.
  Lemma type_reads t x y : t <> TComplex -> (type_proc MParse t x = Ok (pass y) <-> read_as t x y).
  Proof.
    intros Nt. split.
    - intros H. destruct t; cbn [type_proc] in H; try congruence.
      + apply pass_inj in H as ->. constructor.
      + apply check_pass in H as [H ->]. destruct x; try discriminate H. constructor.
      + unfold decimal_proc in H. destruct (is_int x) eqn:E.
        * destruct x; try discriminate E; cbn [integer_proc is_int type_check pass bind to_float] in H; apply bind_ok in H as [g [Hf H]]; apply bind_ok in Hf as [f [F Hf]]; injection Hf as <-;
            apply pass_inj in H as <-; constructor; exact F.
        * apply check_pass in H as [H ->]. destruct x; try discriminate H. constructor.
      + destruct x; try (apply check_pass in H as [H ->]; try discriminate H; constructor).
        assert (E : exists z, y = VInt z). { unfold integer_proc in H. apply bind_ok in H as [z [_ H]]. exists z. destruct (feqb _ _); [symmetry; exact (pass_inj _ _ H) | apply check_pass in H as [H _]; discriminate H]. }
        destruct E as [z ->]. constructor. apply whole_float. exact H.
      + apply check_pass in H as [H ->]. destruct x; try discriminate H. constructor.
      + unfold binary_proc in H. destruct x; try (apply check_pass in H as [H _]; discriminate H). apply bind_ok in H as [[e|] [He H]]; [exfalso; exact (fail_not _ _ H)|].
        apply pass_inj in H as <-. constructor. apply validate_iff. exact He.
      + unfold external_proc in H. destruct x; try (apply check_pass in H as [H _]; discriminate H). destruct (env_abs_url s) eqn:E; [|exfalso; exact (fail_not _ _ H)].
        apply pass_inj in H as <-. constructor. exact E.
      + apply check_pass in H as [H ->]. destruct x; try discriminate H. constructor.
      + apply check_pass in H as [H ->]. destruct x; try discriminate H. constructor.
      + unfold datetime_parse in H. destruct x; try (apply check_pass in H as [H _]; discriminate H). destruct (env_fromiso s) as [d|] eqn:E; [|exfalso; exact (fail_not _ _ H)].
        apply pass_inj in H as <-. constructor. exact E.
    - intros H. destruct H; try reflexivity.
      + apply whole_float. assumption.
      + cbn [type_proc]. unfold decimal_proc. cbn [is_int integer_proc type_check pass bind to_float]. rewrite H. reflexivity.
      + cbn [type_proc]. unfold decimal_proc. cbn [is_int integer_proc type_check pass bind to_float]. rewrite H. reflexivity.
      + cbn [type_proc binary_proc]. rewrite (proj2 (validate_iff s) H). reflexivity.
      + cbn [type_proc external_proc]. rewrite H. reflexivity.
      + cbn [type_proc datetime_parse]. rewrite H. reflexivity.
  Qed.
  Lemma canonical_permitted i y : y <> VInvalid -> ((is_canonical i y = true \/ a_validate i = false) <-> permitted i y).
  Proof.
    intros N. unfold permitted.
    assert (E : is_canonical i y = match a_canon i with None => true | Some l => existsb (lit_eqb (match y with VStr s => if a_case_exact i then y else VStr (lower s) | _ => y end)) l end).
    { unfold is_canonical. destruct y; try reflexivity. congruence. }
    assert (Q : (match y with VStr s => if a_case_exact i then y else VStr (lower s) | _ => y end) = match y with VStr s => VStr (if a_case_exact i then s else lower s) | _ => y end).
    { destruct y; try reflexivity. destruct (a_case_exact i); reflexivity. }
    rewrite E, Q. set (z := match y with VStr s => VStr (if a_case_exact i then s else lower s) | _ => y end).
    assert (L : forall c, lit_eqb z c = true <-> equals_lit true z c).
    { intros c. rewrite <- (lit_eqb_spec true z c). replace (match z with VStr _ => z | _ => z end) with z by (destruct z; reflexivity). reflexivity. }
    split.
    - intros [H|H]; [|left; exact H]. right. intros l Hl. rewrite Hl in H. apply existsb_exists in H as [c [I H]]. exists c. split; [exact I | apply L; exact H].
    - intros [H|H]; [right; exact H|]. left. destruct (a_canon i) as [l|]; [|reflexivity]. destruct (H l eq_refl) as [c [I G]]. apply existsb_exists. exists c. split; [exact I | apply L; exact G].
  Qed.
  Lemma read_usual t x y : usual x -> read_as t x y -> y <> VInvalid.
  Proof. intros U H. destruct H; try discriminate. apply usual_invalid, U. Qed.
  Lemma accepts_fit i x y : a_type i <> TComplex -> usual x -> (accepts MParse i x y <-> fit i x y).
  Proof.
    intros T U. unfold accepts, fit. rewrite (type_reads _ _ _ T). split.
    - intros [H C]. split; [exact H|]. apply canonical_permitted; [exact (read_usual _ _ _ U H) | exact C].
    - intros [H C]. split; [exact H|]. apply canonical_permitted; [exact (read_usual _ _ _ U H) | exact C].
  Qed.
  Lemma accept_fits i xs ys : a_type i <> TComplex -> Forall usual xs -> (Forall2 (accepts MParse i) xs ys <-> Forall2 (fit i) xs ys).
  Proof.
    intros T U. split; intros F; induction F as [|x y xs ys H F IH]; constructor; inversion U; subst; auto; apply accepts_fit; assumption.
  Qed.

  (** ** Objects *)

  Lemma get_usual c s x : usual c -> is_cont c = true -> plain_rep (arep s) -> get_item c (arep s) = Ok x ->
    (x = VMissing /\ forall y, ~ holds c (r_attr (arep s)) y) \/ (x <> VMissing /\ holds c (r_attr (arep s)) x).
  Proof.
    intros U Ic [P1 [P2 [P3 P4]]] H. destruct c as [| | | | | | | | | |data l2o| | | | | |]; try discriminate Ic. inversion U as [| | | | | | |? ? Hi He Hf]; subst.
    rewrite get_item_eq, P1, P2 in H. change (lower []) with (@nil ascii) in H. rewrite He in H. destruct (sget (lower (r_attr (arep s))) l2o) as [k|] eqn:E.
    - destruct (sget k data) as [y|] eqn:Ey; [|discriminate H]. cbn [get_sub] in H. injection H as ->. right. split; [exact (usual_missing _ (usual_get _ _ _ Hf Ey))|]. exists data, l2o, k. auto.
    - injection H as <-. left. split; [reflexivity|]. intros y [d [q [k [X [E2 _]]]]]. injection X as <- <-. congruence.
  Qed.
  Lemma holds_get c s x : usual c -> plain_rep (arep s) -> holds c (r_attr (arep s)) x -> get_item c (arep s) = Ok x.
  Proof.
    intros U [P1 [P2 [P3 P4]]] [data [l2o [k [-> [H1 H2]]]]]. inversion U as [| | | | | | |? ? Hi He Hf]; subst.
    rewrite get_item_eq, P1, P2. change (lower []) with (@nil ascii). rewrite He, H1, H2. reflexivity.
  Qed.
  Lemma lacks_get c s : usual c -> is_cont c = true -> plain_rep (arep s) -> (forall y, ~ holds c (r_attr (arep s)) y) -> get_item c (arep s) = Ok VMissing.
  Proof.
    intros U Ic [P1 [P2 [P3 P4]]] H. destruct c as [| | | | | | | | | |data l2o| | | | | |]; try discriminate Ic. inversion U as [| | | | | | |? ? Hi He Hf]; subst.
    rewrite get_item_eq, P1, P2. change (lower []) with (@nil ascii). rewrite He. destruct (sget (lower (r_attr (arep s))) l2o) as [k|] eqn:E; [|reflexivity].
    destruct (Hi _ _ E) as [_ Hin]. apply sget_Some_key in Hin as [x Hx]. exfalso. apply (H x). exists data, l2o, k. auto.
  Qed.

  Lemma takes_fields c subs vs : usual c -> is_cont c = true -> Forall (fun s => plain_rep (arep s)) subs ->
    Forall (fun s => forall v w, usual v -> (runs MParse s v w <-> reads s v w)) subs ->
    (takes MParse c subs vs -> fields reads c subs (RoundFacts.named vs)).
  Proof.
    intros U Ic P IH [xs [M E]]. revert vs E P IH. induction M as [|s t xs Hx M IHM|s t x xs Hx Nx M IHM]; intros vs E P IH.
    - inversion E; subst. constructor.
    - inversion P; inversion IH; subst. apply fields_absent; [|apply IHM; assumption]. destruct (get_usual c s VMissing U Ic ltac:(assumption) Hx) as [[_ X]|[X _]]; [exact X | congruence].
    - inversion P; inversion IH; subst. inversion E as [|? [s' w] ? vs' [E1 R] E2]; subst. cbn [fst snd] in *. subst s'. destruct (get_usual c s x U Ic ltac:(assumption) Hx) as [[X _]|[_ X]]; [congruence|].
      cbn [RoundFacts.named map fst snd]. apply (fields_there _ _ s t x w); [exact X | | apply IHM; assumption]. match goal with H : forall v w, usual v -> (runs _ s v w <-> _) |- _ => apply H end; [exact (usual_holds _ _ _ U X) | exact R].
  Qed.
  Lemma fields_takes c subs ys : usual c -> is_cont c = true -> Forall (fun s => plain_rep (arep s)) subs ->
    Forall (fun s => forall v w, usual v -> (runs MParse s v w <-> reads s v w)) subs ->
    fields reads c subs ys -> exists vs, takes MParse c subs vs /\ ys = RoundFacts.named vs.
  Proof.
    intros U Ic P IH F. induction F as [|s t ys N F IHF|s t x w ys H R F IHF].
    - exists []. split; [exists []; split; constructor | reflexivity].
    - inversion P; inversion IH; subst. destruct IHF as [vs [[xs [M E]] ->]]; try assumption. exists vs. split; [|reflexivity]. exists xs. split; [|exact E]. apply mi_skip; [apply lacks_get; assumption | exact M].
    - inversion P; inversion IH; subst. destruct IHF as [vs [[xs [M E]] ->]]; try assumption. exists ((s, w) :: vs). split; [|reflexivity]. exists ((s, x) :: xs). split.
      + apply mi_take; [apply holds_get; assumption | exact (usual_missing _ (usual_holds _ _ _ U H)) | exact M].
      + constructor; [|exact E]. cbn [fst snd]. split; [reflexivity|]. match goal with H : forall v w, usual v -> (runs _ s v w <-> _) |- _ => apply H end; [exact (usual_holds _ _ _ U H) | exact R].
  Qed.
  Lemma box_object vs : box vs = object (RoundFacts.named vs).
  Proof. unfold box, object, RoundFacts.named. rewrite map_map. reflexivity. Qed.
  Lemma item_fields c subs w : usual c -> Forall (fun s => plain_rep (arep s)) subs ->
    Forall (fun s => forall v w, usual v -> (runs MParse s v w <-> reads s v w)) subs ->
    (item_runs MParse subs c w <-> exists ys, w = object ys /\ is_cont c = true /\ fields reads c subs ys).
  Proof.
    intros U P IH. split.
    - intros [Ic [vs [T ->]]]. exists (RoundFacts.named vs). split; [apply box_object|]. split; [exact Ic|]. apply takes_fields; assumption.
    - intros [ys [-> [Ic F]]]. split; [exact Ic|]. destruct (fields_takes c subs ys U Ic P IH F) as [vs [T ->]]. exists vs. split; [exact T | symmetry; apply box_object].
  Qed.

  Lemma fields_names R c subs ys : fields R c subs ys -> forall n, In n (map fst ys) -> exists s, In s subs /\ n = r_attr (arep s).
  Proof.
    induction 1 as [|s t ys N F IH|s t x w ys H Rx F IH]; intros n I; [contradiction| |].
    - destruct (IH n I) as [s' [I' ->]]. exists s'. split; [right; exact I' | reflexivity].
    - destruct I as [<-|I]; [exists s; split; [left; reflexivity | reflexivity]|]. destruct (IH n I) as [s' [I' ->]]. exists s'. split; [right; exact I' | reflexivity].
  Qed.
  Lemma fields_tidy R c subs ys : Forall (fun s => plain_rep (arep s)) subs -> distinct_names subs -> fields R c subs ys -> tidy (object ys).
  Proof.
    intros P D F. exists ys. split; [reflexivity|]. split.
    - unfold distinct_names in D. revert D. induction F as [|s t ys N F IH|s t x w ys H Rx F IH]; intros D; cbn [map] in *; [constructor| |].
      + inversion D; inversion P; subst. apply IH; assumption.
      + inversion D as [|? ? D1 D2]; inversion P; subst. constructor; [|apply IH; assumption]. cbn [fst]. intros I. apply D1. apply in_map_iff in I as [e [E I]].
        destruct (fields_names _ _ _ _ F (fst e) (in_map fst _ _ I)) as [s' [I' X]]. rewrite <- E, X. apply (in_map (fun s => lower (r_attr (arep s)))). exact I'.
    - apply Forall_forall. intros e I. destruct (fields_names _ _ _ _ F (fst e) (in_map fst _ _ I)) as [s' [I' X]]. rewrite Forall_forall in P. destruct (P s' I') as [_ [_ [_ G]]]. rewrite X. exact (attr_ok_nonempty _ G).
  Qed.

  Lemma primary_through ys : Forall tidy ys -> (let_through [single_primary] (VList ys) <-> one_primary ys).
  Proof.
    intros T. destruct (single_primary_spec ys T) as [ks [E [K S']]]. unfold let_through, one_primary. split.
    - intros F j k y z Hj Hk My Mz. inversion F as [|? ? [i [H Q]] _]; subst. rewrite E in H. destruct (Nat.ltb 1 (length ks)) eqn:L.
      + exfalso. pose proof (f_equal (fun r => match r with Ok o => snd o | _ => no_issues end) H) as X. cbn [snd] in X. subst i. specialize (Q []). discriminate Q.
      + destruct (Nat.eq_dec j k) as [X|X]; [exact X|]. exfalso. apply Nat.ltb_ge in L. assert (1 < length ks); [|lia]. apply (two_marked ks S'). exists j, k. split; [exact X|]. split; apply K; eexists; split; eassumption.
    - intros H. constructor; [|constructor]. exists no_issues. split; [|exact silent_none]. rewrite E. destruct (Nat.ltb 1 (length ks)) eqn:L; [|reflexivity].
      exfalso. apply Nat.ltb_lt in L. apply (two_marked ks S') in L as [j [k [N [Ij Ik]]]]. apply K in Ij as [y [Hy My]]. apply K in Ik as [z [Hz Mz]]. exact (N (H j k y z Hy Hz My Mz)).
  Qed.

  Lemma items_fields subs cs ws : Forall usual cs -> Forall (fun s => plain_rep (arep s)) subs ->
    Forall (fun s => forall v w, usual v -> (runs MParse s v w <-> reads s v w)) subs ->
    (Forall2 (item_runs MParse subs) cs ws <-> exists yss, ws = map object yss /\ Forall2 (fun c ys => is_cont c = true /\ fields reads c subs ys) cs yss).
  Proof.
    intros U P IH. split.
    - intros F. induction F as [|c w cs ws H F IHF]; [exists []; split; [reflexivity | constructor]|]. inversion U; subst. destruct IHF as [yss [-> G]]; [assumption|].
      apply item_fields in H as [ys [-> X]]; try assumption. exists (ys :: yss). split; [reflexivity | constructor; assumption].
    - intros [yss [-> F]]. induction F as [|c ys cs yss H F IHF]; cbn [map]; constructor; inversion U; subst; [|apply IHF; assumption]. apply item_fields; try assumption. exists ys. auto.
  Qed.

  Lemma runs_reads a : steady a -> forall v w, usual v -> (runs MParse a v w <-> reads a v w).
  Proof.
    induction a as [i|i subs cps cds IH] using attr_ind2; intros St v w U; inversion St as [? J D T Dt|? ? ? T P D C Cp Pl N S']; subst.
    - unfold runs. cbn [process]. rewrite (base_runs MParse i v w J). split.
      + intros H. inversion H as [|? ? Mu Hv A L|xs ys Mu A L]; subst; [constructor | |].
        * apply reads_one; [exact Mu | exact Hv | apply accepts_fit; assumption | exact L].
        * inversion U; subst. apply reads_many; [exact Mu | apply accept_fits; assumption | exact L].
      + intros H. inversion H as [|? ? ? Mu Hv A L|? xs ys Mu A L| |]; subst; [constructor | |].
        * apply sr_one; [exact Mu | exact Hv | apply accepts_fit; assumption | exact L].
        * inversion U; subst. apply sr_many; [exact Mu | apply accept_fits; assumption | exact L].
    - assert (IH' : Forall (fun s => forall v w, usual v -> (runs MParse s v w <-> reads s v w)) subs).
      { rewrite Forall_forall in IH, S' |- *. intros s I. exact (IH s I (S' s I)). }
      rewrite (process_runs MParse i subs cds v w St). split.
      + intros H. inversion H as [|? ? Mu A|xs ys Mu A L]; subst; [constructor | |].
        * apply item_fields in A as [ys [-> [Ic F]]]; try assumption. apply reads_object; assumption.
        * inversion U; subst. apply items_fields in A as [yss [-> F]]; try assumption. apply reads_objects; [exact Mu | exact F|].
          destruct Cp as [->|[_ ->]]; [left; reflexivity|]. right. apply primary_through; [|exact L]. apply Forall_map. clear -F Pl N. induction F as [|c ys cs yss [_ X] F IHF]; constructor; [exact (fields_tidy _ _ _ _ Pl N X) | exact IHF].
      + intros H. inversion H as [| | |? ? ? c ys Mu Ic F|? ? ? cs yss Mu F O]; subst; [constructor | |].
        * apply cr_one; [exact Mu|]. apply item_fields; try assumption. exists ys. auto.
        * inversion U; subst. apply cr_many; [exact Mu | apply items_fields; try assumption; exists yss; auto|].
          assert (Td : Forall tidy (map object yss)). { apply Forall_map. clear -F Pl N. induction F as [|c ys cs yss [_ X] F IHF]; constructor; [exact (fields_tidy _ _ _ _ Pl N X) | exact IHF]. }
          destruct Cp as [->|[_ ->]]; [constructor|]. destruct O as [O|O]; [discriminate O|]. apply primary_through; assumption.
  Qed.
End Env.
