(** Properties C16-C19: attribute types (src/data/type.py). *)
From Verif Require Import PyBase BaseFacts PyNum NumFacts NumSpec NumRound Issues AttrRep Value Container ContainerSpec
  ContainerEq Base64 Types TypesSpec TypesFacts.

Lemma pass_accepted v : accepted v (pass v).
Proof. repeat split. Qed.
Lemma fail_rejected e : rejected e (fail e).
Proof. repeat split. Qed.

(** ** C16: scalar types *)

Section Env.
  Context {env : PyEnv}.

  (** The isinstance-checked types and what they expect. *)
  Definition expects (t : atype) : option ((value -> Prop) * str) :=
    match t with
    | TBoolean => Some (json_bool_value, $"boolean")
    | TString | TUriRef | TScimRef => Some (json_string, $"string")
    | TComplex => Some (object_value, $"complex")
    | _ => None
    end.

  Theorem C16_exact_type : forall m t P name v, expects t = Some (P, name) ->
    exists o, type_proc m t v = Ok o
    /\ (P v -> accepted v o) /\ (~ P v -> rejected (mkErr 2 [name; scim_type_of v]) o).
  Proof.
    assert (G : forall ok (P : value -> Prop) name v, (ok = true <-> P v) ->
      (P v -> accepted v (type_check ok name v))
      /\ (~ P v -> rejected (mkErr 2 [name; scim_type_of v]) (type_check ok name v))).
    { intros ok P name v H. unfold type_check. destruct ok.
      - split; [intros _; apply pass_accepted | intros Hn; exfalso; apply Hn; apply H; reflexivity].
      - split; [intros Hp; apply H in Hp; discriminate | intros _; apply fail_rejected]. }
    assert (B : forall v, is_bool v = true <-> json_bool_value v).
    { intros v; split; [destruct v; try discriminate; intros _; eexists; reflexivity | intros [b ->]; reflexivity]. }
    assert (S : forall v, is_str v = true <-> json_string v).
    { intros v; split; [destruct v; try discriminate; intros _; eexists; reflexivity | intros [b ->]; reflexivity]. }
    assert (C : forall v, is_cont v = true <-> object_value v).
    { intros v; split; [destruct v; try discriminate; intros _; eexists _, _; reflexivity | intros [d [m ->]]; reflexivity]. }
    intros m t P name v H.
    destruct t; try discriminate; injection H as <- <-; cbn [type_proc]; eexists; (split; [reflexivity|]);
      apply G; first [apply B | apply S | apply C].
  Qed.

  (** References to external resources: strings that are absolute URLs. *)
  Theorem C16_external_reference : forall m v, exists o, type_proc m TExternalRef v = Ok o
    /\ (forall s, v = VStr s -> env_abs_url s = true -> accepted v o)
    /\ (forall s, v = VStr s -> env_abs_url s = false -> rejected (mkErr 8 [s]) o)
    /\ (~ json_string v -> rejected (mkErr 2 [$"string"; scim_type_of v]) o).
  Proof.
    intros m v. cbn [type_proc]. eexists; split; [reflexivity|].
    split; [|split].
    - intros s -> H. cbn. rewrite H. apply pass_accepted.
    - intros s -> H. cbn. rewrite H. apply fail_rejected.
    - intros H. destruct v; try apply fail_rejected. exfalso; apply H; eexists; reflexivity.
  Qed.

  Example C16_example :
    expects TString = Some (json_string, $"string") /\ json_string (VStr ($"x")) /\ ~ json_string (VInt 1)
    /\ type_proc MParse TString (VInt 1) = Ok (fail (mkErr 2 [$"string"; $"integer"]))
    /\ type_proc MParse TBoolean (VBool false) = Ok (pass (VBool false)).
  Proof. repeat split; [eexists; reflexivity | intros [s H]; discriminate]. Qed.

  (** ** C17: integers and decimals *)

  (** Full claim: every value that is neither an integer nor an integral float
      gives Invalid with a bad_type issue and parsing never raises.  Infinite
      floats and NaN raise, and booleans are accepted. *)
  Theorem C17_integer_total_refuted :
    (exists v, type_proc MParse TInteger v = Raise OverflowErr) /\ (exists v, type_proc MParse TInteger v = Raise ValueErr).
  Proof. split; [exists (VFloat (FInf false)) | exists (VFloat FNan)]; reflexivity. Qed.

  Theorem C17_integer_bool_refuted : exists v o, json_bool_value v /\ type_proc MParse TInteger v = Ok o /\ accepted v o.
  Proof. exists (VBool true). eexists. split; [eexists; reflexivity|]. split; [reflexivity | apply pass_accepted]. Qed.

  Theorem C17_integer_unchanged : forall m z, exists o, type_proc m TInteger (VInt z) = Ok o /\ accepted (VInt z) o.
  Proof. intros m z. eexists; split; [reflexivity | apply pass_accepted]. Qed.

  (** Finite floats are accepted exactly when integral, as the equal integer. *)
  Theorem C17_integer_float : forall m n e, exists o, type_proc m TInteger (VFloat (FFin n e)) = Ok o
    /\ (forall z, same_number (FFin n e) (FFin z 0) -> accepted (VInt z) o)
    /\ ((forall z, ~ same_number (FFin n e) (FFin z 0)) -> rejected (mkErr 2 [$"integer"; $"decimal"]) o).
  Proof.
    intros m n e. cbn [type_proc integer_proc int_of_float bind].
    set (z0 := if (0 <=? e)%Z then (n * 2 ^ e)%Z else Z.quot n (2 ^ - e)).
    assert (Hz : forall z, same_number (FFin n e) (FFin z 0) -> z = z0).
    { intros z [k [H1 [H2 H3]]]. unfold z0. destruct (Z.leb_spec 0 e) as [He|He].
      - assert (E : (n * 2 ^ e * 2 ^ k = z * 2 ^ k)%Z).
        { rewrite <- Z.mul_assoc, <- Z.pow_add_r by lia. exact H3. }
        apply Z.mul_reg_r in E; [symmetry; exact E|]. pose proof (pow2_pos k ltac:(lia)). lia.
      - assert (E : (n * 2 ^ (e + k) = z * 2 ^ (- e) * 2 ^ (e + k))%Z).
        { rewrite H3, <- Z.mul_assoc, <- Z.pow_add_r by lia. f_equal. f_equal. lia. }
        pose proof (pow2_pos (e + k) ltac:(lia)). pose proof (pow2_pos (- e) ltac:(lia)).
        apply Z.mul_reg_r in E; [|lia]. rewrite E, Z.quot_mul by lia. reflexivity. }
    destruct (feqb (fint z0) (FFin n e)) eqn:Ef.
    - eexists; split; [reflexivity|]. rewrite feqb_sym in Ef. apply same_number_iff in Ef. split.
      + intros z H. rewrite (Hz z H). apply pass_accepted.
      + intros H. exfalso. exact (H z0 Ef).
    - eexists; split; [reflexivity|]. split.
      + intros z H. exfalso. pose proof (Hz z H) as ->. apply same_number_iff in H. rewrite feqb_sym in H.
        unfold fint in Ef. congruence.
      + intros _. apply fail_rejected.
  Qed.

  (** Everything else is rejected. *)
  Theorem C17_integer_other : forall m v, (forall z, v <> VInt z) -> (forall b, v <> VBool b) -> (forall f, v <> VFloat f) ->
    exists o, type_proc m TInteger v = Ok o /\ rejected (mkErr 2 [$"integer"; scim_type_of v]) o.
  Proof.
    intros m v H1 H2 H3. destruct v; try (eexists; split; [reflexivity | apply fail_rejected]).
    - exfalso; apply (H2 b); reflexivity.
    - exfalso; apply (H1 z); reflexivity.
    - exfalso; apply (H3 f); reflexivity.
  Qed.

  (** Decimals: full claim refuted for integers beyond the float range. *)
  Theorem C17_decimal_total_refuted : exists v, type_proc MParse TDecimal v = Raise OverflowErr.
  Proof. exists (VInt (2 ^ 1024)). vm_compute. reflexivity. Qed.

  (** An integer becomes a nearest float, and OverflowError is raised exactly
      from 2^1024 - 2^970 on. *)
  Theorem C17_decimal_int : forall m z,
    (overflows z 1 /\ type_proc m TDecimal (VInt z) = Raise OverflowErr)
    \/ (~ overflows z 1 /\ exists f o, type_proc m TDecimal (VInt z) = Ok o /\ accepted (VFloat f) o /\ nearest z 1 f).
  Proof.
    intros m z. cbn [type_proc]. unfold decimal_proc. cbn [is_int integer_proc type_check pass bind to_float].
    destruct (float_of_int_spec z) as [[H ->]|[H [f [-> Hf]]]].
    - left. split; [exact H | reflexivity].
    - right. split; [exact H|]. exists f. eexists. split; [reflexivity|]. split; [apply pass_accepted | exact Hf].
  Qed.

  (** ... which is exact for integers of at most 53 bits. *)
  Theorem C17_decimal_int_exact : forall m z, (Z.abs z < 2 ^ 53)%Z ->
    exists f o, type_proc m TDecimal (VInt z) = Ok o /\ accepted (VFloat f) o /\ same_number f (FFin z 0).
  Proof.
    intros m z Hz. destruct (C17_decimal_int m z) as [[H _]|[_ [f [o [H1 [H2 H3]]]]]].
    - exfalso. unfold overflows in H. rewrite Z.mul_1_r in H.
      assert (2 ^ 53 <= 2 ^ 1024 - 2 ^ 970)%Z by (vm_compute; discriminate). lia.
    - exists f, o. split; [exact H1|]. split; [exact H2|].
      destruct H3 as [[n [e [-> [He _]]]] H3].
      assert (Hd : double (FFin z 0)).
      { exists z, 0%Z. split; [reflexivity|]. split; [lia|]. cbn [units]. split.
        - rewrite Z.abs_mul. rewrite (Z.abs_eq (2 ^ (0 + 1074))) by (vm_compute; discriminate).
          replace (1024 + 1074)%Z with (1024 + (0 + 1074))%Z by lia. rewrite (Z.pow_add_r 2 1024) by lia.
          apply Z.mul_lt_mono_pos_r; [vm_compute; reflexivity|]. apply Z.lt_trans with (2 ^ 53)%Z; [exact Hz | vm_compute; reflexivity].
        - exists z, 0%Z. split; [exact Hz|]. split; [lia | reflexivity]. }
      specialize (H3 _ Hd). cbn [units] in H3. rewrite !Z.mul_1_r in H3. replace (0 + 1074)%Z with 1074%Z in H3 by lia.
      rewrite Z.sub_diag in H3. cbn [Z.abs] in H3.
      exists 1074%Z. split; [lia|]. split; [lia|]. replace (0 + 1074)%Z with 1074%Z by lia. lia.
  Qed.

  Theorem C17_decimal_float : forall m f, exists o, type_proc m TDecimal (VFloat f) = Ok o /\ accepted (VFloat f) o.
  Proof. intros m f. eexists; split; [reflexivity | apply pass_accepted]. Qed.

  Theorem C17_decimal_other : forall m v, (forall z, v <> VInt z) -> (forall b, v <> VBool b) -> (forall f, v <> VFloat f) ->
    exists o, type_proc m TDecimal v = Ok o /\ rejected (mkErr 2 [$"decimal"; scim_type_of v]) o.
  Proof.
    intros m v H1 H2 H3. destruct v; try (eexists; split; [reflexivity | apply fail_rejected]).
    - exfalso; apply (H2 b); reflexivity.
    - exfalso; apply (H1 z); reflexivity.
    - exfalso; apply (H3 f); reflexivity.
  Qed.

  Example C17_example :
    type_proc MParse TInteger (VFloat (FFin 3 2)) = Ok (pass (VInt 12))
    /\ type_proc MParse TInteger (VFloat (FFin 3 (-1))) = Ok (fail (mkErr 2 [$"integer"; $"decimal"]))
    /\ type_proc MParse TDecimal (VInt 9007199254740993) = Ok (pass (VFloat (FFin 1 53)))
    /\ ~ overflows 9007199254740993 1 /\ overflows (2 ^ 1024) 1.
  Proof.
    split; [reflexivity|]. split; [reflexivity|]. split; [vm_compute; reflexivity|].
    split; [intros H; vm_compute in H; apply H; reflexivity | vm_compute; discriminate].
  Qed.

  (** ** C18: binary values *)

  (** Full claim: parsing never raises.  Text outside ASCII raises
      UnicodeEncodeError. *)
  Theorem C18_total_refuted : exists s, type_proc MParse TBinary (VStr s) = Raise ValueErr.
  Proof. exists [ascii_of_nat 233]. vm_compute. reflexivity. Qed.

  Theorem C18_accepts_canonical : forall m s, base64_text s ->
    exists o, type_proc m TBinary (VStr s) = Ok o /\ accepted (VStr s) o.
  Proof.
    intros m s H. cbn [type_proc binary_proc]. rewrite (proj2 (validate_iff s) H). cbn [bind].
    eexists; split; [reflexivity | apply pass_accepted].
  Qed.

  Theorem C18_rejects_others : forall m s, ~ base64_text s ->
    (forallb (fun c => N.ltb (code c) 128) s = true ->
     exists o, type_proc m TBinary (VStr s) = Ok o /\ rejected (mkErr 3 [$"binary"]) o)
    /\ (forallb (fun c => N.ltb (code c) 128) s = false -> type_proc m TBinary (VStr s) = Raise ValueErr).
  Proof.
    intros m s H. rewrite <- validate_iff in H. rewrite validate_cases in H.
    split; intros Ha; cbn [type_proc binary_proc]; rewrite validate_cases; unfold is_ascii_text in *; rewrite Ha in *.
    - destruct (match b64decode s with Some bytes => str_eqb (b64encode bytes) s | None => false end); [contradiction|].
      cbn [bind]. eexists; split; [reflexivity | apply fail_rejected].
    - reflexivity.
  Qed.

  (** Canonical text is the encoding of some bytes. *)
  Theorem C18_canonical_is_encoding : forall s,
    base64_text s <-> exists bytes, Forall (fun b => (b < 256)%N) bytes /\ b64encode bytes = s.
  Proof.
    intros s. split.
    - intros H. destruct (dec_base64 s H [] 0%N) as [bytes [_ [E F]]]. exists bytes. split; assumption.
    - intros [bytes [F <-]]. apply enc_base64 with (n := length bytes); [apply Nat.le_refl | exact F].
  Qed.

  Theorem C18_not_text : forall m v, ~ json_string v ->
    exists o, type_proc m TBinary v = Ok o /\ rejected (mkErr 2 [$"string"; scim_type_of v]) o.
  Proof.
    intros m v H. destruct v; try (eexists; split; [reflexivity | apply fail_rejected]).
    exfalso; apply H; eexists; reflexivity.
  Qed.

  Example C18_example :
    base64_text ($"aGVsbG8=") /\ type_proc MParse TBinary (VStr ($"aGVsbG8=")) = Ok (pass (VStr ($"aGVsbG8=")))
    /\ type_proc MParse TBinary (VStr ($"aGVsbG9=")) = Ok (fail (mkErr 3 [$"binary"])) /\ ~ base64_text ($"aGVsbG9=").
  Proof.
    split; [apply validate_iff; vm_compute; reflexivity|]. split; [vm_compute; reflexivity|].
    split; [vm_compute; reflexivity|]. rewrite <- validate_iff. vm_compute. discriminate.
  Qed.

  (** ** C19: dates *)

  Theorem C19_parse_exact : forall v, exists o, type_proc MParse TDateTime v = Ok o
    /\ (forall d, accepted (VDate d) o <-> exists s, v = VStr s /\ env_fromiso s = Some d)
    /\ (rejected (err 1) o <-> exists s, v = VStr s /\ env_fromiso s = None)
    /\ (rejected (mkErr 2 [$"string"; scim_type_of v]) o <-> ~ json_string v).
  Proof.
    intros v. eexists; split; [reflexivity|]. unfold datetime_parse.
    destruct v; try (split; [|split];
      [intros d0; split; [intros [H _]; discriminate H | intros [? [H _]]; discriminate H]
      |split; [intros [_ [H _]]; discriminate H | intros [? [H _]]; discriminate H]
      |split; [intros _ [? H]; discriminate H | intros _; apply fail_rejected]]).
    destruct (env_fromiso s) as [d|] eqn:E.
    - split; [|split].
      + intros d0; split.
        * intros [H _]. cbn in H. injection H as <-. exists s. split; [reflexivity | exact E].
        * intros [s' [H1 H2]]. injection H1 as <-. rewrite E in H2. injection H2 as <-. apply pass_accepted.
      + split; [intros [H _]; discriminate H|]. intros [s' [H1 H2]]. injection H1 as <-. congruence.
      + split; [intros [H _]; discriminate H|]. intros H. exfalso; apply H; eexists; reflexivity.
    - split; [|split].
      + intros d0; split; [intros [H _]; discriminate H|]. intros [s' [H1 H2]]. injection H1 as <-. congruence.
      + split; [|intros _; apply fail_rejected]. intros _. exists s. split; [reflexivity | exact E].
      + split; [intros [_ [H _]]; discriminate H|]. intros H. exfalso; apply H; eexists; reflexivity.
  Qed.

  (** Dumping what was parsed gives its ISO text; when the ISO text of a date
      reads back as that date, parse after dump is the identity. *)
  Theorem C19_parse_dump : forall s d, env_fromiso s = Some d ->
    exists o o', type_proc MParse TDateTime (VStr s) = Ok o /\ type_proc MDump TDateTime (fst o) = Ok o'
    /\ accepted (VStr (env_isofmt d)) o'
    /\ (env_fromiso (env_isofmt d) = Some d -> type_proc MParse TDateTime (fst o') = Ok o).
  Proof.
    intros s d H. eexists _, _. split; [reflexivity|]. cbn [type_proc datetime_parse]. rewrite H.
    split; [reflexivity|]. split; [apply pass_accepted|]. intros H2. cbn [fst pass datetime_dump datetime_parse].
    rewrite H2. reflexivity.
  Qed.
End Env.

Print Assumptions C16_exact_type.
Print Assumptions C16_external_reference.
Print Assumptions C17_integer_total_refuted.
Print Assumptions C17_integer_bool_refuted.
Print Assumptions C17_integer_unchanged.
Print Assumptions C17_integer_float.
Print Assumptions C17_integer_other.
Print Assumptions C17_decimal_total_refuted.
Print Assumptions C17_decimal_int.
Print Assumptions C17_decimal_int_exact.
Print Assumptions C17_decimal_float.
Print Assumptions C17_decimal_other.
Print Assumptions C18_total_refuted.
Print Assumptions C18_accepts_canonical.
Print Assumptions C18_rejects_others.
Print Assumptions C18_canonical_is_encoding.
Print Assumptions C18_not_text.
Print Assumptions C19_parse_exact.
Print Assumptions C19_parse_dump.
