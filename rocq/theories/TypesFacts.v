(** Facts about attribute types: base64. *)
From Coq Require Import ZifyN.
From Verif Require Import PyBase BaseFacts PyNum Issues AttrRep Value Base64 Types TypesSpec.
Ltac Zify.zify_post_hook ::= Z.to_euclidean_division_equations.
Local Open Scope N_scope.

Lemma b64_val_spec c v : b64_val c = Some v -> v < 64 /\ b64_chr v = c.
Proof.
  assert (H : match b64_val c with Some v => (v <? 64) && chr_eqb (b64_chr v) c | None => true end = true).
  { revert c. apply check_all_chars. vm_compute. reflexivity. }
  intros E. rewrite E in H. apply andb_prop in H as [H1 H2]. apply N.ltb_lt in H1. apply chr_eqb_eq in H2.
  split; assumption.
Qed.
Lemma b64_chr_val n : n < 64 -> b64_val (b64_chr n) = Some n /\ chr_eqb (b64_chr n) pad_chr = false
  /\ (code (b64_chr n) <? 128) = true /\ b64_digit (b64_chr n) (N.to_nat n).
Proof.
  intros H. assert (C : forallb (fun k => match b64_val (b64_chr (N.of_nat k)) with
      | Some v => (v =? N.of_nat k) | None => false end && negb (chr_eqb (b64_chr (N.of_nat k)) pad_chr)
      && (code (b64_chr (N.of_nat k)) <? 128)
      && match nth_error b64_alphabet k with Some c => chr_eqb c (b64_chr (N.of_nat k)) | None => false end) (seq 0 64) = true)
    by (vm_compute; reflexivity).
  rewrite forallb_forall in C. specialize (C (N.to_nat n)). rewrite N2Nat.id in C.
  specialize (C ltac:(apply in_seq; lia)). apply andb_prop in C as [C C4]. apply andb_prop in C as [C C3].
  apply andb_prop in C as [C1 C2].
  destruct (b64_val (b64_chr n)) as [v|]; [|discriminate]. apply N.eqb_eq in C1 as ->.
  split; [reflexivity|]. split; [apply negb_true_iff; exact C2|]. split; [exact C3|].
  unfold b64_digit. destruct (nth_error b64_alphabet (N.to_nat n)) as [c|]; [|discriminate].
  apply chr_eqb_eq in C4 as ->. reflexivity.
Qed.
Lemma b64_digit_chr c n : b64_digit c n -> (n < 64)%nat /\ c = b64_chr (N.of_nat n).
Proof.
  intros H. assert (Hn : (n < 64)%nat).
  { change 64%nat with (length b64_alphabet). apply nth_error_Some. unfold b64_digit in H. congruence. }
  split; [exact Hn|]. destruct (b64_chr_val (N.of_nat n) ltac:(lia)) as [_ [_ [_ H']]].
  rewrite Nat2N.id in H'. unfold b64_digit in *. congruence.
Qed.

(** One decoding step per alphabet character. *)
Lemma dec_step n t quad left pads out : n < 64 ->
  b64_dec (b64_chr n :: t) quad left pads out =
  if quad =? 0 then b64_dec t 1 n 0 out
  else if quad =? 1 then b64_dec t 2 (n mod 16) 0 (left * 4 + n / 16 :: out)
  else if quad =? 2 then b64_dec t 3 (n mod 4) 0 (left * 16 + n / 4 :: out)
  else b64_dec t 0 0 0 (left * 64 + n :: out).
Proof. intros H. destruct (b64_chr_val n H) as [H1 [H2 _]]. cbn [b64_dec]. rewrite H2, H1. reflexivity. Qed.

Lemma dec_base64 s : base64_text s -> forall out p,
  exists bytes, b64_dec s 0 0 p out = Some (rev out ++ bytes) /\ b64encode bytes = s /\ Forall (fun b => b < 256) bytes.
Proof.
  induction 1 as [|a b c d na nb nc nd t Ha Hb Hc Hd Ht IH|a b c na nb nc Ha Hb Hc|a b na nb Ha Hb]; intros out p.
  - exists []. cbn. rewrite app_nil_r. repeat split. constructor.
  - apply b64_digit_chr in Ha as [Ha ->]. apply b64_digit_chr in Hb as [Hb ->].
    apply b64_digit_chr in Hc as [Hc ->]. apply b64_digit_chr in Hd as [Hd ->].
    set (A := N.of_nat na) in *. set (B := N.of_nat nb) in *. set (C := N.of_nat nc) in *. set (D := N.of_nat nd) in *.
    assert (A < 64) by lia. assert (B < 64) by lia. assert (C < 64) by lia. assert (D < 64) by lia.
    repeat (rewrite dec_step by assumption; cbn [N.eqb Pos.eqb]).
    match goal with |- context [b64_dec t 0 0 0 (?z :: ?y :: ?x :: out)] =>
      set (Z := z); set (Y := y); set (X := x) end.
    destruct (IH (Z :: Y :: X :: out) 0) as [bytes [E1 [E2 E3]]].
    exists (X :: Y :: Z :: bytes). rewrite E1. split; [cbn [rev]; rewrite <- !app_assoc; reflexivity|].
    split.
    + cbn [b64encode]. rewrite E2. unfold X, Y, Z.
      replace ((A * 4 + B / 16) / 4) with A by lia.
      replace ((A * 4 + B / 16) mod 4 * 16 + (B mod 16 * 16 + C / 4) / 16) with B by lia.
      replace ((B mod 16 * 16 + C / 4) mod 16 * 4 + (C mod 4 * 64 + D) / 64) with C by lia.
      replace ((C mod 4 * 64 + D) mod 64) with D by lia. reflexivity.
    + repeat apply Forall_cons; try assumption; unfold X, Y, Z; lia.
  - apply b64_digit_chr in Ha as [Ha ->]. apply b64_digit_chr in Hb as [Hb ->]. apply b64_digit_chr in Hc as [Hc ->].
    set (A := N.of_nat na) in *. set (B := N.of_nat nb) in *. set (C := N.of_nat (4 * nc)) in *.
    assert (A < 64) by lia. assert (B < 64) by lia. assert (C < 64) by lia. assert (HC : C mod 4 = 0) by (unfold C; lia).
    repeat (rewrite dec_step by assumption; cbn [N.eqb Pos.eqb]).
    cbn [b64_dec]. change (chr_eqb "=" pad_chr) with true. cbv iota. cbn [N.leb N.compare Pos.compare Pos.compare_cont N.add Pos.add].
    exists [A * 4 + B / 16; B mod 16 * 16 + C / 4]. split; [cbn [rev]; rewrite <- !app_assoc; reflexivity|].
    split.
    + cbn [b64encode].
      replace ((A * 4 + B / 16) / 4) with A by lia.
      replace ((A * 4 + B / 16) mod 4 * 16 + (B mod 16 * 16 + C / 4) / 16) with B by lia.
      replace ((B mod 16 * 16 + C / 4) mod 16 * 4) with C by lia. reflexivity.
    + repeat apply Forall_cons; try apply Forall_nil; lia.
  - apply b64_digit_chr in Ha as [Ha ->]. apply b64_digit_chr in Hb as [Hb ->].
    set (A := N.of_nat na) in *. set (B := N.of_nat (16 * nb)) in *.
    assert (A < 64) by lia. assert (B < 64) by lia. assert (HB : B mod 16 = 0) by (unfold B; lia).
    repeat (rewrite dec_step by assumption; cbn [N.eqb Pos.eqb]).
    cbn [b64_dec]. change (chr_eqb "=" pad_chr) with true. cbv iota. cbn [N.leb N.compare Pos.compare Pos.compare_cont N.add Pos.add].
    exists [A * 4 + B / 16]. split; [cbn [rev]; reflexivity|]. split.
    + cbn [b64encode]. replace ((A * 4 + B / 16) / 4) with A by lia.
      replace ((A * 4 + B / 16) mod 4 * 16) with B by lia. reflexivity.
    + repeat apply Forall_cons; try apply Forall_nil; lia.
Qed.

(** Decoded bytes are bytes. *)
Lemma dec_bytes s : forall quad left pads out bytes,
  (quad = 0 \/ (quad = 1 /\ left < 64) \/ (quad = 2 /\ left < 16) \/ (quad = 3 /\ left < 4)) ->
  Forall (fun b => b < 256) out -> b64_dec s quad left pads out = Some bytes -> Forall (fun b => b < 256) bytes.
Proof.
  induction s as [|c t IH]; intros quad left pads out bytes Hq Ho H; cbn [b64_dec] in H.
  - destruct (quad =? 0); [|discriminate]. injection H as <-. apply Forall_rev; exact Ho.
  - destruct (chr_eqb c pad_chr).
    + destruct (2 <=? quad).
      * destruct (4 <=? quad + (pads + 1)); [injection H as <-; apply Forall_rev; exact Ho|].
        eapply IH; [exact Hq | exact Ho | exact H].
      * eapply IH; [exact Hq | exact Ho | exact H].
    + destruct (b64_val c) as [v|] eqn:Ev; [|eapply IH; [exact Hq | exact Ho | exact H]].
      apply b64_val_spec in Ev as [Hv _].
      destruct Hq as [->|[[-> Hl]|[[-> Hl]|[-> Hl]]]]; cbn [N.eqb Pos.eqb] in H;
        (eapply IH; [| |exact H]); try (constructor; [lia | exact Ho]); try exact Ho; lia.
Qed.

(** Encoded bytes are canonical text. *)
Lemma digit_of n : n < 64 -> b64_digit (b64_chr n) (N.to_nat n).
Proof. intros H. apply b64_chr_val; exact H. Qed.
Lemma enc_base64 n : forall bytes, (length bytes <= n)%nat -> Forall (fun b => b < 256) bytes -> base64_text (b64encode bytes).
Proof.
  induction n as [|n IH]; intros bytes Hl Hb.
  - destruct bytes; [constructor | cbn in Hl; lia].
  - destruct bytes as [|a [|b [|c t]]]; cbn [b64encode].
    + constructor.
    + inversion Hb; subst. apply b64_pad2 with (na := N.to_nat (a / 4)) (nb := N.to_nat (a mod 4)).
      * apply digit_of; lia.
      * replace (16 * N.to_nat (a mod 4))%nat with (N.to_nat (a mod 4 * 16)) by lia. apply digit_of; lia.
    + inversion Hb as [|? ? Ha Hb']; subst. inversion Hb'; subst.
      apply b64_pad1 with (na := N.to_nat (a / 4)) (nb := N.to_nat (a mod 4 * 16 + b / 16)) (nc := N.to_nat (b mod 16)).
      * apply digit_of; lia.
      * apply digit_of; lia.
      * replace (4 * N.to_nat (b mod 16))%nat with (N.to_nat (b mod 16 * 4)) by lia. apply digit_of; lia.
    + inversion Hb as [|? ? Ha Hb']; subst. inversion Hb' as [|? ? Hb2 Hb3]; subst. inversion Hb3 as [|? ? Hc Ht]; subst.
      eapply b64_group; [apply digit_of; lia .. |]. apply IH; [cbn in Hl; lia | exact Ht].
Qed.

Lemma base64_ascii s : base64_text s -> is_ascii_text s = true.
Proof.
  assert (D : forall c n, b64_digit c n -> (code c <? 128) = true).
  { intros c n H. apply b64_digit_chr in H as [Hn ->]. apply b64_chr_val. lia. }
  induction 1; unfold is_ascii_text in *; cbn [forallb]; repeat (erewrite D by eassumption); cbn [andb];
    try assumption; reflexivity.
Qed.

Lemma validate_iff s : validate_encoding s = Ok None <-> base64_text s.
Proof.
  unfold validate_encoding. split.
  - destruct (is_ascii_text s); [|discriminate]. destruct (b64decode s) as [bytes|] eqn:E; [|discriminate].
    destruct (str_eqb (b64encode bytes) s) eqn:Es; [|discriminate]. intros _. apply str_eqb_eq in Es as <-.
    apply enc_base64 with (n := length bytes); [lia|].
    unfold b64decode in E. eapply dec_bytes; [left; reflexivity | constructor | exact E].
  - intros H. rewrite (base64_ascii s H). destruct (dec_base64 s H [] 0) as [bytes [E [E2 _]]].
    unfold b64decode. rewrite E. cbn [rev app]. rewrite E2, str_eqb_refl. reflexivity.
Qed.
Lemma validate_cases s :
  validate_encoding s = if is_ascii_text s then
     (if match b64decode s with Some bytes => str_eqb (b64encode bytes) s | None => false end then Ok None else Ok (Some e_base64))
  else Raise ValueErr.
Proof.
  unfold validate_encoding. destruct (is_ascii_text s); [|reflexivity]. destruct (b64decode s); [|reflexivity].
  destruct (str_eqb _ s); reflexivity.
Qed.
