(** A decision procedure for being a JSON document, used in examples. *)
From Verif Require Import PyBase BaseFacts PyNum AttrRep Value Container ContainerSpec ContainerFacts ValueFacts PropContainer.

Fixpoint jsonb (v : value) : bool :=
  match v with
  | VNone | VBool _ | VInt _ | VFloat _ | VStr _ => true
  | VList l => forallb jsonb l
  | VDict d => nodupb dkey_eqb (map fst d) && forallb (fun e => match fst e with KStr _ => jsonb (snd e) | _ => false end) d
  | _ => false
  end.
Lemma json_check v : jsonb v = true -> json v.
Proof.
  induction v as [v Ha|l IH|d IH|data l2o IH] using value_ind2; intros H.
  - destruct v; try discriminate; try constructor; destruct Ha.
  - constructor. cbn [jsonb] in H. rewrite forallb_forall in H. rewrite Forall_forall in *. auto.
  - cbn [jsonb] in H. apply andb_prop in H as [H1 H2]. rewrite forallb_forall in H2. rewrite Forall_forall in IH. constructor.
    + exact (nodupb_ok dkey_eqb dkey_eqb_refl _ H1).
    + rewrite Forall_forall. intros [k x] Hin. specialize (H2 _ Hin). cbn [fst snd] in *. destruct k; [eexists; reflexivity | discriminate].
    + rewrite Forall_forall. intros [k x] Hin. specialize (H2 _ Hin). specialize (IH _ Hin). cbn [fst snd] in *. destruct k; [auto | discriminate].
  - discriminate.
Qed.
