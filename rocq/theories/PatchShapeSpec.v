(** Vocabulary for the shape of patch operations (C58, C59). *)
From Verif Require Import PyBase PyNum Issues IssuesSpec AttrRep AttrRepSpec Value Container ContainerSpec Types Attr Schema FilterParse Path Patch
  AttrSpec SchemaSpec PresenceSpec PatchSpec.

Section Env.
  Context {env : PyEnv}.

  (** Operations whose three parts can be read one by one. *)
  Definition readable (o : operation) : Prop :=
    (forall t, o_path o = Some t -> exists p, reads t p)
    /\ o_value o <> Some VMissing
    /\ (o_kind o = $"add" \/ o_kind o = $"remove" \/ o_kind o = $"replace").

  (** What can be wrong with an operation as a whole, and where that is
      reported. *)
  Inductive shape_fault (o : operation) : error -> loc -> Prop :=
  | remove_without_path : o_kind o = $"remove" -> o_path o = None -> shape_fault o e_missing [LStr ($"path")]
  | add_without_value : o_kind o = $"add" -> ~ given (o_value o) -> shape_fault o e_missing [LStr ($"value")]
  | add_to_selection t p : o_kind o = $"add" -> o_path o = Some t -> reads t p -> p_filter p <> None -> p_sub p = None ->
      shape_fault o e_filter_without_sub [LStr ($"path")].
  Definition faulty (o : operation) : Prop := exists e q, shape_fault o e q.

  (** Nothing is reported about the operation of this index. *)
  Definition accepted (iss : issues) (i : nat) : Prop := forall q, errs_at iss (at_op i ++ q) = [].
End Env.
