(** Vocabulary for requests to modify a resource that are always answered (C84). *)
From Verif Require Import PyBase PyNum Issues IssuesSpec AttrRep AttrRepSpec Value Container ContainerSpec Types Attr Schema FilterParse Path Patch
  AttrSpec SchemaSpec TotalSpec PatchSpec.

(** Attributes whose sub-attributes are simple. *)
Definition flat (a : attribute) : Prop := Forall (fun b => is_complex b = false) (sub_attrs a).
(** Multi-valued complex attributes. *)
Definition several (a : attribute) : Prop := is_complex a = true /\ a_multi (info a) = true.

(** The path's targets exist. *)
Definition known (s : schema) (p : patch_path) : Prop :=
  (exists a, denotes s (p_rep p) a) /\ (p_sub p = None \/ exists q b, p_sub p = Some q /\ denotes s q b).

(** Wherever the document has something under the name of a multi-valued complex
    attribute, at the top or in an extension's object, it is a list. *)
Definition lists_several (s : schema) (c : value) : Prop :=
  forall a n x, In a (at_top (sc_attrs s)) -> several a -> same_text n (r_attr (arep a)) ->
    (holds c n x \/ exists u e, In u (map fst (sc_exts s)) /\ holds c u e /\ holds e n x) -> exists l, x = VList l.

Section Env.
  Context {env : PyEnv}.

  (** Operations with a value to work on: any but null with a path, an object that
      uses URIs as intended without one. *)
  Definition workable (s : schema) (o : operation) : Prop :=
    o_kind o = $"remove" \/
    match o_path o with
    | Some _ => exists v, o_value o = Some v /\ tame v /\ v <> VNone
    | None => exists d, o_value o = Some (VDict d) /\ tame (VDict d) /\ well_placed s (mk_cont (VDict d))
    end.

  (** Operations on what exists, with lists for multi-valued complex attributes,
      which may be written. *)
  Definition apt (s : schema) (o : operation) : Prop :=
    match o_path o with
    | Some t => forall p, reads t p -> known s p
                /\ (o_kind o = $"remove" \/ forall a, changes s p a -> several a -> ~ read_only a /\ exists l, o_value o = Some (VList l))
    | None => forall d, o_value o = Some (VDict d) -> lists_several s (mk_cont (VDict d))
    end.
End Env.
