(** Vocabulary for the properties of patch operations (C50, C51). *)
From Verif Require Import PyBase PyNum Issues IssuesSpec AttrRep AttrRepSpec Value Container ContainerSpec Types Attr Schema FilterParse Path Patch
  AttrSpec SchemaSpec PresenceSpec.

(** The attribute or sub-attribute of schema [s] a name stands for: the first
    declared one with that name. *)
Definition denotes (s : schema) (r : attr_rep) (a : attribute) : Prop :=
  exists l1 l2, at_all (sc_attrs s) = l1 ++ a :: l2 /\ same_rep (arep a) r /\ Forall (fun b => ~ same_rep (arep b) r) l1.
(** No attribute of the schema has that name. *)
Definition unknown (s : schema) (r : attr_rep) : Prop := Forall (fun b => ~ same_rep (arep b) r) (at_all (sc_attrs s)).

Definition read_only (a : attribute) : Prop := a_mut (info a) = ReadOnly.
Definition required (a : attribute) : Prop := a_required (info a) = true.

(** One operation of a request: its kind, its path and its value, if given. *)
Record operation := mkOper { o_kind : str; o_path : option str; o_value : option value }.

Definition field (k : str) (o : option value) : list (str * value) := match o with Some v => [(k, v)] | None => [] end.
Definition op_json (o : operation) : value :=
  dict_of (($"op", VStr (o_kind o)) :: field ($"path") (option_map VStr (o_path o)) ++ field ($"value") (o_value o)).
(** The body of a patch request with these operations. *)
Definition request (l : list operation) : value :=
  dict_of [($"schemas", VList [VStr patch_uri]); ($"Operations", VList (map op_json l))].

Section Env.
  Context {env : PyEnv}.

  (** The text is a path, read as [p]. *)
  Definition reads (t : str) (p : patch_path) : Prop := parse_path t = Ok (VPath p, no_issues).

  Definition given (o : option value) : Prop := exists v, o = Some v /\ v <> VNone /\ v <> VMissing.

  (** Requests in good order as far as the shape of operations goes: paths can be
      read, "add" has a value and its path does not end in a filter, "remove" has
      a path, "replace" has either or both. *)
  Definition in_order (o : operation) : Prop :=
    (forall t, o_path o = Some t -> exists p, reads t p)
    /\ o_value o <> Some VMissing
    /\ (o_kind o = $"replace"
        \/ (o_kind o = $"add" /\ given (o_value o)
            /\ forall t p, o_path o = Some t -> reads t p -> p_filter p <> None -> p_sub p <> None)
        \/ (o_kind o = $"remove" /\ o_path o <> None)).

  (** Where the i-th operation and its parts are reported. *)
  Definition at_op (i : nat) : loc := [LStr ($"Operations"); LIdx i].
  Definition at_path (i : nat) : loc := at_op i ++ [LStr ($"path")].
  Definition at_value (i : nat) : loc := at_op i ++ [LStr ($"value")].

  (** The values the request's document has for the operation's value: objects
      and lists of objects are wrapped. *)
  Definition wrap_item (v : value) : value := match v with VDict _ => mk_cont v | _ => v end.
  Definition wrap (v : value) : value := match v with VDict _ => mk_cont v | VList l => VList (map wrap_item l) | _ => v end.

  (** The attribute an "add" or "replace" changes: the sub-attribute behind a
      filter if there is one, else what the path itself names. *)
  Definition changes (s : schema) (p : patch_path) (a : attribute) : Prop :=
    match p_filter p, p_sub p with
    | Some _, Some q => denotes s q a /\ exists t, denotes s (p_rep p) t /\ is_complex t = true
    | _, _ => denotes s (p_rep p) a
    end.
End Env.

(** Processors that never answer with the Missing marker, and attributes all of
    whose own processors are such. *)
Definition giving (p : proc) : Prop := forall v w iss, p v = Ok (w, iss) -> w <> VMissing.
Definition gives (m : method) (a : attribute) : Prop :=
  let for_m (ps ds : list proc) := match m with MParse => ps | MDump => ds end in
  Forall giving (for_m (a_parsers (info a)) (a_dumpers (info a)))
  /\ match a with MkAttr _ None => True | MkAttr _ (Some (_, cps, cds)) => Forall giving (for_m cps cds) end.

(** The i-th operation of the parsed request. *)
Definition parsed_op (y : value) (i : nat) (v : value) : Prop :=
  exists vs, holds y ($"Operations") (VList vs) /\ nth_error vs i = Some v.
