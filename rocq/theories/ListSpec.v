(** Vocabulary for the properties of list responses (C56, C57). *)
From Verif Require Import PyBase PyNum Issues IssuesSpec AttrRep AttrRepSpec Value Container ContainerSpec Types Attr Schema Assets Match FilterParse Path Sort Patch ListResp Search Bulk Requests
  AttrSpec SchemaSpec MatchSpec PresenceSpec PatchSpec RequestSpec.

Section Env.
  Context {env : PyEnv}.

  (** An optional whole number, respectively an optional list, in a document. *)
  Definition given_int (doc : value) (n : str) (o : option Z) : Prop :=
    match o with Some z => holds (mk_cont doc) n (VInt z) | None => forall x, holds (mk_cont doc) n x -> x = VMissing end.
  Definition given_list (doc : value) (n : str) (o : option (list value)) : Prop :=
    match o with Some l => holds (mk_cont doc) n (VList l) | None => forall x, holds (mk_cont doc) n x -> x = VMissing end.
  Definition at_field (n : str) : loc := at_body [LStr n].

  (** The pagination rules, for a request for resources from position [req] on, at
      most [count] of them, and an answer with [t] results in total, [n] of them
      on this page, start index [si] and page size [ipp]: which error belongs to
      which field of the answer. *)
  Section Rules.
    Variables (req : Z) (count : option Z) (t n : Z) (si ipp : option Z).
    (** The page size is the number of the resources. *)
    Definition rule_page_size : Prop := forall p, ipp = Some p -> p = n.
    (** There are not more resources than results. *)
    Definition rule_total : Prop := (n <= t)%Z.
    (** Without a limit there are all of them, with a limit not more than it. *)
    Definition rule_all : Prop := count = None -> (t <= n)%Z.
    Definition rule_count : Prop := forall c, count = Some c -> (n <= c)%Z.
    (** The answer does not begin after the position asked for. *)
    Definition rule_start : Prop := forall s, si = Some s -> (s <= req)%Z.
    (** A page that is not the whole says where it begins and how long it is. *)
    Definition partial_page : Prop := (n < t)%Z /\ exists c, count = Some c /\ (0 < c)%Z.
    Definition rule_start_given : Prop := partial_page -> si <> None.
    Definition rule_size_given : Prop := partial_page -> ipp <> None.

    (** The errors that broken rules call for. *)
    Inductive called_for : str -> error -> Prop :=
    | cf_size : ~ rule_page_size -> called_for ($"itemsPerPage") (e_must_equal ($"number of resources"))
    | cf_resources : ~ rule_page_size -> called_for ($"Resources") (e_must_equal ($"itemsPerPage"))
    | cf_total : ~ rule_total -> called_for ($"Resources") e_total_mismatch
    | cf_all : ~ rule_all -> called_for ($"Resources") e_too_little_results
    | cf_count : ~ rule_count -> called_for ($"Resources") e_too_many_results
    | cf_start : ~ rule_start -> called_for ($"startIndex") e_start_index
    | cf_start_given : ~ rule_start_given -> called_for ($"startIndex") e_missing
    | cf_size_given : ~ rule_size_given -> called_for ($"itemsPerPage") e_missing.
  End Rules.

  (** The fields with the numbers. *)
  Definition counted : list str := [$"totalResults"; $"startIndex"; $"itemsPerPage"; $"Resources"].

  (** The resources as they are after dumping, their schemas, and no complaint
      about any of them. *)
  Definition prepared (schemas : list schema) (doc : value) (rs : list value) (ss : list schema_ref) : Prop :=
    exists y js, list_dump schemas doc = Ok (y, js) /\ get_item y (list_rep ($"Resources")) = Ok (VList rs) /\ schemas_for schemas rs = Ok ss
    /\ forall p, errs_at js (LStr ($"Resources") :: p) = [].
  (** The resource is dumped without complaint. *)
  Definition dumped (s : schema) (x x' : value) : Prop := exists j, schema_dump s x = Ok (x', j) /\ forall p, errs_at j p = [].
End Env.
