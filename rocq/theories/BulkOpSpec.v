(** Vocabulary for the operations of bulk requests (C60, C61). *)
From Verif Require Import PyBase PyNum Issues IssuesSpec AttrRep AttrRepSpec Value Container ContainerSpec Types Attr Schema Patch Bulk Requests
  AttrSpec PatchSpec.

(** One operation of a bulk request: its method and the parts that are given. *)
Record bulk_op := mkBulkOp { k_method : str; k_id : option str; k_version : option str; k_path : option str; k_data : option value }.

Definition bulk_op_json (o : bulk_op) : value :=
  dict_of (($"method", VStr (k_method o)) :: field ($"bulkId") (option_map VStr (k_id o)) ++ field ($"version") (option_map VStr (k_version o))
           ++ field ($"path") (option_map VStr (k_path o)) ++ field ($"data") (k_data o)).
(** The body of a bulk request with these operations, and a number of tolerated
    errors if given. *)
Definition bulk_document (f : option Z) (l : list bulk_op) : value :=
  dict_of (($"schemas", VList [VStr ($"urn:ietf:params:scim:api:messages:2.0:BulkRequest")])
           :: field ($"failOnErrors") (option_map VInt f) ++ [($"Operations", VList (map bulk_op_json l))]).

(** Operations with one of the five methods, in upper-case letters. *)
Definition callable (o : bulk_op) : Prop :=
  In (k_method o) [$"GET"; $"POST"; $"PUT"; $"PATCH"; $"DELETE"] /\ k_data o <> Some VMissing.
(** Those that need data. *)
Definition sends (o : bulk_op) : Prop := In (k_method o) [$"POST"; $"PUT"; $"PATCH"].

(** Paths that name a type of resources, and paths that name one resource. *)
Definition slash_ : ascii := "/"%char.
Definition newline_ : ascii := ascii_of_N 10.
Definition type_path (n p : str) : Prop := word n /\ p = slash_ :: n.
Definition object_path (n p : str) : Prop := word n /\ exists rest, p = slash_ :: n ++ slash_ :: rest /\ ~ In newline_ rest.
(** The name of the resources a path is about. *)
Definition about (o : bulk_op) (n p : str) : Prop :=
  k_method o = $"POST" /\ type_path n p \/ k_method o <> $"POST" /\ object_path n p.

(** What can be wrong with an operation apart from its data, and where that is
    reported. *)
Inductive bulk_fault (o : bulk_op) : error -> loc -> Prop :=
| post_without_id : k_method o = $"POST" -> k_id o = None -> bulk_fault o e_missing [LStr ($"bulkId")]
| without_path : k_path o = None \/ k_path o = Some [] -> bulk_fault o e_missing [LStr ($"path")]
| no_type_path p : k_method o = $"POST" -> k_path o = Some p -> (forall n, ~ type_path n p) -> bulk_fault o e_type_endpoint [LStr ($"path")]
| no_object_path p : k_method o <> $"POST" -> k_path o = Some p -> (forall n, ~ object_path n p) -> bulk_fault o e_object_endpoint [LStr ($"path")]
| without_data : sends o -> ~ given (k_data o) -> bulk_fault o e_missing [LStr ($"data")].
(** A fault of its path or its data. *)
Definition unusable (o : bulk_op) : Prop := exists e, bulk_fault o e [LStr ($"path")] \/ bulk_fault o e [LStr ($"data")].

(** The schema that serves resources of a name: the last one with that plural
    name. *)
Definition serves (schemas : list schema) (n : str) (s : schema) : Prop :=
  exists l1 l2, schemas = l1 ++ s :: l2 /\ sc_plural s = n /\ Forall (fun x => sc_plural x <> n) l2.

(** Where the i-th operation is reported. *)
Definition at_bulk (i : nat) : loc := [LStr ($"body"); LStr ($"Operations"); LIdx i].

Section Env.
  Context {env : PyEnv}.

  (** The request the operation stands for, sent on its own without headers and
      query. *)
  Inductive alone (s : schema) (o : bulk_op) : Requests.request -> issues -> Prop :=
  | alone_get rq iss : k_method o = $"GET" -> get_parse VMissing VNone VNone = Ok (rq, iss) -> alone s o rq iss
  | alone_post d rq iss : k_method o = $"POST" -> k_data o = Some d -> post_parse s d VNone VNone = Ok (rq, iss) -> alone s o rq iss
  | alone_put d rq iss : k_method o = $"PUT" -> k_data o = Some d -> put_parse s d VNone VNone = Ok (rq, iss) -> alone s o rq iss
  | alone_patch d rq iss : k_method o = $"PATCH" -> k_data o = Some d -> patch_parse_request s d VNone VNone = Ok (rq, iss) -> alone s o rq iss.

  (** What the parsed request keeps of an accepted operation: its parts as given,
      and as data the body of the request it stands for. *)
  Definition part (v : value) (n : str) (x : option str) : Prop := match x with Some x => holds v n (VStr x) | None => ~ has_key v n end.
  Record carried (schemas : list schema) (o : bulk_op) (v : value) : Prop := mkCarried {
    carried_method : holds v ($"method") (VStr (k_method o));
    carried_id : part v ($"bulkId") (k_id o);
    carried_version : part v ($"version") (k_version o);
    carried_path : part v ($"path") (k_path o);
    carried_data : k_method o = $"DELETE" /\ ~ has_key v ($"data")
      \/ k_method o <> $"DELETE" /\ exists n p s rq iss, k_path o = Some p /\ about o n p /\ serves schemas n s
          /\ alone s o rq iss /\ (forall q, errs_at iss (LStr ($"body") :: q) = []) /\ holds v ($"data") (rq_body rq) }.
End Env.
