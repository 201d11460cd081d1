(** Vocabulary for error responses (C80). *)
From Verif Require Import PyBase PyNum Issues AttrRep Value Container ContainerSpec Attr AttrSpec ServedSpec.

(** The URI of error messages (RFC 7644, 3.12). *)
Definition fault_uri : str := $"urn:ietf:params:scim:api:messages:2.0:Error".

(** An error to tell a client: its kind and detail may be empty, and are left
    out then. *)
Record fault := { ft_kind : str; ft_detail : str }.
Definition fault_fields (status : str) (f : fault) : list (str * value) :=
  [($"status", VStr status)] ++ unless_empty ($"scimType") (VStr (ft_kind f)) ++ unless_empty ($"detail") (VStr (ft_detail f)).
(** The document of an error (RFC 7644, 3.12). *)
Definition fault_doc (fields : list (str * value)) : value :=
  dict_of (($"schemas", VList [VStr fault_uri]) :: fields).
(** What a document tells of an error. *)
Definition tells_fault (status : str) (f : fault) (c : value) : Prop :=
  holds c ($"schemas") (VList [VStr fault_uri]) /\ holds c ($"status") (VStr status)
  /\ stated_text c ($"scimType") (VStr (ft_kind f)) /\ stated_text c ($"detail") (VStr (ft_detail f)).

(** The kinds RFC 7644 lists (table 9). *)
Definition rfc_kinds : list str :=
  [$"invalidFilter"; $"tooMany"; $"uniqueness"; $"mutability"; $"invalidSyntax"; $"invalidPath"; $"noTarget"; $"invalidValue"; $"invalidVers"; $"sensitive"].
