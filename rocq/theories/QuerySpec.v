(** Vocabulary for the query of requests about one resource and of requests to
    create one (C83). *)
From Verif Require Import PyBase Issues Value Types Schema Requests.

Section Env.
  Context {env : PyEnv}.
  (** The requests that take a body or none and whose query may choose
      attributes: reading, replacing, creating and modifying (ResourceObjectGET,
      ResourceObjectPUT, ResourcesPOST and ResourceObjectPATCH). *)
  Inductive object_request (s : schema) (body h q : value) : res (request * issues) -> Prop :=
  | by_get : object_request s body h q (get_parse body h q)
  | by_put : object_request s body h q (put_parse s body h q)
  | by_post : object_request s body h q (post_parse s body h q)
  | by_patch : object_request s body h q (patch_parse_request s body h q).
End Env.

(** Places in the body. *)
Definition in_body (l : loc) : Prop := exists p, l = LStr ($"body") :: p.
