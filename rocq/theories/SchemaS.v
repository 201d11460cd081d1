(** Model of /repo/src/assets/schemas/schema.py: the schema of schemas. *)
From Verif Require Import PyBase PyNum Issues AttrRep Value Container Types Attr Schema Assets Patch.

(** Sub-attributes of "attributes" (schema.py 38-142). *)
Definition s_name : attribute := server_ro_req ($"name") TString.
(** schema.py 46-54 *)
Definition s_type : attribute :=
  server_ro (with_canon true (canon ["string"; "integer"; "boolean"; "reference"; "dateTime"; "binary";
                                     "complex"]%string)
    (with_required (plain ($"type") TString))).
(** schema.py 56-62 *)
Definition s_subs : attribute := server_ro_attr ($"subAttributes") TUnknown.
(** schema.py 64-70 *)
Definition s_multi : attribute := server_ro_req ($"multiValued") TBoolean.
(** schema.py 72-78 *)
Definition s_descr : attribute := server_ro_attr ($"description") TString.
(** schema.py 80-86 *)
Definition s_required : attribute := server_ro_req ($"required") TBoolean.
(** schema.py 88-95 *)
Definition s_canonical : attribute := server_ro (with_multi (plain ($"canonicalValues") TUnknown)).
(** schema.py 97-103 *)
Definition s_case_exact : attribute := server_ro_attr ($"caseExact") TBoolean.
(** schema.py 105-113 *)
Definition s_mutability : attribute :=
  server_ro (with_canon true (canon ["readOnly"; "readWrite"; "immutable"; "writeOnly"]%string)
    (with_required (plain ($"mutability") TString))).
(** schema.py 115-123 *)
Definition s_returned : attribute :=
  server_ro (with_canon true (canon ["always"; "never"; "default"; "request"]%string)
    (with_required (plain ($"returned") TString))).
(** schema.py 125-133 *)
Definition s_uniqueness : attribute :=
  server_ro (with_canon true (canon ["none"; "server"; "global"]%string)
    (with_required (plain ($"uniqueness") TString))).
(** schema.py 135-142 *)
Definition s_reftypes : attribute := server_ro (with_multi (plain ($"referenceTypes") TString)).

(** One item in the loop of dump_attributes (schema.py 149-170); [dump] is
    attributes.dump.  Line 166 puts an AttrRep, which is not hashable, into a
    location: adding the issue raises TypeError. *)
Definition dump_attributes_item (dump : proc) (i : nat) (item : value) (iss : issues)
  : res (value * issues) :=
  let! t := get_item item (arep s_type) in
  let! subs := get_item item (arep s_subs) in
  let! (item, iss) :=
    if is_none_or_missing subs then Ok (item, iss)
    else if negb (str_is t ($"complex")) then
      let! item := del_item item (arep s_subs) in Ok (item, iss)
    else
      let! (dumped, iss') := dump subs in
      let! item := set_item item (arep s_subs) dumped in
      Ok (item, merge iss iss' [LIdx i; LStr ($"subAttributes")]) in
  if str_is t ($"string") then
    let! ce := get_item item (arep s_case_exact) in
    if is_none_or_missing ce then Raise TypeErr else Ok (item, iss)
  else let! item := del_item item (arep s_case_exact) in Ok (item, iss).

(** dump_attributes (schema.py 145-171). *)
Definition dump_attributes (dump : proc) : proc := fun v =>
  let! l := iter_value v in
  let! (l', iss) := foldM (fun st e => let! (c, iss) := dump_attributes_item dump (fst e) (snd e) (snd st) in
                                       Ok (fst st ++ [c], iss)) (enumerate l) ([], no_issues) in
  Ok (VList l', iss).

Section Env.
  Context {env : PyEnv}.

  (** attributes (schema.py 174-193).  dump_attributes refers back to the
      attribute; [n] bounds the nesting depth of "subAttributes". *)
  Fixpoint attributes_attr (n : nat) : attribute :=
    mk_complex (with_mut ReadOnly (with_multi (plain ($"attributes") TComplex)))
      [s_name; s_type; s_subs; s_multi; s_descr; s_required; s_canonical; s_case_exact; s_mutability;
       s_returned; s_uniqueness; s_reftypes] []
      [dump_attributes (match n with
                        | O => fun _ => Raise OutOfFuel
                        | S n' => process (attributes_attr n') MDump
                        end)].

  (** Schema.__init__ (schema.py 196-203). *)
  Definition schema_schema (n : nat) : schema :=
    resource_schema ($"urn:ietf:params:scim:schemas:core:2.0:Schema")
      [server_ro_attr ($"name") TString; server_ro_attr ($"description") TString; attributes_attr n]
      ($"Schema") [] None (Some (server_ro_attr ($"id") TString)) None None.
End Env.
