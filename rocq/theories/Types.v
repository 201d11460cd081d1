(** Model of /repo/src/data/type.py: attribute types, their parse and dump
    methods. *)
From Verif Require Import PyBase PyNum Issues AttrRep Value Base64.

(** The AttributeType classes (src/data/type.py 46-235). *)
Inductive atype :=
| TUnknown | TBoolean | TDecimal | TInteger | TString | TBinary
| TExternalRef | TUriRef | TScimRef | TDateTime | TComplex.

(** Identity of type classes, e.g. src/data/attributes.py 81-86. *)
Definition atype_eqb (a b : atype) : bool :=
  match a, b with
  | TUnknown, TUnknown | TBoolean, TBoolean | TDecimal, TDecimal | TInteger, TInteger
  | TString, TString | TBinary, TBinary | TExternalRef, TExternalRef | TUriRef, TUriRef
  | TScimRef, TScimRef | TDateTime, TDateTime | TComplex, TComplex => true
  | _, _ => false
  end.

(** SCIM_NAME class attributes; Unknown has none (AttributeError)
    (src/data/type.py 16, 63-199). *)
Definition scim_name (t : atype) : res str :=
  match t with
  | TUnknown => Raise AttributeErr
  | TBoolean => Ok ($"boolean")
  | TDecimal => Ok ($"decimal")
  | TInteger => Ok ($"integer")
  | TString => Ok ($"string")
  | TBinary => Ok ($"binary")
  | TExternalRef | TUriRef | TScimRef => Ok ($"reference")
  | TDateTime => Ok ($"dateTime")
  | TComplex => Ok ($"complex")
  end.

(** get_scim_type(type(value)) (src/data/type.py 238-250). *)
Definition scim_type_of (v : value) : str :=
  match v with
  | VBool _ => $"boolean" | VInt _ => $"integer" | VFloat _ => $"decimal" | VStr _ => $"string"
  | VCont _ _ => $"complex" | VList _ => $"list" | VDate _ => $"datetime"
  | _ => $"unknown"
  end.

(** A validation step: the resulting value and a report
    (the return type of src/data/type.py 20). *)
Definition outcome := (value * issues)%type.

(** A rejected value with one blocking error (src/data/type.py 23-30). *)
Definition fail (e : error) : outcome := (VInvalid, add_issue no_issues e false []).
(** An accepted value (src/data/type.py 30). *)
Definition pass (v : value) : outcome := (v, no_issues).

(** ValidationError constructors used here (src/error.py 79-97). *)
Definition e_bad_syntax : error := err 1.
(** ValidationError.bad_type (src/error.py 84-86). *)
Definition e_bad_type (expected provided : str) : error := mkErr 2 [expected; provided].
(** ValidationError.base_64_encoding_required (src/error.py 88-90). *)
Definition e_base64 : error := mkErr 3 [$"binary"].
(** ValidationError.bad_url (src/error.py 96-98). *)
Definition e_bad_url (v : str) : error := mkErr 8 [v].

(** AttributeType.parse / dump (src/data/type.py 19-43): [ok] is the isinstance
    test, [expected] the SCIM name of the expected class. *)
Definition type_check (ok : bool) (expected : str) (v : value) : outcome :=
  if ok then pass v else fail (e_bad_type expected (scim_type_of v)).

(** isinstance(v, bool) (src/data/type.py 22, 64). *)
Definition is_bool (v : value) : bool := match v with VBool _ => true | _ => false end.
(** isinstance(v, int): bool is a subclass of int (src/data/type.py 22, 76, 95). *)
Definition is_int (v : value) : bool := match v with VInt _ | VBool _ => true | _ => false end.
(** isinstance(v, float) (src/data/type.py 22, 101). *)
Definition is_float (v : value) : bool := match v with VFloat _ => true | _ => false end.
(** isinstance(v, datetime) (src/data/type.py 35, 201). *)
Definition is_date (v : value) : bool := match v with VDate _ => true | _ => false end.

(** Integer.parse and Integer.dump (src/data/type.py 99-109); the two bodies
    are identical. *)
Definition integer_proc (v : value) : res outcome :=
  match v with
  | VFloat f =>
      let! z := int_of_float f in
      if feqb (fint z) f then Ok (pass (VInt z))
      else Ok (type_check false ($"integer") v)
  | _ => Ok (type_check (is_int v) ($"integer") v)
  end.

(** float(v) for an int or bool (src/data/type.py 79). *)
Definition to_float (v : value) : res value :=
  match v with
  | VInt z => let! f := float_of_int z in Ok (VFloat f)
  | VBool b => let! f := float_of_int (if b then 1 else 0)%Z in Ok (VFloat f)
  | _ => Raise TypeErr
  end.

(** Decimal.parse and Decimal.dump (src/data/type.py 74-90). *)
Definition decimal_proc (v : value) : res outcome :=
  if is_int v then
    let! (v', iss) := integer_proc v in
    match v' with
    | VInvalid => Ok (v', iss)
    | _ => let! f := to_float v' in Ok (f, iss)
    end
  else Ok (type_check (is_float v) ($"decimal") v).

(** Binary._validate_encoding (src/data/type.py 143-157): [None] when the text
    is accepted; bytes(value, "ascii") raises UnicodeEncodeError (a ValueError
    that is not a binascii.Error). *)
Definition validate_encoding (s : str) : res (option error) :=
  if is_ascii_text s then
    match b64decode s with
    | None => Ok (Some e_base64)
    | Some bytes => if str_eqb (b64encode bytes) s then Ok None else Ok (Some e_base64)
    end
  else Raise ValueErr.

(** Binary.parse and Binary.dump (src/data/type.py 123-141). *)
Definition binary_proc (v : value) : res outcome :=
  match v with
  | VStr s => let! e := validate_encoding s in
              match e with None => Ok (pass v) | Some e => Ok (fail e) end
  | _ => Ok (type_check false ($"string") v)
  end.

Section Env.
  Context {env : PyEnv}.

  (** ExternalReference.parse and .dump, validate_absolute_url
      (src/data/type.py 165-183, 253-270). *)
  Definition external_proc (v : value) : outcome :=
    match v with
    | VStr s => if env_abs_url s then pass v else fail (e_bad_url s)
    | _ => type_check false ($"string") v
    end.

  (** DateTime.parse (src/data/type.py 203-215, 224-229). *)
  Definition datetime_parse (v : value) : outcome :=
    match v with
    | VStr s => match env_fromiso s with Some d => pass (VDate d) | None => fail e_bad_syntax end
    | _ => type_check false ($"string") v
    end.

  (** DateTime.dump (src/data/type.py 217-222). *)
  Definition datetime_dump (v : value) : outcome :=
    match v with
    | VDate d => pass (VStr (env_isofmt d))
    | _ => type_check false ($"datetime") v
    end.

  (** Which of the two methods runs (src/data/type.py 20, 33). *)
  Inductive method := MParse | MDump.

  (** <type>.parse / <type>.dump (src/data/type.py 12-235). *)
  Definition type_proc (m : method) (t : atype) (v : value) : res outcome :=
    match t with
    | TUnknown => Ok (pass v)
    | TBoolean => Ok (type_check (is_bool v) ($"boolean") v)
    | TDecimal => decimal_proc v
    | TInteger => integer_proc v
    | TString | TUriRef | TScimRef => Ok (type_check (is_str v) ($"string") v)
    | TBinary => binary_proc v
    | TExternalRef => Ok (external_proc v)
    | TDateTime => Ok (match m with MParse => datetime_parse v | MDump => datetime_dump v end)
    | TComplex => Ok (type_check (is_cont v) ($"complex") v)
    end.
End Env.
