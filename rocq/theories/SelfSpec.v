(** Vocabulary for schemas that describe themselves (C64). *)
From Verif Require Import PyBase PyNum Issues IssuesSpec AttrRep AttrRepSpec Value Container ContainerSpec Types Attr Schema AttrSpec.

(** The names of the types in RFC 7643 (2.3); values of unknown type have none. *)
Inductive type_word : atype -> str -> Prop :=
| word_boolean : type_word TBoolean ($"boolean")
| word_decimal : type_word TDecimal ($"decimal")
| word_integer : type_word TInteger ($"integer")
| word_string : type_word TString ($"string")
| word_binary : type_word TBinary ($"binary")
| word_external : type_word TExternalRef ($"reference")
| word_uri : type_word TUriRef ($"reference")
| word_scim : type_word TScimRef ($"reference")
| word_date : type_word TDateTime ($"dateTime")
| word_complex : type_word TComplex ($"complex").
Inductive mut_word : mutability -> str -> Prop :=
| mut_ro : mut_word ReadOnly ($"readOnly") | mut_rw : mut_word ReadWrite ($"readWrite")
| mut_im : mut_word Immutable ($"immutable") | mut_wo : mut_word WriteOnly ($"writeOnly").
Inductive ret_word : returned -> str -> Prop :=
| ret_al : ret_word RetAlways ($"always") | ret_ne : ret_word RetNever ($"never")
| ret_de : ret_word RetDefault ($"default") | ret_re : ret_word RetRequest ($"request").
Inductive uniq_word : uniqueness -> str -> Prop :=
| uniq_no : uniq_word UniqNone ($"none") | uniq_se : uniq_word UniqServer ($"server") | uniq_gl : uniq_word UniqGlobal ($"global").

(** The container tells the characteristics of an attribute; whether letter case
    matters is told for texts only, if [all] is false. *)
Definition tells (all : bool) (i : ainfo) (c : value) : Prop :=
  holds c ($"name") (VStr (r_attr (a_rep i)))
  /\ (exists w, type_word (a_type i) w /\ holds c ($"type") (VStr w))
  /\ holds c ($"multiValued") (VBool (a_multi i))
  /\ holds c ($"description") (VStr (a_descr i))
  /\ holds c ($"required") (VBool (a_required i))
  /\ (forall v, holds c ($"caseExact") v <-> (all = true \/ a_type i = TString) /\ v = VBool (a_case_exact i))
  /\ (exists w, mut_word (a_mut i) w /\ holds c ($"mutability") (VStr w))
  /\ (exists w, ret_word (a_ret i) w /\ holds c ($"returned") (VStr w))
  /\ (exists w, uniq_word (a_uniq i) w /\ holds c ($"uniqueness") (VStr w))
  /\ (forall v, holds c ($"canonicalValues") v <-> exists l, a_canon i = Some l /\ l <> [] /\ v = VList (map v_of_lit l))
  /\ (forall v, holds c ($"referenceTypes") v <-> a_reftypes i <> [] /\ v = VList (map VStr (a_reftypes i))).

(** ... and so on for its sub-attributes. *)
Fixpoint describes (all : bool) (a : attribute) (c : value) {struct a} : Prop :=
  match a with
  | MkAttr i sub =>
      tells all i c /\
      match sub with
      | None => forall v, ~ holds c ($"subAttributes") v
      | Some (subs, _, _) =>
          exists ds, holds c ($"subAttributes") (VList ds) /\
            (fix each (l : list attribute) (ds : list value) : Prop :=
               match l, ds with
               | [], [] => True
               | a :: l, d :: ds => describes all a d /\ each l ds
               | _, _ => False
               end) subs ds
      end
  end.

(** Attributes whose type has a name, nested at most [n] deep, with
    sub-attributes only where the type is complex; without decimal numbers, if
    [dec] is false. *)
Fixpoint describable (dec : bool) (n : nat) (a : attribute) {struct a} : Prop :=
  match a with
  | MkAttr i sub =>
      (exists w, type_word (a_type i) w) /\ (dec = false -> a_type i <> TDecimal) /\
      match sub with
      | None => True
      | Some (subs, _, _) =>
          a_type i = TComplex /\
          match n with
          | O => False
          | S n' => (fix each (l : list attribute) : Prop := match l with [] => True | a :: l => describable dec n' a /\ each l end) subs
          end
      end
  end.

(** Some attribute, or one nested in it, has no type. *)
Inductive untyped : attribute -> Prop :=
| untyped_here i sub : a_type i = TUnknown -> untyped (MkAttr i sub)
| untyped_below i subs ps ds a : In a subs -> untyped a -> untyped (MkAttr i (Some (subs, ps, ds))).
