(** What it means that a value or a document conforms (C76). *)
From Verif Require Import PyBase PyNum Issues AttrRep AttrRepSpec Value Container ContainerSpec ContainerFacts Types TypesSpec Attr AttrSpec Schema SchemaSpec RoundSpec.

(** Data as JSON documents are loaded: scalars, lists, and objects without an
    empty key. *)
Inductive usual : value -> Prop :=
| usual_none : usual VNone
| usual_bool b : usual (VBool b)
| usual_int z : usual (VInt z)
| usual_float f : usual (VFloat f)
| usual_str s : usual (VStr s)
| usual_list l : Forall usual l -> usual (VList l)
| usual_dict d : Forall (fun e => fst e <> KStr []) d -> Forall (fun e => usual (snd e)) d -> usual (VDict d)
| usual_cont data l2o : index_ok data l2o -> sget [] l2o = None -> Forall (fun e => usual (snd e)) data -> usual (VCont data l2o).

(** The object with these fields. *)
Definition object (ys : list (str * value)) : value := VCont ys (map (fun e => (lower (fst e), fst e)) ys).

(** The declared fields of an object, in the order of their declaration, each
    read by its attribute. *)
Inductive fields (R : attribute -> value -> value -> Prop) (c : value) : list attribute -> list (str * value) -> Prop :=
| fields_none : fields R c [] []
| fields_absent s t ys : (forall x, ~ holds c (r_attr (arep s)) x) -> fields R c t ys -> fields R c (s :: t) ys
| fields_there s t x w ys : holds c (r_attr (arep s)) x -> R s x w -> fields R c t ys -> fields R c (s :: t) ((r_attr (arep s), w) :: ys).

(** Not two items are marked as primary. *)
Definition one_primary (ys : list value) : Prop :=
  forall j k y z, nth_error ys j = Some y -> nth_error ys k = Some z -> marked y -> marked z -> j = k.

Section Env.
  Context {env : PyEnv}.

  (** How a type reads a value. *)
  Inductive read_as : atype -> value -> value -> Prop :=
  | ra_any v : read_as TUnknown v v
  | ra_bool b : read_as TBoolean (VBool b) (VBool b)
  | ra_int z : read_as TInteger (VInt z) (VInt z)
  | ra_int_bool b : read_as TInteger (VBool b) (VBool b)
  | ra_int_float f z : same_number f (FFin z 0) -> read_as TInteger (VFloat f) (VInt z)
  | ra_dec f : read_as TDecimal (VFloat f) (VFloat f)
  | ra_dec_int z f : float_of_int z = Ok f -> read_as TDecimal (VInt z) (VFloat f)
  | ra_dec_bool (b : bool) f : float_of_int (if b then 1 else 0)%Z = Ok f -> read_as TDecimal (VBool b) (VFloat f)
  | ra_text s : read_as TString (VStr s) (VStr s)
  | ra_uri s : read_as TUriRef (VStr s) (VStr s)
  | ra_scim s : read_as TScimRef (VStr s) (VStr s)
  | ra_binary s : base64_text s -> read_as TBinary (VStr s) (VStr s)
  | ra_url s : env_abs_url s = true -> read_as TExternalRef (VStr s) (VStr s)
  | ra_date s d : env_fromiso s = Some d -> read_as TDateTime (VStr s) (VDate d).

  (** The value is one of the canonical ones, if these are enforced; their texts
      are kept in lower case unless letter case matters. *)
  Definition permitted (i : ainfo) (y : value) : Prop :=
    a_validate i = false \/
    forall l, a_canon i = Some l -> exists c, In c l /\ equals_lit true (match y with VStr s => VStr (if a_case_exact i then s else lower s) | _ => y end) c.
  Definition fit (i : ainfo) (x y : value) : Prop := read_as (a_type i) x y /\ permitted i y.

  (** The attribute's own checks have nothing to say. *)
  Definition content (i : ainfo) (w : value) : Prop := Forall (fun p : proc => exists j, p w = Ok (w, j) /\ silent j) (a_parsers i).

  (** The attribute reads the value [v] as [w]. *)
  Inductive reads : attribute -> value -> value -> Prop :=
  | reads_null a : reads a VNone VNone
  | reads_one i v w : a_multi i = false -> v <> VNone -> fit i v w -> content i w -> reads (MkAttr i None) v w
  | reads_many i xs ys : a_multi i = true -> Forall2 (fit i) xs ys -> content i (VList ys) -> reads (MkAttr i None) (VList xs) (VList ys)
  | reads_object i subs cps c ys : a_multi i = false -> is_cont c = true -> fields reads c subs ys -> reads (MkAttr i (Some (subs, cps, cps))) c (object ys)
  | reads_objects i subs cps cs yss : a_multi i = true ->
      Forall2 (fun c ys => is_cont c = true /\ fields reads c subs ys) cs yss ->
      (cps = [] \/ one_primary (map object yss)) -> reads (MkAttr i (Some (subs, cps, cps))) (VList cs) (VList (map object yss)).

  (** The texts listed under "schemas", if any, are known ones, the main schema
      is among them and so is every extension in use. *)
  Definition schemas_listed (s : schema) (c : value) : Prop := forall l, holds c ($"schemas") (VList (map VStr l)) -> l <> [] ->
    (forall t, In t l -> listed t (sc_schemas s)) /\ listed (sc_uri s) l
    /\ forall a x, In a (at_top (sc_attrs s)) -> r_ext (arep a) = true -> doc_holds c (arep a) x -> listed (r_schema (arep a)) l.

  (** Every declared attribute the document has can be read, extensions are
      objects, and the schemas are listed. *)
  Definition conforms (s : schema) (c : value) : Prop :=
    (forall a x, In a (at_top (sc_attrs s)) -> doc_holds c (arep a) x -> exists w, reads a x w)
    /\ (forall a x, In a (at_top (sc_attrs s)) -> r_ext (arep a) = true -> holds c (r_schema (arep a)) x -> is_cont x = true)
    /\ schemas_listed s c.
End Env.
