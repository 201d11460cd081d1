(** Model of the construction of attributes and of their equality,
    /repo/src/data/attributes.py 59-111, 172-192, 286-325. *)
From Verif Require Import PyBase PyNum Issues AttrRep Value Container Types Attr.

(** A post-processing callback as an object (src/data/attributes.py 56, 283):
    validate_single_primary_value, or another function known by its identity. *)
Inductive callback := CPrimary | COther (n : nat).

(** Identity of functions, which list equality and [in] fall back to
    (src/data/attributes.py 188-189, 320, 322). *)
Definition cb_eqb (a b : callback) : bool :=
  match a, b with
  | CPrimary, CPrimary => true
  | COther m, COther n => Nat.eqb m n
  | _, _ => false
  end.

(** Arguments of Attribute.__init__ (src/data/attributes.py 60-77). *)
Record args := mkArgs {
  g_name : str + attr_rep;
  g_type : atype;
  g_descr : str;
  g_refs : option (list str);
  g_issuer : issuer;
  g_required : bool;
  g_case : bool;
  g_multi : bool;
  g_canon : option (list lit);
  g_validate : bool;
  g_mut : mutability;
  g_ret : returned;
  g_uniq : uniqueness;
  g_parsers : option (list callback);
  g_dumpers : option (list callback)
}.

(** Attribute objects with the identity of their callbacks
    (src/data/attributes.py 78-111, 316-325).  [d_info] has the other fields and
    no callbacks; [d_complex] is present for a ComplexAttribute. *)
Record dattr := mkD {
  d_info : ainfo;
  d_parsers : list callback;
  d_dumpers : list callback;
  d_complex : option (list attribute * list callback * list callback)
}.

(** x or [] for an optional list (src/data/attributes.py 81, 110-111, 318). *)
Definition or_empty {A} (l : option (list A)) : list A := match l with Some l => l | None => [] end.

(** AttrRep(attr=name) if isinstance(name, str) else name
    (src/data/attributes.py 78). *)
Definition given_rep (n : str + attr_rep) : res attr_rep :=
  match n with
  | inl s => mk_rep [] s [] false
  | inr r => Ok r
  end.

(** Attribute.__init__ (src/data/attributes.py 60-111).  Simplification:
    canonical values are lists of [lit]. *)
Definition make_attr (g : args) : res dattr :=
  let! r := given_rep (g_name g) in
  let! refs := ref_types (g_type g) (or_empty (g_refs g)) in
  Ok (mkD (mkInfo r (g_type g) (g_descr g) refs (g_issuer g) (g_required g) (g_case g) (g_multi g)
                  (norm_canon (g_case g) (g_canon g)) (g_validate g) (g_mut g) (g_ret g) (g_uniq g) [] [])
          (or_empty (g_parsers g)) (or_empty (g_dumpers g)) None).

(** What super().__init__ receives from ComplexAttribute.__init__
    (src/data/attributes.py 303-315). *)
Definition complex_args (g : args) : args :=
  mkArgs (g_name g) TComplex (g_descr g) None (g_issuer g) (g_required g) false (g_multi g)
         None false (g_mut g) (g_ret g) (g_uniq g) (g_parsers g) (g_dumpers g).

(** Lines 320-323: validate_single_primary_value is appended unless present. *)
Definition add_primary (l : list callback) : list callback :=
  if existsb (cb_eqb CPrimary) l then l else l ++ [CPrimary].

(** A list after the construction, seen by the caller who passed it: line 318
    replaces a missing or empty list by a new one, so only a list with items is
    appended to in place (src/data/attributes.py 318-323). *)
Definition caller_list (multi : bool) (l : option (list callback)) : option (list callback) :=
  match l with
  | Some (c :: t) => Some (if multi then add_primary (c :: t) else c :: t)
  | _ => l
  end.

(** ComplexAttribute.__init__ (src/data/attributes.py 287-325): the object, and
    the caller's two lists afterwards.  Simplification: the two lists are
    different objects. *)
Definition make_complex (g : args) (subs : list attribute) (cps cds : option (list callback))
  : res (dattr * option (list callback) * option (list callback)) :=
  let! d := make_attr (complex_args g) in
  let extend l := if g_multi g then add_primary (or_empty l) else or_empty l in
  Ok (mkD (d_info d) (d_parsers d) (d_dumpers d) (Some (dedup_attrs subs, extend cps, extend cds)),
      caller_list (g_multi g) cps, caller_list (g_multi g) cds).

(** What a callback does when called (src/data/attributes.py 56, 395-409); [fn]
    gives the functions that are not the library's. *)
Definition act (fn : nat -> proc) (c : callback) : proc :=
  match c with CPrimary => single_primary | COther n => fn n end.

(** The object as the rest of the model sees it (src/data/attributes.py 78-111,
    316-325): callbacks by what they do. *)
Definition behave (fn : nat -> proc) (d : dattr) : attribute :=
  MkAttr (with_procs (map (act fn) (d_parsers d)) (map (act fn) (d_dumpers d)) (d_info d))
         (match d_complex d with
          | None => None
          | Some (subs, cps, cds) => Some (subs, map (act fn) cps, map (act fn) cds)
          end).

(** a == b for lists, a Python built-in, e.g. src/data/attributes.py 180, 188-189. *)
Fixpoint list_eqb {A} (eqb : A -> A -> bool) (a b : list A) : bool :=
  match a, b with
  | [], [] => true
  | x :: s, y :: t => eqb x y && list_eqb eqb s t
  | _, _ => false
  end.

(** Equality of two canonical values (src/data/attributes.py 183).
    Simplification: nan differs from every value, also from the same object. *)
Definition lit_same (a b : lit) : bool := lit_eqb (v_of_lit a) b.

(** Equality of canonical_values: None or a list (src/data/attributes.py 183). *)
Definition canon_eqb (a b : option (list lit)) : bool :=
  match a, b with
  | None, None => true
  | Some x, Some y => list_eqb lit_same x y
  | _, _ => false
  end.

(** Attribute.__eq__ between attributes (src/data/attributes.py 172-192),
    inherited by ComplexAttribute.  The enumerations are str enumerations and
    compare as str. *)
Definition attr_eqb (a b : dattr) : bool :=
  let i := d_info a in
  let j := d_info b in
  forallb (fun x => x)
    [rep_eqb (a_rep i) (a_rep j);
     atype_eqb (a_type i) (a_type j);
     list_eqb str_eqb (a_reftypes i) (a_reftypes j);
     Bool.eqb (a_required i) (a_required j);
     Bool.eqb (a_case_exact i) (a_case_exact j);
     canon_eqb (a_canon i) (a_canon j);
     Bool.eqb (a_multi i) (a_multi j);
     str_eqb (mut_str (a_mut i)) (mut_str (a_mut j));
     str_eqb (ret_str (a_ret i)) (ret_str (a_ret j));
     str_eqb (uniq_str (a_uniq i)) (uniq_str (a_uniq j));
     list_eqb cb_eqb (d_parsers a) (d_parsers b);
     list_eqb cb_eqb (d_dumpers a) (d_dumpers b);
     Bool.eqb (a_validate i) (a_validate j)].
