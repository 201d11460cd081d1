(** Model of AttrRep, /repo/src/data/container.py 1-91. *)
From Verif Require Import PyBase.

(** AttrRep objects (src/data/container.py 9-32).  The [_repr] field is
    recomputed by [rep_repr]. *)
Record attr_rep := mkRep { r_schema : str; r_attr : str; r_sub : str; r_ext : bool }.

(** Longest prefix of characters satisfying [p], and the rest
    (for the regular expressions of src/data/container.py 4-6). *)
Fixpoint span (p : ascii -> bool) (s : str) : str * str :=
  match s with
  | [] => ([], [])
  | c :: t => if p c then let (a, b) := span p t in (c :: a, b) else ([], s)
  end.

(** The separator of a schema URI and an attribute (src/data/container.py 6). *)
Definition colon : ascii := ":"%char.
(** The separator of an attribute and a sub-attribute (src/data/container.py 6). *)
Definition dot : ascii := "."%char.

(** Character class [\w.-] of _URI_PREFIX (src/data/container.py 5). *)
Definition is_uri_chr (c : ascii) : bool :=
  is_word c || chr_eqb c dot || chr_eqb c "-"%char.

(** (?:[\w.-]+:)* matched against the whole of [s] (src/data/container.py 5).
    [seen] tells whether the current segment has a character yet. *)
Fixpoint uri_prefix_ok (seen : bool) (s : str) : bool :=
  match s with
  | [] => negb seen
  | c :: t => if chr_eqb c colon then seen && uri_prefix_ok false t
              else is_uri_chr c && uri_prefix_ok true t
  end.

(** \w+ in the regular expressions (src/data/container.py 4-6). *)
Definition nonempty_word (s : str) : bool :=
  match s with [] => false | _ => forallb is_word s end.

(** _ATTR_NAME.fullmatch: (\w+|\$ref) (src/data/container.py 4). *)
Definition attr_name_ok (s : str) : bool := nonempty_word s || str_eqb s ($"$ref").

(** _ATTR_REP.fullmatch with its groups (src/data/container.py 6, 54-63).  The
    second group contains no colon, so the first group is everything up to and
    including the last colon.  Returns schema (without the trailing colon),
    attribute and sub-attribute. *)
Definition match_attr_rep (s : str) : option (str * str * str) :=
  let (rtail, rpre) := span (fun c => negb (chr_eqb c colon)) (rev s) in
  let tail := rev rtail in
  let pre := rev rpre in
  if uri_prefix_ok false pre then
    let (name, rest) := span (fun c => negb (chr_eqb c dot)) tail in
    if attr_name_ok name then
      match rest with
      | [] => Some (removelast pre, name, [])
      | _ :: sub => if nonempty_word sub then Some (removelast pre, name, sub) else None
      end
    else None
  else None.

(** AttrRep.__init__ (src/data/container.py 10-32).  Line 22 re-tests the bare
    attribute name against _ATTR_REP, which every name accepted on line 13
    passes. *)
Definition mk_rep (schema attr sub : str) (ext : bool) : res attr_rep :=
  if negb (attr_name_ok attr) then Raise ValueErr
  else match match_attr_rep attr with
       | None => Raise ValueErr
       | Some _ =>
           match ext, schema with
           | true, [] => Raise ValueErr
           | _, _ => Ok (mkRep schema attr sub ext)
           end
       end.

(** AttrRep.__repr__ (src/data/container.py 16-20, 31, 34-35). *)
Definition rep_repr (r : attr_rep) : str :=
  let a := match r_schema r with [] => r_attr r | s => s ++ colon :: r_attr r end in
  match r_sub r with [] => a | b => a ++ dot :: b end.

(** AttrRep.__eq__ between two AttrReps (src/data/container.py 37-50). *)
Definition nonempty (s : str) : bool := match s with [] => false | _ => true end.
(** AttrRep.__eq__ (src/data/container.py 37-50). *)
Definition rep_eqb (a b : attr_rep) : bool :=
  if nonempty (r_schema a) && nonempty (r_schema b)
     && negb (str_eqb (lower (r_schema a)) (lower (r_schema b))) then false
  else if negb (str_eqb (lower (r_attr a)) (lower (r_attr b))) then false
  else if negb (str_eqb (lower (r_sub a)) (lower (r_sub b))) then false
  else true.

(** AttrRep.parse (src/data/container.py 52-64); [None] models Invalid. *)
Definition parse_rep (s : str) : option attr_rep :=
  match match_attr_rep s with
  | None => None
  | Some (schema, attr, sub) =>
      match mk_rep schema attr sub false with
      | Ok r => Some r
      | Raise _ => None
      end
  end.

(** attr_with_schema (src/data/container.py 74-78). *)
Definition attr_with_schema (r : attr_rep) : str :=
  match r_schema r with [] => r_attr r | s => s ++ colon :: r_attr r end.

(** top_level_equals (src/data/container.py 88-91). *)
Definition top_level_equals (a b : attr_rep) : bool :=
  if nonempty (r_schema a) && nonempty (r_schema b)
  then str_eqb (lower (attr_with_schema a)) (lower (attr_with_schema b))
  else str_eqb (lower (r_attr a)) (lower (r_attr b)).

(** Convenience for AttrRep(attr=x) where [x] may be any text
    (src/data/container.py 10-32). *)
Definition rep_attr (a : str) : res attr_rep := mk_rep [] a [] false.
