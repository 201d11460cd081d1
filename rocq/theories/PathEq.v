(** Model of the equality of patch paths, /repo/src/data/path.py 149-157. *)
From Verif Require Import PyBase AttrRep Value Container Attr FilterParse.

(** x == y where both may be None, and AttrRep otherwise (src/data/path.py 156). *)
Definition opt_rep_eqb (a b : option attr_rep) : bool :=
  match a, b with
  | None, None => true
  | Some x, Some y => rep_eqb x y
  | _, _ => false
  end.

(** PatchPath.__eq__ between paths (src/data/path.py 149-157): the three
    comparisons from left to right, up to the first that is false. *)
Definition path_eq (p q : patch_path) : res bool :=
  if rep_eqb (p_rep p) (p_rep q) then
    let! f := match p_filter p, p_filter q with
              | None, None => Ok true
              | Some a, Some b => filter_eq a b
              | _, _ => Ok false
              end in
    Ok (f && opt_rep_eqb (p_sub p) (p_sub q))
  else Ok false.
