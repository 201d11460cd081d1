(** Model of /repo/src/data/path.py. *)
From Verif Require Import PyBase PyNum Issues AttrRep Value Container Types Attr Match FilterParse.

(** ValidationError.bad_operation_path (src/error.py 271-273). *)
Definition e_bad_path : error := err 300.

(** PatchPath.__init__ (src/data/path.py 11-38). *)
Definition mk_path (r : attr_rep) (f : option oper) (s : option attr_rep) : res patch_path :=
  let some {A} (o : option A) := match o with Some _ => true | None => false end in
  if nonempty (r_sub r) && (some f || some s) then Raise ValueErr
  else
    let! _ := match s with
              | Some s => if negb (nonempty (r_sub s)) then Raise ValueErr
                          else if negb (top_level_equals s r) then Raise ValueErr
                          else Ok tt
              | None => Ok tt
              end in
    match f with
    | Some (OComplex fr _) => if rep_eqb fr r then Ok (mkPath r f s) else Raise ValueErr
    | Some _ => Raise ValueErr
    | None => Ok (mkPath r f s)
    end.

(** str.count of one character (src/data/path.py 63-85). *)
Definition count_chr (c : ascii) (s : str) : nat := length (filter (chr_eqb c) s).

(** str.index of one character; the length when absent (src/data/path.py 87-116). *)
Definition index_chr (c : ascii) (s : str) : nat := length (fst (span (fun x => negb (chr_eqb x c)) s)).

(** The bracket test of PatchPath.parse (src/data/path.py 63-69). *)
Definition bad_brackets (s : str) : bool :=
  let o := count_chr lbrk s in
  let c := count_chr rbrk s in
  Nat.ltb 1 o || Nat.ltb 1 c
  || (Nat.ltb 0 o && Nat.eqb c 0) || (Nat.ltb 0 c && Nat.eqb o 0)
  || (Nat.ltb 0 o && Nat.ltb 0 c && Nat.ltb (index_chr rbrk s) (index_chr lbrk s)).

(** _get_sub_attr_rep (src/data/path.py 117-138): the representation or the
    error. *)
Definition sub_attr_rep (r : attr_rep) (exp : str) : res (attr_rep + error) :=
  match parse_rep exp with
  | None => Ok (inr e_bad_name)
  | Some s =>
      if nonempty (r_sub s) then
        if top_level_equals r s then Ok (inl s) else Ok (inr e_complex_sub)
      else let! s' := mk_rep (r_schema r) (r_attr r) (r_attr s) false in Ok (inl s')
  end.

(** operator.attr_rep: logical operators have none (AttributeError)
    (src/data/path.py 10-39). *)
Definition oper_attr_rep (o : oper) : res attr_rep :=
  match oper_rep o with Some r => Ok r | None => Raise AttributeErr end.

(** _parse_complex_multivalued_path (src/data/path.py 86-115). *)
Definition parse_complex_path (path : str) (strings : idict str) : res outcome :=
  let cut := S (index_chr rbrk path) in
  let! (o, errs) := parse_filter_core (encode_strings (firstn cut path) strings) in
  match errs with
  | _ :: _ => Ok (VInvalid, iss_of errs)
  | [] =>
      match skipn cut path with
      | [] =>
          let! r := oper_attr_rep o in
          let! p := mk_path r (Some o) None in
          Ok (VPath p, no_issues)
      | c :: t =>
          let exp := if chr_eqb c dot then t else c :: t in
          let! r := oper_attr_rep o in
          let! s := sub_attr_rep r (encode_strings exp strings) in
          match s with
          | inr e => Ok (VInvalid, iss_of [e])
          | inl s =>
              let! p := mk_path r (Some o) (Some s) in
              Ok (VPath p, no_issues)
          end
      end
  end.

(** PatchPath.parse (src/data/path.py 52-84). *)
Definition parse_path (path : str) : res outcome :=
  let (path, strings) := mask_strings path in
  if bad_brackets path then Ok (VInvalid, iss_of [e_bad_path])
  else if Nat.ltb 0 (count_chr lbrk path) then parse_complex_path path strings
  else
    match parse_rep (encode_strings path strings) with
    | None => Ok (VInvalid, iss_of [e_bad_name])
    | Some r => let! p := mk_path r None None in Ok (VPath p, no_issues)
    end.
