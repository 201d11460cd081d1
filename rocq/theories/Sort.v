(** Model of /repo/src/sorter.py. *)
From Verif Require Import PyBase PyNum Issues AttrRep Value Container Types Attr Schema Match FilterParse.

(** Sort keys: AlwaysLastKey, StringKey (text and case_exact of its attribute)
    or the value itself (src/sorter.py 11-35, 85-95). *)
Inductive skey := KLast | KText (s : str) (exact : bool) | KVal (v : value).

(** [a < b] on values: numbers, strings and datetimes by [order], lists by their
    first unequal pair of items, everything else raises TypeError
    (src/sorter.py 67-83). *)
Fixpoint py_lt (a b : value) {struct a} : res bool :=
  match a, b with
  | VList l, VList m =>
      (fix go (l m : list value) {struct l} : res bool :=
         match l, m with
         | _, [] => Ok false
         | [], _ :: _ => Ok true
         | x :: l', y :: m' =>
             let! e := veq x y in
             if e then go l' m' else py_lt x y
         end) l m
  | _, _ => match order a b with
            | Some c => Ok (cmp_holds OpLt c)
            | None => Raise TypeErr
            end
  end.

(** [a < b] on keys (src/sorter.py 11-35); a value on the left of
    AlwaysLastKey falls back to AlwaysLastKey.__gt__. *)
Definition key_lt (a b : skey) : res bool :=
  match a, b with
  | KLast, _ => Ok false
  | _, KLast => Ok true
  | KText s e, KText t e' =>
      Ok (if e || e' then str_ltb s t else str_ltb (lower s) (lower t))
  | KVal v, KVal w => py_lt v w
  | _, _ => Raise TypeErr
  end.

(** Sorter._get_key (src/sorter.py 85-95). *)
Definition get_key (v : value) (a : option attribute) : skey :=
  if negb (truthy v) then KLast
  else match a with
       | None => KLast
       | Some a =>
           match v with
           | VStr s => match a_type (info a) with
                       | TString => KText s (a_case_exact (info a))
                       | _ => KLast
                       end
           | _ => KVal v
           end
       end.

(** v[0] (src/sorter.py 123): indexing a container with an int fails on its
    missing [schema] attribute, a dict on the missing key. *)
Definition index0 (v : value) : res value :=
  match v with
  | VList [] => Raise IndexErr
  | VList (x :: _) => Ok x
  | VStr [] => Raise IndexErr
  | VStr (c :: _) => Ok (VStr [c])
  | VDict _ => Raise KeyErr
  | VCont _ _ => Raise AttributeErr
  | _ => Raise TypeErr
  end.

(** The loop of lines 111-121: value and attribute of the primary item. *)
Fixpoint primary_value (a : attribute) (l : list value) : res (value * option attribute) :=
  match l with
  | [] => Ok (VNone, Some a)
  | x :: t =>
      let! p := get_item_str x ($"primary") in
      match p with
      | VBool true =>
          let! v := get_item_str x ($"value") in
          Ok (v, find (fun s => str_eqb (lower (r_attr (arep s))) ($"value")) (sub_attrs a))
      | _ => primary_value a t
      end
  end.

(** Sorter._attr_key (src/sorter.py 104-126). *)
Definition attr_key (r : attr_rep) (item : value) (s : schema) : res skey :=
  match find_attr (at_all (sc_attrs s)) r with
  | None => Ok (get_key VNone None)
  | Some a =>
      let! iv := get_item item r in
      if negb (is_missing iv) && a_multi (info a) then
        if is_complex a then
          let! l := iter_value iv in
          let! (v, a') := primary_value a l in
          Ok (get_key v a')
        else let! v := index0 iv in Ok (get_key v (Some a))
      else Ok (get_key iv (Some a))
  end.

(** any(item[rep] for item in data) (src/sorter.py 72). *)
Fixpoint any_value (r : attr_rep) (data : list value) : res bool :=
  match data with
  | [] => Ok false
  | x :: t => let! v := get_item x r in if truthy v then Ok true else any_value r t
  end.

(** sorted(): a stable sort that only uses [<] on the keys.  Modelled as an
    insertion sort.  Simplification: which pairs are compared is not specified
    by Python, so when [<] raises on some pairs only (lists of mixed content),
    the outcome may differ (src/sorter.py 67-83). *)
Fixpoint insert_key {A} (x : skey * A) (l : list (skey * A)) : res (list (skey * A)) :=
  match l with
  | [] => Ok [x]
  | y :: t =>
      let! lt := key_lt (fst y) (fst x) in
      if lt then let! t' := insert_key x t in Ok (y :: t') else Ok (x :: y :: t)
  end.
(** sorted(), one insertion after the other (src/sorter.py 67-83). *)
Fixpoint sort_keys {A} (l : list (skey * A)) : res (list (skey * A)) :=
  match l with
  | [] => Ok []
  | x :: t => let! t' := sort_keys t in insert_key x t'
  end.
(** sorted(..., reverse=r): Python reverses, sorts and reverses again, which
    keeps equal elements in their order (src/sorter.py 67-83). *)
Definition py_sorted {A} (l : list (skey * A)) (reverse : bool) : res (list A) :=
  if reverse then let! l' := sort_keys (rev l) in Ok (rev (map snd l'))
  else let! l' := sort_keys l in Ok (map snd l').

(** A schema object with its identity; [None] where no schema was found
    (src/sorter.py 67-83). *)
Definition schema_ref := option (nat * schema).

(** The [schema] argument of Sorter.__call__: one schema, or one per item;
    schemas of a sequence carry an identity, since line 75 builds a set of
    schema objects (src/sorter.py 67-83). *)
Inductive sort_schema := OneSchema (s : schema) | ManySchemas (l : list schema_ref).

(** Lines 75-76: a sequence naming one schema only.  Simplification: a sequence
    of None only stays a sequence; it raises AttributeError below where Python
    raises TypeError. *)
Definition single_schema (s : sort_schema) : sort_schema :=
  match s with
  | ManySchemas (Some (n, sc) :: t) =>
      if forallb (fun e => match e with Some (m, _) => Nat.eqb m n | None => false end) t
      then OneSchema sc else s
  | _ => s
  end.

(** data.index(item) for the item at position [i] (src/sorter.py 99): the first
    position holding the same object or an equal one. *)
Fixpoint index_of (data : list value) (i j : nat) (x : value) : res nat :=
  match data with
  | [] => Raise ValueErr
  | y :: t =>
      if Nat.eqb i j then Ok j
      else let! e := veq y x in if e then Ok j else index_of t i (S j) x
  end.

(** The key of the item at position [i] (src/sorter.py 78-81, 97-102). *)
Definition item_key (r : attr_rep) (s : sort_schema) (data : list value) (i : nat) (x : value) : res skey :=
  match s with
  | OneSchema sc => attr_key r x sc
  | ManySchemas l =>
      let! j := index_of data i 0 x in
      match nth_error l j with
      | None => Raise IndexErr
      | Some None => Raise AttributeErr
      | Some (Some (_, sc)) => attr_key r x sc
      end
  end.

(** Sorter.__call__ (src/sorter.py 67-83); every item is returned with its
    original position, which stands for its identity. *)
Definition sort_tagged (so : sorter) (data : list value) (s : sort_schema) : res (list (nat * value)) :=
  let! any := any_value (so_rep so) data in
  if negb any then Ok (enumerate data)
  else
    let s := single_schema s in
    let! keyed := mapM (fun e => let! k := item_key (so_rep so) s data (fst e) (snd e) in
                                 Ok (k, e)) (enumerate data) in
    py_sorted keyed (negb (so_asc so)).
(** Sorter.__call__ (src/sorter.py 67-83). *)
Definition sort_data (so : sorter) (data : list value) (s : sort_schema) : res (list value) :=
  let! l := sort_tagged so data s in Ok (map snd l).

(** Sorter.parse (src/sorter.py 52-65). *)
Definition parse_sorter (by_ : str) (asc : bool) : outcome :=
  match parse_rep by_ with
  | None => (VInvalid, iss_of [e_bad_name])
  | Some r => (VSorter (mkSorter r asc), no_issues)
  end.
