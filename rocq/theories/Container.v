(** Model of SCIMDataContainer, /repo/src/data/container.py 116-278.
    Containers are immutable values here: item assignment and deletion return
    the new container.  Aliasing between Python containers (line 137 shares the
    dictionaries) is not modelled. *)
From Verif Require Import PyBase PyNum AttrRep Value.

(** SCIMDataContainer() (src/data/container.py 117-119). *)
Definition empty_cont : value := VCont [] [].

(** SCIMDataContainer.__init__ (src/data/container.py 117-138). *)
Fixpoint mk_cont (v : value) : value :=
  match v with
  | VDict d =>
      (fix go (d : list (dkey * value)) (data : list (str * value)) (l2o : list (str * str)) : value :=
         match d with
         | [] => VCont data l2o
         | (KOther _, _) :: t => go t data l2o
         | (KStr k, x) :: t =>
             let x' := match x with
                       | VDict _ => mk_cont x
                       | VList l => VList ((fix items (l : list value) : list value :=
                                              match l with
                                              | [] => []
                                              | y :: t' => match y with
                                                           | VDict _ => mk_cont y
                                                           | _ => y
                                                           end :: items t'
                                              end) l)
                       | _ => x
                       end in
             go t (sset k x' data) (sset (lower k) k l2o)
         end) d [] []
  | VCont data l2o => VCont data l2o
  | _ => VCont [] []
  end.

(** SCIMDataContainer.__getitem__ with an AttrRep (src/data/container.py
    179-198).  Indexing anything but a container with an AttrRep raises
    TypeError (an AttrRep is neither hashable nor an index). *)
Fixpoint get_item (v : value) (r : attr_rep) {struct v} : res value :=
  match v with
  | VCont data l2o =>
      match sget (lower (r_schema r)) l2o with
      | Some ext =>
          let! r' := mk_rep [] (r_attr r) (r_sub r) false in
          (fix find (d : list (str * value)) : res value :=
             match d with
             | [] => Raise KeyErr
             | (k, x) :: t => if str_eqb k ext then get_item x r' else find t
             end) data
      | None =>
          match sget (lower (r_attr r)) l2o with
          | None => Ok VMissing
          | Some a =>
              (fix find (d : list (str * value)) : res value :=
                 match d with
                 | [] => Raise KeyErr
                 | (k, x) :: t =>
                     if str_eqb k a then
                       match r_sub r with
                       | [] => Ok x
                       | _ :: _ =>
                           match x with
                           | VCont _ _ =>
                               let! r' := mk_rep [] (r_sub r) [] false in get_item x r'
                           | VList l =>
                               let! vs :=
                                 (fix items (l : list value) : res (list value) :=
                                    match l with
                                    | [] => Ok []
                                    | y :: t' =>
                                        let! r' := mk_rep [] (r_sub r) [] false in
                                        let! z := get_item y r' in
                                        let! zs := items t' in Ok (z :: zs)
                                    end) l in
                               Ok (VList vs)
                           | _ => Ok VMissing
                           end
                       end
                     else find t
                 end) data
          end
      end
  | _ => Raise TypeErr
  end.

(** _to_attr_rep (src/data/container.py 237-242). *)
Definition to_rep (s : str) : res attr_rep :=
  match parse_rep s with Some r => Ok r | None => Raise ValueErr end.

(** c["name"] (src/data/container.py 180-181). *)
Definition get_item_str (v : value) (s : str) : res value :=
  match v with
  | VCont _ _ => let! r := to_rep s in get_item v r
  | _ => Raise TypeErr
  end.

(** _can_assign_to_complex (src/data/container.py 225-235). *)
Definition can_assign (current new : value) : bool :=
  match current with
  | VCont _ _ => true
  | VList l =>
      match new, l with
      | VList _, _ :: _ => forallb is_cont l
      | _, _ => false
      end
  | _ => false
  end.

(** Assignment of a plain attribute (src/data/container.py 175-177). *)
Definition set_plain (data : list (str * value)) (l2o : list (str * str)) (a : str) (x : value) : value :=
  VCont (sset a x data) (sset (lower a) a l2o).

(** container[AttrRep(attr=sub)] = item for a nested value (no schema, no
    sub-attribute); anything but a container raises TypeError
    (src/data/container.py 140-177). *)
Definition set_leaf (c : value) (a : str) (x : value) : res value :=
  let! r := mk_rep [] a [] false in
  match c with
  | VCont data l2o => Ok (set_plain data l2o (r_attr r) x)
  | _ => Raise TypeErr
  end.

(** zip loop of lines 170-172: assigns item by item, skipping Missing; extra
    containers are left alone. *)
Fixpoint set_leaves (sub : str) (vals conts : list value) : res (list value) :=
  match vals, conts with
  | x :: vals', c :: conts' =>
      let! c' := match x with
                 | VMissing => Ok c
                 | _ => set_leaf c sub x
                 end in
      let! cs := set_leaves sub vals' conts' in
      Ok (c' :: cs)
  | _, _ => Ok conts
  end.

(** Assignment of a sub-attribute (src/data/container.py 152-174). *)
Definition set_sub (data : list (str * value)) (l2o : list (str * str)) (a sub : str) (x : value)
  : res value :=
  let! (key, data, l2o) :=
    match sget (lower a) l2o with
    | None =>
        Ok (a, sset a (match x with VList _ => VList [] | _ => empty_cont end) data,
            sset (lower a) a l2o)
    | Some key =>
        match sget key data with
        | None => Raise KeyErr
        | Some cur => if can_assign cur x then Ok (key, data, l2o) else Raise KeyErr
        end
    end in
  match sget key data with
  | None => Raise KeyErr
  | Some cur =>
      match x with
      | VList xs =>
          match cur with
          | VList conts =>
              let conts' := conts ++ repeat empty_cont (length xs - length conts) in
              let! conts'' := set_leaves sub xs conts' in
              Ok (VCont (sset key (VList conts'') data) l2o)
          | _ => Raise TypeErr (* len() of a container *)
          end
      | _ =>
          let! c' := set_leaf cur sub x in
          Ok (VCont (sset key c' data) l2o)
      end
  end.

(** __setitem__ for a representation without extension flag
    (src/data/container.py 152-177). *)
Definition set_noext (c : value) (a sub : str) (x : value) : res value :=
  match c with
  | VCont data l2o =>
      match sub with
      | [] => Ok (set_plain data l2o a x)
      | _ => set_sub data l2o a sub x
      end
  | _ => Raise TypeErr
  end.

(** SCIMDataContainer.__setitem__ (src/data/container.py 140-177). *)
Definition set_item (c : value) (r : attr_rep) (x : value) : res value :=
  match c with
  | VCont data l2o =>
      if r_ext r then
        let (data, l2o) :=
          match sget (lower (r_schema r)) l2o with
          | None => (sset (r_schema r) empty_cont data, sset (lower (r_schema r)) (r_schema r) l2o)
          | Some _ => (data, l2o)
          end in
        match sget (r_schema r) data with
        | None => Raise KeyErr
        | Some sub =>
            let! r' := mk_rep [] (r_attr r) (r_sub r) false in
            let! sub' := set_noext sub (r_attr r') (r_sub r') x in
            Ok (VCont (sset (r_schema r) sub' data) l2o)
        end
      else set_noext c (r_attr r) (r_sub r) x
  | _ => Raise TypeErr
  end.

(** c["name"] = x (src/data/container.py 141-142). *)
Definition set_item_str (c : value) (s : str) (x : value) : res value :=
  match c with
  | VCont _ _ => let! r := to_rep s in set_item c r x
  | _ => Raise TypeErr
  end.

(** SCIMDataContainer.__delitem__ (src/data/container.py 200-223). *)
Fixpoint del_item (v : value) (r : attr_rep) {struct v} : res value :=
  match v with
  | VCont data l2o =>
      match sget (lower (r_schema r)) l2o with
      | Some ext =>
          let! r' := mk_rep [] (r_attr r) (r_sub r) false in
          let! data' :=
            (fix upd (d : list (str * value)) : res (list (str * value)) :=
               match d with
               | [] => Raise KeyErr
               | (k, x) :: t =>
                   if str_eqb k ext then let! x' := del_item x r' in Ok ((k, x') :: t)
                   else let! t' := upd t in Ok ((k, x) :: t')
               end) data in
          Ok (VCont data' l2o)
      | None =>
          match sget (lower (r_attr r)) l2o with
          | None => Ok v
          | Some a =>
              match r_sub r with
              | [] =>
                  match sget a data with
                  | None => Raise KeyErr
                  | Some _ => Ok (VCont (sdel a data) (sdel (lower (r_attr r)) l2o))
                  end
              | _ :: _ =>
                  let! data' :=
                    (fix upd (d : list (str * value)) : res (list (str * value)) :=
                       match d with
                       | [] => Raise KeyErr
                       | (k, x) :: t =>
                           if str_eqb k a then
                             let! x' :=
                               match x with
                               | VCont _ _ =>
                                   let! r' := mk_rep [] (r_sub r) [] false in del_item x r'
                               | VList l =>
                                   let! ys :=
                                     (fix items (l : list value) : res (list value) :=
                                        match l with
                                        | [] => Ok []
                                        | y :: t' =>
                                            let! r' := mk_rep [] (r_sub r) [] false in
                                            let! z := del_item y r' in
                                            let! zs := items t' in Ok (z :: zs)
                                        end) l in
                                   Ok (VList ys)
                               | _ => Ok x
                               end in
                             Ok ((k, x') :: t)
                           else let! t' := upd t in Ok ((k, x) :: t')
                       end) data in
                  Ok (VCont data' l2o)
              end
          end
      end
  | _ => Raise TypeErr
  end.

(** SCIMDataContainer.to_dict (src/data/container.py 244-266); on anything but a
    container the value itself (callers only apply it to containers). *)
Fixpoint to_dict (v : value) : value :=
  match v with
  | VCont data _ =>
      VDict ((fix go (d : list (str * value)) : list (dkey * value) :=
                match d with
                | [] => []
                | (k, x) :: t =>
                    (KStr k,
                     match x with
                     | VCont _ _ => to_dict x
                     | VList l =>
                         VList ((fix items (l : list value) : list value :=
                                   match l with
                                   | [] => []
                                   | y :: t' =>
                                       match y with
                                       | VCont _ _ => to_dict y
                                       | VDict d' =>
                                           VDict ((fix entries (d' : list (dkey * value)) :=
                                                     match d' with
                                                     | [] => []
                                                     | (k', z) :: t'' =>
                                                         (k', match z with
                                                              | VCont _ _ => to_dict z
                                                              | _ => z
                                                              end) :: entries t''
                                                     end) d')
                                       | _ => y
                                       end :: items t'
                                   end) l)
                     | _ => x
                     end) :: go t
                end) data)
  | _ => v
  end.

(** Number of nodes of a value: fuel for equality (no source lines). *)
Fixpoint vsize (v : value) : nat :=
  match v with
  | VList l => S ((fix go (l : list value) : nat :=
                     match l with [] => 0 | x :: t => vsize x + go t end) l)
  | VDict d => S ((fix go (d : list (dkey * value)) : nat :=
                     match d with [] => 0 | (_, x) :: t => vsize x + go t end) d)
  | VCont d _ => S ((fix go (d : list (str * value)) : nat :=
                       match d with [] => 0 | (_, x) :: t => vsize x + go t end) d)
  | _ => 1
  end.

(** Equality of dictionary keys, a Python built-in. *)
Definition dkey_eqb (a b : dkey) : bool :=
  match a, b with
  | KStr s, KStr t => str_eqb s t
  | KOther n, KOther m => N.eqb n m
  | _, _ => false
  end.

(** Python [a == b] on values, including SCIMDataContainer.__eq__
    (src/data/container.py 268-278).  A container compares every stored value
    with [other[key]], the stored value on the right-hand side of [!=].
    Simplifications: identity short-cuts are not modelled (they matter only for
    NaN); filters, paths, checkers and sorters compare unequal. *)
Fixpoint py_eq (fuel : nat) (a b : value) {struct fuel} : res bool :=
  match fuel with
  | O => Raise OutOfFuel
  | S f =>
      let cont_eq (data : list (str * value)) (other : value) : res bool :=
        (fix go (d : list (str * value)) : res bool :=
           match d with
           | [] => Ok true
           | (k, x) :: t =>
               let! y := get_item_str other k in
               let! e := py_eq f y x in
               if e then go t else Ok false
           end) data in
      match a, b with
      | VNone, VNone | VMissing, VMissing | VInvalid, VInvalid => Ok true
      | VStr s, VStr t => Ok (str_eqb s t)
      | VDate x, VDate y => Ok (match dt_cmp x y with Some Eq => true | _ => false end)
      | VList l, VList m =>
          (fix go (l m : list value) : res bool :=
             match l, m with
             | [], [] => Ok true
             | x :: l', y :: m' => let! e := py_eq f x y in if e then go l' m' else Ok false
             | _, _ => Ok false
             end) l m
      | VDict d, VDict d' =>
          if Nat.eqb (length d) (length d') then
            (fix go (d : list (dkey * value)) : res bool :=
               match d with
               | [] => Ok true
               | (k, x) :: t =>
                   match aget dkey_eqb k d' with
                   | None => Ok false
                   | Some y => let! e := py_eq f x y in if e then go t else Ok false
                   end
               end) d
          else Ok false
      | VCont data _, VCont _ _ => cont_eq data b
      | VCont data _, VDict _ => cont_eq data (mk_cont b)
      | VDict _, VCont data _ => cont_eq data (mk_cont a)
      | VRep r, VRep r' => Ok (rep_eqb r r')
      | VOther n, VOther m => Ok (N.eqb n m)
      | _, _ => match num_of a, num_of b with
                | Some x, Some y => Ok (feqb x y)
                | _, _ => Ok false
                end
      end
  end.

(** a == b on values (src/data/container.py 268-278 for containers). *)
Definition veq (a b : value) : res bool := py_eq (S (vsize a + vsize b)) a b.
