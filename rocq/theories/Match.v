(** Model of /repo/src/data/operator.py: evaluation of filters. *)
From Verif Require Import PyBase PyNum Issues AttrRep Value Container Types Attr.

(** MatchStatus (src/data/operator.py 23-27). *)
Inductive status := Passed | Failed | FailedNoAttr | MissingData.

(** match.status == MatchStatus.PASSED (src/data/operator.py 111-155). *)
Definition is_passed (s : status) : bool := match s with Passed => true | _ => false end.
(** match.status == MatchStatus.FAILED (src/data/operator.py 111-155). *)
Definition is_failed (s : status) : bool := match s with Failed => true | _ => false end.
(** match.status == MatchStatus.MISSING_DATA (src/data/operator.py 111-155). *)
Definition is_missing_data (s : status) : bool := match s with MissingData => true | _ => false end.
(** MatchResult.passed() or MatchResult.failed() (src/data/operator.py 34-40). *)
Definition status_of (b : bool) : status := if b then Passed else Failed.

(** isinstance(op, LogicalOperator): And, Or, Not (src/data/operator.py 105, 175). *)
Definition is_logical (o : oper) : bool :=
  match o with OAnd _ | OOr _ | ONot _ => true | _ => false end.
(** isinstance(op, AttributeOperator): Present and the binary operators
    (src/data/operator.py 506). *)
Definition is_attr_op (o : oper) : bool :=
  match o with OPresent _ | OBin _ _ _ => true | _ => false end.

(** SUPPORTED_SCIM_TYPES (src/data/operator.py 327-459). *)
Definition type_supported (b : binop) (name : str) : bool :=
  smem name
    match b with
    | OpEq | OpNe => [$"string"; $"decimal"; $"dateTime"; $"reference"; $"boolean"; $"binary";
                      $"integer"; $"complex"]
    | OpCo | OpSw | OpEw => [$"string"; $"reference"; $"complex"]
    | OpGt | OpGe | OpLt | OpLe => [$"string"; $"dateTime"; $"integer"; $"decimal"; $"complex"]
    end.

(** Ordering of two Python objects by <, <=, >, >=: numbers (NaN compares
    false), strings, datetimes; [None] means TypeError.  Lists of comparable
    things are not modelled (TypeError) (src/data/operator.py 299-325, 410-465). *)
Definition order (a b : value) : option (option comparison) :=
  match a, b with
  | VStr s, VStr t => Some (Some (str_cmp s t))
  | VDate x, VDate y => match dt_cmp x y with Some c => Some (Some c) | None => None end
  | _, _ => match num_of a, num_of b with
            | Some x, Some y => Some (fcmp x y)
            | _, _ => None
            end
  end.

(** The comparison functions gt, ge, lt and le (src/data/operator.py 410-465). *)
Definition cmp_holds (b : binop) (c : option comparison) : bool :=
  match b, c with
  | OpGt, Some Gt => true
  | OpGe, Some Gt | OpGe, Some Eq => true
  | OpLt, Some Lt => true
  | OpLe, Some Lt | OpLe, Some Eq => true
  | _, _ => false
  end.

(** OPERATOR(attr_value, op_value) (src/data/operator.py 327-459).
    operator.contains on containers other than str, and startswith/endswith on
    objects without these methods, raise. *)
Definition apply_op (b : binop) (x y : value) : res bool :=
  match b with
  | OpEq => veq x y
  | OpNe => let! e := veq x y in Ok (negb e)
  | OpCo =>
      match x, y with
      | VStr s, VStr t => Ok (contains s t)
      | VStr _, _ => Raise TypeErr
      | VList l, _ =>
          (fix go (l : list value) : res bool :=
             match l with
             | [] => Ok false
             | z :: t => let! e := veq z y in if e then Ok true else go t
             end) l
      | VDict d, VStr s => Ok (amem dkey_eqb (KStr s) d)
      | VDict _, _ => Ok false
      | VCont _ _, _ => Raise AttributeErr
      | _, _ => Raise TypeErr
      end
  | OpSw => match x, y with
            | VStr s, VStr t => Ok (starts_with s t)
            | VStr _, _ => Raise TypeErr
            | _, _ => Raise AttributeErr
            end
  | OpEw => match x, y with
            | VStr s, VStr t => Ok (ends_with s t)
            | VStr _, _ => Raise TypeErr
            | _, _ => Raise AttributeErr
            end
  | _ => match order x y with
         | Some c => Ok (cmp_holds b c)
         | None => Raise TypeErr
         end
  end.

(** any pair satisfies the operator (src/data/operator.py 321-324), stopping at
    the first that does. *)
Fixpoint any_pair (b : binop) (l : list (value * value)) : res bool :=
  match l with
  | [] => Ok false
  | (x, y) :: t => let! e := apply_op b x y in if e then Ok true else any_pair b t
  end.

(** Present.match (src/data/operator.py 217-238).  [item.get] exists on dicts
    only. *)
Definition present_match (r : attr_rep) (v : value) (l : list attribute) : res status :=
  match find_attr l r with
  | None => Ok FailedNoAttr
  | Some a =>
      if is_complex a then
        match v with
        | VList items =>
            let! bs := mapM (fun x => match x with
                                      | VDict d => Ok (match aget dkey_eqb (KStr ($"value")) d with
                                                       | Some y => truthy y | None => false end)
                                      | _ => Raise AttributeErr
                                      end) items in
            Ok (status_of (existsb (fun b => b) bs))
        | _ => Ok Failed
        end
      else
        match v with
        | VList items => Ok (status_of (existsb truthy items))
        | VStr s => Ok (status_of (nonempty s))
        | VNone | VMissing | VInvalid => Ok Failed
        | _ => Ok Passed
        end
  end.

Section Env.
  Context {env : PyEnv}.

  (** _get_values_for_comparison (src/data/operator.py 261-297). *)
  Definition comparison_values (b : binop) (lt : lit) (v : value) (a : attribute)
    : res (option (list (value * value))) :=
    let i := info a in
    let! name := scim_name (a_type i) in
    if negb (type_supported b name) then Ok None
    else
      let! v :=
        if is_complex a then
          if existsb (fun s => str_eqb (r_attr (arep s)) ($"value")) (sub_attrs a) && a_multi i then
            let! l := iter_value v in
            let! vs := mapM (fun x => get_item_str x ($"value")) l in
            Ok (Some (VList vs))
          else Ok None
        else Ok (Some v) in
      match v with
      | None => Ok None
      | Some v =>
          if str_eqb name ($"dateTime") then
            (* datetime.fromisoformat raises TypeError for anything but a str *)
            match v with
            | VStr s =>
                match env_fromiso s with
                | None => Ok None
                | Some x =>
                    match lt with
                    | LitStr t => match env_fromiso t with
                                  | None => Ok None
                                  | Some y => Ok (Some [(VDate x, VDate y)])
                                  end
                    | _ => Raise TypeErr
                    end
                end
            | _ => Raise TypeErr
            end
          else
            let items := match v with VList l => l | _ => [v] end in
            match lt, a_case_exact i with
            | LitStr t, false =>
                Ok (Some (flat_map (fun x => match x with
                                             | VStr s => [(VStr (lower s), VStr (lower t))]
                                             | _ => []
                                             end) items))
            | _, _ => Ok (Some (map (fun x => (x, v_of_lit lt)) items))
            end
      end.

  (** BinaryAttributeOperator.match (src/data/operator.py 299-324). *)
  Definition binary_match (b : binop) (r : attr_rep) (lt : lit) (v : value) (l : list attribute)
      (strict : bool) : res status :=
    match find_attr l r with
    | None => Ok FailedNoAttr
    | Some a =>
        match v with
        | VNone | VMissing => Ok (if strict then MissingData else Passed)
        | VInvalid => Ok Failed
        | _ =>
            let! vals := comparison_values b lt v a in
            match vals with
            | None => Ok Failed
            | Some ps => let! e := any_pair b ps in Ok (status_of e)
            end
        end
    end.

  (** value or {} (src/data/operator.py 120, 141, 174): a falsy value becomes an
      empty dict, which cannot be indexed by an AttrRep either. *)
  Definition or_empty (v : value) : value := if truthy v then v else VDict [].

  (** What a sub-operator of a logical operator is applied to
      (src/data/operator.py 105-108, 175-184): the container itself for a logical
      operator, the attribute's value otherwise. *)
  Definition operand (o : oper) (v : value) : res value :=
    if is_logical o then Ok v
    else match oper_rep o with
         | Some r => get_item v r
         | None => Raise AttributeErr
         end.

  (** The match methods (src/data/operator.py 88-529).  Matching [ONone] raises
      AttributeError (no such method on None / Invalid). *)
  Fixpoint matches (o : oper) (v : value) (l : list attribute) (strict : bool) {struct o} : res status :=
    match o with
    | OPresent r => present_match r v l
    | OBin b r lt => binary_match b r lt v l strict
    | OAnd subs =>
        let v := or_empty v in
        (fix go (subs : list oper) (missing : bool) : res status :=
           match subs with
           | [] => Ok (if missing then MissingData else Passed)
           | s :: t =>
               let! x := operand s v in
               let! m := matches s x l strict in
               match m with
               | Failed => Ok Failed
               | MissingData => go t true
               | _ => go t missing
               end
           end) subs false
    | OOr subs =>
        let v := or_empty v in
        (fix go (subs : list oper) (missing : bool) : res status :=
           match subs with
           | [] => Ok (if missing then MissingData else Failed)
           | s :: t =>
               let! x := operand s v in
               let! m := matches s x l strict in
               match m with
               | Passed => Ok Passed
               | MissingData => go t true
               | _ => go t missing
               end
           end) subs false
    | ONot s =>
        let v := or_empty v in
        let! x := operand s v in
        let! m := matches s x l true in
        if is_logical s then
          match m with
          | MissingData => Ok (if strict then Failed else Passed)
          | Failed => Ok Passed
          | _ => Ok Failed
          end
        else
          match m with
          | Failed => Ok Passed
          | MissingData => Ok (if strict then Failed else Passed)
          | _ => Ok Failed
          end
    | OComplex r s =>
        match find_attr l r with
        | None => Ok FailedNoAttr
        | Some a =>
            if negb (is_complex a) then Ok FailedNoAttr
            else
              let multi := a_multi (info a) in
              if (multi && negb (is_list v)) || (negb multi && is_list v) then Ok Failed
              else
                let v := if truthy v then v else if multi then VList [] else empty_cont in
                let items := match v with VList l => l | _ => [v] end in
                if is_attr_op s then
                  (fix go (items : list value) (has_value : bool) : res status :=
                     match items with
                     | [] => Ok (if negb has_value && negb strict then Passed else Failed)
                     | x :: t =>
                         match oper_rep s with
                         | None => Raise AttributeErr
                         | Some sr =>
                             let! iv := get_item x sr in
                             let! m := matches s iv (sub_attrs a) strict in
                             match m with
                             | Passed => Ok Passed
                             | _ => go t (has_value || negb (is_none_or_missing iv))
                             end
                         end
                     end) items false
                else
                  (fix go (items : list value) (missing : bool) : res status :=
                     match items with
                     | [] => Ok (if missing && negb strict then Passed else Failed)
                     | x :: t =>
                         let! m := matches s x (sub_attrs a) strict in
                         match m with
                         | Passed => Ok Passed
                         | MissingData => go t true
                         | _ => go t missing
                         end
                     end) items false
        end
    | ONone => Raise AttributeErr
    end.

  (** Filter.__call__ (src/filter.py 656-661): apply the operator to the data;
      only logical operators receive the whole container. *)
  Definition filter_apply (o : oper) (data : value) (l : list attribute) (strict : bool) : res status :=
    let! x := operand o data in matches o x l strict.
End Env.
