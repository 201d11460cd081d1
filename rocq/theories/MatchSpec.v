(** Vocabulary for the properties of filter evaluation (C32-C38). *)
From Verif Require Import PyBase PyNum Issues AttrRep AttrRepSpec Value Container ContainerSpec Types Attr Match.

Section Env.
  Context {env : PyEnv}.

  (** Applying the filter to the resource returns the status, respectively a match. *)
  Definition gives (o : oper) (data : value) (l : list attribute) (strict : bool) (st : status) : Prop :=
    filter_apply o data l strict = Ok st.
  Definition matching (o : oper) (data : value) (l : list attribute) (strict : bool) : Prop := gives o data l strict Passed.
  (** Applying the filter raises nothing. *)
  Definition returns (o : oper) (data : value) (l : list attribute) (strict : bool) : Prop := exists st, gives o data l strict st.

  (** The attribute is declared. *)
  Definition declared (l : list attribute) (r : attr_rep) : Prop := exists a, find_attr l r = Some a.

  (** The items a complex filter looks at. *)
  Definition items_of (v : value) : list value := match v with VList l => l | _ => [v] end.

  (** Every attribute the filter mentions is declared and has a value in the
      resource. *)
  Inductive settled : oper -> value -> list attribute -> Prop :=
  | st_present r data l : declared l r -> settled (OPresent r) data l
  | st_bin b r lt data l v : declared l r -> get_item data r = Ok v -> v <> VNone -> v <> VMissing -> settled (OBin b r lt) data l
  | st_and subs data l : Forall (fun s => settled s data l) subs -> settled (OAnd subs) data l
  | st_or subs data l : Forall (fun s => settled s data l) subs -> settled (OOr subs) data l
  | st_not s data l : settled s data l -> settled (ONot s) data l
  | st_complex r s data l a v : find_attr l r = Some a -> is_complex a = true -> get_item data r = Ok v ->
      (is_logical s = true \/ is_attr_op s = true) ->
      (forall r', s = OPresent r' -> exists x y, In x (items_of v) /\ get_item x r' = Ok y /\ y <> VNone /\ y <> VMissing) ->
      is_list v = a_multi (info a) -> items_of v <> [] ->
      Forall (fun x => is_cont x = true /\ settled s x (sub_attrs a)) (items_of v) -> settled (OComplex r s) data l.

  (** Filters on undeclared attributes only: a condition, its negation, or a
      disjunction of such filters. *)
  Inductive unknown (l : list attribute) : oper -> Prop :=
  | un_present r : find_attr l r = None -> unknown l (OPresent r)
  | un_bin b r lt : find_attr l r = None -> unknown l (OBin b r lt)
  | un_complex r s : find_attr l r = None -> unknown l (OComplex r s)
  | un_not s r : oper_rep s = Some r -> find_attr l r = None -> unknown l (ONot s)
  | un_or subs : Forall (unknown l) subs -> unknown l (OOr subs).

  (** ** Comparisons *)

  (** Order of texts by code point. *)
  Inductive text_lt : str -> str -> Prop :=
  | tl_end c t : text_lt [] (c :: t)
  | tl_first c s d t : (code c < code d)%N -> text_lt (c :: s) (d :: t)
  | tl_next c s t : text_lt s t -> text_lt (c :: s) (c :: t).
  Definition text_rel (b : binop) (s t : str) : Prop :=
    match b with
    | OpEq => s = t
    | OpNe => s <> t
    | OpCo => exists p q, s = p ++ t ++ q
    | OpSw => exists q, s = t ++ q
    | OpEw => exists p, s = p ++ t
    | OpGt => text_lt t s
    | OpGe => text_lt t s \/ s = t
    | OpLt => text_lt s t
    | OpLe => text_lt s t \/ s = t
    end.

  (** Order of numbers, NaN being unordered. *)
  Definition num_less (a b : pyfloat) : Prop :=
    match a, b with
    | FNan, _ | _, FNan => False
    | FInf x, FInf y => x = true /\ y = false
    | FInf x, FFin _ _ => x = true
    | FFin _ _, FInf y => y = false
    | FFin m e, FFin m' e' => exists k, (0 <= e + k /\ 0 <= e' + k /\ m * 2 ^ (e + k) < m' * 2 ^ (e' + k))%Z
    end.
  Definition num_rel (b : binop) (x y : pyfloat) : Prop :=
    match b with
    | OpEq => same_number x y
    | OpNe => ~ same_number x y
    | OpGt => num_less y x
    | OpGe => num_less y x \/ same_number x y
    | OpLt => num_less x y
    | OpLe => num_less x y \/ same_number x y
    | _ => False
    end.

  (** Moments: local time, or universal time when an offset is given; the two
      kinds do not compare. *)
  Definition moment (d : datetime) : Z := match dt_off d with None => dt_local d | Some x => (dt_local d - x)%Z end.
  Definition same_kind (a b : datetime) : Prop := dt_off a = None <-> dt_off b = None.
  Definition date_rel (b : binop) (x y : datetime) : Prop :=
    match b with
    | OpEq => same_kind x y /\ moment x = moment y
    | OpNe => ~ (same_kind x y /\ moment x = moment y)
    | OpGt => (moment y < moment x)%Z
    | OpGe => (moment y <= moment x)%Z
    | OpLt => (moment x < moment y)%Z
    | OpLe => (moment x <= moment y)%Z
    | _ => False
    end.

  Definition ordering (b : binop) : Prop := b = OpGt \/ b = OpGe \/ b = OpLt \/ b = OpLe.
  Definition substring (b : binop) : Prop := b = OpCo \/ b = OpSw \/ b = OpEw.

  (** Which operators are defined for which types. *)
  Definition defined_for (b : binop) (t : atype) : Prop :=
    t <> TUnknown
    /\ (substring b -> In t [TString; TExternalRef; TUriRef; TScimRef; TComplex])
    /\ (ordering b -> In t [TString; TDateTime; TInteger; TDecimal; TComplex]).

  Definition folded (case_exact : bool) (s : str) : str := if case_exact then s else lower s.

  (** The stored value and the literal are of kinds the operator can compare. *)
  Definition comparable (b : binop) (a : attribute) (v : value) (lt : lit) : Prop :=
    match v, lt with
    | VStr s, LitStr t =>
        a_type (info a) = TDateTime -> ordering b ->
        forall x y, env_fromiso s = Some x -> env_fromiso t = Some y -> same_kind x y
    | _, _ => a_type (info a) <> TDateTime /\ ~ substring b /\ (exists x, number v = Some x) /\ exists y, number (v_of_lit lt) = Some y
    end.
  (** The comparison the operator stands for. *)
  Definition satisfies (b : binop) (a : attribute) (v : value) (lt : lit) : Prop :=
    match v, lt with
    | VStr s, LitStr t =>
        if atype_eqb (a_type (info a)) TDateTime
        then exists x y, env_fromiso s = Some x /\ env_fromiso t = Some y /\ date_rel b x y
        else text_rel b (folded (a_case_exact (info a)) s) (folded (a_case_exact (info a)) t)
    | _, _ => match number v, number (v_of_lit lt) with Some x, Some y => num_rel b x y | _, _ => False end
    end.

  (** What is compared: the value, the items of a list, or the "value" of every
      item of a multi-valued complex attribute. *)
  Inductive subjects (a : attribute) (v : value) : list value -> Prop :=
  | sj_single : is_complex a = false -> is_list v = false -> subjects a v [v]
  | sj_list l : is_complex a = false -> v = VList l -> a_type (info a) <> TDateTime -> subjects a v l
  | sj_complex l vs : is_complex a = true -> a_type (info a) = TComplex -> a_multi (info a) = true ->
      (exists s, In s (sub_attrs a) /\ r_attr (arep s) = $"value") ->
      v = VList l -> Forall2 (fun x y => get_item x (simple_name ($"value")) = Ok y) l vs -> subjects a v vs.
End Env.
