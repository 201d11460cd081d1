(** Data that flows through the library: filter operators, patch paths, and the
    Python values a SCIMDataContainer can hold. *)
From Verif Require Import PyBase PyNum AttrRep.
Local Open Scope Z_scope.

(** ** Filter operators (src/data/operator.py) *)

(** Literals a parsed filter can compare with (src/filter.py 52: str, bool, int,
    float or None).  Simplification: [dict] operands, which only code that
    builds operators by hand could pass, are not modelled. *)
Inductive lit := LitNone | LitBool (b : bool) | LitInt (z : Z) | LitFloat (f : pyfloat) | LitStr (s : str).

(** The nine BinaryAttributeOperator classes (src/data/operator.py 327-459). *)
Inductive binop := OpEq | OpNe | OpCo | OpSw | OpEw | OpGt | OpGe | OpLt | OpLe.

(** Operator objects (src/data/operator.py 88-529).  [ONone] stands for the
    Python value None / Invalid in operator position: the parser returns it
    together with issues, and it is proved never to occur in a parsed filter. *)
Inductive oper :=
| OPresent (r : attr_rep)
| OBin (b : binop) (r : attr_rep) (l : lit)
| OAnd (l : list oper)
| OOr (l : list oper)
| ONot (o : oper)
| OComplex (r : attr_rep) (o : oper)
| ONone.

(** PatchPath objects (src/data/path.py 10-38); a Filter is its operator. *)
Record patch_path := mkPath {
  p_rep : attr_rep;
  p_filter : option oper;
  p_sub : option attr_rep
}.

(** AttributePresenceChecker objects (src/attributes_presence.py 8-25). *)
Record checker := mkChecker {
  ck_reps : list attr_rep;
  ck_include : option bool;
  ck_ignore : list attr_rep
}.

(** Sorter objects (src/sorter.py 38-50). *)
Record sorter := mkSorter { so_rep : attr_rep; so_asc : bool }.

(** datetime objects: local microseconds since the epoch and the UTC offset in
    microseconds ([None] for naive values)
    (Python's datetime, as produced at src/data/type.py 227). *)
Record datetime := mkDT { dt_local : Z; dt_off : option Z }.

(** Dictionary keys: strings, or some other hashable object
    (keys of the dicts of src/data/container.py 121-124). *)
Inductive dkey := KStr (s : str) | KOther (n : N).

(** Python values.  [VCont] is a SCIMDataContainer: its [_data] and its
    [_lower_case_to_original] (src/data/container.py 117-138).  [VOther] is any
    other object (tuple, bytes, set, ...), assumed truthy and without the
    operations the library uses. *)
Inductive value :=
| VNone
| VMissing
| VInvalid
| VBool (b : bool)
| VInt (z : Z)
| VFloat (f : pyfloat)
| VStr (s : str)
| VDate (d : datetime)
| VList (l : list value)
| VDict (d : list (dkey * value))
| VCont (data : list (str * value)) (l2o : list (str * str))
| VRep (r : attr_rep)
| VFilter (o : oper)
| VPath (p : patch_path)
| VChecker (c : checker)
| VSorter (s : sorter)
| VOther (n : N).

(** The literal of a filter (src/utils.py 20-41) or a canonical value (src/data/attributes.py 97-104) as a value. *)
Definition v_of_lit (l : lit) : value :=
  match l with
  | LitNone => VNone | LitBool b => VBool b | LitInt z => VInt z
  | LitFloat f => VFloat f | LitStr s => VStr s
  end.

(** d.get(k) on a dict keyed by str, e.g. src/data/container.py 145. *)
Definition sget {V} (k : str) (d : list (str * V)) : option V := aget str_eqb k d.
(** d[k] = v on a dict keyed by str, e.g. src/data/container.py 126. *)
Definition sset {V} (k : str) (v : V) (d : list (str * V)) : list (str * V) := aset str_eqb k v d.
(** d.pop(k) on a dict keyed by str, e.g. src/data/container.py 223. *)
Definition sdel {V} (k : str) (d : list (str * V)) : list (str * V) := adel str_eqb k d.

(** bool(v): truth value of a Python object
    (Python built-in; Invalid and Missing are false, src/data/container.py 94-110). *)
Definition truthy (v : value) : bool :=
  match v with
  | VNone | VMissing | VInvalid => false
  | VBool b => b
  | VInt z => negb (z =? 0)
  | VFloat (FFin m _) => negb (m =? 0)
  | VFloat _ => true
  | VStr s => nonempty s
  | VList l => match l with [] => false | _ => true end
  | VDict d => match d with [] => false | _ => true end
  | _ => true
  end.

(** Membership tests against short literal lists: [v in [None, Missing]]
    (e.g. src/attributes_presence.py 75). *)
Definition is_none_or_missing (v : value) : bool :=
  match v with VNone | VMissing => true | _ => false end.
(** v is Missing, e.g. src/data/schemas.py 252-274. *)
Definition is_missing (v : value) : bool := match v with VMissing => true | _ => false end.
(** v is Invalid, e.g. src/data/type.py 78. *)
Definition is_invalid (v : value) : bool := match v with VInvalid => true | _ => false end.

(** isinstance(v, List), e.g. src/data/container.py 129. *)
Definition is_list (v : value) : bool := match v with VList _ => true | _ => false end.
(** isinstance(v, str), e.g. src/data/attributes.py 245. *)
Definition is_str (v : value) : bool := match v with VStr _ => true | _ => false end.
(** isinstance(v, Dict), e.g. src/data/container.py 127. *)
Definition is_dict (v : value) : bool := match v with VDict _ => true | _ => false end.
(** isinstance(v, SCIMDataContainer), e.g. src/data/container.py 193. *)
Definition is_cont (v : value) : bool := match v with VCont _ _ => true | _ => false end.

(** Iterating over a value ([for x in v]); only lists are iterated over in
    well-behaved runs.  Iterating a str yields its characters, iterating a dict
    its keys.  A container has __getitem__ but no __iter__: Python then tries
    integer indices and fails with AttributeError.  Other modelled objects are
    not iterable (e.g. src/data/attributes.py 208). *)
Definition iter_value (v : value) : res (list value) :=
  match v with
  | VList l => Ok l
  | VStr s => Ok (map (fun c => VStr [c]) s)
  | VDict d => Ok (map (fun e => match fst e with KStr s => VStr s | KOther n => VOther n end) d)
  | VCont _ _ => Raise AttributeErr
  | _ => Raise TypeErr
  end.

(** int(v) (e.g. src/request_validators.py 598, 609, 1098) *)
Definition py_int (v : value) : res Z :=
  match v with
  | VInt z => Ok z
  | VBool b => Ok (if b then 1 else 0)
  | VFloat f => int_of_float f
  | VStr s => match parse_int s with Some z => Ok z | None => Raise ValueErr end
  | _ => Raise TypeErr
  end.

(** Numeric view of bool, int and float
    (for the comparisons of src/data/operator.py 299-325). *)
Definition num_of (v : value) : option pyfloat :=
  match v with
  | VBool b => Some (fint (if b then 1 else 0))
  | VInt z => Some (fint z)
  | VFloat f => Some f
  | _ => None
  end.

(** datetime comparison: naive with naive, aware with aware; otherwise
    unequal and not orderable
    (for src/data/operator.py 299-325 and src/sorter.py 67-83). *)
Definition dt_cmp (a b : datetime) : option comparison :=
  match dt_off a, dt_off b with
  | None, None => Some (Z.compare (dt_local a) (dt_local b))
  | Some x, Some y => Some (Z.compare (dt_local a - x) (dt_local b - y))
  | _, _ => None
  end.

(** Environment: standard library functions whose results are parameters of
    the model rather than computed.  [env_fromiso] is datetime.fromisoformat
    ([None] for ValueError), [env_isofmt] is datetime.isoformat, [env_abs_url]
    tells whether urlparse finds both a scheme and a netloc (false also when it
    raises ValueError) (src/data/type.py 169, 222, 227). *)
Class PyEnv := {
  env_fromiso : str -> option datetime;
  env_isofmt : datetime -> str;
  env_abs_url : str -> bool
}.
