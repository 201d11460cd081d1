(** Vocabulary for the properties of filter parsing (C39-C45): filter texts and
    what they mean, without reference to the parser. *)
From Verif Require Import PyBase PyNum Issues AttrRep AttrRepSpec Value.

(** ** Characters and words *)

(** The keyword occurs in the text as a word of its own. *)
Definition mentions (kw w : str) : Prop :=
  exists a b, w = a ++ kw ++ b
    /\ (a = [] \/ exists a' c, a = a' ++ [c] /\ is_word c = false)
    /\ (b = [] \/ exists c b', b = c :: b' /\ is_word c = false).
Definition keyword_free (w : str) : Prop := ~ mentions ($"or") w /\ ~ mentions ($"and") w /\ ~ mentions ($"not") w.

(** ** Literals *)

Definition double_quote : ascii := ascii_of_N 34.
Definition single_quote : ascii := ascii_of_N 39.

(** Digits, and the number they stand for. *)
Definition digits (s : str) : Prop := s <> [] /\ Forall (fun c => (48 <= code c <= 57)%N) s.
Fixpoint digits_value (acc : Z) (s : str) : Z :=
  match s with [] => acc | c :: t => digits_value (10 * acc + Z.of_N (code c - 48)) t end.

(** The text, without quotes, of a literal: a constant, or an integer within
    2^53. *)
Inductive shows : str -> lit -> Prop :=
| sh_true : shows ($"true") (LitBool true)
| sh_false : shows ($"false") (LitBool false)
| sh_null : shows ($"null") LitNone
| sh_nat s : digits s -> (digits_value 0 s <= 2 ^ 53)%Z -> shows s (LitInt (digits_value 0 s))
| sh_neg s : digits s -> (digits_value 0 s <= 2 ^ 53)%Z -> shows ("-"%char :: s) (LitInt (- digits_value 0 s)).

Definition op_word (b : binop) : str :=
  match b with
  | OpEq => $"eq" | OpNe => $"ne" | OpCo => $"co" | OpSw => $"sw" | OpEw => $"ew"
  | OpGt => $"gt" | OpGe => $"ge" | OpLt => $"lt" | OpLe => $"le"
  end.
(** Substring operators compare with text, ordering operators with text or
    numbers. *)
Definition suits (b : binop) (l : lit) : Prop :=
  match b with
  | OpEq | OpNe => True
  | OpCo | OpSw | OpEw => exists s, l = LitStr s
  | OpGt | OpGe | OpLt | OpLe => (exists s, l = LitStr s) \/ (exists z, l = LitInt z) \/ exists f, l = LitFloat f
  end.

(** ** Filter texts *)

Inductive operand :=
| Quoted (quote : ascii) (content : str)
| Bare (text : str).

Inductive fexp :=
| FPresent (name op : str)
| FCompare (name op : str) (x : operand)
| FBracket (name : str) (e : fexp)
| FAnd (l : list fexp)
| FOr (l : list fexp)
| FNot (e : fexp).

Definition operand_text (x : operand) : str :=
  match x with Quoted q c => q :: c ++ [q] | Bare t => t end.
Definition space : str := $" ".

Fixpoint sep_by (sep : str) (l : list str) : str :=
  match l with [] => [] | x :: t => match t with [] => x | _ => x ++ sep ++ sep_by sep t end end.
Definition parens (s : str) : str := "("%char :: s ++ [")"%char].

(** The text of an expression: operands of weaker or equal precedence in
    parentheses. *)
Definition is_or (e : fexp) : bool := match e with FOr _ => true | _ => false end.
Definition is_and_or (e : fexp) : bool := match e with FOr _ | FAnd _ => true | _ => false end.
Definition is_logic (e : fexp) : bool := match e with FOr _ | FAnd _ | FNot _ => true | _ => false end.
Fixpoint text (e : fexp) : str :=
  match e with
  | FPresent n o => n ++ space ++ o
  | FCompare n o x => n ++ space ++ o ++ space ++ operand_text x
  | FBracket n e => n ++ $"[" ++ text e ++ $"]"
  | FAnd l => sep_by ($" and ") (map (fun e => if is_and_or e then parens (text e) else text e) l)
  | FOr l => sep_by ($" or ") (map (fun e => if is_or e then parens (text e) else text e) l)
  | FNot e => $"not " ++ (if is_logic e then parens (text e) else text e)
  end.

(** ** Meaning *)

(** A condition on a name: on the attribute, or on the sub-attribute within it. *)
Definition condition (segs : list str) (attr sub : str) (mk : attr_rep -> oper) : oper :=
  match sub with
  | [] => mk (mkRep (joined segs) attr [] false)
  | _ => OComplex (mkRep (joined segs) attr [] false) (mk (mkRep [] sub [] false))
  end.
Inductive operand_lit : operand -> lit -> Prop :=
| ol_quoted q c : (q = double_quote \/ q = single_quote) -> ~ In q c -> operand_lit (Quoted q c) (LitStr c)
| ol_bare t l : shows t l -> operand_lit (Bare t) l.

(** A name before a bracket: no hyphen, no dollar sign. *)
Definition bracket_name (n : str) : Prop := Forall (fun c => is_word c = true \/ c = ":"%char \/ c = "."%char) n.

Fixpoint has_bracket (e : fexp) : bool :=
  match e with
  | FPresent _ _ | FCompare _ _ _ => false
  | FBracket _ _ => true
  | FAnd l | FOr l => existsb has_bracket l
  | FNot e => has_bracket e
  end.

Inductive means : fexp -> oper -> Prop :=
| me_present n w segs attr sub :
    names_attr n segs attr sub -> keyword_free n -> lower w = $"pr" ->
    means (FPresent n w) (condition segs attr sub OPresent)
| me_compare n w x segs attr sub b l :
    names_attr n segs attr sub -> keyword_free n -> lower w = op_word b -> operand_lit x l -> suits b l ->
    means (FCompare n w x) (condition segs attr sub (fun r => OBin b r l))
| me_bracket n e segs attr o :
    names_attr n segs attr [] -> bracket_name n -> has_bracket e = false -> means e o ->
    means (FBracket n e) (OComplex (mkRep (joined segs) attr [] false) o)
| me_and l os : 2 <= length l -> Forall2 means l os -> means (FAnd l) (OAnd os)
| me_or l os : 2 <= length l -> Forall2 means l os -> means (FOr l) (OOr os)
| me_not e o : means e o -> means (FNot e) (ONot o).

(** No level of the expression has both a parenthesised operand and a bracketed
    attribute. *)
Definition parenthesised (outer e : fexp) : bool :=
  match outer with FOr _ => is_or e | FAnd _ => is_and_or e | FNot _ => is_logic e | _ => false end.
Fixpoint level_has (what : fexp -> fexp -> bool) (e : fexp) : bool :=
  match e with
  | FAnd l | FOr l => existsb (fun x => what e x || (negb (parenthesised e x) && level_has what x)) l
  | FNot x => what e x || (negb (parenthesised e x) && level_has what x)
  | _ => false
  end.
Definition is_bracket (e : fexp) : bool := match e with FBracket _ _ => true | _ => false end.
Definition level_groups (e : fexp) : bool := level_has parenthesised e.
Definition level_brackets (e : fexp) : bool := is_bracket e || level_has (fun _ x => is_bracket x) e.
Fixpoint levels_apart (e : fexp) : Prop :=
  match e with
  | FPresent _ _ | FCompare _ _ _ => True
  | FBracket _ x => levels_apart x
  | FAnd l | FOr l => fold_right (fun x p => (parenthesised e x = true -> level_groups x && level_brackets x = false) /\ levels_apart x /\ p) True l
  | FNot x => (parenthesised e x = true -> level_groups x && level_brackets x = false) /\ levels_apart x
  end.
Definition separated (e : fexp) : Prop := level_groups e && level_brackets e = false /\ levels_apart e.

(** ** Results of the parser *)

(** A name as written in a filter, without sub-attribute. *)
Definition plain_rep (r : attr_rep) : Prop :=
  r_sub r = [] /\ r_ext r = false /\ exists s segs, names_attr s segs (r_attr r) [] /\ r_schema r = joined segs.
Definition finite_lit (l : lit) : Prop := forall f, l = LitFloat f -> exists m e, f = FFin m e.

(** A filter without holes: names without sub-attribute, at least two operands
    under and/or, finite literals that suit the operator. *)
Inductive complete : oper -> Prop :=
| co_present r : plain_rep r -> complete (OPresent r)
| co_bin b r l : plain_rep r -> suits b l -> finite_lit l -> complete (OBin b r l)
| co_complex r o : plain_rep r -> complete o -> complete (OComplex r o)
| co_and l : 2 <= length l -> Forall complete l -> complete (OAnd l)
| co_or l : 2 <= length l -> Forall complete l -> complete (OOr l)
| co_not o : complete o -> complete (ONot o).

(** ** Numerals *)

(** Decimal numerals: sign, digits with an optional point, optional exponent;
    the number is m * 10^x. *)
Inductive sign_text : str -> Z -> Prop :=
| sg_none : sign_text [] 1
| sg_plus : sign_text ($"+") 1
| sg_minus : sign_text ($"-") (-1).
Definition digits0 (s : str) : Prop := s = [] \/ digits s.
Inductive exponent_text : str -> Z -> Prop :=
| ex_none : exponent_text [] 0
| ex_some c s g ds : c = "e"%char \/ c = "E"%char -> sign_text s g -> digits ds -> exponent_text (c :: s ++ ds) (g * digits_value 0 ds).
Inductive fraction_text : str -> str -> Prop :=
| fr_none : fraction_text [] []
| fr_some fp : digits0 fp -> fraction_text ("."%char :: fp) fp.
Inductive decimal : str -> Z -> Z -> Prop :=
| dc s g ip f fp e x : sign_text s g -> digits0 ip -> fraction_text f fp -> ip ++ fp <> [] -> exponent_text e x ->
    decimal (s ++ ip ++ f ++ e) (g * digits_value 0 (ip ++ fp)) (x - Z.of_nat (length fp)).
Definition numerator (m x : Z) : Z := (m * 10 ^ Z.max x 0)%Z.
Definition denominator (x : Z) : Z := (10 ^ Z.max (- x) 0)%Z.

(** The special names float() reads: inf, infinity, nan with a sign. *)
Definition special (s : str) : Prop :=
  exists t g u, s = t ++ u /\ sign_text t g /\ In (lower u) [$"inf"; $"infinity"; $"nan"].

(** A word that no scan of the parser reacts to: no white space, quote, bracket,
    placeholder mark, nor keyword. *)
Definition ordinary (t : str) : Prop :=
  t <> [] /\ keyword_free t
  /\ Forall (fun c => is_space c = false /\ ~ In c [double_quote; single_quote; "("%char; ")"%char; "["%char; "]"%char; "|"%char]) t.

(** ** Equal filters *)

(** Operators without sub-attribute names or holes; literals are not NaN. *)
Inductive regular : oper -> Prop :=
| rg_present r : plain_rep r -> regular (OPresent r)
| rg_bin b r l : plain_rep r -> l <> LitFloat FNan -> regular (OBin b r l)
| rg_complex r o : plain_rep r -> regular o -> regular (OComplex r o)
| rg_and l : Forall regular l -> regular (OAnd l)
| rg_or l : Forall regular l -> regular (OOr l)
| rg_not o : regular o -> regular (ONot o).

(** The same number. *)
Definition lit_number (l : lit) : option pyfloat :=
  match l with
  | LitBool b => Some (FFin (if b then 1 else 0) 0)
  | LitInt z => Some (FFin z 0)
  | LitFloat f => Some f
  | _ => None
  end.
Inductive same_lit : lit -> lit -> Prop :=
| sl_none : same_lit LitNone LitNone
| sl_str s : same_lit (LitStr s) (LitStr s)
| sl_num l l' m e m' e' k : lit_number l = Some (FFin m e) -> lit_number l' = Some (FFin m' e') ->
    (0 <= e + k)%Z -> (0 <= e' + k)%Z -> (m * 2 ^ (e + k) = m' * 2 ^ (e' + k))%Z -> same_lit l l'
| sl_inf b : same_lit (LitFloat (FInf b)) (LitFloat (FInf b)).
(** The same tree, with literals of the same value. *)
Inductive same_filter : oper -> oper -> Prop :=
| sf_present r : same_filter (OPresent r) (OPresent r)
| sf_bin b r l l' : same_lit l l' -> same_filter (OBin b r l) (OBin b r l')
| sf_complex r o o' : same_filter o o' -> same_filter (OComplex r o) (OComplex r o')
| sf_and l l' : Forall2 same_filter l l' -> same_filter (OAnd l) (OAnd l')
| sf_or l l' : Forall2 same_filter l l' -> same_filter (OOr l) (OOr l')
| sf_not o o' : same_filter o o' -> same_filter (ONot o) (ONot o').
