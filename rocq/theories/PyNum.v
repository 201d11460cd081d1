(** Python numbers: int is Z, float is IEEE binary64 represented exactly.
    Supports /repo/src/utils.py 20-41 and /repo/src/data/type.py 68-109. *)
From Verif Require Import PyBase.
Local Open Scope Z_scope.

(** A float: the finite value m * 2^e, an infinity, or NaN.  Simplification:
    -0.0 is identified with 0.0 (they compare equal and no code in /repo/src
    tells them apart) (Python's float, src/utils.py 35 and src/data/type.py 68-109). *)
Inductive pyfloat := FFin (m e : Z) | FInf (neg : bool) | FNan.

(** Canonical representation: odd mantissa, or zero with exponent zero
    (no source lines). *)
Fixpoint strip_twos (fuel : nat) (m e : Z) : Z * Z :=
  match fuel with
  | O => (m, e)
  | S f => if Z.even m then strip_twos f (m / 2) (e + 1) else (m, e)
  end.
(** The canonical float of m * 2^e (no source lines). *)
Definition fcanon (m e : Z) : pyfloat :=
  if m =? 0 then FFin 0 0
  else let (m', e') := strip_twos (Z.to_nat (Z.log2 (Z.abs m)) + 1) m e in FFin m' e'.

(** Round the positive rational n/d to the nearest binary64 (ties to even)
    (IEEE rounding of CPython, used by float() at src/utils.py 35 and src/data/type.py 79). *)
Definition round_pos (n d : Z) : pyfloat :=
  let k := Z.log2 n - Z.log2 d in
  let below := (* n/d < 2^k *)
    if 0 <=? k then n <? d * 2 ^ k else n * 2 ^ (- k) <? d in
  let e0 := (if below then k - 1 else k) - 52 in
  let e := Z.max e0 (-1074) in
  let n' := if 0 <=? e then n else n * 2 ^ (- e) in
  let d' := if 0 <=? e then d * 2 ^ e else d in
  let q := n' / d' in
  let r := n' mod d' in
  let q' := match Z.compare (2 * r) d' with
            | Lt => q
            | Gt => q + 1
            | Eq => if Z.even q then q else q + 1
            end in
  if (0 <=? e) && (2 ^ 1024 <=? q' * 2 ^ e) then FInf false else fcanon q' e.

(** Negation of a float (src/utils.py 35). *)
Definition fneg (f : pyfloat) : pyfloat :=
  match f with FFin m e => FFin (- m) e | FInf b => FInf (negb b) | FNan => FNan end.

(** float(z) for an int; OverflowError when the result is not finite
    (src/data/type.py 79). *)
Definition float_of_int (z : Z) : res pyfloat :=
  if z =? 0 then Ok (FFin 0 0)
  else let f := round_pos (Z.abs z) 1 in
       match f with
       | FInf _ => Raise OverflowErr
       | _ => Ok (if z <? 0 then fneg f else f)
       end.

(** int(f) for a float: truncation; OverflowError / ValueError on inf / nan
    (src/utils.py 36, src/data/type.py 101-102). *)
Definition int_of_float (f : pyfloat) : res Z :=
  match f with
  | FFin m e => Ok (if 0 <=? e then m * 2 ^ e else Z.quot m (2 ^ (- e)))
  | FInf _ => Raise OverflowErr
  | FNan => Raise ValueErr
  end.

(** Exact numeric comparison; [None] when a NaN is involved
    (src/utils.py 37, src/data/operator.py 299-325). *)
Definition fcmp (a b : pyfloat) : option comparison :=
  match a, b with
  | FNan, _ | _, FNan => None
  | FInf x, FInf y => Some (match x, y with
                            | true, false => Lt | false, true => Gt | _, _ => Eq
                            end)
  | FInf x, _ => Some (if x then Lt else Gt)
  | _, FInf y => Some (if y then Gt else Lt)
  | FFin m e, FFin m' e' =>
      let lo := Z.min e e' in
      Some (Z.compare (m * 2 ^ (e - lo)) (m' * 2 ^ (e' - lo)))
  end.
(** a == b on numbers (src/utils.py 37). *)
Definition feqb (a b : pyfloat) : bool := match fcmp a b with Some Eq => true | _ => false end.

(** An int seen as an exact number (src/utils.py 37). *)
Definition fint (z : Z) : pyfloat := FFin z 0.

(** ** Text to number *)

(** Whitespace stripped by int() and float(): C isspace for pure ASCII text,
    str.isspace otherwise
    (CPython, for src/utils.py 35 and src/request_validators.py 598). *)
Definition c_space (c : ascii) : bool := in_range 9 13 c || N.eqb (code c) 32.
(** Which whitespace int() and float() strip from the given text (CPython, for src/utils.py 35). *)
Definition num_space (s : str) : ascii -> bool :=
  if forallb (fun c => N.ltb (code c) 128) s then c_space else is_space.
(** Strips the left end (CPython, for src/utils.py 35). *)
Fixpoint drop_while (p : ascii -> bool) (s : str) : str :=
  match s with [] => [] | c :: t => if p c then drop_while p t else s end.
(** The text without surrounding whitespace (CPython, for src/utils.py 35). *)
Definition num_strip (s : str) : str :=
  let p := num_space s in rev (drop_while p (rev (drop_while p s))).

(** Underscores are allowed only between digits; the result has them removed
    (CPython, for src/utils.py 35). *)
Fixpoint drop_underscores (prev_digit prev_us : bool) (s : str) : option str :=
  match s with
  | [] => if prev_us then None else Some []
  | c :: t =>
      if chr_eqb c "_"%char then
        if prev_digit then drop_underscores false true t else None
      else if prev_us && negb (is_digit c) then None
      else match drop_underscores (is_digit c) false t with
           | Some r => Some (c :: r)
           | None => None
           end
  end.

(** The number written by decimal digits (CPython, for src/utils.py 35). *)
Definition z_of_digits (s : str) : Z :=
  fold_left (fun a c => 10 * a + Z.of_N (code c - 48)) s 0.

(** The leading digits and the rest (CPython, for src/utils.py 35). *)
Fixpoint span_digits (s : str) : str * str :=
  match s with
  | [] => ([], [])
  | c :: t => if is_digit c then let (a, b) := span_digits t in (c :: a, b) else ([], s)
  end.

(** sign, then the rest (CPython, for src/utils.py 35) *)
Definition take_sign (s : str) : bool * str :=
  match s with
  | c :: t => if chr_eqb c "-"%char then (true, t)
              else if chr_eqb c "+"%char then (false, t) else (false, s)
  | [] => (false, [])
  end.

(** Exponent suffix: empty, or e[sign]digits (CPython, for src/utils.py 35). *)
Definition parse_exp (s : str) : option Z :=
  match s with
  | [] => Some 0
  | c :: t =>
      if chr_eqb c "e"%char || chr_eqb c "E"%char then
        let (neg, t') := take_sign t in
        match span_digits t' with
        | ((_ :: _) as ds, []) => Some (if neg then - z_of_digits ds else z_of_digits ds)
        | _ => None
        end
      else None
  end.

(** The value digits * 10^x rounded to a float (CPython, for src/utils.py 35). *)
Definition dec_to_float (digits : Z) (x : Z) : pyfloat :=
  if digits =? 0 then FFin 0 0
  else if 0 <=? x then round_pos (digits * 10 ^ x) 1 else round_pos digits (10 ^ (- x)).

(** Unsigned decimal literal: digits [. digits*] | . digits, with exponent
    (CPython, for src/utils.py 35). *)
Definition parse_udec (s : str) : option pyfloat :=
  let (ip, r) := span_digits s in
  let '(fp, r2, _) :=
    match r with
    | c :: t => if chr_eqb c "."%char then (span_digits t, true) else (([], r), false)
    | [] => (([], []), false)
    end in
  match ip, fp with
  | [], [] => None
  | _, _ =>
      match parse_exp r2 with
      | Some x => Some (dec_to_float (z_of_digits (ip ++ fp)) (x - Z.of_nat (length fp)))
      | None => None
      end
  end.

(** float(s) for a str; [None] models ValueError (src/utils.py 35). *)
Definition parse_float (s : str) : option pyfloat :=
  match drop_underscores false false (num_strip s) with
  | None => None
  | Some t =>
      let (neg, u) := take_sign t in
      let l := lower u in
      let r := if str_eqb l ($"inf") || str_eqb l ($"infinity") then Some (FInf false)
               else if str_eqb l ($"nan") then Some FNan
               else parse_udec u in
      match r with
      | Some f => Some (if neg then fneg f else f)
      | None => None
      end
  end.

(** int(s) for a str (base 10); [None] models ValueError
    (src/request_validators.py 598, 609, 1098). *)
Definition parse_int (s : str) : option Z :=
  match drop_underscores false false (num_strip s) with
  | None => None
  | Some t =>
      let (neg, u) := take_sign t in
      match span_digits u with
      | ((_ :: _) as ds, []) => Some (if neg then - z_of_digits ds else z_of_digits ds)
      | _ => None
      end
  end.
