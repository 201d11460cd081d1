(** Base layer: exceptions as values, strings, character classes, association
    lists.  Models the parts of the Python language and standard library that
    the code in /repo/src relies on; nothing here is specific to one file. *)
From Coq Require Export Ascii String ZArith NArith Lia Bool Arith List.
Export ListNotations.
Open Scope list_scope.
Open Scope bool_scope.

(** ** Exceptions *)

(** The exception classes that code in /repo/src can raise.  [OutOfFuel] is not
    a Python exception: it marks exhausted recursion fuel of the model, and is
    proved unreachable where it matters.  [ValueErr] also stands for its
    subclasses binascii.Error-free paths and UnicodeEncodeError (no source lines). *)
Inductive exn :=
| TypeErr | ValueErr | KeyErr | AttributeErr | IndexErr | OverflowErr | OutOfFuel.

(** The result of Python code: a value or a raised exception (no source lines). *)
Inductive res (A : Type) : Type :=
| Ok (a : A)
| Raise (e : exn).
Arguments Ok {A} a.
Arguments Raise {A} e.

(** Sequencing: an exception ends the computation (no source lines). *)
Definition bind {A B} (m : res A) (f : A -> res B) : res B :=
  match m with Ok a => f a | Raise e => Raise e end.

Notation "'let!' x ':=' m 'in' k" := (bind m (fun x => k))
  (at level 200, x pattern, m at level 100, k at level 200, right associativity).

(** Evaluation of a list comprehension whose body may raise
    (e.g. src/data/container.py 130-133). *)
Fixpoint mapM {A B} (f : A -> res B) (l : list A) : res (list B) :=
  match l with
  | [] => Ok []
  | x :: t => let! y := f x in let! ys := mapM f t in Ok (y :: ys)
  end.

(** A [for] loop over a list with accumulated state whose body may raise
    (e.g. src/data/attributes.py 208-230). *)
Fixpoint foldM {A S} (f : S -> A -> res S) (l : list A) (s : S) : res S :=
  match l with
  | [] => Ok s
  | x :: t => let! s' := f s x in foldM f t s'
  end.

(** ** Strings: Python [str] restricted to code points 0..255 *)

(** no source lines *)
Definition str := list ascii.

Notation "$ x" := (list_ascii_of_string x%string) (at level 1, x constr at level 0, format "$ x").

(** ord(c), a Python built-in. *)
Definition code (c : ascii) : N := N_of_ascii c.

(** Equality of characters, a Python built-in. *)
Definition chr_eqb (a b : ascii) : bool := Ascii.eqb a b.

(** Equality of strings, a Python built-in. *)
Fixpoint str_eqb (a b : str) : bool :=
  match a, b with
  | [], [] => true
  | x :: a', y :: b' => chr_eqb x y && str_eqb a' b'
  | _, _ => false
  end.

(** Code point ranges of the tables below (no source lines). *)
Definition in_range (lo hi : N) (c : ascii) : bool := (N.leb lo (code c)) && (N.leb (code c) hi).

(** [\d] (and str.isdecimal) on code points below 256 (used at src/utils.py 5). *)
Definition is_digit (c : ascii) : bool := in_range 48 57 c.

(** [\w] of the [re] module on code points below 256
    (used at src/data/container.py 4-6). *)
Definition is_word (c : ascii) : bool :=
  is_digit c || in_range 65 90 c || N.eqb (code c) 95 || in_range 97 122 c
  || N.eqb (code c) 170 || in_range 178 179 c || N.eqb (code c) 181
  || in_range 185 186 c || in_range 188 190 c
  || in_range 192 214 c || in_range 216 246 c || in_range 248 255 c.

(** [\s] of the [re] module and str.isspace on code points below 256
    (used at src/utils.py 4). *)
Definition is_space (c : ascii) : bool :=
  in_range 9 13 c || in_range 28 32 c || N.eqb (code c) 133 || N.eqb (code c) 160.

(** str.lower on one code point below 256 (used e.g. at src/data/container.py 44). *)
Definition lower_chr (c : ascii) : ascii :=
  if in_range 65 90 c || in_range 192 214 c || in_range 216 222 c
  then ascii_of_N (code c + 32) else c.

(** str.lower (used e.g. at src/data/container.py 44) *)
Definition lower (s : str) : str := map lower_chr s.

(** str.strip() (used e.g. at src/filter.py 258; this half strips the left end) *)
Fixpoint lstrip (s : str) : str :=
  match s with
  | [] => []
  | c :: t => if is_space c then lstrip t else s
  end.
(** The other half of str.strip() (src/filter.py 258). *)
Definition rstrip (s : str) : str := rev (lstrip (rev s)).
(** str.strip() (src/filter.py 258). *)
Definition strip (s : str) : str := rstrip (lstrip s).

(** str.startswith (used at src/data/operator.py 379) *)
Fixpoint starts_with (s p : str) {struct p} : bool :=
  match p, s with
  | [], _ => true
  | y :: p', x :: s' => chr_eqb x y && starts_with s' p'
  | _ :: _, [] => false
  end.

(** str.endswith (used at src/data/operator.py 396) *)
Definition ends_with (s p : str) : bool := starts_with (rev s) (rev p).

(** [p in s] for strings (operator.contains) (used at src/data/operator.py 363-374) *)
Fixpoint contains (s p : str) : bool :=
  starts_with s p || match s with [] => false | _ :: t => contains t p end.

(** [s.replace(p, r, 1)] for non-empty [p]: the first occurrence only
    (used at src/filter.py 93). *)
Fixpoint replace_first (s p r : str) : str :=
  if starts_with s p then r ++ skipn (length p) s
  else match s with [] => [] | c :: t => c :: replace_first t p r end.

(** [s.replace(p, r)] for non-empty [p]: all non-overlapping occurrences, left
    to right.  [k] counts the characters of the current occurrence that still
    have to be skipped (used at src/data/path.py 146). *)
Fixpoint replace_all_aux (s p r : str) (k : nat) : str :=
  match s with
  | [] => []
  | c :: t =>
      match k with
      | S k' => replace_all_aux t p r k'
      | O => if starts_with s p then r ++ replace_all_aux t p r (length p - 1)
             else c :: replace_all_aux t p r 0
      end
  end.
(** s.replace(p, r) (src/data/path.py 146). *)
Definition replace_all (s p r : str) : str := replace_all_aux s p r 0.

(** Lexicographic comparison of strings by code point ([<] on str)
    (used at src/sorter.py 35). *)
Fixpoint str_cmp (a b : str) : comparison :=
  match a, b with
  | [], [] => Eq
  | [], _ :: _ => Lt
  | _ :: _, [] => Gt
  | x :: a', y :: b' =>
      match N.compare (code x) (code y) with
      | Eq => str_cmp a' b'
      | c => c
      end
  end.
(** a < b on strings (src/sorter.py 35). *)
Definition str_ltb (a b : str) : bool := match str_cmp a b with Lt => true | _ => false end.

(** ** Decimal rendering of natural numbers (f"{index}") *)

(** One decimal digit of f"{index}" (src/utils.py 10). *)
Definition digit_chr (n : nat) : ascii := ascii_of_nat (48 + n).

(** The digits of a number, most significant first (src/utils.py 10). *)
Fixpoint dec_aux (fuel n : nat) (acc : str) : str :=
  match fuel with
  | O => acc
  | S f => let acc' := digit_chr (n mod 10) :: acc in
           if Nat.ltb n 10 then acc' else dec_aux f (n / 10) acc'
  end.
(** f"{index}" (src/utils.py 10) and str(part) (src/error.py 390). *)
Definition dec_of_nat (n : nat) : str := dec_aux (S n) n [].

(** int(group) for a string of digits, as used by parse_placeholder
    (src/utils.py 16). *)
Definition digit_val (c : ascii) : nat := N.to_nat (code c - 48).
(** int(match.group(1)) (src/utils.py 16). *)
Definition nat_of_dec (s : str) : nat := fold_left (fun a c => 10 * a + digit_val c) s 0.

(** ** Association lists: Python dicts in insertion order *)

Section Assoc.
  Context {K V : Type}.
  Variable eqb : K -> K -> bool.

  (** d.get(k), a Python built-in on dicts. *)
  Fixpoint aget (k : K) (l : list (K * V)) : option V :=
    match l with
    | [] => None
    | (k', v) :: t => if eqb k' k then Some v else aget k t
    end.

  (** d[k] = v : overwrites in place or appends (Python built-in). *)
  Fixpoint aset (k : K) (v : V) (l : list (K * V)) : list (K * V) :=
    match l with
    | [] => [(k, v)]
    | (k', v') :: t => if eqb k' k then (k', v) :: t else (k', v') :: aset k v t
    end.

  (** d.pop(k) when [k] is present; unchanged otherwise (Python built-in). *)
  Fixpoint adel (k : K) (l : list (K * V)) : list (K * V) :=
    match l with
    | [] => []
    | (k', v') :: t => if eqb k' k then t else (k', v') :: adel k t
    end.

  (** k in d, a Python built-in on dicts. *)
  Definition amem (k : K) (l : list (K * V)) : bool :=
    match aget k l with Some _ => true | None => false end.
End Assoc.

(** enumerate(l) (Python built-in, e.g. src/data/attributes.py 208) *)
Fixpoint enum_from {A} (i : nat) (l : list A) : list (nat * A) :=
  match l with
  | [] => []
  | x :: t => (i, x) :: enum_from (S i) t
  end.
(** enumerate(l), a Python built-in (src/data/attributes.py 208). *)
Definition enumerate {A} (l : list A) : list (nat * A) := enum_from 0 l.

(** s in l for a list of strings, e.g. src/data/schemas.py 276-313. *)
Definition smem (s : str) (l : list str) : bool := existsb (str_eqb s) l.

(** l[i] = x for an index in range; unchanged otherwise
    (Python built-in, e.g. src/data/attributes.py 208-230). *)
Fixpoint set_nth {A} (i : nat) (x : A) (l : list A) : list A :=
  match i, l with
  | _, [] => []
  | O, _ :: t => x :: t
  | S i', y :: t => y :: set_nth i' x t
  end.

(** Remove the element at an index (no source lines). *)
Fixpoint remove_nth {A} (i : nat) (l : list A) : list A :=
  match i, l with
  | _, [] => []
  | O, _ :: t => t
  | S i', y :: t => y :: remove_nth i' t
  end.
