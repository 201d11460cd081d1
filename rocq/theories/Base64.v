(** base64.b64decode / base64.b64encode on ASCII text, as used by
    Binary._validate_encoding (/repo/src/data/type.py 143-157).  The decoder
    follows binascii.a2b_base64 (non-strict mode) of CPython 3.11: characters
    outside the alphabet are skipped, a complete padding ends the input. *)
From Verif Require Import PyBase.
Local Open Scope N_scope.

(** Value of an alphabet character (CPython's table, used at src/data/type.py 147). *)
Definition b64_val (c : ascii) : option N :=
  let n := code c in
  if in_range 65 90 c then Some (n - 65)
  else if in_range 97 122 c then Some (n - 71)
  else if in_range 48 57 c then Some (n + 4)
  else if n =? 43 then Some 62
  else if n =? 47 then Some 63
  else None.

(** Alphabet character of a value below 64
    (CPython's table, used at src/data/type.py 147). *)
Definition b64_chr (n : N) : ascii :=
  ascii_of_N (if n <? 26 then n + 65
              else if n <? 52 then n + 71
              else if n <? 62 then n - 4
              else if n =? 62 then 43 else 47).

(** The padding character (src/data/type.py 147). *)
Definition pad_chr : ascii := "="%char.

(** binascii.a2b_base64: [None] is binascii.Error.  State: position in the
    quadruple, left-over bits, number of pads seen, output in reverse
    (src/data/type.py 147). *)
Fixpoint b64_dec (s : str) (quad : N) (left : N) (pads : N) (out : list N) : option (list N) :=
  match s with
  | [] => if quad =? 0 then Some (rev out) else None
  | c :: t =>
      if chr_eqb c pad_chr then
        if (2 <=? quad) then
          if 4 <=? quad + (pads + 1) then Some (rev out) else b64_dec t quad left (pads + 1) out
        else b64_dec t quad left pads out
      else
        match b64_val c with
        | None => b64_dec t quad left pads out
        | Some v =>
            if quad =? 0 then b64_dec t 1 v 0 out
            else if quad =? 1 then b64_dec t 2 (v mod 16) 0 (left * 4 + v / 16 :: out)
            else if quad =? 2 then b64_dec t 3 (v mod 4) 0 (left * 16 + v / 4 :: out)
            else b64_dec t 0 0 0 (left * 64 + v :: out)
        end
  end.
(** base64.b64decode in its default non-strict mode (src/data/type.py 147). *)
Definition b64decode (s : str) : option (list N) := b64_dec s 0 0 0 [].

(** base64.b64encode on a list of bytes (src/data/type.py 147). *)
Fixpoint b64encode (l : list N) : str :=
  match l with
  | [] => []
  | [a] => [b64_chr (a / 4); b64_chr (a mod 4 * 16); pad_chr; pad_chr]
  | [a; b] => [b64_chr (a / 4); b64_chr (a mod 4 * 16 + b / 16); b64_chr (b mod 16 * 4); pad_chr]
  | a :: b :: c :: t =>
      b64_chr (a / 4) :: b64_chr (a mod 4 * 16 + b / 16)
      :: b64_chr (b mod 16 * 4 + c / 64) :: b64_chr (c mod 64) :: b64encode t
  end.

(** bytes(value, "ascii") succeeds (src/data/type.py 146). *)
Definition is_ascii_text (s : str) : bool := forallb (fun c => code c <? 128) s.

Goal b64decode ($"aGVsbG8=") = Some [104; 101; 108; 108; 111]. reflexivity. Qed.
Goal b64encode [104; 101; 108; 108; 111] = $"aGVsbG8=". reflexivity. Qed.
