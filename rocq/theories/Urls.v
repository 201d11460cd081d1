(** Model of the verdict of urllib.parse.urlparse in CPython 3.11 on absolute
    URLs, the standard library function behind /repo/src/data/type.py 253-270.
    The rest of the model takes the verdict as a parameter (the class PyEnv);
    this file computes it. *)
From Verif Require Import PyBase Value Dates.

(** Character classes
    (urllib.parse.urlsplit, called at src/data/type.py 256). *)
Definition between (lo hi : N) (c : ascii) : bool := (lo <=? N_of_ascii c)%N && (N_of_ascii c <=? hi)%N.
(** ASCII letters
    (urllib.parse.urlsplit, called at src/data/type.py 256). *)
Definition is_letter (c : ascii) : bool := between 65 90 c || between 97 122 c.
(** Decimal digits
    (urllib.parse.urlsplit, called at src/data/type.py 256). *)
Definition is_decimal (c : ascii) : bool := between 48 57 c.
(** Hexadecimal digits
    (ipaddress.IPv6Address, reached from src/data/type.py 256). *)
Definition is_hex (c : ascii) : bool := is_decimal c || between 65 70 c || between 97 102 c.
(** The characters of a scheme
    (urllib.parse.urlsplit, called at src/data/type.py 256). *)
Definition is_scheme_char (c : ascii) : bool := is_letter c || is_decimal c || Ascii.eqb c "+" || Ascii.eqb c "-" || Ascii.eqb c ".".

(** Control characters and spaces are taken off the front, tabs and line ends
    from everywhere (urllib.parse.urlsplit, called at src/data/type.py 256). *)
Fixpoint drop_blank (s : str) : str := match s with c :: t => if between 0 32 c then drop_blank t else s | [] => [] end.
(** Tab, carriage return, line feed
    (urllib.parse.urlsplit, called at src/data/type.py 256). *)
Definition is_break (c : ascii) : bool := between 9 10 c || between 13 13 c.
(** Both clean-ups
    (urllib.parse.urlsplit, called at src/data/type.py 256). *)
Definition cleaned (s : str) : str := filter (fun c => negb (is_break c)) (drop_blank s).

(** The text up to the first character of a kind, and what starts there
    (urllib.parse.urlsplit, called at src/data/type.py 256). *)
Fixpoint up_to (p : ascii -> bool) (s : str) : str * str :=
  match s with
  | c :: t => if p c then ([], s) else let (a, b) := up_to p t in (c :: a, b)
  | [] => ([], [])
  end.
(** str.partition on one character: what comes before, whether it was found,
    what comes behind (urllib.parse.urlsplit, called at src/data/type.py 256). *)
Definition parted (c : ascii) (s : str) : str * bool * str :=
  let (a, b) := up_to (Ascii.eqb c) s in (a, negb (Nat.eqb (length b) 0), tl b).
(** str.split on one character
    (ipaddress, reached from src/data/type.py 256). *)
Fixpoint pieces (c : ascii) (s : str) : list str :=
  match s with
  | [] => [[]]
  | x :: t => if Ascii.eqb c x then [] :: pieces c t
              else match pieces c t with p :: ps => (x :: p) :: ps | [] => [[x]] end
  end.
(** Whether a character occurs
    (urllib.parse.urlsplit, called at src/data/type.py 256). *)
Definition has (c : ascii) (s : str) : bool := existsb (Ascii.eqb c) s.

(** A part of an IPv4 address
    (ipaddress.IPv4Address, reached from src/data/type.py 256). *)
Definition octet (s : str) : bool :=
  match s with
  | [] => false
  | c :: t => forallb is_decimal s && Nat.leb (length s) 3 && (negb (Ascii.eqb c "0") || Nat.eqb (length t) 0)
              && (fold_left (fun a c => 10 * a + (N_of_ascii c - 48)) s 0 <=? 255)%N
  end.
(** An IPv4 address
    (ipaddress.IPv4Address, reached from src/data/type.py 256). *)
Definition ipv4 (s : str) : bool := let p := pieces "." s in Nat.eqb (length p) 4 && forallb octet p.
(** A part of an IPv6 address
    (ipaddress.IPv6Address, reached from src/data/type.py 256). *)
Definition hextet (s : str) : bool := negb (Nat.eqb (length s) 0) && Nat.leb (length s) 4 && forallb is_hex s.
(** No characters
    (ipaddress.IPv6Address, reached from src/data/type.py 256). *)
Definition blank (s : str) : bool := Nat.eqb (length s) 0.
(** The places of empty parts between the first part and the last
    (ipaddress.IPv6Address, reached from src/data/type.py 256). *)
Definition gaps (p : list str) : list nat := filter (fun i => blank (nth i p [])) (seq 1 (length p - 2)).
(** The parts of an IPv6 address
    (ipaddress.IPv6Address, reached from src/data/type.py 256). *)
Definition ipv6_parts (p : list str) : bool :=
  let first := nth 0 p [] in let last := nth (length p - 1) p [] in
  match gaps p with
  | [] => Nat.eqb (length p) 8 && forallb hextet p
  | [i] =>
      let hi := if blank first then (i - 1)%nat else i in
      let lo := if blank last then (length p - i - 2)%nat else (length p - i - 1)%nat in
      (negb (blank first) || Nat.eqb hi 0) && (negb (blank last) || Nat.eqb lo 0) && Nat.leb (hi + lo) 7
      && forallb hextet (firstn hi p) && forallb hextet (skipn (length p - lo) p)
  | _ => false
  end.
(** An IPv6 address, perhaps with a scope or ending like an IPv4 address
    (ipaddress.IPv6Address, reached from src/data/type.py 256). *)
Definition ipv6 (s : str) : bool :=
  let '(a, sep, scope) := parted "%" s in
  if sep && (blank scope || has "%" scope) then false
  else let p := pieces ":" a in
       if Nat.ltb (length p) 3 then false
       else let last := nth (length p - 1) p [] in
            if has "." last then
              if ipv4 last then let q := removelast p ++ [$"0"; $"0"] in Nat.leb (length q) 9 && ipv6_parts q else false
            else Nat.leb (length p) 9 && ipv6_parts p.
(** The host in brackets
    (urllib.parse._check_bracketed_host, reached from src/data/type.py 256). *)
Definition bracketed_host (h : str) : bool :=
  match h with
  | c :: t =>
      if Ascii.eqb c "v" then
        let (x, r) := up_to (fun c => negb (is_hex c)) t in
        negb (blank x) && Ascii.eqb (peek r) "." && negb (blank (tl r))
      else ipv6 h
  | [] => false
  end.

(** The network location, which is not empty; the check against characters
    that turn into delimiters under Unicode normalization never fails for
    characters of Latin-1
    (urllib.parse.urlsplit, called at src/data/type.py 256). *)
Definition netloc_ok (n : str) : bool :=
  negb (blank n)
  && (if has "[" n then has "]" n && (let '(_, _, r) := parted "[" n in let '(h, _, _) := parted "]" r in bracketed_host h)
      else negb (has "]" n)).

(** Whether urlparse finds a scheme and a network location
    (validate_absolute_url, src/data/type.py 253-270). *)
Definition abs_url (s : str) : bool :=
  let u := cleaned s in
  let '(scheme, sep, r) := parted ":" u in
  sep && is_letter (peek u) && forallb is_scheme_char scheme
  && match r with
     | a :: b :: r => Ascii.eqb a "/" && Ascii.eqb b "/"
                      && netloc_ok (fst (up_to (fun c => Ascii.eqb c "/" || Ascii.eqb c "?" || Ascii.eqb c "#") r))
     | _ => false
     end.

(** The environment of CPython 3.11
    (src/data/type.py 169, 222, 227). *)
Definition py311 : PyEnv := {| env_fromiso := from_iso; env_isofmt := to_iso; env_abs_url := abs_url |}.
