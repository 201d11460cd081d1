(** Model of datetime.fromisoformat and datetime.isoformat as they behave in
    CPython 3.11, the standard library functions behind
    /repo/src/data/type.py 217-229.  The rest of the model takes them as
    parameters (the class PyEnv); this file computes them. *)
From Coq Require Import ZArith.
From Verif Require Import PyBase Value.
Local Open Scope Z_scope.

(** Characters as numbers, decimal digits
    (ASCII digits, read by datetime.fromisoformat at src/data/type.py 227). *)
Definition code (c : ascii) : Z := Z.of_N (N_of_ascii c).
(** A decimal digit
    (datetime.fromisoformat, called at src/data/type.py 227). *)
Definition is_dig (c : ascii) : bool := (48 <=? code c) && (code c <=? 57).
(** The digit for a number below ten
    (datetime.isoformat, called at src/data/type.py 222). *)
Definition dig (z : Z) : ascii := ascii_of_N (Z.to_N (48 + z)).

(** The text in UTF-8, which is what datetime.fromisoformat walks over; a
    character of this model takes one or two bytes (src/data/type.py 227). *)
Definition utf8 (s : str) : str :=
  flat_map (fun c => if code c <? 128 then [c]
                     else [ascii_of_N (192 + N_of_ascii c / 64); ascii_of_N (128 + N_of_ascii c mod 64)]%N) s.

(** The byte at hand; there is a NUL behind the last one
    (datetime.fromisoformat, src/data/type.py 227). *)
Definition nul : ascii := "000"%char.
(** The byte at hand
    (datetime.fromisoformat, called at src/data/type.py 227). *)
Definition peek (l : str) : ascii := match l with [] => nul | c :: _ => c end.

(** A number of a fixed count of digits, and the rest
    (datetime.fromisoformat, src/data/type.py 227). *)
Fixpoint digits (n : nat) (acc : Z) (l : str) : option (Z * str) :=
  match n with
  | O => Some (acc, l)
  | S n => match l with
           | c :: l => if is_dig c then digits n (acc * 10 + (code c - 48)) l else None
           | [] => None
           end
  end.

(** The proleptic Gregorian calendar: leap years, days before a year, days of
    and before a month, number of a day (datetime.fromisoformat,
    src/data/type.py 227). *)
Definition leap (y : Z) : bool := (y mod 4 =? 0) && (negb (y mod 100 =? 0) || (y mod 400 =? 0)).
(** Days before the first of January
    (datetime.fromisoformat, called at src/data/type.py 227). *)
Definition days_before (y : Z) : Z := let p := y - 1 in p * 365 + p / 4 - p / 100 + p / 400.
(** The lengths of the months
    (datetime.fromisoformat, called at src/data/type.py 227). *)
Definition month_lengths (y : Z) : list Z := [31; if leap y then 29 else 28; 31; 30; 31; 30; 31; 31; 30; 31; 30; 31].
(** The length of a month
    (datetime.fromisoformat, called at src/data/type.py 227). *)
Definition month_length (y m : Z) : Z := nth (Z.to_nat (m - 1)) (month_lengths y) 0.
(** Days of the year before a month
    (datetime.fromisoformat, called at src/data/type.py 227). *)
Definition month_before (y m : Z) : Z := fold_left Z.add (firstn (Z.to_nat (m - 1)) (month_lengths y)) 0.
(** The number of a day, the first day of year 1 being 1
    (datetime.fromisoformat, called at src/data/type.py 227). *)
Definition day_number (y m d : Z) : Z := days_before y + month_before y m + d.
(** The range checks for year, month and day
    (datetime.fromisoformat, called at src/data/type.py 227). *)
Definition date_ok (y m d : Z) : bool :=
  (1 <=? y) && (y <=? 9999) && (1 <=? m) && (m <=? 12) && (1 <=? d) && (d <=? month_length y m).

(** The number of a day given as year, ISO week and weekday
    (datetime.fromisoformat, src/data/type.py 227). *)
Definition week_day_number (y w d : Z) : option Z :=
  let first := day_number y 1 1 in
  let fw := first mod 7 in
  if (1 <=? y) && (y <=? 9999)
     && ((1 <=? w) && ((w <=? 52) || ((w =? 53) && ((fw =? 4) || ((fw =? 3) && leap y)))))
     && (1 <=? d) && (d <=? 7)
  then let wd := (first + 6) mod 7 in
       let monday := if 3 <? wd then first - wd + 7 else first - wd in
       Some (monday + (w - 1) * 7 + d - 1)
  else None.

(** Skipping one character if it is there, or requiring it
    (datetime.fromisoformat, src/data/type.py 227). *)
Definition dash (need : bool) (l : str) : option str :=
  if need then (if Ascii.eqb (peek l) "-" then Some (tl l) else None) else Some l.

(** The date, [n] being the place of the separator; the number of the day
    (datetime.fromisoformat, src/data/type.py 227). *)
Definition read_date (b : str) (n : nat) : option Z :=
  match digits 4 0 b with
  | None => None
  | Some (y, p) =>
      let s := Ascii.eqb (peek p) "-" in
      let p := if s then tl p else p in
      if Ascii.eqb (peek p) "W" then
        match digits 2 0 (tl p) with
        | None => None
        | Some (w, p) =>
            if Nat.ltb (length b - length p) n then
              match dash s p with
              | None => None
              | Some p => match digits 1 0 p with
                          | None => None
                          | Some (d, _) => week_day_number y w d
                          end
              end
            else week_day_number y w 1
        end
      else
        match digits 2 0 p with
        | None => None
        | Some (m, p) =>
            match dash s p with
            | None => None
            | Some p => match digits 2 0 p with
                        | None => None
                        | Some (d, _) => if date_ok y m d then Some (day_number y m d) else None
                        end
            end
        end
  end.

(** Where the date ends; [None] for no date at all
    (datetime.fromisoformat, src/data/type.py 227). *)
Fixpoint count_digits (l : str) : nat :=
  match l with c :: l => if is_dig c then S (count_digits l) else O | [] => O end.
(** The byte at a place
    (datetime.fromisoformat, called at src/data/type.py 227). *)
Definition at_pos (b : str) (n : nat) : ascii := nth n b nul.
(** The place of the separator between date and time
    (datetime.fromisoformat, called at src/data/type.py 227). *)
Definition separator (b : str) : option nat :=
  if Nat.eqb (length b) 7 then Some 7%nat
  else if Ascii.eqb (at_pos b 4) "-" then
    if Ascii.eqb (at_pos b 5) "W" then
      if Ascii.eqb (at_pos b 8) "-" then
        if Nat.eqb (length b) 9 then None
        else if is_dig (at_pos b 10) then Some 8%nat else Some 10%nat
      else Some 8%nat
    else Some 10%nat
  else if Ascii.eqb (at_pos b 4) "W" then
    let p := (7 + count_digits (skipn 7 b))%nat in
    if Nat.ltb p 9 then Some p else if Nat.even p then Some 7%nat else Some 8%nat
  else Some 8%nat.

(** Hours, minutes, seconds and microseconds in the next [n] bytes; the last
    component tells whether something follows (datetime.fromisoformat,
    src/data/type.py 227). *)
Definition clock : Type := Z * Z * Z * Z * bool.
(** A field that was read, or zero
    (datetime.fromisoformat, called at src/data/type.py 227). *)
Definition hand (k : nat) (v : list Z) : Z := nth k v 0.
(** The fields that were read
    (datetime.fromisoformat, called at src/data/type.py 227). *)
Definition clock_of (v : list Z) (us : Z) (more : bool) : clock := (hand 0 v, hand 1 v, hand 2 v, us, more).
(** The digits beyond the sixth are skipped
    (datetime.fromisoformat, called at src/data/type.py 227). *)
Fixpoint skip_digits (l : str) : str :=
  match l with c :: t => if is_dig c then skip_digits t else l | [] => [] end.
(** The fraction of a second, cut off after six digits
    (datetime.fromisoformat, called at src/data/type.py 227). *)
Definition read_fraction (v : list Z) (l : str) (n : nat) : option clock :=
  let k := Nat.min n 6 in
  match digits k 0 l with
  | None => None
  | Some (u, r) => Some (clock_of v (u * 10 ^ Z.of_nat (6 - k)) (negb (Ascii.eqb (peek (skip_digits r)) nul)))
  end.
(** The fields, with or without colons
    (datetime.fromisoformat, called at src/data/type.py 227). *)
Fixpoint read_fields (k : nat) (first hs : bool) (v : list Z) (l : str) (n : nat) : option clock :=
  match k with
  | O => read_fraction v l n
  | S k =>
      match digits 2 0 l with
      | None => None
      | Some (x, r) =>
          let c := peek r in
          let hs := if first then Ascii.eqb c ":" else hs in
          let v := v ++ [x] in
          if Nat.leb n 3 then Some (clock_of v 0 (negb (Ascii.eqb c nul)))
          else if hs && Ascii.eqb c ":" then read_fields k false hs v (tl r) (n - 3)
          else if Ascii.eqb c "." || Ascii.eqb c "," then read_fraction v (tl r) (n - 3)
          else if hs then None
          else read_fields k false hs v r (n - 2)
      end
  end.
(** Three fields at most
    (datetime.fromisoformat, called at src/data/type.py 227). *)
Definition read_clock (l : str) (n : nat) : option clock := read_fields 3 true false [] l n.

(** Microseconds of a day; the time with its offset from UTC; offsets of a
    day or more and hands out of range are errors (datetime.fromisoformat,
    src/data/type.py 227). *)
Definition second_us : Z := 1000000.
(** The microseconds of a day
    (datetime.fromisoformat, called at src/data/type.py 227). *)
Definition day_us : Z := 86400 * second_us.
(** The characters an offset starts with
    (datetime.fromisoformat, called at src/data/type.py 227). *)
Definition is_zone (c : ascii) : bool := Ascii.eqb c "+" || Ascii.eqb c "-" || Ascii.eqb c "Z".
(** The place of the offset
    (datetime.fromisoformat, called at src/data/type.py 227). *)
Fixpoint zone_at (l : str) : nat :=
  match l with c :: l => if is_zone c then O else S (zone_at l) | [] => O end.
(** The offset; an offset of whole seconds zero is UTC
    (datetime.fromisoformat, called at src/data/type.py 227). *)
Definition read_zone (z : str) : option (option Z) :=
  match z with
  | [] => Some None
  | c :: l =>
      if Ascii.eqb c "Z" then (if Ascii.eqb (peek l) nul then Some (Some 0) else None)
      else match read_clock l (length l) with
           | Some (h, m, s, us, false) =>
               let sec := h * 3600 + m * 60 + s in
               let o := if sec =? 0 then 0 else sec * second_us + us in
               if o <? day_us then Some (Some (if Ascii.eqb c "-" then - o else o)) else None
           | _ => None
           end
  end.
(** The time of day with its offset
    (datetime.fromisoformat, called at src/data/type.py 227). *)
Definition read_time (l : str) : option (Z * option Z) :=
  let k := zone_at l in
  match read_clock l k with
  | None => None
  | Some (h, m, s, us, more) =>
      if more && Nat.eqb k (length l) then None
      else match read_zone (skipn k l) with
           | None => None
           | Some off => if (h <=? 23) && (m <=? 59) && (s <=? 59)
                         then Some (((h * 60 + m) * 60 + s) * second_us + us, off) else None
           end
  end.

(** datetime.fromisoformat ([None] for ValueError), as called at
    src/data/type.py 227. *)
Definition last_day : Z := 3652059.
(** The whole text; [None] stands for ValueError
    (datetime.fromisoformat, called at src/data/type.py 227). *)
Definition from_iso (s : str) : option datetime :=
  let b := utf8 s in
  if Nat.ltb (length b) 7 then None
  else match separator b with
       | None => None
       | Some k =>
           match read_date b k with
           | None => None
           | Some o =>
               if (1 <=? o) && (o <=? last_day) then
                 match skipn k b with
                 | [] => Some (mkDT ((o - 1) * day_us) None)
                 | c :: t =>
                     match read_time (if code c <? 128 then t else tl t) with
                     | None => None
                     | Some (us, off) => Some (mkDT ((o - 1) * day_us + us) off)
                     end
                 end
               else None
           end
       end.

(** Numbers with leading zeros (datetime.isoformat, src/data/type.py 222). *)
Fixpoint pad (k : nat) (z : Z) : str :=
  match k with O => [] | S k => pad k (z / 10) ++ [dig (z mod 10)] end.

(** Year, month and day of the day with that number, counted from zero.  A
    datetime object holds these; here they are recovered from the day number
    (datetime.isoformat, src/data/type.py 222). *)
Fixpoint find_month (ls : list Z) (m d : Z) : Z * Z :=
  match ls with l :: t => if d <? l then (m, d + 1) else find_month t (m + 1) (d - l) | [] => (m, d + 1) end.
(** Year, month and day
    (datetime.isoformat, called at src/data/type.py 222). *)
Definition date_of (n : Z) : Z * Z * Z :=
  let a := n / 146097 in let r := n mod 146097 in
  let b := Z.min 3 (r / 36524) in let r := r - 36524 * b in
  let c := r / 1461 in let r := r mod 1461 in
  let e := Z.min 3 (r / 365) in let r := r - 365 * e in
  let y := 400 * a + 100 * b + 4 * c + e + 1 in
  let (m, d) := find_month (month_lengths y) 1 r in (y, m, d).

(** datetime.isoformat, as called at src/data/type.py 222. *)
Definition show_zone (off : option Z) : str :=
  match off with
  | None => []
  | Some o =>
      let a := Z.abs o in let us := a mod second_us in let s := a / second_us in
      (if o <? 0 then "-"%char else "+"%char)
      :: pad 2 (s / 3600) ++ ":"%char :: pad 2 (s / 60 mod 60)
      ++ (if (us =? 0) && (s mod 60 =? 0) then []
          else ":"%char :: pad 2 (s mod 60) ++ (if us =? 0 then [] else "."%char :: pad 6 us))
  end.
(** The whole text
    (datetime.isoformat, called at src/data/type.py 222). *)
Definition to_iso (d : datetime) : str :=
  let t := dt_local d mod day_us in
  let us := t mod second_us in let s := t / second_us in
  match date_of (dt_local d / day_us) with
  | (y, mo, da) =>
      pad 4 y ++ "-"%char :: pad 2 mo ++ "-"%char :: pad 2 da
      ++ "T"%char :: pad 2 (s / 3600) ++ ":"%char :: pad 2 (s / 60 mod 60) ++ ":"%char :: pad 2 (s mod 60)
      ++ (if us =? 0 then [] else "."%char :: pad 6 us) ++ show_zone (dt_off d)
  end.

(** The environment with these dates; absolute URLs remain a parameter
    (src/data/type.py 169, 222, 227). *)
Definition iso_env (url : str -> bool) : PyEnv := {| env_fromiso := from_iso; env_isofmt := to_iso; env_abs_url := url |}.
