(** Vocabulary for properties about dates: the written form xsd:dateTime
    (XML Schema part 2, 3.2.7; RFC 7643, 2.3.5) and the point in time it names,
    said without reference to how texts are read. *)
From Coq Require Import ZArith.
From Verif Require Import PyBase Value.
Local Open Scope Z_scope.

(** The fields of a date with a time. *)
Inductive zone := Floating | Zulu | East (h m : Z) | West (h m : Z).
Record stamp := mkStamp { st_year : Z; st_month : Z; st_day : Z; st_hour : Z; st_minute : Z; st_second : Z; st_fraction : list Z; st_zone : zone }.

(** The calendar, by counting. *)
Definition leaps (y : Z) : Prop := (4 | y) /\ (~ (100 | y) \/ (400 | y)).
Inductive year_days : Z -> Z -> Prop :=
| yd_leap y : leaps y -> year_days y 366
| yd_common y : ~ leaps y -> year_days y 365.
Inductive month_days (y : Z) : Z -> Z -> Prop :=
| md_feb_leap : leaps y -> month_days y 2 29
| md_feb : ~ leaps y -> month_days y 2 28
| md_30 m : In m [4; 6; 9; 11] -> month_days y m 30
| md_31 m : In m [1; 3; 5; 7; 8; 10; 12] -> month_days y m 31.
(** Days from the first of January of year 1 to that of a later year, and from
    the first of January to the first of a later month. *)
Inductive days_to_year : Z -> Z -> Prop :=
| dy_first : days_to_year 1 0
| dy_next y n k : days_to_year y n -> year_days y k -> days_to_year (y + 1) (n + k).
Inductive days_to_month (y : Z) : Z -> Z -> Prop :=
| dm_first : days_to_month y 1 0
| dm_next m n k : days_to_month y m n -> month_days y m k -> days_to_month y (m + 1) (n + k).

(** Fields in range. *)
Definition zone_fits (z : zone) : Prop :=
  match z with Floating | Zulu => True | East h m | West h m => 0 <= h <= 23 /\ 0 <= m <= 59 end.
Definition fits_calendar (t : stamp) : Prop :=
  1 <= st_year t <= 9999
  /\ (exists k, month_days (st_year t) (st_month t) k /\ 1 <= st_day t <= k)
  /\ 0 <= st_hour t <= 23 /\ 0 <= st_minute t <= 59 /\ 0 <= st_second t <= 59
  /\ Forall (fun x => 0 <= x <= 9) (st_fraction t) /\ zone_fits (st_zone t).

(** How they are written. *)
Definition figure (z : Z) : ascii := nth (Z.to_nat z) ($"0123456789") " "%char.
Definition two (z : Z) : str := [figure (z / 10); figure (z mod 10)].
Definition written_zone (z : zone) : str :=
  match z with
  | Floating => []
  | Zulu => $"Z"
  | East h m => $"+" ++ two h ++ $":" ++ two m
  | West h m => $"-" ++ two h ++ $":" ++ two m
  end.
Definition written (t : stamp) : str :=
  two (st_year t / 100) ++ two (st_year t mod 100) ++ $"-" ++ two (st_month t) ++ $"-" ++ two (st_day t) ++ $"T"
  ++ two (st_hour t) ++ $":" ++ two (st_minute t) ++ $":" ++ two (st_second t)
  ++ (match st_fraction t with [] => [] | f => $"." ++ map figure f end)
  ++ written_zone (st_zone t).

(** The whole microseconds in a decimal fraction of a second. *)
Definition whole_micros (f : list Z) (u : Z) : Prop :=
  let v := fold_left (fun a x => 10 * a + x) f 0 in
  let scale := 10 ^ Z.of_nat (length f) in
  u * scale <= v * 1000000 < (u + 1) * scale.

(** The local time in microseconds since the start of year 1, and the offset
    from UTC. *)
Definition zone_offset (z : zone) : option Z :=
  match z with
  | Floating => None
  | Zulu => Some 0
  | East h m => Some ((h * 60 + m) * 60 * 1000000)
  | West h m => Some (- ((h * 60 + m) * 60 * 1000000))
  end.
Definition names (t : stamp) (d : datetime) : Prop :=
  (exists ny nm u, days_to_year (st_year t) ny /\ days_to_month (st_year t) (st_month t) nm /\ whole_micros (st_fraction t) u
     /\ dt_local d = (((ny + nm + (st_day t - 1)) * 24 + st_hour t) * 60 + st_minute t) * 60 * 1000000 + st_second t * 1000000 + u)
  /\ dt_off d = zone_offset (st_zone t).
