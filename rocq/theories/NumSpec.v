(** Specification of binary64 numbers. *)
From Verif Require Import PyBase PyNum.
Local Open Scope Z_scope.

(** A finite float as a multiple of the smallest positive one, 2^-1074. *)
Definition units (f : pyfloat) : Z := match f with FFin m e => m * 2 ^ (e + 1074) | _ => 0 end.

(** The finite binary64 numbers: at most 53 significant bits, exponent at least
    -1074, magnitude below 2^1024. *)
Definition double (f : pyfloat) : Prop :=
  exists m e, f = FFin m e /\ -1074 <= e /\ Z.abs (units f) < 2 ^ (1024 + 1074)
  /\ exists m0 e0, Z.abs m0 < 2 ^ 53 /\ -1074 <= e0 /\ units f = m0 * 2 ^ (e0 + 1074).

(** [f] is a binary64 number nearest to the rational n/d. *)
Definition nearest (n d : Z) (f : pyfloat) : Prop :=
  double f /\ forall g, double g -> Z.abs (n * 2 ^ 1074 - units f * d) <= Z.abs (n * 2 ^ 1074 - units g * d).

(** At or beyond the number half-way between the largest binary64 number and
    2^1024. *)
Definition overflows (n d : Z) : Prop := (2 ^ 1024 - 2 ^ 970) * d <= Z.abs n.
