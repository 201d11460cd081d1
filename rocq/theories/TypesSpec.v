(** Specification vocabulary for attribute types. *)
From Verif Require Import PyBase PyNum Issues AttrRep Value Types.

(** Outcomes: accepted with the value [w] and an empty report, or rejected with
    exactly one issue [e], at the root, that blocks. *)
Definition accepted (w : value) (o : outcome) : Prop := fst o = w /\ i_errs (snd o) = [] /\ i_stop (snd o) = [].
Definition rejected (e : error) (o : outcome) : Prop :=
  fst o = VInvalid /\ i_errs (snd o) = [([], [e])] /\ i_stop (snd o) = [([], [e_code e])].

(** Values by JSON type. *)
Definition json_bool_value (v : value) : Prop := exists b, v = VBool b.
Definition json_string (v : value) : Prop := exists s, v = VStr s.
Definition object_value (v : value) : Prop := exists d m, v = VCont d m.

(** ** Canonical base64 text (RFC 4648) *)

Definition b64_alphabet : str := $"ABCDEFGHIJKLMNOPQRSTUVWXYZabcdefghijklmnopqrstuvwxyz0123456789+/".
(** [c] is the alphabet character number [n]. *)
Definition b64_digit (c : ascii) (n : nat) : Prop := nth_error b64_alphabet n = Some c.

(** Groups of four digits; the last group may be padded, and then the unused
    low bits are zero. *)
Inductive base64_text : str -> Prop :=
| b64_end : base64_text []
| b64_group a b c d na nb nc nd t :
    b64_digit a na -> b64_digit b nb -> b64_digit c nc -> b64_digit d nd ->
    base64_text t -> base64_text (a :: b :: c :: d :: t)
| b64_pad1 a b c na nb nc :
    b64_digit a na -> b64_digit b nb -> b64_digit c (4 * nc) -> base64_text [a; b; c; "="%char]
| b64_pad2 a b na nb :
    b64_digit a na -> b64_digit b (16 * nb) -> base64_text [a; b; "="%char; "="%char].
