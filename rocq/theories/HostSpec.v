(** Vocabulary for C74: every host in brackets that is accepted, and where the
    brackets stand (RFC 3986, section 3.2.2; RFC 4291, section 2.2). *)
From Verif Require Import PyBase FilterText UrlSpec.

(** Four numbers up to 255 with dots between them. *)
Inductive quad : str -> Prop :=
| a_quad a b c d : (a <= 255 -> b <= 255 -> c <= 255 -> d <= 255 ->
    quad (dec_of_nat a ++ $"." ++ dec_of_nat b ++ $"." ++ dec_of_nat c ++ $"." ++ dec_of_nat d))%nat.

(** An address of eight groups, of which the last two may be written as four
    numbers. *)
Inductive address : str -> Prop :=
| ad_six h : six h -> address h
| ad_quad p q : quad q -> six (p ++ $":0:0") -> address (p ++ $":" ++ q).

(** What may stand in brackets: an address, perhaps with a zone, or an address
    of a future version. *)
Inductive literal : str -> Prop :=
| li_plain h : address h -> literal h
| li_zone h z : address h -> z <> [] -> ~ In "%"%char z -> literal (h ++ $"%" ++ z)
| li_future v t : v <> [] -> Forall (fun x => In x hex_figures) v -> t <> [] -> literal ($"v" ++ v ++ $"." ++ t).

(** An authority with brackets: the literal stands behind the first "[" and
    reaches to the next "]", or to the end if "]" stands only in front. *)
Inductive boxes : str -> Prop :=
| bx_closed u h p : ~ In "["%char u -> ~ In "]"%char h -> literal h -> boxes (u ++ $"[" ++ h ++ $"]" ++ p)
| bx_open u h : ~ In "["%char u -> In "]"%char u -> ~ In "]"%char h -> literal h -> boxes (u ++ $"[" ++ h).
Definition in_brackets (a : str) : Prop := Forall (fun x => ~ In x ($"/?#")) a /\ boxes a.
