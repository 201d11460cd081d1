(** Vocabulary for properties about absolute URLs (RFC 3986, sections 3 and
    3.2.2), said without reference to how texts are taken apart. *)
From Verif Require Import PyBase.

Definition letters : str := $"abcdefghijklmnopqrstuvwxyzABCDEFGHIJKLMNOPQRSTUVWXYZ".
Definition scheme_characters : str := letters ++ $"0123456789+-.".
Definition hex_figures : str := $"0123456789abcdefABCDEF".

(** scheme "://" authority rest. *)
Definition scheme (s : str) : Prop := exists c t, s = c :: t /\ In c letters /\ Forall (fun x => In x scheme_characters) t.
Definition rest (t : str) : Prop := t = [] \/ exists c r, t = c :: r /\ In c ($"/?#").
Definition bare (a : str) : Prop := a <> [] /\ Forall (fun x => ~ In x ($"/?#[]")) a.
Inductive absolute (authority : str -> Prop) : str -> Prop :=
| an_absolute s a t : scheme s -> authority a -> rest t -> absolute authority (s ++ $"://" ++ a ++ t).

(** Hosts in brackets: eight groups of figures, or fewer around "::". *)
Definition group (g : str) : Prop := (1 <= length g <= 4)%nat /\ Forall (fun x => In x hex_figures) g.
Fixpoint colons (gs : list str) : str := match gs with [] => [] | [g] => g | g :: t => g ++ $":" ++ colons t end.
Inductive six : str -> Prop :=
| six_full gs : Forall group gs -> length gs = 8%nat -> six (colons gs)
| six_short hi lo : Forall group hi -> Forall group lo -> (length hi + length lo <= 7)%nat -> six (colons hi ++ $"::" ++ colons lo).
Definition boxed (a : str) : Prop :=
  exists user host port, six host /\ Forall (fun x => ~ In x ($"/?#[]")) user /\ Forall (fun x => ~ In x ($"/?#[]")) port /\ a = user ++ $"[" ++ host ++ $"]" ++ port.

(** A text without the blanks in front and without its line breaks and tabs. *)
Definition below_33 (c : ascii) : Prop := (nat_of_ascii c <= 32)%nat.
Definition break (c : ascii) : Prop := In (nat_of_ascii c) [9; 10; 13]%nat.
Inductive unbroken : str -> str -> Prop :=
| ub_nil : unbroken [] []
| ub_drop c s t : break c -> unbroken s t -> unbroken (c :: s) t
| ub_keep c s t : ~ break c -> unbroken s t -> unbroken (c :: s) (c :: t).
Definition tidied (s t : str) : Prop :=
  exists p q, s = p ++ q /\ Forall below_33 p /\ (q = [] \/ exists c r, q = c :: r /\ ~ below_33 c) /\ unbroken q t.
