(** What constructing attributes and comparing them should mean, independently
    of Making.v. *)
From Verif Require Import PyBase PyNum AttrRep AttrRepSpec Value Types Attr Making.

(** A name that can be declared: a word, or "$ref". *)
Definition nameable (s : str) : Prop := word s \/ s = $"$ref".

(** Reference types that suit a type of attribute. *)
Definition suits (t : atype) (l : list str) : Prop :=
  (t = TExternalRef -> l = [] \/ l = [$"external"]) /\ (t = TUriRef -> l = [] \/ l = [$"uri"]).

(** A text is among the declared values, where letter case counts or not. *)
Definition declared (case : bool) (s : str) (l : list lit) : Prop :=
  exists t, In (LitStr t) l /\ (if case then s = t else same_text s t).

(** An attribute without callbacks of its own. *)
Definition no_callbacks (g : args) : Prop := or_empty (g_parsers g) = [] /\ or_empty (g_dumpers g) = [].

(** How often a callback occurs. *)
Fixpoint times (c : callback) (l : list callback) : nat :=
  match l with
  | [] => 0
  | d :: t => (if cb_eqb c d then 1 else 0) + times c t
  end.

(** A value that equals itself in Python. *)
Definition equals_itself (l : lit) : Prop := forall f, l = LitFloat f -> f <> FNan.
