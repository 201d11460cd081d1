(** Vocabulary for properties about messages: what it means that a text is a
    template with its fields filled in, said without reference to how templates
    are taken apart. *)
From Verif Require Import PyBase Messages.

(** A field name. *)
Definition plain_name (n : str) : Prop := ~ In "{"%char n /\ ~ In "}"%char n /\ ~ In "!"%char n.

(** A template and the text it becomes. *)
Inductive filled (ctx : str -> option argument) : str -> str -> Prop :=
| fd_end : filled ctx [] []
| fd_text c t m : c <> "{"%char -> c <> "}"%char -> filled ctx t m -> filled ctx (c :: t) (c :: m)
| fd_open t m : filled ctx t m -> filled ctx ($"{{" ++ t) ("{"%char :: m)
| fd_close t m : filled ctx t m -> filled ctx ($"}}" ++ t) ("}"%char :: m)
| fd_plain n a t m : plain_name n -> ctx n = Some a -> filled ctx t m -> filled ctx ($"{" ++ n ++ $"}" ++ t) (a_str a ++ m)
| fd_quoted n a t m : plain_name n -> ctx n = Some a -> filled ctx t m -> filled ctx ($"{" ++ n ++ $"!r}" ++ t) (a_repr a ++ m).

(** A text inside another. *)
Definition within (x m : str) : Prop := exists p q, m = p ++ x ++ q.

(** The arguments the library calls the constructors with: operators are unary
    or binary (src/filter.py 490, 536), and there are several primary items
    (src/data/attributes.py 402-407). *)
Definition plausible (c : call) : Prop :=
  match c with
  | Call_unknown_operator t _ _ => a_str t = $"unary" \/ a_str t = $"binary"
  | Call_multiple_primary_values l _ => l <> []
  | _ => True
  end.
