(** Vocabulary for the query of list requests (C62). *)
From Verif Require Import PyBase PyNum Issues IssuesSpec AttrRep AttrRepSpec Value Types FilterSpec RequestSpec.

(** Where a parameter of the query is reported. *)
Definition at_query (k : str) : loc := [LStr ($"query_string"); LStr k].

(** Names separated by commas. *)
Definition comma_ : ascii := ","%char.
Inductive comma_list : list str -> str -> Prop :=
| comma_one n : ~ In comma_ n -> comma_list [n] n
| comma_more n l t : ~ In comma_ n -> comma_list l t -> comma_list (n :: l) (n ++ comma_ :: t).

(** Whole numbers: digits with an optional sign. *)
Inductive whole : str -> Z -> Prop :=
| whole_digits s g ds : sign_text s g -> digits ds -> whole (s ++ ds) (g * digits_value 0 ds).
(** Texts without white space and underscores. *)
Definition compact (s : str) : Prop := Forall (fun c => is_space c = false /\ c <> "_"%char) s.

(** The parameters that choose attributes: the parameter, its opposite, and
    whether the named attributes are the ones wanted. *)
Inductive chooses : str -> str -> bool -> Prop :=
| chooses_in : chooses ($"attributes") ($"excludeAttributes") true
| chooses_out : chooses ($"excludeAttributes") ($"attributes") false.

(** The parameters that are texts: the parameter, where its reading is kept and
    where it is reported. *)
Inductive textual : str -> str -> str -> Prop :=
| textual_filter : textual ($"filter") ($"filter") ($"filter")
| textual_order : textual ($"sortBy") ($"sorter") ($"sortby").
