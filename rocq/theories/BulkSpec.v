(** Vocabulary for the limits of bulk requests and responses (C52). *)
From Verif Require Import PyBase PyNum Issues IssuesSpec AttrRep AttrRepSpec Value Container ContainerSpec Types AttrSpec.

(** How many members of a list have a property. *)
Inductive tally {A} (P : A -> Prop) : list A -> nat -> Prop :=
| tally_none : tally P [] 0
| tally_one x l n : P x -> tally P l n -> tally P (x :: l) (S n)
| tally_not x l n : ~ P x -> tally P l n -> tally P (x :: l) n.

(** The methods of bulk operations, in lower-case letters. *)
Definition bulk_methods : list str := [$"get"; $"post"; $"patch"; $"put"; $"delete"].

(** A failed operation: one with a method, a status of 300 or more and a response. *)
Inductive failed (x : value) : Prop :=
| failed_with m st z r : holds x ($"method") (VStr m) -> In (lower m) bulk_methods ->
    holds x ($"status") (VStr st) -> py_int (VStr st) = Ok z -> (300 <= z)%Z ->
    holds x ($"response") r -> truthy r = true -> failed x.
