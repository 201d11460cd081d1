(** Vocabulary for requests to find resources that are always answered (C86). *)
From Verif Require Import PyBase Issues IssuesSpec AttrRep AttrRepSpec Value Container AnswerSpec RequestSpec.

(** Parameters as a URL carries them: lists hold texts only, and the numbers of
    results are texts or whole numbers. *)
Definition plain_query (q : value) : Prop :=
  textual_query q
  /\ forall k x, In k [$"count"; $"startIndex"] -> entry q k x -> x = VNone \/ (exists t, x = VStr t) \/ exists z, x = VInt z.
