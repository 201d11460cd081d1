(** Specification of attribute names. *)
From Verif Require Import PyBase AttrRep.

(** A word: one or more word characters. *)
Definition word (s : str) : Prop := s <> [] /\ Forall (fun c => is_word c = true) s.
(** A URI segment: one or more word characters, dots or hyphens. *)
Definition segment (s : str) : Prop :=
  s <> [] /\ Forall (fun c => is_word c = true \/ c = "."%char \/ c = "-"%char) s.

(** Segments, each followed by a colon; and separated by colons. *)
Definition terminated (segs : list str) : str := concat (map (fun s => s ++ [":"%char]) segs).
Fixpoint joined (segs : list str) : str :=
  match segs with [] => [] | [s] => s | s :: t => s ++ ":"%char :: joined t end.

(** The text [s] is the name with the given schema segments, attribute and
    sub-attribute (empty when absent). *)
Definition names_attr (s : str) (segs : list str) (attr sub : str) : Prop :=
  Forall segment segs
  /\ (word attr \/ attr = $"$ref")
  /\ (sub = [] \/ word sub)
  /\ s = terminated segs ++ attr ++ match sub with [] => [] | _ => "."%char :: sub end.

(** Equality of texts up to letter case. *)
Definition same_text (a b : str) : Prop := lower a = lower b.
