(** Vocabulary for the properties of patch paths (C49). *)
From Verif Require Import PyBase Issues AttrRep AttrRepSpec Value Container Types Attr Match FilterParse FilterSpec.

(** [u] is what [s] holds outside its quoted literals; the quotes of [s] are
    balanced. *)
Inductive outside : str -> str -> Prop :=
| os_nil : outside [] []
| os_chr c s u : c <> double_quote -> c <> single_quote -> outside s u -> outside (c :: s) (c :: u)
| os_lit q b s u : q = double_quote \/ q = single_quote -> ~ In q b -> outside s u -> outside (q :: b ++ q :: s) u.

(** Without the two characters of which the parser builds its own marks. *)
Definition unmarked (s : str) : Prop := ~ In "|"%char s /\ ~ In "&"%char s.

Definition bracket_free (u : str) : Prop := ~ In "["%char u /\ ~ In "]"%char u.

(** The same attribute up to letter case; a missing schema is any schema. *)
Definition same_attr (r : attr_rep) (schema attr : str) : Prop :=
  (r_schema r = [] \/ schema = [] \/ same_text (r_schema r) schema) /\ same_text (r_attr r) attr.

(** The text after the closing bracket: nothing, or a sub-attribute of [r], or a
    full name of one; the leading dot is optional. *)
Definition after_dot (t x : str) : Prop := t = "."%char :: x \/ (t = x /\ t <> [] /\ forall y, t <> "."%char :: y).
Inductive sub_part (r : attr_rep) : str -> option attr_rep -> Prop :=
| sp_none : sub_part r [] None
| sp_name t x segs a : after_dot t x -> names_attr x segs a [] ->
    sub_part r t (Some (mkRep (r_schema r) (r_attr r) a false))
| sp_full t x segs a b : after_dot t x -> names_attr x segs a b -> b <> [] -> same_attr r (joined segs) a ->
    sub_part r t (Some (mkRep (joined segs) a b false)).

(** The text [s] denotes the path [p]. *)
Inductive path_reads : str -> patch_path -> Prop :=
| pr_name s segs attr sub : names_attr s segs attr sub ->
    path_reads s (mkPath (mkRep (joined segs) attr sub false) None None)
| pr_filter head t u v w r o sub :
    outside head (u ++ "["%char :: v) -> bracket_free u -> bracket_free v ->
    outside t w -> bracket_free w ->
    parse_filter (head ++ $"]") = Ok (VFilter (OComplex r o), no_issues) ->
    sub_part r t sub ->
    path_reads (head ++ "]"%char :: t) (mkPath r (Some (OComplex r o)) sub).

(** A well-formed path: a filter goes with its own attribute, a sub-attribute
    with the attribute it belongs to. *)
Definition named (r : attr_rep) : Prop :=
  r_ext r = false /\ exists s segs, names_attr s segs (r_attr r) (r_sub r) /\ r_schema r = joined segs.
Definition sub_of (r s : attr_rep) : Prop := same_attr r (r_schema s) (r_attr s) /\ (word (r_sub s) \/ r_sub s = $"$ref").
Definition whole_path (p : patch_path) : Prop :=
  match p_filter p with
  | None => named (p_rep p) /\ p_sub p = None
  | Some f => exists o, f = OComplex (p_rep p) o /\ complete f /\ (forall s, p_sub p = Some s -> sub_of (p_rep p) s)
  end.
