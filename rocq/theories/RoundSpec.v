(** Vocabulary for what happens when accepted values are processed again. *)
From Verif Require Import PyBase PyNum Issues AttrRep Value Container Types Attr Schema AttrSpec SchemaSpec.

(** A report without any issue. *)
Definition silent (iss : issues) : Prop := forall l, errs_at iss l = [].

(** A processor that only judges: what it lets through is unchanged. *)
Definition judge (p : proc) : Prop := reporting p /\ forall v v' iss, p v = Ok (v', iss) -> silent iss -> v' = v.

(** Attributes whose processors only judge, the same in both directions: dates
    have none and no canonical values, complex attributes at most the one that
    looks for a second primary item. *)
Inductive steady : attribute -> Prop :=
| steady_simple i :
    Forall judge (a_parsers i) -> a_dumpers i = a_parsers i -> a_type i <> TComplex ->
    (a_type i = TDateTime -> a_parsers i = [] /\ a_canon i = None) -> steady (MkAttr i None)
| steady_complex i subs cps :
    a_type i = TComplex -> a_parsers i = [] -> a_dumpers i = [] -> a_canon i = None ->
    (cps = [] \/ a_multi i = true /\ cps = [single_primary]) ->
    Forall (fun s => plain_rep (arep s)) subs -> distinct_names subs -> Forall steady subs ->
    steady (MkAttr i (Some (subs, cps, cps))).

(** A date occurs in the value. *)
Inductive dated : value -> Prop :=
| dated_here d : dated (VDate d)
| dated_item l x : In x l -> dated x -> dated (VList l)
| dated_key d k x l2o : In (k, x) d -> dated x -> dated (VCont d l2o).

(** Two values of the same shape that differ at most where the one has a date and
    the other its text. *)
Inductive restated {env : PyEnv} : value -> value -> Prop :=
| re_same v : restated v v
| re_date d : restated (VDate d) (VStr (env_isofmt d))
| re_list l l' : Forall2 restated l l' -> restated (VList l) (VList l')
| re_cont d d' l2o : Forall2 (fun e e' => fst e = fst e' /\ restated (snd e) (snd e')) d d' -> restated (VCont d l2o) (VCont d' l2o).

(** The texts of dates are read back. *)
Definition faithful_dates (env : PyEnv) : Prop := forall s d, env_fromiso s = Some d -> env_fromiso (env_isofmt d) = Some d.

(** The attributes of extensions are not called like core attributes or
    extensions. *)
Definition unshared (s : schema) : Prop :=
  forall a b, In a (at_top (sc_attrs s)) -> In b (at_top (sc_attrs s)) -> r_ext (arep a) = true ->
    lower (r_attr (arep a)) <> lower (if r_ext (arep b) then r_schema (arep b) else r_attr (arep b)).
