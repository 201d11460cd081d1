(** Specification vocabulary for attribute parsing and dumping. *)
From Verif Require Import PyBase PyNum Issues AttrRep AttrRepSpec Value Container ContainerSpec Types TypesSpec Attr.

(** The Invalid marker occurs in the value at a location. *)
Inductive invalid_at : value -> loc -> Prop :=
| ia_here : invalid_at VInvalid []
| ia_item l k x p : nth_error l k = Some x -> invalid_at x p -> invalid_at (VList l) (LIdx k :: p)
| ia_key data l2o k x p : In (k, x) data -> invalid_at x p -> invalid_at (VCont data l2o) (LStr k :: p)
| ia_dict d k x p : In (KStr k, x) d -> invalid_at x p -> invalid_at (VDict d) (LStr k :: p).

(** The Invalid marker occurs nowhere in the value. *)
Definition untainted (v : value) : Prop := forall l, ~ invalid_at v l.

(** An issue is recorded at the location, or at or below it. *)
Definition issue_at (iss : issues) (l : loc) : Prop := errs_at iss l <> [].
Definition issue_below (iss : issues) (l : loc) : Prop := exists t, errs_at iss (l ++ t) <> [].

(** Reports as the library builds them: starting from an empty one by adding
    issues and merging. *)
Inductive report : issues -> Prop :=
| report_empty : report no_issues
| report_add i e p l : report i -> report (add_issue i e p l)
| report_merge i j p : report i -> report j -> report (merge i j p).

(** Processors that report what they reject: an Invalid marker they introduce
    comes with an issue. *)
Definition honest (R : issues -> loc -> Prop) (p : proc) : Prop :=
  forall v v' iss, p v = Ok (v', iss) ->
    report iss /\ forall l, invalid_at v' l -> R iss l \/ invalid_at v l.
(** Processors that return a report. *)
Definition reporting (p : proc) : Prop := forall v v' iss, p v = Ok (v', iss) -> report iss.
(** Processors that reject the value as a whole. *)
Definition wholesale (p : proc) : Prop :=
  forall v v' iss, p v = Ok (v', iss) -> untainted v -> untainted v' \/ issue_at iss [].

(** The plain name of a sub-attribute. *)
Definition plain_rep (r : attr_rep) : Prop := r_schema r = [] /\ r_sub r = [] /\ r_ext r = false /\ attr_ok (r_attr r).

(** Attributes with plainly named sub-attributes, all of whose processors return
    reports. *)
Inductive sound_attr : attribute -> Prop :=
| sa_simple i : Forall reporting (a_parsers i) -> Forall reporting (a_dumpers i) -> sound_attr (MkAttr i None)
| sa_complex i subs cps cds :
    a_type i = TComplex ->
    Forall reporting (a_parsers i) -> Forall reporting (a_dumpers i) -> Forall reporting cps -> Forall reporting cds ->
    Forall (fun s => plain_rep (arep s)) subs -> Forall sound_attr subs ->
    sound_attr (MkAttr i (Some (subs, cps, cds))).

(** Attributes with plainly named sub-attributes and honest processors. *)
Inductive honest_attr (R : issues -> loc -> Prop) : attribute -> Prop :=
| ha_simple i : Forall (honest R) (a_parsers i) -> Forall (honest R) (a_dumpers i) ->
                honest_attr R (MkAttr i None)
| ha_complex i subs cps cds :
    a_type i = TComplex ->
    Forall (fun p => honest R p /\ wholesale p) (a_parsers i) ->
    Forall (fun p => honest R p /\ wholesale p) (a_dumpers i) ->
    Forall (honest R) cps -> Forall (honest R) cds ->
    Forall (fun s => plain_rep (arep s)) subs -> Forall (honest_attr R) subs ->
    honest_attr R (MkAttr i (Some (subs, cps, cds))).

(** [c] holds [x] under a name equal to [n] up to letter case. *)
Definition holds (c : value) (n : str) (x : value) : Prop :=
  exists data l2o k, c = VCont data l2o /\ sget (lower n) l2o = Some k /\ sget k data = Some x.

(** The item's "primary" sub-attribute is true. *)
Definition marked (y : value) : Prop :=
  exists data l2o k, y = VCont data l2o /\ In (k, VBool true) data /\ same_text k ($"primary").

(** Multi-valued attributes that process a list item by item: no processors for
    method [m] apart from the check for a single primary item. *)
Definition itemwise (m : method) (a : attribute) : Prop :=
  let for_m (ps ds : list proc) := match m with MParse => ps | MDump => ds end in
  a_multi (info a) = true /\ for_m (a_parsers (info a)) (a_dumpers (info a)) = []
  /\ match a with
     | MkAttr _ None => True
     | MkAttr _ (Some (_, cps, cds)) => for_m cps cds = [] \/ for_m cps cds = [single_primary]
     end.

(** Distinct names up to letter case. *)
Definition distinct_names (subs : list attribute) : Prop := NoDup (map (fun s => lower (r_attr (arep s))) subs).

(** A value equals a canonical value, up to letter case unless case-exact. *)
Definition equals_lit (case_exact : bool) (v : value) (c : lit) : Prop :=
  match v, c with
  | VStr s, LitStr t => if case_exact then s = t else same_text s t
  | VNone, LitNone => True
  | _, _ => match number v, number (v_of_lit c) with
            | Some x, Some y => same_number x y
            | _, _ => False
            end
  end.
