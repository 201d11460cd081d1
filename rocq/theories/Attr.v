(** Model of /repo/src/data/attributes.py: attribute definitions, parsing and
    dumping of attribute values, attribute look-up. *)
From Verif Require Import PyBase PyNum Issues AttrRep Value Container Types.

(** Enumerations (src/data/attributes.py 30-53). *)
Inductive mutability := ReadWrite | ReadOnly | WriteOnly | Immutable.
(** AttributeReturn (src/data/attributes.py 37-41). *)
Inductive returned := RetDefault | RetAlways | RetNever | RetRequest.
(** AttributeUniqueness (src/data/attributes.py 44-47). *)
Inductive uniqueness := UniqNone | UniqServer | UniqGlobal.
(** AttributeIssuer (src/data/attributes.py 50-53). *)
Inductive issuer := IssServer | IssClient | IssNotSpecified.

(** attr.mutability == AttributeMutability.READ_ONLY, e.g. src/request_validators.py 270-295. *)
Definition is_read_only (m : mutability) : bool := match m with ReadOnly => true | _ => false end.

(** _AttributeProcessor (src/data/attributes.py 56): a post-processing callback. *)
Definition proc := value -> res outcome.

(** Fields of Attribute (src/data/attributes.py 78-111), after construction:
    canonical values are already lowercased when the attribute is not
    case-exact.  Simplification: canonical values are restricted to [lit]. *)
Record ainfo := mkInfo {
  a_rep : attr_rep;
  a_type : atype;
  a_descr : str;
  a_reftypes : list str;
  a_issuer : issuer;
  a_required : bool;
  a_case_exact : bool;
  a_multi : bool;
  a_canon : option (list lit);
  a_validate : bool;
  a_mut : mutability;
  a_ret : returned;
  a_uniq : uniqueness;
  a_parsers : list proc;
  a_dumpers : list proc
}.

(** Attribute and ComplexAttribute objects (src/data/attributes.py 59, 286).
    The second argument is present for a ComplexAttribute: the values of its
    [_sub_attributes] dictionary and the complex processors. *)
Inductive attribute :=
| MkAttr (i : ainfo) (sub : option (list attribute * list proc * list proc)).

(** The fields that plain and complex attributes share (src/data/attributes.py 60-111). *)
Definition info (a : attribute) : ainfo := match a with MkAttr i _ => i end.
(** attr.attrs of a complex attribute (src/data/attributes.py 327-329). *)
Definition sub_attrs (a : attribute) : list attribute :=
  match a with MkAttr _ (Some (l, _, _)) => l | _ => [] end.
(** isinstance(attr, ComplexAttribute) (e.g. src/data/schemas.py 154) *)
Definition is_complex (a : attribute) : bool :=
  match a with MkAttr _ (Some _) => true | _ => false end.
(** attr.rep (src/data/attributes.py 113-115). *)
Definition arep (a : attribute) : attr_rep := a_rep (info a).

(** ** The Attributes class (src/data/attributes.py 412-462) *)

(** Dictionary keys (schema, attr, sub_attr) compare as tuples of str
    (src/data/attributes.py 413-419). *)
Definition same_key (a b : attr_rep) : bool :=
  str_eqb (r_schema a) (r_schema b) && str_eqb (r_attr a) (r_attr b) && str_eqb (r_sub a) (r_sub b).

(** self._attrs[key] = attr (src/data/attributes.py 413-419). *)
Fixpoint put_attr (a : attribute) (l : list attribute) : list attribute :=
  match l with
  | [] => [a]
  | b :: t => if same_key (arep b) (arep a) then a :: t else b :: put_attr a t
  end.

(** Attributes objects: [_top_level] and the values of [_attrs]
    (src/data/attributes.py 412-423). *)
Record attrs := mkAttrs { at_top : list attribute; at_all : list attribute }.

(** Attributes.__init__ (src/data/attributes.py 413-419). *)
Definition dedup_attrs (l : list attribute) : list attribute :=
  fold_left (fun acc a => put_attr a acc) l [].
(** Attributes.__init__ (src/data/attributes.py 413-419). *)
Definition mk_attrs (l : list attribute) : attrs :=
  mkAttrs (filter (fun a => negb (nonempty (r_sub (arep a)))) l) (dedup_attrs l).

(** Attributes.get (src/data/attributes.py 447-451). *)
Definition find_attr (l : list attribute) (r : attr_rep) : option attribute :=
  find (fun a => rep_eqb (arep a) r) l.

(** Attributes.__getattr__ (src/data/attributes.py 425-442) for a name without
    and with "__"; [None] is AttributeError. *)
Definition attr_named (t : attrs) (name : str) : option attribute :=
  find (fun a => str_eqb (lower (r_attr (arep a))) (lower name)) (at_top t).
(** attrs.<name>__<sub> (src/data/attributes.py 425-442). *)
Definition attr_named2 (t : attrs) (name sub : str) : option attribute :=
  find (fun a => str_eqb (lower (r_attr (arep a))) (lower name)
                 && str_eqb (lower (r_sub (arep a))) (lower sub)) (at_all t).

(** Attributes.get_by_path (src/data/attributes.py 453-462).  A path's filter
    always carries a ComplexAttributeOperator (src/data/path.py 27-29). *)
Definition oper_rep (o : oper) : option attr_rep :=
  match o with
  | OPresent r | OBin _ r _ | OComplex r _ => Some r
  | _ => None
  end.
(** Attributes.get_by_path (src/data/attributes.py 453-462). *)
Definition get_by_path (l : list attribute) (p : patch_path) : res (option attribute) :=
  let! blocked :=
    match p_filter p with
    | None => Ok false
    | Some o =>
        match oper_rep o with
        | None => Raise AttributeErr
        | Some r => Ok (match find_attr l r with None => true | Some _ => false end)
        end
    end in
  if blocked : bool then Ok None
  else match find_attr l (p_rep p), p_sub p with
       | None, _ => Ok None
       | Some a, None => Ok (Some a)
       | Some _, Some s => Ok (find_attr l s)
       end.

(** ** Construction *)

(** item.lower() if isinstance(item, str) (src/data/attributes.py 97-104). *)
Definition lower_lit (l : lit) : lit := match l with LitStr s => LitStr (lower s) | _ => l end.

(** Lines 97-104: canonical values are lowercased unless case-exact. *)
Definition norm_canon (case_exact : bool) (c : option (list lit)) : option (list lit) :=
  match c with
  | None => None
  | Some l => Some (if case_exact then l else map lower_lit l)
  end.

(** Lines 81-93: default and admissible reference types. *)
Definition ref_types (t : atype) (l : list str) : res (list str) :=
  let ext := [$"external"] in
  let uri := [$"uri"] in
  match l, t with
  | [], TExternalRef => Ok ext
  | [], TUriRef => Ok uri
  | [], _ => Ok []
  | _ :: _, TExternalRef => if ctx_eqb l ext then Ok l else Raise ValueErr
  | _ :: _, TUriRef => if ctx_eqb l uri then Ok l else Raise ValueErr
  | _ :: _, _ => Ok l
  end.

(** AttrRep(attr=name) (src/data/attributes.py 78). *)
Definition simple_name (n : str) : attr_rep := mkRep [] n [] false.

(** Attribute with the defaults of Attribute.__init__ (src/data/attributes.py
    60-77). *)
Definition plain (name : str) (t : atype) : ainfo :=
  mkInfo (simple_name name) t [] (match t with TExternalRef => [$"external"] | TUriRef => [$"uri"] | _ => [] end)
         IssNotSpecified false false false None false ReadWrite RetDefault UniqNone [] [].

(** The rep field (src/data/attributes.py 78). *)
Definition with_rep (r : attr_rep) (i : ainfo) : ainfo :=
  mkInfo r (a_type i) (a_descr i) (a_reftypes i) (a_issuer i) (a_required i) (a_case_exact i)
         (a_multi i) (a_canon i) (a_validate i) (a_mut i) (a_ret i) (a_uniq i) (a_parsers i) (a_dumpers i).
(** The description argument (src/data/attributes.py 60-76). *)
Definition with_descr (d : str) (i : ainfo) : ainfo :=
  mkInfo (a_rep i) (a_type i) d (a_reftypes i) (a_issuer i) (a_required i) (a_case_exact i)
         (a_multi i) (a_canon i) (a_validate i) (a_mut i) (a_ret i) (a_uniq i) (a_parsers i) (a_dumpers i).
(** The reference_types argument (src/data/attributes.py 60-76). *)
Definition with_reftypes (l : list str) (i : ainfo) : ainfo :=
  mkInfo (a_rep i) (a_type i) (a_descr i) l (a_issuer i) (a_required i) (a_case_exact i)
         (a_multi i) (a_canon i) (a_validate i) (a_mut i) (a_ret i) (a_uniq i) (a_parsers i) (a_dumpers i).
(** The issuer argument (src/data/attributes.py 60-76). *)
Definition with_issuer (x : issuer) (i : ainfo) : ainfo :=
  mkInfo (a_rep i) (a_type i) (a_descr i) (a_reftypes i) x (a_required i) (a_case_exact i)
         (a_multi i) (a_canon i) (a_validate i) (a_mut i) (a_ret i) (a_uniq i) (a_parsers i) (a_dumpers i).
(** required=True (src/data/attributes.py 60-76). *)
Definition with_required (i : ainfo) : ainfo :=
  mkInfo (a_rep i) (a_type i) (a_descr i) (a_reftypes i) (a_issuer i) true (a_case_exact i)
         (a_multi i) (a_canon i) (a_validate i) (a_mut i) (a_ret i) (a_uniq i) (a_parsers i) (a_dumpers i).
(** case_exact=True (src/data/attributes.py 60-76). *)
Definition with_case_exact (i : ainfo) : ainfo :=
  mkInfo (a_rep i) (a_type i) (a_descr i) (a_reftypes i) (a_issuer i) (a_required i) true
         (a_multi i) (a_canon i) (a_validate i) (a_mut i) (a_ret i) (a_uniq i) (a_parsers i) (a_dumpers i).
(** multi_valued=True (src/data/attributes.py 60-76). *)
Definition with_multi (i : ainfo) : ainfo :=
  mkInfo (a_rep i) (a_type i) (a_descr i) (a_reftypes i) (a_issuer i) (a_required i) (a_case_exact i)
         true (a_canon i) (a_validate i) (a_mut i) (a_ret i) (a_uniq i) (a_parsers i) (a_dumpers i).
(** Canonical values given to the constructor; apply after [with_case_exact]
    (src/data/attributes.py 97-105). *)
Definition with_canon (validate : bool) (l : list lit) (i : ainfo) : ainfo :=
  mkInfo (a_rep i) (a_type i) (a_descr i) (a_reftypes i) (a_issuer i) (a_required i) (a_case_exact i)
         (a_multi i) (norm_canon (a_case_exact i) (Some l)) validate (a_mut i) (a_ret i) (a_uniq i)
         (a_parsers i) (a_dumpers i).
(** The mutability argument (src/data/attributes.py 60-76). *)
Definition with_mut (m : mutability) (i : ainfo) : ainfo :=
  mkInfo (a_rep i) (a_type i) (a_descr i) (a_reftypes i) (a_issuer i) (a_required i) (a_case_exact i)
         (a_multi i) (a_canon i) (a_validate i) m (a_ret i) (a_uniq i) (a_parsers i) (a_dumpers i).
(** The returned argument (src/data/attributes.py 60-76). *)
Definition with_ret (r : returned) (i : ainfo) : ainfo :=
  mkInfo (a_rep i) (a_type i) (a_descr i) (a_reftypes i) (a_issuer i) (a_required i) (a_case_exact i)
         (a_multi i) (a_canon i) (a_validate i) (a_mut i) r (a_uniq i) (a_parsers i) (a_dumpers i).
(** The uniqueness argument (src/data/attributes.py 60-76). *)
Definition with_uniq (u : uniqueness) (i : ainfo) : ainfo :=
  mkInfo (a_rep i) (a_type i) (a_descr i) (a_reftypes i) (a_issuer i) (a_required i) (a_case_exact i)
         (a_multi i) (a_canon i) (a_validate i) (a_mut i) (a_ret i) u (a_parsers i) (a_dumpers i).
(** The parsers and dumpers arguments (src/data/attributes.py 60-76). *)
Definition with_procs (ps ds : list proc) (i : ainfo) : ainfo :=
  mkInfo (a_rep i) (a_type i) (a_descr i) (a_reftypes i) (a_issuer i) (a_required i) (a_case_exact i)
         (a_multi i) (a_canon i) (a_validate i) (a_mut i) (a_ret i) (a_uniq i) ps ds.

(** validate_single_primary_value (src/data/attributes.py 395-409).  [value] is
    iterated; item["primary"] parses the name "primary". *)
Definition e_multiple_primary (l : list nat) : error := mkErr 9 (map dec_of_nat l).
(** The loop of validate_single_primary_value (src/data/attributes.py 400-402). *)
Fixpoint primary_entries (i : nat) (l : list value) : res (list nat) :=
  match l with
  | [] => Ok []
  | x :: t =>
      let! p := get_item_str x ($"primary") in
      let! ps := primary_entries (S i) t in
      Ok (match p with VBool true => i :: ps | _ => ps end)
  end.
(** validate_single_primary_value (src/data/attributes.py 395-409). *)
Definition single_primary : proc := fun v =>
  let! l := iter_value v in
  let! ps := primary_entries 0 l in
  Ok (VList l, if Nat.ltb 1 (length ps) then add_issue no_issues (e_multiple_primary ps) true []
               else no_issues).

(** ComplexAttribute.__init__ (src/data/attributes.py 287-325): [i] must have
    type Complex.  Simplification: the check of lines 320-323 that avoids adding
    validate_single_primary_value twice is by function identity; here explicit
    processors never include it. *)
Definition mk_complex (i : ainfo) (subs : list attribute) (cparsers cdumpers : list proc) : attribute :=
  let extra := if a_multi i then [single_primary] else [] in
  MkAttr i (Some (dedup_attrs subs, cparsers ++ extra, cdumpers ++ extra)).

(** Attribute(...) (src/data/attributes.py 60-111). *)
Definition mk_simple (i : ainfo) : attribute := MkAttr i None.

(** ** Processing *)

(** value in self._canonical_values, for one canonical value (src/data/attributes.py 248). *)
Definition lit_eqb (v : value) (l : lit) : bool :=
  match v, l with
  | VStr s, LitStr t => str_eqb s t
  | VNone, LitNone => true
  | _, _ => match num_of v, num_of (v_of_lit l) with
            | Some x, Some y => feqb x y
            | _, _ => false
            end
  end.

(** Attribute._is_canonical (src/data/attributes.py 241-248). *)
Definition is_canonical (i : ainfo) (v : value) : bool :=
  match v, a_canon i with
  | VInvalid, _ => true
  | _, None => true
  | _, Some l =>
      let v := match v with
               | VStr s => if a_case_exact i then v else VStr (lower s)
               | _ => v
               end in
      existsb (lit_eqb v) l
  end.

(** ValidationError.must_be_one_of (src/error.py 120-122). *)
Definition e_must_be_one_of : error := err 14.

(** Post-processing loop (src/data/attributes.py 236-238, 373-375). *)
Definition run_procs (ps : list proc) (v : value) (iss : issues) : res outcome :=
  foldM (fun st p => let! (v', iss') := (p : proc) (fst st) in
                     Ok (v', merge (snd st) iss' [])) ps (v, iss).

Section Env.
  Context {env : PyEnv}.

  (** The canonical-value step (src/data/attributes.py 211-220, 225-233). *)
  Definition canon_step (i : ainfo) (v : value) (iss : issues) (l : loc) : outcome :=
    if is_canonical i v then (v, iss)
    else if a_validate i then (VInvalid, add_issue iss e_must_be_one_of false l)
    else (v, iss).

  (** One item of a multi-valued attribute (src/data/attributes.py 208-221). *)
  Definition item_step (m : method) (i : ainfo) (st : list value * issues) (e : nat * value)
    : res (list value * issues) :=
    let (k, x) := e in
    let! (x', iss') := type_proc m (a_type i) x in
    let (x'', iss'') := canon_step i x' (merge (snd st) iss' [LIdx k]) [LIdx k] in
    Ok (fst st ++ [x''], iss'').

  (** self._parsers or self._dumpers (src/data/attributes.py 250-262). *)
  Definition procs_of (m : method) (i : ainfo) : list proc :=
    match m with MParse => a_parsers i | MDump => a_dumpers i end.

  (** Attribute._process, .parse and .dump (src/data/attributes.py 194-239,
      250-262). *)
  Definition base_process (m : method) (i : ainfo) (v : value) : res outcome :=
    match v with
    | VNone => Ok (VNone, no_issues)
    | _ =>
        if a_multi i && negb (is_list v) then
          Ok (fail (e_bad_type ($"list") (scim_type_of v)))
        else
          let! (parsed, iss) :=
            match a_multi i, v with
            | true, VList l =>
                let! (items, iss) := foldM (item_step m i) (enumerate l) ([], no_issues) in
                Ok (VList items, iss)
            | _, _ =>
                let! (x, iss) := type_proc m (a_type i) v in
                Ok (canon_step i x (merge no_issues iss []) [])
            end in
          if has_issues iss [] then Ok (parsed, iss)
          else run_procs (procs_of m i) parsed iss
    end.

  (** Attribute.parse/dump and ComplexAttribute.parse/dump with
      _process_complex (src/data/attributes.py 250-262, 339-387). *)
  Fixpoint process (a : attribute) (m : method) (v : value) {struct a} : res outcome :=
    match a with
    | MkAttr i None => base_process m i v
    | MkAttr i (Some (subs, cps, cds)) =>
        let! (v', iss) := base_process m i v in
        if negb (can_proceed iss []) || match v' with VNone => true | _ => false end
        then Ok (v', iss)
        else
          (* lines 350-356 / 361-370: one container, [prefix] its location *)
          let item (prefix : loc) (c : value) (iss : issues) : res outcome :=
            let c := mk_cont c in
            (fix go (subs : list attribute) (parsed : value) (iss : issues) : res outcome :=
               match subs with
               | [] => Ok (parsed, iss)
               | s :: t =>
                   let! x := get_item c (arep s) in
                   match x with
                   | VMissing => go t parsed iss
                   | _ =>
                       let! (y, iss') := process s m x in
                       let! parsed' := set_item parsed (arep s) y in
                       go t parsed' (merge iss iss' (prefix ++ [LStr (r_attr (arep s))]))
                   end
               end) subs empty_cont iss in
          let! (parsed, iss) :=
            if a_multi i then
              let! l := iter_value v' in
              let! (items, iss) :=
                foldM (fun st e => let! (c, iss') := item [LIdx (fst e)] (snd e) (snd st) in
                                   Ok (fst st ++ [c], iss')) (enumerate l) ([], iss) in
              Ok (VList items, iss)
            else item [] v' iss in
          if has_issues iss [] then Ok (parsed, iss)
          else run_procs (match m with MParse => cps | MDump => cds end) parsed iss
    end.
End Env.

(** ** Attribute.to_dict (src/data/attributes.py 264-280, 389-392) *)

Definition mut_str (m : mutability) : str :=
  match m with
  | ReadWrite => $"readWrite" | ReadOnly => $"readOnly"
  | WriteOnly => $"writeOnly" | Immutable => $"immutable"
  end.
(** Values of AttributeReturn (src/data/attributes.py 37-41). *)
Definition ret_str (r : returned) : str :=
  match r with
  | RetDefault => $"default" | RetAlways => $"always"
  | RetNever => $"never" | RetRequest => $"request"
  end.
(** Values of AttributeUniqueness (src/data/attributes.py 44-47). *)
Definition uniq_str (u : uniqueness) : str :=
  match u with UniqNone => $"none" | UniqServer => $"server" | UniqGlobal => $"global" end.

(** A dict display with str keys, a Python built-in. *)
Definition dict_of (l : list (str * value)) : value := VDict (map (fun e => (KStr (fst e), snd e)) l).

(** Attribute.to_dict and ComplexAttribute.to_dict (src/data/attributes.py 264-283, 389-392): the entries. *)
Fixpoint attr_fields (a : attribute) : res (list (str * value)) :=
  match a with
  | MkAttr i sub =>
      let! tn := scim_name (a_type i) in
      let base :=
        [($"name", VStr (r_attr (a_rep i))); ($"type", VStr tn);
         ($"multiValued", VBool (a_multi i)); ($"description", VStr (a_descr i));
         ($"required", VBool (a_required i)); ($"caseExact", VBool (a_case_exact i));
         ($"mutability", VStr (mut_str (a_mut i))); ($"returned", VStr (ret_str (a_ret i)));
         ($"uniqueness", VStr (uniq_str (a_uniq i)))]
        ++ match a_canon i with
           | Some (l :: ls) => [($"canonicalValues", VList (map v_of_lit (l :: ls)))]
           | _ => []
           end
        ++ match a_reftypes i with
           | [] => []
           | rs => [($"referenceTypes", VList (map VStr rs))]
           end in
      match sub with
      | None => Ok base
      | Some (subs, _, _) =>
          let! ds := (fix go (l : list attribute) : res (list value) :=
                        match l with
                        | [] => Ok []
                        | s :: t => let! d := attr_fields s in
                                    let! ds := go t in Ok (dict_of d :: ds)
                        end) subs in
          Ok (base ++ [($"subAttributes", VList ds)])
      end
  end.
(** Attribute.to_dict and ComplexAttribute.to_dict (src/data/attributes.py 264-283, 389-392). *)
Definition attr_to_dict (a : attribute) : res value :=
  let! d := attr_fields a in Ok (dict_of d).
