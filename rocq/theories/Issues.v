(** Model of /repo/src/error.py: ValidationError (5-302) and ValidationIssues
    (305-415). *)
From Verif Require Import PyBase.

(** ValidationError (src/error.py 5-302).  The message is a fixed template per
    code filled with the context, so an error is represented by its code and
    its rendered context arguments.  Simplification: most call sites in the
    model leave the context empty. *)
Record error := mkErr { e_code : N; e_ctx : list str }.

(** An error without context (src/error.py 73-77). *)
Definition err (c : N) : error := mkErr c [].

(** ValidationError.__eq__ (src/error.py 301-302): equality of messages. *)
Fixpoint ctx_eqb (a b : list str) : bool :=
  match a, b with
  | [], [] => true
  | x :: a', y :: b' => str_eqb x y && ctx_eqb a' b'
  | _, _ => false
  end.
(** Equality of errors, for list.remove (src/error.py 301-302, 352). *)
Definition err_eqb (a b : error) : bool := N.eqb (e_code a) (e_code b) && ctx_eqb (e_ctx a) (e_ctx b).

(** One element of a location tuple (src/error.py 307). *)
Inductive locpart := LStr (s : str) | LIdx (n : nat).
(** A location (src/error.py 307). *)
Definition loc := list locpart.

(** Equality of the elements of locations, a Python built-in. *)
Definition locpart_eqb (a b : locpart) : bool :=
  match a, b with
  | LStr s, LStr t => str_eqb s t
  | LIdx n, LIdx m => Nat.eqb n m
  | _, _ => false
  end.
(** Equality of locations as dictionary keys, a Python built-in. *)
Fixpoint loc_eqb (a b : loc) : bool :=
  match a, b with
  | [], [] => true
  | x :: a', y :: b' => locpart_eqb x y && loc_eqb a' b'
  | _, _ => false
  end.

(** ValidationIssues (src/error.py 305-308).  [i_dd] tells whether the two
    dictionaries are defaultdicts (always, except for the result of [get],
    whose dictionaries are plain dicts, lines 330-339).  Sets of codes are
    duplicate-free lists. *)
Record issues := mkIssues {
  i_errs : list (loc * list error);
  i_stop : list (loc * list N);
  i_dd : bool
}.

(** ValidationIssues() (src/error.py 306-308). *)
Definition no_issues : issues := mkIssues [] [] true.

(** d.get(location), a Python built-in on dicts. *)
Definition lget {V} (l : loc) (d : list (loc * V)) : option V := aget loc_eqb l d.
(** d[location] = v, a Python built-in on dicts. *)
Definition lset {V} (l : loc) (v : V) (d : list (loc * V)) : list (loc * V) := aset loc_eqb l v d.
(** d.pop(location), a Python built-in on dicts. *)
Definition ldel {V} (l : loc) (d : list (loc * V)) : list (loc * V) := adel loc_eqb l d.

(** self._issues[location], with the default of a defaultdict (src/error.py 307). *)
Definition errs_at (i : issues) (l : loc) : list error :=
  match lget l (i_errs i) with Some es => es | None => [] end.
(** self._stop_proceeding[location], with the default of a defaultdict (src/error.py 308). *)
Definition stop_at (i : issues) (l : loc) : list N :=
  match lget l (i_stop i) with Some cs => cs | None => [] end.

(** code in set, a Python built-in. *)
Definition nmem (n : N) (l : list N) : bool := existsb (N.eqb n) l.
(** set.add and set.update (src/error.py 315, 326) *)
Definition set_add (n : N) (l : list N) : list N := if nmem n l then l else l ++ [n].
(** set.update (src/error.py 315). *)
Definition set_update (l new : list N) : list N := fold_left (fun acc n => set_add n acc) new l.

(** ValidationIssues.add (src/error.py 317-326). *)
Definition add_issue (i : issues) (e : error) (proceed : bool) (l : loc) : issues :=
  mkIssues (lset l (errs_at i l ++ [e]) (i_errs i))
           (if proceed then i_stop i else lset l (set_add (e_code e) (stop_at i l)) (i_stop i))
           (i_dd i).

(** The body of the loop in ValidationIssues.merge (src/error.py 312-315) for
    one entry of the merged report [other]; indexing a plain dict with a
    missing key raises. *)
Definition merge_entry (other : issues) (prefix : loc) (self : issues) (ent : loc * list error)
  : res issues :=
  let (ol, es) := ent in
  let nl := prefix ++ ol in
  match lget ol (i_stop other), i_dd other, i_dd self, lget nl (i_errs self), lget nl (i_stop self) with
  | None, false, _, _, _ => Raise KeyErr
  | _, _, false, None, _ => Raise KeyErr
  | _, _, false, _, None => Raise KeyErr
  | _, _, _, _, _ =>
      Ok (mkIssues (lset nl (errs_at self nl ++ es) (i_errs self))
                   (lset nl (set_update (stop_at self nl) (stop_at other ol)) (i_stop self))
                   (i_dd self))
  end.

(** ValidationIssues.merge (src/error.py 310-315), effect on [self]. *)
Definition merge_at (self other : issues) (prefix : loc) : res issues :=
  foldM (merge_entry other prefix) (i_errs other) self.

(** ValidationIssues.merge (src/error.py 310-315), effect on the argument: the
    look-up on line 315 creates missing entries of a defaultdict. *)
Definition merge_src (other : issues) : issues :=
  mkIssues (i_errs other)
           (fold_left (fun st ent => match lget (fst ent) st with
                                     | Some _ => st
                                     | None => lset (fst ent) [] st
                                     end) (i_errs other) (i_stop other))
           (i_dd other).

(** [merge] of a report whose dictionaries are defaultdicts, as every call in
    the code base except those on the result of [get] (src/error.py 310-315). *)
Definition merge (self other : issues) (prefix : loc) : issues :=
  match merge_at self other prefix with Ok i => i | Raise _ => self end.

(** location_[:n] == location (src/error.py 333, 338, 379). *)
Definition is_prefix (p l : loc) : bool := loc_eqb (firstn (length p) l) p.

(** A dict comprehension {f(k): v for k, v in d.items() if ...} with distinct
    resulting keys (src/error.py 330-339). *)
Definition below {V} (p : loc) (d : list (loc * V)) : list (loc * V) :=
  map (fun e => (skipn (length p) (fst e), snd e)) (filter (fun e => is_prefix p (fst e)) d).

(** ValidationIssues.get (src/error.py 328-340). *)
Definition get_issues (i : issues) (p : loc) : issues :=
  mkIssues (below p (i_errs i)) (below p (i_stop i)) false.

(** list.remove(issue) on a list of errors: drops the first equal element
    (src/error.py 352). *)
Fixpoint remove_err (e : error) (l : list error) : list error :=
  match l with
  | [] => []
  | x :: t => if err_eqb x e then t else x :: remove_err e t
  end.
(** set.remove (src/error.py 354). *)
Fixpoint remove_code (n : N) (l : list N) : list N :=
  match l with
  | [] => []
  | x :: t => if N.eqb x n then t else x :: remove_code n t
  end.

(** The loop of ValidationIssues.pop (src/error.py 350-354): a list iterator
    keeps an index into a list that shrinks under it.  [idx] is the iterator's
    index, [fuel] bounds the iterations by the initial length. *)
Fixpoint pop_loop (fuel idx : nat) (c : N) (es : list error) (st : option (list N))
  : list error * option (list N) :=
  match fuel with
  | O => (es, st)
  | S f =>
      match nth_error es idx with
      | None => (es, st)
      | Some e =>
          if N.eqb (e_code e) c
          then pop_loop f (S idx) c (remove_err e es)
                 (match st with
                  | Some cs => if nmem c cs then Some (remove_code c cs) else st
                  | None => None
                  end)
          else pop_loop f (S idx) c es st
      end
  end.

(** ValidationIssues.pop (src/error.py 342-362): the popped report and the
    updated receiver.  Simplification: the popped report aliases the receiver's
    lists in Python; here it is the report before removal (every caller only
    asks it has_issues()). *)
Definition pop_issues (i : issues) (l : loc) (c : N) : issues * issues :=
  match lget l (i_errs i) with
  | None => (no_issues, i)
  | Some es =>
      let (es', st') := pop_loop (length es) 0 c es (lget l (i_stop i)) in
      (get_issues i l,
       mkIssues (match es' with [] => ldel l (i_errs i) | _ => lset l es' (i_errs i) end)
                (match st' with
                 | None => i_stop i
                 | Some [] => ldel l (i_stop i)
                 | Some cs => lset l cs (i_stop i)
                 end)
                (i_dd i))
  end.

(** location[:0], location[:1], ..., location (src/error.py 368). *)
Definition prefixes (l : loc) : list loc := map (fun n => firstn n l) (seq 0 (S (length l))).

(** ValidationIssues.can_proceed (src/error.py 364-371). *)
Definition can_proceed (i : issues) (ls : list loc) : bool :=
  let ls := match ls with [] => [[]] | _ => ls end in
  forallb (fun l => forallb (fun p => negb (amem loc_eqb p (i_stop i))) (prefixes l)) ls.

(** ValidationIssues.has_issues (src/error.py 373-382). *)
Definition has_issues (i : issues) (ls : list loc) : bool :=
  let ls := match ls with [] => [[]] | _ => ls end in
  existsb (fun l => existsb (fun e => is_prefix l (fst e)) (i_errs i)) ls.

(** The nested dictionary built by to_dict: each node has an optional "_errors"
    list (of error codes) and named children.  Simplification: a location part
    that itself is the string "_errors" is not distinguished in Python
    (src/error.py 384-415). *)
Inductive otree := ONode (errs : option (list N)) (children : list (str * otree)).

(** str(part) (src/error.py 390). *)
Definition part_str (p : locpart) : str :=
  match p with LStr s => s | LIdx n => dec_of_nat n end.

(** An empty dictionary (src/error.py 392). *)
Definition o_empty : otree := ONode None [].

(** Body of the loop of to_dict for one location (src/error.py 386-413). *)
Fixpoint o_insert (l : loc) (codes : list N) (t : otree) : otree :=
  match t with
  | ONode es ch =>
      match l with
      | [] => ONode (Some (match es with Some cs => cs | None => [] end ++ codes)) ch
      | p :: l' =>
          let sub := match aget str_eqb (part_str p) ch with Some s => s | None => o_empty end in
          ONode es (aset str_eqb (part_str p) (o_insert l' codes sub) ch)
      end
  end.

(** ValidationIssues.to_dict (src/error.py 384-415), error codes only. *)
Definition issues_to_dict (i : issues) : otree :=
  fold_left (fun t e => o_insert (fst e) (map e_code (snd e)) t) (i_errs i) o_empty.
