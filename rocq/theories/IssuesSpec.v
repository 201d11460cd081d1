(** Specification of issue reports: what a history of calls should record.
    Independent of the report data structure of Issues.v; only the types of
    errors and locations are shared. *)
From Verif Require Import PyBase Issues.

(** The calls a client can make on a report.  [CMerge h p] merges a report that
    was itself built by history [h] below the prefix [p]; [CExport] stands for
    the report being merged into some other report. *)
Inductive call :=
| CAdd (e : error) (proceed : bool) (l : loc)
| CMerge (h : list call) (p : loc)
| CExport.

Definition locpart_dec (a b : locpart) : {a = b} + {a <> b}.
Proof. decide equality; [apply (list_eq_dec ascii_dec) | apply Nat.eq_dec]. Defined.
Definition loc_dec (a b : loc) : {a = b} + {a <> b} := list_eq_dec locpart_dec a b.

(** [loc_strip p l]: what remains of [l] below the prefix [p]. *)
Fixpoint loc_strip (p l : loc) : option loc :=
  match p, l with
  | [], _ => Some l
  | _ :: _, [] => None
  | a :: p', b :: l' => if locpart_dec a b then loc_strip p' l' else None
  end.

(** The errors a call contributes at a location. *)
Fixpoint call_errors (c : call) (l : loc) : list error :=
  match c with
  | CAdd e _ l' => if loc_dec l' l then [e] else []
  | CMerge h p =>
      match loc_strip p l with
      | Some l' => (fix go (h : list call) := match h with [] => [] | c :: t => call_errors c l' ++ go t end) h
      | None => []
      end
  | CExport => []
  end.
(** The errors a history of calls should leave at a location, in order. *)
Definition recorded (h : list call) (l : loc) : list error := flat_map (fun c => call_errors c l) h.

(** The calls executed by the model. *)
Fixpoint run_call (i : issues) (c : call) : issues :=
  match c with
  | CAdd e proceed l => add_issue i e proceed l
  | CMerge h p =>
      merge i ((fix go (h : list call) (i : issues) := match h with [] => i | c :: t => go t (run_call i c) end)
                 h no_issues) p
  | CExport => merge_src i
  end.
Definition run (h : list call) : issues := fold_left run_call h no_issues.

(** A blocking issue is recorded at [l] itself. *)
Fixpoint call_blocks (c : call) (l : loc) : bool :=
  match c with
  | CAdd _ proceed l' => negb proceed && if loc_dec l' l then true else false
  | CMerge h p =>
      match loc_strip p l with
      | Some l' => (fix go (h : list call) := match h with [] => false | c :: t => call_blocks c l' || go t end) h
      | None => false
      end
  | CExport => false
  end.
Definition blocking (h : list call) (l : loc) : bool := existsb (fun c => call_blocks c l) h.

(** [a] is an ancestor of [l], or [l] itself. *)
Definition ancestor (a l : loc) : Prop := exists t, l = a ++ t.

(** Locations asked about: no argument stands for the root. *)
Definition asked (ls : list loc) : list loc := match ls with [] => [[]] | _ => ls end.

(** Histories that never merge. *)
Definition is_add (c : call) : bool := match c with CAdd _ _ _ => true | _ => false end.

(** Follow a path of names in the serialised report. *)
Fixpoint tree_errors (path : list str) (t : otree) : list N :=
  match t with
  | ONode es ch =>
      match path with
      | [] => match es with Some l => l | None => [] end
      | k :: path' =>
          (fix find (ch : list (str * otree)) :=
             match ch with
             | [] => []
             | (k', s) :: t => if list_eq_dec ascii_dec k' k then tree_errors path' s else find t
             end) ch
      end
  end.
(** The names of a location in the serialised report. *)
Definition names (l : loc) : list str :=
  map (fun p => match p with LStr s => s | LIdx n => dec_of_nat n end) l.

(** Locations at which the history leaves a blocking entry: issues added with
    proceed=False, and every issue of a report that was merged, whatever its
    proceed flag. *)
Definition entry_blocks (h : list call) (l : loc) : Prop :=
  exists h1 c h2, h = h1 ++ c :: h2 /\
    match c with
    | CAdd _ proceed l' => proceed = false /\ l' = l
    | CMerge h' p => exists l', l = p ++ l' /\ recorded h' l' <> []
    | CExport => recorded h1 l <> []
    end.

(** No report was merged (in either direction) while holding a location with
    non-blocking issues only. *)
Definition merges_blocking (h : list call) : Prop :=
  forall h1 c h2, h = h1 ++ c :: h2 ->
    match c with
    | CAdd _ _ _ => True
    | CMerge h' _ => forall l, recorded h' l <> [] -> blocking h' l = true
    | CExport => forall l, recorded h1 l <> [] -> blocking h1 l = true
    end.

(** No two neighbouring errors both carry the code. *)
Fixpoint no_adjacent (c : N) (es : list error) : Prop :=
  match es with
  | e :: ((e' :: _) as t) => ~ (e_code e = c /\ e_code e' = c) /\ no_adjacent c t
  | _ => True
  end.

Definition other_code (c : N) (e : error) : bool := negb (N.eqb (e_code e) c).
