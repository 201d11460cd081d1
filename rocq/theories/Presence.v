(** Model of /repo/src/attributes_presence.py. *)
From Verif Require Import PyBase PyNum Issues AttrRep Value Container Types Attr Schema.

(** ValidationError.restricted_or_not_requested (src/error.py 136-138). *)
Definition e_not_requested : error := err 19.
(** ValidationError.bad_attribute_name (src/error.py 259-261). *)
Definition e_bad_attr_name (s : str) : error := mkErr 111 [s].

(** The direction argument (src/attributes_presence.py 58-64). *)
Inductive direction := Request | Response.

(** direction == "RESPONSE" (src/attributes_presence.py 120-164). *)
Definition is_response (d : direction) : bool := match d with Response => true | Request => false end.

(** value in [None, "", [], Missing] (src/attributes_presence.py 128). *)
Definition is_blank (v : value) : bool :=
  match v with
  | VNone | VMissing | VStr [] | VList [] => true
  | _ => false
  end.

(** attr_rep in list (AttrRep.__eq__) (src/attributes_presence.py 120-175). *)
Definition rep_in (r : attr_rep) (l : list attr_rep) : bool := existsb (fun x => rep_eqb x r) l.

(** _sub_attr_or_top_attr_in_attr_reps (src/attributes_presence.py 166-180). *)
Definition related_in (r : attr_rep) (l : list attr_rep) : bool :=
  existsb (fun x => (negb (nonempty (r_sub r)) && top_level_equals r x)
                    || (nonempty (r_sub r) && negb (nonempty (r_sub x)) && top_level_equals r x)) l.

(** self._include is True, self._include is False (src/attributes_presence.py 120-164). *)
Definition include_is (c : checker) (b : bool) : bool :=
  match ck_include c with Some x => Bool.eqb x b | None => false end.

(** _check_presence (src/attributes_presence.py 120-164). *)
Definition check_presence (c : checker) (v : value) (d : direction) (i : ainfo) (r : attr_rep) : issues :=
  if negb (is_blank v) then
    if negb (is_response d) then no_issues
    else
      match a_ret i with
      | RetNever => add_issue no_issues e_not_requested true []
      | RetAlways => no_issues
      | _ =>
          if (rep_in r (ck_reps c) && include_is c false)
             || (negb (rep_in r (ck_reps c)) && negb (related_in r (ck_reps c)) && include_is c true)
          then add_issue no_issues e_not_requested true []
          else no_issues
      end
  else if a_required i && negb (rep_in r (ck_ignore c))
          && (negb (include_is c true)
              || (rep_in r (ck_reps c) && include_is c true)
              || (is_response d && match a_ret i with RetAlways => true | _ => false end))
  then add_issue no_issues e_missing false []
  else no_issues.

(** Location of an attribute in the checked data
    (src/attributes_presence.py 83, 98, 105-107). *)
Definition presence_loc (r : attr_rep) : loc :=
  LStr (r_attr r) :: match r_sub r with [] => [] | s => [LStr s] end.

(** Loop over the items of a multi-valued attribute
    (src/attributes_presence.py 86-99). *)
Fixpoint check_items (c : checker) (d : direction) (a : attribute) (k : nat) (l : list value) (iss : issues)
  : res issues :=
  match l with
  | [] => Ok iss
  | x :: t =>
      let r := arep a in
      let! rs := rep_attr (r_sub r) in
      let! v := get_item x rs in
      if is_invalid v then check_items c d a (S k) t iss
      else check_items c d a (S k) t
             (merge iss (check_presence c v d (info a) r) [LStr (r_attr r); LIdx k; LStr (r_sub r)])
  end.

(** Body of the loop of __call__ (src/attributes_presence.py 66-116). *)
Definition check_attr (c : checker) (data : value) (all : list attribute) (d : direction)
    (iss : issues) (a : attribute) : res issues :=
  let r := arep a in
  let! top_rep := mk_rep (r_schema r) (r_attr r) [] false in
  let! per_item :=
    (if nonempty (r_sub r) then
       match find_attr all top_rep with
       | None => Raise AttributeErr
       | Some t => Ok (a_multi (info t))
       end
     else Ok false) in
  if per_item : bool then
    let! v := get_item data top_rep in
    match v with
    | VInvalid | VMissing => Ok iss
    | VNone => Ok (merge iss (check_presence c v d (info a) r) (presence_loc r))
    | _ => let! l := iter_value v in check_items c d a 0 l iss
    end
  else
    let! v := get_item data r in
    if is_invalid v then Ok iss
    else Ok (merge iss (check_presence c v d (info a) r) (presence_loc r)).

(** AttributePresenceChecker.__call__ (src/attributes_presence.py 58-118). *)
Definition presence (c : checker) (data : value) (all : list attribute) (d : direction) : res issues :=
  foldM (check_attr c data all d) all no_issues.

(** AttributePresenceChecker.parse (src/attributes_presence.py 27-56); items
    that are not strings make AttrRep.parse raise TypeError. *)
Definition parse_name_step (st : list attr_rep * bool * issues) (x : value)
  : res (list attr_rep * bool * issues) :=
  let '(reps, all_parsed, iss) := st in
  match x with
  | VStr s =>
      match parse_rep s with
      | Some r =>
          if can_proceed iss [presence_loc r] then Ok (reps ++ [r], all_parsed, iss)
          else Ok (reps, false, iss)
      | None =>
          (* after the issue is added its location cannot proceed *)
          Ok (reps, false, add_issue iss (e_bad_attr_name s) false [LStr s])
      end
  | _ => Raise TypeErr
  end.
(** AttributePresenceChecker.parse (src/attributes_presence.py 28-56). *)
Definition parse_checker (names : list value) (include : option bool) : res outcome :=
  let! (reps, all_parsed, iss) := foldM parse_name_step names ([], true, no_issues) in
  Ok (if all_parsed : bool then VChecker (mkChecker reps include []) else VInvalid, iss).
