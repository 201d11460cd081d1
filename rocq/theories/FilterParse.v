(** Model of /repo/src/filter.py (parsing, rendering to a dict, equality) and
    /repo/src/utils.py.

    Every issue the parser reports is at the root location and blocks further
    processing, so reports are represented inside the parser by the list of
    errors; [iss_of] turns it into a report at the boundary.  Error contexts
    (message texts) are not modelled, nor therefore the [expression] fields
    that only feed them. *)
From Verif Require Import PyBase PyNum Issues AttrRep Value Container Types Attr Match.

(** ** utils.py *)

(** The text before the index of a placeholder (src/utils.py 5, 10). *)
Definition ph_open : str := $"|&PLACE_HOLDER_".
(** The text after the index of a placeholder (src/utils.py 5, 10). *)
Definition ph_close : str := $"&|".

(** get_placeholder (src/utils.py 9-10). *)
Definition placeholder (i : nat) : str := ph_open ++ dec_of_nat i ++ ph_close.

(** PLACEHOLDER_REGEX (src/utils.py 5) matched at the start of [s]: the digits
    and the rest after the match. *)
Definition match_ph (s : str) : option (str * str) :=
  if starts_with s ph_open then
    let (ds, rest) := span is_digit (skipn (length ph_open) s) in
    match ds with
    | [] => None
    | _ => if starts_with rest ph_close then Some (ds, skipn (length ph_close) rest) else None
    end
  else None.

(** parse_placeholder (src/utils.py 13-17).  The limit of int() on the number
    of digits is not modelled. *)
Definition parse_placeholder (s : str) : option nat :=
  match match_ph s with
  | Some (ds, []) => Some (nat_of_dec ds)
  | _ => None
  end.

(** PLACEHOLDER_REGEX.finditer: the digits of every match; [k] characters of
    the current match remain to be skipped (src/utils.py 5, src/data/path.py 143). *)
Fixpoint find_phs (s : str) (k : nat) : list str :=
  match s with
  | [] => []
  | c :: t =>
      match k with
      | S k' => find_phs t k'
      | O => match match_ph s with
             | Some (ds, rest) => ds :: find_phs t (length t - length rest)
             | None => find_phs t 0
             end
      end
  end.

(** Dictionaries keyed by int (src/filter.py 85-100). *)
Definition idict (V : Type) := list (nat * V).
(** d.get(i) (src/filter.py 623-636). *)
Definition iget {V} (i : nat) (d : idict V) : option V := aget Nat.eqb i d.
(** d[i] = v (src/filter.py 92). *)
Definition iset {V} (i : nat) (v : V) (d : idict V) : idict V := aset Nat.eqb i v d.

(** _encode_placeholders with only [string_values], also
    PatchPath._encode_string_values (src/filter.py 634-651,
    src/data/path.py 140-147). *)
Definition encode_strings (exp : str) (strings : idict str) : str :=
  fold_left (fun enc ds => match iget (nat_of_dec ds) strings with
                           | Some v => replace_all enc (ph_open ++ ds ++ ph_close) v
                           | None => enc
                           end) (find_phs exp 0) exp.

(** The double quote (src/utils.py 6). *)
Definition dquote : ascii := ascii_of_N 34.
(** The single quote (src/utils.py 6). *)
Definition squote : ascii := ascii_of_N 39.

(** Text up to and including the first [q], if any (for src/utils.py 6). *)
Fixpoint until (q : ascii) (s : str) : option str :=
  match s with
  | [] => None
  | c :: t => if chr_eqb c q then Some [c]
              else match until q t with Some u => Some (c :: u) | None => None end
  end.

(** STRING_VALUES_REGEX (src/utils.py 6) matched at the start of [s]. *)
Definition match_string (s : str) : option str :=
  match s with
  | c :: t => if chr_eqb c squote || chr_eqb c dquote
              then match until c t with Some u => Some (c :: u) | None => None end
              else None
  | [] => None
  end.

(** STRING_VALUES_REGEX.finditer: start and text of every match
    (src/utils.py 6, src/filter.py 88-93). *)
Fixpoint find_strings (s : str) (pos k : nat) : list (nat * str) :=
  match s with
  | [] => []
  | c :: t =>
      match k with
      | S k' => find_strings t (S pos) k'
      | O => match match_string s with
             | Some m => (pos, m) :: find_strings t (S pos) (length m - 1)
             | None => find_strings t (S pos) 0
             end
      end
  end.

(** The masking loop (src/filter.py 88-93, src/data/path.py 56-61): the masked
    text and the string values by start position. *)
Definition mask_strings (s : str) : str * idict str :=
  fold_left (fun st m => (replace_first (fst st) (snd m) (placeholder (fst m)),
                          iset (fst m) (snd m) (snd st)))
            (find_strings s 0 0) (s, []).

(** parse_comparison_value (src/utils.py 20-41). *)
Definition parse_comparison_value (s : str) : res lit :=
  let q c := [c] in
  if (starts_with s (q dquote) && ends_with s (q dquote))
     || (starts_with s (q squote) && ends_with s (q squote))
  then Ok (LitStr (removelast (tl s)))
  else if str_eqb s ($"false") then Ok (LitBool false)
  else if str_eqb s ($"true") then Ok (LitBool true)
  else if str_eqb s ($"null") then Ok LitNone
  else match parse_float s with
       | None => Raise ValueErr
       | Some f =>
           let! z := int_of_float f in
           if feqb f (fint z) then Ok (LitInt z) else Ok (LitFloat f)
       end.

(** ** Errors *)

(** ValidationError.bracket_not_opened_or_closed (src/error.py 222-224). *)
Definition e_brackets : error := err 100.
(** ValidationError.complex_attribute_bracket_not_opened_or_closed (src/error.py 226-228). *)
Definition e_complex_brackets : error := err 102.
(** ValidationError.missing_operand_for_operator (src/error.py 230-232). *)
Definition e_missing_operand : error := err 104.
(** ValidationError.unknown_operator (src/error.py 234-241). *)
Definition e_unknown_operator : error := err 105.
(** ValidationError.unknown_expression (src/error.py 243-245). *)
Definition e_unknown_expression : error := err 106.
(** ValidationError.empty_filter_expression (src/error.py 247-249). *)
Definition e_empty_filter : error := err 107.
(** ValidationError.inner_complex_attribute_or_square_bracket (src/error.py 251-253). *)
Definition e_inner_complex : error := err 109.
(** ValidationError.empty_complex_attribute_expression (src/error.py 255-257). *)
Definition e_empty_complex : error := err 110.
(** ValidationError.bad_attribute_name (src/error.py 259-261). *)
Definition e_bad_name : error := err 111.
(** ValidationError.bad_comparison_value (src/error.py 263-265). *)
Definition e_bad_comparison : error := err 112.
(** ValidationError.non_compatible_comparison_value (src/error.py 267-269). *)
Definition e_incompatible : error := err 113.
(** ValidationError.complex_sub_attribute (src/error.py 194-196). *)
Definition e_complex_sub : error := err 33.

(** The report holding the given errors, all at the root and blocking
    (src/filter.py 85-206). *)
Definition iss_of (l : list error) : issues :=
  fold_left (fun i e => add_issue i e false []) l no_issues.

(** Result of a parsing step: operator ([ONone] for None and Invalid) and
    errors; _ParsedGroupOperator and _ParsedComplexAttributeOperator
    (src/filter.py 62-73) carry the same data. *)
Definition pres := (oper * list error)%type.

(** ** Splitting at keywords *)

(** A word character on one side of \b (src/filter.py 385-397). *)
Definition is_word_opt (c : option ascii) : bool :=
  match c with Some c => is_word c | None => false end.

(** The character before the rest of the text (src/filter.py 385-397). *)
Definition last_chr (prev : option ascii) (s : str) : option ascii :=
  match rev s with [] => prev | c :: _ => Some c end.

(** \s*\b<kw>\b\s* matched at the start of [s] (src/filter.py 20-22), [prev]
    being the preceding character: the matched text and the rest. *)
Definition match_kw (kw : str) (prev : option ascii) (s : str) : option (str * str) :=
  let (ws, rest) := span is_space s in
  if is_word_opt (last_chr prev ws) then None
  else if starts_with rest kw then
    let after := skipn (length kw) rest in
    if is_word_opt (hd_error after) then None
    else let (ws', rest') := span is_space after in Some (ws ++ kw ++ ws', rest')
  else None.

(** finditer over [s]: the pieces between matches.  [k] characters of the
    current match remain to be skipped; [acc] is the current piece, reversed
    (src/filter.py 385-451). *)
Fixpoint split_kw (kw : str) (prev : option ascii) (s : str) (k : nat) (acc : str) : list str :=
  match s with
  | [] => [rev acc]
  | c :: t =>
      match k with
      | S k' => split_kw kw (Some c) t k' acc
      | O => match match_kw kw prev s with
             | Some (_, rest) => rev acc :: split_kw kw (Some c) t (length t - length rest) []
             | None => split_kw kw (Some c) t 0 (c :: acc)
             end
      end
  end.

(** Errors of _split_exp_to_logical_operands: one per match with an empty
    operand on either side (src/filter.py 397-440). *)
Fixpoint operand_errors (pieces : list str) : list error :=
  match pieces with
  | l :: t =>
      match t with
      | r :: _ => (if nonempty l && nonempty r then [] else [e_missing_operand]) ++ operand_errors t
      | [] => []
      end
  | [] => []
  end.

(** _split_exp_to_logical_operands (src/filter.py 384-451). *)
Definition split_operands (kw exp : str) : list str * list error :=
  let pieces := split_kw kw None exp 0 [] in
  (filter nonempty pieces, operand_errors pieces).

(** OP_REGEX.split: split at runs of whitespace (src/utils.py 4). *)
Fixpoint split_ws (s : str) (in_ws : bool) (acc : str) : list str :=
  match s with
  | [] => [rev acc]
  | c :: t =>
      if is_space c then
        if in_ws then split_ws t true acc else rev acc :: split_ws t true []
      else split_ws t false (c :: acc)
  end.

(** ** Attribute expressions *)

(** The operators by their names (src/filter.py 28-38). *)
Definition binop_of (s : str) : option binop :=
  if str_eqb s ($"eq") then Some OpEq else if str_eqb s ($"ne") then Some OpNe
  else if str_eqb s ($"co") then Some OpCo else if str_eqb s ($"sw") then Some OpSw
  else if str_eqb s ($"ew") then Some OpEw else if str_eqb s ($"gt") then Some OpGt
  else if str_eqb s ($"ge") then Some OpGe else if str_eqb s ($"lt") then Some OpLt
  else if str_eqb s ($"le") then Some OpLe else None.

(** _ALLOWED_VALUE_TYPES_FOR_BINARY_OPERATORS (src/filter.py 40-50). *)
Definition lit_allowed (b : binop) (l : lit) : bool :=
  match b, l with
  | OpEq, _ | OpNe, _ => true
  | OpCo, LitStr _ | OpSw, LitStr _ | OpEw, LitStr _ => true
  | OpGt, (LitStr _ | LitInt _ | LitFloat _) | OpGe, (LitStr _ | LitInt _ | LitFloat _)
  | OpLt, (LitStr _ | LitInt _ | LitFloat _) | OpLe, (LitStr _ | LitInt _ | LitFloat _) => true
  | _, _ => false
  end.

(** Wrapping of a sub-attribute operator (src/filter.py 523-530, 599-606). *)
Definition wrap_sub (r : attr_rep) (mk : attr_rep -> oper) : res oper :=
  match r_sub r with
  | [] => Ok (mk r)
  | s => let! top := mk_rep (r_schema r) (r_attr r) [] false in
         let! sub := mk_rep [] s [] false in
         Ok (OComplex top (mk sub))
  end.

(** Tail of the binary case (src/filter.py 592-607). *)
Definition finish_binary (name : option attr_rep) (b : option binop) (errs : list error) (v : lit)
  : res pres :=
  match errs, name, b with
  | [], Some r, Some b =>
      if lit_allowed b v then let! o := wrap_sub r (fun r => OBin b r v) in Ok (o, [])
      else Ok (ONone, [e_incompatible])
  | _, _, _ => Ok (ONone, errs)
  end.

(** _parse_op_attr_exp (src/filter.py 453-619). *)
Definition parse_attr_exp (exp : str) (strings : idict str) (groups complexes : idict pres) : res pres :=
  let exp := strip exp in
  let found :=
    match parse_placeholder exp with
    | None => None
    | Some i => match iget i groups with Some p => Some p | None => iget i complexes end
    end in
  match found with
  | Some p => Ok p
  | None =>
      match split_ws exp false [] with
      | [name; o] =>
          let o := lower o in
          let op_errs := if str_eqb o ($"pr") then []
                         else match binop_of o with
                              | Some _ => [e_missing_operand]
                              | None => [e_unknown_operator]
                              end in
          match parse_rep name with
          | None => Ok (ONone, op_errs ++ [e_bad_name])
          | Some r => match op_errs with
                      | [] => let! o := wrap_sub r OPresent in Ok (o, [])
                      | _ => Ok (ONone, op_errs)
                      end
          end
      | [name; o; val] =>
          let b := binop_of (lower o) in
          let r := parse_rep name in
          let errs := (match b with Some _ => [] | None => [e_unknown_operator] end)
                      ++ (match r with Some _ => [] | None => [e_bad_name] end) in
          match parse_comparison_value (encode_strings val strings) with
          | Ok v => finish_binary r b errs v
          | Raise ValueErr => finish_binary r b (errs ++ [e_bad_comparison]) LitNone
          | Raise e => Raise e
          end
      | _ => Ok (ONone, [e_unknown_expression])
      end
  end.

(** One operand of "and" (src/filter.py 337-375): the operator and the errors;
    [bad] tells whether earlier operands already had errors. *)
Definition parse_not_exp (exp : str) (strings : idict str) (groups complexes : idict pres) : res pres :=
  match match_kw ($"not") None exp with
  | Some (_, []) => Ok (ONone, [e_missing_operand])
  | Some (_, rest) =>
      let! (o, errs) := parse_attr_exp rest strings groups complexes in
      Ok (ONot o, errs)
  | None => parse_attr_exp exp strings groups complexes
  end.

(** Loop over operands: stops at nothing, collects operators and errors
    (src/filter.py 296-307, 336-375). *)
Fixpoint parse_operands (f : str -> res pres) (l : list str) : res (list oper * list error) :=
  match l with
  | [] => Ok ([], [])
  | x :: t =>
      let! (o, errs) := f x in
      let! (os, errs') := parse_operands f t in
      Ok (o :: os, errs ++ errs')
  end.

(** Common shape of _parse_op_and_exp and _parsed_op_or_exp: no operand gives
    None, errors give Invalid, a single operand is returned as it is
    (src/filter.py 292-314, 332-382). *)
Definition combine (mk : list oper -> oper) (split_errs : list error) (os : list oper) (errs : list error)
  : pres :=
  match split_errs ++ errs, os with
  | [], [o] => (o, [])
  | [], _ :: _ => (mk os, [])
  | es, _ => (ONone, es)
  end.

(** _parse_op_and_exp (src/filter.py 316-382). *)
Definition parse_and_exp (strings : idict str) (groups complexes : idict pres) (exp : str) : res pres :=
  let (operands, split_errs) := split_operands ($"and") exp in
  let! (os, errs) := parse_operands (fun x => parse_not_exp x strings groups complexes) operands in
  Ok (combine OAnd split_errs os errs).

(** _parsed_op_or_exp (src/filter.py 276-314). *)
Definition parse_or_exp (strings : idict str) (groups complexes : idict pres) (exp : str) : res pres :=
  let (operands, split_errs) := split_operands ($"or") exp in
  let! (os, errs) := parse_operands (parse_and_exp strings groups complexes) operands in
  Ok (combine OOr split_errs os errs).

(** ** Groups *)

(** src/filter.py 221-256 *)
Definition lpar : ascii := "("%char.
(** src/filter.py 221-256 *)
Definition rpar : ascii := ")"%char.
(** src/filter.py 101-180 *)
Definition lbrk : ascii := "["%char.
(** src/filter.py 101-180 *)
Definition rbrk : ascii := "]"%char.

(** op_exp[a:b] (src/filter.py 221-256) *)
Definition slice (a b : nat) (s : str) : str := firstn (b - a) (skipn a s).

(** State of the group scan (src/filter.py 213-220). *)
Record gstate := mkG {
  g_ignore : bool;
  g_open : option nat;
  g_cnt : nat;
  g_ops : idict pres;
  g_text : str;
  g_errs : list error
}.

(** One character of the group scan (src/filter.py 221-253); [rec] parses the
    text inside the brackets, [full] is the scanned text. *)
Definition group_step (rec : str -> res pres) (full : str) (st : gstate) (e : nat * ascii) : res gstate :=
  let (i, c) := e in
  let ign := if chr_eqb c dquote then negb (g_ignore st) else g_ignore st in
  if ign then Ok (mkG ign (g_open st) (g_cnt st) (g_ops st) (g_text st) (g_errs st))
  else
    let '(op, cnt, errs) :=
      if chr_eqb c lpar then
        (match g_open st with None => Some i | o => o end, S (g_cnt st), g_errs st)
      else if chr_eqb c rpar then
        match g_open st with
        | Some o => (Some o, g_cnt st - 1, g_errs st)
        | None => (None, g_cnt st, g_errs st ++ [e_brackets])
        end
      else (g_open st, g_cnt st, g_errs st) in
    match op with
    | Some o =>
        if Nat.eqb cnt 0 then
          let exp := slice o (S i) full in
          let! p := rec (slice (S o) i full) in
          Ok (mkG ign None cnt (iset o p (g_ops st))
                  (replace_first (g_text st) exp (placeholder o)) errs)
        else Ok (mkG ign op cnt (g_ops st) (g_text st) errs)
    | None => Ok (mkG ign op cnt (g_ops st) (g_text st) errs)
    end.

(** _parse_operator (src/filter.py 207-274); recursion on the text inside
    brackets, bounded by [fuel]. *)
Fixpoint parse_operator (fuel : nat) (strings : idict str) (complexes : idict pres) (exp : str) : res pres :=
  match fuel with
  | O => Raise OutOfFuel
  | S f =>
      let! g := foldM (group_step (parse_operator f strings complexes) exp) (enumerate exp)
                      (mkG false None 0 [] exp []) in
      let errs := g_errs g ++ (match g_open g with Some _ => [e_brackets] | None => [] end) in
      let text := strip (g_text g) in
      let errs := errs ++ (match text with [] => [e_empty_filter] | _ => [] end) in
      match errs with
      | [] => parse_or_exp strings (g_ops g) complexes text
      | _ => Ok (ONone, errs)
      end
  end.

(** ** Complex attribute brackets *)

(** State of the first scan of Filter.parse (src/filter.py 95-100). *)
Record cstate := mkC {
  c_ignore : bool;
  c_open : option nat;
  c_name : str;
  c_ops : idict pres;
  c_text : str;
  c_errs : list error;
  c_break : bool
}.

(** Handling of "]" with an open bracket (src/filter.py 125-173): the entry for
    the complex operator. *)
Definition parse_complex (strings : idict str) (name sub : str) : res pres :=
  let r := parse_rep name in
  let errs := (match strip sub with [] => [e_empty_complex] | _ => [] end)
              ++ (match r with
                  | None => [e_bad_name]
                  | Some r => if nonempty (r_sub r) then [e_complex_sub] else []
                  end) in
  match errs, r with
  | [], Some r =>
      let! (o, errs') := parse_operator (S (length sub)) strings [] sub in
      match errs' with
      | [] => Ok (OComplex r o, [])
      | _ => Ok (ONone, errs')
      end
  | _, _ => Ok (ONone, errs)
  end.

(** One character of the first scan (src/filter.py 101-179). *)
Definition complex_step (strings : idict str) (full : str) (st : cstate) (e : nat * ascii) : res cstate :=
  let (i, c) := e in
  if c_break st then Ok st
  else
    let ign := if chr_eqb c dquote then negb (c_ignore st) else c_ignore st in
    let upd op name ops text errs brk := Ok (mkC ign op name ops text errs brk) in
    if ign then upd (c_open st) (c_name st) (c_ops st) (c_text st) (c_errs st) false
    else
      match c_open st with
      | None =>
          if is_word c || chr_eqb c colon || chr_eqb c dot
          then upd None (c_name st ++ [c]) (c_ops st) (c_text st) (c_errs st) false
          else if chr_eqb c lbrk
          then upd (Some i) (c_name st) (c_ops st) (c_text st) (c_errs st) false
          else if chr_eqb c rbrk
          then upd None [] (c_ops st) (c_text st) (c_errs st ++ [e_complex_brackets]) false
          else upd None [] (c_ops st) (c_text st) (c_errs st) false
      | Some o =>
          if chr_eqb c lbrk
          then upd (Some o) (c_name st) (c_ops st) (c_text st) (c_errs st ++ [e_inner_complex]) true
          else if chr_eqb c rbrk
          then
            let sub := slice (S o) i full in
            let start := o - length (c_name st) in
            let exp := c_name st ++ lbrk :: sub ++ [rbrk] in
            let! p := parse_complex strings (c_name st) sub in
            upd None [] (iset start p (c_ops st)) (replace_first (c_text st) exp (placeholder start))
                (c_errs st) false
          else upd (Some o) (c_name st) (c_ops st) (c_text st) (c_errs st) false
      end.

(** Filter.parse (src/filter.py 84-205): operator and errors. *)
Definition parse_filter_core (s : str) : res pres :=
  let (text, strings) := mask_strings s in
  let! st := foldM (complex_step strings text) (enumerate text) (mkC false None [] [] text [] false) in
  let errs := match c_errs st, c_open st with
              | [], Some (S _) => [e_complex_brackets]
              | es, _ => es
              end in
  match errs with
  | [] => parse_operator (S (length (c_text st))) strings (c_ops st) (c_text st)
  | _ => Ok (ONone, errs ++ flat_map (fun e => snd (snd e)) (c_ops st))
  end.

(** Filter.parse as a processing step: an operator without errors, or Invalid
    with the report (src/filter.py 85-206). *)
Definition parse_filter (s : str) : res outcome :=
  let! (o, errs) := parse_filter_core s in
  match errs with
  | [] => Ok (VFilter o, no_issues)
  | _ => Ok (VInvalid, iss_of errs)
  end.

(** ** Filter.to_dict and equality *)

(** operator.op (src/data/operator.py 327-465), for src/filter.py 671-702. *)
Definition binop_name (b : binop) : str :=
  match b with
  | OpEq => $"eq" | OpNe => $"ne" | OpCo => $"co" | OpSw => $"sw" | OpEw => $"ew"
  | OpGt => $"gt" | OpGe => $"ge" | OpLt => $"lt" | OpLe => $"le"
  end.

(** operator.attr_rep.sub_attr or operator.attr_rep.attr_with_schema
    (src/filter.py 671-702) *)
Definition rep_text (r : attr_rep) : str :=
  match r_sub r with [] => attr_with_schema r | s => s end.

(** Filter._to_dict (src/filter.py 669-704). *)
Fixpoint oper_to_dict (o : oper) : res value :=
  match o with
  | OPresent r => Ok (dict_of [($"op", VStr ($"pr")); ($"attr_rep", VStr (rep_text r))])
  | OBin b r l => Ok (dict_of [($"op", VStr (binop_name b)); ($"attr_rep", VStr (rep_text r));
                               ($"value", v_of_lit l)])
  | OComplex r s =>
      let! d := oper_to_dict s in
      Ok (dict_of [($"op", VStr ($"complex")); ($"attr_rep", VStr (rep_text r)); ($"sub_op", d)])
  | ONot s => let! d := oper_to_dict s in Ok (dict_of [($"op", VStr ($"not")); ($"sub_op", d)])
  | OAnd l | OOr l =>
      let! ds := (fix go (l : list oper) : res (list value) :=
                    match l with
                    | [] => Ok []
                    | s :: t => let! d := oper_to_dict s in let! ds := go t in Ok (d :: ds)
                    end) l in
      Ok (dict_of [($"op", VStr (match o with OAnd _ => $"and" | _ => $"or" end)); ($"sub_ops", VList ds)])
  | ONone => Raise TypeErr
  end.

(** Filter.__eq__ between filters (src/filter.py 661-664). *)
Definition filter_eq (a b : oper) : res bool :=
  let! x := oper_to_dict a in
  let! y := oper_to_dict b in
  veq (mk_cont x) (mk_cont y).
