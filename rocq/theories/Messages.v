(** Model of the messages of /repo/src/error.py: the templates (6-71), their
    filling by str.format (75), and the constructors of errors (79-287).  The
    rest of the model represents an error by its code and context (Issues.v);
    here are the texts. *)
From Verif Require Import PyBase Issues.

(** An argument of str.format: what str and repr give for it
    (src/error.py 75). *)
Record argument := mkArg { a_str : str; a_repr : str }.

(** Parts of a template: text, or a field with or without "!r"
    (src/error.py 6-71). *)
Inductive segment := Text (s : str) | Field (name : str) (quoted : bool).

(** The field between braces: a name, perhaps with a conversion.
    Simplification: format specifications, attributes and indices do not occur in
    the templates and are errors here (str.format, src/error.py 75). *)
Definition field_of (s : str) : res segment :=
  if existsb (Ascii.eqb "!") s then
    match rev s with
    | c :: b :: name =>
        if Ascii.eqb b "!" && Ascii.eqb c "r" && negb (existsb (Ascii.eqb "!") name) then Ok (Field (rev name) true) else Raise ValueErr
    | _ => Raise ValueErr
    end
  else Ok (Field s false).

(** The parts of a template; [acc] is the field being read
    (str.format, src/error.py 75). *)
Fixpoint segments (acc : option str) (s : str) : res (list segment) :=
  match acc, s with
  | None, [] => Ok []
  | None, c :: t =>
      if Ascii.eqb c "{" then
        match t with
        | d :: t' => if Ascii.eqb d "{" then let! r := segments None t' in Ok (Text ($"{") :: r) else segments (Some []) t
        | [] => Raise ValueErr
        end
      else if Ascii.eqb c "}" then
        match t with
        | d :: t' => if Ascii.eqb d "}" then let! r := segments None t' in Ok (Text ($"}") :: r) else Raise ValueErr
        | [] => Raise ValueErr
        end
      else let! r := segments None t in
           Ok (match r with Text x :: r' => Text (c :: x) :: r' | _ => Text [c] :: r end)
  | Some f, [] => Raise ValueErr
  | Some f, c :: t =>
      if Ascii.eqb c "}" then let! x := field_of (rev f) in let! r := segments None t in Ok (x :: r)
      else if Ascii.eqb c "{" then Raise ValueErr
      else segments (Some (c :: f)) t
  end.

(** The parts filled with the context; a field without argument is a KeyError
    (str.format, src/error.py 75). *)
Fixpoint fill (l : list segment) (ctx : list (str * argument)) : res str :=
  match l with
  | [] => Ok []
  | Text s :: l => let! r := fill l ctx in Ok (s ++ r)
  | Field n q :: l =>
      match aget str_eqb n ctx with
      | None => Raise KeyErr
      | Some a => let! r := fill l ctx in Ok ((if q then a_repr a else a_str a) ++ r)
      end
  end.

(** template.format( ** context) (src/error.py 75). *)
Definition format (s : str) (ctx : list (str * argument)) : res str := let! l := segments None s in fill l ctx.

(** _message_for_code (src/error.py 6-71). *)
Definition message_for_code : list (N * str) :=
  [(1%N, $"bad value syntax");
   (2%N, $"expected type '{expected}', got '{provided}' instead");
   (3%N, $"SCIM '{scim_type}' values are expected to be encoded in base 64");
   (7%N, $"'{keyword}' is SCIM reserved keyword that MUST NOT occur in a attribute value");
   (8%N, $"'{value}' is not a valid URL");
   (9%N, $"'primary' attribute, in multi-valued attribute item, set to 'True', MUST appear no more than once, but these items have it: {primary_entries}");
   (10%N, $"header '{header}' is required");
   (11%N, $"must be equal to {value!r}");
   (12%N, $"error status should be greater or equal to 300 and lesser than 600, but provided {provided}");
   (13%N, $"HTTP response status ({response_status}) and error status in body ({body_status}) must match");
   (14%N, $"value must be one of: {expected_values}, but provided '{provided}'");
   (15%N, $"missing");
   (16%N, $"bad status code, expecting '{expected}', but provided '{provided}'");
   (17%N, $"meta.resourceType must match configured type `{resource_type}`, but provided '{provided}'");
   (19%N, $"should not be returned");
   (21%N, $"too many results, must {must}");
   (22%N, $"total results ({total_results}) do not match number of resources ({n_resources})");
   (23%N, $"too little results, must {must}");
   (24%N, $"response value of {response_key!r} ({response_value}) does not correspond to query parameter {query_param_name!r} ({query_param_value}): {reason}");
   (25%N, $"resource included in the result, but does not match the filter");
   (26%N, $"resources are not sorted");
   (27%N, $"unknown schema");
   (28%N, $"main schema not included");
   (29%N, $"extension {extension!r} is missing");
   (30%N, $"can not be used together with {other!r}");
   (33%N, $"complex sub-attribute {sub_attr!r} of {attr!r} can not be complex");
   (34%N, $"resource type endpoint is required");
   (35%N, $"resource object endpoint is required");
   (36%N, $"unknown resource");
   (37%N, $"too many operations (max {max})");
   (38%N, $"too many errors (max {max})");
   (39%N, $"value or operation not supported");
   (100%N, $"one of brackets is not opened / closed");
   (102%N, $"one of complex attribute brackets is not opened / closed");
   (104%N, $"missing operand for operator '{operator}' in expression '{expression}'");
   (105%N, $"unknown {operator_type} operator '{operator}' in expression '{expression}'");
   (106%N, $"unknown expression '{expression}'");
   (107%N, $"no expression or empty expression inside grouping operator");
   (109%N, $"complex attribute can not contain inner complex attributes or square brackets");
   (110%N, $"complex attribute {attribute!r} has no expression");
   (111%N, $"attribute {attribute!r} does not conform the rules");
   (112%N, $"bad comparison value {value!r}");
   (113%N, $"comparison value {value!r} is not compatible with {operator!r} operator");
   (300%N, $"bad operation path");
   (303%N, $"unknown operation target");
   (304%N, $"attribute can not be modified");
   (305%N, $"can not use complex filter without sub-attribute specified for 'add' operation");
   (306%N, $"attribute can not be deleted")].

(** ValidationError.__init__ (src/error.py 73-77): the message. *)
Definition new_message (code : N) (ctx : list (str * argument)) : res str :=
  match aget N.eqb code message_for_code with None => Raise KeyErr | Some s => format s ctx end.

(** A text, and a number, as arguments; repr of a text is a parameter of the
    argument and so is not computed (src/error.py 75). *)
Definition joined_numbers (l : list nat) : str :=
  match l with [] => [] | n :: t => dec_of_nat n ++ concat (map (fun m => $", " ++ dec_of_nat m) t) end.

(** The calls of the constructors with their arguments (src/error.py 79-287). *)
Inductive call :=
| Call_bad_value_syntax (* 79-81 *)
| Call_bad_type (expected provided : argument) (* 83-85 *)
| Call_base_64_encoding_required (scim_type : argument) (* 87-89 *)
| Call_reserved_keyword (keyword : argument) (* 91-93 *)
| Call_bad_url (value : argument) (* 95-97 *)
| Call_multiple_primary_values (numbers : list nat) (quoted : str) (* 99-101 *)
| Call_missing_required_header (header : argument) (* 103-105 *)
| Call_must_be_equal_to (value : argument) (* 107-109 *)
| Call_bad_error_status (provided : argument) (* 111-113 *)
| Call_error_status_mismatch (response_status body_status : argument) (* 115-117 *)
| Call_must_be_one_of (expected_values provided : argument) (* 119-121 *)
| Call_missing (* 123-125 *)
| Call_bad_status_code (expected provided : argument) (* 127-129 *)
| Call_resource_type_mismatch (resource_type provided : argument) (* 131-133 *)
| Call_restricted_or_not_requested (* 135-137 *)
| Call_too_many_results (must : argument) (* 139-141 *)
| Call_total_results_mismatch (total_results n_resources : argument) (* 143-145 *)
| Call_too_little_results (must : argument) (* 147-149 *)
| Call_response_value_does_not_correspond_to_parameter (response_key response_value query_param_name query_param_value reason : argument) (* 151-167 *)
| Call_included_resource_does_not_match_filter (* 169-171 *)
| Call_resources_not_sorted (* 173-175 *)
| Call_unknown_schema (* 177-179 *)
| Call_missing_main_schema (* 181-183 *)
| Call_missing_schema_extension (extension : argument) (* 185-187 *)
| Call_can_not_be_used_together (other : argument) (* 189-191 *)
| Call_complex_sub_attribute (attr sub_attr : argument) (* 193-195 *)
| Call_resource_type_endpoint_required (* 197-199 *)
| Call_resource_object_endpoint_required (* 201-203 *)
| Call_unknown_resource (* 205-207 *)
| Call_too_many_operations (max_ : argument) (* 209-211 *)
| Call_too_many_errors (max_ : argument) (* 213-215 *)
| Call_not_supported (* 217-219 *)
| Call_bracket_not_opened_or_closed (* 221-223 *)
| Call_complex_attribute_bracket_not_opened_or_closed (* 225-227 *)
| Call_missing_operand_for_operator (operator expression : argument) (* 229-231 *)
| Call_unknown_operator (operator_type operator expression : argument) (* 233-240 *)
| Call_unknown_expression (expression : argument) (* 242-244 *)
| Call_empty_filter_expression (* 246-248 *)
| Call_inner_complex_attribute_or_square_bracket (* 250-252 *)
| Call_empty_complex_attribute_expression (attribute : argument) (* 254-256 *)
| Call_bad_attribute_name (attribute : argument) (* 258-260 *)
| Call_bad_comparison_value (value : argument) (* 262-264 *)
| Call_non_compatible_comparison_value (value operator : argument) (* 266-268 *)
| Call_bad_operation_path (* 270-272 *)
| Call_unknown_operation_target (* 274-276 *)
| Call_attribute_can_not_be_modified (* 278-280 *)
| Call_complex_filter_without_sub_attr_for_add_op (* 282-284 *)
| Call_attribute_can_not_be_deleted (* 286-288 *).

(** The code and the context of each call (src/error.py 79-287). *)
Definition call_code (c : call) : N :=
  match c with
  | Call_bad_value_syntax => 1
  | Call_bad_type _ _ => 2
  | Call_base_64_encoding_required _ => 3
  | Call_reserved_keyword _ => 7
  | Call_bad_url _ => 8
  | Call_multiple_primary_values _ _ => 9
  | Call_missing_required_header _ => 10
  | Call_must_be_equal_to _ => 11
  | Call_bad_error_status _ => 12
  | Call_error_status_mismatch _ _ => 13
  | Call_must_be_one_of _ _ => 14
  | Call_missing => 15
  | Call_bad_status_code _ _ => 16
  | Call_resource_type_mismatch _ _ => 17
  | Call_restricted_or_not_requested => 19
  | Call_too_many_results _ => 21
  | Call_total_results_mismatch _ _ => 22
  | Call_too_little_results _ => 23
  | Call_response_value_does_not_correspond_to_parameter _ _ _ _ _ => 24
  | Call_included_resource_does_not_match_filter => 25
  | Call_resources_not_sorted => 26
  | Call_unknown_schema => 27
  | Call_missing_main_schema => 28
  | Call_missing_schema_extension _ => 29
  | Call_can_not_be_used_together _ => 30
  | Call_complex_sub_attribute _ _ => 33
  | Call_resource_type_endpoint_required => 34
  | Call_resource_object_endpoint_required => 35
  | Call_unknown_resource => 36
  | Call_too_many_operations _ => 37
  | Call_too_many_errors _ => 38
  | Call_not_supported => 39
  | Call_bracket_not_opened_or_closed => 100
  | Call_complex_attribute_bracket_not_opened_or_closed => 102
  | Call_missing_operand_for_operator _ _ => 104
  | Call_unknown_operator _ _ _ => 105
  | Call_unknown_expression _ => 106
  | Call_empty_filter_expression => 107
  | Call_inner_complex_attribute_or_square_bracket => 109
  | Call_empty_complex_attribute_expression _ => 110
  | Call_bad_attribute_name _ => 111
  | Call_bad_comparison_value _ => 112
  | Call_non_compatible_comparison_value _ _ => 113
  | Call_bad_operation_path => 300
  | Call_unknown_operation_target => 303
  | Call_attribute_can_not_be_modified => 304
  | Call_complex_filter_without_sub_attr_for_add_op => 305
  | Call_attribute_can_not_be_deleted => 306
  end%N.
(** The context of each call (src/error.py 79-287). *)
Definition call_context (c : call) : list (str * argument) :=
  match c with
  | Call_bad_value_syntax => []
  | Call_bad_type expected provided => [($"expected", expected); ($"provided", provided)]
  | Call_base_64_encoding_required scim_type => [($"scim_type", scim_type)]
  | Call_reserved_keyword keyword => [($"keyword", keyword)]
  | Call_bad_url value => [($"value", value)]
  | Call_multiple_primary_values l q => [($"primary_entries", mkArg (joined_numbers l) q)]
  | Call_missing_required_header header => [($"header", header)]
  | Call_must_be_equal_to value => [($"value", value)]
  | Call_bad_error_status provided => [($"provided", provided)]
  | Call_error_status_mismatch response_status body_status => [($"response_status", response_status); ($"body_status", body_status)]
  | Call_must_be_one_of expected_values provided => [($"expected_values", expected_values); ($"provided", provided)]
  | Call_missing => []
  | Call_bad_status_code expected provided => [($"expected", expected); ($"provided", provided)]
  | Call_resource_type_mismatch resource_type provided => [($"resource_type", resource_type); ($"provided", provided)]
  | Call_restricted_or_not_requested => []
  | Call_too_many_results must => [($"must", must)]
  | Call_total_results_mismatch total_results n_resources => [($"total_results", total_results); ($"n_resources", n_resources)]
  | Call_too_little_results must => [($"must", must)]
  | Call_response_value_does_not_correspond_to_parameter response_key response_value query_param_name query_param_value reason => [($"response_key", response_key); ($"response_value", response_value); ($"query_param_name", query_param_name); ($"query_param_value", query_param_value); ($"reason", reason)]
  | Call_included_resource_does_not_match_filter => []
  | Call_resources_not_sorted => []
  | Call_unknown_schema => []
  | Call_missing_main_schema => []
  | Call_missing_schema_extension extension => [($"extension", extension)]
  | Call_can_not_be_used_together other => [($"other", other)]
  | Call_complex_sub_attribute attr sub_attr => [($"attr", attr); ($"sub_attr", sub_attr)]
  | Call_resource_type_endpoint_required => []
  | Call_resource_object_endpoint_required => []
  | Call_unknown_resource => []
  | Call_too_many_operations max_ => [($"max", max_)]
  | Call_too_many_errors max_ => [($"max", max_)]
  | Call_not_supported => []
  | Call_bracket_not_opened_or_closed => []
  | Call_complex_attribute_bracket_not_opened_or_closed => []
  | Call_missing_operand_for_operator operator expression => [($"operator", operator); ($"expression", expression)]
  | Call_unknown_operator operator_type operator expression => [($"operator_type", operator_type); ($"operator", operator); ($"expression", expression)]
  | Call_unknown_expression expression => [($"expression", expression)]
  | Call_empty_filter_expression => []
  | Call_inner_complex_attribute_or_square_bracket => []
  | Call_empty_complex_attribute_expression attribute => [($"attribute", attribute)]
  | Call_bad_attribute_name attribute => [($"attribute", attribute)]
  | Call_bad_comparison_value value => [($"value", value)]
  | Call_non_compatible_comparison_value value operator => [($"value", value); ($"operator", operator)]
  | Call_bad_operation_path => []
  | Call_unknown_operation_target => []
  | Call_attribute_can_not_be_modified => []
  | Call_complex_filter_without_sub_attr_for_add_op => []
  | Call_attribute_can_not_be_deleted => []
  end.

(** str(error) (src/error.py 298-299). *)
Definition message (c : call) : res str := new_message (call_code c) (call_context c).

(** error == error: the messages are equal (src/error.py 301-302). *)
Definition same_message (c d : call) : res bool :=
  let! m := message c in let! n := message d in Ok (str_eqb m n).
