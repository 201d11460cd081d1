{
 "claims": [
  {
   "property": "C01",
   "status": "proved",
   "theorems": [
    "C01_issues_kept",
    "C01_merge_exact"
   ],
   "note": "For every history of add and merge calls (nested merges included)."
  },
  {
   "property": "C02",
   "status": "proved",
   "theorems": [
    "C02_has_issues",
    "C02_has_issues_any"
   ],
   "note": ""
  },
  {
   "property": "C03",
   "status": "partial",
   "theorems": [
    "C03_can_proceed_refuted",
    "C03_can_proceed_partial",
    "C03_can_proceed_add_only_partial",
    "C03_can_proceed_actual",
    "C03_blocking_blocks",
    "C03_clean_path_proceeds"
   ],
   "note": "False in general: merging a report makes its non-blocking issues blocking (refuted with a witness). Proved exactly when merged reports hold blocking issues only, and the exact actual behaviour is proved for all histories."
  },
  {
   "property": "C04",
   "status": "partial",
   "theorems": [
    "C04_get_exact",
    "C04_get_has_issues",
    "C04_get_can_proceed",
    "C04_get_merge_refuted",
    "C04_get_merge_partial"
   ],
   "note": "get is exact for all histories. The get-then-merge half is refuted (KeyError when the extract holds a location without blocking entry) and proved under the exact condition."
  },
  {
   "property": "C05",
   "status": "partial",
   "theorems": [
    "C05_pop_refuted",
    "C05_pop_partial",
    "C05_pop_blocking",
    "C05_pop_absent"
   ],
   "note": "Refuted for neighbouring issues with the same code (the second is skipped); proved for all reports without such neighbours; blocking state after pop proved for all."
  },
  {
   "property": "C06",
   "status": "proved",
   "theorems": [
    "C06_to_dict_exact",
    "C06_to_dict_complete"
   ],
   "note": "Exact list per location when rendered locations do not collide; completeness and soundness without that assumption. A location part named \"_errors\" is outside the model."
  },
  {
   "property": "C07",
   "status": "proved",
   "theorems": [
    "C07_parse_exact",
    "C07_parse_accepts",
    "C07_split_unique",
    "C07_constructor"
   ],
   "note": ""
  },
  {
   "property": "C08",
   "status": "partial",
   "theorems": [
    "C08_parse_then_print",
    "C08_print_then_parse",
    "C08_constructor_round_trip_refuted"
   ],
   "note": "parse/print round trips proved both ways; the constructor accepts a sub-attribute \"$ref\" that parse rejects (refuted)."
  },
  {
   "property": "C09",
   "status": "partial",
   "theorems": [
    "C09_equality_exact",
    "C09_equality_refl",
    "C09_equality_sym",
    "C09_equality_case",
    "C09_equality_trans_refuted",
    "C09_equality_trans_partial",
    "C09_top_level"
   ],
   "note": "Exact, reflexive and symmetric for all names; transitivity refuted (a name without schema is a wildcard) and proved without that pattern."
  },
  {
   "property": "C10",
   "status": "proved",
   "theorems": [
    "C10_load_dump",
    "C10_load_injective"
   ],
   "note": "Stronger than claimed: key case does not matter, only that keys are distinct strings."
  },
  {
   "property": "C11",
   "status": "partial",
   "theorems": [
    "C11_case_insensitive",
    "C11_read_after_write_refuted",
    "C11_plain_partial",
    "C11_sub_partial",
    "C11_list_overlay",
    "C11_extension_partial",
    "C11_extension_spelling_refuted"
   ],
   "note": "Refuted when the schema of an unflagged name is itself a stored key, and for extension spelling (KeyError); proved for plain, sub-attribute, list and extension writes under exactly those exclusions; case-insensitivity proved."
  },
  {
   "property": "C12",
   "status": "partial",
   "theorems": [
    "C12_frame_refuted",
    "C12_other_attribute_partial",
    "C12_other_sub_attribute_partial",
    "C12_other_schema_partial",
    "C12_same_schema_partial"
   ],
   "note": "Refuted when a write creates an extension (reads fell back to the top level before); proved for all other cases."
  },
  {
   "property": "C13",
   "status": "proved",
   "theorems": [
    "C13_deleted_reads_nothing",
    "C13_deleted_is_missing",
    "C13_absent",
    "C13_other_attribute",
    "C13_other_sub_attribute",
    "C13_other_schema",
    "C13_same_schema"
   ],
   "note": ""
  },
  {
   "property": "C14",
   "status": "proved",
   "theorems": [
    "C14_reads_find_their_data",
    "C14_deletions_find_their_data",
    "C14_index_points_at_data",
    "C14_data_reachable_refuted"
   ],
   "note": "Reads and deletions; the converse (all stored data is reachable) is refuted."
  },
  {
   "property": "C15",
   "status": "partial",
   "theorems": [
    "C15_reflexive_refuted",
    "C15_symmetric_refuted",
    "C15_total_refuted",
    "C15_exact_partial",
    "C15_both_ways_partial",
    "C15_reflexive_partial"
   ],
   "note": "Reflexivity, symmetry and totality refuted; on clean documents == is decided exactly and equality both ways is document equality."
  },
  {
   "property": "C16",
   "status": "proved",
   "theorems": [
    "C16_exact_type",
    "C16_external_reference"
   ],
   "note": "External references are judged relative to the URL recogniser env_abs_url (urllib.parse)."
  },
  {
   "property": "C17",
   "status": "partial",
   "theorems": [
    "C17_integer_total_refuted",
    "C17_integer_bool_refuted",
    "C17_integer_unchanged",
    "C17_integer_float",
    "C17_integer_other",
    "C17_decimal_total_refuted",
    "C17_decimal_int",
    "C17_decimal_int_exact",
    "C17_decimal_float",
    "C17_decimal_other"
   ],
   "note": "Refuted: infinities, NaN and huge integers raise, and booleans are accepted; everything else proved, integers becoming a nearest double."
  },
  {
   "property": "C18",
   "status": "partial",
   "theorems": [
    "C18_total_refuted",
    "C18_accepts_canonical",
    "C18_rejects_others",
    "C18_canonical_is_encoding",
    "C18_not_text"
   ],
   "note": "Refuted for text outside ASCII, which raises; everything else proved."
  },
  {
   "property": "C19",
   "status": "proved",
   "theorems": [
    "C19_parse_exact",
    "C19_parse_dump",
    "C19_python"
   ],
   "note": "Proved for all functions datetime.fromisoformat and isoformat could be (C19_parse_exact, C19_parse_dump), and with both computed as in Python 3.11, where the way back needs no condition (C19_python)."
  },
  {
   "property": "C20",
   "status": "proved",
   "theorems": [
    "C20_reported_there",
    "C20_reported_below",
    "C20_silent_is_clean",
    "C20_builtin"
   ],
   "note": "For every attribute whose custom processors report what they reject; attributes without custom processors always qualify."
  },
  {
   "property": "C21",
   "status": "partial",
   "theorems": [
    "C21_enforced",
    "C21_enforced_item",
    "C21_ignored",
    "C21_schema_bound_refuted"
   ],
   "note": "Proved for the attribute itself; refuted for attributes bound to a schema, where the validation flag is dropped."
  },
  {
   "property": "C22",
   "status": "proved",
   "theorems": [
    "C22_items",
    "C22_total"
   ],
   "note": ""
  },
  {
   "property": "C23",
   "status": "proved",
   "theorems": [
    "C23_single_primary",
    "C23_marked_inputs"
   ],
   "note": "Stated on the parsed items and, for a Boolean \"primary\" sub-attribute, on the input items."
  },
  {
   "property": "C24",
   "status": "partial",
   "theorems": [
    "C24_declared_only_partial",
    "C24_items_partial",
    "C24_empty_key_refuted"
   ],
   "note": "Refuted for documents with the key \"\" (its content is read instead); proved for all others, single- and multi-valued."
  },
  {
   "property": "C25",
   "status": "partial",
   "theorems": [
    "C25_known_only_partial",
    "C25_extension_fallback_refuted"
   ],
   "note": "Proved for every schema the constructors build from plain distinct attribute names and every document that does not use the schema URI or \"\" as a key and keeps extension attributes inside the extension object. Refuted without the last condition: an extension attribute is read from the top level when the extension object is absent."
  },
  {
   "property": "C26",
   "status": "partial",
   "theorems": [
    "C26_schemas_field_partial",
    "C26_required_refuted"
   ],
   "note": "The three reports are proved exactly; the claim about required extensions is refuted (the flag is never enforced)."
  },
  {
   "property": "C27",
   "status": "partial",
   "theorems": [
    "C27_never_raises_partial",
    "C27_never_raises_refuted"
   ],
   "note": "Proved for attributes whose custom processors do not raise and documents of the stated shape (texts in \"schemas\", objects under extension URIs, numbers and texts a scalar type can convert). Refuted for arbitrary JSON documents with three kinds of witness."
  },
  {
   "property": "C28",
   "status": "partial",
   "theorems": [
    "C28_only_adds",
    "C28_refuses_partial",
    "C28_duplicate_refuted"
   ],
   "note": "Additions and preservation proved in full; refusal proved for lower-case URIs and refuted for URIs with capitals."
  },
  {
   "property": "C29",
   "status": "proved",
   "theorems": [
    "C29_only_requested",
    "C29_top_level"
   ],
   "note": "For every schema the constructors build; stated for every inspected place and, for top-level attributes of regular documents, in terms of what the document holds."
  },
  {
   "property": "C30",
   "status": "proved",
   "theorems": [
    "C30_missing_iff",
    "C30_nothing_else",
    "C30_top_level"
   ],
   "note": "As C29; nothing but the two kinds of issue is ever reported."
  },
  {
   "property": "C31",
   "status": "proved",
   "theorems": [
    "C31_selection"
   ],
   "note": ""
  },
  {
   "property": "C32",
   "status": "partial",
   "theorems": [
    "C32_order_partial",
    "C32_calm_partial",
    "C32_nesting",
    "C32_order_refuted"
   ],
   "note": "Nesting is proved exactly. Reordering is proved whenever both orders return, which they do if no operand raises; refuted for operands that raise, because evaluation stops early."
  },
  {
   "property": "C33",
   "status": "partial",
   "theorems": [
    "C33_two_valued",
    "C33_and",
    "C33_or_partial",
    "C33_or_sound",
    "C33_not_partial",
    "C33_truth_refuted"
   ],
   "note": "\"and\" proved in full; \"or\" and \"not\" proved when the operands raise nothing, and refuted otherwise (a \"pr\" test on a multi-valued complex attribute raises)."
  },
  {
   "property": "C34",
   "status": "partial",
   "theorems": [
    "C34_never_match_partial",
    "C34_and_ignores",
    "C34_never_match_refuted"
   ],
   "note": "Proved for single conditions, their negations and disjunctions of these; refuted for conjunctions, which ignore such a condition, and for negated disjunctions."
  },
  {
   "property": "C35",
   "status": "partial",
   "theorems": [
    "C35_lenient_partial",
    "C35_lenient_modes",
    "C35_leaf",
    "C35_lenient_refuted"
   ],
   "note": "Proved whenever evaluation in lenient mode returns; refuted otherwise, because lenient evaluation can reach an operand that raises."
  },
  {
   "property": "C36",
   "status": "partial",
   "theorems": [
    "C36_compare_partial",
    "C36_complex_partial",
    "C36_compare_refuted"
   ],
   "note": "Proved for texts, numbers and moments the operator can compare, single values, lists and multi-valued complex attributes; refuted for a text compared with a number by an order operator, which raises."
  },
  {
   "property": "C37",
   "status": "partial",
   "theorems": [
    "C37_consistent_partial",
    "C37_consistent_refuted"
   ],
   "note": "Proved at the level of filters for texts, numbers and moments of one kind; refuted for NaN."
  },
  {
   "property": "C38",
   "status": "partial",
   "theorems": [
    "C38_same_item",
    "C38_lenient_partial",
    "C38_lenient_refuted"
   ],
   "note": "Proved in strict mode; lenient mode is characterised exactly, and there the claim is refuted by the empty list."
  },
  {
   "property": "C39",
   "status": "partial",
   "theorems": [
    "C39_terminates_partial",
    "C39_overflow_refuted"
   ],
   "note": "The parser ends on every string, with a result and a report or with OverflowError (numbers out of the range of floats, infinity); that it always returns is refuted by a witness."
  },
  {
   "property": "C40",
   "status": "proved",
   "theorems": [
    "C40_result"
   ],
   "note": "Either a filter without holes and an empty report, or Invalid and a report with blocking errors at the root."
  },
  {
   "property": "C41",
   "status": "partial",
   "theorems": [
    "C41_round_trip_partial",
    "C41_printable_partial",
    "C41_crowded_refuted"
   ],
   "note": "Proved for every expression without a level that has both a parenthesised group and a bracketed attribute, and for every filter that can be written without brackets; the unrestricted claim is refuted by a witness (placeholder numbers collide)."
  },
  {
   "property": "C42",
   "status": "proved",
   "theorems": [
    "C42_precedence"
   ],
   "note": "Any sequence of conditions and bracketed attributes, each optionally negated."
  },
  {
   "property": "C43",
   "status": "partial",
   "theorems": [
    "C43_contents_partial",
    "C43_stored",
    "C43_contents_refuted"
   ],
   "note": "Storage of a literal in a single comparison proved for all contents; independence of the structure proved for all separated expressions; the unrestricted claim is refuted by a witness."
  },
  {
   "property": "C44",
   "status": "partial",
   "theorems": [
    "C44_constants",
    "C44_integers_partial",
    "C44_decimals",
    "C44_overflow",
    "C44_rejected_partial",
    "C44_infinity_partial",
    "C44_literals_refuted"
   ],
   "note": "Constants, integers up to 2^53, all decimal numerals, overflow and rejection of every other word (without underscores); \"never raises\", exactness beyond 2^53 and rejection of grouped digits are refuted by witnesses."
  },
  {
   "property": "C45",
   "status": "partial",
   "theorems": [
    "C45_decides_partial",
    "C45_equivalence_partial",
    "C45_meaning_partial",
    "C45_parsed",
    "C45_sub_attributes_refuted"
   ],
   "note": "Proved for operators without sub-attribute names, which include every parsed filter; refuted by a witness for operators built by hand with sub-attribute names."
  },
  {
   "property": "C46",
   "status": "partial",
   "theorems": [
    "C46_permutation",
    "C46_sorted_partial",
    "C46_unknown",
    "C46_times_refuted",
    "C46_empty_list_refuted",
    "C46_many_schemas_refuted"
   ],
   "note": "Permutation holds for all data and schemas. Order and stability (both directions, letter case by caseExact) hold when all resources share one schema and their values are of one kind. Refuted in full: dateTime texts are not sorted, an empty list raises IndexError, and with several schemas a resource may be keyed by the schema of an equal-looking one."
  },
  {
   "property": "C47",
   "status": "partial",
   "theorems": [
    "C47_valueless_partial",
    "C47_no_values",
    "C47_false_refuted"
   ],
   "note": "Holds for one schema and any values, whenever sorting succeeds; without any value the data is unchanged for all schemas. Refuted in full: False and 0 count as no value."
  },
  {
   "property": "C48",
   "status": "partial",
   "theorems": [
    "C48_idempotent_partial",
    "C48_sorted_accepted_partial",
    "C48_unsorted_reported_partial",
    "C48_times_refuted"
   ],
   "note": "Idempotence for one schema and sort values that are not lists. An ordered response is accepted, an unordered one is reported, for plain documents sorted by an attribute that is not complex. Refuted in full: times in the wrong order are accepted."
  },
  {
   "property": "C49",
   "status": "partial",
   "theorems": [
    "C49_accepted_partial",
    "C49_name",
    "C49_bracket_partial",
    "C49_result",
    "C49_crash_refuted",
    "C49_forms_refuted"
   ],
   "note": "C49_accepted_partial characterises the accepted texts and their parts exactly, for texts with balanced quotes and without | and & (the characters of the internal marks). C49_name holds for all names; C49_bracket_partial for bracketed filters with a meaning. C49_result holds for every text: a well-formed path without issues, or Invalid with an issue, or one of three exceptions. The full claim is false: C49_crash_refuted (\"not emails[type pr]\" raises AttributeError) and C49_forms_refuted (\"emails[type pr]value\" is accepted). Missing: the exact set of accepted texts holding | or & or unbalanced quotes."
  },
  {
   "property": "C50",
   "status": "partial",
   "theorems": [
    "C50_path_partial",
    "C50_parsed_value",
    "C50_value_partial",
    "C50_sub_value",
    "C50_independent",
    "C50_located",
    "C50_parent_refuted",
    "C50_multi_value_refuted",
    "C50_letter_case_refuted",
    "C50_plain_value_refuted"
   ],
   "note": "For every schema built by the constructors and every well-shaped list of operations: add/replace through a path to a read-only attribute or sub-attribute is reported at the value of that operation and nothing else is (C50_path_partial); without a path every read-only attribute or sub-attribute found in the parsed value is reported at its place (C50_parsed_value), hence every read-only top-level attribute of a regular document whose processors do not erase it (C50_value_partial); read-only sub-attributes in the value for a single-valued complex attribute are reported (C50_sub_value); operations do not influence each other (C50_independent) and every report belongs to an operation (C50_located). Removal of read-only targets is C51. The full statement is false: a changeable sub-attribute of a read-only attribute is not protected (C50_parent_refuted), nor a read-only sub-attribute in a value for a multi-valued attribute (C50_multi_value_refuted); an operation name in other letter case or a non-object value crash the parse (C50_letter_case_refuted, C50_plain_value_refuted)."
  },
  {
   "property": "C51",
   "status": "partial",
   "theorems": [
    "C51_remove_partial",
    "C51_remove_sub",
    "C51_accepted",
    "C51_unknown",
    "C51_complex_refuted"
   ],
   "note": "For every schema built by the constructors and every path: an exact account of what is reported for a remove of a known attribute (C51_remove_partial) or sub-attribute behind a filter (C51_remove_sub): not deletable iff required (and, for attributes, not complex), not modifiable iff read-only, nothing else; deletable targets are accepted (C51_accepted), unknown ones refused (C51_unknown). The full statement is false: a required complex attribute can be removed (C51_complex_refuted), and read-only targets are reported as not modifiable instead of not deletable (part of C51_remove_partial)."
  },
  {
   "property": "C52",
   "status": "partial",
   "theorems": [
    "C52_request_limit_partial",
    "C52_response_limit_partial",
    "C52_response_uncounted_refuted",
    "C52_request_case_refuted",
    "C52_no_limit_refuted"
   ],
   "note": "Proved as an equivalence for every answered bulk request (more operations than the limit iff reported) and for every answered bulk response with a non-negative limit, counting the operations that have a method, a status of 300 or more and a response. Message documents must not use the message's own URI as a key, operations no empty key. The full claim is false: operations that failed with nothing but a status are not counted (C52_response_uncounted_refuted), an operation whose method is not in capital letters makes the request raise KeyError (C52_request_case_refuted), and without a configured limit every request raises TypeError (C52_no_limit_refuted)."
  },
  {
   "property": "C53",
   "status": "partial",
   "theorems": [
    "C53_body_partial",
    "C53_no_body",
    "C53_get_refuted"
   ],
   "note": "proved for POST, PUT, PATCH, search and bulk requests and for resource, error, list and bulk responses, for every schema the constructors build; a GET request returns the body it came with even when the query is faulty (C53_get_refuted)"
  },
  {
   "property": "C54",
   "status": "partial",
   "theorems": [
    "C54_no_read_only_partial",
    "C54_reads_nothing_partial",
    "C54_others_kept_partial",
    "C54_writable_kept_refuted"
   ],
   "note": "Proved for every schema built by the constructors whose attribute names are not URIs of the schema and whose own parsers either keep the value or call it invalid: the returned body stores no value under any read-only attribute or sub-attribute, also inside items (C54_no_read_only_partial), reading one through the container API finds nothing (C54_reads_nothing_partial), and everything that does not share a name with a read-only attribute is kept (C54_others_kept_partial). Required read-only attributes are removed too, so the exception of the statement is not needed. What is missing: the schemas excluded above. The natural converse, that a writable attribute is never lost, is false: removing a read-only extension attribute removes the core attribute of the same name when the extension object is empty (C54_writable_kept_refuted)."
  },
  {
   "property": "C55",
   "status": "partial",
   "theorems": [
    "C55_status",
    "C55_location",
    "C55_header_missing",
    "C55_error_partial",
    "C55_error_range_partial",
    "C55_error_range_refuted",
    "C55_empty_body_refuted"
   ],
   "note": "statuses, headers and meta.location proved exactly for responses that carry a resource; the error range that is checked is 200..599 instead of 300..599 (C55_error_range_refuted); a creation response with an empty body is not checked (C55_empty_body_refuted)"
  },
  {
   "property": "C56",
   "status": "partial",
   "theorems": [
    "C56_only_broken_rules",
    "C56_page_size_partial",
    "C56_start_index_partial",
    "C56_other_rules_partial",
    "C56_page_size_hides_refuted",
    "C56_start_index_hides_refuted",
    "C56_no_resources_refuted",
    "C56_start_zero_refuted",
    "C56_later_page_refuted"
   ],
   "note": "Everything reported about the numbers of a list response is called for by a broken pagination rule; a wrong page size (with resources present) and a wrong start index (for a non-negative requested index) are always reported; when these two rules are kept, whatever the other rules call for is reported. The full claim is false: a wrong page size or start index hides other broken rules, the page size is not checked without Resources, start index 0 is never compared, and a later page without count is reported as too small (five _refuted theorems)."
  },
  {
   "property": "C57",
   "status": "partial",
   "theorems": [
    "C57_mismatch_iff_partial",
    "C57_one_schema_partial",
    "C57_not_applied_refuted"
   ],
   "note": "Proved as stated when the numbers are right, the resources are dumped without complaint and the filter can be applied to all of them; for any set of schemas and in a simpler form for one schema. The full claim is false: when the filter raises on one resource no resource is reported (C57_not_applied_refuted)."
  },
  {
   "property": "C58",
   "status": "proved",
   "theorems": [
    "C58_faults",
    "C58_others",
    "C58_located"
   ],
   "note": "For every schema made by the constructors and every list of operations with readable paths, when the parse does not raise."
  },
  {
   "property": "C59",
   "status": "proved",
   "theorems": [
    "C59_count",
    "C59_remove",
    "C59_path",
    "C59_whole"
   ],
   "note": "For every schema made by the constructors and every list of operations with readable paths, when the parse does not raise. Without path the field \"schemas\" is not required in the value."
  },
  {
   "property": "C60",
   "status": "proved",
   "theorems": [
    "C60_faults",
    "C60_unknown",
    "C60_like_alone",
    "C60_delete",
    "C60_nothing_else"
   ],
   "note": "For every set of schemas made by the constructors and every non-empty list of operations in the usual form with one of the five methods in upper case, when the parse does not raise. With another method the parse raises KeyError, see C52_request_case_refuted."
  },
  {
   "property": "C61",
   "status": "proved",
   "theorems": [
    "C61_kept"
   ],
   "note": "Scope as for C60. The data of an accepted GET operation is the parsed body of a GET request, the value \"missing\" (ex_C61)."
  },
  {
   "property": "C62",
   "status": "partial",
   "theorems": [
    "C62_filter",
    "C62_no_filter",
    "C62_sorter",
    "C62_bad_sorter",
    "C62_no_sorter",
    "C62_texts",
    "C62_attributes_partial",
    "C62_both_attributes",
    "C62_no_attributes",
    "C62_numbers_partial",
    "C62_given_numbers",
    "C62_rest",
    "C62_nothing_else",
    "C62_no_query",
    "C62_config",
    "C62_sort_order_refuted",
    "C62_excluded_refuted",
    "C62_empty_refuted",
    "C62_loose_numbers_refuted",
    "C62_raises_refuted"
   ],
   "note": "Proved parameter by parameter for every dictionary of parameters, when the parse does not raise; numerals must be free of white space and underscores, selections non-empty. The full claim is false: an unknown sortOrder is taken as descending without report (C62_sort_order_refuted), excludedAttributes of RFC 7644 is not known (C62_excluded_refuted), an empty selection yields an unusable checker without report (C62_empty_refuted), texts like \" 1_0\" and fractions pass as whole numbers (C62_loose_numbers_refuted), and a number given as list raises TypeError (C62_raises_refuted)."
  },
  {
   "property": "C63",
   "status": "partial",
   "theorems": [
    "C63_names",
    "C63_selection",
    "C63_filter",
    "C63_sort",
    "C63_no_sort",
    "C63_order",
    "C63_numbers",
    "C63_nothing_else",
    "C63_direction_refuted",
    "C63_order_refuted",
    "C63_exclude_refuted",
    "C63_excluded_refuted"
   ],
   "note": "Proved field by field for every document, with the fields given as the kind of value they should be. The full claim is false: the sorter always sorts in descending order (C63_direction_refuted), an unknown sortOrder is not reported (C63_order_refuted), attributes to leave out are forgotten (C63_exclude_refuted), and excludedAttributes of RFC 7644 is not known (C63_excluded_refuted)."
  },
  {
   "property": "C64",
   "status": "partial",
   "theorems": [
    "C64_defined",
    "C64_accepted_partial",
    "C64_representation_partial",
    "C64_extension_partial",
    "C64_accepted_refuted",
    "C64_defined_refuted",
    "C64_description_refuted",
    "C64_canonical_refuted",
    "C64_own_refuted"
   ],
   "note": "Proved for every schema whose attributes all have a type other than decimal; that a representation exists exactly when all have a type is proved in full. False beyond that: the schema of schemas rejects decimal attributes, which RFC 7643 allows (C64_accepted_refuted), an attribute of any type makes the representation fail (C64_defined_refuted), descriptions are lost (C64_description_refuted), canonical values are told in lower case (C64_canonical_refuted), and the attributes of extensions are told as the schema's own (C64_own_refuted)."
  },
  {
   "property": "C65",
   "status": "partial",
   "theorems": [
    "C65_quiet",
    "C65_failed",
    "C65_like_alone_partial",
    "C65_nothing_else",
    "C65_delete_refuted",
    "C65_unknown_refuted",
    "C65_hidden_refuted"
   ],
   "note": "Proved for every list of operations with one of the five methods in upper case, a status that is a number and a location that is a URL where they have these, and schemas with distinct plural names, when the dump does not raise. At response.meta.location the equivalence assumes that the single response does not report two code-11 errors in a row there. False beyond that: the status of a single response is not reported for an operation (C66_dropped_refuted), a deletion with a response makes the dump fail (C65_delete_refuted), a response at an unknown location is judged by the last schema (C65_unknown_refuted), and a status that is no number hides all faults of other operations (C65_hidden_refuted)."
  },
  {
   "property": "C66",
   "status": "partial",
   "theorems": [
    "C66_kept",
    "C66_dropped_refuted"
   ],
   "note": "What is kept is proved for every accepted operation, scope as for C65. It is not always the response: one whose single response would be reported for its status only is accepted and replaced by None (C66_dropped_refuted)."
  },
  {
   "property": "C67",
   "status": "partial",
   "theorems": [
    "C67_own",
    "C67_like_alone",
    "C67_only",
    "C67_hidden_refuted",
    "C67_numbers_hide_refuted",
    "C67_raises_refuted"
   ],
   "note": "Proved for every list response that is a document with numbers in the number fields and a list of resources, when the dump does not raise; with several schemas, for resources that do not use schema URIs as keys in a confusing way. When a resource has a fault of its own or the numbers are wrong, exactly the faults of their own are reported (C67_own); otherwise exactly what the response with the resource alone reports (C67_like_alone). False in between: another resource's fault or wrong numbers hide missing attributes (C67_hidden_refuted, C67_numbers_hide_refuted), and an object among the schemas of a resource raises (C67_raises_refuted)."
  },
  {
   "property": "C68",
   "status": "proved",
   "theorems": [
    "C68_kept"
   ],
   "note": "For every list response as in C67 about which nothing is reported."
  },
  {
   "property": "C69",
   "status": "partial",
   "theorems": [
    "C69_refused_iff",
    "C69_kept",
    "C69_unknown_refused",
    "C69_unlimited_never_kept",
    "C69_enforced_partial",
    "C69_negative_refuted",
    "C69_no_number_refuted",
    "C69_default_raises_refuted"
   ],
   "note": "Proved: which configurations are refused (C69_refused_iff), that accepted ones hold what they were given (C69_kept) and nothing unknown (C69_unknown_refused), that no bulk request is accepted without a limit (C69_unlimited_never_kept), and that a limit of operations, if it is a number, is the one enforced (C69_enforced_partial). What fails of the full claim, that limits are limits and that a bulk request is answered when bulk operations are not supported: a negative number and a text are accepted as limits (C69_negative_refuted, C69_no_number_refuted), and under the default configuration a bulk request raises TypeError instead of being reported (C69_default_raises_refuted)."
  },
  {
   "property": "C70",
   "status": "partial",
   "theorems": [
    "C70_attr_partial",
    "C70_schema_partial",
    "C70_dates_refuted",
    "C70_shared_refuted"
   ],
   "note": "Proved for attributes (C70_attr_partial) and documents (C70_schema_partial) whose processors only judge, which holds for the shipped resource schemas (user_steady, group_steady), for values without dates and schemas whose extensions share no name with the core. Both conditions are needed: a date that was read is reported when it is read again (C70_dates_refuted), and an attribute of an extension picks up the value of the core attribute of the same name (C70_shared_refuted)."
  },
  {
   "property": "C71",
   "status": "partial",
   "theorems": [
    "C71_attr",
    "C71_schema_partial",
    "C71_resource_partial"
   ],
   "note": "Proved for attributes (C71_attr), documents (C71_schema_partial) and resources (C71_resource_partial, at most a wrong meta.resourceType is reported) with the same conditions as in C70 except that dates are allowed. Missing: schemas with processors that change values, such as filters and paths, and shared names, for which C70_shared_refuted shows that it is false."
  },
  {
   "property": "C72",
   "status": "partial",
   "theorems": [
    "C72_attr",
    "C72_dump",
    "C72_wire_partial",
    "C72_untyped_refuted",
    "C72_shared_refuted"
   ],
   "note": "Proved for dumped attributes and resources (C72_attr, C72_dump), and for the whole way from a document to JSON and back (C72_wire_partial) with the conditions of C71. Types are needed: an attribute left without one passes a date on (C72_untyped_refuted). Shared names are excluded: with them another resource comes back (C72_shared_refuted). The JSON text itself (json.dumps, json.loads) is not modelled."
  },
  {
   "property": "C73",
   "status": "partial",
   "theorems": [
    "C73_read",
    "C73_dump",
    "C73_back",
    "C73_wire",
    "C73_only_refuted",
    "C73_stray_refuted",
    "C73_midnight_refuted",
    "C73_seconds_refuted"
   ],
   "note": "Proved for the computed model of Python 3.11's fromisoformat and isoformat: reading (C73_read), dumping (C73_dump), reading back whatever was read (C73_back), and with it C72 without its condition about dates (C73_wire). Refuted: other texts than xsd:dateTime are read (C73_only_refuted, C73_stray_refuted); hour 24 is not (C73_midnight_refuted); offsets with seconds are dumped as texts that are no xsd:dateTime (C73_seconds_refuted)."
  },
  {
   "property": "C74",
   "status": "partial",
   "theorems": [
    "C74_accepts",
    "C74_only",
    "C74_shape",
    "C74_breaks_refuted",
    "C74_exact",
    "C74_brackets_refuted"
   ],
   "note": "Proved for the computed model of Python 3.11's urlparse: exactly which texts are accepted, hosts in brackets included (C74_exact; C74_accepts, C74_only and C74_shape are simpler consequences). The claim itself is refuted: texts with line breaks and spaces are accepted and kept (C74_breaks_refuted), and brackets need not be closed (C74_brackets_refuted)."
  },
  {
   "property": "C75",
   "status": "partial",
   "theorems": [
    "C75_message",
    "C75_codes",
    "C75_codes_refuted",
    "C75_arguments_refuted"
   ],
   "note": "Proved: every message is its template filled in, with every argument shown (C75_message); with the arguments the library passes, equal messages mean equal codes (C75_codes). Refuted: for arbitrary arguments of the constructors (C75_codes_refuted); that equal messages are about equal arguments (C75_arguments_refuted)."
  },
  {
   "property": "C76",
   "status": "partial",
   "theorems": [
    "C76_value",
    "C76_document_partial",
    "C76_result_partial",
    "C76_shared_refuted"
   ],
   "note": "Proved for single attributes without further condition than that their processors only judge (C76_value), and for documents that are regular -- no extension attribute can be mistaken for a core attribute -- both ways (C76_document_partial), with what the result holds (C76_result_partial). Without regularity the claim is refuted (C76_shared_refuted): an extension attribute absent from the document is read from the core attribute of the same name, and the extension is then missed in \"schemas\"."
  },
  {
   "property": "C77",
   "status": "partial",
   "theorems": [
    "C77_served_partial",
    "C77_one_partial",
    "C77_request",
    "C77_served_refuted"
   ],
   "note": "Proved for schemas without decimal attributes, for lists and single schemas (C77_served_partial, C77_one_partial), and for requests (C77_request). Refuted in general: one schema with a decimal attribute and the whole list is rejected (C77_served_refuted)."
  },
  {
   "property": "C78",
   "status": "partial",
   "theorems": [
    "C78_config_partial",
    "C78_types",
    "C78_documentation_refuted",
    "C78_unlimited_refuted"
   ],
   "note": "Proved for resource types without restriction but that required texts are not empty (C78_types) and for configurations with all limits stated (C78_config_partial). Refuted: the documentation of an authentication scheme is dropped silently because its attribute is declared as a second specUri (C78_documentation_refuted); the configuration of a server without bulk operations and filters, as create_service_provider_config makes it, is rejected (C78_unlimited_refuted)."
  },
  {
   "property": "C79",
   "status": "partial",
   "theorems": [
    "C79_declared",
    "C79_values",
    "C79_equal_partial",
    "C79_equal_document",
    "C79_equal_self",
    "C79_equal_both",
    "C79_primary",
    "C79_lists_partial",
    "C79_modelled",
    "C79_equal_refuted",
    "C79_transitive_refuted",
    "C79_lists_refuted"
   ],
   "note": "Proved: which declarations are accepted (C79_declared), which texts an attribute with declared values accepts (C79_values), the check for a single primary item (C79_primary), equality of plain attributes implies equal processing (C79_equal_partial), reflexivity and symmetry. Refuted: complex attributes with different sub-attributes are equal (C79_equal_refuted), equality is not transitive (C79_transitive_refuted), a given list of complex callbacks is appended to in place and a second attribute made with it raises (C79_lists_refuted)."
  },
  {
   "property": "C80",
   "status": "partial",
   "theorems": [
    "C80_served",
    "C80_constants",
    "C80_kinds_refuted",
    "C80_bare_refuted"
   ],
   "note": "Proved: every error is served as it is (C80_served); the library's own errors, put into messages, under status 400 only (C80_constants). Refuted: any text is served as kind (C80_kinds_refuted); the documents of scim_error.py lack schemas and are refused as they are (C80_bare_refuted)."
  },
  {
   "property": "C81",
   "status": "partial",
   "theorems": [
    "C81_decides",
    "C81_self",
    "C81_both_ways",
    "C81_meaning_partial",
    "C81_schema_refuted"
   ],
   "note": "Proved: equality of parsed paths never raises and is decided exactly (C81_decides), is reflexive and symmetric (C81_self, C81_both_ways); equal paths that are equally specific find the same attribute and filter alike (C81_meaning_partial). Refuted for a path without schema and one with it: they are equal and can find different attributes (C81_schema_refuted)."
  },
  {
   "property": "C82",
   "status": "partial",
   "theorems": [
    "C82_post_partial",
    "C82_put_partial",
    "C82_get",
    "C82_query_refuted",
    "C82_patch_refuted",
    "C82_bulk_refuted",
    "C82_clash_refuted"
   ],
   "note": "Proved for schemas with distinct attribute names and standard checks, and for documents as in C27: creating (C82_post_partial), replacing (C82_put_partial) and reading (C82_get) never raise. Refuted: lists of non-texts in the query (C82_query_refuted), patches without operations (C82_patch_refuted), bulk requests without body (C82_bulk_refuted), an extension's complex attribute named like a core attribute (C82_clash_refuted)."
  },
  {
   "property": "C83",
   "status": "partial",
   "theorems": [
    "C83_attributes_partial",
    "C83_both_attributes",
    "C83_no_attributes",
    "C83_rest",
    "C83_no_query"
   ],
   "note": "Proved for the parameters given as texts: C83_attributes_partial, C83_both_attributes, C83_no_attributes, C83_rest, C83_no_query. Not covered: parameters given as lists or other values, some of which raise (C82_query_refuted)."
  },
  {
   "property": "C84",
   "status": "partial",
   "theorems": [
    "C84_parse_partial",
    "C84_answered_partial",
    "C84_unknown_refuted",
    "C84_not_list_refuted",
    "C84_read_only_refuted",
    "C84_empty_refuted",
    "C84_null_refuted"
   ],
   "note": "Proved: requests whose operations have a value to work on are read (C84_parse_partial); those whose targets exist and that give multi-valued complex attributes lists are answered (C84_answered_partial). Refuted without these conditions: unknown targets (C84_unknown_refuted), no lists (C84_not_list_refuted), a read-only list (C84_read_only_refuted), no object without a path (C84_empty_refuted), null for an extension's complex attribute (C84_null_refuted)."
  },
  {
   "property": "C85",
   "status": "partial",
   "theorems": [
    "C85_resource_partial",
    "C85_error_partial",
    "C85_body_refuted",
    "C85_headers_refuted"
   ],
   "note": "Proved for documents as in C27 and headers with a textual Location: responses about one resource (C85_resource_partial) and errors (C85_error_partial) never raise. Refuted for a number among the schemas (C85_body_refuted) and headers that are a list (C85_headers_refuted). Responses with several resources and bulk responses are not covered."
  },
  {
   "property": "C86",
   "status": "partial",
   "theorems": [
    "C86_list_partial",
    "C86_list_overflow",
    "C86_unfiltered_partial",
    "C86_search_partial",
    "C86_search_overflow",
    "C86_filter_refuted",
    "C86_search_refuted",
    "C86_count_refuted"
   ],
   "note": "Proved: plain queries (C86_list_partial) and search bodies as in C27 (C86_search_partial) are answered or raise OverflowError, the latter exactly when the parser of filters does (C86_list_overflow, C86_search_overflow); queries without a filter are always answered (C86_unfiltered_partial). Refuted: a filter with a number out of range (C86_filter_refuted, C86_search_refuted) and a count given as a list (C86_count_refuted)."
  },
  {
   "property": "C87",
   "status": "partial",
   "theorems": [
    "C87_page_partial",
    "C87_asked_partial",
    "C87_page_refuted"
   ],
   "note": "Proved for resources of one schema on pages as in C27: always served without filter and sorting (C87_page_partial); with them nothing but KeyError may be raised (C87_asked_partial). Refuted: a number among the schemas of a resource (C87_page_refuted); for several schemas see C67_raises_refuted. Missing: that filters and sorting raise no KeyError."
  }
 ]
}