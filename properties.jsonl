{"id": "C01", "title": "Recorded issues are kept, in order, at their location", "statement": "After any sequence of add(issue, location) and merge(other report, prefix) calls on a fresh report, the errors listed at a location are exactly the errors added there plus, for every merge, the errors of the merged report at the location with the prefix stripped, in call order; nothing is lost, duplicated, reordered or moved to another location.", "quantifier": "every finite sequence of add/merge calls, every error, every location (any nesting of strings and indexes), every merged report", "why_tests_cant": "The space of histories (interleavings of add/merge with arbitrary prefixes) is infinite; tests fix a handful of two-step histories.", "anchors": ["src/error.py: ValidationIssues.add", "src/error.py: ValidationIssues.merge"]}
{"id": "C02", "title": "has_issues is an exact prefix query", "statement": "has_issues(l1..ln) is true iff some recorded issue's location starts with one of the given locations; has_issues() is true iff anything was ever recorded and not removed.", "quantifier": "every report reachable by add/merge, every list of query locations", "why_tests_cant": "Needs all locations and all prefixes, including the empty prefix and prefixes longer than every recorded location.", "anchors": ["src/error.py: ValidationIssues.has_issues"]}
{"id": "C03", "title": "can_proceed is blocked exactly by blocking issues on the path", "statement": "can_proceed(l1..ln) is false iff an issue recorded with proceed=False sits at one of the locations or at an ancestor of one of them; issues recorded with proceed=True, siblings and descendants never block.", "quantifier": "every report built by add/merge, every list of query locations", "why_tests_cant": "Whether an unrelated or non-blocking issue blocks processing depends on the whole history of merges; tests check single merges.", "anchors": ["src/error.py: ValidationIssues.can_proceed", "src/error.py: ValidationIssues.merge"]}
{"id": "C04", "title": "get extracts exactly the sub-report", "statement": "get(prefix) lists exactly the issues below the prefix, with the prefix removed and order kept, and leaves the original report unchanged; get followed by merge under the same prefix gives back the same issues at the same locations.", "quantifier": "every report, every prefix", "why_tests_cant": "Universally quantified over reports and prefixes; a wrong slice shows only for particular nesting depths.", "anchors": ["src/error.py: ValidationIssues.get"]}
{"id": "C05", "title": "pop removes exactly the issues with the given code", "statement": "After pop(location, code) no issue with that code is left at the location, all other issues are untouched (there and elsewhere), and the location no longer blocks processing because of that code.", "quantifier": "every report, location and code", "why_tests_cant": "Mutation while iterating: the failure needs particular adjacency patterns of codes at one location.", "anchors": ["src/error.py: ValidationIssues.pop"]}
{"id": "C06", "title": "The serialised report contains every error under its path", "statement": "to_dict() contains, for every recorded error, its code in the _errors list found by following the error's location part by part (rendered as strings), in recording order, and contains no other errors.", "quantifier": "every report, every location", "why_tests_cant": "Nested-dict building is path dependent; the claim ranges over all sets of overlapping paths.", "anchors": ["src/error.py: ValidationIssues.to_dict"]}
{"id": "C07", "title": "Attribute names: the parser accepts exactly the grammar", "statement": "AttrRep.parse(s) succeeds iff s is [uri ':'] name ['.' sub] where name is a word or $ref, sub is a word and the URI part is a colon-terminated sequence of segments over word characters, '.' and '-'; the returned schema, attribute and sub-attribute are the corresponding parts and the split is unique.", "quantifier": "every string", "why_tests_cant": "Regex with nested repetition and optional groups: acceptance on all strings, and uniqueness of the greedy split, cannot be enumerated.", "anchors": ["src/data/container.py: AttrRep.parse", "src/data/container.py: _ATTR_REP"]}
{"id": "C08", "title": "Attribute names: print/parse round trip", "statement": "For every string accepted by AttrRep.parse, the textual form of the result equals the input string; and parsing the textual form of an attribute representation with valid parts gives the same schema, attribute and sub-attribute.", "quantifier": "every accepted string; every representation with grammatical parts", "why_tests_cant": "A round trip over all strings.", "anchors": ["src/data/container.py: AttrRep.parse", "src/data/container.py: AttrRep.__repr__"]}
{"id": "C09", "title": "Attribute name equality ignores case and is an equivalence for fixed schema presence", "statement": "Comparison of attribute representations ignores letter case of schema, attribute and sub-attribute; it is reflexive and symmetric, and it is transitive (so it can be used to identify an attribute).", "quantifier": "every pair / triple of representations", "why_tests_cant": "Transitivity ranges over triples; the schema wildcard makes it fail only for special triples.", "anchors": ["src/data/container.py: AttrRep.__eq__"]}
{"id": "C10", "title": "Container: loading and dumping a document is lossless", "statement": "For every JSON-like document whose keys differ by more than letter case, SCIMDataContainer(d).to_dict() equals d, at every nesting depth reachable through objects and lists of objects.", "quantifier": "every document (arbitrary nesting)", "why_tests_cant": "Unbounded nesting and key sets.", "anchors": ["src/data/container.py: SCIMDataContainer.__init__", "src/data/container.py: SCIMDataContainer.to_dict"]}
{"id": "C11", "title": "Container: read after write", "statement": "After c[name] = v succeeds, c[name] is v, for plain attributes, sub-attributes of single complex attributes, and extension attributes; reading is insensitive to the letter case of attribute, sub-attribute and schema.", "quantifier": "every container, attribute name and value", "why_tests_cant": "All prior contents (including prior writes in other letter case) matter.", "anchors": ["src/data/container.py: SCIMDataContainer.__setitem__", "src/data/container.py: SCIMDataContainer.__getitem__"]}
{"id": "C12", "title": "Container: a write changes nothing else", "statement": "After c[name] = v succeeds, every attribute whose name is different (ignoring letter case) reads the same as before.", "quantifier": "every container, every pair of different attribute names, every value", "why_tests_cant": "Frame conditions range over all other names.", "anchors": ["src/data/container.py: SCIMDataContainer.__setitem__", "src/data/container.py: SCIMDataContainer.__getitem__"]}
{"id": "C13", "title": "Container: delete removes exactly one attribute", "statement": "After del c[name], reading name gives Missing and every other attribute is unchanged; deleting an absent attribute changes nothing.", "quantifier": "every container reachable by construction and updates, every name", "why_tests_cant": "Histories of updates in different letter cases matter.", "anchors": ["src/data/container.py: SCIMDataContainer.__delitem__"]}
{"id": "C14", "title": "Container: no operation corrupts the key index", "statement": "Every container reachable by construction from a document followed by any sequence of item assignments and deletions by attribute name answers every later read without an internal KeyError, i.e. the case-insensitive index always points at stored data.", "quantifier": "every finite sequence of operations", "why_tests_cant": "Invariant over unbounded histories.", "anchors": ["src/data/container.py: SCIMDataContainer"]}
{"id": "C15", "title": "Container equality", "statement": "c == d holds iff d stores, under the same names up to letter case, values equal to those of c; equality is reflexive and symmetric.", "quantifier": "every pair of containers", "why_tests_cant": "Ranges over pairs of arbitrary nested documents.", "anchors": ["src/data/container.py: SCIMDataContainer.__eq__"]}
{"id": "C16", "title": "Scalar attribute types accept exactly their JSON type and never alter the value", "statement": "Parsing a value of type boolean / string / uri-reference / scim-reference succeeds without issues iff the value has that JSON type and then returns it unchanged; otherwise the result is Invalid with exactly one bad_type issue at the root location.", "quantifier": "every value of every Python type the container can hold", "why_tests_cant": "All values of all types.", "anchors": ["src/data/type.py: AttributeType.parse", "src/data/type.py: Boolean", "src/data/type.py: String", "src/data/type.py: URIReference", "src/data/type.py: SCIMReference"]}
{"id": "C17", "title": "Integer and decimal conversion is exact", "statement": "Integer.parse accepts integers unchanged and floats exactly when they are integral, returning the equal integer; Decimal.parse accepts floats unchanged and integers by converting them to the nearest float; every other value gives Invalid with a bad_type issue; parsing never raises.", "quantifier": "every number, including infinities, NaN and integers beyond the float range", "why_tests_cant": "Float edge cases (inf, nan, 2^53 neighbourhood, overflow) are isolated points in a huge domain.", "anchors": ["src/data/type.py: Integer.parse", "src/data/type.py: Decimal.parse"]}
{"id": "C18", "title": "Binary accepts exactly canonical base64", "statement": "Binary.parse(s) succeeds iff s is the standard base64 encoding of some byte string; otherwise it reports base_64_encoding_required; it never raises.", "quantifier": "every string", "why_tests_cant": "Acceptance must coincide with the image of an encoder over all byte strings.", "anchors": ["src/data/type.py: Binary._validate_encoding"]}
{"id": "C19", "title": "Dates: parse and dump agree", "statement": "If DateTime.parse(s) succeeds the value is the instant datetime.fromisoformat gives and DateTime.dump of it gives its isoformat; a string is rejected iff fromisoformat rejects it.", "quantifier": "every string", "why_tests_cant": "All strings; relation between two directions.", "anchors": ["src/data/type.py: DateTime.parse", "src/data/type.py: DateTime.dump"]}
{"id": "C20", "title": "Attribute parsing reports every rejection and rejects nothing silently", "statement": "For every attribute (with arbitrary type, multiplicity and canonical values) and every value: if parsing reports no issue, the result contains no Invalid marker; if the result contains an Invalid marker, an issue is reported at its location.", "quantifier": "every attribute definition, every value", "why_tests_cant": "Quantifies over schemas as well as over values.", "anchors": ["src/data/attributes.py: Attribute.parse", "src/data/attributes.py: Attribute._process"]}
{"id": "C21", "title": "Canonical values are enforced exactly when requested", "statement": "With canonical value validation on, a value passes iff it equals one of the canonical values (ignoring case for non-case-exact attributes); with it off, canonical values never cause an issue.", "quantifier": "every canonical value list, every value, both case modes", "why_tests_cant": "Ranges over value lists and case folding of all strings.", "anchors": ["src/data/attributes.py: Attribute._is_canonical", "src/data/attributes.py: Attribute._process"]}
{"id": "C22", "title": "Multi-valued attributes are processed item by item", "statement": "Parsing a multi-valued attribute of n items yields n items, item i depends only on input item i, and the issues below index i are exactly those of parsing item i alone.", "quantifier": "every list length and every list of values", "why_tests_cant": "Independence between items for all lengths.", "anchors": ["src/data/attributes.py: Attribute._process"]}
{"id": "C23", "title": "At most one primary item", "statement": "A multi-valued complex attribute whose items parse cleanly gets a multiple_primary_values issue iff at least two items have primary set to true.", "quantifier": "every list of items", "why_tests_cant": "Counting property over all lists.", "anchors": ["src/data/attributes.py: validate_single_primary_value"]}
{"id": "C24", "title": "Complex attributes keep exactly the declared sub-attributes", "statement": "The parsed value of a complex attribute contains a sub-attribute iff it is declared and present in the input (up to letter case), spelled as declared, and its value is the parsed value of that sub-attribute; undeclared input keys never reach the output.", "quantifier": "every complex attribute definition and every input container", "why_tests_cant": "All schemas and all inputs.", "anchors": ["src/data/attributes.py: ComplexAttribute._process_complex"]}
{"id": "C25", "title": "Schema parsing keeps exactly the known attributes", "statement": "The container returned by schema.parse contains an attribute iff it is declared by the schema or an attached extension and present in the input; its value is that attribute's parsed value and the issues below its location are that attribute's issues.", "quantifier": "every schema (core plus extensions) and every input document", "why_tests_cant": "All schemas and all documents.", "anchors": ["src/data/schemas.py: BaseSchema._process"]}
{"id": "C26", "title": "The schemas field is validated against the declared schemas", "statement": "For a document whose schemas field is a non-empty list of strings: unknown_schema is reported at 'schemas' iff some entry is not a known schema (ignoring case); missing_main_schema is reported iff the main schema is not listed; one missing_schema_extension is reported for each known extension that is used in the document but not listed; a required extension that is not used is reported as well.", "quantifier": "every list of strings, every schema with any extensions, every document", "why_tests_cant": "Three iff conditions over all lists.", "anchors": ["src/data/schemas.py: validate_schemas_field", "src/data/schemas.py: ResourceSchema.with_extension"]}
{"id": "C27", "title": "Parsing a request document never raises", "statement": "schema.parse(document) returns a value and an issue report for every JSON document; malformed input is reported, never an exception.", "quantifier": "every JSON document, every schema", "why_tests_cant": "Crash freedom over all inputs.", "anchors": ["src/data/schemas.py: BaseSchema.parse", "src/data/container.py: SCIMDataContainer.__getitem__"]}
{"id": "C28", "title": "Attaching an extension only adds attributes", "statement": "with_extension adds the extension's attributes under the extension's URI, keeps every existing attribute's lookup result, makes the extension URI known, and refuses schemas that are already attached or not resource extensions.", "quantifier": "every resource schema and extension schema", "why_tests_cant": "All pairs of schemas.", "anchors": ["src/data/schemas.py: ResourceSchema.with_extension"]}
{"id": "C29", "title": "Requested attributes: only what was asked for is returned", "statement": "For a response check with an inclusion list, an attribute that is present gets restricted_or_not_requested iff it is not on the list (nor parent/child of a listed name) and is not always returned; with an exclusion list iff it is excluded and not always returned; attributes that are never returned are always flagged.", "quantifier": "every schema, data container and list of attribute names", "why_tests_cant": "Depends on all combinations of lists, nesting and return characteristics.", "anchors": ["src/attributes_presence.py: AttributePresenceChecker.__call__", "src/attributes_presence.py: AttributePresenceChecker._check_presence"]}
{"id": "C30", "title": "Required attributes: missing iff required and absent", "statement": "A missing issue is reported for an attribute (or for a sub-attribute of one item) iff it is required, empty (absent, null, empty string or empty list), not on the ignore list, and - when only selected attributes are asked for - selected or always returned in a response; nothing else is reported as missing.", "quantifier": "every schema, document, selection list, ignore list and direction", "why_tests_cant": "All schemas and documents.", "anchors": ["src/attributes_presence.py: AttributePresenceChecker.__call__", "src/attributes_presence.py: AttributePresenceChecker._check_presence"]}
{"id": "C31", "title": "Attribute selection parameters parse completely", "statement": "AttributePresenceChecker.parse over a list of names yields a checker listing all names in order when every name is valid, and otherwise is Invalid with a bad_attribute_name issue at each invalid name and nowhere else.", "quantifier": "every list of strings", "why_tests_cant": "All lists.", "anchors": ["src/attributes_presence.py: AttributePresenceChecker.parse"]}
{"id": "C32", "title": "and / or do not depend on operand order", "statement": "Reordering the operands of 'and' or of 'or' never changes whether a resource matches, and nesting the same connective (a and (b and c)) is equivalent to the flat form.", "quantifier": "every operand list and permutation, every resource, strict and lenient mode", "why_tests_cant": "All permutations, arities and operators.", "anchors": ["src/data/operator.py: And.match", "src/data/operator.py: Or.match"]}
{"id": "C33", "title": "Logical connectives follow their truth tables", "statement": "A resource matches 'a and b' iff it matches a and matches b; matches 'a or b' iff it matches one of them; matches 'not a' iff it does not match a - for operands whose attributes exist in the schema and are present in the resource.", "quantifier": "every filter over existing, present attributes, every resource", "why_tests_cant": "All filters, recursively.", "anchors": ["src/data/operator.py: And.match", "src/data/operator.py: Or.match", "src/data/operator.py: Not.match"]}
{"id": "C34", "title": "Unknown attributes never match", "statement": "A filter on an attribute that is not in the schema does not match any resource, also when combined with other conditions by 'and'.", "quantifier": "every filter, schema and resource", "why_tests_cant": "Ranges over schemas and filters.", "anchors": ["src/data/operator.py: And.match", "src/data/operator.py: BinaryAttributeOperator.match"]}
{"id": "C35", "title": "Lenient matching is weaker than strict matching", "statement": "If a resource matches a filter in strict mode then it matches it in lenient (strict=False) mode.", "quantifier": "every filter (all operators, arbitrarily nested), every resource and schema", "why_tests_cant": "Structural induction over all filters.", "anchors": ["src/data/operator.py: match (all operators)"]}
{"id": "C36", "title": "Comparison operators compare as specified", "statement": "For an attribute that exists and holds a single value of a supported type, eq/ne/co/sw/ew/gt/ge/lt/le succeed iff the corresponding relation holds between the stored value and the literal, ignoring letter case for strings iff the attribute is not case exact; for multi-valued attributes iff some item satisfies it.", "quantifier": "every operator, literal, value and attribute", "why_tests_cant": "All values; substring/prefix relations on all strings.", "anchors": ["src/data/operator.py: BinaryAttributeOperator.match", "src/data/operator.py: _get_values_for_comparison"]}
{"id": "C37", "title": "Order operators are consistent", "statement": "For values of one orderable type exactly one of lt, eq, gt holds, ge is gt-or-eq, le is lt-or-eq, and ne is the negation of eq.", "quantifier": "every pair of values of the same orderable type", "why_tests_cant": "Total order laws over all strings / numbers.", "anchors": ["src/data/operator.py: GreaterThan", "src/data/operator.py: LesserThan", "src/data/operator.py: Equal"]}
{"id": "C38", "title": "A complex filter matches iff one item satisfies all of it", "statement": "emails[f] matches iff one and the same item of the list satisfies f.", "quantifier": "every list of items, every sub filter", "why_tests_cant": "All lists and filters; the same-item requirement is invisible to one-item tests.", "anchors": ["src/data/operator.py: ComplexAttributeOperator.match"]}
{"id": "C39", "title": "Filter parsing terminates on every string", "statement": "Filter.parse returns (a filter or Invalid, with a report) on every input string, without infinite recursion.", "quantifier": "every string", "why_tests_cant": "Termination over all inputs; the parser rewrites its input with placeholders and recurses on the rewritten text.", "anchors": ["src/filter.py: Filter.parse", "src/filter.py: Filter._parse_filter"]}
{"id": "C40", "title": "Filter parsing: Invalid exactly when issues are reported", "statement": "Filter.parse(s) returns a filter iff it reports no issue, and Invalid iff it reports at least one.", "quantifier": "every string", "why_tests_cant": "Errors found in nested groups must propagate from every depth.", "anchors": ["src/filter.py: Filter.parse"]}
{"id": "C41", "title": "Filter round trip: printing then parsing restores the filter", "statement": "For every filter built from the supported operators, parsing its text form yields a filter equal to the original (same tree up to flattening).", "quantifier": "every operator tree, every attribute name and literal (strings without quote characters, booleans, null, integers up to 2^53)", "why_tests_cant": "Structural induction over all filters, through the placeholder mechanism.", "anchors": ["src/filter.py: Filter.parse", "src/filter.py: Filter._parse_op_or_exp", "src/filter.py: Filter._parse_op_and_exp", "src/filter.py: Filter._parse_op_attr_exp"]}
{"id": "C42", "title": "Precedence of not, and, or", "statement": "In an expression without brackets 'or' binds weaker than 'and', which binds weaker than 'not': a or b and not c parses as Or(a, And(b, Not(c))), for any operands.", "quantifier": "every sequence of operands", "why_tests_cant": "All operand sequences.", "anchors": ["src/filter.py: Filter._parse_op_or_exp", "src/filter.py: Filter._parse_op_and_exp"]}
{"id": "C43", "title": "String literals are opaque", "statement": "The content of a quoted literal (brackets, operators, keywords, placeholders-like text without the quote) never influences the structure of the parsed filter, and the literal is stored exactly.", "quantifier": "every literal content without the quote character", "why_tests_cant": "Injection-style property: all contents.", "anchors": ["src/filter.py: Filter.parse", "src/utils.py: STRING_VALUES_REGEX", "src/utils.py: get_placeholder"]}
{"id": "C44", "title": "Number, boolean and null literals", "statement": "A literal true/false/null is parsed as the corresponding constant, an integer literal as the equal integer, a decimal literal as the nearest float; anything else is reported as bad_comparison_value; the parser never raises.", "quantifier": "every literal text", "why_tests_cant": "All numerals including huge exponents.", "anchors": ["src/utils.py: parse_comparison_value", "src/filter.py: Filter._parse_op_attr_exp"]}
{"id": "C45", "title": "Filter equality is an equivalence respecting meaning", "statement": "Filter equality is reflexive, symmetric and transitive, and equal filters match the same resources.", "quantifier": "every pair / triple of filters", "why_tests_cant": "Ranges over triples of trees.", "anchors": ["src/filter.py: Filter.__eq__"]}
{"id": "C46", "title": "Sorting permutes, orders and is stable", "statement": "Sorter(data) returns a permutation of data ordered by the sort key, where items with equal keys keep their relative order (ascending and descending), string keys ignoring case iff not case exact.", "quantifier": "every list of resources, every attribute, both directions", "why_tests_cant": "All lists; stability needs specific duplicates.", "anchors": ["src/sorter.py: Sorter.__call__", "src/sorter.py: StringKey"]}
{"id": "C47", "title": "Items without a sort value go last (ascending) / first (descending)", "statement": "In ascending order items without a value for the sort attribute come after all others, in descending order before all others; if no item has a value the data is returned unchanged.", "quantifier": "every list of resources", "why_tests_cant": "All mixes of present and absent values.", "anchors": ["src/sorter.py: AlwaysLastKey", "src/sorter.py: Sorter._get_key"]}
{"id": "C48", "title": "Sorting is idempotent", "statement": "Sorting an already sorted list returns the same list, so a correctly sorted list response is never rejected and an unsorted one always is.", "quantifier": "every list of resources", "why_tests_cant": "All lists.", "anchors": ["src/sorter.py: Sorter.__call__", "src/request_validators.py: validate_resources_sorted"]}
{"id": "C49", "title": "Patch paths: accepted syntax and structure", "statement": "PatchPath.parse accepts attr, attr.sub, attr[filter] and attr[filter].sub and nothing else, and the returned parts are the corresponding pieces of the text; a rejected path reports at least one issue.", "quantifier": "every string", "why_tests_cant": "All strings with bracket/quote interplay.", "anchors": ["src/data/path.py: PatchPath.parse"]}
{"id": "C50", "title": "Patch operations cannot modify read-only attributes", "statement": "For every patch operation with a path to a read-only attribute or to a read-only sub-attribute, or without path but with a value containing a read-only attribute, an attribute_can_not_be_modified issue is reported.", "quantifier": "every schema, path and value", "why_tests_cant": "Security property over all operations and schemas.", "anchors": ["src/assets/schemas/patch_op.py: PatchOp"]}
{"id": "C51", "title": "Patch remove protects required attributes", "statement": "A remove operation on a required or read-only attribute or sub-attribute is rejected with attribute_can_not_be_deleted, and a remove on a deletable known target is accepted.", "quantifier": "every schema and path", "why_tests_cant": "All schemas and paths.", "anchors": ["src/assets/schemas/patch_op.py: PatchOp"]}
{"id": "C52", "title": "Bulk limits are enforced", "statement": "A bulk request with more operations than the configured maximum is always reported and one within the limit never is; a bulk response with more failed operations than failOnErrors is reported.", "quantifier": "every list of operations and every limit", "why_tests_cant": "All lengths.", "anchors": ["src/assets/schemas/bulk_ops.py: BulkOperations", "src/request_validators.py: BulkOperations"]}
{"id": "C53", "title": "No body leaves a validator when issues were found", "statement": "For every endpoint validator, the returned body is None iff the report has issues (for endpoints that return a body).", "quantifier": "every request/response body, header and query parameter combination", "why_tests_cant": "All inputs of all endpoints.", "anchors": ["src/request_validators.py: parse_request / dump_response of every validator"]}
{"id": "C54", "title": "PUT ignores read-only attributes", "statement": "The body returned by a PUT request validator contains no attribute that is read-only according to the schema (other than required ones kept for identification).", "quantifier": "every schema and body", "why_tests_cant": "All bodies.", "anchors": ["src/request_validators.py: ResourceObjectPUT"]}
{"id": "C55", "title": "Status codes and location headers are checked exactly", "statement": "A creation response is reported for a wrong status code iff it is not 201, for a location mismatch iff header and meta.location differ; an error response iff its status differs from the body's status or is outside 300..599.", "quantifier": "every status code, header and body", "why_tests_cant": "All integers and strings.", "anchors": ["src/request_validators.py: validate_status_code", "src/request_validators.py: validate_resource_location_consistency", "src/request_validators.py: validate_error_status_code"]}
{"id": "C56", "title": "List responses: pagination arithmetic", "statement": "For every combination of totalResults, itemsPerPage, startIndex, count and number of resources, the reported issues are exactly those required by the pagination rules.", "quantifier": "every tuple of integers and every resource list", "why_tests_cant": "Integer arithmetic corner cases.", "anchors": ["src/request_validators.py: validate_number_of_resources", "src/request_validators.py: validate_pagination_info", "src/request_validators.py: validate_start_index_consistency"]}
{"id": "C57", "title": "List responses: every resource matches the filter", "statement": "An included_resource_does_not_match_filter issue is reported at index i iff resource i does not match the requested filter.", "quantifier": "every filter, every resource list", "why_tests_cant": "All filters and lists.", "anchors": ["src/request_validators.py: validate_resources_filtered"]}
{"id": "C58", "title": "Patch operations: faults of shape are reported exactly", "statement": "A remove operation without path, an add operation without value and an add operation on a filtered selection without sub-attribute are reported at the operation's path or value; about such an operation nothing else is reported, and it makes no difference to the other operations of the request.", "quantifier": "every schema, every list of operations whose paths can be read", "why_tests_cant": "All lists of operations, all values and paths; independence of the operations is a statement about pairs of requests.", "anchors": ["src/assets/schemas/patch_op.py: validate_operations", "src/assets/schemas/patch_op.py: PatchOp.parse"]}
{"id": "C59", "title": "Patch operations: accepted operations are kept", "statement": "The parsed request has one operation per requested operation; an operation about which nothing is reported keeps its kind and path, its target exists and is not read-only, and its value is what the target attribute (or, without path, the resource schema) makes of the requested value without complaint.", "quantifier": "every schema, every list of operations whose paths can be read", "why_tests_cant": "All lists of operations, all values and paths.", "anchors": ["src/assets/schemas/patch_op.py: PatchOp.parse", "src/assets/schemas/patch_op.py: _parse_add_or_replace_operation", "src/assets/schemas/patch_op.py: _parse_remove_operation"]}
{"id": "C60", "title": "Bulk requests: each operation is judged like the request it stands for", "statement": "About an operation of a bulk request exactly the following is reported: a missing bulkId of a POST, a missing or wrong path, missing data; if path and data are usable, that the path is about resources nobody serves; otherwise, below the operation's data, exactly what the single GET, POST, PUT or PATCH request reports about its body. Deletions are not looked at further. Operations do not influence each other.", "quantifier": "every set of schemas, every non-empty list of operations with one of the five methods in upper case, every limit", "why_tests_cant": "All lists of operations, paths and bodies; a statement about the bulk request and the single requests together.", "anchors": ["src/request_validators.py: BulkOperations.parse_request", "src/assets/schemas/bulk_ops.py: validate_request_operations"]}
{"id": "C61", "title": "Bulk requests: accepted operations are kept", "statement": "When nothing is reported about a bulk request, the parsed request holds one operation for each requested one, in order, with method, bulkId, version and path as given; as data a deletion holds nothing and every other operation the parsed body of the request it stands for.", "quantifier": "every set of schemas, every non-empty list of operations with one of the five methods in upper case, every limit", "why_tests_cant": "All lists of operations and bodies.", "anchors": ["src/request_validators.py: BulkOperations.parse_request", "src/assets/schemas/bulk_ops.py: validate_request_operations"]}
{"id": "C62", "title": "List requests: the query is read completely", "statement": "Of the query of a list request, filter, sortBy with sortOrder, the chosen attributes and count and startIndex are replaced by what they say; a parameter that cannot be read is reported at the parameter with its name, nothing else is reported, and all other parameters, headers and body stay as they are.", "quantifier": "every dictionary of query parameters", "why_tests_cant": "All combinations of parameters and texts.", "anchors": ["src/request_validators.py: _parse_resources_get_request", "src/request_validators.py: parse_request_sorting", "src/request_validators.py: parse_request_filtering", "src/request_validators.py: parse_requested_attributes", "src/sorter.py: Sorter.parse"]}
{"id": "C63", "title": "Search requests: the body is read like the query of a list request", "statement": "Of the body of a search request, every bad attribute name is reported at its place in the list, both lists of names at once are reported at both, the filter is judged like any filter, sortBy must be an attribute name, startIndex and count must be integers, and nothing else is reported; an accepted body holds the parsed filter, the numbers as given, a presence checker for exactly the named attributes and a sorter for the named attribute, and none where none was asked for.", "quantifier": "every JSON object without a key equal to the schema URI", "why_tests_cant": "All documents, names and filters.", "anchors": ["src/assets/schemas/search_request.py: SearchRequest.parse", "src/assets/schemas/search_request.py: parse_attr_rep_multi", "src/request_validators.py: SearchRequestPOST.parse_request"]}
{"id": "C64", "title": "Schemas describe themselves truthfully, and the schema of schemas accepts it", "statement": "The representation of a schema exists exactly when every attribute has a type; it names the schema and, for every attribute and sub-attribute at any depth, its name, type, whether it is multi-valued, required or case sensitive, its mutability, when it is returned, its uniqueness, its canonical values and its reference types. Dumping it by the schema of schemas reports nothing and keeps all of it, except that letter case is only told for texts.", "quantifier": "every schema and extension, with attributes nested to any depth", "why_tests_cant": "All schemas, attributes and combinations of characteristics.", "anchors": ["src/data/schemas.py: get_schema_rep", "src/data/schemas.py: SchemaExtension.to_dict", "src/data/attributes.py: Attribute.to_dict", "src/data/attributes.py: ComplexAttribute.to_dict", "src/assets/schemas/schema.py: dump_attributes", "src/assets/schemas/schema.py: Schema"]}
{"id": "C65", "title": "Bulk responses: every operation is judged like the response it stands for", "statement": "About each operation of a bulk response exactly the following is reported: a created resource without bulkId, a missing status, a missing location unless a creation failed, a missing reason of a failure, a location that names resources of no schema; for a failed operation that says why, what the error message would be reported for on its own, below its response and at its status; for a successful one, what the response it stands for would be reported for, below its response, with a location or version that is not the operation's reported at both places. Nothing else is reported but too many failed operations and a wrong status of the whole.", "quantifier": "every list of operations with one of the five methods, a numeric status and an absolute URL where they have these, every set of schemas with plural names of their own", "why_tests_cant": "All schemas, operations, statuses and bodies.", "anchors": ["src/request_validators.py: BulkOperations.dump_response", "src/assets/schemas/bulk_ops.py: validate_response_operation"]}
{"id": "C66", "title": "Bulk responses: accepted operations are kept", "statement": "When nothing is reported, the dumped bulk response holds the operations in order, each with its method, bulkId, version, location and status and, as its response, the dumped body of the response it stands for.", "quantifier": "as for C65", "why_tests_cant": "All schemas, operations, statuses and bodies.", "anchors": ["src/request_validators.py: BulkOperations.dump_response"]}
{"id": "C67", "title": "List responses: every resource is judged like the response with it alone", "statement": "In the report on a list response, what is said about one resource is what would be said about it if it were returned alone: its schema is the only one there is or the first that knows all the URIs it lists (a resource without one is reported as of an unknown schema), and it is judged by it. Nothing else is said about it but that it does not match the filter.", "quantifier": "every list of resources, every set of schemas, filter, sorter and presence checker", "why_tests_cant": "All schemas, resources and numbers; what is said about one resource must not depend on the others.", "anchors": ["src/assets/schemas/list_response.py: ListResponse.dump", "src/request_validators.py: _dump_resources_get_response"]}
{"id": "C68", "title": "List responses: accepted resources and numbers are kept", "statement": "When nothing is reported about a list response, its body holds the numbers it was given and, in order, the bodies of the responses with each resource alone.", "quantifier": "as for C67", "why_tests_cant": "All schemas and resources.", "anchors": ["src/assets/schemas/list_response.py: ListResponse.dump", "src/request_validators.py: _dump_resources_get_response"]}
{"id": "C69", "title": "The configuration of a server is accepted exactly when its limits are given", "statement": "A configuration is refused exactly when it supports bulk operations without a number of operations or a payload size, or filtering without a number of results; a field nobody knows is refused as well. An accepted configuration holds what it was given, and everything else is switched off. Without a number of operations no bulk request is accepted.", "quantifier": "all arguments", "why_tests_cant": "All combinations of options, values and missing or unknown fields.", "anchors": ["src/assets/config.py: create_service_provider_config, _BulkOption, _FilterOption, _GenericOption, _AuthenticationScheme (5-78)", "src/request_validators.py: BulkOperations.parse_request (1022)"]}
{"id": "C70", "title": "What was accepted is accepted again unchanged", "statement": "A value that an attribute, or a document that a schema, read without a report is read again without a report and as itself: processing is idempotent.", "quantifier": "all attributes and schemas, values and documents", "why_tests_cant": "Normalisation shows only for particular combinations of types, nesting, letter case and extensions, on documents of any size.", "anchors": ["src/data/attributes.py: Attribute._process, ComplexAttribute._process_complex, validate_single_primary_value (194-239, 339-410)", "src/data/schemas.py: BaseSchema._process, _process_data (215-273)", "src/data/container.py: SCIMDataContainer.get, set"]}
{"id": "C71", "title": "What was read can be written and comes back", "statement": "A value or document that was read without a report is dumped without a report, in the same shape and with dates as their texts, and what was dumped is read as the value or document it came from.", "quantifier": "all attributes and schemas, values and documents, all date formats whose texts are read back", "why_tests_cant": "Tests parse or dump single documents; the two directions share no code path for types, complex attributes and extensions as a whole.", "anchors": ["src/data/attributes.py: Attribute.parse, dump, _process", "src/data/type.py: parse, dump of all types (12-235)", "src/data/schemas.py: BaseSchema.parse, ResourceSchema.dump (209-210, 404-418)"]}
{"id": "C72", "title": "A dumped resource is JSON and is read back from it", "statement": "A resource that was dumped without a report turns into a dictionary of JSON values whose keys differ even without regard to case, and that dictionary makes the container it came from; a resource that was read, dumped and turned into a dictionary is read from that dictionary as the same resource, without a report.", "quantifier": "all attributes and schemas with typed attributes, all documents, all date formats whose texts are read back", "why_tests_cant": "Tests compare single dumped dictionaries; that no container, date or clashing key is ever left in one, for any schema and document, needs an argument about the types and the way documents are built.", "anchors": ["src/data/container.py: SCIMDataContainer.__init__, to_dict (117-138, 244-266)", "src/data/type.py: dump of all types (12-235)", "src/data/schemas.py: BaseSchema.parse, ResourceSchema.dump (209-250, 404-418)"]}
{"id": "C73", "title": "Dates are read as the moment they name and written so that they are read again", "statement": "Every xsd:dateTime text whose fields lie in the calendar's range (years 1 to 9999, hours below 24, any fraction of a second, no offset, Z, or an offset of hours and minutes) is read as the moment it names, to the whole microsecond; such a date is dumped as an xsd:dateTime text naming the same moment; whatever other text was read as a date, the date is read again from its own text; only xsd:dateTime texts are read.", "quantifier": "all dates, times, fractions and offsets; all texts", "why_tests_cant": "The tests parse one date in one format; leap years, month ends, fractions of any length, offsets and the recovery of year, month and day from a day count need an argument over all of them.", "anchors": ["src/data/type.py: DateTime.parse, DateTime.dump, _parse_xsd_datetime (199-229)", "Python 3.11 datetime.fromisoformat, datetime.isoformat"]}
{"id": "C74", "title": "External references are exactly absolute URLs", "statement": "A text is accepted as an external reference exactly if it is an absolute URL (scheme, '://', an authority that is not empty and free of '/', '?', '#', then nothing or a path, query or fragment), once the control characters and spaces in front and all tabs and line breaks are taken away; an authority may hold an IPv6 address in brackets; the value is kept as given; every other text is reported as a bad URL; no text with line breaks or spaces is accepted.", "quantifier": "all texts, schemes, authorities and IPv6 addresses of full or shortened form; both methods", "why_tests_cant": "Tests try a handful of URLs; the exact boundary between accepted and rejected texts, for any scheme, authority and address, is a statement about all texts.", "anchors": ["src/data/type.py: ExternalReference, validate_absolute_url (160-183, 253-270)", "Python 3.11 urllib.parse.urlsplit"]}
{"id": "C75", "title": "Error messages show their arguments and tell the codes apart", "statement": "Every constructor of ValidationError, whatever its arguments, makes a message: the template of its code with each field replaced by the argument's str or repr, braces in arguments not being interpreted, so every argument is shown; two errors of different codes never have equal messages, so that ValidationIssues.pop, which removes errors by comparing messages, removes errors of the code it was asked for.", "quantifier": "all 48 constructors, all arguments (texts with braces and quotes included)", "why_tests_cant": "Tests build a few errors with harmless arguments; that no argument makes a template fail or two templates coincide is about all argument texts and all pairs of templates.", "anchors": ["src/error.py: ValidationError (5-302), ValidationIssues.pop (342-362)"]}
{"id": "C76", "title": "A document is accepted exactly when it conforms", "statement": "A document is parsed without any report exactly when every declared attribute it has can be read by its declaration (type, single or many values, canonical values, own checks, sub-attributes of every object, one primary item), the objects under extension URIs are objects, and the texts in its \"schemas\" are known ones that name the schema and every extension in use. The result then holds exactly the values read.", "quantifier": "all documents of JSON data without empty keys, all schemas built by the constructors, all attributes and nested sub-attributes", "why_tests_cant": "Tests show documents that are accepted and documents that are not; that a declarative description of conforming documents coincides with acceptance is about all documents and all schemas.", "anchors": ["src/data/schemas.py: BaseSchema.parse, _process, _process_data, validate_schemas_field (209-313)", "src/data/attributes.py: Attribute._process, parse, Complex._process_complex, parse, validate_single_primary_value (194-252, 339-420)", "src/data/type.py: the parse methods"]}
{"id": "C77", "title": "The schemas endpoint serves the descriptions of schemas", "statement": "The representations of any schemas, put into a list response, pass SchemasGET without any report, and whoever reads the body finds every schema in the given order with every characteristic of every attribute at any depth; the same holds for a single schema served as a resource. A request to the endpoint hands on neither query nor body and is reported exactly when its query has a filter.", "quantifier": "all lists of schemas built by the constructors, with attributes of any type and nesting; all headers and start indexes; all queries", "why_tests_cant": "The tests serve the built-in schemas; that an arbitrary schema with arbitrarily nested attributes gets through representation, dump, counting, the presence checks and to_dict unchanged is about all schemas.", "anchors": ["src/request_validators.py: _ServiceProviderConfig, SchemasGET (1170-1191), _dump_resources_get_response (621-724)", "src/assets/schemas/schema.py: Schema, get_schema_rep", "src/assets/schemas/list_response.py: ListResponse.dump (45-90)", "src/attributes_presence.py: __call__ (58-118)"]}
{"id": "C78", "title": "The documents in which a server describes itself are served as they are", "statement": "The document that states a service provider configuration (RFC 7643, 5) is accepted by the ServiceProviderConfig schema without any report, and the body served states the same configuration; the documents of any resource types (RFC 7643, 6) pass ResourceTypesGET and are found in the body in order with every field.", "quantifier": "all configurations with their flags, limits and lists of authentication schemes; all lists of resource types with all lists of schema extensions", "why_tests_cant": "Tests serve one configuration; that every value of every field, any number of schemes, types and extensions survives dump, presence checks and to_dict is about all configurations.", "anchors": ["src/assets/schemas/service_provider_config.py (7-157)", "src/assets/schemas/resource_type.py (10-77)", "src/assets/config.py: ServiceProviderConfig, create_service_provider_config (5-78)", "src/request_validators.py: ResourceTypesGET (1194-1196), ResourceObjectGET.dump_response (251-267)"]}
{"id": "C79", "title": "Attributes can be declared, checked and compared as their declaration says", "statement": "An attribute is constructed exactly when its name is a name and its reference types suit its type, otherwise ValueError; a text attribute with declared values to be checked accepts exactly these, in any letter case unless case exact; a multi-valued complex attribute checks for a single primary item once in each direction and constructing it leaves the given lists of callbacks alone; two attributes that compare equal process every value alike, and equality is reflexive, symmetric and transitive.", "quantifier": "all constructor arguments, all lists of declared values and callbacks, all pairs of attributes, all values in both directions", "why_tests_cant": "Tests construct a few attributes and compare a few pairs; that equality never joins attributes that behave differently is about all pairs and all values, and a list changed in place shows only in a second attribute.", "anchors": ["src/data/attributes.py: Attribute.__init__ (60-111), Attribute.__eq__ (172-192), _is_canonical (241-248), ComplexAttribute.__init__ (287-325), validate_single_primary_value (395-409)", "src/data/container.py: AttrRep.__init__ (10-32), AttrRep.__eq__ (37-50)"]}
{"id": "C80", "title": "Errors are served as they are", "statement": "An error message (RFC 7644, 3.12) with any status from 300 to 599, any kind and any detail is accepted by Error.dump_response under its own status without a report, and the body served tells the same status, kind and detail; the errors of assets/scim_error.py are served under status 400 and reported under any other status; only kinds of RFC 7644 are served.", "quantifier": "all statuses 300 to 599, kinds, details and headers; all ten error documents of the library under all statuses", "why_tests_cant": "Tests serve two error bodies; that any text in any field survives dump, presence checks and to_dict, and that a status differing from the body's is always reported, is about all of them.", "anchors": ["src/request_validators.py: Error.dump_response (49-79), validate_error_status_code_consistency, validate_error_status_code", "src/assets/schemas/error.py (15-91)", "src/assets/scim_error.py (1-88)"]}
{"id": "C81", "title": "Equal patch paths mean the same", "statement": "Comparing two parsed patch paths never raises; they are equal exactly when they name the same attribute and the same sub-attribute and carry the same filter; a path equals itself and equality goes both ways; equal paths find the same attribute in every list of attributes and their filters select alike.", "quantifier": "all texts that parse as paths, all lists of attributes, all data the filters are applied to", "why_tests_cant": "Tests compare a handful of paths; that equality decides an independent notion of sameness and that equal paths cannot be told apart by any schema or data is about all pairs of paths.", "anchors": ["src/data/path.py: PatchPath.__eq__ (149-157)", "src/data/container.py: AttrRep.__eq__ (37-50)", "src/filter.py: Filter.__eq__ (663-666)", "src/data/attributes.py: Attrs.get_by_path"]}
{"id": "C82", "title": "Requests to create, replace and read resources are answered with a report", "statement": "Parsing a request to create or replace a resource, or to read one, never raises: whatever body and query a client sends, the outcome is a request and a report of issues.", "quantifier": "all schemas made by the constructors whose attribute names differ, all bodies whose numbers fit floats, whose texts are ASCII, whose keys are not empty and which use schema URIs as intended, all queries whose lists hold texts", "why_tests_cant": "A crash hides behind one unlucky combination of types in a nested document; only an argument over all documents shows that parsing, presence checks and stripping of read-only attributes never meet a value of a type they cannot handle.", "anchors": ["src/request_validators.py: ResourcesPOST.parse_request (321-340)", "src/request_validators.py: ResourceObjectPUT.parse_request (275-295)", "src/request_validators.py: ResourceObjectGET.parse_request (240-249)", "src/request_validators.py: parse_requested_attributes", "src/data/schemas.py: BaseSchema.parse", "src/attributes_presence.py: AttributePresenceChecker.__call__", "src/data/container.py: SCIMDataContainer.get, __delitem__"]}
{"id": "C83", "title": "Requests about one resource: the query is read and nothing else of it changes", "statement": "Of the query of a request to create, read, replace or modify a resource only the chosen attributes are read: exactly the names that are no attribute names are reported at the parameter with the name; if there are none, exactly these attributes are stored as the presence checker, otherwise the query stays as it is. Asking for both attributes and excludeAttributes is reported at both. All other parameters and the headers stay as they are, and what is wrong with the body is reported in the body only.", "quantifier": "all schemas made by the constructors, all bodies, headers and queries of requests that do not raise", "why_tests_cant": "All combinations of names, parameters and faulty bodies for four kinds of requests.", "anchors": ["src/request_validators.py: ResourceObjectGET.parse_request (240-249)", "src/request_validators.py: ResourceObjectPUT.parse_request (275-295)", "src/request_validators.py: ResourcesPOST.parse_request (321-340)", "src/request_validators.py: ResourceObjectPATCH.parse_request (818-868)", "src/request_validators.py: parse_requested_attributes"]}
{"id": "C84", "title": "Requests to modify a resource are answered with a report", "statement": "Parsing a request to modify a resource never raises: whatever operations a client sends, with values of whatever types, the outcome is a request and a report of issues.", "quantifier": "all schemas made by the constructors whose attribute names differ and whose sub-attributes are simple, all lists of operations in good order on existing attributes with lists for multi-valued complex ones and, without a path, an object; all queries whose lists hold texts", "why_tests_cant": "Operations combine kinds, paths with filters and sub-attributes, and values of any type; a crash needs one unlucky combination, and only an argument over all of them shows that the presence check of the request never subscripts a value of the wrong type.", "anchors": ["src/request_validators.py: ResourceObjectPATCH.parse_request (818-868)", "src/assets/schemas/patch_op.py: PatchOp.parse, _parse_remove_operation, _parse_add_or_replace_operation, _parse_operation_value (77-248)", "src/assets/schemas/patch_op.py: validate_operation_path (250-264)", "src/attributes_presence.py: AttributePresenceChecker.__call__", "src/data/container.py: SCIMDataContainer.get"]}
{"id": "C85", "title": "Responses about one resource and errors are served or refused with a report", "statement": "Preparing the response to a request to read, replace, create or modify a resource, or preparing an error, never raises: whatever document, status and chosen attributes the application gives, the outcome is a response and a report of issues.", "quantifier": "all schemas made by the constructors with meta.resourceType and meta.location whose attribute names differ, all statuses, presence checkers and documents whose numbers fit floats, whose texts are ASCII, whose keys are not empty and which use schema URIs as intended, all headers with a textual Location; for errors all headers", "why_tests_cant": "The document comes from the application and may have any type at any place; only an argument over all documents shows that the checks after a failed dump never subscript a value of the wrong type.", "anchors": ["src/request_validators.py: _dump_resource_output_body (177-223)", "src/request_validators.py: Error.dump_response (53-79)", "src/request_validators.py: ResourceObjectGET.dump_response, ResourceObjectPUT.dump_response, ResourcesPOST.dump_response, ResourceObjectPATCH.dump_response", "src/data/schemas.py: ResourceSchema.dump (404-418)", "src/attributes_presence.py: AttributePresenceChecker.__call__"]}
{"id": "C86", "title": "Requests to find resources are answered with a report", "statement": "Validating a query to list resources or a search request never raises: whatever filter, sorting, attribute names and numbers of results it gives, the outcome is a request and a report of issues.", "quantifier": "all queries whose lists hold texts and whose count and startIndex are texts, whole numbers or null; all search bodies whose numbers fit floats, whose texts are ASCII, whose keys are not empty and which use no schema URI as a key; except filters that hold a number out of range of floats, for which OverflowError is shown to be raised", "why_tests_cant": "The filter is free text and every parameter may be malformed in combination with every other; only an argument over all texts shows that the one exception left is a number too large.", "anchors": ["src/request_validators.py: parse_request_sorting, parse_request_filtering, parse_requested_attributes (365-432)", "src/request_validators.py: _parse_resources_get_request (552-618)", "src/assets/schemas/search_request.py: SearchRequest.parse (110-145)", "src/filter.py: Filter.parse"]}
{"id": "C87", "title": "Responses with several resources are served or refused with a report", "statement": "Preparing the response to a request to list resources never raises: whatever page, status, headers and chosen attributes the application gives, and whatever number of results was asked for, the outcome is a response and a report of issues.", "quantifier": "all schemas made by the constructors with meta.resourceType whose attribute names differ, all statuses, headers, start indexes, counts, presence checkers and pages whose numbers fit floats, whose texts are ASCII, whose keys are not empty and which use schema URIs as intended; with a filter or sorting KeyError is not excluded", "why_tests_cant": "The page comes from the application: its numbers may have any type, its resources may be no list or a list of anything, and the checks that follow read each of them again; only an argument over all pages shows that every one of these reads is guarded by the right part of the report.", "anchors": ["src/request_validators.py: _dump_resources_get_response (621-724)", "src/assets/schemas/list_response.py: ListResponse.dump"]}
