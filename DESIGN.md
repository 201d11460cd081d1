# Formal model of pyscim in Rocq

## Approach

The code is modelled as small total Gallina functions in `rocq/theories`, one
model file per source file (or part of it), mirroring the Python functions
branch by branch.  Exceptions are values (`res A := Ok a | Raise e`), mutation
becomes state passing, loops become structural recursion or recursion on fuel
with a proof that the fuel suffices.  Every definition cites the file and lines
it models and says where it simplifies.

Three kinds of files, all in `rocq/theories`:

* Model files contain definitions only, no proofs (list below).
* `*Spec.v` files hold the vocabulary of the properties.  They are written
  without the helper functions of the model: relations and predicates that say
  what should be true, in terms of documents, attribute names, reports.
* `*Facts.v` and similar files hold lemmas.  `Prop*.v` files hold the property
  theorems (`Cnn_...`, numbered as in `properties.jsonl`), with an `Example` that
  meets the hypotheses, and `Print Assumptions` for each theorem.

A theorem whose name ends in `_partial` proves less than the property says; the
note in `MANIFEST.json` says what is missing.  A theorem whose name ends in
`_refuted` gives a witness that the property as stated is false of the code.

## Modelling decisions

* Strings are lists of `ascii`, read as Python strings over code points
  0..255 with exact tables for `\w`, `\s`, `\d`, `str.lower` and `str.strip`.
  Code points above 255 are not modelled.
* Numbers: `int` is `Z`; `float` is an exact dyadic rational, infinity or NaN
  (-0.0 is identified with 0.0); conversions round to nearest even.
* Python values that a container can hold are the inductive type `value`.
* `dict` is an association list in insertion order.
* Issues: `ValidationError` is its code and its context strings (the message is
  determined by them); `ValidationIssues` is a pair of association lists.
* Containers are immutable values; `c[k] = v` returns the new container.
  Aliasing between containers is not modelled.
* `sorted` is modelled by a stable insertion sort.
* Environment parameters (type class `PyEnv`, not axioms):
  `datetime.fromisoformat`, `isoformat`, and `urlparse`'s verdict on absolute
  URLs.  Dates.v and Urls.v are computed instances of them (C73, C74).

## Trusted base

* The kernel of Coq 8.16.1 (type checker and `vm_compute`), and `coqchk`.
* `Print Assumptions` answers "Closed under the global context" for every
  theorem: no axiom is used, neither ours nor of the standard library.  `coqchk`
  lists the axioms of `Coq.ssr.ssrunder` because the standard library file is
  loaded; no theorem depends on them.
* The correspondence of the model with the Python text, which is by reading only.
  Nothing of the repository was executed.  Every definition cites the lines it
  stands for.
* The environment parameters above: theorems hold for every choice of them.

## What is modelled

| Source | Model | Left out |
| --- | --- | --- |
| `error.py` | Issues.v, Messages.v | what `str` and `repr` make of an argument |
| `utils.py`, `filter.py` | FilterParse.v | error contexts (only the codes), `repr` |
| `data/container.py` | AttrRep.v, Container.v | `repr`, aliasing of nested containers |
| `data/type.py` | Types.v, Base64.v, PyNum.v, Dates.v, Urls.v | |
| `data/attributes.py` | Attr.v, Making.v | `repr` |
| `data/operator.py` | Match.v | |
| `data/path.py` | Path.v, PathEq.v | comparison of a path with something that is no path |
| `data/schemas.py` | Schema.v | |
| `sorter.py` | Sort.v | timsort is replaced by a stable insertion sort |
| `attributes_presence.py` | Presence.v | |
| `assets/schemas/user.py`, `group.py`, `service_provider_config.py`, `resource_type.py`, `error.py` | Assets.v | descriptions |
| `assets/schemas/schema.py` | SchemaS.v | recursion of sub-attributes is bounded by a parameter |
| `assets/schemas/patch_op.py` | Patch.v | |
| `assets/schemas/bulk_ops.py` | Bulk.v | |
| `assets/schemas/search_request.py` | Search.v | |
| `assets/schemas/list_response.py` | ListResp.v | |
| `request_validators.py` | Requests.v | type annotations, `abc` machinery |
| `assets/config.py` | Config.v | floats as limits |
| `assets/scim_error.py` | ScimErrors.v | no code reads these documents |

PyBase.v and Value.v hold the Python built-ins the other files need.

## Plan per property

* **C01** Recorded issues are kept, in order, at their location. Issues.v models the report as two ordered association lists (errors, blocking codes). Spec: a history interpreter that, for a location, concatenates the errors contributed by each call. Induction over histories.
* **C02** has_issues is an exact prefix query. Issues.v; `has_issues` against existence of a recorded location with the given prefix.
* **C03** can_proceed is blocked exactly by blocking issues on the path. Issues.v; expected partial: `merge` touches a defaultdict, so a non-blocking issue becomes blocking when merged. Refutation by witness plus exact characterisation (blocked iff key present).
* **C04** get extracts exactly the sub-report. Issues.v; `get` against a filter over locations; get-then-merge law. KeyError of merging from a plain-dict copy is modelled.
* **C05** pop removes exactly the issues with the given code. Issues.v; `pop` modelled with the index-based iteration of a list that shrinks. Expected: refuted for adjacent duplicates, proved when the code occurs once at the location.
* **C06** The serialised report contains every error under its path. Issues.v; nested output tree, lookup by path.
* **C07** Attribute names: the parser accepts exactly the grammar. AttrRep.v; hand-written matcher for the regex, declarative grammar in the spec file, iff plus uniqueness.
* **C08** Attribute names: print/parse round trip. AttrRep.v; both directions of print/parse.
* **C09** Attribute name equality ignores case and is an equivalence for fixed schema presence. AttrRep.v; reflexive, symmetric, transitive on fixed schema presence; full transitivity refuted.
* **C10** Container: loading and dumping a document is lossless. Container.v; induction on documents; letter-case-distinct keys as a boolean predicate.
* **C11** Container: read after write. Container.v; get-after-set for each kind of attribute name.
* **C12** Container: a write changes nothing else. Container.v; frame law.
* **C13** Container: delete removes exactly one attribute. Container.v; delete law under the index invariant; orphan after mixed-case write shown separately.
* **C14** Container: no operation corrupts the key index. Container.v; invariant over operation sequences.
* **C15** Container equality. Container.v/PyEq; equality modelled with fuel = size; symmetric/reflexive expected to be refuted, exact characterisation proved on flat containers.
* **C16** Scalar attribute types accept exactly their JSON type and never alter the value. Types.v; direct case analysis on values.
* **C17** Integer and decimal conversion is exact. PyNum.v/Types.v; exact rationals for floats; raising on inf/nan/overflow expected (refuted never-raises).
* **C18** Binary accepts exactly canonical base64. Base64.v: byte-level encoder and CPython's non-strict decoder; theorem: accepted iff image of the encoder. Non-ASCII input raises (refuted never-raises).
* **C19** Dates: parse and dump agree. Types.v; datetime parsing/printing is an environment parameter (class PyEnv).
* **C20** Attribute parsing reports every rejection and rejects nothing silently. Attr.v; attributes as a nested inductive; induction over the definition.
* **C21** Canonical values are enforced exactly when requested. Attr.v.
* **C22** Multi-valued attributes are processed item by item. Attr.v.
* **C23** At most one primary item. Attr.v.
* **C24** Complex attributes keep exactly the declared sub-attributes. Attr.v + Container lemmas.
* **C25** Schema parsing keeps exactly the known attributes. Schema.v + Container lemmas.
* **C26** The schemas field is validated against the declared schemas. Schema.v; `required` flag of extensions is never read by the code - expected partial.
* **C27** Parsing a request document never raises. Schema.v; expected refuted (several crashing documents), with a sufficient condition proved.
* **C28** Attaching an extension only adds attributes. Schema.v.
* **C29** Requested attributes: only what was asked for is returned. Presence.v.
* **C30** Required attributes: missing iff required and absent. Presence.v.
* **C31** Attribute selection parameters parse completely. Presence.v.
* **C32** and / or do not depend on operand order. Match.v; three/four valued statuses, permutation lemma.
* **C33** Logical connectives follow their truth tables. Match.v.
* **C34** Unknown attributes never match. Match.v; expected refuted for `and`, partial for attribute operators and `or`.
* **C35** Lenient matching is weaker than strict matching. Match.v; induction over the operator tree; `not` evaluates its operand strictly.
* **C36** Comparison operators compare as specified. Match.v.
* **C37** Order operators are consistent. Match.v.
* **C38** A complex filter matches iff one item satisfies all of it. Match.v.
* **C39** Filter parsing terminates on every string. FilterParse.v; recursion on fuel = length of the text; proof that the fuel is never exhausted.
* **C40** Filter parsing: Invalid exactly when issues are reported. FilterParse.v.
* **C41** Filter round trip: printing then parsing restores the filter. FilterParse.v; printer in the spec file; expected partial because placeholder indexes of groups and complex operators collide.
* **C42** Precedence of not, and, or. FilterParse.v.
* **C43** String literals are opaque. FilterParse.v.
* **C44** Number, boolean and null literals. FilterParse.v + PyNum.v.
* **C45** Filter equality is an equivalence respecting meaning. FilterParse.v/FilterEq.
* **C46** Sorting permutes, orders and is stable. Sorter.v; `sorted` modelled as stable insertion sort with a comparison that may raise.
* **C47** Items without a sort value go last (ascending) / first (descending). Sorter.v.
* **C48** Sorting is idempotent. Sorter.v.
* **C49** Patch paths: accepted syntax and structure. Path.v.
* **C50** Patch operations cannot modify read-only attributes. Patch.v.
* **C51** Patch remove protects required attributes. Patch.v.
* **C52** Bulk limits are enforced. Bulk.v.
* **C53** No body leaves a validator when issues were found. Requests.v.
* **C54** PUT ignores read-only attributes. Requests.v.
* **C55** Status codes and location headers are checked exactly. Requests.v.
* **C56** List responses: pagination arithmetic. Requests.v.
* **C57** List responses: every resource matches the filter. Requests.v.
* **C58** Patch operations: what is wrong with an operation as a whole is reported, and only there. Patch.v; `shape_fault` lists the three faults.
* **C59** Patch operations: accepted operations are kept. Patch.v; the parsed operation holds kind, path and the value as the target attribute parses it.
* **C60** Bulk requests: each operation is judged like the request it stands for. Requests.v, Bulk.v; `bulk_fault` lists the faults of an operation, `alone` the single request.
* **C61** Bulk requests: accepted operations are kept. Requests.v; `carried` says what the parsed operation holds.
* **C62** List requests: the query. Requests.v; parameter by parameter what the parsed query holds and what is reported.
* **C63** Search requests. Search.v, Requests.v; field by field what is reported and what the accepted body holds.
* **C64** Self-description. SchemaS.v, Attr.v to_dict, Schema.v; every characteristic of every attribute at any depth, before and after the schema of schemas.
* **C65** Bulk responses: each operation is judged like the response it stands for. Requests.v, Bulk.v; `answer_fault` lists the faults of an operation, `sent_alone` the single response, `judges` the schema it is judged by.
* **C66** Bulk responses: accepted operations are kept. Requests.v; `answer_kept` says what the dumped operation holds.
* **C67** List responses: every resource is judged like the response with it alone. ListResp.v, Requests.v; `belongs` says which schema a resource has, `own` what is wrong with it by itself, without the model's schema inference.
* **C68** List responses: accepted resources and numbers are kept. ListResp.v, Requests.v; compared with the bodies of the responses with each resource alone.
* **C69** The configuration of a server. Config.v; `states` and `is_set` say what the arguments state, `lacks` that a limit is missing.
* **C70** Reading twice. Attr.v, Schema.v; `silent` is an empty report, `steady` names the attributes whose processors only judge (all attributes of the shipped resource schemas), `dated` says that a date occurs.
* **C71** There and back. Attr.v, Types.v, Schema.v; `restated` relates a document to the same document with dates as texts, `faithful_dates` is what is asked of Python's `isoformat` and `fromisoformat`.
* **C72** To JSON and back. Container.v (`to_dict`, `mk_cont`), Schema.v; `json` is the JSON-like data of C10 (any float counts, also the ones JSON texts have no numeral for), `typed` says that no attribute was left without a type.
* **C73** Dates. Dates.v computes `datetime.fromisoformat` and `isoformat` of CPython 3.11 (`iso_env` is the environment with them; URLs stay a parameter); it was written from the standard library's text and its results were compared with the standard library's own on random texts, outside the repository's code. The specification counts days year by year and month by month (`days_to_year`, `days_to_month`) and writes texts with its own figures (`written`).
* **C74** URLs. Urls.v computes what `urlparse` of CPython 3.11 finds (scheme and network location, or ValueError), with the checks of hosts in brackets; its results were compared with the standard library's own on random texts. `py311` is the environment with Dates.v and Urls.v, in which no parameter is left. The specification builds URLs from their parts (`absolute`, `bare`, `boxed`, `six`); HostSpec.v adds everything that may stand in brackets (`literal`) and where the brackets stand (`boxes`), which makes C74_exact an equivalence for all texts.
* **C75** Messages. Messages.v has the 48 templates and constructors, and `str.format` for the fields they use (`{name}`, `{name!r}`, doubled braces). The specification says what a filled template is character by character (`filled`). `plausible` restricts two constructors to the arguments the library passes. Issues.v compares codes and contexts; C75_codes justifies comparing codes.
* **C76** Conforming documents. Attr.v, Types.v, Schema.v; ConformSpec.v says without any of the model's functions what an attribute reads (`reads`, an inductive relation over types, lists and objects) and when a document conforms (`conforms`); `usual` is JSON data without empty keys, `steady` as in C70, `regular` as in C25.
* **C77** The schemas endpoint. SchemaS.v, ListResp.v, Requests.v (`list_dump_response`, `config_parse_request`), Presence.v; CatalogSpec.v says what a document tells about a schema (`tells_schema`, with `describes` of C64) and what the list response looks like before it is dumped (`catalog`). The body is read through a container, the way a client of the library would.
* **C78** Self-description. Assets.v (`spc_schema`, `resource_type_schema`), Config.v; ServedSpec.v has the document stating a configuration or a resource type and what a document tells. The library has no validator for the configuration endpoint; the theorem uses that of single resources (ResourceObjectGET) with the ServiceProviderConfig schema.
* **C79** Declaring and comparing attributes. Making.v has the two constructors with the identity of callbacks (`callback`), the caller's lists after the construction, and `__eq__`; `behave` gives the attribute of Attr.v, for any functions behind the callbacks. MakingSpec.v says which names and reference types fit and when a text is among the declared values. Canonical values are lists of the literals of Value.v; nan never equals anything.
* **C80** Errors. Requests.v (`error_dump`), Assets.v (`error_schema`), ScimErrors.v (the ten documents of assets/scim_error.py); FaultSpec.v has the document of an error and what a document tells of it.
* **C81** Equal paths. PathEq.v (`path_eq`); PathEqSpec.v says when two paths are the same (names up to letter case, no schema is any schema; `same_filter` of FilterSpec.v) and when they are equally specific.
* **C82** Requests are answered. AnswerSpec.v (`standard`: the checks a constructor gives to complex attributes; `textual_query`: lists in a query hold texts). AnswerFacts.v carries `whole` — each attribute a schema knows reads as something of its own kind — through parsing, the presence check and the stripping of read-only attributes. Left out, with witnesses: the kinds of documents C27 refutes, queries with lists of other values, patches without operations, bulk requests without body, name clashes between a core attribute and a complex attribute of an extension.
* **C83** Queries of requests about one resource. QuerySpec.v (`object_request`: one of the four requests; `in_body`); names, comma lists and places as in C62. Shown for parameters given as texts; lists are in C31, and C82_query_refuted has lists that raise.
* **C84** Requests to modify a resource are answered. PatchAnswerSpec.v: `workable` (an operation with a value to work on), `apt` (its targets exist, and multi-valued complex attributes get lists), `flat` (no complex sub-attributes). Requests that are workable are read; those that are also apt are answered. Each of the two conditions is needed (the refutations): unknown targets, null or no value, texts where lists belong and read-only lists end in a TypeError.
* **C85** Responses about one resource and errors are served or refused with a report. ReplySpec.v: `standard_in` (the checks the constructors leave, for either direction), `has_sub`, `plain_headers`. Documents as in C27; headers are none or a dictionary whose "Location" is a text. Refuted for a number among the schemas and for headers that are a list.
* **C86** Requests to find resources are answered with a report. FindAnswerSpec.v: `plain_query` (lists hold texts, numbers of results are texts, whole numbers or null). Search bodies as in C27. The one exception left is OverflowError, raised exactly when the parser of filters raises it, which C44_overflow describes for single comparisons. Refuted without these conditions.
* **C87** Responses with several resources are served or refused with a report. PageSpec.v: `placed_resources` (each resource of the page uses URIs as in C27). One schema; with a filter or sorting nothing but KeyError may be raised (AskFacts.v: matching and sorting never overflow and comparison never runs out of fuel, and the other exceptions are caught); several schemas are refuted by C67_raises_refuted, documents outside the conditions by C87_page_refuted.
