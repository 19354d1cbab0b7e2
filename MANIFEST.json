{
 "claims": [
  {
   "property": "C01",
   "status": "proved",
   "theorems": [
    "C01_security_names_defined"
   ],
   "note": "All programs of builder calls, all hash map orders, thing and affordance forms."
  },
  {
   "property": "C02",
   "status": "proved",
   "theorems": [
    "C02_security_definitions_kept",
    "C02_same_name_fails"
   ],
   "note": "Content, key, required flag and order of every declared scheme; a repeated key fails."
  },
  {
   "property": "C03",
   "status": "proved",
   "theorems": [
    "C03_combo_refers_to_defined"
   ],
   "note": "Both oneOf and allOf combos."
  },
  {
   "property": "C04",
   "status": "proved",
   "theorems": [
    "C04_thing_form_ops"
   ],
   "note": "Every thing level form has a non-empty explicit operation list drawn from the nine thing level operations."
  },
  {
   "property": "C05",
   "status": "proved",
   "theorems": [
    "C05_affordance_form_ops"
   ],
   "note": "All three kinds."
  },
  {
   "property": "C06",
   "status": "partial",
   "theorems": [
    "C06_thing_responses_partial",
    "C06_affordance_responses_refuted",
    "C06_affordance_responses_ignored"
   ],
   "note": "Proved for thing level forms; refuted for affordance forms. C06_affordance_responses_ignored: the responses of affordance forms have no influence on build at all (same verdict, same error, same thing up to them)."
  },
  {
   "property": "C07",
   "status": "proved",
   "theorems": [
    "C07_affordances_kept",
    "C07_same_name_fails"
   ],
   "note": "Names unique per kind, maps hold exactly the declared affordances; a repeated name fails."
  },
  {
   "property": "C08",
   "status": "proved",
   "theorems": [
    "C08_bounds_sane"
   ],
   "note": "Every schema at every depth of the validated positions."
  },
  {
   "property": "C09",
   "status": "partial",
   "theorems": [
    "C09_unchecked_bounds_refuted",
    "C09_definitions_never_validated",
    "C09_variables_never_validated",
    "C09_responses_never_validated"
   ],
   "note": "Refuted with a witness: schemaDefinitions, uriVariables and dataResponse are not validated. The three C09_*_never_validated theorems say so for every schema: adding one there to calls that build still builds, whatever its bounds."
  },
  {
   "property": "C10",
   "status": "proved",
   "theorems": [
    "C10_uri_variables_simple"
   ],
   "note": "Thing and affordance URI variables."
  },
  {
   "property": "C11",
   "status": "proved",
   "theorems": [
    "C11_tags_parsed",
    "C11_tags_accepted",
    "C11_bad_tag_fails"
   ],
   "note": "Tags in the thing are results of the tag parser (accepted again if the parser is idempotent); one bad tag anywhere fails the build. The tag grammar itself is an external parser, a parameter of the model."
  },
  {
   "property": "C12",
   "status": "proved",
   "theorems": [
    "C12_sizes_only_on_icons"
   ],
   "note": ""
  },
  {
   "property": "C13",
   "status": "proved",
   "theorems": [
    "C13_build_iff_consistent"
   ],
   "note": "Every well typed program declares exactly one description and succeeds exactly when it is consistent; no panic."
  },
  {
   "property": "C14",
   "status": "partial",
   "theorems": [
    "C14_errors_name_defects_partial",
    "C14_missing_schema_refuted"
   ],
   "note": "Every error names a defect of the description, where MissingSchemaDefinition may also stand for an undefined scheme of a combo; the strict reading is refuted with that witness."
  },
  {
   "property": "C15",
   "status": "proved",
   "theorems": [
    "C15_content_declared",
    "C15_content_unique"
   ],
   "note": "All members, all nesting levels; the relation determines the thing when the tag parser is injective."
  },
  {
   "property": "C16",
   "status": "proved",
   "theorems": [
    "C16_context"
   ],
   "note": ""
  },
  {
   "property": "C17",
   "status": "proved",
   "theorems": [
    "C17_empty_absent",
    "C17_empty_absent_nested"
   ],
   "note": "Thing level collections, hreflang and affordance level uriVariables."
  },
  {
   "property": "C18",
   "status": "partial",
   "theorems": [
    "C18_order_success",
    "C18_order_thing_partial",
    "C18_order_exact",
    "C18_order_thing_refuted"
   ],
   "note": "Success never depends on the order. C18_order_exact: the thing is the same under all orders if and only if no language map gives different texts for two tags that are recorded alike; refuted without that proviso."
  },
  {
   "property": "C19",
   "status": "proved",
   "theorems": [
    "C19_calls_commute",
    "C19_finish_commutes"
   ],
   "note": "Adjacent calls on different members; finish_extend may be moved wherever the program still type checks."
  },
  {
   "property": "C20",
   "status": "proved",
   "theorems": [
    "C20_form",
    "C20_property",
    "C20_action",
    "C20_event",
    "C20_data_schema",
    "C20_thing",
    "C20_thing_calls",
    "C20_thing_then"
   ],
   "note": "Form, property, action, event, data schema and thing builders; any interleaving of ext and other calls."
  },
  {
   "property": "C21",
   "status": "proved",
   "theorems": [
    "C21_not_read_and_write_only",
    "C21_flags_set",
    "C21_in_things"
   ],
   "note": "For every schema builder program at every nesting depth, and for every schema of every built Thing."
  },
  {
   "property": "C22",
   "status": "proved",
   "theorems": [
    "C22_one_specialization",
    "C22_in_things"
   ],
   "note": "For every schema builder program at every nesting depth, and for every schema of every built Thing."
  },
  {
   "property": "C23",
   "status": "proved",
   "theorems": [
    "C23_required_declared",
    "C23_in_things"
   ],
   "note": "For every schema builder program at every nesting depth, and for every schema of every built Thing."
  },
  {
   "property": "C24",
   "status": "proved",
   "theorems": [
    "C24_constants",
    "C24_nested_constants",
    "C24_in_things"
   ],
   "note": "constant(v) anywhere in a program; nested constants and Things as well."
  },
  {
   "property": "C25",
   "status": "proved",
   "theorems": [
    "C25_content_declared",
    "C25_content_unique"
   ],
   "note": "ds_says (SpecCalls.v) is the independent reading of a program; it determines the schema uniquely."
  },
  {
   "property": "C26",
   "status": "partial",
   "theorems": [
    "C26_accepted_iff_inhabited_refuted",
    "C26_inclusive_partial",
    "C26_exclusive_partial",
    "C26_mixed_rejected"
   ],
   "note": "False of the code in both directions (C26_accepted_iff_inhabited_refuted). Proved: inclusive bounds (iff), exclusive bounds (exact deviation: equal, or consecutive integers), mixed kinds are always rejected."
  },
  {
   "property": "C27",
   "status": "proved",
   "theorems": [
    "C27_reverse",
    "C27_greater_is_empty"
   ],
   "note": "For i64 and f64 (spec_float), NaN and signed zeros included."
  },
  {
   "property": "C28",
   "status": "proved",
   "theorems": [
    "C28_lawful",
    "C28_inclusion",
    "C28_inclusion_numbers",
    "C28_float_order_is_numeric"
   ],
   "note": "Inclusion both over the values of the type and over rationals; float comparison is proved to be numeric comparison."
  },
  {
   "property": "C29",
   "status": "partial",
   "theorems": [
    "C29_sound",
    "C29_thing_exact",
    "C29_property_exact",
    "C29_action_exact",
    "C29_event_exact",
    "C29_form_exact",
    "C29_thing_partial",
    "C29_text_partial",
    "C29_property_partial",
    "C29_action_partial",
    "C29_event_partial",
    "C29_form_partial",
    "C29_link",
    "C29_version",
    "C29_add_resp",
    "C29_bindings",
    "C29_refuted"
   ],
   "note": "Proved for every Thing meeting thing_ok (both writers, all affordances, any depth, any extensions with the round trip law, which the bundled bindings and their combinations meet). Refuted in general: empty operation lists, properties with differing affordance/schema titles, impostor custom schemes, unwritable dates. C29_*_exact: for every value the Rust types allow, it comes back if and only if these conditions hold, so the list of exceptions is complete."
  },
  {
   "property": "C30",
   "status": "partial",
   "theorems": [
    "C30_exact",
    "C30_schema_partial",
    "C30_refuted"
   ],
   "note": "Proved at any depth for schemas without null constants/defaults and with finite floats; both exceptions refuted with witnesses. C30_exact: these are the only exceptions."
  },
  {
   "property": "C31",
   "status": "partial",
   "theorems": [
    "C31_ops_partial",
    "C31_form_partial",
    "C31_refuted"
   ],
   "note": "Proved for all operation lists but the empty one; omitted exactly for the default. OpCustom [] refuted."
  },
  {
   "property": "C32",
   "status": "partial",
   "theorems": [
    "C32_exact",
    "C32_security_partial",
    "C32_known",
    "C32_refuted"
   ],
   "note": "All known schemes unconditionally; custom schemes with an own name, object data and no clashing member. Refuted with four witnesses otherwise. C32_exact: an if-and-only-if for every scheme the Rust types allow, with a description of the custom schemes that look like known ones."
  },
  {
   "property": "C33",
   "status": "partial",
   "theorems": [
    "C33_form",
    "C33_header",
    "C33_response",
    "C33_response_refuted",
    "C33_whole_form"
   ],
   "note": "Forms and headers always round trip; a response does exactly if it has a header (refuted otherwise: headers is skipped when empty but required on reading)."
  },
  {
   "property": "C34",
   "status": "partial",
   "theorems": [
    "C34_text_partial",
    "C34_value",
    "C34_titled_refuted",
    "C34_refuted"
   ],
   "note": "Exact: the text has no repeated member and parses back if and only if the Thing survives as a value and no property has a title, description or type (C34_text_partial). Refuted in general: C34_titled_refuted shows that the text of every Thing with, say, a titled property (as built or read) cannot be parsed. The value writer never repeats members."
  },
  {
   "property": "C35",
   "status": "proved",
   "theorems": [
    "C35_thing",
    "C35_property",
    "C35_action",
    "C35_event",
    "C35_form",
    "C35_link",
    "C35_schema",
    "C35_one_member",
    "C35_bindings"
   ],
   "note": "At any depth, for Things, affordances, forms, links and schemas; extensions are assumed to look only at their own names, which the bindings are shown to do."
  },
  {
   "property": "C36",
   "status": "partial",
   "theorems": [
    "C36_thing_partial",
    "C36_schema_partial",
    "C36_bindings",
    "C36_refuted",
    "C36_thing_shuffled",
    "C36_schema_shuffled",
    "C36_bindings_shuffled",
    "C36_reordered_is_shuffled",
    "C36_rivals_matter"
   ],
   "note": "As stated it fails: with both maximum and exclusiveMaximum the first one counts, so order matters (C36_refuted). Proved for every reordering that keeps the order of such pairs (if one is a number) and of repeated members (C36_*_shuffled); swapping the two forms of a bound of a number schema always changes what is read (C36_rivals_matter)."
  },
  {
   "property": "C37",
   "status": "proved",
   "theorems": [
    "C37_thing",
    "C37_property",
    "C37_action",
    "C37_event",
    "C37_form",
    "C37_schema",
    "C37_security",
    "C37_link",
    "C37_add_resp",
    "C37_version"
   ],
   "note": "Every optional member of every struct, over all documents."
  },
  {
   "property": "C38",
   "status": "proved",
   "theorems": [
    "C38_thing",
    "C38_property",
    "C38_action",
    "C38_event",
    "C38_form",
    "C38_link",
    "C38_version",
    "C38_exp_resp"
   ],
   "note": "At any depth of the document."
  },
  {
   "property": "C39",
   "status": "partial",
   "theorems": [
    "C39_own_partial",
    "C39_typed_partial",
    "C39_refuted"
   ],
   "note": "Malformed common members are rejected; for malformed type specific members the schema read, if any, has lost its type. The property as stated is refuted with three witnesses."
  },
  {
   "property": "C40",
   "status": "proved",
   "theorems": [
    "C40_cons",
    "C40_split_last",
    "C40_reverse",
    "C40_reverse_twice",
    "C40_to_ref",
    "C40_to_ref_all"
   ],
   "note": "Lists of any length and any element types; mutation through a reference included."
  },
  {
   "property": "C41",
   "status": "proved",
   "theorems": [
    "C41_written",
    "C41_round_trip",
    "C41_things"
   ],
   "note": "Any nesting of Cons and Nil over extensions that round trip by themselves and use disjoint names; counterexample without disjointness."
  },
  {
   "property": "C42",
   "status": "proved",
   "theorems": [
    "C42_block",
    "C42_block_sizes",
    "C42_ranges",
    "C42_response_range",
    "C42_form",
    "C42_response"
   ],
   "note": "All values in the range of their Rust integer types; all JSON numbers."
  },
  {
   "property": "C43",
   "status": "proved",
   "theorems": [
    "C43_names",
    "C43_one_to_one"
   ],
   "note": "td_operations is the table of the specification; writer, reader and Display agree with it in both directions."
  },
  {
   "property": "C44",
   "status": "partial",
   "theorems": [
    "C44_exact",
    "C44_text_exact",
    "C44_schema",
    "C44_second_round",
    "C44_thing_partial",
    "C44_text_partial",
    "C44_refuted"
   ],
   "note": "Data schemas: proved for all documents. Things: whatever was written once as a value and read is stable (C44_second_round); documents without repeated members are stable if no form has an empty operation list or an empty header list. Those two, repeated members in security schemes, and (as text) titled properties are refuted with witnesses. C44_exact and C44_text_exact characterise exactly which Things that were read are read again as value and as text."
  },
  {
   "property": "C45",
   "status": "partial",
   "theorems": [
    "C45_typed",
    "C45_partial",
    "C45_exact",
    "C45_text_partial",
    "C45_titled_refuted",
    "C45_refuted"
   ],
   "note": "False as stated (C45_refuted: constant null, infinite bound, custom scheme named like a known one, unwritable date, response without headers; as text any property with a title). Proved: what is built from well-typed arguments meets the invariants of the types; it survives as a value if the arguments meet args_ok, and exactly if the Thing meets thing_ok; as text exactly if in addition no property is given a title, description or type."
  },
  {
   "property": "C46",
   "status": "partial",
   "theorems": [
    "C46_security_partial",
    "C46_forms_partial",
    "C46_refuted"
   ],
   "note": "False as stated (C46_refuted: built without security and without forms). Proved: there is a security entry exactly if a scheme was declared required; every affordance has a form exactly if every affordance kept was given one."
  },
  {
   "property": "C47",
   "status": "partial",
   "theorems": [
    "C47_read_thing_partial",
    "C47_read_property_partial",
    "C47_read_action",
    "C47_read_event_partial",
    "C47_read_form",
    "C47_read_schema_partial",
    "C47_read_security",
    "C47_read_others",
    "C47_write_thing_partial",
    "C47_write_property_partial",
    "C47_write_action_partial",
    "C47_write_event_partial",
    "C47_write_form_partial",
    "C47_write_schema_partial",
    "C47_write_security_partial",
    "C47_write_link",
    "C47_write_add_resp",
    "C47_write_version",
    "C47_refuted"
   ],
   "note": "All members but three, reading and writing. min_items, max_items and data_response refuted."
  },
  {
   "property": "C48",
   "status": "proved",
   "theorems": [
    "C48_form",
    "C48_members",
    "C48_filter"
   ],
   "note": ""
  },
  {
   "property": "C49",
   "status": "partial",
   "theorems": [
    "C49_thing",
    "C49_property",
    "C49_action",
    "C49_event",
    "C49_form",
    "C49_link",
    "C49_schema",
    "C49_security",
    "C49_write_form",
    "C49_write_link",
    "C49_write_schema",
    "C49_write_affordances",
    "C49_write_thing",
    "C49_write_security",
    "C49_bare",
    "C49_refuted"
   ],
   "note": "Reading proved for all one-or-many members at any depth; writing proved for all but op, refuted for op."
  },
  {
   "property": "C50",
   "status": "partial",
   "theorems": [
    "C50_non_finite_refuted",
    "C50_no_nan_partial",
    "C50_number_exact",
    "C50_given",
    "C50_finite_given"
   ],
   "note": "False of the code for infinities and a NaN multipleOf (C50_non_finite_refuted). Proved: no NaN bound in a checked schema; exactly which number schemas build (C50_number_exact); the builder makes up no number, so with finite arguments every number of the Thing is finite (C50_given, C50_finite_given)."
  },
  {
   "property": "C51",
   "status": "partial",
   "theorems": [
    "C51_equal",
    "C51_reflexive_partial",
    "C51_symmetric",
    "C51_transitive",
    "C51_back",
    "C51_extensions",
    "C51_refuted",
    "C51_read"
   ],
   "note": "Reflexivity is false as stated (C51_refuted: multiple_of(NaN) builds a Thing that is not equal to itself). Proved: == holds exactly between Things without NaN that are the same up to the sign of zeros and the representation of dates; reflexive exactly without NaN; symmetric; transitive; a Thing that survives exchange is == to the one read back; equality of the protocol bindings and of lists of extensions is exact. C51_read: every Thing that is read is equal to itself."
  },
  {
   "property": "C52",
   "status": "proved",
   "theorems": [
    "C52_thing",
    "C52_finite",
    "C52_extensions"
   ],
   "note": "C52_thing: the invariants (thing_typed); C52_finite: finite numbers; C52_extensions: HTTP, CoAP, MQTT and their combinations meet the hypothesis."
  },
  {
   "property": "C53",
   "status": "partial",
   "theorems": [
    "C53_read",
    "C53_schema",
    "C53_security",
    "C53_oauth2_new",
    "C53_version",
    "C53_response_partial",
    "C53_thing_partial",
    "C53_least_thing",
    "C53_built",
    "C53_written",
    "C53_thing_written",
    "C53_least",
    "C53_extensions",
    "C53_context_refuted",
    "C53_http_response_refuted",
    "C53_unknown_refuted"
   ],
   "note": "Proved for all types but three, refuted with witnesses: Thing::default() has null for context (C53_context_refuted; otherwise it agrees, C53_thing_partial, C53_least_thing), the default HTTP response is written without headers and cannot be read (C53_http_response_refuted), the default custom security scheme has data null but {} is read (C53_unknown_refuted)."
  },
  {
   "property": "C54",
   "status": "proved",
   "theorems": [
    "C54_calls",
    "C54_schema",
    "C54_check",
    "C54_build",
    "C54_error",
    "C54_refines_schema",
    "C54_refines_property",
    "C54_refines_properties",
    "C54_no_text",
    "C54_all_calls_refuted"
   ],
   "note": "Proved: same calls but the string setters, same schema member by member, same check, same build, refinement of the merged model. Refuted (C54_all_calls_refuted): that a property offers every call a schema offers; minLength, maxLength, pattern, contentEncoding and contentMediaType cannot be set on a property (C54_no_text)."
  },
  {
   "property": "C55",
   "status": "partial",
   "theorems": [
    "C55_shape_partial",
    "C55_survives_partial",
    "C55_refuted"
   ],
   "note": "Proved as an equivalence: what is written for a well-typed Thing (whose custom schemes leave the names of the specification alone and whose dates can be read) conforms exactly if no list of operations is empty, no version lacks its model and no number is infinite (C55_shape_partial). Refuted without these conditions, with Things built or read (C55_refuted): a version without a model is written as \"model\": null."
  },
  {
   "property": "C56",
   "status": "partial",
   "theorems": [
    "C56_read_with_partial",
    "C56_bindings",
    "C56_read_partial",
    "C56_no_responses_partial",
    "C56_schema",
    "C56_crate",
    "C56_refuted"
   ],
   "note": "Proved for documents without repeated members whose extension members are as the extensions expect, for HTTP, CoAP and MQTT, alone and combined (C56_read_with_partial, C56_bindings), and for documents without members of extensions; HTTP responses must have headers. A schema keeps the type it states if its numbers are in range (C56_schema). Refuted (C56_refuted): an HTTP response without headers, unknown methods, block sizes and qualities of service conform but are not read; a fractional multipleOf of an integer loses the type."
  },
  {
   "property": "C57",
   "status": "proved",
   "theorems": [
    "C57_http_written",
    "C57_coap_written",
    "C57_mqtt_written",
    "C57_http_read",
    "C57_coap_read",
    "C57_mqtt_read",
    "C57_http_accepted",
    "C57_http_response_accepted",
    "C57_coap_accepted",
    "C57_mqtt_accepted",
    "C57_http_unknown",
    "C57_coap_unknown_method",
    "C57_coap_unknown_block",
    "C57_mqtt_unknown_packet",
    "C57_mqtt_unknown_qos"
   ],
   "note": "Both directions against an independent table (SpecVocab.v), for whole forms with their expected responses; numbers in the range of their Rust types and HTTP responses with a header (C33). A value null counts as saying nothing only when reading and is left out of the statement."
  },
  {
   "property": "C58",
   "status": "proved",
   "theorems": [
    "C58_schema",
    "C58_link",
    "C58_security",
    "C58_form",
    "C58_property",
    "C58_action",
    "C58_event",
    "C58_thing"
   ],
   "note": "Both directions, for every builder. The Rust type parameters are modelled by partial steps; that rustc accepts exactly those chains is a reading of the impl blocks. One over-approximation: unit, format and default_value on a property builder before finish_extend are always possible in the model, in Rust only if the extension starts complete."
  },
  {
   "property": "C59",
   "status": "proved",
   "theorems": [
    "C59_messages_apart",
    "C59_has_message",
    "C59_name_quoted",
    "C59_operation_named",
    "C59_kind_named"
   ],
   "note": "The messages are those of the thiserror attributes; formatting of placeholders is concatenation."
  },
  {
   "property": "C60",
   "status": "proved",
   "theorems": [
    "C60_writable",
    "C60_text_and_value",
    "C60_parts",
    "C60_bindings"
   ],
   "note": "The only remark: a Thing can be built although it cannot be written (C60_used); what writing needs is stated exactly by C60_writable."
  },
  {
   "property": "C61",
   "status": "proved",
   "theorems": [
    "C61_fields",
    "C61_tells_apart",
    "C61_bindings",
    "C61_copy"
   ],
   "note": "Output is compared as a tree, not as text. Dates are printed by the time crate and assumed to be told apart; for extensions it is a hypothesis, proved for the bindings and their combinations."
  },
  {
   "property": "C62",
   "status": "proved",
   "theorems": [
    "C62_reordered",
    "C62_affordances_any_order",
    "C62_error_refuted"
   ],
   "note": "C62_reordered: any sequence of exchanges of exchangeable neighbours (SpecReorder.v) keeps success, the Thing and typability. C62_affordances_any_order: any permutation of a block of affordance declarations. C62_error_refuted: the error itself does depend on the order, so the claim is about success and the Thing. C62_used shows pairs outside the relation whose order is recorded."
  },
  {
   "property": "C63",
   "status": "proved",
   "theorems": [
    "C63_schema_exact",
    "C63_thing_only",
    "C63_thing_exact"
   ],
   "note": "C63_schema_exact: the data schemas some program of calls makes are exactly those meeting the conditions of SpecMade.v, which mention only the value; the program is constructed by induction on the nesting. C63_thing_only: every Thing a program builds meets [thing_made], for any iteration order and any tag parser. C63_thing_exact: and every Thing meeting it is built by some program, if the tag parser reads the tags it writes as themselves (the real one returns the tag given). C63_used, C63_things_used: the lamp and further values are made; values breaking one condition each are made by no program."
  },
  {
   "property": "C64",
   "status": "proved",
   "theorems": [
    "C64_first_defect",
    "C64_same_place"
   ],
   "note": "Positions and defects are defined in SpecFirst.v. C64_same_place: the iteration order of the maps leaves the position of the reported defect unchanged."
  },
  {
   "property": "C65",
   "status": "proved",
   "theorems": [
    "C65_at_most",
    "C65_consistent",
    "C65_exact",
    "C65_not_built"
   ],
   "note": "Errors left to build: SpecLax.v; their meaning: defect in SpecThing.v. C65_exact is for the http extensions, C65_at_most, C65_consistent and C65_not_built for all. C65_not_built assumes that the tag parser returns what it accepts unchanged when parsed again."
  },
  {
   "property": "C66",
   "status": "proved",
   "theorems": [
    "C66_separate",
    "C66_content",
    "C66_left_out"
   ],
   "note": "Declarations and the rest of a program: SpecApart.v. Security definitions, schema definitions and URI variables of the Thing belong to the rest: forms refer to the first two by name."
  },
  {
   "property": "C67",
   "status": "partial",
   "theorems": [
    "C67_document",
    "C67_deep",
    "C67_injective",
    "C67_image",
    "C67_value",
    "C67_thing",
    "C67_deep_refuted"
   ],
   "note": "C67_document, C67_deep: read back exactly up to 127 levels. C67_value, C67_thing: Things through Value and directly, combined with the conditions of C29 and C34. C67_injective: at any depth. C67_image: what is read is in range. Refuted beyond the limit: C67_deep_refuted, schemas of 125 nested arrays are built, their documents are read, their texts are not. Floats are parameters: the theorems ask that the floats of the document are written as numbers and read as themselves. C69 says how deep a Thing may be."
  },
  {
   "property": "C68",
   "status": "proved",
   "theorems": [
    "C68_exact",
    "C68_unique",
    "C68_written",
    "C68_thing"
   ],
   "note": "C68_exact: sound and complete for the grammar, which is stated separately in SpecSyntax.v. C68_unique: unambiguous. C68_written, C68_thing: what is written is in the grammar. The reader is the model of serde_json's; ignored members are read like others (DESIGN, not modelled)."
  },
  {
   "property": "C69",
   "status": "proved",
   "theorems": [
    "C69_bound",
    "C69_sharp",
    "C69_sixty",
    "C69_least",
    "C69_refused",
    "C69_bindings"
   ],
   "note": "Bound, sharpness, the consequence for texts in both directions; the HTTP, CoAP and MQTT extensions write at most two levels."
  },
  {
   "property": "C70",
   "status": "proved",
   "theorems": [
    "C70_floats",
    "C70_given",
    "C70_depth",
    "C70_text",
    "C70_bindings"
   ],
   "note": "Where the floats come from, the depth, and the round trip through text with all hypotheses on the arguments of the calls."
  },
  {
   "property": "C71",
   "status": "proved",
   "theorems": [
    "C71_written",
    "C71_read",
    "C71_faithful",
    "C71_document",
    "C71_built"
   ],
   "note": "For a writer and reader of our own (ExactFloats.v), not those of serde_json; how numbers between two floats are rounded is not part of the claim."
  },
  {
   "property": "C72",
   "status": "proved",
   "theorems": [
    "C72_order",
    "C72_written",
    "C72_read",
    "C72_text",
    "C72_built",
    "C72_value",
    "C72_same"
   ],
   "note": "Each map may be in an order of its own. Hash maps inside extensions are not rearranged; the bindings of the crate have none."
  },
  {
   "property": "C73",
   "status": "proved",
   "theorems": [
    "C73_link",
    "C73_response",
    "C73_version",
    "C73_header",
    "C73_blockwise",
    "C73_same",
    "C73_rows",
    "C73_objects"
   ],
   "note": "In the derived visit_seq, Option members without #[serde(default)] must be present; trusted as read from serde_derive."
  },
  {
   "property": "C74",
   "status": "proved",
   "theorems": [
    "C74_schema",
    "C74_property",
    "C74_action",
    "C74_forms",
    "C74_form",
    "C74_response",
    "C74_version",
    "C74_mqtt",
    "C74_http"
   ],
   "note": "For extensions that survive being written and use names of their own."
  }
 ]
}