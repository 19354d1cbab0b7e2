{"id": "C01", "title": "Every security name used in a built Thing is defined", "statement": "If ThingBuilder::build returns Ok(thing), then every name in thing.security, in the security list of every thing-level form and in the security list of every form of every property, action and event is a key of thing.securityDefinitions.", "quantifier": "all sequences of ThingBuilder calls with all arguments (any number of schemes, forms, affordances and names)", "why_tests_cant": "The reference graph between forms, affordances and definitions is unbounded; tests try a handful of fixed names.", "anchors": ["src/builder.rs: ThingBuilder::build, build_form_from_builder, ThingBuilder::security", "src/builder/affordance.rs: check_form_builders"]}
{"id": "C02", "title": "Security definitions are never silently merged or lost", "statement": "If two security(...) calls give the same name, build fails. If build succeeds, securityDefinitions contains exactly one entry per declared scheme, under the declared (or documented default) name, with the declared content, and nothing else; thing.security lists exactly the required ones in call order.", "quantifier": "all sequences of security declarations, explicit keys or default keys", "why_tests_cant": "Collisions can arise between default names, explicit names and custom scheme names in any combination and number.", "anchors": ["src/builder.rs: ThingBuilder::security, ThingBuilder::build (security_definitions_vec loop)"]}
{"id": "C03", "title": "Combo security schemes refer only to defined schemes", "statement": "If build succeeds, every name listed by oneOf/allOf in a combo scheme of securityDefinitions is itself a key of securityDefinitions.", "quantifier": "all sequences of security declarations including any number of combo schemes, also referring to one another or to later declarations", "why_tests_cant": "Forward, self and cyclic references between arbitrarily many combos cannot be enumerated.", "anchors": ["src/builder.rs: ThingBuilder::build (combo check), security::ComboSecuritySchemeBuilder*"]}
{"id": "C04", "title": "Thing-level forms carry an explicit, thing-level operation", "statement": "If build succeeds, every form in thing.forms has an explicit op list and each op in it is one of readallproperties, writeallproperties, readmultipleproperties, writemultipleproperties, observeallproperties, unobserveallproperties, subscribeallevents, unsubscribeallevents, queryallactions.", "quantifier": "all sequences of ThingBuilder calls, any number of forms and ops per form", "why_tests_cant": "Op lists are arbitrary sequences; a test fixes one invalid op at one position.", "anchors": ["src/builder.rs: build_form_from_builder", "src/thing.rs: FormOperation"]}
{"id": "C05", "title": "Affordance forms only carry operations of their affordance kind", "statement": "If build succeeds, every explicit op of a property form is one of readproperty/writeproperty/observeproperty/unobserveproperty, of an action form one of invokeaction/queryaction/cancelaction, of an event form one of subscribeevent/unsubscribeevent.", "quantifier": "all sequences of ThingBuilder calls, any number of affordances, forms and ops", "why_tests_cant": "Same: the op may be at any position in any form of any affordance.", "anchors": ["src/builder/affordance.rs: check_form_builders", "src/builder.rs: try_build_affordance, ThingBuilder::build"]}
{"id": "C06", "title": "additionalResponses refer to existing schemaDefinitions", "statement": "If build succeeds, every schema name in additionalResponses of every form (thing level or affordance level) is a key of thing.schemaDefinitions.", "quantifier": "all sequences of ThingBuilder calls", "why_tests_cant": "Requires relating every form at every level to the final map.", "anchors": ["src/builder.rs: build_form_from_builder", "src/builder/affordance.rs: check_form_builders"]}
{"id": "C07", "title": "Affordance names are unique per kind and nothing is lost", "statement": "If the same name is declared twice for properties (or for actions, or for events), build fails. If build succeeds the map of each kind contains exactly the declared names, each with the content of its declaration; a property, an action and an event may share a name.", "quantifier": "all sequences of property/action/event declarations", "why_tests_cant": "Any pair of positions in an arbitrarily long list may collide.", "anchors": ["src/builder.rs: try_build_affordance, ThingBuilder::{property,action,event}"]}
{"id": "C08", "title": "Bounds of affordance data schemas are consistent at every depth", "statement": "If build succeeds, then in the data schema of every property, the input and output of every action and the subscription, data and cancellation of every event - and in every data schema nested in them through items, properties or oneOf to any depth - no numeric bound is NaN, minimum does not exceed maximum, minItems does not exceed maxItems and multipleOf is not zero or negative.", "quantifier": "all data schema trees of any shape and depth", "why_tests_cant": "Schemas nest without bound through three different constructors; the checker is a work-list loop mixed with recursion.", "anchors": ["src/builder/data_schema.rs: CheckableDataSchema::check, check_data_schema_subtype, check_one_of_schema", "src/builder.rs: try_build_affordance"]}
{"id": "C09", "title": "Bounds are validated in every data schema of the Thing", "statement": "The guarantee of C08 also holds for schemaDefinitions, for thing-level and affordance-level uriVariables and for an event's dataResponse.", "quantifier": "all sequences of ThingBuilder calls", "why_tests_cant": "It is a claim about every place a schema can be put.", "anchors": ["src/builder.rs: ThingBuilder::build (schema_definitions, uri_variables)", "src/builder/affordance.rs: EventAffordanceBuilder::data_response, UncheckedInteractionAffordance"]}
{"id": "C10", "title": "URI variables are never arrays or objects", "statement": "If build succeeds, no data schema in thing.uriVariables or in the uriVariables of any affordance has type array or object.", "quantifier": "all sequences of ThingBuilder calls", "why_tests_cant": "Any variable of any affordance may be the offending one, and maps are unordered.", "anchors": ["src/builder/data_schema.rs: uri_variables_contains_arrays_objects", "src/builder.rs: ThingBuilder::build", "src/builder/affordance.rs: CheckableInteractionAffordanceBuilder::check"]}
{"id": "C11", "title": "Every language tag in a built Thing is well formed", "statement": "If build succeeds, every key of titles/descriptions of the thing, of each security scheme, each affordance and each data schema at every depth, and every hreflang of each link, is accepted by the language tag parser; conversely one ill-formed tag anywhere makes build fail.", "quantifier": "all sequences of ThingBuilder calls and all data schema depths, for any tag grammar", "why_tests_cant": "Tags may be hidden at any depth in any of a dozen places.", "anchors": ["src/builder.rs: MultiLanguageBuilder::build, TryFrom<UncheckedLink> for Link", "src/builder/data_schema.rs: TryFrom<UncheckedDataSchema> for DataSchema", "src/builder/affordance.rs: TryFrom<UncheckedInteractionAffordance>"]}
{"id": "C12", "title": "Link sizes only on icons", "statement": "If build succeeds, every link with sizes has rel \"icon\".", "quantifier": "all link declarations and orders of setter calls", "why_tests_cant": "rel and sizes may be set in any order and overwritten.", "anchors": ["src/builder.rs: TryFrom<UncheckedLink> for Link, LinkBuilder"]}
{"id": "C13", "title": "build succeeds exactly on consistent descriptions", "statement": "build returns Ok if and only if the declared content satisfies all documented consistency rules (C01-C12 restated on what was declared); it has no other reason to fail and never panics.", "quantifier": "all sequences of ThingBuilder calls", "why_tests_cant": "The 'only if' direction speaks of every accepted input, the 'if' direction of every rejected one.", "anchors": ["src/builder.rs: ThingBuilder::build, Error"]}
{"id": "C14", "title": "Errors name a real defect", "statement": "Whenever build returns an error, the defect the error names is present: DuplicatedSecurityDefinition(n) / DuplicatedAffordance{ty,n} - n declared at least twice; UndefinedSecurity(n) - a form uses n and n is not defined; MissingOpInForm, InvalidOpInForm{ctx,op} - such a form exists; InvalidLanguageTag(s) - s was given as a tag and is not well formed; InvalidUriVariables, InvalidMinMax, NanMinMax, InvalidMultipleOf, SizesWithRelNotIcon - such an item was declared; MissingSchemaDefinition(n) - n is used as a schema name and not defined.", "quantifier": "all failing builds", "why_tests_cant": "Requires relating the returned value to the whole input for every failing input.", "anchors": ["src/builder.rs: Error, ThingBuilder::build"]}
{"id": "C15", "title": "Built content is what was declared", "statement": "If build succeeds, every field of the Thing equals the declared content: single-valued fields hold the value of the last call, multi-valued fields (links, forms, @type, profile, security) hold all values in call order, maps hold the last value inserted per key.", "quantifier": "all sequences of ThingBuilder calls", "why_tests_cant": "A lost or reordered element may only show up for particular combinations of calls.", "anchors": ["src/builder.rs: ThingBuilder setters, ThingBuilder::build"]}
{"id": "C16", "title": "The TD 1.1 context is always present, first, exactly once", "statement": "For every sequence of context/context_map calls, @context of the built Thing is the TD 1.1 context string when nothing else was added, otherwise an array starting with that string followed by the other contexts in call order; the TD 1.1 string occurs only once as a plain entry, and computing it never panics.", "quantifier": "all sequences of context calls", "why_tests_cant": "Depends on the whole call history.", "anchors": ["src/builder.rs: ThingBuilder::context, context_map, build (context unwrap), Context"]}
{"id": "C17", "title": "Empty collections are absent", "statement": "If build succeeds, forms, links, properties, actions, events, uriVariables, schemaDefinitions, profile and hreflang are present in the Thing exactly when at least one element was declared, and then are non-empty.", "quantifier": "all sequences of ThingBuilder calls", "why_tests_cant": "Needs every combination of emptiness.", "anchors": ["src/builder.rs: ThingBuilder::build"]}
{"id": "C18", "title": "Hash map iteration order does not matter", "statement": "Whether build succeeds, and the resulting Thing up to the order of map entries, does not depend on the iteration order of any hash map.", "quantifier": "all iteration orders of all hash maps in the builder", "why_tests_cant": "Tests run with one random order per execution.", "anchors": ["src/builder.rs: ThingBuilder::build", "src/builder/data_schema.rs: uri_variables_contains_arrays_objects, CheckableDataSchema::check"]}
{"id": "C19", "title": "Independent setter calls commute", "statement": "Swapping two adjacent ThingBuilder calls that set different fields changes neither whether build succeeds nor the Thing it returns.", "quantifier": "all call sequences and all adjacent pairs of calls on different fields", "why_tests_cant": "Quadratically many pairs in arbitrarily long histories.", "anchors": ["src/builder.rs: ThingBuilder setters"]}
{"id": "C20", "title": "Extending a builder keeps its fields", "statement": "ext/ext_with on a form, affordance, security-free data schema or thing builder keeps every field already set; only the extension list grows, with the newest extension first.", "quantifier": "all builder states and extension values", "why_tests_cant": "Universally quantified over prior state.", "anchors": ["src/builder.rs: ThingBuilder::ext_with, FormBuilder::ext_with", "src/builder/affordance.rs: ext_with, ext_interaction_with", "src/builder/data_schema.rs: PartialDataSchemaBuilder::ext_with, DataSchemaBuilder::ext_with", "src/extend.rs: Extend"]}
{"id": "C21", "title": "No built data schema is both read-only and write-only", "statement": "Every data schema obtained through the data schema builder, at every nesting depth, has readOnly and writeOnly not both true; read_only() gives readOnly = true, write_only() gives writeOnly = true.", "quantifier": "all well-typed data schema builder programs", "why_tests_cant": "The flags are set in two places (setter and conversion) over eleven builder types.", "anchors": ["src/builder/data_schema.rs: ReadableWriteableDataSchema, From<ReadOnly>, From<WriteOnly>"]}
{"id": "C22", "title": "A built data schema has exactly one specialization", "statement": "Every data schema produced by the builder, at every depth, has exactly one of: a type, a constant value, an enumeration, a oneOf list.", "quantifier": "all well-typed data schema builder programs", "why_tests_cant": "Type-state programs of any length and nesting.", "anchors": ["src/builder/data_schema.rs: SpecializableDataSchema, EnumerableDataSchema, UnionDataSchema, From<...> for UncheckedDataSchema"]}
{"id": "C23", "title": "Required object members are declared members", "statement": "In every object schema produced by the builder, at every depth, each name in required is a key of properties.", "quantifier": "all well-typed data schema builder programs", "why_tests_cant": "Members may be declared repeatedly and in any order.", "anchors": ["src/builder/data_schema.rs: ObjectDataSchemaBuilder::property"]}
{"id": "C24", "title": "Constants are read-only and preserved", "statement": "A schema built with constant(v) has const = v and readOnly = true, no type, whatever other calls follow.", "quantifier": "all values and all following well-typed calls", "why_tests_cant": "Depends on the rest of the program.", "anchors": ["src/builder/data_schema.rs: SpecializableDataSchema::constant, From<ReadOnly>"]}
{"id": "C25", "title": "Data schema builder content is what was declared", "statement": "For every well-typed data schema builder program the resulting schema holds exactly what was declared: enum values, oneOf alternatives and tuple items all present in call order, bounds/lengths/unit/format/default of the last call, object properties the last declaration per name; nothing is dropped, at any depth.", "quantifier": "all well-typed data schema builder programs", "why_tests_cant": "A dropped field shows up only for the particular builder type, conversion and call order.", "anchors": ["src/builder/data_schema.rs: From<...> for UncheckedDataSchema/PartialDataSchema"]}
{"id": "C26", "title": "Numeric bounds are accepted exactly when some value satisfies them", "statement": "A number or integer schema with both bounds is accepted by build if and only if some number (integer) lies between them, taking inclusive/exclusive into account.", "quantifier": "all pairs of bounds, all i64 and f64 values", "why_tests_cant": "Infinite value space.", "anchors": ["src/builder/data_schema.rs: check_data_schema_subtype", "src/thing.rs: PartialOrd<Maximum<T>> for Minimum<T>"]}
{"id": "C27", "title": "Comparing Maximum with Minimum is the reverse of comparing Minimum with Maximum", "statement": "For all a, b: max.partial_cmp(min) is min.partial_cmp(max) reversed, and min == max iff max == min iff partial_cmp gives Equal for non-NaN bounds.", "quantifier": "all i64 and f64 bounds", "why_tests_cant": "Infinite value space including NaN and signed zero.", "anchors": ["src/thing.rs: PartialOrd<Minimum<T>> for Maximum<T>, PartialEq<Maximum<T>> for Minimum<T>"]}
{"id": "C28", "title": "Bounds are lawfully ordered by strictness", "statement": "The orders on Minimum and on Maximum are partial orders (transitive, antisymmetric, consistent with ==, dual) and whenever they answer, the answer agrees with inclusion of the sets of admitted values: a <= b for minimums iff everything b admits is admitted by a; a <= b for maximums iff everything a admits is admitted by b.", "quantifier": "all triples of bounds", "why_tests_cant": "Infinite value space.", "anchors": ["src/thing.rs: PartialOrd for Minimum, PartialOrd for Maximum"]}
{"id": "C29", "title": "Thing round trip", "statement": "Deserializing the JSON value obtained by serializing a Thing gives back an equal Thing.", "quantifier": "all Things with any extensions that themselves round trip", "why_tests_cant": "Recursive types with flattening; the interference between flattened members is global.", "anchors": ["src/thing.rs: Thing and all nested types (Serialize/Deserialize)"]}
{"id": "C30", "title": "Data schema round trip at any depth", "statement": "Deserializing the JSON value of a DataSchema gives back an equal DataSchema.", "quantifier": "all data schemas of any shape and depth", "why_tests_cant": "Unbounded recursion through flattened, tagged and untagged enums.", "anchors": ["src/thing.rs: DataSchema, DataSchemaSubtype, ArraySchema, ObjectSchema, NumberSchema, IntegerSchema, BoxedElemOrVec"]}
{"id": "C31", "title": "Form operation list round trip", "statement": "Serializing and deserializing a form's op list gives back the same list; a default op list is omitted.", "quantifier": "all op lists", "why_tests_cant": "Lists of any length, with the one-or-many and default special cases.", "anchors": ["src/thing.rs: DefaultedFormOperations"]}
{"id": "C32", "title": "Security scheme round trip", "statement": "Deserializing the JSON value of a SecurityScheme gives back an equal SecurityScheme.", "quantifier": "all security schemes including unknown ones", "why_tests_cant": "Untagged fallback means a known scheme may silently become unknown or vice versa.", "anchors": ["src/thing.rs: SecurityScheme, SecuritySchemeSubtype, KnownSecuritySchemeSubtype, UnknownSecuritySchemeSubtype"]}
{"id": "C33", "title": "HTTP extension round trip", "statement": "HTTP forms, responses and headers deserialize back from what they serialize to.", "quantifier": "all values", "why_tests_cant": "Space of header lists and codes is infinite.", "anchors": ["src/protocol/http.rs: Form, Response, MessageHeader, Method"]}
{"id": "C34", "title": "Textual JSON of a Thing can be parsed back", "statement": "The JSON text written for a Thing has no repeated member in any object and parses back to an equal Thing.", "quantifier": "all Things", "why_tests_cant": "Depends on the two flattened structs inside a property sharing member names for every combination of set fields.", "anchors": ["src/thing.rs: PropertyAffordance, InteractionAffordance, DataSchema"]}
{"id": "C35", "title": "Unknown members are ignored", "statement": "Adding members that neither the model nor an extension knows to the JSON of a Thing, form, link, schema or affordance does not change the parsed value.", "quantifier": "all JSON objects and all unknown names/values", "why_tests_cant": "Infinite names and positions.", "anchors": ["src/thing.rs: Deserialize impls"]}
{"id": "C36", "title": "Member order does not matter", "statement": "Permuting the members of JSON objects that have no repeated names does not change the parse result.", "quantifier": "all JSON documents and permutations", "why_tests_cant": "Factorially many orders.", "anchors": ["src/thing.rs: Deserialize impls"]}
{"id": "C37", "title": "Missing optional members take their documented defaults", "statement": "Parsing an object that lacks an optional member gives the documented default: @context the TD 1.1 URI, readOnly/writeOnly/safe/idempotent false, op Default, security location header (basic, digest, bearer) or query (apikey), bearer alg ES256 and format jwt, additional response success false, optional fields None.", "quantifier": "all JSON objects lacking the member", "why_tests_cant": "Quantifies over the rest of the document.", "anchors": ["src/thing.rs: #[serde(default)] attributes, Location::{header,query}, BearerSecurityScheme"]}
{"id": "C38", "title": "Documents lacking mandatory members are rejected", "statement": "Parsing fails for every Thing without title, security or securityDefinitions, every affordance without forms, every form or link without href, every version without instance, every expected response without contentType.", "quantifier": "all JSON documents", "why_tests_cant": "Quantifies over the rest of the document.", "anchors": ["src/thing.rs: Thing, InteractionAffordance, Form, Link, VersionInfo, ExpectedResponse"]}
{"id": "C39", "title": "Malformed typed schemas are rejected, not silently weakened", "statement": "A data schema whose type or type-specific members are malformed fails to parse rather than losing its constraints.", "quantifier": "all JSON documents", "why_tests_cant": "Quantifies over all malformed documents.", "anchors": ["src/thing.rs: DataSchema (flattened Option<DataSchemaSubtype>), NumberSchema, IntegerSchema"]}
{"id": "C40", "title": "Heterogeneous list operations are list operations", "statement": "ext prepends; split_head inverts cons; split_last returns the first-added element and the rest in order; reverse reverses, is an involution and keeps every element; to_ref/to_mut keep order and content.", "quantifier": "all heterogeneous lists of any length", "why_tests_cant": "reverse is defined by recursion on types; any length.", "anchors": ["src/hlist.rs: Cons, NonEmptyHList, HListRef, HListMut", "src/extend.rs: Extend"]}
{"id": "C41", "title": "Extension lists round trip when their members are disjoint", "statement": "A list of extensions with pairwise disjoint member names serializes to the concatenation of their members and deserializes back to the same list, in any nesting.", "quantifier": "all lists of extensions of any length", "why_tests_cant": "Arbitrary user-defined extensions.", "anchors": ["src/hlist.rs: Serialize/Deserialize for Nil and Cons"]}
{"id": "C42", "title": "CoAP extension values round trip and stay in range", "statement": "Block sizes serialize to 16..1024 and parse back exactly; any other number is rejected; hopLimit/accept/contentFormat outside their integer range are rejected; CoAP forms and responses round trip.", "quantifier": "all values and all JSON numbers", "why_tests_cant": "All integers.", "anchors": ["src/protocol/coap.rs: BlockSize, BlockWiseTransferParameters, Form, ExpectedResponse, Method"]}
{"id": "C43", "title": "Form operation names are one-to-one", "statement": "Every operation has exactly one JSON name, distinct operations have distinct names, Display prints the JSON name, and exactly those names parse.", "quantifier": "all operations and all strings", "why_tests_cant": "All strings.", "anchors": ["src/thing.rs: FormOperation, Display"]}
{"id": "C44", "title": "Parsing then printing is stable", "statement": "For every JSON document that parses as a Thing (or data schema), printing the parsed value and parsing again gives the same value: what survives one round survives all.", "quantifier": "all JSON documents", "why_tests_cant": "All documents, including those with odd but accepted spellings.", "anchors": ["src/thing.rs: Serialize/Deserialize impls"]}
{"id": "C45", "title": "What the builder builds can be exchanged", "statement": "Every Thing returned by build serializes and parses back to an equal Thing.", "quantifier": "all sequences of ThingBuilder calls", "why_tests_cant": "Combines builder and both serde directions.", "anchors": ["src/builder.rs: ThingBuilder::build", "src/thing.rs: Thing"]}
{"id": "C46", "title": "Built Things satisfy the TD cardinality rules", "statement": "Every Thing returned by build has at least one security entry and every affordance has at least one form, as the TD specification requires.", "quantifier": "all sequences of ThingBuilder calls", "why_tests_cant": "A claim about every accepted input.", "anchors": ["src/builder.rs: ThingBuilder::build"]}
{"id": "C47", "title": "Members are read and written under their TD names", "statement": "Every vocabulary term is serialized under and parsed from the name the TD specification gives it.", "quantifier": "all vocabulary terms", "why_tests_cant": "A test compares only a few documents, and a wrong name that is both written and read back consistently passes a round-trip test.", "anchors": ["src/thing.rs: serde rename attributes; ArraySchema::{min_items,max_items}; EventAffordance::data_response"]}
{"id": "C48", "title": "MQTT extension round trip", "statement": "MQTT forms (retain, control packet, QoS, topic, filter) deserialize back from what they serialize to; default values are omitted; a single filter may be given as a bare string.", "quantifier": "all values", "why_tests_cant": "Filter lists of any length.", "anchors": ["src/protocol/mqtt.rs: Form, ControlPacket, QualityOfService"]}
{"id": "C49", "title": "One-or-many members accept both spellings", "statement": "Every member documented as 'one or many' parses a bare value exactly like a one-element array of it and is written as a bare value exactly when it has one element.", "quantifier": "all values and lists", "why_tests_cant": "Lists of any length in a dozen members.", "anchors": ["src/thing.rs: OneOrMany<_, PreferOne> fields"]}
{"id": "C50", "title": "Non-finite numbers never reach a built Thing's bounds", "statement": "If build succeeds, every numeric bound and multipleOf in a checked data schema is a finite number (and so survives JSON).", "quantifier": "all f64 values at every depth", "why_tests_cant": "All f64 values.", "anchors": ["src/builder/data_schema.rs: check_data_schema_subtype"]}
{"id": "C51", "title": "Equality of Things is an equivalence that sees every field", "statement": "== on Things is reflexive, symmetric and transitive; two Things are equal exactly when they agree in every field at every depth (numbers compared as IEEE numbers, dates as instants); a Thing that survives writing and reading is == to the one read back.", "quantifier": "all pairs and triples of Things, any nesting depth, any extension", "why_tests_cant": "The hand-written PartialEq implementations repeat two dozen fields; a forgotten field or a NaN shows only for particular values.", "anchors": ["src/thing.rs 240-274, 374-391, 452-466, 548-565, 629-643: impl PartialEq", "src/thing.rs: derived PartialEq", "src/protocol/*.rs, src/hlist.rs: derived PartialEq"]}
{"id": "C52", "title": "What is read respects the invariants of the types", "statement": "Every Thing read from a JSON document has the invariants its Rust types promise: unsigned integers in the range of their type (u32 lengths and item counts, u64/u16 in protocol vocabularies), maps without repeated keys, well-formed language tags, canonical untyped data, and every number in a number schema finite at any depth.", "quantifier": "all JSON documents, any nesting depth, any combination of extensions", "why_tests_cant": "A cast that truncates or a missing range check shows only at particular values in particular members.", "anchors": ["src/thing.rs: Deserialize impls", "src/hlist.rs: Deserialize impls", "src/protocol/*.rs: Deserialize impls"]}
{"id": "C53", "title": "Default values agree with the documents", "statement": "For every type with a Default value, T::default() is the value read from the document that has only the mandatory members (all empty), and is written as that document (plus the flags that are always written); OAuth2SecurityScheme::new(flow) agrees with the document that has only that flow; VersionInfo::from(instance) agrees with the document that has only that instance; a Thing built by no calls is Thing::default() with title and TD 1.1 context.", "quantifier": "all extensions whose own default is read from nothing, all titles, flows and iteration orders", "why_tests_cant": "The hand-written Default implementations, the serde default attributes and the builders repeat the same defaults in three places; disagreement shows only when a particular member is left out.", "anchors": ["src/thing.rs 207-238, 353-372, 435-450, 528-546, 610-627, 772-777, 827-840, 1052-1077, 1192-1197, 1224-1231, 1282-1290, 1316-1323, 1349-1369: impl Default", "src/thing.rs: derived Default", "src/protocol/*.rs, src/hlist.rs: derived Default"]}
{"id": "C54", "title": "A property affordance gets the schema its calls describe", "statement": "Property affordances do not use the data schema builder but a second chain of structs (PartialDataSchemaBuilder, PartialDataSchema, the affordance's own human readable fields). The same calls are accepted by both chains, except the five setters about the text of strings, which a property affordance does not offer; the partial schema and the human readable fields then are, member by member, the schema the ordinary chain gives; the check gives the same verdict; building gives the same schema, or fails with the error of the schema or of the URI variables; the interaction gets the human readable fields of the schema. Modelled struct by struct, both chains refine the merged builder the other properties are proved on. Consequently no property of a built Thing constrains the text of a string.", "quantifier": "all chains of schema, interaction and property calls, nested to any depth, all iteration orders, extensions and language tag parsers", "why_tests_cant": "About forty hand-written conversions between twenty structs copy a dozen fields each; a field dropped in one of them shows only for the one sequence of types of builder that goes through it.", "anchors": ["src/builder/data_schema.rs: From impls for UncheckedDataSchema and PartialDataSchema, PartialDataSchemaBuilder, CheckableDataSchema", "src/builder/affordance.rs 526-1030, 1329-1359, 1548-1848, 2608-2706: PropertyAffordanceBuilder"]}
{"id": "C55", "title": "What is written has the shape of a Thing Description", "statement": "The JSON document written for a Thing has the structure the TD specification prescribes: every mandatory member of every object is present (title, security, securityDefinitions, forms, href, scheme, instance, contentType, flow of oauth2), and every member named by the specification has a value of the prescribed kind (text, flag, number, natural number, one of the listed names, language tag, date, list, one or many, map, nested object), at every depth.", "quantifier": "all well-typed Things, built or read, of any size and nesting, both ways of writing, all extensions", "why_tests_cant": "Whether each of about a hundred members always has a value of the right kind, in every combination of present and absent optional fields at every depth, cannot be enumerated; a null slips in through single fields.", "anchors": ["src/thing.rs: Serialize of all types", "src/thing.rs 646-654: VersionInfo", "src/thing.rs 1651-1708: DefaultedFormOperations"]}
{"id": "C56", "title": "Every document of the prescribed shape is read", "statement": "A JSON document with the structure the TD specification prescribes (C55), without repeated members and with members of protocol bindings, if any, in the form the binding prescribes, deserializes to a Thing; a data schema in it whose numbers are in range keeps the type it states.", "quantifier": "all documents of any size and nesting, all combinations of the HTTP, CoAP and MQTT bindings and all other extensions whose expectations can be stated member by member", "why_tests_cant": "A decoder that is stricter than the specification in one member of one nested object rejects documents no test happens to contain.", "anchors": ["src/thing.rs: Deserialize of all types", "src/protocol/http.rs, src/protocol/coap.rs, src/protocol/mqtt.rs: Deserialize"]}
{"id": "C57", "title": "The bindings speak the vocabularies of their templates", "statement": "A form of an HTTP, CoAP or MQTT Thing, and the expected response in it, is written with exactly the members and terms the binding templates give to what the form says (htv:methodName with the name of the method, cov:blockwise with the sizes in bytes, mqv:qos with the number of the quality, and so on); conversely, an object with these members, in any order and among any others, is read as saying just that, and a term outside the vocabulary (a method, control packet, quality or block size) makes the form unreadable.", "quantifier": "all forms, all objects without repeated members, both ways of writing", "why_tests_cant": "Round-trip tests cannot notice a term renamed or two terms swapped in both directions; comparing all combinations of optional members in all orders needs an independent table and a proof.", "anchors": ["src/protocol/http.rs 8-48", "src/protocol/coap.rs 9-78", "src/protocol/mqtt.rs 7-50", "src/thing.rs 1462-1526: Form", "src/thing.rs 1695-1707: ExpectedResponse"]}
{"id": "C58", "title": "The builders accept exactly the chains of a grammar", "statement": "A chain of calls on a builder type checks exactly when it belongs to the grammar: for data schemas, calls possible anywhere, then finish_extend once, then one choice of the kind, then only calls of that kind, with at most one read_only or write_only (none for constants and unions, and no string setters after it), every nested closure again being such a chain; for security schemes, one choice of the scheme and then only its own setters, a combo needing all_of or one_of once; for links and forms, href exactly once; for properties, a schema chain without string setters interleaved with interaction calls; for Things, finish_extend at most once and everything that depends on the extension after it.", "quantifier": "all chains of calls of any length and nesting depth, all extensions", "why_tests_cant": "Which chains compile cannot be tested at run time, and compile-fail tests only try a few chains; an equivalence with a grammar needs induction over chains and nesting.", "anchors": ["src/builder/data_schema.rs 2093-2640", "src/builder/affordance.rs 1000-1030, 1548-1848", "src/builder.rs 434-589, 1391-1700, 1818-1849, 1900-2577, 2622-2657"]}
{"id": "C59", "title": "Builder errors have distinct messages that name the culprit", "statement": "Every error build can return has a message; two different errors (different variants, names, contexts or operations) never have the same message; an error about a name quotes that name; an error about a form operation calls the operation by its TD name and says in which kind of place it was found; an error about an affordance says of which kind it is.", "quantifier": "all errors, all names in them (names may contain quotes)", "why_tests_cant": "Names are arbitrary strings, possibly containing quotes or parts of other messages; that no two of the infinitely many messages coincide needs a proof.", "anchors": ["src/builder.rs 305-364: Error", "src/builder.rs 386-397: Display for FormContext", "src/builder.rs 422-432: Display for AffordanceType", "src/thing.rs 1617-1642: Display for FormOperation"]}
{"id": "C60", "title": "Writing as text and writing as Value agree, and fail for two reasons only", "statement": "A Thing can be written exactly when its dates can be formatted and the data of its custom security schemes are objects or null, no matter whether it is written as text or as serde_json::Value; the Value written is the one serde_json reads from the text written (of repeated members the last counts). The same holds for schemas, forms, affordances and security schemes, with the extensions of the crate and all lists of them.", "quantifier": "all Things, built or not, all extensions that write alike", "why_tests_cant": "Needs all values of all types at every nesting depth, including those with members written twice.", "anchors": ["src/thing.rs 51-167: Thing", "src/thing.rs 294-760", "src/thing.rs 1107-1190", "src/hlist.rs 13-25", "src/protocol/http.rs 30-48", "src/protocol/coap.rs 56-78", "src/protocol/mqtt.rs 30-50"]}
{"id": "C61", "title": "Debug output shows every field, copies are the same", "statement": "The hand-written Debug implementations print the name of the struct and every field under its own name, so that two Things (affordances, schemas, forms) that print alike are the same; the hand-written copy of a form is the form.", "quantifier": "all Things, affordances, schemas at any depth, forms; all extensions whose Debug tells values apart (the bindings and all lists of extensions)", "why_tests_cant": "A forgotten or swapped field shows only for values that differ in it, at any depth.", "anchors": ["src/thing.rs 169-205", "src/thing.rs 332-351", "src/thing.rs 418-433", "src/thing.rs 508-526", "src/thing.rs 591-608", "src/thing.rs 1528-1548"]}
{"id": "C62", "title": "Declarations commute", "statement": "Exchanging two neighbouring calls of the thing builder that declare independent things - two affordances, two schema definitions or URI variables of different names, two security schemes not both required, or any two calls that set different members - changes neither whether build succeeds nor the Thing built; so the affordances may be declared in any order. Only the error reported may change.", "quantifier": "all programs of calls, all sequences of such exchanges, all permutations of the affordance declarations, all extensions, all iteration orders", "why_tests_cant": "Tests declare things in one order; the claim is about every order of every program, including those whose checks look at what was declared earlier.", "anchors": ["src/builder.rs 757-1010", "src/builder.rs 1391-1680"]}
{"id": "C63", "title": "What the builder can make", "statement": "A data schema can be made with the data schema builder exactly when, at every depth: it is exactly one of a typed schema, a constant, an enumeration or a choice of alternatives; it is not both read-only and write-only, constants are read-only and choices are neither; no type list, enumeration, choice, member map or list of required names is present and empty; required names are names of members; a list of item schemas comes without bounds on the number of items. Nothing else is impossible. A Thing can be built exactly when its parts fit together (the conditions of C13) and: its context is the standard one, alone or followed by at least one other entry, each a string other than the standard context or a map of strings; no list or map is present and empty; the required security schemes are defined ones, each named once; no pre-shared-key scheme has an identity; the data schemas are as above; a property carries the same human readable information as its schema, and string schemas at the top of a property are without limits. The latter for tag parsers that read the tags they write as themselves.", "quantifier": "all data schema values at any depth, all Things, all extension types, all iteration orders", "why_tests_cant": "A test makes some schemas; that no program makes any other schema, and that each remaining one is made by some program, is about all programs and all values.", "anchors": ["src/builder/data_schema.rs 1264-2640", "src/builder/data_schema.rs 2720-4050", "src/thing.rs 670-1060", "src/builder.rs 434-506", "src/builder.rs 761-1064", "src/builder/affordance.rs 61-2800"]}
{"id": "C64", "title": "The earliest defect is reported", "statement": "Every defect of a declared Thing has a position: security definitions in order of declaration (language tags, then a name used before), combinations of schemes, schema definitions, forms of the thing in order (security, operations, responses), URI variables, then the properties, actions and events each in order of declaration (forms with operations before security, URI variables, bounds, a name used before, language tags), links in order, titles, descriptions. Build succeeds exactly when there is no defect, and otherwise reports a defect with none before it. The iteration order of the hash maps never changes the position of the reported defect, and changes the error only among language tags of one map or part, names in combinations, and bounds inside one schema.", "quantifier": "all programs of builder calls, all combinations of any number of simultaneous defects, all extensions, all tag parsers, all iteration orders", "why_tests_cant": "Each test has one defect; which of several simultaneous defects is reported, for every combination of them, is not looked at by any test.", "anchors": ["src/builder.rs 761-1063", "src/builder.rs 1683-1737", "src/builder.rs 2996-3028", "src/builder/affordance.rs 2441-2529"]}
{"id": "C65", "title": "What reading does not check", "statement": "A Thing read from a document never repeats a name among its security definitions, properties, actions or events, never has a bound that is not a number, and never has a string that is no language tag in the place of one. Nothing else that build checks is checked: for each remaining error of build, with every name, place and operation it can mention, there is a document in the shape of a Thing Description that is read as a Thing with the defect the error names. No calls of the builders make such a Thing.", "quantifier": "all documents, all extensions whose values are typed when read, all errors of build with all their arguments, all tag parsers, all programs of builder calls", "why_tests_cant": "The tests read a few proper documents; that a check is missing for every name, place and operation, and that the list of missing checks is complete, is a statement about all documents.", "anchors": ["src/thing.rs 51-167", "src/thing.rs 1470-1545", "src/thing.rs 1681-1692", "src/data_schema.rs", "src/builder.rs 761-1063"]}
{"id": "C66", "title": "Affordances, links and forms are checked one by one", "statement": "Calls of the builder that declare properties, actions, events, links and forms of the Thing do not affect each other: a program that type checks builds a Thing exactly when its other calls do, the other calls followed by any single one of these declarations do, and no two affordances of the same kind share a name. The Thing has exactly the affordances, links and forms of those smaller Things, links and forms in the order of the calls, and all its other members are theirs. Leaving out any of the declarations from a program that builds leaves a program that builds, and the Thing differs only by what was left out.", "quantifier": "all programs of builder calls of any length, all extensions, all tag parsers, all iteration orders of the maps", "why_tests_cant": "Tests try particular combinations; that no combination of declarations is rejected or changes another declaration needs all programs.", "anchors": ["src/builder.rs 761-1063", "src/builder.rs 1210-1289", "src/builder.rs 1485-1501", "src/builder.rs 1566-1655", "src/builder/affordance.rs 2605-2800"]}
{"id": "C67", "title": "JSON texts of Things, and how deep they may be", "statement": "The text of a Thing, written with serde_json and read with serde_json, gives the Thing back whenever the document does. This holds as long as fewer than 128 arrays and objects are inside one another: then every document whose floats survive is read back from its text, different documents have different texts, and what is read has numbers in range. It fails beyond: the builder puts no bound on the nesting of schemas, and from 125 nested arrays in a schema definition on the text of the built Thing is refused.", "quantifier": "all documents and Things of any size and depth, all texts, all ways to write and read floats that are inverse on the floats of the document, all extensions that read and write", "why_tests_cant": "Tests read a handful of shallow texts; escapes, numbers, separators and nesting combine in unboundedly many ways, and the limit is met only by deep documents.", "anchors": ["Cargo.toml 13", "src/thing.rs 1772", "src/thing.rs 1776", "src/builder/data_schema.rs 1849-1857", "src/thing.rs 779-817"]}
{"id": "C68", "title": "Texts are read and written by the grammar of JSON", "statement": "A text is read as a document exactly when the grammar of RFC 8259 derives that document from it and fewer than 128 arrays and objects are inside one another: space, escapes and surrogate pairs with their UTF-8 bytes, numbers, which are integers if they have neither fraction nor exponent and fit 64 bits, arrays and objects. The grammar is unambiguous. Whatever is written, the text of every Thing included, is in the grammar, at any depth.", "quantifier": "all texts, all documents and Things of any size and depth, all ways to read floats", "why_tests_cant": "The tests read a dozen well-formed texts; that no malformed text is read, and every well-formed one is, concerns all texts.", "anchors": ["Cargo.toml 13", "src/thing.rs 1750-1772", "src/protocol/http.rs 72", "src/protocol/coap.rs 101", "src/protocol/mqtt.rs 74"]}
{"id": "C69", "title": "How deep a Thing may be to be read from its text", "statement": "A Thing whose schemas have at most L levels and whose values (context, constants, defaults, enumerations, data of unknown security schemes) and extension members have at most k levels is written as a document of at most 4 + 2 L + k levels, and there are Things that reach this. So every Thing with at most 60 levels of schemas and three in values that survives being written and read as a document is read back from its text. A Thing with 126 levels of schemas never is.", "quantifier": "all Things, all depths L and k, all extensions that write at most k levels, both ways of writing", "why_tests_cant": "Tests have schemas two or three levels deep; that nothing a Thing may contain costs more levels than accounted for concerns all combinations of affordances, forms, responses, schemes and schemas.", "anchors": ["src/thing.rs 51-167", "src/thing.rs 670-727", "src/thing.rs 779-817", "src/thing.rs 1031-1043", "src/thing.rs 1462-1526", "src/protocol/http.rs 30-39", "Cargo.toml 13"]}
{"id": "C70", "title": "Built Things come back from their texts", "statement": "The floats written for a built Thing are arguments of the builder calls, alone or inside values; its document has at most 4 + 2 L + k levels if the closures of schemas are nested at most L deep and the values given at most k. So a Thing that is built from arguments that survive (C45), without titles of properties, with at most 60 closures inside one another and values of at most three levels, is read back from its JSON text unchanged, provided the floats given are written and read exactly.", "quantifier": "all programs of builder calls, all extensions that write no floats and at most three levels, all iteration orders of the hash maps, all ways of writing and reading floats", "why_tests_cant": "Concerns every combination of calls; a test builds and reads one Thing. That no float appears that was not given, and that nothing gets deeper on the way, is about all programs.", "anchors": ["src/builder.rs: ThingBuilder::build", "src/thing.rs 51-167", "src/thing.rs 670-727", "src/thing.rs 996-1010", "Cargo.toml 13"]}
{"id": "C71", "title": "Floats can be written and read exactly", "statement": "There is a way of writing and reading floats as JSON numbers such that every finite f64 is written as a number that stands for exactly that float, and every number that stands for exactly some f64 is read as it, with its sign for zero. With it, every document of at most 127 levels comes back from its text, and every built Thing of C70, with no hypothesis on the floats other than that they are values of the type f64.", "quantifier": "all finite f64 values including subnormal ones and both zeros, all JSON number texts, all documents, all programs of builder calls", "why_tests_cant": "There are 2^64 floats and for each one infinitely many texts; a test tries a few. It also shows that the hypothesis on floats in the properties about texts can be met by all floats at once.", "anchors": ["Cargo.toml 13", "src/thing.rs 996-1010"]}
{"id": "C72", "title": "The order of hash maps does not matter", "statement": "Whatever the order in which the entries of the hash maps of a Thing (language maps, affordances, security definitions, URI variables, schema definitions and the properties of object schemas, at any depth) are visited when it is written: serialization succeeds in every order or in none, the texts differ in the order of members only, the same Thing (or none) is read back from each of them, and serializing to serde_json::Value gives the same Value.", "quantifier": "all Things, all iteration orders, all extensions that do not look at the order of members, all nesting depths of schemas", "why_tests_cant": "The order of a std HashMap is random per process; a run of a test sees one order of each map, and the number of orders of a map grows with the factorial of its size.", "anchors": ["src/thing.rs 30-31: MultiLanguage, DataSchemaMap", "src/thing.rs 111-117, 139: the maps of a Thing", "src/thing.rs 1035: properties of ObjectSchema"]}
{"id": "C73", "title": "Structs written as arrays", "statement": "A link, an additional response, a version, an HTTP header or a pair of CoAP block sizes may also be written as an array. The array is read exactly when it holds the members of the struct in the order of their declaration, null standing for a missing member; only the languages of a link may be left out at the end. It is then read as the same value as the object the crate writes. Nothing but objects and arrays is read as one of these structs, and nothing but objects as a Thing, an affordance, a data schema, a form, an expected response or a security scheme.", "quantifier": "all JSON documents, all arrays of any length, all links, responses, versions, headers and block sizes", "why_tests_cant": "The tests of the crate never give an array for a struct; swapped positions of two members of the same type show only for such arrays.", "anchors": ["src/thing.rs 1428-1459: Link", "src/thing.rs 1710-1729: AdditionalExpectedResponse", "src/thing.rs 646-654: VersionInfo", "src/protocol/http.rs 19-27: MessageHeader", "src/protocol/coap.rs 42-50: BlockWiseTransferParameters"]}
{"id": "C74", "title": "Defaults that are written, and defaults that are not", "statement": "readOnly and writeOnly of a schema or property, safe and idempotent of an action and the forms of an affordance are always written, whatever their value; synchronous only if it is given; success of an additional response and mqv:retain only if true; mqv:filter and htv:headers only if not empty; a missing model of a version is written as null. The operations of a form are written as a list of their names even if there is only one, as null if the list is empty, and not at all if they are the default.", "quantifier": "all schemas, affordances, forms, responses and versions, all extensions with names of their own, both ways of writing", "why_tests_cant": "Each member has its own rule (skip_serializing_if, skip_serializing_none, OneOrMany or a hand-written Serialize) and reading accepts either form, so round trips do not notice a change.", "anchors": ["src/thing.rs 705-718: DataSchema", "src/thing.rs 468-506: ActionAffordance", "src/thing.rs 1668-1679: Serialize for DefaultedFormOperations", "src/thing.rs 1715: success", "src/thing.rs 646-654: VersionInfo", "src/protocol/mqtt.rs 29-49", "src/protocol/http.rs 30-39"]}
