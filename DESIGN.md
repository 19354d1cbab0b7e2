# wot-td in Rocq: design

Subject: sifis-home/wot-td (`/repo`, Rust), a library to build W3C Web of Things *Thing
Descriptions* (TD) and to (de)serialize them with serde. The model is written in plain Gallina
(Coq 8.16.1, standard library only) under `rocq/theories`. `properties.jsonl` lists the properties,
`MANIFEST.json` maps each of them to theorems, `seeded/LOG.jsonl` records mutation experiments.

## 1. Files

Model (definitions only; every definition cites the lines of `/repo` it models):

| file | content |
|------|---------|
| `Base.v` | results, options, sorted association lists (hash maps), list helpers |
| `Json.v` | JSON values, objects as entry lists, member lookup, normalisation (`serde_json::Value`) |
| `Serde.v` | what `#[derive(Serialize, Deserialize)]` expands to: mandatory/optional/defaulted members, flatten, one-or-many, maps |
| `MinMax.v` | `Minimum`/`Maximum` and their comparison operators |
| `Types.v` | the TD types of `thing.rs` |
| `DsBuilder.v` | the data schema builder, its conversions, `check`, `try_into`; the structs merged into one state |
| `SchemaStructs.v` | the same struct by struct, and the second chain of structs used by property affordances (C54) |
| `Builder.v` | link, security, form, affordance and thing builders and `build` |
| `HList.v`, `Extend.v` | heterogeneous lists; `ext`/`ext_with` on every builder |
| `Protocol.v` | HTTP, CoAP and MQTT extensions |
| `Ser.v`, `De.v` | the (de)serializers of `thing.rs` |
| `Equal.v` | `==` (hand-written and derived `PartialEq`) |
| `Defaults.v` | `Default` (hand-written and derived) |
| `Display.v` | the messages of builder errors |
| `Debug.v` | what `Debug` prints, as a tree; `Clone` of forms |
| `JsonText.v` | documents as characters: `serde_json::to_string` and `from_str` (C67, C68) |
| `ExactFloats.v` | a way of writing and reading floats exactly; no counterpart in the repository (C71) |

Specifications (small, used by the property statements; none mentions the functions it judges):

| file | vocabulary |
|------|---------|
| `Spec.v`, `SpecNum.v` | sub-schemas, language tags, bounds; numbers as rationals and what bounds admit |
| `SpecCalls.v` | what a list of builder calls declares |
| `SpecThing.v` | description of a Thing, consistency, defects an error may name |
| `SpecArgs.v` | arguments of builder calls within the limits of their Rust types |
| `SpecSerde.v`, `SpecTyped.v` | which values survive writing and reading; the invariants of the Rust types |
| `SpecExt.v` | lists of typed elements, trees of extensions, disjoint member names |
| `SpecDoc.v`, `SpecMember.v` | documents: unknown members, reordering, mandatory members, defaults, one-or-many, TD names |
| `SpecEqual.v`, `SpecRead.v`, `SpecDefault.v` | when Things are the same; finiteness; least documents |
| `SpecStruct.v` | when a partial schema and human readable fields are a schema |
| `SpecShape.v` | the shape the TD specification prescribes for documents |
| `SpecVocab.v` | the members and terms of the HTTP, CoAP and MQTT binding templates |
| `SpecGrammar.v` | the chains of calls the builders accept, as a grammar without builder states |
| `SpecResponses.v` | calls and things without the additional responses of affordances (C06) |
| `SpecReorder.v` | which calls may be exchanged (C62) |
| `SpecGiven.v` | the numbers among the arguments of builder calls (C50) |
| `SpecMade.v` | which values the builders can make (C63) |
| `SpecFirst.v` | positions of defects, in the order of the checks of `build` (C64) |
| `SpecLax.v` | the errors of `build` that a Thing that was read can deserve (C65) |
| `SpecApart.v` | the calls that declare affordances, links and forms, the calls that remain without them, leaving some of them out (C66) |
| `SpecJsonText.v` | numbers in texts, the floats of a document, nesting (C67) |
| `SpecSyntax.v` | the grammar of RFC 8259: space, strings with escapes and UTF-8, numbers, values (C68) |
| `SpecNest.v` | levels of schemas, values that come with a Thing, depth of what extensions write (C69) |
| `SpecBuiltText.v` | closures inside one another, values and floats given in calls, extensions that write no floats (C70) |
| `SpecFloatText.v` | the number a JSON number text stands for, and the number a float is (C71) |
| `SpecShuffle.v` | reordered documents in which rivals (repeated members, the two forms of a bound) keep their order |
| `SpecArrange.v` | a Thing with its hash maps in another order (C72) |
| `SpecRow.v` | structs written as arrays (C73) |
| `SpecSpelt.v` | which defaults are written (C74) |
| `SpecMethods.v` | methods of the thing builder by name (C20) |
| `SpecDebug.v` | the fields of the structs that print themselves by hand |
| `SpecText.v` | which Things can be written; extensions that write the same in both ways |

Proofs: all other files, by topic: builders (`DsFacts ConvFacts CheckFacts NumFacts BoundFacts
DsProgFacts SchemaFacts ProgFacts SaysFacts BuildFacts ThingFacts OrderFacts CommuteFacts
ProgramProps ArgFacts BuiltFacts SchemaStructFacts StructFacts`), extensions (`ExtFacts ExtendFacts HListFacts ProtocolFacts
ExtDocFacts ExtTypedFacts`), round trips (`SerdeFacts RoundTrip RoundTripDs RoundTripTd
RoundTripThing CleanFacts StableFacts KnownFacts ExactFacts DecodedFacts FloatFacts`), documents
(`GrownFacts CanonFacts DocFacts MemberFacts RespellFacts NameFacts WrittenFacts ShapeFacts
ReadFacts ConformFacts ReadsFacts VocabFacts GrammarFacts TextFacts ShuffleFacts`), `EqualFacts`, `DefaultFacts`, `DisplayFacts`, `DebugFacts`, `UncheckedFacts`, `ResponseFacts`, `OrderExact`, `ReorderFacts`, `GivenFacts`, `MadeFacts`, `ThingMadeFacts`, `MakeFacts`, `RemakeFacts`, `FirstFacts`, `LaxFacts`, `ApartFacts`, `JsonTextFacts`, `SyntaxFacts`, `ThingTextFacts`, `NestFacts`; concrete values in `TextSamples NestSamples LaxSamples FirstSamples MakeSamples Samples SampleFacts DsExamples
SerdeSamples DocSamples SerdeMore MemberMore Witnesses ExchangeMore BuiltSamples EqualSamples ShapeSamples`.

`Props_*.v`: the property theorems and nothing else: statement, `exact`, `Print Assumptions`, and an
`Example Cnn_used` showing a concrete case that meets the hypotheses. A theorem named `.._partial`
proves the part of its property that holds, `.._exact` characterises exactly when the property
holds, `.._refuted` gives a witness on which it fails.

`RepoTestsBase.v`, `RepoTests_*.v`: the unit tests of `/repo` run on the model (all but six; the
six either only compile something or make values no program can make). The expected values are those
written in the Rust tests; `tools/repotests` translated them. They are tests of the model, not proofs:
they check that our reading of the code agrees with what its authors assert about it.
`RepoTests_Docs.v` does the same with the examples in the documentation comments.

## 2. Modelling decisions

* **Strings** are Coq `string`s (byte strings). Nothing looks inside a string except comparisons.
* **Hash maps** are association lists sorted by key without repetition, so that Coq equality is the
  map equality of Rust. Iteration order is *not* the list order: every loop over a hash map goes
  through an arbitrary reordering `ord` (a parameter), and C18 proves independence of it.
* **JSON** is a tree; an object is a *list of entries* with order and repetitions, i.e. what a text
  document is. `serde_json::Value` objects are the sorted, repetition-free ones (BTreeMap, the
  crate does not enable `preserve_order`).
* **Serializing** is parameterised by `mk : entries -> json`, the way an object is assembled:
  `mk = JObj` is text output, `mk = JObj ∘ normalise` is `serde_json::to_value`. Round trip theorems
  hold for every `mk` that keeps the members (in any order).
* **Numbers**: `f64` is `SpecFloat.spec_float` (NaN, infinities and both zeros included), compared by
  `SFcompare`; integers are `Z` with the range checks of the Rust types. serde_json writes non-finite
  floats as `null`, integers are accepted where floats are expected and converted with
  round-to-nearest (`binary_normalize`).
* **Decoding** returns `option`; the texts of serde error messages are not modelled.
* **Builders** are state records; a *program* is a list of calls (with nested programs for
  closures) and `run` folds over it. The Rust type-state (which calls typecheck in which state) is
  a partial step function: `None` means "does not compile". Properties quantify over all programs.
* **Externals** are parameters, not axioms: a record `env` holds the language tag test
  (`oxilangtag`) and the date type with its RFC 3339 printer/parser (`time`); theorems that need
  parsing to invert printing say so as a hypothesis. Extensions (user types plugged into the TD types) are parameters as well: a
  record `piece` holds a carrier type, its serializer to members and its deserializer; what a theorem
  needs of them is a hypothesis (`exts_sound`, `exts_read_typed`, `exts_default`, `eqs_exact`, ...) that is
  proved for HTTP, CoAP, MQTT, `Nil` and any `Cons` of extensions that meet it.
* A panic (`unwrap` on `None`) is an explicit error `EPanic`, never totalised away; C16 shows it unreachable.
* **Equality**: `OffsetDateTime` compares instants, so `==` on dates is a parameter that agrees with some
  view `D` of dates.

## 3. Property by property

| id | model | proof |
|----|-------|-------|
| C01 | `build` over thing programs | invariant "required names ⊆ declared names" by induction on the program; then inversion of `build` |
| C02 | security calls, definition loop | induction over the definition list; content equality with an independent list spec |
| C03 | combo check | inversion of `build`, membership |
| C04, C05 | form checks | inversion, `Forall` over forms and ops |
| C06 | form checks | thing-level forms proved; affordance-level refuted by a witness, and shown to be ignored altogether |
| C07 | `try_build_affordance` | induction over declared affordances |
| C08 | work-list `check` | soundness and completeness of the loop w.r.t. an inductively defined "reachable sub-schema" |
| C09 | `build` | refuted by witnesses; no schema in these places is ever checked (stated for all schemas) |
| C10 | uri variable checks | inversion |
| C11 | all `try_into` conversions | nested induction on schemas; both directions |
| C12 | link conversion | inversion |
| C13 | whole `build` | equivalence with a declarative validity predicate on the builder state |
| C14 | whole `build` | case analysis of every error path |
| C15 | programs and `build` | refinement: each field equals an independent function (last/filter/map) of the call list |
| C16 | context calls | induction on programs; no panic |
| C17 | `build` | inversion + C15 |
| C18 | `build ord` | for any two reorderings: same success; equal Things exactly if no language map has different texts under tags recorded alike |
| C19 | step function | case analysis over pairs of calls |
| C20 | ext functions, HList | state equality |
| C21–C25 | data schema programs | invariant by nested induction on programs |
| C26 | `MinMax`, `check` | exact characterisation; the property itself refuted both ways, proved for inclusive bounds |
| C27, C28 | `MinMax` | case analysis on comparison results, order laws of `SFcompare` and `Z.compare`; semantic sets |
| C29, C30, C32, C45 | `Ser`, `De` | induction on schemas / member algebra; side conditions made explicit, counterexamples without them |
| C31, C43, C49 | op lists, one-or-many | induction / finite case analysis + string lemma |
| C33, C42, C48 | protocol pieces | piece law instances; HTTP empty header list refuted |
| C34 | `mk = JObj` | refuted for properties with human-readable info; proved without |
| C35 | decoders | congruence of the decoders with "same members" |
| C36 | decoders | congruence with "same members", and with swaps of members that are not rivals; refuted for rivals |
| C37, C38 | decoders | lookups |
| C39 | decoder of the flattened option | refuted by witnesses; what is guaranteed is proved |
| C40, C41 | HList | induction on the list structure |
| C44 | `De` then `Ser` then `De` | decoder output satisfies the round-trip side conditions, or refuted |
| C46 | `build` | refuted by witness |
| C47 | member names in `Ser` | table of TD names; three names refuted |
| C50 | `check` | NaN excluded at every depth; infinities and NaN multipleOf refuted; exactly which number schemas build; every number comes from a call |
| C51 | `Equal.v` | `==` is equality after forgetting the sign of zeros and the form of dates, on values without NaN: nested induction |
| C52 | `De` | every decoder establishes the invariant of its type: nested induction on documents |
| C53 | `Defaults.v`, `De`, `Ser` | computation under the extension hypothesis; three witnesses against |
| C54 | `SchemaStructs.v` against `DsBuilder.v`, `Builder.v` | simulation between the structs and the merged state; witness for the calls a property lacks |
| C55 | `Ser` | member tables against the shape tables; nested induction on schemas; equivalence with "no gaps"; witnesses for the gaps |
| C56 | `De`, `Protocol` | every decoder succeeds on the shape of its type: induction on the depth of documents; what each binding expects of its members, and that combinations expect both |
| C57 | `Protocol`, forms of `Ser`, `De` | both directions against the table of terms, member by member; lifted to forms through the names being apart |
| C58 | `DsBuilder`, `Builder` | abstract automaton of four phases, simulated by the builder states; accepted words are the grammar; nested closures by induction on calls |
| C59 | `Display` | messages have distinct prefixes that no name can imitate; names recovered by cancelling prefix and suffix |
| C60 | `Ser`, `HList`, `Protocol` | writing commutes with `canon`, member by member and by induction over schemas; failure sites enumerated |
| C61 | `Debug` | printing is injective, field by field; nested induction on schemas |
| C62 | Declarations commute | simulation up to permutation of the declaration lists; `consistent` is invariant under it; a theorem shows that the error is not |
| C63 | What the builder can make | one direction from the grammar and the declared values, the other by constructing a program, for schemas by induction on the nesting, for Things member by member |
| C64 | The earliest defect is reported | a relation between results and sets of positioned defects, closed under sequencing and under loops with and without an accumulator; applied stage by stage |
| C65 | What reading does not check | from the invariants of C52 on one side, a document for each error on the other; `consistent` is the absence of defects, all of which are decidable |
| C66 | Affordances, links and forms are checked one by one | consistency of a Thing is that of its pieces and the absence of repeated names; a declaration changes only its own list of the builder, so a run without it reaches the same state but for that list |
| C67 | JSON texts of Things, and how deep they may be | reading undoes writing by induction over documents, for any rest of the text that does not continue a number; the reader fails as soon as its allowance of levels is used up; composed with C29 and C34; arrays of arrays as the witness that the allowance is missed |
| C68 | Texts are read and written by the grammar of JSON | the reader is sound by induction on the allowance of levels and complete by mutual induction over derivations; unambiguous because the reader is a function |
| C69 | How deep a Thing may be to be read from its text | induction over schemas: a level of schemas is one or two levels of the document; a chain of alternatives in a URI variable reaches the bound; composed with C67 |
| C70 | Built Things come back from their texts | the floats of a document by induction over schemas; those of a built Thing, its levels and its values by the calls that describe it (C45); composed with C67 and C69 |
| C71 | Floats can be written and read exactly | a writer and a reader of our own, `ExactFloats.v`; a float times a power of ten has an exact decimal; rounding is the identity on floats; composed with C67 and C70 |
| C72 | The order of hash maps does not matter | permutations of maps are shuffles (C36); induction on schemas; composed with C36, C60 and C67; sorted maps are unique representatives |
| C73 | Structs written as arrays | inversion of the positional readers, one relation per struct |
| C74 | Defaults that are written, and defaults that are not | the members of each name in what is written |

## 4. What the unchanged code does that the properties exclude

Each item is a theorem `.._refuted`, or explains why a theorem is `.._partial`:

* *Builder.* Bounds of which one is inclusive and one exclusive are always rejected, equal exclusive
  bounds are accepted (C26). `multiple_of(NaN)` and infinite bounds are accepted (C50). Schemas in
  `schema_definitions`, `uri_variables` and `data_response` are not checked for bounds (C09). The schema
  names of `additionalResponses` are checked only in forms of the Thing itself (C06). A combo scheme
  that refers to an unknown scheme is reported as `MissingSchemaDefinition` (C14). Which of several
  errors is reported depends on hash map order (C18). Things without security, and affordances
  without forms, are built (C46). A property affordance offers no call about the text of a string
  (`min_length`, `pattern`, ...), though a schema does (C54).
* *Writing and reading.* Reading checks none of the rules of `build` beyond what the types enforce (C65).
  An empty list of operations is written as `null` and read as the default
  (C31, C44). The text of a property with a title, description or type repeats those members and
  cannot be read (C34). HTTP responses without headers cannot be read back (C33, C53). Custom security
  schemes named like a known one, or with data `null`, are read as something else (C32). Infinite numbers
  are written as `null` (C30). `const: null` is read as no constant (C30). A version without a model is
  written as `"model": null` (C55). An HTTP response without headers is not read at all (C56).
* *Reading.* A malformed subtype of a data schema is dropped, not rejected; if both `maximum` and
  `exclusiveMaximum` occur the first wins (C39, C36). A malformed known security scheme is read as a
  custom one (C39). `min_items`, `max_items` and `data_response` are not the TD names (C47).
* *Values.* A Thing with NaN is not equal to itself (C51). `Thing::default()` has the context `null` (C53).

## 5. Trusted base

* The Coq 8.16.1 kernel, including its `vm_compute` conversion for concrete examples. No kernel check is
  switched off, there are no axioms, parameters, functors or plugins.
* `Print Assumptions` is printed under every property theorem, and says "Closed under the global
  context" for each of them. (Libraries of the standard library that are loaded, e.g. `Setoid` through
  `ZArith`, declare axioms of their own; no theorem depends on them.)
* The model's reading of the Rust sources; the comment on every definition cites the lines. Nothing
  is run: the tie between the model and the code is this reading, checked against the values the
  unit tests of the crate expect (`RepoTests_*.v`).
* The model's reading of what the derive macros of serde and serde_with, `serde_json` and `serde_repr`
  do, in `Serde.v`, `Json.v` and the header of `De.v`: flattening, internally tagged and untagged
  enums, `skip_serializing_none`, `OneOrMany`, duplicate members, positional (array) structs.

Modelled: `src/thing.rs` (types, Serialize, Deserialize, PartialEq, Default, comparison of bounds,
operation names), `src/builder.rs`, `src/builder/affordance.rs`, `src/builder/data_schema.rs`,
`src/builder/human_readable_info.rs` (all builders, conversions and checks), `src/hlist.rs`,
`src/extend.rs`, `src/protocol/{http,coap,mqtt}.rs`. Of the dependencies: the parts of serde, serde_with and
serde_json that these use.

Not modelled, or simplified:

* `Hash`, and `Clone` but for forms (all derived); the layout of `Debug` output as text; errors of reading and writing are just failures (the errors of
  `build` are modelled with their payload and messages).
* JSON texts (`JsonText.v`) are read in two steps, text to document and document to value; documents are
  trees whose objects keep order and repetitions. serde_json reads in one step and skips members nobody
  wants without counting their depth (127 levels are read otherwise) or the range of their numbers: in a Thing
  the unknown members of `version` and of links, since all other structs have flattened members, or are in
  such structs, and have unknown members buffered with the limit.
  Which decimal expansion a float has, and which float is nearest to one, are parameters.
  `ExactFloats.v` is one choice of these parameters, not a model of serde_json, for which the hypotheses on floats hold (C71).
* `{"name": {}}` for a unit variant, which newer serde accepts besides `"name"` and `{"name": null}`.
* Closures passed to builders are programs of calls on the builder they are given; a closure that
  returned some other builder value it had at hand is outside the model.
* `From<ReadOnly<T>>` and `From<WriteOnly<T>>` for the unspecialised data schema builder
  (`data_schema.rs` 2642-2686): no program can call them, for `read_only`/`write_only` are not offered by
  that builder and the wrappers cannot be made otherwise outside the crate.
* The order in which `build` visits a hash map is a function of its contents; written, its members are sorted
  (in Rust they come in any order, which no reader of the crate notices: C72).
* The two readings of a language tag, `str::parse` in the builder (which may normalise) and `Deserialize`,
  are separate parameters.
* Memory, stack depth, time.
