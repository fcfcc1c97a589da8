# Design of the Rocq model of progenitor

All Coq sources are in `rocq/theories` (logical name `Verif`).  For each area `X` there are four
kinds of files: `XModel.v` (transcription of the Rust code, function by function, every definition
citing file and lines, no proofs), `XSpec.v` (an independent specification that does not use
the model's helpers), `XProofs.v` (lemmas), `PropX.v` (only the property theorems, each closed by
`exact`, followed by `Print Assumptions` and a concrete `Example` that meets the hypotheses).

## Conventions

* A Rust `String`/`&str` is a `list N` of Unicode scalar values (`str`); bytes are `list N` below 256.
* A generator function returns `outcome A` = `Ok a | Err e | Panic msg`.  A Rust `panic!`, `unwrap`,
  `expect`, `assert!`, `todo!`, `unimplemented!` is the explicit value `Panic`.
* A `&mut self` method returns the new value.
* `HashMap`/`BTreeMap` are association lists; only lookups (and sorted iteration for BTree) are used.
* Generated Rust code is modelled as data: the generator model produces a small AST (format string,
  argument list, statements, match arms, struct fields) and an interpreter gives it meaning, so that
  properties relate the OpenAPI operation to what the *generated client* does.
* Calls into other crates are either re-modelled from their documented behaviour (percent-encoding,
  serde_urlencoded, http::HeaderMap, reqwest RequestBuilder, futures combinators, heck, format!,
  regex subset) or abstracted as section variables (typify's TypeSpace, Unicode tables, servers,
  hooks, Display/Serialize of user types).
* When the full statement is false of the code, the theorem is split into `*_refuted` (a concrete
  witness) and `*_partial` (what does hold); both are listed in MANIFEST.json with status `partial`.

## Plan per property

| id | modelled | how proved |
|---|---|---|
| C01 | `template.rs::parse` state machine | grammar of pieces as spec; `parse` Ok iff in grammar (with the stray-`}` quirk), never panics; strict grammar refuted by `/{a}}` |
| C02 | `compile` + a `format!` interpreter | format well-formed iff no stray brace; refuted witness; exact condition `C02_compiles_iff` |
| C03 | `parse`, `names`, `to_string` | equals string-level slash squeezing; idempotence |
| C04 | `compile` evaluated by the interpreter | equals piecewise expansion |
| C05, C06 | `encode_path`, PATH_SET, UTF-8 | decoder inverts; character-class invariant by induction |
| C07 | WHATWG path splitting/normalisation subset | partial (arguments not dot-segments and without backslash), shown to be the exact condition, for texts and (KeptProofs.v) for the requests of generated clients, given a URL parser that does with paths what the specification says (`parses_paths`), + refutations |
| C08-C11 | serde data model, `QuerySerializer`, serde_urlencoded serializer | equality with a `form_explode` spec by induction on values; `C08_wrapped`: exactly which wrapped scalars are refused |
| C12 | form-urlencoded byte serializer | decoder round trip |
| C13-C18 | `method_sig_body` as AST + interpreter with reqwest RequestBuilder model and hooks as arbitrary functions over a world state | trace equality with a reference semantics |
| C19-C23 | `process_operation` responses part, `extract_responses`, arms | case analysis over response sets, spec = OpenAPI precedence; 1xx/3xx refuted |
| C24, C25 | `ResponseValue`, `Error` (ClientModel.v) | equations with arbitrary decoders/bodies; InvalidResponsePayload refuted |
| C26 | `content_length`, `u64::from_str` | equivalence with a digit-string spec |
| C27-C29 | `builder_struct`: fields, setters, `send` (BuilderModel.v); the types' `Default`/`From`/`TryFrom` are oracles | induction over setter histories; the environment of `send` is computed from the history |
| C30 | both renderings of one operation run by the same interpreter | equality of runs (EnvProofs.v, BuilderSend.v); generation for every operation refuted (F23), exact condition proved |
| C31-C34 | the emitted stream expression of both interfaces (StreamModel.v) over futures-util combinators as step machines (FutureModel.v, without `Poll::Pending`) and an arbitrary server state machine | induction over pages; refinement to list concatenation |
| C35 | `dropshot_pagination_data` | iff with a declarative predicate over a type-space oracle; the parameters required on the first page are exactly those the extension lists (`C35_first_page`) |
| C36 | `sort_params`; `sort_by` is the insertion sort std uses for at most 20 elements | sortedness + permutation + canonicity |
| C37 | parameter map construction | characterisation; name-only keying refuted, exact condition proved |
| C38 | `ReferenceOr::item` with fuel | chain spec; text of the panic for an undefined key; cyclic refs never terminate (refuted) |
| C39 | `validate_openapi` (GenerateModel.v) | iff with a declarative `valid_document`; the reported error is the first fault in document order |
| C40-C42 | `sanitize`, heck 0.5.0's transform, syn's identifier check (SanitizeModel.v) over a record of Unicode tables; instance `unicode15` | validity for all strings and all tables with a few laws, which are proved of `unicode15`; declarative words (`words_of`) determine the name; idempotence outside two kinds of letters; collisions exactly characterised and refuted (F24); for Pascal case the words of a generated name are compared with the words it was made of (PascalProofs.v), which gives the exact condition for ASCII names to be left alone |
| C43 | `unique_ident_from`, generated scopes | termination, freshness; `header_map` refuted, exact condition for a declared name to be fresh (C43_fresh_iff) |
| C44-C47 | all of `to_schema.rs` (ToSchemaModel.v) with the schema types of schemars; the meaning of OpenAPI 3.0 schemas (`accepts`) and of JSON Schema draft 7 (`valid`) over JSON values, parameterised by what references, patterns and formats mean (SchemaSpec.v) | induction over the schemas inside a schema; agreement of both meanings for schemas all of whose parts are kept, recursive documents included; conversion ends exactly for translatable schemas; null, lengths and integers refuted, with the exact behaviour or conditions: an integer bound survives exactly when it is a double, otherwise it becomes the nearest one (DoubleSpec.v, DoubleProofs.v), of a length its low 32 bits are left (SchemaWrap.v), null is added exactly under the stated conditions (SchemaNull.v), and a panic comes from a schema inside that is refused with that text (SchemaPanic.v) |
| C48-C51, C71-C73 | all of `cli.rs` (CliModel.v): argument generation, the generated `execute_*` functions with their callbacks, `get_command`/`execute` dispatch; clap's parsing of `--name text` occurrences | declarative description of the arguments (which properties have their own, in which order names are taken); the calls made on the builder are traced to `gives` of C27; the listing is tied to the page specification of C31; raw responses, overrides and `json_body` refuted, with exact conditions for panics, distinct arguments and dispatch (CliExact.v) |
| C52 | `httpmock_method`, `as_wildcard`, `as_wildcard_param`, a parser and declarative-language-checked matcher for the regular expressions that occur (MockModel.v) | language equality under metacharacter-free hypotheses; four refutations; with dots exactly what is matched and when that is right (MockDotSpec.v, PropDots.v) |
| C53, C65 | the `When` wrappers and httpmock's matching of method, path, query and body, run against the request of an episode of RunModel.v | the server's view of the request (`seen`) is determined from the URL of the request; refutations; exact conditions, argument by argument (C53_query_iff, C65_accepts_iff) |
| C54, C66-C68 | the `Then` wrappers, `httpmock` | case analysis over responses; equivalence with named statuses; injectivity of the canonical reasons after `sanitize unicode15`; exact conditions `C68_response_names_iff`, `C68_request_names_iff` |
| C55 | `dependencies` of cargo-progenitor (CargoModel.v), fed with the flags of GenerateModel.v; typify's `uses_*` are inputs | sortedness, membership iff with literal entries, streams and websockets taken from the generated code (C63) |
| C74 | the texts written to Cargo.toml (CrateModel.v `manifest*`); a reader of the TOML subset that occurs (tables, strings with escapes, arrays, inline tables, duplicate keys refused), TomlSpec.v | induction over the lines; each dependency line is read back under its own name; membership iff; the manifest is readable and says what it should exactly if no text needs escaping (TomlExact.v) |
| C75 | `main`, `load_api`, `save`, `reformat_code` of cargo-progenitor (CrateModel.v); files are an association list, the operating system says which opens, writes (also partial ones) and directories fail | case analysis of the run; success and panic iff, frame, order of writes, idempotence |
| C76 | nothing new: `generate_tokens` (GenerateModel.v) with `process_operation`, `method_sig_body`, builder structs (OpModel.v, MethodModel.v, BuilderModel.v) | SupportSpec.v lists the conditions in terms of the document; each step succeeds iff its condition holds; fourteen computed documents panic |
| C56 | `space_out_items`, regex search with backtracking and `replace_all` (SpaceModel.v), both line ends | induction over the matches; additions only at item ends, at all of them in tidy texts; unchanged iff there is none |
| C77 | `MacroSettings`, `ClosureOrPath`, `do_generate_api` (SettingsModel.v), `GenerationSettings` with its setters and `Generator::new`; typify is seen through the list of calls made on its settings | entries of a list without repeated keys are found by key, so order is irrelevant (Permutation); hash maps yield any permutation; the calls are characterised kind by kind; the options as text (KeysModel.v: names, repeated and unknown names, rejected values; the readers of values are syn's and are parameters) are related to the typed settings entry by entry; refutations by concrete parsers |
| C78-C81 | nothing new in the generator; the Rust compiler is a specification: CompileSpec.v (`method_ok`: variables in scope, format strings, traits, exhaustive matches) and CompileItemSpec.v (`item_ok`, `builder_code_ok`, `file_ok`: arguments of calls, moved values in closures, setters, derives, name clashes with imports and prelude); which type implements which trait is a parameter | soundness: accepted bodies never reach the model's `DoesNotCompile` (induction over statements, preservation of typed environments); completeness: the rules are inverted along the statements that `method_sig_body` makes; the conditions are lists on the operation (`sound_operation`, `sound_builder`, `sound_client`); operations that the generator accepts but the compiler rejects are computed |
| C82 | nothing new | `file_ok` gives soundness of every operation (C81), soundness the conditions `generated` that the properties about single calls ask for (EndCor.v, `sound_generated`), so these hold of every method, builder and stream of the client |
| C83 | MockModel.v with the types of the values that the wrappers take | MockCompileSpec.v says what the compiler asks of a mock (format string of a path matcher, `Display`, references for `json_body_obj`, names); which types are passed by reference is a parameter; induction over the pieces of the path for the format string, injectivity of the names of statuses |
| C84 | nothing new in the generator (CliModel.v, GenerateModel.v) | CliCompileSpec.v says what the compiler asks of the generated file: functions, variants, value parsers, setters, what can be shown, and how `self.client.operation()` is resolved (`finds`); per command the rules are inverted along the outline of C71; per file, names come from C81's soundness and the traits of `builder_tags` by induction; runs: the calls made are ones the builder offers, so C80 applies |
| C85 | the calls of `add_ref_types` and `add_type_with_name` with the schemas they get (TypesModel.v: the type space of MethodModel.v is the one that `to_schema` followed by typify gives) | the schema of each argument and response is found in the document by the specification (TypesSpec.v), its conversion is related to it by C44; `convert` never returns an error, so untranslatable components are panics |
| C86 | the generator as an object: type space and flags threaded through `process_operation`, `get_body_param`, the three public functions (GeneratorModel.v; typify is any machine with a state) | what is asked for is specified from the document (`needs`, GeneratorSpec.v) and followed through the run by a simulation; under `remembers` each step agrees with the functional model instantiated with the final type space (`frozen`), so that all theorems about the functional model carry over |
| C87 | sequences of calls on one generator (`calls_r`) | induction over the calls with the characterisation of the flags of C63; monotonicity holds for every outcome |
| C88 | the outcomes of `generate_tokens` (GenerateModel) against causes stated on the document (FailSpec: 12 for errors, 18 for panics, each with its text) | `explained` composes over `bind`, `mapM` and references; each function explains its failures (when sorting the parameters panics, two distinct path parameters were compared and one is not in the path; `compile` panics for the first placeholder without one); the converse from `document_iff` (C76), as every cause contradicts being supported |
| C89 | `client_docstring`, `struct_doc`, `builder_tags` (GenerateModel) against paragraphs and places (LinkSpec) | the links of a builder are the places of its tags; the traits have exactly the methods so tagged (`tags_items`, from the fold over the BTreeMap); completeness because distinct names identify operations |
| C90 | the outcomes of `httpmock` (MockModel) and `cli` (CliModel) against causes stated on the document (ToolFailSpec), each with the text of the panic | reading a document explains its failures as in C88 (`reading_explained`); `mock_method_explained` and `cli_method_explained` explain those of an operation (argument names: those added so far belong to earlier parameters); converse: an operation with a mock or a command has no obstacle |
| C91 | `Display` of the client's and of the generator's errors (ClientModel, ErrorModel) against kinds (TextSpec) | no heading is a prefix of another |
| C92 | `generate_tokens` on two documents that share an operation (LocalSpec: same place, same targets of references, same types) | `operation_carry`: reading an operation carries over, reference by reference; then positions in the list of methods (`same_builder`, `same_items`); `local_generated` rebuilds a run from the operations of others |
| C93 | the setters of `GenerationSettings` as calls (ScriptModel) and `Generator::new` (SettingsModel) against the last call about each thing (ScriptSpec) | induction on the calls from the end, once for plain values, once for values by name; what is read of the settings (SettingsRead.v) follows for build scripts and for the macro |
| C94 | `generate_api!` (SettingsModel), calls of a script (ScriptModel) and `main` of cargo-progenitor (CrateModel), related by `agrees` (AgreeSpec: what is written, on both sides) | C77_delivered and C93 tell what the generator and typify get; lists by name are permutations, sorted ones equal (`script_agrees`); then the runs coincide (AgreeCode.v) |
| C95 | `Client`, `new`, `new_with_client` and the accessors (ConstructModel), with RunModel in the context they give; panics by characters of versions and header names (PanicSpec) | `run_starts` computes a call up to its headers, `first_problem` finds the first header that cannot be sent; everything else is `run_present`, which no longer needs legal names (PanicProofs.v); whole clients as in C82 (PanicCor.v) |
| C96 | calls of the `Then` wrapper (MockAnswerModel) on MockModel, against RunModel | the status told is one the documented response stands for (MockDoc.mock_responses); the kind under which the client looks it up is the same because all success kinds agree and all error kinds do (ExtractProofs.generated_kinds); the whole way with MockEpisode.mock_accepts (MockAnswerProofs.v) |
| C97 | MockModel, RunModel | paths as lists of segments: joining slash-free segments is injective, so templates that are apart have no expansion in common; for whole segments a common expansion is built segment by segment (MockApart.v); for all segments by their leading and trailing constants (RouteProofs.v) |
| C98 | nothing new: RunModel, with EncodeModel and SerdeModel | segment by segment, a text with one encoded placeholder determines it; two neighbouring placeholders are confused by moving the text between them (ToldProofs.v, `template_iff`); the pairs of one name are filtered out of the decoded query; all pairs in order are what the query tells (`queries_iff`); headers and bodies by C13 and C14 |
| C99 | `generate_tokens`, `httpmock` and `cli` on pairs of documents (AlikeSpec: what counts as saying the same) | congruence: `same_outcome` composes over `bind` and `mapM`; `item` depends on the target only (`item_ok_iff`); the sorted map of combined parameters depends on the set of those that count (`combined_alike`); `written_document`: references written out |
| C100 | nothing new: RunModel, TemplateModel, EncodeModel | segment by segment as for C97; when two segments have a text in common is decided by their leading and trailing constants (`share_iff`), the common text being the longer lead followed by the longer trail (RouteProofs.v) |
| C57, C69 | the crates section of the macro (MacroModel.v); semver's parser is an oracle | iff with a declarative syntax; settings as a function of the entries, order independence exactly when no two entries are about one crate (refuted otherwise) |
| C58, C70 | `TypeAndImpls`: parser, printer, `into_name_and_impls` (paths without generic arguments) | parser accepts exactly the written forms; last mention decides by induction |
| C59, C60, C62-C64 | `generate_tokens`, `positional_method`, `builder_tags`, `builder_helper`, doc comments (GenerateModel.v); the client is a list of items, traits and builder structs | the operations in document order are characterised declaratively and unique; induction over them; C64 refuted, with the exact condition for both interfaces |
| C61 | `Debug`/`Display` of `Error` with `{:#}` | induction over the source chain |

## Trusted base

* Coq 8.16.1 kernel (and `vm_compute` for concrete examples).
* What `Print Assumptions` lists below each property theorem (aim: "Closed under the global context").
* That the models transcribe the cited lines faithfully, and the descriptions of the third-party
  crates named above.
* UnicodeData.v: tables of Unicode 15.0 written by `tools/unicode.pl` from perl's character database;
  they stand for those of `unicode-ident` and the standard library (which may be of another version;
  C40_identifier_any_tables covers others).
* The CLI: what typify says of a type (`cli_type`), clap (value parsers are arbitrary functions; `clap_parse` models
  `Set` arguments with `required` and `required_unless_present`, `get_one` compares type names), reading the file of
  `--json-body`, `NonZeroU32::get` and the override function are parameters of the model.
* Schemas: an `f64` is its value (a rational; `as_f64` rounds to the nearest double), a format constrains strings
  and numbers only, references mean the same in the document and in the converted schemas.  The meaning given to
  `nullable: true` is that of C46: null is accepted besides.
* cargo-progenitor: serde_json and serde_yaml, the text of the generated tokens, rustfmt, `progenitor_client::code()` and
  what the file system does are parameters of the model; TomlSpec.v stands for cargo's reader of manifests.
* The macro: syn's parsers of closures (from the bar on) and paths, serde_tokenstream splitting the input into keys and
  values (a key that is no field is passed over), semver, opening files, serde_json and serde_yaml are parameters of the
  model; typify is a function of the calls made on its settings; a failing parser leaves its input where it stopped.
* Generators (C86, C87): typify is a machine with a state; where `remembers` is a hypothesis, a type that has been made stays
  (same schema, same name, same type; what is known of it does not change) until the components of the next document are added.
* Types (C85): typify is a function of the schemas it is given: the same schema under the same name gives the same type
  whenever it is added, and adding one does not change another.
* The compiler (C78-C81): CompileSpec.v and CompileItemSpec.v state the rules of the language that the generated code could
  break; lifetimes, what a hook is called with, and the module `types` are left out.
* Panics carry the text of the `panic!`, `todo!`, `unwrap` or `assert!` at hand; values that are shown after it (`{:#?}` of a
  schema, an id, an error) are left out.
* Not modelled: typify's code generation, prettyplease/rustfmt output, syn parsing of generated tokens,
  TLS/HTTP transport, httpmock's server (a mock is the list of its expectations, all of which must hold),
  Tokio scheduling (a call to the server is one atomic step of an arbitrary state
  machine), serde derive output for generated types (arbitrary serde values are used).

`vcheck`/`coqchk` also list the axioms `Coq.ssr.ssrunder.Under_rel.*`: they belong to a standard
library file that is loaded, no theorem of ours depends on them.

## Checks of the model against the repository

Tests of the model's fidelity, not proofs:

* `tools/golden/run.sh NAME...` turns a document of /repo/sample_openapi into a Gallina term, computes `generate_tokens`
  (positional, builder, builder with separate tags), `httpmock` and `cli` with `unicode15`, prints the result with the
  templates of the `quote!` calls and compares it token by token with /repo/progenitor-impl/tests/output/src.  All 35 files
  for keeper, buildomat, cli-gen, param-collision, param-overrides, propolis-server and nexus are equal (for nexus 59438
  to 118971 tokens each).  Not compared: typify's module `types`; the text of a type (but one type id has one text
  throughout); white space and trailing commas, which rustfmt changes; white space within doc comments, which it wraps.
* UnitTests.v runs the repository's unit tests on the model: template.rs, to_schema.rs, lib.rs, token_utils.rs and
  progenitor-client/tests/client_test.rs (serde's image of each test value is written by hand).
* `seeded/LOG.jsonl` records wrong versions of the model and the theorems that reject them.

## Findings

Places where the code does something other than the documentation promises, or panics.  Each is
backed by a `_refuted` theorem or by the exact characterisation named.

* F1 `template.rs`: a `}` directly after a placeholder is accepted (C01, C02).
* F2 `as_wildcard` does not escape regex metacharacters (C52).
* F3 httpmock query matchers use the Rust name instead of the API name (C53).
* F4 `to_schema`: a nullable schema without type that has number or string keywords gets the type array, and
  accepts no number or string any more; with object or array keywords it accepts nothing else (C46).
* F5 `to_schema`: lengths are truncated to 32 bits, 64-bit bounds are rounded to doubles (C44, C47).
* F6 `oneof_nullable_wrapper` rejects null if the inner schema accepts null (C46).
* F7 `encode_path` does not protect `.`/`..` segments or backslashes (C07).
* F8 parameters are keyed by name only, so a query and a path parameter of the same name clash (C37).
* F9 `sort_params`: the comparator is inconsistent for body vs header; a lone undeclared path
  parameter is not noticed.
* F10 documented 1xx/3xx responses are ignored; a typed 200 beside a differently typed default panics (C20, C23).
* F11 cyclic `$ref` recurses for ever; only the last segment of a reference is looked at (C38).
* F12 name collisions: parameters called `header_map` or `encode_path`; setters called
  `send`/`new`/`stream`/`body_map`; distinct operation ids with one sanitised name (C42, C43).
* F13 `space_out_items` is not idempotent.
* F14 `content_length` accepts a leading `+` (C26).
* F15 positional interface with separate tags panics; several body media types panic.
* F16 newtype-struct scalars are refused as query values (C08).
* F17 an illegal api-version or header name panics when the request is built (C13); a document whose version is not printable ASCII yields a client that compiles and panics in every call (C95).
* F18 `Error::status` is `None` for `InvalidResponsePayload` (C24).
* F19 a websocket operation without default or 2xx response panics the generator.
* F20 whether `default` takes part in the success types depends on a `2XX` entry (C23).
* F21 `explode: false` is ignored.
* F22 a documented 101 on a non-websocket operation counts as success.
* F23 the builder interface panics for struct-typed parameters other than a body (C30).
* F24 `sanitize` is not stable for U+0130, for upper case letters without a lower case form, and in
  Pascal case ("a_b", "AB", "Ab"); ids such as `get-item`/`getItem`, `+1`/`plus1`, ``/`x` share a method;
  `get_v_1`/`get_v1` have different methods but one builder struct (C41, C42).
* F25 an operation called `new`, `new_with_client`, `baseurl`, `client`, `api_version` or `inner`, or one
  called like a paginated one plus `_stream`, gives the client two methods of one name (C64); a tag
  repeated on an operation gives its trait two methods of one name (C59).
* F26 a documented status without canonical reason (499) panics mock generation although the client is
  generated (C66).
* F27 mocks: a parameter called `new` or `into_inner`, a websocket operation that documents 101, and
  operations such as `a1`/`a_1` give wrappers or methods of one name (C68).
* F28 mocks: path values that the client percent-encodes are never matched; two restrictions in one segment
  accept too much; a float is sent as `1.0` and looked for as `1`; header restrictions are `todo!()`; form
  bodies are looked for as JSON (C52, C53, C65).
* F29 two entries of the macro's crates section that rename one crate give settings that depend on the order
  of a hash map (C69); the empty name is accepted as a crate name (C57).
* F30 the CLI panics (`todo!()`) after the answer of an operation that returns bytes or an upgraded connection,
  and when a paginated operation that documents an error that is not JSON fails; a paginated operation that
  returns bytes panics the generator (C50, C51).
* F31 the CLI reads `--limit` as a `NonZeroU32` whatever the operation declares, so that a limit of any other
  type panics the command (C50).
* F32 an override that fails makes the command return an error without any callback (C51).
* F33 a body of bytes or text has no argument: such a command is always refused with "body was not
  initialized" (C72).
* F34 a body property `json_body` gives two arguments `--json-body`, which clap rejects; `--json-body` is required
  (or the required properties are) even if the document says that the body is not required (C48, C71).
* F35 the functions of a command are named after the method, the dispatch after the method's name made a name
  once more; for U+0130 the two differ and the file does not compile (C73).
* F36 a nullable enumeration without a type is converted to the type null, so that none of its other values is
  accepted; a nullable enumeration of strings that does not list null does not accept null (C46).
* F37 a schema whose type is none of the six (`null` for instance), or that has `exclusiveMinimum: true` without
  `minimum`, panics the generator (C44).
* F38 cargo-progenitor does not escape the texts it writes to Cargo.toml: a quotation mark in a license, name,
  version or registry makes the manifest unreadable or adds entries to it; code that rustfmt rejects panics the
  program after the new manifest has replaced the old one (C74, C75).
* F39 a document that is valid but not supported makes the generator panic instead of returning an error: a
  reference to nothing or to itself, a path parameter that is not required, a placeholder without parameter or a
  second path parameter without placeholder, a body in two media types, an encoding, a JSON response without
  schema, two types of success or of failure, a websocket that documents a failure or no 2xx status (101 alone
  does not do), an object as query parameter of a builder (C76).
* F40 the documentation of generate_api! mentions an option `struct_builder`; there is none, and the key is passed over
  without a word, like any other misspelt option (C77).
* F41 a failed attempt to read a hook as closure has already consumed `const`, `static`, `async`, `move` or part of the
  closure: `pre_hook = async path` is accepted as `path` (C77).
* F42 operations of the methods OPTIONS and TRACE are accepted, but `reqwest::Client` has no `options` or `trace`, so that
  the generated code does not compile (`client_starts`, hypothesis `g_startable`).
* F43 a paginated operation whose `page_token` is not a string is accepted; the stream passes the `String` of `next_page`
  for it and does not compile.  In the positional style the same happens to a repeated parameter called `page`, `first`
  or `state`, which the variables of the closures hide; in the builder style to a parameter called `stream` or `clone`
  (C79, C80).
* F44 path and header parameters are written with `to_string`, whatever their type: an object or array there gives code
  that does not compile, as do a path parameter `encode_path`, a query or header parameter `header_map` in an operation
  with headers, and a `}` after a placeholder (C78).
* F45 parameters called `new`, `send` or (with a body that has a builder) `body_map` clash with the methods of the builder;
  operations called `error`, `byte_stream`, `response_value`, `request_builder_ext`, `result`, `string`, `option`,
  `from` or `unpin` give builders that hide, or clash with, names the builder module needs; tags that differ in punctuation
  only give one trait twice, and a tag repeated on an operation gives one method twice (C80, C81).
* F46 mocks that do not compile although the client does: a response or JSON body that is passed by value or as `&str` (unit,
  numbers, booleans, strings, enumerations of names; `json_body_obj(value)` lacks the `&`), a query parameter without
  `Display` (arrays), a path parameter whose placeholder occurs twice or not at all, a path parameter next to a `}`, a
  parameter called `new` or `into_inner`, a websocket operation that documents 101, operations whose wrappers coincide
  (C83).  The repository leaves the two expected mocks with such values out of the build:
  tests/output/src/lib.rs:4 (`buildomat_httpmock.rs`:32, `value: ()`) and :29 (`propolis_server_httpmock.rs`:301, an
  enumeration).
* F47 command line interfaces that do not compile although the client does: with separate tags, any operation with two tags
  (`self.client.op()` is ambiguous between the traits), and tagged operations called `clone`, `clone_into`, `to_owned`,
  `baseurl`, `client`, `api_version` or `inner` (the client's own method, or one of the prelude's, is found); in any style an
  operation called `into` or `try_into` (methods by value are found first); names that change when made an identifier twice;
  parameters whose types have no value parser (arrays, objects), and types without `Serialize`, `JsonSchema` or `Debug` in
  results (C84).
* F48 all JSON answers of an operation ask typify for a type of the name `<Operation>Response`, and a parameter called `body`
  or `response` asks for the name of the body's or the answers' type; what typify does about two schemas under one name is
  not in this repository (C86).
* F49 `uses_futures` and `uses_websockets` are never reset: on a generator used for a second document they may describe the
  first (C87).
* F50 the methods of a mock for documented statuses such as 304 take a typed value which the client never decodes: it reports an
  unexpected response; `default_response` with a 2xx status takes the type of the default response although the client decodes
  the documented class of successes (C96).
* F51 path templates with two placeholders in one segment, such as `/{from}-{to}`, are accepted although calls with different
  arguments send the same request: the text between them is not escaped in the arguments (C98).
* F52 documents with ambiguous paths, such as `GET /{id}` beside `GET /v1x0`, are accepted: the call of the first with the
  argument `v1x0` sends the request of the second (C100).
