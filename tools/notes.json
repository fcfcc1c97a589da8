{
 "C01": {
  "note": "Full claim is false of the code: a '}' directly after a placeholder is accepted (C01_only_strict_refuted). C01_parse_accepts_iff_partial characterises exactly what is accepted."
 },
 "C02": {
  "note": "Full claim is false for the stray-brace paths of C01: generation succeeds but the emitted format! string is malformed. Proved for every path of the documented grammar. C02_compiles_iff: the expression compiles exactly if there is no stray brace and every placeholder has a parameter."
 },
 "C03": {
  "note": ""
 },
 "C04": {
  "note": "For paths of the documented grammar; enc is instantiated by encode_path in the request model."
 },
 "C05": {
  "note": ""
 },
 "C06": {
  "note": ""
 },
 "C07": {
  "note": "Full claim is false: '.'/'..' arguments and backslashes are not encoded. Proved for all other arguments against the path state of the WHATWG URL parser; C07_url_structure_iff shows that these are exactly the exceptions, C07_segments_decode that what is sent always decodes to the arguments. C07_sent_iff says the same of the requests of generated clients whose URL parser follows the specification."
 },
 "C08": {
  "note": "Full claim is false for newtype-struct scalars without serde(transparent) (C08_newtype_scalar_refuted); proved for every other scalar. C08_wrapped says exactly what becomes of wrapped scalars."
 },
 "C09": {
  "note": ""
 },
 "C10": {
  "note": "odd_form names exactly the shapes outside style=form for which an encoding is nevertheless produced."
 },
 "C11": {
  "note": "C11_error_iff_unserialisable is about the query part of RequestBuilder; that no request is then sent is proved with the request model (C17/C18)."
 },
 "C12": {
  "note": ""
 },
 "C24": {
  "note": "Status, headers and content length are preserved by every constructor; the accessor claim is false for InvalidResponsePayload, whose status() is None (C24_status_of_payload_error_refuted). C24_status_accessor_iff_partial says exactly which errors report a status."
 },
 "C25": {
  "note": ""
 },
 "C26": {
  "note": "Spec reads the value as an optional '+' and ASCII digits below 2^64."
 },
 "C61": {
  "note": ""
 },
 "C13": {
  "note": "Assumes header names of the document and the api-version string are legal (otherwise the code panics, finding F17) and distinct parameter identifiers, none called header_map (F12). 'Sent once' is for header parameters whose names differ up to case."
 },
 "C14": {
  "note": "Same assumptions as C13. Exactly one documented media type per body (several panic the generator)."
 },
 "C15": {
  "note": ""
 },
 "C16": {
  "note": "codes_valid: three-digit codes, one-digit classes."
 },
 "C17": {
  "note": "call/prepared/observed in RequestSpec.v spell out the order; the world, hooks and transport are arbitrary state transformers."
 },
 "C18": {
  "note": ""
 },
 "C19": {
  "note": ""
 },
 "C20": {
  "note": "Full claim is false: a documented 1xx/3xx code or class is never decoded (C20_documented_redirect_refuted). Proved for 2xx, 4xx, 5xx, and the default for all other statuses; websocket error bodies without JSON are reported as UnexpectedResponse. Exactly which statuses without a documented answer give UnexpectedResponse, and when a failed upgrade does: C20_other_unexpected, C20_upgrade_unexpected."
 },
 "C21": {
  "note": "The websocket upgrade status 101 is handled by C22."
 },
 "C22": {
  "note": ""
 },
 "C23": {
  "note": "The statement names the exact set of responses compared (default shadowed by a trailing 2XX); hypotheses: every placeholder has a path parameter (otherwise C02_panics_iff_undeclared)."
 },
 "C36": {
  "note": "sort_by is modelled by the insertion sort the standard library uses for up to 20 elements."
 },
 "C37": {
  "note": "Full claim is false: parameters are keyed by name only (C37_same_name_refuted). C37_override_iff says exactly when every parameter that counts is there (no two that count share a name); C37_no_others that no other ever is."
 },
 "C38": {
  "note": "Termination is false: cyclic references recurse for ever (C38_terminates_refuted); all else proved, failures characterised exactly. C38_missing gives the text of the panic for an undefined key."
 },
 "C43": {
  "note": "Full claim is false for header_map (C43_header_map_refuted); proved for every other variable. Exact condition for a declared name to be fresh: C43_fresh_iff."
 },
 "C27": {
  "note": "Setter arguments are TryInto conversions given by an arbitrary oracle."
 },
 "C28": {
  "note": ""
 },
 "C29": {
  "note": ""
 },
 "C30": {
  "note": "Behaviour is equal whenever both interfaces are generated. That the builder interface can be generated for every operation is false (C30_every_operation_refuted, finding F23); C30_generated_iff says exactly when it is."
 },
 "C31": {
  "note": "futures combinators modelled without Poll::Pending (a call to the server is one atomic step)."
 },
 "C32": {
  "note": ""
 },
 "C33": {
  "note": "C33_recognised assumes that sanitising \"page_token\" gives itself."
 },
 "C34": {
  "note": ""
 },
 "C35": {
  "note": "The type space (typify) is an arbitrary oracle."
 },
 "C40": {
  "note": "heck 0.5.0 and syn's identifier check are re-modelled; the Unicode 15.0 tables are generated data (tools/unicode.pl). C40_identifier_any_tables needs only a few laws of the tables."
 },
 "C41": {
  "note": "Full claim is false for U+0130, for upper case letters without lower case form, and for Pascal case (C41_*_refuted). Proved for all other strings in snake case. For Pascal case C41_pascal_iff gives the exact condition for ASCII names."
 },
 "C42": {
  "note": "Full claim is false (get-item and getItem; builders of get_v_1 and get_v1). C42_same_method_iff says exactly when two ids share a method, C42_same_builder_iff when they share a builder; distinctness proved for snake-case ids."
 },
 "C39": {
  "note": "C39_first_fault also determines the error: the version, else the first fault in document order."
 },
 "C59": {
  "note": "An operation with a repeated tag appears that often in the trait; distinct tags may share a trait name (see C42)."
 },
 "C60": {
  "note": "Within a path the order is that of openapiv3's PathItem::iter. typify is an oracle."
 },
 "C62": {
  "note": ""
 },
 "C63": {
  "note": "For a new generator."
 },
 "C64": {
  "note": "Full claim is false (an operation called client, C64_distinct_refuted). C64_distinct_iff (positional) and C64_builder_iff (builder) say exactly when the names are different."
 },
 "C52": {
  "note": "Full claim is false (dots and pluses in paths, dots in values, two restrictions in one segment: refuted). Proved for templates and values that mean themselves in regular expressions. With dots C52_dots and C52_value say what is matched besides, and C52_dots_iff, C52_value_iff exactly when that is right. C52_escaped: an escaped character is matched by itself only."
 },
 "C53": {
  "note": "Full claim is false (renamed parameters, floats: refuted). Proved for parameters with a Rust name and values whose to_string is their serde text. Exact condition under which a query expectation accepts the request: C53_query_iff."
 },
 "C54": {
  "note": "Also: every documented status can be produced, and the content is the documented one."
 },
 "C65": {
  "note": "Full claim is false (arguments that are percent-encoded, header arguments: refuted). Proved for sets of arguments that each can be restricted. Exact condition, argument by argument, under which the mock accepts the request of the client: C65_accepts_iff."
 },
 "C66": {
  "note": "Full claim is false (statuses without canonical reason). The exact condition is proved."
 },
 "C67": {
  "note": "Proved."
 },
 "C68": {
  "note": "Full claim is false (three refutations). Proved for the response methods. C68_response_names_iff and C68_request_names_iff give the exact conditions."
 },
 "C55": {
  "note": "Combined with C63: the entries are determined by the generated code and typify's answers."
 },
 "C56": {
  "note": "Also: all item ends of tidy texts are spaced out; unchanged iff there is none."
 },
 "C57": {
  "note": "Proved; semver's parser is arbitrary."
 },
 "C58": {
  "note": "Proved on token level; TypeImpl and its parser are arbitrary."
 },
 "C69": {
  "note": "Full claim is false (two names for one crate). C69_order_iff: the order is irrelevant exactly if no two entries are about one crate."
 },
 "C70": {
  "note": "Proved; generic arguments in paths are not modelled."
 },
 "C48": {
  "note": "Proved for every operation for which a command is generated (C71 says when)."
 },
 "C49": {
  "note": "Proved; for commands that can work (cli_ok) and files that can be read."
 },
 "C50": {
  "note": "Proved; the listing panics exactly when its error response is neither JSON nor empty or the limit of the command is not a NonZeroU32 (C50_panics_iff), so the full claim is refuted."
 },
 "C51": {
  "note": "Proved for responses that are JSON or empty and overrides that succeed; the command panics exactly for bytes and upgrades (C51_panics_iff), a failing override returns without a callback (refuted)."
 },
 "C71": {
  "note": "Proved; the arguments of one command are distinct exactly when no body property of the command is called json-body (C71_distinct_iff), so the full claim is refuted."
 },
 "C72": {
  "note": "Proved for commands that can work (cli_ok: builder compiles, stable names, distinct ids); a raw body cannot be given at all (C72_raw_body)."
 },
 "C73": {
  "note": "Proved with the exact condition: dispatch reaches the function of its command exactly when the method name is stable under sanitize (C73_dispatch_iff); refuted for U+0130."
 },
 "C44": {
  "note": "Full claim is false for lengths from 2^32 (C44_lengths_refuted), integers that are not doubles (C44_integers_refuted) and some nullable schemas (C46); proved for all other schemas, nested and with recursive references. C44_panics: which schema inside makes the conversion panic, and with what text."
 },
 "C45": {
  "note": "The format of a nullable combination of schemas is on the second alternative of the choice it is converted to; everything else is on the converted schema itself."
 },
 "C46": {
  "note": "Refuted for nullable schemas without type that have keywords, for enumerations that do not list null and for combinations that accept null; proved for all others; C46_adds_null_iff: with a type and for combinations these conditions are exact; C46_untyped says exactly what happens without a type."
 },
 "C47": {
  "note": "Length bounds survive exactly below 2^32, of others the low 32 bits are left (C47_lengths_cut); integer bounds survive exactly when they are doubles; any other becomes the nearest double."
 },
 "C74": {
  "note": "Readable with exactly the package fields and needed dependencies if and only if name, version, license and registry need no escaping (C74_manifest_iff); other texts add entries (C74_escaping_refuted) or make it unreadable (C74_readable_refuted)."
 },
 "C75": {
  "note": "Proved for all documents, command lines and failures of the file system; parsers, generator text and rustfmt are oracles, the manifest's meaning is C74, spacing of items C56."
 },
 "C76": {
  "note": "The characterisation is proved for all documents, settings and type spaces (status codes of three digits, not both dropshot extensions on one operation, typify knowing the elements of its arrays); that unsupported documents are refused with an error rather than a panic is refuted, with fourteen documents."
 },
 "C77": {
  "note": "All proved, except: values that are neither closures nor paths are accepted as hooks (refuted, with the exact characterisation proved), and independence of the order of hash maps needs that no two entries of the crates section are about one crate (refuted otherwise; C77_order_iff: exactly then). Keys as text: C77_key_names, C77_written, C77_written_accepted; syn and serde_tokenstream read the values and are parameters."
 },
 "C78": {
  "note": "The compiler is represented by the relation method_ok of CompileSpec.v: names in scope, arguments of format strings, traits of types, exhaustive matches, types of the response. Lifetimes and the types of hooks are not covered. C78_rejects computes five operations that are accepted by the generator but not by the compiler."
 },
 "C79": {
  "note": "The compiler is represented by item_ok of CompileItemSpec.v; C79_rejects computes two paginated operations whose stream does not compile."
 },
 "C80": {
  "note": "The compiler is represented by builder_code_ok of CompileItemSpec.v; C80_rejects computes two operations whose builder does not compile."
 },
 "C81": {
  "note": "The compiler is represented by file_ok of CompileItemSpec.v, which does not look into the types module (typify). C81_rejects computes two documents whose client does not compile."
 },
 "C82": {
  "note": "Composition of C81 with C08 to C35 for whole documents. Remaining conditions on a call: legal header names and api version (otherwise the generated code panics or errs, C15), and that the URL parser yields no headers but authorization. The request and the interpretation of the answer are the specifications is_request and interpreted."
 },
 "C83": {
  "note": "The compiler is the specification MockCompileSpec.v; traits of types and which types are passed by reference (typify's parameter_ident) are parameters, and the signatures of httpmock 0.7's json_body_obj are trusted. Lifetimes are not covered. A regular expression that is invalid at run time is a panic, not a compile error (C52)."
 },
 "C84": {
  "note": "The compiler is the specification CliCompileSpec.v, with Rust's method resolution (methods by value first, then by reference with inherent ones first, ambiguity between traits) for self.client.operation(). Traits of types, the setters of typify's builder types and clap's parsers are parameters; the client is assumed to compile (C81), which gives the builders."
 },
 "C85": {
  "note": "typify is a parameter: what it makes of a list of named schemas, and of a schema under a name afterwards. Simplification: the same schema under the same name gives the same type whenever it is added."
 },
 "C86": {
  "note": "typify is an arbitrary machine with a state (typify_machine); that it remembers its types is a hypothesis of the theorems about functions, not of C86_asked, and it is only used between the calls of add_ref_types, so nothing is claimed of types across two calls of the generator. The full claim that each type asked for has its own name is false (F48)."
 },
 "C87": {
  "note": "The full claim that the flags of a generator describe the client generated last is false (F49): they are never reset. cargo-progenitor uses a generator once."
 },
 "C88": {
  "note": "The causes are stated in FailSpec on the document (not on the method made of it), each with the text that the error or panic says; left open are the text for an invalid path, what typify says, the Debug output that the source appends to some texts, and what is said of a broken reference."
 },
 "C89": {
  "note": "Whether rustdoc renders the links is not modelled; a link is text naming a trait or the client and a method."
 },
 "C90": {
  "note": "Obstacles to a mock are stated on the document; those to a command line interface on the parameters of the method made of the operation (C36, C64 say which they are). Each cause carries the text of the panic, with the same gaps as C88."
 },
 "C91": {
  "note": "The derived Debug printers of bytes, responses and response values are arbitrary. The text of typify errors is given."
 },
 "C92": {
  "note": "typify is an oracle: ts_add and ts_details must agree on the schemas of the operation (sh_types); with the same components they do."
 },
 "C93": {
  "note": "A setter is a call; iterators given to setters are the lists they yield; rename is cloned. C93_read: what the generator reads of the settings."
 },
 "C94": {
  "note": "Assumes of typify that it does not mind the order of patches, replacements and trait lists, and of the crates section that no two entries are about one crate (otherwise the macro depends on the order of a hash map, C77)."
 },
 "C95": {
  "note": "Conditions on versions, names and values of headers are stated in characters (PanicSpec) and proved equal to those of http 1.3.1 as modelled; the limit of HeaderMap (32768 slots, so some 24000 header parameters) is not modelled, and the texts of the two panics are the messages in http without the error that expect appends. reqwest's ClientBuilder::build is an arbitrary function of the options set."
 },
 "C96": {
  "note": "Partial: statuses other than 2xx, 4xx and 5xx are only decoded as the default response (C96_redirect_refuted, C96_other_status), and default_response with a 2xx status is read as the documented class of successes (C96_default_refuted). httpmock's server is a hypothesis: it answers a matched request with the status, headers and body told, maybe with more headers and in pieces. That a value read back from its JSON is the value is serde's and typify's business: the statement is about what decoding the JSON yields. Upgrades cannot be mocked."
 },
 "C97": {
  "note": "Partial: constants are not escaped in the regular expression, so the mock of /v1.0 answers requests for /v1x0 (C97_dot_refuted, finding of C52). The URL of the call has to be taken as it is by the URL parser (url_kept; exactly when it is: C07_kept_iff). C97_overlap_iff holds for all templates with constants that need no escaping; C97_overlap is the case of whole segments."
 },
 "C98": {
  "note": "Partial: false for two placeholders in a segment (C98_path_refuted; exactly those by C98_path_iff), for objects in the query and for empty arrays (C98_query_refuted; in general a query tells the list of pairs and nothing else, C98_query_iff), and for a header parameter that the client also sets itself (C98_header_refuted). The URLs of the calls have to be taken as they are by the URL parser (url_kept; exactly when it is: C07_kept_iff)."
 },
 "C99": {
  "note": "Proved. Schemas are left as they are: a reference to a schema and the schema in its place are different to typify (another type name)."
 },
 "C100": {
  "note": "Partial: false for operations whose paths have texts in common, such as /{id} and /v1x0 (C100_refuted); exactly those by C100_share_iff; true in documents without such operations (C100_document). The URLs of the calls have to be taken as they are by the URL parser (url_kept; exactly when it is: C07_kept_iff)."
 }
}