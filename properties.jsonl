{"id": "C01", "title": "Path template acceptance", "statement": "A path of the OpenAPI document is accepted exactly when it is a '/' followed by literal characters other than braces and '{name}' placeholders whose names contain no '/', '{' or '}'; every other path is rejected with an invalid-path error and never crashes the generator.", "quantifier": "all strings used as a path key of an OpenAPI document", "why_tests_cant": "the set of paths is infinite; the six sample paths in the unit tests exercise no error branch", "anchors": ["progenitor-impl/src/template.rs::parse"]}
{"id": "C02", "title": "Accepted paths give URLs that compile", "statement": "For every accepted path whose placeholders are all declared, the URL-building expression emitted in the client is a well-formed format string with as many placeholders as arguments.", "quantifier": "all accepted paths and declared parameter sets", "why_tests_cant": "needs every string, including unusual brace placement", "anchors": ["progenitor-impl/src/template.rs::parse", "progenitor-impl/src/template.rs::PathTemplate::compile"]}
{"id": "C03", "title": "Path template round trip", "statement": "Printing an accepted template gives back the original path with runs of '/' collapsed to one; parsing that text again gives the same template; the placeholder names are listed in the order they occur in the path.", "quantifier": "all accepted paths", "why_tests_cant": "infinite input space", "anchors": ["progenitor-impl/src/template.rs::parse", "progenitor-impl/src/template.rs::PathTemplate::names", "progenitor-impl/src/template.rs::to_string"]}
{"id": "C04", "title": "Request URL is base URL plus expanded template", "statement": "The URL of the request sent by a generated method is the base URL followed by the (slash-collapsed) template in which every '{name}' is replaced by the percent-encoded text of the argument passed for that parameter, and nothing else.", "quantifier": "all templates, base URLs, parameter renamings and argument values", "why_tests_cant": "values and templates are unbounded", "anchors": ["progenitor-impl/src/template.rs::PathTemplate::compile", "progenitor-impl/src/method.rs::method_sig_body", "progenitor-client/src/progenitor_client.rs::encode_path"]}
{"id": "C05", "title": "Percent-encoding of path arguments is lossless", "statement": "A server that percent-decodes and UTF-8-decodes a path argument gets back exactly the text the caller passed, so two different texts never produce the same URL text.", "quantifier": "all Unicode strings", "why_tests_cant": "infinite input space, multi-byte characters", "anchors": ["progenitor-client/src/progenitor_client.rs::encode_path", "progenitor-client/src/progenitor_client.rs::PATH_SET"]}
{"id": "C06", "title": "Encoded path arguments contain no URL delimiters", "statement": "The encoded form of a path argument is ASCII without control characters, space, '\"', '#', '<', '>', '?', '`', '{', '}', '/', and every '%' in it starts a two-hex-digit escape; ASCII characters that need no escape are passed through unchanged.", "quantifier": "all Unicode strings", "why_tests_cant": "infinite input space", "anchors": ["progenitor-client/src/progenitor_client.rs::encode_path", "progenitor-client/src/progenitor_client.rs::PATH_SET"]}
{"id": "C07", "title": "A path argument cannot change the path structure", "statement": "After the URL is parsed by a standard (WHATWG) URL parser, the path has exactly the segments of the template, with the argument as (part of) its own segment.", "quantifier": "all templates and argument strings", "why_tests_cant": "needs all strings, including '.', '..' and backslashes", "anchors": ["progenitor-client/src/progenitor_client.rs::encode_path", "progenitor-impl/src/template.rs::PathTemplate::compile"]}
{"id": "C08", "title": "Scalar query parameters", "statement": "A query parameter holding a number, boolean, character, string or unit enum value contributes exactly one key=value pair whose key is the parameter name of the API document and whose value is its textual form.", "quantifier": "all parameter names and scalar values", "why_tests_cant": "infinite values", "anchors": ["progenitor-client/src/progenitor_client.rs::QuerySerializer", "progenitor-client/src/progenitor_client.rs::QueryParam", "progenitor-impl/src/method.rs::method_sig_body"]}
{"id": "C09", "title": "Optional query parameters", "statement": "An absent optional query parameter contributes no pair at all; a present one contributes exactly what the bare value would, at any nesting of options.", "quantifier": "all names, values and nesting depths", "why_tests_cant": "unbounded nesting and values", "anchors": ["progenitor-client/src/progenitor_client.rs::QuerySerializer::serialize_none", "progenitor-client/src/progenitor_client.rs::QuerySerializer::serialize_some"]}
{"id": "C10", "title": "Array and object query parameters explode", "statement": "An array-valued query parameter contributes one pair per element, in order, all with the parameter name; an object-valued one contributes one pair per field, in order, keyed by the field names (OpenAPI style=form, explode=true).", "quantifier": "all arrays and objects of scalars, any length", "why_tests_cant": "unbounded lengths", "anchors": ["progenitor-client/src/progenitor_client.rs::QuerySeq", "progenitor-client/src/progenitor_client.rs::QuerySerializer"]}
{"id": "C11", "title": "Unserialisable query values never reach the server", "statement": "If a query argument has no form encoding (e.g. nested arrays, tuples of other arity), the call returns an error and no request is sent; a value is accepted exactly when it has a form encoding.", "quantifier": "all serialisable values, any nesting", "why_tests_cant": "unbounded shapes", "anchors": ["progenitor-client/src/progenitor_client.rs::QuerySerializer", "progenitor-impl/src/method.rs::method_sig_body"]}
{"id": "C12", "title": "The query string decodes to the parameters", "statement": "Form-decoding the query string of the request gives exactly the concatenation, in parameter order, of the pairs of every query parameter; no separator or escape in a name or value can add, drop or merge pairs.", "quantifier": "all lists of query parameters, names and values", "why_tests_cant": "infinite strings, any number of parameters", "anchors": ["progenitor-client/src/progenitor_client.rs::QueryParam", "progenitor-impl/src/method.rs::method_sig_body"]}
{"id": "C13", "title": "Header parameters", "statement": "Every required and every present optional header parameter is sent once under its API name with its textual value, absent optional ones are not sent, the api-version header is always sent, and a value that is not a legal header value makes the call fail as an invalid request before anything is sent.", "quantifier": "all header parameter lists and values", "why_tests_cant": "unbounded", "anchors": ["progenitor-impl/src/method.rs::method_sig_body", "progenitor-client/src/progenitor_client.rs::Error::from"]}
{"id": "C14", "title": "Request bodies", "statement": "A body parameter is sent with the content type documented for the operation (JSON, form, octet-stream, text/plain, text/x-markdown) unless a header parameter overrides it; an operation without a body parameter sends none; a form body that cannot be encoded fails as an invalid request before anything is sent.", "quantifier": "all operations, body values", "why_tests_cant": "unbounded values", "anchors": ["progenitor-impl/src/method.rs::method_sig_body", "progenitor-impl/src/method.rs::get_body_param", "progenitor-client/src/progenitor_client.rs::RequestBuilderExt::form_urlencoded"]}
{"id": "C15", "title": "Body content-type recognition", "statement": "The media type of a request body is recognised from the text before the first ';' only and any unknown media type is rejected with an error, never silently treated as another type.", "quantifier": "all media type strings", "why_tests_cant": "infinite strings", "anchors": ["progenitor-impl/src/method.rs::BodyContentType::from_str", "progenitor-impl/src/method.rs::get_body_param"]}
{"id": "C16", "title": "Accept header", "statement": "The request carries 'accept: application/json' exactly when the success body is typed, or there is no success body and the error body is typed (unless overridden by a header parameter).", "quantifier": "all operations", "why_tests_cant": "combinatorial response sets", "anchors": ["progenitor-impl/src/method.rs::method_sig_body"]}
{"id": "C17", "title": "Hooks run in order and can veto", "statement": "The synchronous pre-hook, then the async pre-hook, run once each on the built request before it is sent; if the async pre-hook fails nothing is sent and the call returns a pre-hook error; otherwise the request as modified by the async pre-hook is sent exactly once and the post-hooks run once each on the outcome before it is interpreted; an async post-hook failure is what the call returns.", "quantifier": "all hook configurations, hook behaviours, requests and servers", "why_tests_cant": "hooks are arbitrary functions; all interleavings of outcomes", "anchors": ["progenitor-impl/src/method.rs::method_sig_body", "progenitor-impl/src/lib.rs::GenerationSettings"]}
{"id": "C18", "title": "At most one request per call", "statement": "A generated method sends at most one HTTP request, and exactly one unless argument encoding or the async pre-hook failed; without an async pre-hook the request sent is the one determined by the arguments.", "quantifier": "all operations, arguments, hooks and servers", "why_tests_cant": "arbitrary hooks/servers", "anchors": ["progenitor-impl/src/method.rs::method_sig_body"]}
{"id": "C19", "title": "Every status code is handled", "statement": "The generated dispatch on the HTTP status has an arm for every possible status code, so no response can fall through.", "quantifier": "all documented response sets for which generation succeeds, all 16-bit status codes", "why_tests_cant": "combinatorial response sets times 65536 codes", "anchors": ["progenitor-impl/src/method.rs::method_sig_body", "progenitor-impl/src/method.rs::extract_responses", "progenitor-impl/src/method.rs::process_operation"]}
{"id": "C20", "title": "Dispatch follows OpenAPI precedence", "statement": "A response with a given status code is decoded as documented for that exact code if there is one, else for its class (e.g. 4XX), else as the default response.", "quantifier": "all documented response sets for which generation succeeds, all status codes", "why_tests_cant": "combinatorial", "anchors": ["progenitor-impl/src/method.rs::method_sig_body", "progenitor-impl/src/method.rs::extract_responses", "progenitor-impl/src/method.rs::OperationResponseStatus"]}
{"id": "C21", "title": "Undocumented statuses are surfaced untouched", "statement": "If neither the exact status, nor its class, nor a default is documented, the call returns UnexpectedResponse holding the unmodified response; the one exception is a 2xx status of an operation that documents no success response at all, which is returned as a successful raw response.", "quantifier": "all response sets and statuses", "why_tests_cant": "combinatorial", "anchors": ["progenitor-impl/src/method.rs::method_sig_body"]}
{"id": "C22", "title": "Success and failure are classified by status", "statement": "A call returns Ok only for a 2xx status, or for 101 when the operation is a websocket operation or documents 101; a documented 4xx/5xx response is always an error.", "quantifier": "all response sets, statuses, bodies", "why_tests_cant": "combinatorial", "anchors": ["progenitor-impl/src/method.rs::method_sig_body", "progenitor-client/src/progenitor_client.rs::ResponseValue::upgrade"]}
{"id": "C23", "title": "Several response types are refused at generation time", "statement": "Generation of an operation stops exactly when its success responses do not share one body type, or its error responses do not (or an error response of a websocket operation other than the default has no JSON body); the default response counts as an error response and, unless shadowed (2XX documented, no exact 201-299, no 200 listed after 2XX), as a success response; when generation proceeds, the method's success and error types are the common ones.", "quantifier": "all response sets", "why_tests_cant": "combinatorial", "anchors": ["progenitor-impl/src/method.rs::extract_responses"]}
{"id": "C24", "title": "Status and headers are preserved", "statement": "Every value or error built from a response reports that response's status and headers; map and into_untyped keep them; the status accessor of an error returns a status exactly for errors built from a response (and transport errors that carry one).", "quantifier": "all responses and error values", "why_tests_cant": "arbitrary values", "anchors": ["progenitor-client/src/progenitor_client.rs::ResponseValue", "progenitor-client/src/progenitor_client.rs::Error::status", "progenitor-client/src/progenitor_client.rs::Error::into_untyped"]}
{"id": "C25", "title": "Undecodable payloads are reported with their bytes", "statement": "If the body of a typed response cannot be decoded the error carries exactly the received bytes; if the body cannot be read, the transport error.", "quantifier": "all bodies, all decoders", "why_tests_cant": "arbitrary bytes", "anchors": ["progenitor-client/src/progenitor_client.rs::ResponseValue::from_response"]}
{"id": "C26", "title": "Content length accessor", "statement": "content_length() returns n exactly when the first Content-Length header is an optional '+' followed by decimal digits denoting n with n < 2^64; otherwise nothing. It never wraps around.", "quantifier": "all header values", "why_tests_cant": "infinite values; overflow boundary", "anchors": ["progenitor-client/src/progenitor_client.rs::ResponseValue::content_length"]}
{"id": "C27", "title": "Builder setters are last-write-wins and independent", "statement": "After any sequence of setter calls, each builder field holds the outcome of the last call of its own setter (or its initial state if there was none), whatever the other setters did.", "quantifier": "all finite sequences of setter calls, all values and conversion outcomes", "why_tests_cant": "unbounded histories", "anchors": ["progenitor-impl/src/method.rs::builder_struct"]}
{"id": "C28", "title": "send() validates before any I/O", "statement": "send() fails with InvalidRequest carrying the message of the first unset-or-unconvertible parameter (in parameter order) and sends nothing; if every parameter is set and converted it runs the operation with exactly those values.", "quantifier": "all setter histories", "why_tests_cant": "unbounded histories", "anchors": ["progenitor-impl/src/method.rs::builder_struct"]}
{"id": "C29", "title": "Builder body and body_map", "statement": "body() replaces the whole body builder, body_map() transforms the current one, a failed body() makes later body_map() calls no-ops until the next body().", "quantifier": "all sequences of body/body_map calls", "why_tests_cant": "unbounded histories", "anchors": ["progenitor-impl/src/method.rs::builder_struct"]}
{"id": "C30", "title": "Builder and positional clients send the same request", "statement": "For the same operation and the same argument values the builder-style and the positional-style clients send identical requests and classify responses identically.", "quantifier": "all operations, values, servers", "why_tests_cant": "two generators, unbounded inputs", "anchors": ["progenitor-impl/src/method.rs::positional_method", "progenitor-impl/src/method.rs::builder_struct", "progenitor-impl/src/method.rs::method_sig_body"]}
{"id": "C31", "title": "Pagination streams yield every item once, in order", "statement": "Consuming a paginated stream yields the items of the pages in page order, each once, and ends after the first page without a next-page token.", "quantifier": "all servers, any number and size of pages, both interface styles", "why_tests_cant": "unbounded page histories", "anchors": ["progenitor-impl/src/method.rs::positional_method", "progenitor-impl/src/method.rs::builder_struct"]}
{"id": "C32", "title": "Pagination errors", "statement": "If fetching page k fails, the stream yields all items of the earlier pages, then that error once, then ends without further requests.", "quantifier": "all servers, all failure points", "why_tests_cant": "unbounded histories and failure points", "anchors": ["progenitor-impl/src/method.rs::positional_method", "progenitor-impl/src/method.rs::builder_struct"]}
{"id": "C33", "title": "Pagination request parameters", "statement": "The first page is requested with the caller's arguments (without a page token in the positional style); every following page with the token returned by the previous page, the caller's limit and non-query arguments, and no other query argument.", "quantifier": "all argument values and servers", "why_tests_cant": "unbounded", "anchors": ["progenitor-impl/src/method.rs::positional_method", "progenitor-impl/src/method.rs::builder_struct"]}
{"id": "C34", "title": "Pagination is lazy", "statement": "The next page is requested only after every item of the current page has been consumed and another is asked for; taking n items never requests more pages than needed for n items.", "quantifier": "all consumers that stop early, all servers", "why_tests_cant": "unbounded prefixes", "anchors": ["progenitor-impl/src/method.rs::positional_method", "progenitor-impl/src/method.rs::builder_struct"]}
{"id": "C35", "title": "Pagination recognition", "statement": "A stream method is generated exactly when the operation has the pagination extension, optional page_token and limit query parameters, no required query parameter, no raw body, exactly one typed success response whose type is a struct with exactly the properties items (array) and next_page (optional string).", "quantifier": "all operations", "why_tests_cant": "combinatorial", "anchors": ["progenitor-impl/src/method.rs::dropshot_pagination_data"]}
{"id": "C36", "title": "Parameter order", "statement": "The parameters of a generated method are: path parameters in template order, then query parameters in lexicographic order, then header parameters in lexicographic order, then the body; no parameter is lost or duplicated, and the order does not depend on the order in the document.", "quantifier": "all parameter sets", "why_tests_cant": "the comparison function is not a total order (Body vs Header), so sorting correctness needs proof for all sizes", "anchors": ["progenitor-impl/src/method.rs::sort_params", "progenitor-impl/src/method.rs::process_operation"]}
{"id": "C37", "title": "Operation parameters override path-item parameters", "statement": "Each parameter documented for an operation, or for its path item and not overridden by the operation, appears exactly once in the generated method; a parameter is identified by its name and location.", "quantifier": "all parameter lists", "why_tests_cant": "combinatorial", "anchors": ["progenitor-impl/src/method.rs::process_operation", "progenitor-impl/src/util.rs::parameter_map"]}
{"id": "C38", "title": "Reference resolution", "statement": "Resolving a component reference follows the chain to the first non-reference component; it never returns a reference; unknown keys are reported; resolution terminates.", "quantifier": "all component maps and references", "why_tests_cant": "cyclic and arbitrarily long chains", "anchors": ["progenitor-impl/src/util.rs::ReferenceOrExt::item"]}
{"id": "C39", "title": "Document validation", "statement": "A document passes validation exactly when its version, trimmed, starts with '3.0.', no path is a reference, and every operation has an id used only once.", "quantifier": "all documents", "why_tests_cant": "unbounded documents", "anchors": ["progenitor-impl/src/lib.rs::validate_openapi", "progenitor-impl/src/lib.rs::validate_openapi_spec_version"]}
{"id": "C40", "title": "Generated identifiers are valid", "statement": "Every name generated from an API name is a legal, non-keyword Rust identifier.", "quantifier": "all strings", "why_tests_cant": "infinite inputs, keywords, leading digits", "anchors": ["progenitor-impl/src/util.rs::sanitize"]}
{"id": "C41", "title": "Name generation is stable", "statement": "Applying name generation to an already generated name returns it unchanged (the CLI relies on this to refer to functions it generated).", "quantifier": "all strings", "why_tests_cant": "infinite inputs", "anchors": ["progenitor-impl/src/util.rs::sanitize", "progenitor-impl/src/cli.rs::cli"]}
{"id": "C42", "title": "Distinct operations get distinct methods", "statement": "Two operations with different ids get different method names (and builder names).", "quantifier": "all pairs of operation ids", "why_tests_cant": "infinite pairs", "anchors": ["progenitor-impl/src/util.rs::sanitize", "progenitor-impl/src/method.rs::process_operation", "progenitor-impl/src/method.rs::builder_struct"]}
{"id": "C43", "title": "Internal variables never capture arguments", "statement": "The variables the generated code introduces never shadow a parameter of the method and are distinct from one another; choosing them always terminates.", "quantifier": "all parameter name sets", "why_tests_cant": "arbitrary name sets such as url, _url, __url", "anchors": ["progenitor-impl/src/util.rs::unique_ident_from", "progenitor-impl/src/method.rs::method_sig_body"]}
{"id": "C44", "title": "Schema conversion preserves the set of valid instances", "statement": "A JSON value is valid for the converted JSON Schema exactly when it is valid for the OpenAPI 3.0 schema.", "quantifier": "all schemas (any nesting, with references) and all JSON values", "why_tests_cant": "infinite schemas and instances", "anchors": ["progenitor-impl/src/to_schema.rs::Convert"]}
{"id": "C45", "title": "Schema conversion preserves annotations", "statement": "Title, description, default, deprecation, read/write-only flags, example, format and extensions of a schema are found unchanged on the converted schema.", "quantifier": "all schemas", "why_tests_cant": "infinite schemas", "anchors": ["progenitor-impl/src/to_schema.rs::Convert"]}
{"id": "C46", "title": "Nullable means null is additionally accepted", "statement": "For a nullable schema the converted schema accepts null and otherwise exactly the values the non-nullable schema accepts.", "quantifier": "all nullable schemas and values", "why_tests_cant": "infinite", "anchors": ["progenitor-impl/src/to_schema.rs::oneof_nullable_wrapper", "progenitor-impl/src/to_schema.rs::instance_type"]}
{"id": "C47", "title": "Numeric bounds survive conversion", "statement": "Integer bounds and length bounds of the document are the bounds of the converted schema.", "quantifier": "all 64-bit bounds", "why_tests_cant": "2^64 values", "anchors": ["progenitor-impl/src/to_schema.rs::Convert"]}
{"id": "C48", "title": "CLI arguments cover the parameters", "statement": "The generated CLI command has exactly one argument per path, query and header parameter (except the page token of a paginated operation) and per scalar body property not clashing with one, required exactly when the API requires it.", "quantifier": "all operations", "why_tests_cant": "combinatorial", "anchors": ["progenitor-impl/src/cli.rs::cli_method_args", "progenitor-impl/src/cli.rs::cli_method_body_arg"]}
{"id": "C49", "title": "CLI json-body", "statement": "--json-body is offered exactly for typed bodies, required exactly when some required part of the body has no argument of its own; when given it determines the body entirely.", "quantifier": "all bodies", "why_tests_cant": "combinatorial", "anchors": ["progenitor-impl/src/cli.rs::cli_method_args", "progenitor-impl/src/cli.rs::cli_method_body_arg"]}
{"id": "C50", "title": "CLI listing output", "statement": "For a paginated operation the CLI reports list start, then at most limit items in stream order, then exactly one end (success or the error, which it also returns).", "quantifier": "all streams and limits", "why_tests_cant": "unbounded streams", "anchors": ["progenitor-impl/src/cli.rs::cli_method"]}
{"id": "C51", "title": "CLI one-shot output", "statement": "For other operations the CLI calls exactly one of the success or error callbacks and returns an error exactly in the latter case.", "quantifier": "all operations and outcomes", "why_tests_cant": "arbitrary outcomes", "anchors": ["progenitor-impl/src/cli.rs::cli_method"]}
{"id": "C52", "title": "Mock path matching", "statement": "The mock of an operation matches a request path exactly when the path is an expansion of the template with slash-free arguments, and after restricting a path parameter to a value, exactly those where that parameter has that value.", "quantifier": "all templates, values and paths", "why_tests_cant": "infinite strings, regex metacharacters", "anchors": ["progenitor-impl/src/httpmock.rs::httpmock_method", "progenitor-impl/src/template.rs::as_wildcard", "progenitor-impl/src/template.rs::as_wildcard_param"]}
{"id": "C53", "title": "Mock query matching", "statement": "Restricting a query parameter of a mock to a value accepts the requests the generated client sends with that value.", "quantifier": "all parameter names and values", "why_tests_cant": "infinite names", "anchors": ["progenitor-impl/src/httpmock.rs::httpmock_method"]}
{"id": "C54", "title": "Mock responses stay within the documented class", "statement": "A mock response method for a documented code or class only produces statuses of that code or class.", "quantifier": "all statuses", "why_tests_cant": "65536 statuses times response sets", "anchors": ["progenitor-impl/src/httpmock.rs::httpmock_method"]}
{"id": "C55", "title": "Generated crate dependencies", "statement": "The generated manifest lists, sorted, the base crates and exactly the optional crates needed by the generated code (client support, regress, uuid, chrono, futures, base64/rand, serde_json).", "quantifier": "all generator states", "why_tests_cant": "combinatorial", "anchors": ["cargo-progenitor/src/main.rs::dependencies"]}
{"id": "C56", "title": "Item spacing only adds newlines", "statement": "The formatting pass applied to generated code changes nothing but adding newline characters after item-closing braces.", "quantifier": "all source texts", "why_tests_cant": "infinite texts", "anchors": ["progenitor-impl/src/lib.rs::space_out_items"]}
{"id": "C57", "title": "Crate specification parsing", "statement": "In the macro's crates section, 'original@version' renames, 'version' does not; names with characters other than alphanumerics, '_' or '-' are rejected.", "quantifier": "all strings", "why_tests_cant": "infinite strings", "anchors": ["progenitor-macro/src/lib.rs::MacroCrateSpec", "progenitor-macro/src/lib.rs::is_crate"]}
{"id": "C58", "title": "Replacement trait lists", "statement": "A replacement type has FromStr and Display unless removed with '?'; the last mention of a trait decides.", "quantifier": "all trait lists", "why_tests_cant": "unbounded lists", "anchors": ["progenitor-macro/src/token_utils.rs::into_name_and_impls"]}
{"id": "C59", "title": "Tags partition operations", "statement": "With separate tags every untagged operation is a method of the client and every tagged one is a method of the extension trait of each of its tags (and only those), in document order.", "quantifier": "all operation lists and tags", "why_tests_cant": "unbounded lists", "anchors": ["progenitor-impl/src/method.rs::builder_tags"]}
{"id": "C60", "title": "Document order is preserved", "statement": "One method is generated per documented operation, in document order.", "quantifier": "all documents", "why_tests_cant": "unbounded", "anchors": ["progenitor-impl/src/lib.rs::generate_tokens"]}
{"id": "C61", "title": "Alternate formatting shows the whole error chain", "statement": "Formatting a client error with the alternate flag prints its own message followed by every error of its source chain exactly once, outermost first; without the flag only its own message is printed.", "quantifier": "all errors and source chains of any length", "why_tests_cant": "chains are unbounded and supplied by other crates", "anchors": ["progenitor-client/src/progenitor_client.rs::Display for Error", "progenitor-client/src/progenitor_client.rs::source"]}
{"id": "C62", "title": "Method documentation", "statement": "The documentation of a generated method gives the operation's summary (without dots and commas at its end) and description, its HTTP method and path as documented, and, if any parameter has a description, all parameters in order with their descriptions; that of a stream leaves out the page token; that of a builder method ends with an example that sets every parameter.", "quantifier": "all documents and operations", "why_tests_cant": "unbounded texts and parameter lists", "anchors": ["progenitor-impl/src/method.rs::make_doc_comment", "progenitor-impl/src/method.rs::make_stream_doc_comment", "progenitor-impl/src/method.rs::builder_helper"]}
{"id": "C63", "title": "Needed crates are reported exactly", "statement": "After generation, futures are reported as used exactly when the client contains a stream, and websockets exactly when some method upgrades its connection, i.e. some operation has the websocket extension.", "quantifier": "all documents and settings", "why_tests_cant": "unbounded documents", "anchors": ["progenitor-impl/src/lib.rs::uses_futures", "progenitor-impl/src/lib.rs::uses_websockets", "progenitor-impl/src/method.rs::process_operation"]}
{"id": "C64", "title": "Methods of the client have different names", "statement": "No two methods of the generated client type have the same name.", "quantifier": "all documents", "why_tests_cant": "infinite names", "anchors": ["progenitor-impl/src/lib.rs::generate_tokens", "progenitor-impl/src/method.rs::positional_method"]}
{"id": "C65", "title": "A mock accepts the call it is restricted to", "statement": "A mock restricted to arguments of a call accepts the request the generated client sends for that call.", "quantifier": "all operations, arguments and subsets of them", "why_tests_cant": "infinite argument values, percent-encoding and regular expressions interact", "anchors": ["progenitor-impl/src/httpmock.rs::httpmock_method", "progenitor-impl/src/method.rs::method_sig_body"]}
{"id": "C66", "title": "Mocks can be generated for every client", "statement": "Whenever the client of a document can be generated, so can its mocks.", "quantifier": "all documents and settings", "why_tests_cant": "unbounded documents", "anchors": ["progenitor-impl/src/httpmock.rs::httpmock", "progenitor-impl/src/lib.rs::generate_tokens"]}
{"id": "C67", "title": "One mock per operation", "statement": "The mock extension has one method per operation, in document order, with the name of the client's method and the wrappers of that operation.", "quantifier": "all documents", "why_tests_cant": "unbounded documents", "anchors": ["progenitor-impl/src/httpmock.rs::httpmock"]}
{"id": "C68", "title": "Names in mocks do not clash", "statement": "The methods of each generated wrapper, and the wrappers themselves, have different names.", "quantifier": "all documents", "why_tests_cant": "infinite names", "anchors": ["progenitor-impl/src/httpmock.rs::httpmock_method"]}
{"id": "C69", "title": "Crate settings do not depend on hash order", "statement": "The crate settings made from the macro's crates section do not depend on the order in which the hash map yields its entries.", "quantifier": "all sections and orders", "why_tests_cant": "the order is random", "anchors": ["progenitor-macro/src/lib.rs::do_generate_api", "progenitor-impl/src/lib.rs::with_crate"]}
{"id": "C70", "title": "Replacement types: syntax", "statement": "The replace and convert sections accept exactly a path, optionally followed by a colon and a non-empty plus-separated list of traits with optional question marks, and what was read is written again as it was.", "quantifier": "all token sequences (paths without generic arguments)", "why_tests_cant": "infinite", "anchors": ["progenitor-macro/src/token_utils.rs::TypeAndImpls"]}
{"id": "C71", "title": "CLI commands can be generated", "statement": "A CLI command can be generated exactly when the types of its parameters and of its body's properties are known and no two parameters have arguments of one name; parameters with different names always have arguments with different names, and all arguments of a command have different names.", "quantifier": "all operations, all names", "why_tests_cant": "infinite name space", "anchors": ["progenitor-impl/src/cli.rs::cli_method_args", "progenitor-impl/src/cli.rs::CliOperationArgs"]}
{"id": "C72", "title": "CLI arguments reach the request", "statement": "A command line is accepted exactly when it names only known arguments, none twice, with legal values, and all required ones; the command then performs the operation with exactly the values given on the command line, for path, query and header parameters and for the body.", "quantifier": "all operations, all command lines, all servers", "why_tests_cant": "infinite", "anchors": ["progenitor-impl/src/cli.rs::cli_method", "progenitor-impl/src/cli.rs::cli_method_args"]}
{"id": "C73", "title": "CLI dispatch", "statement": "The generated CLI has one command per operation, in document order, named after it; every variant of CliCommand is dispatched to the command function and the execute function of its own operation.", "quantifier": "all documents", "why_tests_cant": "infinite", "anchors": ["progenitor-impl/src/cli.rs::cli"]}
{"id": "C74", "title": "Generated manifest", "statement": "The Cargo.toml of a generated crate is readable TOML and says exactly the package fields given on the command line and one dependency entry per needed crate.", "quantifier": "all documents, all command lines", "why_tests_cant": "infinite text space; escaping matters only for texts tests do not use", "anchors": ["cargo-progenitor/src/main.rs::main", "cargo-progenitor/src/main.rs::dependencies"]}
{"id": "C75", "title": "Writing a crate", "statement": "cargo-progenitor succeeds exactly when the document can be read (JSON preferred over YAML), code can be generated and formatted and all files be written; it then leaves the manifest, lib.rs and, if asked for, the support module with their intended contents. However it ends, no other file changes, files are written in order, none before the earlier ones are complete; nothing is written without a document or code; a second run changes nothing.", "quantifier": "all documents, command lines, file systems and failures of writes", "why_tests_cant": "failures of the environment", "anchors": ["cargo-progenitor/src/main.rs::main", "cargo-progenitor/src/main.rs::save", "cargo-progenitor/src/main.rs::load_api", "cargo-progenitor/src/main.rs::reformat_code"]}
{"id": "C76", "title": "Supported documents", "statement": "A client is generated for a document exactly if the document is valid and every operation is supported: references resolve, every parameter has a type that can be passed, placeholders and path parameters correspond, the body has one media type with a suitable schema, JSON responses have schemas, and responses agree on one type for success and one for failure. Any other document is refused with an error.", "quantifier": "all documents, settings and type spaces", "why_tests_cant": "a completeness statement: that nothing outside the listed conditions makes generation fail quantifies over all documents", "anchors": ["progenitor-impl/src/lib.rs::Generator::generate_tokens", "progenitor-impl/src/method.rs::process_operation", "progenitor-impl/src/method.rs::get_body_param", "progenitor-impl/src/method.rs::extract_responses", "progenitor-impl/src/method.rs::builder_struct"]}
{"id": "C77", "title": "Options of generate_api!", "statement": "generate_api! accepts a list of options exactly if it names a document, repeats no option and every value can be read. Each option then reaches the code generator or typify as written, with the documented defaults for those not given, whatever the order in which options are written; the order in which hash maps yield entries does not change the expansion. A hook is a closure or a path, in any number of parentheses. The macro expands to the client of the document at the given path relative to the crate, or to an error that names the file.", "quantifier": "all lists of options, orders of hash maps, file systems and documents", "why_tests_cant": "the number of combinations and orders of options is unbounded, and the order of a hash map differs from run to run", "anchors": ["progenitor-macro/src/lib.rs::do_generate_api", "progenitor-macro/src/lib.rs::MacroSettings", "progenitor-macro/src/lib.rs::ClosureOrPath", "progenitor-macro/src/lib.rs::open_file", "progenitor-impl/src/lib.rs::GenerationSettings", "progenitor-impl/src/lib.rs::Generator::new"]}
{"id": "C78", "title": "Which methods compile", "statement": "The body generated for an operation is accepted by the Rust compiler exactly if the parameters have different names, the path has no stray closing brace, no parameter of an operation with placeholders is called encode_path, the method is one that reqwest::Client has a function for, path and header parameters have types with Display, query parameters and bodies types with Serialize, neither of the former is called header_map, and the types of responses implement Deserialize. Such a method can be called with any arguments without getting stuck on a missing variable, an ill-typed value or an uncovered status code.", "quantifier": "all operations, type spaces, trait implementations, arguments, servers and hooks", "why_tests_cant": "the golden tests compile a dozen documents; that nothing but these conditions matters quantifies over all operations", "anchors": ["progenitor-impl/src/method.rs::method_sig_body", "progenitor-impl/src/method.rs::process_operation", "progenitor-impl/src/template.rs::PathTemplate::compile", "progenitor-impl/src/util.rs::unique_ident_from"]}
{"id": "C79", "title": "Which positional methods and streams compile", "statement": "The method and the stream function generated for an operation in the positional style compile exactly if the operation is sound (C78) and, when it is paginated, the token is declared as a string and no parameter that later pages need again is called page, first or state.", "quantifier": "all operations and type spaces", "why_tests_cant": "the conditions concern names and types that no test document has", "anchors": ["progenitor-impl/src/method.rs::positional_method", "progenitor-impl/src/method.rs::dropshot_pagination_data"]}
{"id": "C80", "title": "Which builders compile", "statement": "The builder generated for an operation compiles exactly if the operation is sound (C78), only bodies have types with builders, no parameter is called new or send (or body_map beside a body with a builder, or stream or clone if paginated), the types of fields implement Debug, and Clone if there is no raw body, and the token of a paginated operation is a string. Every sequence of calls that such a builder offers can then be followed by send.", "quantifier": "all operations, type spaces, sequences of setter calls and servers", "why_tests_cant": "unbounded sequences of calls on all builders", "anchors": ["progenitor-impl/src/method.rs::builder_struct", "progenitor-impl/src/method.rs::builder_impl"]}
{"id": "C81", "title": "Which clients compile", "statement": "The client generated for a document compiles (as far as operations go) exactly if every operation is sound in the chosen style (C79, C80), methods of Client have different names, also from new, baseurl, client and so on, and, in the builder style, builders have different names that are not those of types the builder module imports or needs from the prelude; with separate tags, different tags give different traits, no operation repeats a tag, and operations of one tag have different names.", "quantifier": "all documents, settings and type spaces", "why_tests_cant": "the statement is about all documents; the golden tests cover a dozen", "anchors": ["progenitor-impl/src/lib.rs::Generator::generate_tokens", "progenitor-impl/src/lib.rs::Generator::generate_tokens_positional_merged", "progenitor-impl/src/lib.rs::Generator::generate_tokens_builder_merged", "progenitor-impl/src/lib.rs::Generator::generate_tokens_builder_separate", "progenitor-impl/src/method.rs::builder_tags"]}
{"id": "C82", "title": "A client that compiles does what the document says", "statement": "If the client generated for a document compiles, then, in the positional style, there is one method per operation, in document order, and every call of it either fails before anything is sent because the arguments cannot be sent, or sends exactly the request that the document describes for the operation and these arguments, through the hooks, and returns the answer as the document says; in the builder style the same holds of one builder per operation: every sequence of calls of its setters can be followed by send, which either reports the first parameter without a usable value, without sending anything, or does what the positional method does with the values given. Streams of paginated operations of such a client yield every item of every page.", "quantifier": "all documents, settings, type spaces, clients, arguments, sequences of setter calls, servers and hooks", "why_tests_cant": "an end-to-end statement over all documents and all calls; no condition on parameter names, paths or methods is left but that the code compiles", "anchors": ["progenitor-impl/src/lib.rs::Generator::generate_tokens", "progenitor-impl/src/method.rs::method_sig_body", "progenitor-impl/src/method.rs::positional_method", "progenitor-impl/src/method.rs::builder_struct", "progenitor-client/src/progenitor_client.rs"]}
{"id": "C83", "title": "Which mocks compile", "statement": "The mock generated for a document is accepted by the Rust compiler, as far as names, types of values, traits and format strings go, if and only if: the wrappers of all operations have names of their own; the parameters of each operation have different names, none of them new or into_inner; every path parameter has exactly one placeholder in a path without stray braces and a type that can be displayed; every query parameter has a type that can be displayed; JSON and form bodies and typed responses have types that are passed by reference and can be serialized (bodies also read back); and the responses of an operation have different statuses. Operations whose client compiles may have a mock that does not.", "quantifier": "all documents, operations, type spaces and trait implementations", "why_tests_cant": "the repository compiles the mocks of five documents and leaves two out of the build without saying why; which documents have mocks that compile is a statement about all documents", "anchors": ["progenitor-impl/src/httpmock.rs::Generator::httpmock", "progenitor-impl/src/httpmock.rs::Generator::httpmock_method", "progenitor-impl/src/template.rs::PathTemplate::as_wildcard_param"]}
{"id": "C84", "title": "Which command line interfaces compile", "statement": "The command line interface generated beside a builder-style client that compiles is accepted by the Rust compiler, as far as names, method resolution, setters, value parsers and traits of types go, if and only if: every operation name is unchanged (up to another operation's name) when made an identifier again; no operation is called into or try_into; with separate tags, every operation has at most one tag, and no tagged operation is called clone, clone_into, to_owned, baseurl, client, api_version or, with an inner type, inner; every parameter with an argument and every body property with one has a type that clap can parse or list and a setter of that name and type; the JSON body can be deserialized; and typed results, errors and page items can be shown. A command that compiles never gets stuck, whatever the command line, the server and the override hook do. Clients that compile may have a command line interface that does not.", "quantifier": "all documents, settings, type spaces, trait implementations, command lines, servers and override functions", "why_tests_cant": "the repository compiles the interfaces of a handful of documents, all with merged tags or untagged operations; whether one compiles depends on how the names of operations, tags and trait methods of the standard library interact over all documents", "anchors": ["progenitor-impl/src/cli.rs::Generator::cli", "progenitor-impl/src/cli.rs::Generator::cli_method", "progenitor-impl/src/cli.rs::Generator::cli_method_args", "progenitor-impl/src/method.rs::Generator::builder_tags"]}
{"id": "C85", "title": "Types are made from the schemas of the document", "statement": "When a client is generated, typify is given the component schemas of the document, translated to JSON Schema, under their names and in their order; and the type of every parameter, body and response of every generated method is the one typify makes, under the name derived from the operation, of a JSON Schema that accepts exactly the values the document's schema at that place accepts (for the kinds of schema that are translated faithfully, see C44). A valid document with a component that cannot be translated makes the generator panic.", "quantifier": "all documents, settings, identifier tables and type generators", "why_tests_cant": "tests compare the generated text of a few documents; that no parameter, body or response gets the type of another schema is a statement about every place of every document", "anchors": ["progenitor-impl/src/lib.rs::Generator::generate_tokens", "progenitor-impl/src/method.rs::Generator::process_operation", "progenitor-impl/src/method.rs::Generator::get_body_param", "progenitor-impl/src/to_schema.rs"]}
{"id": "C86", "title": "What a generator asks of typify, and that its state does not matter", "statement": "Whether a client, a command line interface or a mock is generated, typify is given the components of the document, translated, in one call, and is then asked for exactly the types the operations need, in the order of the document: one per parameter in force, one for a JSON or form body, one per JSON answer. If typify remembers the types it has made (asking again gives the same type, and what is known of a type stays), then what the generator with its growing type space returns is what the generator as a function of the document returns with the final type space. (That the name asked for tells the schema is false: a parameter called body and the body, and all JSON answers of an operation, share a name.)", "quantifier": "all documents, settings, identifier tables, type generators with state, and generators in any state", "why_tests_cant": "tests call the generator on a few documents; the order and completeness of the requests to typify and the independence of the type space are statements about every document and every type generator", "anchors": ["progenitor-impl/src/lib.rs::Generator::generate_tokens", "progenitor-impl/src/cli.rs::Generator::cli", "progenitor-impl/src/httpmock.rs::Generator::httpmock", "progenitor-impl/src/method.rs::Generator::process_operation", "progenitor-impl/src/method.rs::Generator::get_body_param"]}
{"id": "C87", "title": "The flags of a generator used more than once", "statement": "After a sequence of successful calls on one generator, uses_futures is set if and only if it was set before or one of the clients generated has a stream, and uses_websockets if and only if it was set before or one of the documents has an operation marked as websocket. No call, successful or not, takes a flag back. (That the flags describe the client generated last is false.)", "quantifier": "all sequences of calls of generate_tokens, cli and httpmock on all documents, starting from any generator", "why_tests_cant": "the flags are only read once, after one call, by cargo-progenitor; their meaning after any sequence of calls needs an induction", "anchors": ["progenitor-impl/src/lib.rs::Generator::uses_futures", "progenitor-impl/src/lib.rs::Generator::uses_websockets", "progenitor-impl/src/method.rs::Generator::process_operation"]}
{"id": "C88", "title": "Every failure to generate a client has one of the listed reasons, and each of them makes it fail", "statement": "If generating a client returns an error, then the document is invalid, or typify refuses the components or a schema with that error, or some operation has one of the listed causes for that kind of error: a parameter described by content, in a cookie or in an unsupported style, a body without schema, in an unknown media type, or of bytes or text with a schema for something else, a path that is no template, websocket together with pagination, a parameter whose type the builder does not know. If it panics, then the style is positional with separate tags, typify panics, or some operation has one of the listed causes: a reference that leads nowhere, a path parameter that may be omitted or is not in the path, a placeholder without parameter, a body in several media types or with an encoding, a JSON answer with an encoding or without schema, answers of several types, a type that is not known, a type with a builder for something else than the required body. Either way what is said is the text listed for the reason, with the name of the parameter or placeholder concerned. Conversely a client is generated exactly when there is none of these reasons; with reasons for errors only it is an error, with reasons for panics only a panic.", "quantifier": "all documents, settings and type generators that know the elements of the types they know; the converse for documents whose operations are ordinary (as in C76)", "why_tests_cant": "tests try a few rejected documents; that no other input makes the generator panic or fail is a statement about every document", "anchors": ["progenitor-impl/src/lib.rs::Generator::generate_tokens", "progenitor-impl/src/lib.rs::validate_openapi", "progenitor-impl/src/method.rs::Generator::process_operation", "progenitor-impl/src/method.rs::Generator::get_body_param", "progenitor-impl/src/method.rs::sort_params", "progenitor-impl/src/method.rs::Generator::extract_responses", "progenitor-impl/src/util.rs::ReferenceOrExt::item"]}
{"id": "C89", "title": "The documentation of a client leads to what there is", "statement": "The documentation of a generated client consists of its title, description and terms of service as far as the document has them, and its version, one paragraph each; the version the client reports is the document's. The documentation of each builder links only to the client or to extension traits that have a method of the operation's name returning that builder, and, if no two operations have methods of the same name, to all of them. The functions send and stream of a builder are documented by the request of the operation.", "quantifier": "all documents for which a client is generated, all settings, identifier tables and type generators", "why_tests_cant": "the expected outputs show the links of a few documents; that no link is broken or missing for any combination of tags and tag styles is a statement about every document", "anchors": ["progenitor-impl/src/lib.rs::Generator::generate_tokens", "progenitor-impl/src/method.rs::Generator::builder_struct", "progenitor-impl/src/method.rs::Generator::builder_helper", "progenitor-impl/src/method.rs::Generator::builder_tags"]}
{"id": "C90", "title": "Every failure to generate a mock or a command line interface has one of the listed reasons, and each of them makes it fail", "statement": "If generating a mock server or a command line interface returns an error, then the document is invalid, typify refuses the components, or some operation has one of the causes for that kind of error that keep it from being read (as in C88). If generating a mock panics, then the document cannot be read, or the name of the crate is no path, or an argument or an answer of some operation is of a type that typify does not know, or an answer has a status that has no name. If generating a command line interface panics, then the document cannot be read, or the name of the crate is no path, or typify does not know the type of a parameter, a body, a property of a body or a page of some operation, or the arguments of two parameters of an operation have the same name, or its answers are of several types. The panic says the text listed for its reason. Conversely each of them is generated exactly when there is none of its reasons. So a document with a client has a mock exactly if the name of the crate is a path, every status has a name and the types of the answers are known, and it has a command line interface exactly if the name is a path and no operation has one of these obstacles.", "quantifier": "all documents, names of crates, path parsers and type generators; the converse for documents whose operations are ordinary (as in C76)", "why_tests_cant": "tests generate mocks and command line interfaces for a few documents, all of which succeed; that nothing else makes the generators fail is a statement about every document", "anchors": ["progenitor-impl/src/httpmock.rs::Generator::httpmock", "progenitor-impl/src/httpmock.rs::Generator::httpmock_method", "progenitor-impl/src/cli.rs::Generator::cli", "progenitor-impl/src/cli.rs::Generator::cli_method", "progenitor-impl/src/cli.rs::Generator::cli_method_args", "progenitor-impl/src/cli.rs::Generator::cli_method_body_arg", "progenitor-impl/src/method.rs::Generator::extract_responses"]}
{"id": "C91", "title": "The text of an error tells what it is", "statement": "Two errors of a client that are displayed as the same text, in the plain or in the alternate form, are of the same kind; if one of them is a message (an invalid request, an error of a hook), they are equal. Two errors of the generator with the same text are equal.", "quantifier": "all errors of a client, whatever its response values, bytes and responses are displayed as; all errors of the generator (with the two parts of a bad value as one text)", "why_tests_cant": "tests display a few errors; that no text of one kind, which may contain anything the server or a hook says, is a text of another kind is a statement about all texts", "anchors": ["progenitor-client/src/progenitor_client.rs::Error::fmt", "progenitor-impl/src/lib.rs::Error"]}
{"id": "C92", "title": "The code for an operation depends on nothing but the operation and what it refers to", "statement": "An operation found in two documents under the same path and method, with the same shared parameters, whose references lead to the same parameters, bodies, answers and schemas and for whose schemas typify gives the same types, has the same builder struct (or the same positional methods) in the two clients, whatever else the documents contain. A valid document all of whose operations occur, in this sense, in documents that have clients has a client itself: leaving out operations or paths never makes generation fail, and the order of the paths does not matter to whether there is a client.", "quantifier": "all pairs of documents, operations, positions of the operation in them, settings and behaviours of typify", "why_tests_cant": "Tests compare the outputs for fixed documents with golden files; that no other part of a document can influence the code of an operation is a statement about all pairs of documents.", "anchors": ["progenitor-impl/src/lib.rs:308-361", "progenitor-impl/src/lib.rs:504-625", "progenitor-impl/src/method.rs:286-549", "progenitor-impl/src/util.rs:10-57"]}
{"id": "C93", "title": "What a build script says on GenerationSettings is what the generator and typify are told", "statement": "After any calls of the methods of GenerationSettings, any number of times and in any order, the generator works with the interface style, tag style, inner type and hooks of the last call about each (or the defaults), and Generator::new tells typify the module types, a struct builder exactly for the builder style, every derive and conversion in the order of the calls, the last word on unknown crates, on the map type and on each crate, patch and replacement by name, each once. Two neighbouring calls about different things may change places without any effect but the order in which typify hears of patches and replacements.", "quantifier": "all sequences of calls, all orders of iteration of the hash maps", "why_tests_cant": "The tests call the setters at most once each, in one order; an assignment to the wrong field is invisible when the field is set again later or is never set.", "anchors": ["progenitor-impl/src/lib.rs:58-77", "progenitor-impl/src/lib.rs:115-244", "progenitor-impl/src/lib.rs:257-305"]}
{"id": "C94", "title": "The macro, a build script and cargo-progenitor that say the same generate the same code", "statement": "If the options given to generate_api! say what the calls of a build script on GenerationSettings say (each option the last call about the same thing, and no others), then the generator gets the same settings, hooks included, and typify is told the same up to the order that hash maps decide. With a typify that does not mind this order, the macro expands to a code exactly if its options can be read and the script generates this code for the document in the file, and it reports the script's error. The library written by cargo-progenitor is, formatted, what the macro given only the same interface and tags expands to.", "quantifier": "all lists of options and calls, all documents and files, all orders of iteration of hash maps, all behaviours of typify that do not depend on that order", "why_tests_cant": "Each front end has its own tests with its own settings; that an option can never be lost or changed in one of them but not in the others is a statement about all pairs of inputs.", "anchors": ["progenitor-macro/src/lib.rs:284-396", "progenitor-impl/src/lib.rs:115-305", "cargo-progenitor/src/main.rs:113-207", "example-build/build.rs:8-24"]}
{"id": "C95", "title": "When a call of a generated client panics", "statement": "A call on a client made by Client::new or new_with_client panics exactly if the version of the document is not printable ASCII (with tabs), or the first header argument that cannot be sent has a value that could be but a name that is no token; then nothing has been sent and no hook has run. All other calls do what the document says. A document with an unprintable version yields clients none of whose calls succeed. Client::new keeps the base URL, sets both timeouts to fifteen seconds except on wasm32, and panics exactly if reqwest cannot build a client.", "quantifier": "all documents, settings and clients generated that compile, all clients made, all arguments, hooks and servers", "why_tests_cant": "Tests use documents with ordinary versions and header names; that nothing else can panic, for any argument, is a statement about all calls.", "anchors": ["progenitor-impl/src/lib.rs:365-388", "progenitor-impl/src/lib.rs:407-496", "progenitor-impl/src/method.rs:800-840", "progenitor-impl/src/template.rs:36-52"]}
{"id": "C96", "title": "What a mock answers is what the client returns", "statement": "Tests with the generated mocks test the client: if a mock, restricted to arguments of a call, is told an answer with a method of its Then wrapper, the call returns the value told, with the status told, or returns it as the error of the operation, by the status. The answer has a status that the documented response stands for and the JSON of the value, labelled as such.", "quantifier": "all documents, operations, generated clients and mocks, all arguments, all methods of the Then wrapper with all statuses and values, all servers that behave like httpmock", "why_tests_cant": "A test with a mock shows one operation with one answer; that what the Then wrapper sends and what the client decodes agree for every operation and every documented status relates two generators over all documents.", "anchors": ["progenitor-impl/src/httpmock.rs:270-349", "progenitor-impl/src/method.rs:920-1090"]}
{"id": "C97", "title": "Mocks do not answer for other operations", "statement": "A mock of one operation never matches the request of a call of an operation with another HTTP method, or whose path template has another number of segments or another constant in the same place. Two mocks match a common request exactly if the methods are equal and the segments of the templates have texts in common, place by place; for templates whose segments are constants or placeholders: if the templates are not apart in this way.", "quantifier": "all pairs of operations, all restrictions of the mock, all calls, arguments and clients", "why_tests_cant": "Tests mock the operation they call; that no request of any other operation of any document is matched is a statement about pairs of templates and all arguments.", "anchors": ["progenitor-impl/src/httpmock.rs:254-268", "progenitor-impl/src/template.rs:63-86"]}
{"id": "C98", "title": "A request tells what the arguments were", "statement": "Two calls of one method of one client that send the same request were made with arguments that are serialised alike: path arguments of equal text, query arguments that contribute the same texts, the same header parameters given with equal texts, bodies of equal bytes. Paths tell their arguments apart exactly if no segment has two placeholders.", "quantifier": "all operations, all pairs of calls with any arguments, servers and hooks; all path templates", "why_tests_cant": "It is about pairs of calls: that no two different sets of arguments, over all texts, arrays and options, are confused in one request.", "anchors": ["progenitor-impl/src/template.rs:20-51", "progenitor-client/src/progenitor_client.rs:420-431", "progenitor-impl/src/method.rs:785-927"]}
{"id": "C99", "title": "Documents that say the same in different words generate the same code", "statement": "If two documents agree but for how their operations get their parameters, bodies and answers (in place or through references, in the path or in the operation, in whatever order, with whatever else among the components), so that for every operation the same parameters count, and the body and each answer lead to the same thing, then generating a client gives the same client for both, or the same error, or panics for both; so it does for mocks and for command line interfaces. In particular references to parameters, bodies and answers may be replaced by what they lead to.", "quantifier": "all pairs of such documents, settings, crate names and behaviours of typify that depend on the schemas of the components only", "why_tests_cant": "Each sample document is written in one way; that no rewriting changes the output is a statement about all pairs of documents.", "anchors": ["progenitor-impl/src/util.rs:18-76", "progenitor-impl/src/method.rs:286-549", "progenitor-impl/src/method.rs:2016-2140", "progenitor-impl/src/lib.rs:308-361", "progenitor-impl/src/lib.rs:668-702"]}
{"id": "C100", "title": "A request tells which operation was called", "statement": "If calls of two operations send the same request at the same base URL, the operations have the same HTTP method, and their path templates have as many segments, each having a text in common with the one in its place; so in a document without such pairs of operations the request tells the operation. For templates with constants that need no escaping this is exact: there are arguments with which both make the same path exactly if the segments have texts in common, that is, if the constant texts before the first and after the last placeholder do not contradict each other.", "quantifier": "all pairs of operations, all path templates, all calls, arguments and clients", "why_tests_cant": "Tests check the request of the call that they make; that no call of any other operation sends it is a statement about all pairs of templates and all arguments.", "anchors": ["progenitor-impl/src/template.rs:20-51", "progenitor-impl/src/method.rs:785-927", "progenitor-impl/src/lib.rs:308-361"]}
