{
 "claims": [
  {
   "property": "C01",
   "status": "partial",
   "theorems": [
    "C01_parse_accepts_iff_partial",
    "C01_strict_accepted",
    "C01_rejects_without_panic",
    "C01_only_strict_refuted"
   ],
   "note": "Full claim is false of the code: a '}' directly after a placeholder is accepted (C01_only_strict_refuted). C01_parse_accepts_iff_partial characterises exactly what is accepted."
  },
  {
   "property": "C02",
   "status": "partial",
   "theorems": [
    "C02_compiles_iff",
    "C02_url_expression_compiles_partial",
    "C02_panics_iff_undeclared",
    "C02_stray_brace_never_compiles",
    "C02_accepted_compiles_refuted"
   ],
   "note": "Full claim is false for the stray-brace paths of C01: generation succeeds but the emitted format! string is malformed. Proved for every path of the documented grammar. C02_compiles_iff: the expression compiles exactly if there is no stray brace and every placeholder has a parameter."
  },
  {
   "property": "C03",
   "status": "proved",
   "theorems": [
    "C03_to_string_squeezes",
    "C03_reparse",
    "C03_names_in_order",
    "C03_unique_reading"
   ],
   "note": ""
  },
  {
   "property": "C04",
   "status": "proved",
   "theorems": [
    "C04_url_is_expansion"
   ],
   "note": "For paths of the documented grammar; enc is instantiated by encode_path in the request model."
  },
  {
   "property": "C05",
   "status": "proved",
   "theorems": [
    "C05_encode_path_decode",
    "C05_encode_path_injective"
   ],
   "note": ""
  },
  {
   "property": "C06",
   "status": "proved",
   "theorems": [
    "C06_encode_path_safe",
    "C06_escapes_well_formed",
    "C06_unreserved_unchanged"
   ],
   "note": ""
  },
  {
   "property": "C07",
   "status": "partial",
   "theorems": [
    "C07_url_structure_partial",
    "C07_url_structure_iff",
    "C07_segments_decode",
    "C07_dot_segment_refuted",
    "C07_backslash_refuted",
    "C07_sent_iff",
    "C07_kept_iff"
   ],
   "note": "Full claim is false: '.'/'..' arguments and backslashes are not encoded. Proved for all other arguments against the path state of the WHATWG URL parser; C07_url_structure_iff shows that these are exactly the exceptions, C07_segments_decode that what is sent always decodes to the arguments. C07_sent_iff says the same of the requests of generated clients whose URL parser follows the specification."
  },
  {
   "property": "C08",
   "status": "partial",
   "theorems": [
    "C08_wrapped",
    "C08_scalar_one_pair",
    "C08_integer_text_injective",
    "C08_newtype_scalar_refuted"
   ],
   "note": "Full claim is false for newtype-struct scalars without serde(transparent) (C08_newtype_scalar_refuted); proved for every other scalar. C08_wrapped says exactly what becomes of wrapped scalars."
  },
  {
   "property": "C09",
   "status": "proved",
   "theorems": [
    "C09_absent_contributes_nothing",
    "C09_present_is_bare_value"
   ],
   "note": ""
  },
  {
   "property": "C10",
   "status": "proved",
   "theorems": [
    "C10_form_explode",
    "C10_array_in_order",
    "C10_object_by_field"
   ],
   "note": "odd_form names exactly the shapes outside style=form for which an encoding is nevertheless produced."
  },
  {
   "property": "C11",
   "status": "proved",
   "theorems": [
    "C11_accepted_iff",
    "C11_error_iff_unserialisable"
   ],
   "note": "C11_error_iff_unserialisable is about the query part of RequestBuilder; that no request is then sent is proved with the request model (C17/C18)."
  },
  {
   "property": "C12",
   "status": "proved",
   "theorems": [
    "C12_query_string_decodes"
   ],
   "note": ""
  },
  {
   "property": "C13",
   "status": "proved",
   "theorems": [
    "C13_header_values",
    "C13_present_sent_once",
    "C13_absent_not_sent",
    "C13_version_sent",
    "C13_version_sent_once",
    "C13_illegal_value_refused"
   ],
   "note": "Assumes header names of the document and the api-version string are legal (otherwise the code panics, finding F17) and distinct parameter identifiers, none called header_map (F12). 'Sent once' is for header parameters whose names differ up to case."
  },
  {
   "property": "C14",
   "status": "proved",
   "theorems": [
    "C14_body_sent",
    "C14_body_documented",
    "C14_body_parameter",
    "C14_one_body",
    "C14_none_documented",
    "C14_none_sent",
    "C14_header_parameter_overrides",
    "C14_bad_form_refused",
    "C14_bad_json_refused"
   ],
   "note": "Same assumptions as C13. Exactly one documented media type per body (several panic the generator)."
  },
  {
   "property": "C15",
   "status": "proved",
   "theorems": [
    "C15_recognised_iff",
    "C15_otherwise_rejected",
    "C15_one_media_type"
   ],
   "note": ""
  },
  {
   "property": "C16",
   "status": "proved",
   "theorems": [
    "C16_accept_iff"
   ],
   "note": "codes_valid: three-digit codes, one-digit classes."
  },
  {
   "property": "C17",
   "status": "proved",
   "theorems": [
    "C17_order",
    "C17_veto",
    "C17_overrule"
   ],
   "note": "call/prepared/observed in RequestSpec.v spell out the order; the world, hooks and transport are arbitrary state transformers."
  },
  {
   "property": "C18",
   "status": "proved",
   "theorems": [
    "C18_at_most_one",
    "C18_exactly_one",
    "C18_request_determined"
   ],
   "note": ""
  },
  {
   "property": "C19",
   "status": "proved",
   "theorems": [
    "C19_arms_cover",
    "C19_call_returns"
   ],
   "note": ""
  },
  {
   "property": "C20",
   "status": "partial",
   "theorems": [
    "C20_success_decoded_partial",
    "C20_error_decoded_partial",
    "C20_other_decoded_partial",
    "C20_other_unexpected",
    "C20_upgrade_unexpected",
    "C20_documented_redirect_refuted"
   ],
   "note": "Full claim is false: a documented 1xx/3xx code or class is never decoded (C20_documented_redirect_refuted). Proved for 2xx, 4xx, 5xx, and the default for all other statuses; websocket error bodies without JSON are reported as UnexpectedResponse. Exactly which statuses without a documented answer give UnexpectedResponse, and when a failed upgrade does: C20_other_unexpected, C20_upgrade_unexpected."
  },
  {
   "property": "C21",
   "status": "proved",
   "theorems": [
    "C21_undocumented_untouched",
    "C21_generic_success"
   ],
   "note": "The websocket upgrade status 101 is handled by C22."
  },
  {
   "property": "C22",
   "status": "proved",
   "theorems": [
    "C22_ok_only_for_success",
    "C22_documented_error_is_error"
   ],
   "note": ""
  },
  {
   "property": "C23",
   "status": "proved",
   "theorems": [
    "C23_generated_iff_agree",
    "C23_common_kinds"
   ],
   "note": "The statement names the exact set of responses compared (default shadowed by a trailing 2XX); hypotheses: every placeholder has a path parameter (otherwise C02_panics_iff_undeclared)."
  },
  {
   "property": "C24",
   "status": "partial",
   "theorems": [
    "C24_decoded_value_reports",
    "C24_upgraded_value_reports",
    "C24_raw_values_report",
    "C24_map_keeps",
    "C24_map_never_fails",
    "C24_into_untyped_keeps",
    "C24_into_untyped_status",
    "C24_status_accessor_iff_partial",
    "C24_status_of_payload_error_refuted"
   ],
   "note": "Status, headers and content length are preserved by every constructor; the accessor claim is false for InvalidResponsePayload, whose status() is None (C24_status_of_payload_error_refuted). C24_status_accessor_iff_partial says exactly which errors report a status."
  },
  {
   "property": "C25",
   "status": "proved",
   "theorems": [
    "C25_payload_error_has_bytes",
    "C25_unreadable_body",
    "C25_decodable_body",
    "C25_no_other_error"
   ],
   "note": ""
  },
  {
   "property": "C26",
   "status": "proved",
   "theorems": [
    "C26_content_length_iff",
    "C26_text_denotes_one_length"
   ],
   "note": "Spec reads the value as an optional '+' and ASCII digits below 2^64."
  },
  {
   "property": "C27",
   "status": "proved",
   "theorems": [
    "C27_histories",
    "C27_last_write_wins",
    "C27_independent"
   ],
   "note": "Setter arguments are TryInto conversions given by an arbitrary oracle."
  },
  {
   "property": "C28",
   "status": "proved",
   "theorems": [
    "C28_refused",
    "C28_runs",
    "C28_decided"
   ],
   "note": ""
  },
  {
   "property": "C29",
   "status": "proved",
   "theorems": [
    "C29_body"
   ],
   "note": ""
  },
  {
   "property": "C30",
   "status": "partial",
   "theorems": [
    "C30_same_behaviour",
    "C30_client_variable",
    "C30_generated_iff",
    "C30_every_operation_refuted"
   ],
   "note": "Behaviour is equal whenever both interfaces are generated. That the builder interface can be generated for every operation is false (C30_every_operation_refuted, finding F23); C30_generated_iff says exactly when it is."
  },
  {
   "property": "C31",
   "status": "proved",
   "theorems": [
    "C31_positional",
    "C31_builder"
   ],
   "note": "futures combinators modelled without Poll::Pending (a call to the server is one atomic step)."
  },
  {
   "property": "C32",
   "status": "proved",
   "theorems": [
    "C32_positional",
    "C32_builder",
    "C32_builder_incomplete"
   ],
   "note": ""
  },
  {
   "property": "C33",
   "status": "proved",
   "theorems": [
    "C33_positional_calls",
    "C33_builder_calls",
    "C33_queries",
    "C33_others",
    "C33_recognised"
   ],
   "note": "C33_recognised assumes that sanitising \"page_token\" gives itself."
  },
  {
   "property": "C34",
   "status": "proved",
   "theorems": [
    "C34_positional",
    "C34_builder"
   ],
   "note": ""
  },
  {
   "property": "C35",
   "status": "proved",
   "theorems": [
    "C35_recognised_iff",
    "C35_stream_iff",
    "C35_first_page"
   ],
   "note": "The type space (typify) is an arbitrary oracle."
  },
  {
   "property": "C36",
   "status": "proved",
   "theorems": [
    "C36_order",
    "C36_order_strict",
    "C36_complete",
    "C36_document_order_irrelevant"
   ],
   "note": "sort_by is modelled by the insertion sort the standard library uses for up to 20 elements."
  },
  {
   "property": "C37",
   "status": "partial",
   "theorems": [
    "C37_override_partial",
    "C37_override_iff",
    "C37_no_others",
    "C37_same_name_refuted"
   ],
   "note": "Full claim is false: parameters are keyed by name only (C37_same_name_refuted). C37_override_iff says exactly when every parameter that counts is there (no two that count share a name); C37_no_others that no other ever is."
  },
  {
   "property": "C38",
   "status": "partial",
   "theorems": [
    "C38_resolves_iff",
    "C38_denotes_one",
    "C38_fails_iff",
    "C38_never_an_error_value",
    "C38_missing",
    "C38_terminates_iff_partial",
    "C38_terminates_refuted"
   ],
   "note": "Termination is false: cyclic references recurse for ever (C38_terminates_refuted); all else proved, failures characterised exactly. C38_missing gives the text of the panic for an undefined key."
  },
  {
   "property": "C39",
   "status": "proved",
   "theorems": [
    "C39_valid_iff",
    "C39_first_fault",
    "C39_no_panic"
   ],
   "note": "C39_first_fault also determines the error: the version, else the first fault in document order."
  },
  {
   "property": "C40",
   "status": "proved",
   "theorems": [
    "C40_identifier",
    "C40_identifier_any_tables",
    "C40_snake_case",
    "C40_snake_words_determine",
    "C40_pascal_case",
    "C40_pascal_text_determines"
   ],
   "note": "heck 0.5.0 and syn's identifier check are re-modelled; the Unicode 15.0 tables are generated data (tools/unicode.pl). C40_identifier_any_tables needs only a few laws of the tables."
  },
  {
   "property": "C41",
   "status": "partial",
   "theorems": [
    "C41_stable_partial",
    "C41_stable_refuted",
    "C41_pascal_refuted",
    "C41_pascal_iff"
   ],
   "note": "Full claim is false for U+0130, for upper case letters without lower case form, and for Pascal case (C41_*_refuted). Proved for all other strings in snake case. For Pascal case C41_pascal_iff gives the exact condition for ASCII names."
  },
  {
   "property": "C42",
   "status": "partial",
   "theorems": [
    "C42_same_method_iff",
    "C42_distinct_partial",
    "C42_distinct_builders_partial",
    "C42_distinct_refuted",
    "C42_distinct_builders_refuted",
    "C42_same_builder_iff"
   ],
   "note": "Full claim is false (get-item and getItem; builders of get_v_1 and get_v1). C42_same_method_iff says exactly when two ids share a method, C42_same_builder_iff when they share a builder; distinctness proved for snake-case ids."
  },
  {
   "property": "C43",
   "status": "partial",
   "theorems": [
    "C43_fresh_partial",
    "C43_fresh_iff",
    "C43_distinct",
    "C43_first_free",
    "C43_header_map_refuted"
   ],
   "note": "Full claim is false for header_map (C43_header_map_refuted); proved for every other variable. Exact condition for a declared name to be fresh: C43_fresh_iff."
  },
  {
   "property": "C44",
   "status": "partial",
   "theorems": [
    "C44_same_values_partial",
    "C44_references_partial",
    "C44_documents_partial",
    "C44_converted",
    "C44_panics",
    "C44_lengths_refuted",
    "C44_integers_refuted"
   ],
   "note": "Full claim is false for lengths from 2^32 (C44_lengths_refuted), integers that are not doubles (C44_integers_refuted) and some nullable schemas (C46); proved for all other schemas, nested and with recursive references. C44_panics: which schema inside makes the conversion panic, and with what text."
  },
  {
   "property": "C45",
   "status": "proved",
   "theorems": [
    "C45_annotations"
   ],
   "note": "The format of a nullable combination of schemas is on the second alternative of the choice it is converted to; everything else is on the converted schema itself."
  },
  {
   "property": "C46",
   "status": "partial",
   "theorems": [
    "C46_adds_null_partial",
    "C46_adds_null_iff",
    "C46_untyped",
    "C46_keywords_refuted",
    "C46_enumeration_refuted",
    "C46_untyped_enumeration_refuted",
    "C46_choice_refuted"
   ],
   "note": "Refuted for nullable schemas without type that have keywords, for enumerations that do not list null and for combinations that accept null; proved for all others; C46_adds_null_iff: with a type and for combinations these conditions are exact; C46_untyped says exactly what happens without a type."
  },
  {
   "property": "C47",
   "status": "partial",
   "theorems": [
    "C47_string_lengths_partial",
    "C47_array_lengths_partial",
    "C47_object_lengths_partial",
    "C47_any_lengths_partial",
    "C47_lengths_refuted",
    "C47_lengths_cut",
    "C47_integers_iff",
    "C47_integers_nearest",
    "C47_integers_refuted",
    "C47_numbers"
   ],
   "note": "Length bounds survive exactly below 2^32, of others the low 32 bits are left (C47_lengths_cut); integer bounds survive exactly when they are doubles; any other becomes the nearest double."
  },
  {
   "property": "C48",
   "status": "proved",
   "theorems": [
    "C48_arguments"
   ],
   "note": "Proved for every operation for which a command is generated (C71 says when)."
  },
  {
   "property": "C49",
   "status": "proved",
   "theorems": [
    "C49_offered",
    "C49_determines"
   ],
   "note": "Proved; for commands that can work (cli_ok) and files that can be read."
  },
  {
   "property": "C50",
   "status": "partial",
   "theorems": [
    "C50_listing",
    "C50_shape",
    "C50_panics_iff",
    "C50_end_refuted",
    "C50_limit_refuted"
   ],
   "note": "Proved; the listing panics exactly when its error response is neither JSON nor empty or the limit of the command is not a NonZeroU32 (C50_panics_iff), so the full claim is refuted."
  },
  {
   "property": "C51",
   "status": "partial",
   "theorems": [
    "C51_one_call",
    "C51_exactly_one",
    "C51_panics_iff",
    "C51_raw_refuted",
    "C51_override_refuted"
   ],
   "note": "Proved for responses that are JSON or empty and overrides that succeed; the command panics exactly for bytes and upgrades (C51_panics_iff), a failing override returns without a callback (refuted)."
  },
  {
   "property": "C52",
   "status": "partial",
   "theorems": [
    "C52_dots",
    "C52_dots_iff",
    "C52_value",
    "C52_value_iff",
    "C52_escaped",
    "C52_paths_partial",
    "C52_dot_refuted",
    "C52_plus_refuted",
    "C52_value_refuted",
    "C52_segment_refuted"
   ],
   "note": "Full claim is false (dots and pluses in paths, dots in values, two restrictions in one segment: refuted). Proved for templates and values that mean themselves in regular expressions. With dots C52_dots and C52_value say what is matched besides, and C52_dots_iff, C52_value_iff exactly when that is right. C52_escaped: an escaped character is matched by itself only."
  },
  {
   "property": "C53",
   "status": "partial",
   "theorems": [
    "C53_query_partial",
    "C53_query_iff",
    "C53_renamed_refuted",
    "C53_float_refuted"
   ],
   "note": "Full claim is false (renamed parameters, floats: refuted). Proved for parameters with a Rust name and values whose to_string is their serde text. Exact condition under which a query expectation accepts the request: C53_query_iff."
  },
  {
   "property": "C54",
   "status": "proved",
   "theorems": [
    "C54_statuses"
   ],
   "note": "Also: every documented status can be produced, and the content is the documented one."
  },
  {
   "property": "C55",
   "status": "proved",
   "theorems": [
    "C55_dependencies"
   ],
   "note": "Combined with C63: the entries are determined by the generated code and typify's answers."
  },
  {
   "property": "C56",
   "status": "proved",
   "theorems": [
    "C56_line_ends_added",
    "C56_kept_iff"
   ],
   "note": "Also: all item ends of tidy texts are spaced out; unchanged iff there is none."
  },
  {
   "property": "C57",
   "status": "proved",
   "theorems": [
    "C57_value",
    "C57_name",
    "C57_section",
    "C57_settings"
   ],
   "note": "Proved; semver's parser is arbitrary."
  },
  {
   "property": "C58",
   "status": "proved",
   "theorems": [
    "C58_traits"
   ],
   "note": "Proved on token level; TypeImpl and its parser are arbitrary."
  },
  {
   "property": "C59",
   "status": "proved",
   "theorems": [
    "C59_tags"
   ],
   "note": "An operation with a repeated tag appears that often in the trait; distinct tags may share a trait name (see C42)."
  },
  {
   "property": "C60",
   "status": "proved",
   "theorems": [
    "C60_order",
    "C60_positional",
    "C60_positional_names",
    "C60_builders",
    "C60_builder_methods"
   ],
   "note": "Within a path the order is that of openapiv3's PathItem::iter. typify is an oracle."
  },
  {
   "property": "C61",
   "status": "proved",
   "theorems": [
    "C61_alternate_shows_chain",
    "C61_plain_ends_with_cause",
    "C61_no_source_same"
   ],
   "note": ""
  },
  {
   "property": "C62",
   "status": "proved",
   "theorems": [
    "C62_methods",
    "C62_builders",
    "C62_streams",
    "C62_tagged_builders"
   ],
   "note": ""
  },
  {
   "property": "C63",
   "status": "proved",
   "theorems": [
    "C63_futures",
    "C63_websockets_code",
    "C63_websockets"
   ],
   "note": "For a new generator."
  },
  {
   "property": "C64",
   "status": "partial",
   "theorems": [
    "C64_distinct_partial",
    "C64_distinct_iff",
    "C64_builder_iff",
    "C64_distinct_refuted"
   ],
   "note": "Full claim is false (an operation called client, C64_distinct_refuted). C64_distinct_iff (positional) and C64_builder_iff (builder) say exactly when the names are different."
  },
  {
   "property": "C65",
   "status": "partial",
   "theorems": [
    "C65_accepts_partial",
    "C65_accepts_iff",
    "C65_encoded_refuted",
    "C65_header_refuted"
   ],
   "note": "Full claim is false (arguments that are percent-encoded, header arguments: refuted). Proved for sets of arguments that each can be restricted. Exact condition, argument by argument, under which the mock accepts the request of the client: C65_accepts_iff."
  },
  {
   "property": "C66",
   "status": "partial",
   "theorems": [
    "C66_mocks_partial",
    "C66_unnamed_status_refuted"
   ],
   "note": "Full claim is false (statuses without canonical reason). The exact condition is proved."
  },
  {
   "property": "C67",
   "status": "proved",
   "theorems": [
    "C67_operations"
   ],
   "note": "Proved."
  },
  {
   "property": "C68",
   "status": "partial",
   "theorems": [
    "C68_response_names_iff",
    "C68_request_names_iff",
    "C68_response_names_partial",
    "C68_websocket_refuted",
    "C68_new_refuted",
    "C68_wrappers_refuted"
   ],
   "note": "Full claim is false (three refutations). Proved for the response methods. C68_response_names_iff and C68_request_names_iff give the exact conditions."
  },
  {
   "property": "C69",
   "status": "partial",
   "theorems": [
    "C69_order_partial",
    "C69_order_iff",
    "C69_order_refuted"
   ],
   "note": "Full claim is false (two names for one crate). C69_order_iff: the order is irrelevant exactly if no two entries are about one crate."
  },
  {
   "property": "C70",
   "status": "proved",
   "theorems": [
    "C70_syntax",
    "C70_round_trip"
   ],
   "note": "Proved; generic arguments in paths are not modelled."
  },
  {
   "property": "C71",
   "status": "partial",
   "theorems": [
    "C71_generates",
    "C71_no_clash",
    "C71_distinct_iff",
    "C71_distinct_refuted"
   ],
   "note": "Proved; the arguments of one command are distinct exactly when no body property of the command is called json-body (C71_distinct_iff), so the full claim is refuted."
  },
  {
   "property": "C72",
   "status": "proved",
   "theorems": [
    "C72_parsed",
    "C72_reaches",
    "C72_one_shot",
    "C72_listing",
    "C72_raw_body"
   ],
   "note": "Proved for commands that can work (cli_ok: builder compiles, stable names, distinct ids); a raw body cannot be given at all (C72_raw_body)."
  },
  {
   "property": "C73",
   "status": "partial",
   "theorems": [
    "C73_commands",
    "C73_dispatch",
    "C73_dispatch_iff",
    "C73_dispatch_refuted"
   ],
   "note": "Proved with the exact condition: dispatch reaches the function of its command exactly when the method name is stable under sanitize (C73_dispatch_iff); refuted for U+0130."
  },
  {
   "property": "C74",
   "status": "partial",
   "theorems": [
    "C74_manifest_iff",
    "C74_escaping_refuted",
    "C74_readable_refuted"
   ],
   "note": "Readable with exactly the package fields and needed dependencies if and only if name, version, license and registry need no escaping (C74_manifest_iff); other texts add entries (C74_escaping_refuted) or make it unreadable (C74_readable_refuted)."
  },
  {
   "property": "C75",
   "status": "proved",
   "theorems": [
    "C75_success_iff",
    "C75_files",
    "C75_other_files",
    "C75_nothing",
    "C75_panic_iff",
    "C75_order",
    "C75_again"
   ],
   "note": "Proved for all documents, command lines and failures of the file system; parsers, generator text and rustfmt are oracles, the manifest's meaning is C74, spacing of items C56."
  },
  {
   "property": "C76",
   "status": "partial",
   "theorems": [
    "C76_generated_iff",
    "C76_operation",
    "C76_errors_refuted"
   ],
   "note": "The characterisation is proved for all documents, settings and type spaces (status codes of three digits, not both dropshot extensions on one operation, typify knowing the elements of its arrays); that unsupported documents are refused with an error rather than a panic is refuted, with fourteen documents."
  },
  {
   "property": "C77",
   "status": "partial",
   "theorems": [
    "C77_hook",
    "C77_parens",
    "C77_hook_refuted",
    "C77_accepted",
    "C77_delivered",
    "C77_read",
    "C77_key_order",
    "C77_other_keys",
    "C77_string",
    "C77_order_partial",
    "C77_order_iff",
    "C77_order_refuted",
    "C77_expanded",
    "C77_error",
    "C77_key_names",
    "C77_written",
    "C77_written_accepted",
    "C77_default_generator"
   ],
   "note": "All proved, except: values that are neither closures nor paths are accepted as hooks (refuted, with the exact characterisation proved), and independence of the order of hash maps needs that no two entries of the crates section are about one crate (refuted otherwise; C77_order_iff: exactly then). Keys as text: C77_key_names, C77_written, C77_written_accepted; syn and serde_tokenstream read the values and are parameters."
  },
  {
   "property": "C78",
   "status": "proved",
   "theorems": [
    "C78_method",
    "C78_runs",
    "C78_rejects"
   ],
   "note": "The compiler is represented by the relation method_ok of CompileSpec.v: names in scope, arguments of format strings, traits of types, exhaustive matches, types of the response. Lifetimes and the types of hooks are not covered. C78_rejects computes five operations that are accepted by the generator but not by the compiler."
  },
  {
   "property": "C79",
   "status": "proved",
   "theorems": [
    "C79_positional",
    "C79_rejects"
   ],
   "note": "The compiler is represented by item_ok of CompileItemSpec.v; C79_rejects computes two paginated operations whose stream does not compile."
  },
  {
   "property": "C80",
   "status": "proved",
   "theorems": [
    "C80_builder",
    "C80_runs",
    "C80_rejects"
   ],
   "note": "The compiler is represented by builder_code_ok of CompileItemSpec.v; C80_rejects computes two operations whose builder does not compile."
  },
  {
   "property": "C81",
   "status": "proved",
   "theorems": [
    "C81_client",
    "C81_rejects"
   ],
   "note": "The compiler is represented by file_ok of CompileItemSpec.v, which does not look into the types module (typify). C81_rejects computes two documents whose client does not compile."
  },
  {
   "property": "C82",
   "status": "proved",
   "theorems": [
    "C82_positional",
    "C82_builder",
    "C82_positional_streams",
    "C82_builder_streams"
   ],
   "note": "Composition of C81 with C08 to C35 for whole documents. Remaining conditions on a call: legal header names and api version (otherwise the generated code panics or errs, C15), and that the URL parser yields no headers but authorization. The request and the interpretation of the answer are the specifications is_request and interpreted."
  },
  {
   "property": "C83",
   "status": "proved",
   "theorems": [
    "C83_operation",
    "C83_mocks",
    "C83_rejects"
   ],
   "note": "The compiler is the specification MockCompileSpec.v; traits of types and which types are passed by reference (typify's parameter_ident) are parameters, and the signatures of httpmock 0.7's json_body_obj are trusted. Lifetimes are not covered. A regular expression that is invalid at run time is a panic, not a compile error (C52)."
  },
  {
   "property": "C84",
   "status": "proved",
   "theorems": [
    "C84_command",
    "C84_cli",
    "C84_runs",
    "C84_rejects",
    "C84_parameter"
   ],
   "note": "The compiler is the specification CliCompileSpec.v, with Rust's method resolution (methods by value first, then by reference with inherent ones first, ambiguity between traits) for self.client.operation(). Traits of types, the setters of typify's builder types and clap's parsers are parameters; the client is assumed to compile (C81), which gives the builders."
  },
  {
   "property": "C85",
   "status": "proved",
   "theorems": [
    "C85_types",
    "C85_unconvertible"
   ],
   "note": "typify is a parameter: what it makes of a list of named schemas, and of a schema under a name afterwards. Simplification: the same schema under the same name gives the same type whenever it is added."
  },
  {
   "property": "C86",
   "status": "partial",
   "theorems": [
    "C86_asked",
    "C86_client",
    "C86_cli",
    "C86_mock",
    "C86_names_refuted"
   ],
   "note": "typify is an arbitrary machine with a state (typify_machine); that it remembers its types is a hypothesis of the theorems about functions, not of C86_asked, and it is only used between the calls of add_ref_types, so nothing is claimed of types across two calls of the generator. The full claim that each type asked for has its own name is false (F48)."
  },
  {
   "property": "C87",
   "status": "partial",
   "theorems": [
    "C87_flags",
    "C87_flags_stay",
    "C87_flags_refuted"
   ],
   "note": "The full claim that the flags of a generator describe the client generated last is false (F49): they are never reset. cargo-progenitor uses a generator once."
  },
  {
   "property": "C88",
   "status": "proved",
   "theorems": [
    "C88_explained",
    "C88_generated_unless",
    "C88_errors_iff",
    "C88_panics_iff"
   ],
   "note": "The causes are stated in FailSpec on the document (not on the method made of it), each with the text that the error or panic says; left open are the text for an invalid path, what typify says, the Debug output that the source appends to some texts, and what is said of a broken reference."
  },
  {
   "property": "C89",
   "status": "proved",
   "theorems": [
    "C89_client",
    "C89_version",
    "C89_links",
    "C89_functions"
   ],
   "note": "Whether rustdoc renders the links is not modelled; a link is text naming a trait or the client and a method."
  },
  {
   "property": "C90",
   "status": "proved",
   "theorems": [
    "C90_mock_explained",
    "C90_mock_unless",
    "C90_client_mocked",
    "C90_cli_explained",
    "C90_cli_unless",
    "C90_client_commanded"
   ],
   "note": "Obstacles to a mock are stated on the document; those to a command line interface on the parameters of the method made of the operation (C36, C64 say which they are). Each cause carries the text of the panic, with the same gaps as C88."
  },
  {
   "property": "C91",
   "status": "proved",
   "theorems": [
    "C91_kinds",
    "C91_messages",
    "C91_generator"
   ],
   "note": "The derived Debug printers of bytes, responses and response values are arbitrary. The text of typify errors is given."
  },
  {
   "property": "C92",
   "status": "proved",
   "theorems": [
    "C92_builder",
    "C92_positional",
    "C92_generated",
    "C92_part",
    "C92_reordered"
   ],
   "note": "typify is an oracle: ts_add and ts_details must agree on the schemas of the operation (sh_types); with the same components they do."
  },
  {
   "property": "C93",
   "status": "proved",
   "theorems": [
    "C93_generator",
    "C93_read",
    "C93_typify",
    "C93_order"
   ],
   "note": "A setter is a call; iterators given to setters are the lists they yield; rename is cloned. C93_read: what the generator reads of the settings."
  },
  {
   "property": "C94",
   "status": "proved",
   "theorems": [
    "C94_settings",
    "C94_code",
    "C94_error",
    "C94_command"
   ],
   "note": "Assumes of typify that it does not mind the order of patches, replacements and trait lists, and of the crates section that no two entries are about one crate (otherwise the macro depends on the order of a hash map, C77)."
  },
  {
   "property": "C95",
   "status": "proved",
   "theorems": [
    "C95_positional",
    "C95_builder",
    "C95_version_positional",
    "C95_version_builder",
    "C95_new"
   ],
   "note": "Conditions on versions, names and values of headers are stated in characters (PanicSpec) and proved equal to those of http 1.3.1 as modelled; the limit of HeaderMap (32768 slots, so some 24000 header parameters) is not modelled, and the texts of the two panics are the messages in http without the error that expect appends. reqwest's ClientBuilder::build is an arbitrary function of the options set."
  },
  {
   "property": "C96",
   "status": "partial",
   "theorems": [
    "C96_sent",
    "C96_received_partial",
    "C96_mocked",
    "C96_other_status",
    "C96_redirect_refuted",
    "C96_default_refuted"
   ],
   "note": "Partial: statuses other than 2xx, 4xx and 5xx are only decoded as the default response (C96_redirect_refuted, C96_other_status), and default_response with a 2xx status is read as the documented class of successes (C96_default_refuted). httpmock's server is a hypothesis: it answers a matched request with the status, headers and body told, maybe with more headers and in pieces. That a value read back from its JSON is the value is serde's and typify's business: the statement is about what decoding the JSON yields. Upgrades cannot be mocked."
  },
  {
   "property": "C97",
   "status": "partial",
   "theorems": [
    "C97_apart_partial",
    "C97_overlap",
    "C97_dot_refuted",
    "C97_elsewhere_partial",
    "C97_overlap_iff"
   ],
   "note": "Partial: constants are not escaped in the regular expression, so the mock of /v1.0 answers requests for /v1x0 (C97_dot_refuted, finding of C52). The URL of the call has to be taken as it is by the URL parser (url_kept; exactly when it is: C07_kept_iff). C97_overlap_iff holds for all templates with constants that need no escaping; C97_overlap is the case of whole segments."
  },
  {
   "property": "C98",
   "status": "partial",
   "theorems": [
    "C98_path_partial",
    "C98_path_iff",
    "C98_path_refuted",
    "C98_query_partial",
    "C98_query_iff",
    "C98_query_refuted",
    "C98_header_partial",
    "C98_header_refuted",
    "C98_body"
   ],
   "note": "Partial: false for two placeholders in a segment (C98_path_refuted; exactly those by C98_path_iff), for objects in the query and for empty arrays (C98_query_refuted; in general a query tells the list of pairs and nothing else, C98_query_iff), and for a header parameter that the client also sets itself (C98_header_refuted). The URLs of the calls have to be taken as they are by the URL parser (url_kept; exactly when it is: C07_kept_iff)."
  },
  {
   "property": "C99",
   "status": "proved",
   "theorems": [
    "C99_client",
    "C99_mock",
    "C99_cli",
    "C99_written_out"
   ],
   "note": "Proved. Schemas are left as they are: a reference to a schema and the schema in its place are different to typify (another type name)."
  },
  {
   "property": "C100",
   "status": "partial",
   "theorems": [
    "C100_told_partial",
    "C100_document",
    "C100_share_iff",
    "C100_whole_iff",
    "C100_refuted"
   ],
   "note": "Partial: false for operations whose paths have texts in common, such as /{id} and /v1x0 (C100_refuted); exactly those by C100_share_iff; true in documents without such operations (C100_document). The URLs of the calls have to be taken as they are by the URL parser (url_kept; exactly when it is: C07_kept_iff)."
  }
 ]
}