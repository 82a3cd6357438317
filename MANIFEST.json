{
 "claims": [
  {
   "property": "C01",
   "status": "proved",
   "theorems": [
    "C01_wildcard_exact",
    "C01_wildcard_terminates"
   ],
   "note": "Exact for all wildcard texts without adjacent stars (the parser refuses adjacent stars) and all request segments; termination included."
  },
  {
   "property": "C02",
   "status": "partial",
   "theorems": [
    "C02_no_crash_refuted",
    "C02_no_crash_partial",
    "C02_no_crash_final_star_partial",
    "C02_crash_exact_partial",
    "C02_crash_only_when_refused_partial"
   ],
   "note": "False: `a*bc` against `ab` reads past the end. Proved: exactly which pairs panic, for all segments; a panic never replaces a positive answer. The theorems on routing (C11, C18, C22 and those built on them) exclude exactly these pairs."
  },
  {
   "property": "C03",
   "status": "partial",
   "theorems": [
    "C03_star_any_run_refuted",
    "C03_star_any_run_partial",
    "C03_final_star_partial"
   ],
   "note": "False for a final star, which needs one character. Proved: exact for texts that do not end in a star; exact description of a final star."
  },
  {
   "property": "C04",
   "status": "proved",
   "theorems": [
    "C04_grammar_exact",
    "C04_reading_unique"
   ],
   "note": "Exact for every byte string and every regular expression engine; parsing never panics; readings are unique."
  },
  {
   "property": "C05",
   "status": "proved",
   "theorems": [
    "C05_parsed_meaning"
   ],
   "note": "For every accepted pattern of at most 255 pieces."
  },
  {
   "property": "C06",
   "status": "partial",
   "theorems": [
    "C06_long_pattern_refuted",
    "C06_last_partial",
    "C06_long_pattern_partial"
   ],
   "note": "False: 256 pieces wrap the 8 bit counter and the pattern is parsed as /. Proved exactly: of any pattern only the pieces behind a multiple of 256 are left (C06_last_partial), so it is true up to 255 pieces."
  },
  {
   "property": "C07",
   "status": "proved",
   "theorems": [
    "C07_segments_exact",
    "C07_reading_total",
    "C07_reading_unique",
    "C07_overlong_empty"
   ],
   "note": "For every byte string shorter than 65536 bytes and every content of the recycled buffer; text before the first slash is ignored; readings are total and unique."
  },
  {
   "property": "C08",
   "status": "partial",
   "theorems": [
    "C08_too_long_not_served_refuted",
    "C08_too_long_not_served_partial"
   ],
   "note": "False: a path with more than 19 segments is served by the route /. Proved: it is answered 404 if / is not registered for the method."
  },
  {
   "property": "C09",
   "status": "partial",
   "theorems": [
    "C09_no_crash_refuted",
    "C09_no_crash_routing_refuted",
    "C09_no_crash_partial",
    "C09_parse_never_panics"
   ],
   "note": "False from 65536 bytes on: offsets wrap and a path variable, or matching a constraint, panics. Proved: reading a path never panics at any length, and below 65536 bytes no path variable panics."
  },
  {
   "property": "C10",
   "status": "partial",
   "theorems": [
    "C10_ignoring_case_partial",
    "C10_only_matching_refuted",
    "C10_only_matching_partial"
   ],
   "note": "False for a constraint spelled like another constrained piece ({x:{b:a}} after {b:a}). Proved for all registrations without a constraint starting with a brace (any constraint if the router ignores letter case), patterns of at most 255 pieces, any number of registrations, any use of **. Otherwise (C16_segments_partial) such a constraint is at worst taken for the one it spells."
  },
  {
   "property": "C11",
   "status": "partial",
   "theorems": [
    "C11_some_route_matches_refuted",
    "C11_some_route_matches_any_refuted",
    "C11_many_routes_refuted",
    "C11_some_route_matches_partial",
    "C11_some_route_matches_inner_refuted",
    "C11_inner_double_star_partial",
    "C11_only_route_partial"
   ],
   "note": "Refuted four times with witnesses (the fourth: any 65536 literal routes on one level are all lost). Partial: with wildcard texts that do not crash, fewer than 65536 registrations, at most 255 pieces, plain constraints and paths below 64 KiB: (1) for route sets whose patterns have ** only last and requests that no pattern cuts off (not_cut), the request is routed iff a route reads it; (2) for patterns with ** anywhere (at most 18 pieces then), no route reads it: 404; some route reads it and no pattern leads the search astray (not_stuck, not_ended): routed to a route that reads it; (3) for a method with a single route: routed iff it reads the request."
  },
  {
   "property": "C12",
   "status": "partial",
   "theorems": [
    "C12_most_specific_refuted",
    "C12_most_specific_partial",
    "C12_two_any_refuted"
   ],
   "note": "Refuted twice with witnesses (two wildcard texts accepting one segment; two ** in a pattern). Partial: under the restrictions of C11, at most 19 pieces and equal wildcard texts wherever two matching routes agree in kind up to there, no matching route is more specific than the chosen one."
  },
  {
   "property": "C13",
   "status": "partial",
   "theorems": [
    "C13_order_irrelevant_refuted",
    "C13_order_irrelevant_partial"
   ],
   "note": "Refuted with witness. Partial: under the restrictions of C12 and with matching routes of pairwise different kinds, all permutations of the registrations answer alike, with equal path variables."
  },
  {
   "property": "C14",
   "status": "partial",
   "theorems": [
    "C14_duplicates_refuted",
    "C14_duplicates_partial"
   ],
   "note": "Refuted with witness (same constrained pattern accepted twice). Partial: refused as duplicate only if an accepted route of the method has the same pieces up to variable names; the converse for patterns without constraints."
  },
  {
   "property": "C15",
   "status": "partial",
   "theorems": [
    "C15_refused_changes_nothing_refuted",
    "C15_refused_changes_nothing_partial"
   ],
   "note": "False for patterns of more than 256 pieces (a refused call can turn a 404 into a crash). Proved for patterns of at most 255 pieces, over all later registrations and requests."
  },
  {
   "property": "C16",
   "status": "partial",
   "theorems": [
    "C16_far_refuted",
    "C16_segments_partial",
    "C16_concurrent_partial",
    "C16_path_variables_partial"
   ],
   "note": "False for patterns of more than 255 pieces: the variable of the 257th piece has the text of the first segment. Proved for patterns of at most 255 pieces, any number of registrations, whatever their constraints: values are the texts of the segments that stand at the variables, the first one when a name is repeated, and the empty text for other names. With the restriction of C10 on constraints the reading is one that the constraints allow."
  },
  {
   "property": "C17",
   "status": "proved",
   "theorems": [
    "C17_search_ends",
    "C17_wildcards_end"
   ],
   "note": "Proved for every router, every request path and every buffer of 19 segments: the number of steps is bounded by a measure of the children still to be looked at on the path from the root. The comparison with a wildcard text of an accepted pattern ends too."
  },
  {
   "property": "C18",
   "status": "partial",
   "theorems": [
    "C18_stack_refuted",
    "C18_stack_partial"
   ],
   "note": "False: 19 pieces with a leading ** that covers nothing overrun the stack. Proved: routing never crashes if every route of the method has at most 18 pieces or ** only last, apart from the crashes of wildcard texts (C02)."
  },
  {
   "property": "C19",
   "status": "partial",
   "theorems": [
    "C19_registration_ends_refuted",
    "C19_registration_ends_partial",
    "C19_two_refuted",
    "C19_which_spin_partial",
    "C19_short_ends_partial"
   ],
   "note": "False: a legal pattern of 17 pieces with eight ** makes the ranking loop for ever, and so does one of 20 pieces with two **. Proved exactly for patterns of at most 19 pieces: 67 shapes (all with at least 17 pieces and seven **, the last piece not a **) never end, all others end. With at most one ** parsing ends for up to 255 pieces. Missing: more than 19 pieces with several **, where the number overflows."
  },
  {
   "property": "C20",
   "status": "proved",
   "theorems": [
    "C20_rank_is_specificity"
   ],
   "note": "For all pairs of patterns of 1 to 19 pieces in which ** is only last."
  },
  {
   "property": "C21",
   "status": "proved",
   "theorems": [
    "C21_methods_independent",
    "C21_other_method_unchanged",
    "C21_method_case_registration",
    "C21_method_case_request"
   ],
   "note": "On any router: only the registrations of the request's method matter; the case of method names is irrelevant (ASCII)."
  },
  {
   "property": "C22",
   "status": "partial",
   "theorems": [
    "C22_outcomes_refuted",
    "C22_documented_outcomes_partial",
    "C22_every_step_partial"
   ],
   "note": "Refuted: a handler that returns neither response nor error crashes the call. Partial: with routes as in C11, handlers that return a response or an error, and responses that do not panic, every request has exactly one documented outcome; on any router all steps are characterised."
  },
  {
   "property": "C23",
   "status": "proved",
   "theorems": [
    "C23_own_segments",
    "C23_routing_cut"
   ],
   "note": "Proved for all routers, schedules, numbers of requests, all ways to cut routing into single accesses, and handlers whose goroutines use clones only (a case shows that the rule is needed). Registering handlers while requests are served, and handlers that change the exported field PathSegments, are left out."
  },
  {
   "property": "C24",
   "status": "proved",
   "theorems": [
    "C24_clones_agree"
   ],
   "note": "Proved for all routers and schedules; clones may be shared by any number of goroutines and cloned again."
  },
  {
   "property": "C25",
   "status": "partial",
   "theorems": [
    "C25_prefixes_refuted",
    "C25_prefixes_partial",
    "C25_concatenation_unique"
   ],
   "note": "Refuted: a prefix equal to the prefix of the mux is dropped. Partial: exact for all other sequences of prefixes."
  },
  {
   "property": "C26",
   "status": "partial",
   "theorems": [
    "C26_isolation_refuted",
    "C26_isolation_empty_refuted",
    "C26_values_partial",
    "C26_isolation_partial"
   ],
   "note": "Refuted: RouteUsingPathPrefix with the same or an empty prefix returns the receiver. Partial: all other histories refine value semantics, for every growth policy of slices, and adding to one mux changes no unrelated registration."
  },
  {
   "property": "C27",
   "status": "proved",
   "theorems": [
    "C27_nesting",
    "C27_order"
   ],
   "note": "All chains, nil entries, refusing middlewares and panics included."
  },
  {
   "property": "C28",
   "status": "partial",
   "theorems": [
    "C28_panic_contained_refuted",
    "C28_panic_contained_partial",
    "C28_panic_answered_partial",
    "C28_client_answered_partial"
   ],
   "note": "Refuted for panic(nil) under the language version of go.mod. Partial: every other panic value."
  },
  {
   "property": "C29",
   "status": "proved",
   "theorems": [
    "C29_status_codes",
    "C29_error_response",
    "C29_go_values",
    "C29_offered"
   ],
   "note": "Exact for every error value."
  },
  {
   "property": "C30",
   "status": "partial",
   "theorems": [
    "C30_implies_refuted",
    "C30_implies_exact_partial",
    "C30_implies_partial"
   ],
   "note": "Refuted with witness: a implies a/a. Partial: exact characterisation (described implication plus repetition of the last level), and the described implication itself when the permission ends with * or has as many levels as the request. ScopeSeparator has its initial value."
  },
  {
   "property": "C31",
   "status": "partial",
   "theorems": [
    "C31_deny_wins_refuted",
    "C31_deny_wins_partial"
   ],
   "note": "Refuted with witness: deny Delete, ask for Read|Delete. Partial: a request all of whose bits lie in one denied permission that covers the scope is refused, in particular every single bit request."
  },
  {
   "property": "C32",
   "status": "proved",
   "theorems": [
    "C32_grants_add_up",
    "C32_more_groups"
   ],
   "note": "Full characterisation by existence of a group and a role."
  },
  {
   "property": "C33",
   "status": "proved",
   "theorems": [
    "C33_print_parse",
    "C33_parse_exact",
    "C33_print_injective"
   ],
   "note": "Round trip, exact language of the parser with an independent definition of decimal numerals, injectivity of printing."
  },
  {
   "property": "C34",
   "status": "proved",
   "theorems": [
    "C34_authorize",
    "C34_principal_supplier",
    "C34_user_roles"
   ],
   "note": "Exact for every supplier, principal and handler; also with the roles of users."
  },
  {
   "property": "C35",
   "status": "proved",
   "theorems": [
    "C35_cache_live_keys"
   ],
   "note": "Exact: after any history of calls the cache contains precisely the live keys."
  },
  {
   "property": "C36",
   "status": "proved",
   "theorems": [
    "C36_fresh_nonce",
    "C36_events_unique",
    "C36_single_use"
   ],
   "note": "Equivalence with a separate event specification for all sequential histories; the specification has one solution; single use follows."
  },
  {
   "property": "C37",
   "status": "partial",
   "theorems": [
    "C37_concurrent_refuted",
    "C37_issued_partial",
    "C37_atomic_partial"
   ],
   "note": "False: two requests can check before either removes. Proved: only issued, unexpired nonces pass in any schedule; single use when check and removal are not separated."
  },
  {
   "property": "C38",
   "status": "proved",
   "theorems": [
    "C38_nonce_encoding",
    "C38_nonce_injective"
   ],
   "note": "Length, alphabet and decodability."
  },
  {
   "property": "C39",
   "status": "partial",
   "theorems": [
    "C39_cross_origin_partial",
    "C39_odd_port_refuted"
   ],
   "note": "False only for an ill-formed origin that repeats the port of an absolute URL. Proved for all configurations, handlers and requests without such ports whose URL scheme is empty or one of the web. Letter case and white space outside ASCII are not modelled."
  },
  {
   "property": "C40",
   "status": "partial",
   "theorems": [
    "C40_refused_refuted",
    "C40_effect_refuted"
   ],
   "note": "False for every handler: the check comes after the handler, so a refused request has all its effects. General statement and a case."
  },
  {
   "property": "C41",
   "status": "partial",
   "theorems": [
    "C41_origin_form_refuted",
    "C41_port_refuted",
    "C41_default_port_refuted",
    "C41_absolute_partial"
   ],
   "note": "False for every request whose line has no absolute URL (all browser requests), for ports other than the default one, and for an origin that leaves the default port out while the URL has it. Proved for the remaining absolute URLs."
  },
  {
   "property": "C42",
   "status": "partial",
   "theorems": [
    "C42_vary_partial",
    "C42_star_partial",
    "C42_others_partial",
    "C42_spelling_refuted"
   ],
   "note": "False when the handler wrote the header in another letter case (one value is lost, depending on the iteration order). Proved for the key Vary, all values and names."
  },
  {
   "property": "C43",
   "status": "partial",
   "theorems": [
    "C43_security_partial",
    "C43_deny_refuted",
    "C43_frame_option_refuted",
    "C43_nil_refuted"
   ],
   "note": "False: Deny and SameOrigin have no effect of their own, so that Deny alone sends an empty header; a nil response is a panic. Proved for all histories of requests, with the texts cached from request to request. The unsynchronised writing of the cached text by concurrent requests is not modelled."
  },
  {
   "property": "C44",
   "status": "partial",
   "theorems": [
    "C44_odd_names_partial",
    "C44_sent_partial",
    "C44_invalid_status_partial",
    "C44_informational_refuted",
    "C44_spelling_refuted",
    "C44_set_cookie_refuted"
   ],
   "note": "False in three cases: a status from 100 to 199 (net/http of Go 1.19 sends it as informational, the final status is 200), a header name under two spellings (the iteration order decides), a custom Set-Cookie header (cookies lost). Proved for all iteration orders for a status from 200 to 999 and one spelling per name; an invalid status writes nothing and reports an error. C44_odd_names_partial: names with a space are not brought into one spelling."
  },
  {
   "property": "C45",
   "status": "partial",
   "theorems": [
    "C45_redirect_refuted",
    "C45_redirect_ignores_refuted",
    "C45_redirect_partial"
   ],
   "note": "False: Write uses only status and URL, for every redirect. Proved: status and Location are sent, and headers that are already on the writer."
  },
  {
   "property": "C46",
   "status": "partial",
   "theorems": [
    "C46_cookies_refuted",
    "C46_cookies_partial"
   ],
   "note": "False: the key joins name, path and domain with colons, so two different cookies can collide. Proved for all sequences of Add calls when names and domains have no colon (paths may have)."
  },
  {
   "property": "C47",
   "status": "partial",
   "theorems": [
    "C47_line_break_refuted",
    "C47_no_data_refuted",
    "C47_stream_partial"
   ],
   "note": "False: line breaks in a field split an event; an event without data is not delivered by a conforming client. Proved against a separate event stream reader for all sequences of events without line breaks."
  },
  {
   "property": "C48",
   "status": "partial",
   "theorems": [
    "C48_no_cache_refuted",
    "C48_custom_partial"
   ],
   "note": "False for every event stream without a custom Cache-Control: the header is set after the status has been sent. Proved: a custom one is sent."
  },
  {
   "property": "C49",
   "status": "partial",
   "theorems": [
    "C49_compress_refuted",
    "C49_preference_refuted",
    "C49_listed_partial",
    "C49_exact_partial",
    "C49_label_partial"
   ],
   "note": "False: compress is answered with gzip; a weighted gzip loses against deflate. Proved: the used encoding is listed unless compress is, exact without weights, and Content-Encoding names it. Letter case outside ASCII is not modelled."
  },
  {
   "property": "C50",
   "status": "proved",
   "theorems": [
    "C50_known_state",
    "C50_flow_starts",
    "C50_state_issued"
   ],
   "note": "For all histories: the handler runs exactly for callbacks in order whose fetches succeed, with that token and user."
  },
  {
   "property": "C51",
   "status": "partial",
   "theorems": [
    "C51_state_once_refuted"
   ],
   "note": "False: the state stays valid until it expires; witness of two callbacks."
  },
  {
   "property": "C52",
   "status": "proved",
   "theorems": [
    "C52_unique_id",
    "C52_unique_id_all"
   ],
   "note": "Length and alphabet, and every text of the alphabet is reached."
  },
  {
   "property": "C53",
   "status": "proved",
   "theorems": [
    "C53_own_entries",
    "C53_entries_exist"
   ],
   "note": "Proved for all programs that do not use a map after a response with it was written (a case shows that the rule is needed), in all schedules. Cookies are values here; a program that changes a cookie object after adding it is left out, as are responses and maps shared between goroutines."
  },
  {
   "property": "C54",
   "status": "partial",
   "theorems": [
    "C54_headers_refuted",
    "C54_cookies_refuted",
    "C54_nil_refuted",
    "C54_headers_partial",
    "C54_cookies_partial"
   ],
   "note": "False exactly for the hijack response and a compressed nil. Proved for all others, also under any number of compressions: the header is set and nothing else changes."
  },
  {
   "property": "C55",
   "status": "partial",
   "theorems": [
    "C55_body_partial",
    "C55_message_refuted",
    "C55_message_partial"
   ],
   "note": "False for every message that begins with a byte above 127. Proved for messages that begin with an ASCII character, up to the JSON body that the client gets."
  },
  {
   "property": "C56",
   "status": "proved",
   "theorems": [
    "C56_implies_reflexive",
    "C56_implies_transitive"
   ],
   "note": "Reflexive and transitive for all permissions."
  },
  {
   "property": "C57",
   "status": "proved",
   "theorems": [
    "C57_all_permissions"
   ],
   "note": "Exact characterisation."
  },
  {
   "property": "C59",
   "status": "partial",
   "theorems": [
    "C59_context_path_refuted",
    "C59_context_path_assets_partial"
   ],
   "note": "Refuted: handlers ignore the context path. Partial: static resources."
  },
  {
   "property": "C58",
   "status": "partial",
   "theorems": [
    "C58_form_parameter_refuted",
    "C58_form_refused_always_refuted",
    "C58_parsed_form_partial"
   ],
   "note": "False: the form is never parsed before the middleware reads it. Proved: passes if it has been parsed."
  },
  {
   "property": "C60",
   "status": "partial",
   "theorems": [
    "C60_answers_refuted",
    "C60_user_answers_refuted",
    "C60_panics_partial"
   ],
   "note": "False: answers without the expected texts make the type assertions panic. Proved: these are the only answers for which the providers panic."
  },
  {
   "property": "C61",
   "status": "partial",
   "theorems": [
    "C61_user_scope_refuted",
    "C61_user_scope_github_partial",
    "C61_user_scope_google_partial"
   ],
   "note": "False for GitHub without own scopes. Proved for GitHub with own scopes and for Google."
  },
  {
   "property": "C62",
   "status": "proved",
   "theorems": [
    "C62_initiate_urls",
    "C62_github_options",
    "C62_google_options"
   ],
   "note": "Round trip for all byte strings."
  },
  {
   "property": "C63",
   "status": "partial",
   "theorems": [
    "C63_redirect_refuted",
    "C63_redirect_partial"
   ],
   "note": "False for an empty base path below a prefix ending in a slash. Proved for every non-empty base path."
  },
  {
   "property": "C64",
   "status": "partial",
   "theorems": [
    "C64_compression_partial",
    "C64_twice_refuted",
    "C64_own_encoding_refuted"
   ],
   "note": "False for two compression layers (one label) and for a custom Content-Encoding. Proved for every compressor whose output decodes to its input, all response kinds with own fields, all levels and requests. What the codings mean in HTTP is C121."
  },
  {
   "property": "C65",
   "status": "partial",
   "theorems": [
    "C65_at_once_partial",
    "C65_held_back_refuted"
   ],
   "note": "False behind compression for every compressor: Flush does not reach the connection. Proved without compression."
  },
  {
   "property": "C66",
   "status": "partial",
   "theorems": [
    "C66_hijack_refuted",
    "C66_http2_refuted",
    "C66_hijack_partial",
    "C66_told"
   ],
   "note": "False behind compression whenever an encoding is chosen, and over HTTP/2: the callback gets an error instead of the connection. Proved without compression (HTTP/1.x), and in all cases that the callback is told whether it has the connection."
  },
  {
   "property": "C67",
   "status": "partial",
   "theorems": [
    "C67_length_refuted",
    "C67_length_kept_refuted"
   ],
   "note": "False: a custom Content-Length is sent unchanged with a compressed body. General statement that the header is kept, and a case in which the lengths differ."
  },
  {
   "property": "C68",
   "status": "proved",
   "theorems": [
    "C68_adaptor"
   ],
   "note": "Proved for all adapted handlers as sequences of header changes, statuses, writes and flushes."
  },
  {
   "property": "C69",
   "status": "proved",
   "theorems": [
    "C69_body"
   ],
   "note": "Proved for all response kinds with own fields and a status that allows a body."
  },
  {
   "property": "C70",
   "status": "partial",
   "theorems": [
    "C70_allowed_partial",
    "C70_bare_post_refuted",
    "C70_exact_partial",
    "C70_browser_partial"
   ],
   "note": "False for every POST without a media type. Proved exactly for all other requests, with any text as origin: the answer is given if and only if the text is an origin (a form stated byte by byte, browser origins are among them), and origin, method and headers are allowed. Left out are URLs with other schemes and ill-formed ports, as in C39."
  },
  {
   "property": "C71",
   "status": "partial",
   "theorems": [
    "C71_any_origin_refuted",
    "C71_named_partial"
   ],
   "note": "False whenever any origin is allowed. Proved for listed origins."
  },
  {
   "property": "C72",
   "status": "proved",
   "theorems": [
    "C72_vary"
   ],
   "note": "Proved for all handlers and requests, for the header key Vary (see C42 for other spellings)."
  },
  {
   "property": "C73",
   "status": "proved",
   "theorems": [
    "C73_announced"
   ],
   "note": "Proved for all handlers and requests."
  },
  {
   "property": "C74",
   "status": "proved",
   "theorems": [
    "C74_kept"
   ],
   "note": "Proved for all handlers and requests."
  },
  {
   "property": "C75",
   "status": "proved",
   "theorems": [
    "C75_no_origin",
    "C75_exact"
   ],
   "note": "Proved for all configurations, requests and handlers, and exactly: the accepted texts are stated byte by byte. The refusal comes after the handler (C40)."
  },
  {
   "property": "C76",
   "status": "partial",
   "theorems": [
    "C76_events_refuted",
    "C76_compressed_refuted",
    "C76_lost_body_partial"
   ],
   "note": "False for event streams (every such stream ends without an error) and behind compression, where the error appears when the compressor is closed and is dropped. Proved for the other kinds."
  },
  {
   "property": "C77",
   "status": "proved",
   "theorems": [
    "C77_adapted"
   ],
   "note": "Proved for handlers as lists of calls on the response writer, without compression. The headers are the subject of C68."
  },
  {
   "property": "C78",
   "status": "partial",
   "theorems": [
    "C78_guard_refuted",
    "C78_guard_partial",
    "C78_same_partial"
   ],
   "note": "False: static resources and debug pages are registered without the common middlewares, so they are answered without the guard. Proved for programs without the two, and for all programs that nothing depends on the handlers of the program."
  },
  {
   "property": "C79",
   "status": "partial",
   "theorems": [
    "C79_security_refuted",
    "C79_security_partial"
   ],
   "note": "False for unknown paths (404), handlers that return an error (500) and static resources, for every configuration. Proved for every response that is written, with standard fields, a valid status and no header in two spellings."
  },
  {
   "property": "C80",
   "status": "partial",
   "theorems": [
    "C80_cors_refuted",
    "C80_cors_partial"
   ],
   "note": "False for preflight requests: they get 404 unless the program registers a handler for OPTIONS. Proved for programs without static resources and debug endpoints (which pass CORS by, C78) that a response is written only if allowed, and names the origin."
  },
  {
   "property": "C81",
   "status": "partial",
   "theorems": [
    "C81_static_refuted",
    "C81_static_partial"
   ],
   "note": "False: a router that ignores letter case finds the route but the prefix is cut off literally, so the client gets 404; so for doubled slashes and dots; and the directory itself has no route. Proved for literal mapping paths, routers that do not ignore case, and requests that no other route reads as specifically."
  },
  {
   "property": "C82",
   "status": "partial",
   "theorems": [
    "C82_debug_refuted",
    "C82_debug_partial"
   ],
   "note": "False below a path prefix: there every profile endpoint shows the list, because the standard library handler cuts a fixed prefix. Proved for the first mux, whatever else is registered, under the restrictions of C12."
  },
  {
   "property": "C83",
   "status": "partial",
   "theorems": [
    "C83_called_partial",
    "C83_called_refuted"
   ],
   "note": "False: after /{b:a}/q is registered, /{x:{b:a}}/r answers /a/r, which no registration reads. Proved from the program's calls to the client's answer, for programs whose registrations succeed, with the restrictions of C10 on patterns and of C26 on repeated prefixes."
  },
  {
   "property": "C84",
   "status": "partial",
   "theorems": [
    "C84_answered_partial",
    "C84_answered_refuted"
   ],
   "note": "False: /a*/{z} answers /abc/x although /ab*/x is more specific. Proved from the program's calls to the client's answer, with the restrictions of C12 on patterns and requests."
  },
  {
   "property": "C85",
   "status": "partial",
   "theorems": [
    "C85_exact_partial",
    "C85_exact_refuted"
   ],
   "note": "False: a registered path of 20 literals is never answered by its handler; the handler of / answers if there is one. Proved from the program's calls to the client's answer for up to 19 segments, with the restrictions of C12 on the other patterns."
  },
  {
   "property": "C86",
   "status": "partial",
   "theorems": [
    "C86_payload_partial",
    "C86_payload_refuted"
   ],
   "note": "False for the statuses 204 and 304, which have no body. Proved for payloads made of nil, booleans, integers, strings, slices, maps with string keys and structs without tags, statuses with a body and headers under one spelling. Missing: floats, tags and values with their own encoding."
  },
  {
   "property": "C87",
   "status": "proved",
   "theorems": [
    "C87_error_body"
   ],
   "note": "Proved from the error of the handler to the bytes the client gets, for every error with a message."
  },
  {
   "property": "C88",
   "status": "partial",
   "theorems": [
    "C88_stack_refuted",
    "C88_stack_partial"
   ],
   "note": "False if ErrJsonResponse is outside of PanicRecover. Proved for PanicRecover outside of ErrJsonResponse."
  },
  {
   "property": "C89",
   "status": "partial",
   "theorems": [
    "C89_dump_partial",
    "C89_before_refuted",
    "C89_failed_refuted"
   ],
   "note": "False of failed handlers (nothing is logged) and of headers that the handler changes (the changed header is logged). Proved for handlers that give a response and leave header and form alone."
  },
  {
   "property": "C90",
   "status": "proved",
   "theorems": [
    "C90_one_line"
   ],
   "note": "Proved for all handlers, requests and responses."
  },
  {
   "property": "C91",
   "status": "partial",
   "theorems": [
    "C91_transparent_partial",
    "C91_nil_refuted"
   ],
   "note": "False of nil responses (panic). Proved for all others."
  },
  {
   "property": "C92",
   "status": "partial",
   "theorems": [
    "C92_crash_refuted",
    "C92_read_refuted",
    "C92_exactly_partial",
    "C92_alone_partial",
    "C92_forged_partial",
    "C92_one_step_partial",
    "C92_issued_partial"
   ],
   "note": "False: any two visits can end the process. Proved: exactly when this happens; never when calls on the cache do not overlap or all requests carry unknown nonces; while the process lives, the calls are like single steps."
  },
  {
   "property": "C93",
   "status": "partial",
   "theorems": [
    "C93_expired_refuted",
    "C93_entries_partial"
   ],
   "note": "False: n visits leave n entries that stay when all have expired. Proved: which entries the cache has after any history."
  },
  {
   "property": "C94",
   "status": "partial",
   "theorems": [
    "C94_visitor_refuted"
   ],
   "note": "False for every way of telling visitors apart, whenever the nonce has not expired."
  },
  {
   "property": "C95",
   "status": "partial",
   "theorems": [
    "C95_visitor_refuted"
   ],
   "note": "False for every way of telling visitors apart, whenever the state has not expired."
  },
  {
   "property": "C96",
   "status": "partial",
   "theorems": [
    "C96_provider_refuted"
   ],
   "note": "False for any two providers, whenever the state has not expired."
  },
  {
   "property": "C97",
   "status": "partial",
   "theorems": [
    "C97_length_first_refuted",
    "C97_address_first_partial",
    "C97_alone_partial"
   ],
   "note": "False if the compiler writes the length of a string before its address. Proved for the other order, and for requests on their own."
  },
  {
   "property": "C98",
   "status": "partial",
   "theorems": [
    "C98_redirect_refuted",
    "C98_carried_partial"
   ],
   "note": "False for GitHub: no redirect URL, grant or content type is ever sent. Proved: what both providers send, read back by a separate decoder of forms and a separate definition of JSON."
  },
  {
   "property": "C99",
   "status": "proved",
   "theorems": [
    "C99_bearer"
   ],
   "note": "Proved for both providers; headers that net/http adds are not modelled."
  },
  {
   "property": "C100",
   "status": "partial",
   "theorems": [
    "C100_scope_refuted",
    "C100_fields_partial"
   ],
   "note": "False: an empty scope text becomes one empty scope. Proved: exactly which answers lead to a token, and which one."
  },
  {
   "property": "C101",
   "status": "partial",
   "theorems": [
    "C101_accounts_refuted",
    "C101_providers_refuted",
    "C101_named_partial"
   ],
   "note": "False: all accounts with an empty email have the empty identity, and an email at one provider is the identity at the other. Proved: exactly which answers name which user."
  },
  {
   "property": "C102",
   "status": "partial",
   "theorems": [
    "C102_bytes_partial",
    "C102_exchanged_partial",
    "C102_answers_partial"
   ],
   "note": "Partial: the transport is an arbitrary function from requests to a status and a body (C102_bytes_partial) or an answer; redirects and timeouts are not modelled, nor other providers."
  },
  {
   "property": "C103",
   "status": "proved",
   "theorems": [
    "C103_order",
    "C103_left",
    "C103_over"
   ],
   "note": "Proved for all generators and schedules."
  },
  {
   "property": "C104",
   "status": "partial",
   "theorems": [
    "C104_mute_refuted",
    "C104_leak_refuted",
    "C104_next_partial",
    "C104_polite_partial",
    "C104_open_partial"
   ],
   "note": "False: a generator that gives nothing keeps the request for ever, and the goroutine of the example can stay at its send for ever. Proved: one more event or the end of the channel ends the request; with a generator that gives up sending, all can end."
  },
  {
   "property": "C105",
   "status": "partial",
   "theorems": [
    "C105_crash_refuted",
    "C105_lives_partial"
   ],
   "note": "False: Last-Event-Id: -1 and all negative numbers that are no multiples of ten. Proved: the process goes on without negative numbers."
  },
  {
   "property": "C106",
   "status": "partial",
   "theorems": [
    "C106_shared_refuted",
    "C106_lost_refuted",
    "C106_repeated_refuted",
    "C106_one_client_partial"
   ],
   "note": "False in three ways. Proved for a client on its own that is never late by the size of the buffer, with any number of reconnections."
  },
  {
   "property": "C107",
   "status": "partial",
   "theorems": [
    "C107_silenced_refuted"
   ],
   "note": "False for every number above those of the events so far."
  },
  {
   "property": "C108",
   "status": "partial",
   "theorems": [
    "C108_starts_partial",
    "C108_pages_partial",
    "C108_long_refuted"
   ],
   "note": "False for paths with more than 19 segments: they get the index page. Proved for all other requests. The registration of /text/* is never used, because /text/{plain} is preferred to it."
  },
  {
   "property": "C109",
   "status": "proved",
   "theorems": [
    "C109_json",
    "C109_text"
   ],
   "note": "Proved."
  },
  {
   "property": "C110",
   "status": "proved",
   "theorems": [
    "C110_permission"
   ],
   "note": "Proved."
  },
  {
   "property": "C111",
   "status": "proved",
   "theorems": [
    "C111_fails"
   ],
   "note": "Proved, with what happens for panic(nil). The case shows that a missing file is told to clients with its path."
  },
  {
   "property": "C112",
   "status": "partial",
   "theorems": [
    "C112_template_refuted",
    "C112_template_partial",
    "C112_index_partial"
   ],
   "note": "False for every template that fails. Proved for templates that work, including the index page."
  },
  {
   "property": "C113",
   "status": "partial",
   "theorems": [
    "C113_download_partial",
    "C113_cut_refuted"
   ],
   "note": "False if reading fails: status 200 and a part of the file. Proved for files that can be read and files that cannot be opened."
  },
  {
   "property": "C114",
   "status": "partial",
   "theorems": [
    "C114_open_refuted"
   ],
   "note": "False for every download of a file that can be opened."
  },
  {
   "property": "C115",
   "status": "partial",
   "theorems": [
    "C115_narrowest_refuted",
    "C115_narrowest_partial"
   ],
   "note": "False: /{x}/* is chosen although /*/a matches and accepts fewer requests. Proved for routes of literal texts, a final ** and either variables or *, with the restrictions of C11."
  },
  {
   "property": "C116",
   "status": "partial",
   "theorems": [
    "C116_inner_refuted",
    "C116_inner_partial"
   ],
   "note": "False with two **: /**/a/** has a higher priority than /**/a/a, because all digits go to the last **. Proved for at most one ** in each pattern, anywhere."
  },
  {
   "property": "C117",
   "status": "proved",
   "theorems": [
    "C117_strict_order"
   ],
   "note": "Proved."
  },
  {
   "property": "C118",
   "status": "partial",
   "theorems": [
    "C118_start_partial",
    "C118_return_partial",
    "C118_flow_partial",
    "C118_prefix_refuted"
   ],
   "note": "False below a prefix with a variable: the redirect URL contains the text of the variable. Partial because the paths of the two endpoints must be plain segments, the base path must not be empty, nothing more specific may read the path of the callback, and the choice must be clear as in C85; query parameters, time and random numbers are given by the environment."
  },
  {
   "property": "C119",
   "status": "partial",
   "theorems": [
    "C119_login_partial",
    "C119_visitor_partial",
    "C119_start_refused",
    "C119_return_refused",
    "C119_scope_refuted"
   ],
   "note": "False for the scope: the GitHub provider of the example has no scopes of its own, so no scope is asked for. Proved apart from that: the redirect, the way back to any handler, the JSON that the handler of the example answers, and the refusals."
  },
  {
   "property": "C120",
   "status": "partial",
   "theorems": [
    "C120_next_state_refuted",
    "C120_first_states_partial"
   ],
   "note": "False: 51 states in a row leave 4096 texts for each of the next 22 states. Proved: the first 50 states can be any texts. The generator is the one of Go 1.19; later toolchains replace it."
  },
  {
   "property": "C121",
   "status": "partial",
   "theorems": [
    "C121_deflate_refuted",
    "C121_stored_partial"
   ],
   "note": "False for the coding deflate at every level: the answer is raw flate data and not in the zlib format, so such clients get nothing. Proved at level 0: every other answer is read, and one in deflate is read by clients that do without the zlib format. Other levels of compress/flate are not modelled; of them the refutation uses only how their first byte is made."
  },
  {
   "property": "C122",
   "status": "partial",
   "theorems": [
    "C122_wrapped_refuted",
    "C122_direct_partial"
   ],
   "note": "False: every wrapped error, and every pointer to one of the structs, is answered with 500. Proved: errors that are not wrapped keep their documented status, and all others get 500."
  },
  {
   "property": "C123",
   "status": "partial",
   "theorems": [
    "C123_answered_refuted",
    "C123_nothing_refuted",
    "C123_answered_partial",
    "C123_response_partial"
   ],
   "note": "False for errors without a message, such as NewBadRequest(nil): ErrJsonResponse panics, and the connection ends without an answer when ErrJsonResponse is outside PanicRecover, or there is a bare 500 in the other order. Proved for all errors with a message, also of JsonErrorHttpResponse. A panic with nil and a handler that returns nothing end without an answer as well (C123_nothing_refuted)."
  },
  {
   "property": "C124",
   "status": "proved",
   "theorems": [
    "C124_opened",
    "C124_programs"
   ],
   "note": "The directory is left only if the operating system leads out of it, for example by links: the claim is about the text of the paths given to it."
  },
  {
   "property": "C125",
   "status": "partial",
   "theorems": [
    "C125_index_refuted",
    "C125_sent_partial",
    "C125_page_partial",
    "C125_paths_partial",
    "C125_served_partial"
   ],
   "note": "False: index.html of the directory itself cannot be fetched; its path is redirected to the directory, which has no route. Proved: the file server sends every file with another name, and index.html of directories below for the path of the directory; paths with a slash too much or too few are redirected, and files that cannot be opened give the status of the error. Composed with C81: in a program the client gets the file, the redirect or the error for the path of a name (C125_served_partial)."
  },
  {
   "property": "C126",
   "status": "partial",
   "theorems": [
    "C126_names_refuted",
    "C126_escaped"
   ],
   "note": "False: for every directory without index.html below the one of the assets the answer shows the names of its entries. Proved: nothing else is shown, and names are escaped whatever they are. The directory itself is not shown, since it has no route (C81)."
  },
  {
   "property": "C127",
   "status": "partial",
   "theorems": [
    "C127_recover_refuted",
    "C127_crash",
    "C127_recover_partial"
   ],
   "note": "False: responses are written after all middlewares have returned, so panics of adapted net/http handlers, templates, readers and write functions are not caught (C127_crash: in every program, whatever the middlewares). Proved: what happens to panics of handlers and of the other middlewares, and that a crash otherwise comes from routing, panic(nil), a nil response or the writing."
  },
  {
   "property": "C128",
   "status": "partial",
   "theorems": [
    "C128_template_refuted",
    "C128_nil_refuted",
    "C128_made_partial",
    "C128_html_partial",
    "C128_redirects"
   ],
   "note": "False for templates: a template whose type is not the one of html/template (as the nil template of the package) is sent as text/plain by the functions for HTML templates. Proved for all other functions, for html/template and for redirects; missing are custom headers with one name in two spellings, statuses without bodies and event streams without HTTP/2 (C44, C48)."
  },
  {
   "property": "C129",
   "status": "proved",
   "theorems": [
    "C129_configured",
    "C129_default",
    "C129_templates"
   ],
   "note": "Proved."
  },
  {
   "property": "C130",
   "status": "partial",
   "theorems": [
    "C130_copy_refuted",
    "C130_copy_partial"
   ],
   "note": "False: the copy has the pointer to the resources of the mux; what is written there is what ExecutableTemplate returns, for any mux with resources. Proved: writing the fields of the copy changes no mux."
  },
  {
   "property": "C131",
   "status": "partial",
   "theorems": [
    "C131_error_refuted",
    "C131_error_partial"
   ],
   "note": "False: NewMuxHandlerWithDefaultConfigAndTemplateSupport ends the process (log.Fatalf) whenever the default templates cannot be parsed. Proved: NewMuxHandler returns an error (and which) exactly if it has to parse templates and cannot, and never ends the process."
  },
  {
   "property": "C132",
   "status": "partial",
   "theorems": [
    "C132_template_refuted",
    "C132_template_partial"
   ],
   "note": "False: the mux of the default configuration returns nil, and a response made of it is accepted and panics when it is written, which no middleware catches (C127). Proved: with resources there is a template."
  },
  {
   "property": "C133",
   "status": "partial",
   "theorems": [
    "C133_user_refuted",
    "C133_user_partial"
   ],
   "note": "False for texts that are no UTF-8: two users whose permissions differ in such a byte have the same JSON text. Proved: the JSON shows everything, and determines the user among those with texts in UTF-8; attachments and empty slices that are not nil are left out."
  },
  {
   "property": "C134",
   "status": "partial",
   "theorems": [
    "C134_later_refuted",
    "C134_later_partial",
    "C134_matches_partial"
   ],
   "note": "False: /a/b/c takes the request /a/b away from /a/{x}, and the client gets 404. Proved: a registration no beginning of which reads the whole request changes nothing, and more generally the routes that read a request decide about it alone, under the hypotheses of C13."
  },
  {
   "property": "C135",
   "status": "partial",
   "theorems": [
    "C135_leads_partial",
    "C135_absolute_partial",
    "C135_rooted_partial",
    "C135_user_partial",
    "C135_login_partial",
    "C135_query_refuted",
    "C135_dot_refuted"
   ],
   "note": "False for every redirect to a query from a page whose path does not end in a slash, and for every redirect to the dot below the root. Other failing forms are in the case: an empty URL, dots at the end, double slashes, dots in a fragment with slashes, request paths with an escaped question mark. Partial: URLs of printable ASCII with a scheme or a host, or with a path without double slashes and dots at its end and without slash in a fragment; request paths without escapes. A reference to a path is made a path from the root exactly if it can be read as a URL (C135_rooted_partial, all bytes), and one with a user but no host exactly if the user is written as RFC 3986 allows (C135_user_partial, printable ASCII without escapes). URLs with a scheme are sent unchanged for every request path, and so are those with which logins at GitHub and Google begin."
  },
  {
   "property": "C136",
   "status": "partial",
   "theorems": [
    "C136_host_refuted",
    "C136_site_partial"
   ],
   "note": "False for every request path that begins with a slash and a backslash, or with a tab between two slashes, then a host: a redirect to a plain name leads to that host. Partial: no backslash and no control character in the path of the request and in the URL."
  },
  {
   "property": "C137",
   "status": "proved",
   "theorems": [
    "C137_page",
    "C137_none"
   ],
   "note": "A page is one link; the reason text of the status is any text. Bytes outside of ASCII stand in the link as they are and in the header as percent escapes; a browser reads a link that is not UTF-8 with replacement characters."
  },
  {
   "property": "C138",
   "status": "partial",
   "theorems": [
    "C138_sent_partial",
    "C138_name_refuted"
   ],
   "note": "False for every cookie whose name is not a token: it is not sent and no error is reported. Partial: cookies with token names, under the conditions of C44."
  },
  {
   "property": "C139",
   "status": "partial",
   "theorems": [
    "C139_value_partial",
    "C139_same_partial",
    "C139_response_partial",
    "C139_value_refuted"
   ],
   "note": "False for every value with a byte that a value must not have: it comes back shorter. Partial: token names; without such bytes the values come back unchanged. The browser keeps all cookies; replacing, expiry and matching by path and domain are not modelled."
  },
  {
   "property": "C140",
   "status": "proved",
   "theorems": [
    "C140_attributes",
    "C140_line"
   ],
   "note": "http.Cookie.String of the standard library is modelled from its source; the browser reads as RFC 6265 says. Names of attributes are compared as they are written."
  },
  {
   "property": "C141",
   "status": "partial",
   "theorems": [
    "C141_lost_refuted",
    "C141_full_partial",
    "C141_most_partial",
    "C141_after_partial"
   ],
   "note": "False: with spare capacity the array that requests read is sorted in place, and the child that comes last is missing for requests that had loaded the children before; a request that only it answers goes unanswered (C141_lost_refuted). Partial: the root of the tree, new routes with one piece, requests with one segment, children in strict order; then nothing but the last child can be missing, and nothing is when the array is full or the new child comes last. Sorting and the loading of a slice are single steps, and all goroutines see writes in order."
  },
  {
   "property": "C142",
   "status": "proved",
   "theorems": [
    "C142_read",
    "C142_logged"
   ],
   "note": "Request.Cookies and Cookie.String of the standard library (Go 1.19) are modelled from their source. Texts that are no cookies are left out of the list, as the statement says; requests whose handlers fail are not logged at all (C89_failed_refuted)."
  },
  {
   "property": "C143",
   "status": "partial",
   "theorems": [
    "C143_crash_refuted",
    "C143_two_refuted",
    "C143_lost_refuted",
    "C143_exactly_partial",
    "C143_known_partial",
    "C143_order_partial"
   ],
   "note": "False: the map from methods to trees has no lock. A request during the registration of the first route of a method ends the process (C143_crash_refuted), so do two such registrations (C143_two_refuted), and of two registrations for the same new method one can be lost although both return no error (C143_lost_refuted). Partial: exactly when the process ends; never when the methods have routes already; and without two registrations for the same new method an order of the registrations explains all results. AddPattern and Match are single steps here (C141 takes AddPattern apart), all goroutines see writes in order."
  },
  {
   "property": "C144",
   "status": "partial",
   "theorems": [
    "C144_cookies_partial",
    "C144_header_refuted"
   ],
   "note": "False when the headers on the response have a Set-Cookie: the headers are set after the cookies are added, and the cookies are lost (C144_header_refuted). Proved otherwise (C144_cookies_partial)."
  },
  {
   "property": "C145",
   "status": "partial",
   "theorems": [
    "C145_trailing_refuted",
    "C145_null_refuted",
    "C145_read_partial",
    "C145_texts_partial",
    "C145_errors_partial",
    "C145_shown_partial",
    "C145_written_partial"
   ],
   "note": "False in two ways: what follows the object is not looked at (C145_trailing_refuted), and null is taken for an object without members, so that the call panics (C145_null_refuted). Proved: which bodies are read and as what (C145_read_partial, in both directions), JSON texts (C145_texts_partial), errors, that what is shown was in the body, and that what gofre writes is read back. Not modelled: strconv.ParseFloat for numbers that are not whole or beyond 2^53 (an arbitrary function), and errors while the body is read."
  },
  {
   "property": "C146",
   "status": "partial",
   "theorems": [
    "C146_path_refuted",
    "C146_reset_refuted",
    "C146_kept_partial",
    "C146_cut_partial"
   ],
   "note": "False in two ways: PathVar cuts the path that the URL of the request has when it is called, so a middleware that changes R.URL.Path makes PathVar panic for every copy and clone (C146_path_refuted, for every request with a variable), and copies share the array of the segments (C146_reset_refuted). Proved: contexts whose request, segments and bounds nobody touched keep the values, whatever is done with other copies, clones and requests. One goroutine at a time (C23 and C24 have requests that are served together)."
  },
  {
   "property": "C147",
   "status": "proved",
   "theorems": [
    "C147_work",
    "C147_once_refuted",
    "C147_asked"
   ],
   "note": "Counts calls of matchUrlPathSegment, not the steps inside one call (C17 shows that each ends). C147_once_refuted shows that the bound s*p, which is what comparing every piece with every segment once would give, is too small. What is counted cannot be too little as far as regular expressions decide: C147_asked finds among the counted comparisons every question on which the answer of the router depends."
  },
  {
   "property": "C148",
   "status": "proved",
   "theorems": [
    "C148_work",
    "C148_rounds",
    "C148_order",
    "C148_search"
   ],
   "note": "Counts the rounds of the main loop and of the loop that looks for the byte behind a star. The loop over repeated stars is not counted: in accepted patterns it ends in its first round. C148_rounds does not use the counters: the model of the function itself answers within so many rounds. C148_order and C148_search show texts and pieces of all lengths that take a product, so that the order of the bound is right."
  },
  {
   "property": "C149",
   "status": "proved",
   "theorems": [
    "C149_work",
    "C149_counted",
    "C149_summed"
   ],
   "note": "Counts only the rounds inside wildcard comparisons; how often anything is compared is C147. Regular expressions of constrained variables are an external engine and are not counted. C149_counted and C149_summed show that the counter leaves no comparison out, for a route with ** and for two levels of wildcard pieces."
  },
  {
   "property": "C150",
   "status": "proved",
   "theorems": [
    "C150_refused",
    "C150_taken",
    "C150_errors"
   ],
   "note": "What the compressors do with a supported level is C64. The level is checked at each request and not when the middleware is made; the theorem says what follows from that."
  }
 ]
}