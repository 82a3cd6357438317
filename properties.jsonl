{"id": "C01", "title": "A wildcard segment accepts exactly what its wildcards describe", "statement": "When a path segment of a pattern contains ? or *, a request segment is accepted exactly when it can be split so that every ordinary character of the pattern meets itself, every ? meets one character, every inner * meets any run of characters and a final * meets a non-empty run. Whenever the matcher gives an answer, that answer is this one.", "quantifier": "for all pattern segments the parser accepts, for all request segments, case sensitive or not", "why_tests_cant": "The matcher keeps a single back-track point; whether one point is enough for every interleaving of several * is a statement about infinitely many strings.", "anchors": [{"file": "router/path/pattern.go", "symbols": ["regexSegmentMatch", "segment.matchUrlPathSegment"]}]}
{"id": "C02", "title": "Comparing a request segment with a wildcard segment never crashes", "statement": "Serving a request never panics inside the comparison of a request segment with a wildcard segment of a registered pattern.", "quantifier": "for all pattern segments the parser accepts and all request segments", "why_tests_cant": "A crash needs one particular alignment of the back-track point with the end of the request segment; absence of crashes is a claim about all pairs of strings.", "anchors": [{"file": "router/path/pattern.go", "symbols": ["regexSegmentMatch"]}]}
{"id": "C03", "title": "A * inside a segment matches any number of characters", "statement": "As the README says, a * in a segment matches any number of characters, including none, wherever it stands in the segment.", "quantifier": "for all wildcard segments and request segments", "why_tests_cant": "Universal over strings and positions of the star.", "anchors": [{"file": "router/path/pattern.go", "symbols": ["regexSegmentMatch"]}, {"file": "README.md", "symbols": ["Path Pattern Matching"]}]}
{"id": "C04", "title": "Registration accepts exactly the documented pattern grammar", "statement": "A path pattern is accepted exactly when it starts with / and, apart from one optional final /, each piece between slashes is non-empty, has balanced outer braces with a non-empty name and constraint and no colon just before the closing brace, has no two adjacent * unless it is exactly **, no two ** pieces are adjacent, and every constraint is a valid regular expression.", "quantifier": "for all byte strings given as pattern", "why_tests_cant": "The accepted language is infinite; tests sample a few dozen patterns.", "anchors": [{"file": "router/path/pattern.go", "symbols": ["ParsePattern", "validatePathSegment", "determineMatchTypeForSegment"]}]}
{"id": "C05", "title": "A parsed pattern means what was written", "statement": "An accepted pattern consists of the slash separated pieces of the text in order, each classified by its syntax, with the capture name and the constraint text taken verbatim from the braces (with a case-insensitive flag in front when the router ignores case).", "quantifier": "for all accepted patterns with at most 255 pieces", "why_tests_cant": "Universal over pattern texts.", "anchors": [{"file": "router/path/pattern.go", "symbols": ["ParsePattern", "determineMatchTypeForSegment"]}]}
{"id": "C06", "title": "A pattern with many pieces is never confused with a shorter one", "statement": "Registering a pattern with more pieces than the router supports never makes it behave as a different, shorter pattern (for instance as /).", "quantifier": "for all patterns", "why_tests_cant": "Needs patterns of hundreds of pieces, where an 8 bit counter wraps around.", "anchors": [{"file": "router/path/pattern.go", "symbols": ["ParsePattern"]}, {"file": "router/path/matcher.go", "symbols": ["Matcher.AddPattern"]}]}
{"id": "C07", "title": "Request paths are cut into segments as a plain specification says", "statement": "For a request path that starts with /, is shorter than 65536 bytes and never holds more than 19 segments while being read, the segments seen by the router are the non-empty pieces between slashes, with each .. removing the previous segment, and each recorded segment is the exact slice of the path.", "quantifier": "for all request paths in that range", "why_tests_cant": "Universal over paths; interactions of .., empty pieces and end of text are combinatorial.", "anchors": [{"file": "router/path/matching_context.go", "symbols": ["ParseURLPath", "UrlSegment"]}]}
{"id": "C08", "title": "A request path with more than 19 segments is not served", "statement": "A request path with more than 19 segments is answered with 404 and reaches no handler.", "quantifier": "for all routers and all request paths with more than 19 segments", "why_tests_cant": "Depends on which routes are registered; tests fix one router.", "anchors": [{"file": "router/path/matching_context.go", "symbols": ["ParseURLPath"]}, {"file": "router/path/matcher.go", "symbols": ["Matcher.Match"]}, {"file": "router/router.go", "symbols": ["Router.ServeHTTP"]}]}
{"id": "C09", "title": "Reading a request path or a path variable never crashes", "statement": "Parsing a request path and asking for any path variable never panics, whatever the length of the path.", "quantifier": "for all request paths and all variable names", "why_tests_cant": "Offsets are kept in 16 bits, so faults appear only from 64 KiB on; universal over paths.", "anchors": [{"file": "router/path/matching_context.go", "symbols": ["ParseURLPath", "MatchingContext.PathVar"]}, {"file": "router/path/pattern.go", "symbols": ["segment.matchUrlPathSegment"]}]}
{"id": "C10", "title": "A request is only routed to a route that matches it", "statement": "If the router selects a route for a request, that route was registered for the request method and its pattern matches the request path piece by piece: literals equal, constraints satisfied, wildcards matched, ** covering a run of segments.", "quantifier": "for all sequences of registrations and all request paths", "why_tests_cant": "The selection is a back-tracking search over a shared tree; a wrong answer needs particular combinations of patterns, registration order and path.", "anchors": [{"file": "router/path/matcher.go", "symbols": ["Matcher.AddPattern", "Matcher.Match"]}, {"file": "router/path/pattern.go", "symbols": ["segment.matchUrlPathSegment"]}]}
{"id": "C11", "title": "If some registered route matches, the request is routed", "statement": "If at least one route registered for the method matches the request path then the request is routed to some route instead of being answered 404.", "quantifier": "for all sequences of registrations and all request paths", "why_tests_cant": "Completeness of a back-tracking search quantifies over all route sets and all paths.", "anchors": [{"file": "router/path/matcher.go", "symbols": ["Matcher.Match", "Matcher.AddPattern"]}]}
{"id": "C12", "title": "The most specific matching route is chosen", "statement": "Among the routes matching the request, the chosen one is the most specific: comparing pieces from left to right, literal before constrained variable before variable before wildcard text before * before **.", "quantifier": "for all sequences of registrations and all request paths", "why_tests_cant": "Depends on all pairs of patterns and on every path they share.", "anchors": [{"file": "router/path/encode.go", "symbols": ["computePriority"]}, {"file": "router/path/matcher.go", "symbols": ["Matcher.AddPattern", "Matcher.Match"]}]}
{"id": "C13", "title": "The order in which routes are registered does not matter", "statement": "Registering the same routes in any order yields routers that choose the same route for every request.", "quantifier": "for all finite sets of routes, all their permutations and all request paths", "why_tests_cant": "Factorially many orders and infinitely many requests.", "anchors": [{"file": "router/path/matcher.go", "symbols": ["Matcher.AddPattern", "Matcher.Match"]}, {"file": "README.md", "symbols": ["Path Pattern Matching"]}]}
{"id": "C14", "title": "Two routes with the same meaning cannot both be registered", "statement": "Registering a second route for the same method whose pattern differs from an earlier one only in variable names (or in letter case for a case-insensitive router) is refused, and two patterns that differ otherwise are both accepted.", "quantifier": "for all sequences of registrations", "why_tests_cant": "Needs all pairs of patterns in all tree contexts.", "anchors": [{"file": "router/path/matcher.go", "symbols": ["Matcher.AddPattern"]}, {"file": "router/router.go", "symbols": ["Router.Handle"]}]}
{"id": "C15", "title": "A refused registration changes nothing", "statement": "When a duplicate registration is refused and the program survives the panic, the router answers every later request and registration as if the refused call had not happened.", "quantifier": "for all routers, refused patterns and later requests", "why_tests_cant": "The tree is mutated before the duplicate is detected; equality of all later behaviours is universal.", "anchors": [{"file": "router/path/matcher.go", "symbols": ["Matcher.AddPattern"]}, {"file": "router/router.go", "symbols": ["Router.Handle"]}]}
{"id": "C16", "title": "A path variable holds exactly the text of its segment", "statement": "Inside the chosen handler, asking for a variable of the chosen route returns the text of the request segment standing at that variable (the first one when the name is repeated), and asking for any other name returns the empty text.", "quantifier": "for all registrations, all request paths shorter than 65536 bytes and all names", "why_tests_cant": "The match types are written during a search that back-tracks; stale marks show up only for particular trees and paths.", "anchors": [{"file": "router/path/matching_context.go", "symbols": ["MatchingContext.PathVar"]}, {"file": "router/path/matcher.go", "symbols": ["Matcher.Match"]}]}
{"id": "C17", "title": "Choosing a route always ends", "statement": "The search for a route ends for every router and every request path.", "quantifier": "for all registrations and all request paths", "why_tests_cant": "Termination cannot be tested.", "anchors": [{"file": "router/path/matcher.go", "symbols": ["Matcher.Match"]}]}
{"id": "C18", "title": "Choosing a route never runs out of its stack", "statement": "The search for a route never panics by leaving its 19 entry stacks.", "quantifier": "for all registrations and all request paths", "why_tests_cant": "Needs patterns and paths at the limit of 19 and a ** that covers nothing.", "anchors": [{"file": "router/path/matcher.go", "symbols": ["Matcher.Match"]}]}
{"id": "C19", "title": "Registering a route always ends", "statement": "Registering an accepted pattern always returns.", "quantifier": "for all patterns", "why_tests_cant": "Termination cannot be tested.", "anchors": [{"file": "router/path/encode.go", "symbols": ["computePriority", "getDecimalDivider"]}, {"file": "router/path/pattern.go", "symbols": ["ParsePattern"]}]}
{"id": "C20", "title": "The numeric rank of a pattern is the left to right comparison of its pieces", "statement": "For patterns of at most 19 pieces in which ** can only be last, the rank of one pattern is below the rank of another exactly when, reading both left to right, the first different piece is of a more specific kind, a pattern that ends first counting as more specific and a final ** counting as ** forever.", "quantifier": "for all pairs of such patterns", "why_tests_cant": "Universal over pairs of patterns of any shape.", "anchors": [{"file": "router/path/encode.go", "symbols": ["computePriority", "getDecimalDivider"]}, {"file": "router/path/pattern.go", "symbols": ["Pattern.HighPriorityThan"]}]}
{"id": "C21", "title": "Methods are independent", "statement": "Registering a route for one method never changes how requests of another method are routed, and the case in which a method name is written is irrelevant.", "quantifier": "for all routers, methods and requests", "why_tests_cant": "Universal over routers and methods.", "anchors": [{"file": "router/router.go", "symbols": ["Router.Handle", "Router.ServeHTTP"]}]}
{"id": "C22", "title": "Every request has one of the documented outcomes", "statement": "A request with no matching route is answered 404 and no handler runs; when the handler returns an error the answer is 500, the error is logged once and nothing of the response is written; otherwise exactly the response returned by the handler is written, and a failure to write it is logged once.", "quantifier": "for all routers, requests, handlers and log functions", "why_tests_cant": "Universal over handlers and routers.", "anchors": [{"file": "router/router.go", "symbols": ["Router.ServeHTTP"]}]}
{"id": "C23", "title": "Concurrent requests do not see each other's path variables", "statement": "Whatever the interleaving of requests, a handler whose goroutines use clones always reads the variables of its own request, although the segment buffers are recycled, and there is no data race on the buffers.", "quantifier": "for all numbers of requests and all interleavings", "why_tests_cant": "Races depend on scheduling.", "anchors": [{"file": "router/router.go", "symbols": ["Router.ServeHTTP", "urlPathSegmentsPool"]}, {"file": "router/path/matching_context.go", "symbols": ["MatchingContext"]}]}
{"id": "C24", "title": "A cloned matching context stays valid after the request", "statement": "A clone of the matching context made inside the handler returns the same path variables for ever, whatever requests are served later.", "quantifier": "for all requests and all later activity", "why_tests_cant": "Depends on buffer reuse by later requests.", "anchors": [{"file": "router/path/matching_context.go", "symbols": ["MatchingContext.Clone", "MatchingContext.PathVar"]}, {"file": "router/router.go", "symbols": ["Router.ServeHTTP"]}]}
{"id": "C25", "title": "Path prefixes are joined with exactly one slash", "statement": "A handler registered through nested prefixes is served under the concatenation of the prefixes and the path with exactly one slash at every joint, and an empty path means the prefix itself.", "quantifier": "for all prefixes and paths", "why_tests_cant": "Universal over strings.", "anchors": [{"file": "gofre.go", "symbols": ["MuxHandler.resolvePath", "MuxHandler.RouteUsingPathPrefix", "MuxHandler.HandleRequest"]}]}
{"id": "C26", "title": "Sub-muxes do not share middlewares", "statement": "Middlewares added to a mux obtained by Clone or RouteUsingPathPrefix never apply to handlers registered on any other mux, and the other way round.", "quantifier": "for all sequences of creations, additions and registrations", "why_tests_cant": "Slices may share memory depending on capacity; the claim is about all histories.", "anchors": [{"file": "gofre.go", "symbols": ["MuxHandler.Clone", "MuxHandler.RouteUsingPathPrefix", "MuxHandler.CommonMiddlewares", "MuxHandler.HandleRequest"]}]}
{"id": "C27", "title": "Middlewares run in the documented order", "statement": "For a request, the common middlewares present at registration run first in their order, then the ones of the handler in their order, then the handler, and the return path runs through them in reverse; nil entries are skipped.", "quantifier": "for all lists of middlewares and all handlers", "why_tests_cant": "Universal over lists of functions.", "anchors": [{"file": "gofre.go", "symbols": ["wrapMiddleware", "MuxHandler.HandleRequest"]}]}
{"id": "C28", "title": "A panic below PanicRecover never leaves it", "statement": "With PanicRecover in the chain, a panic raised below it becomes an error, so together with an error translating middleware above it the client gets an HTTP answer.", "quantifier": "for all handlers and panic values", "why_tests_cant": "Universal over handlers and panic values.", "anchors": [{"file": "middleware/panic.go", "symbols": ["PanicRecover"]}, {"file": "middleware/errors.go", "symbols": ["ErrResponse"]}]}
{"id": "C29", "title": "Errors are translated to the documented status codes", "statement": "Bad request errors give 400, not found 404, unauthorized 401, wrong credentials and access denied 403, everything else 500; successful results pass unchanged; ErrResponse never returns an error.", "quantifier": "for all errors and handlers", "why_tests_cant": "Universal over errors and handlers.", "anchors": [{"file": "middleware/errors.go", "symbols": ["Error2HttpStatusCode", "ErrResponse"]}]}
{"id": "C30", "title": "A permission implies exactly what its scope and access describe", "statement": "A permission implies another exactly when it grants every requested access bit and its scope, read level by level with * matching any level and a final * matching all deeper levels, covers the requested scope.", "quantifier": "for all permissions", "why_tests_cant": "Universal over scopes and access masks.", "anchors": [{"file": "auth/auth.go", "symbols": ["Permission.Implies"]}]}
{"id": "C31", "title": "Denied permissions win over allowed ones", "statement": "A role never grants an access bit on a scope for which it holds a denied permission covering that bit and scope, however requests are combined.", "quantifier": "for all roles and requested permissions", "why_tests_cant": "Universal over lists of permissions and masks.", "anchors": [{"file": "auth/auth.go", "symbols": ["Role.HasPermission", "Permission.Implies"]}]}
{"id": "C32", "title": "Roles, groups and users only add grants", "statement": "A user has a permission exactly when some role in some group grants it, and a role exactly when some group has a role of that name.", "quantifier": "for all users, permissions and names", "why_tests_cant": "Universal over nested lists.", "anchors": [{"file": "auth/auth.go", "symbols": ["User.HasPermission", "Group.HasPermission", "User.HasRole", "Group.HasRole"]}]}
{"id": "C33", "title": "Printing and parsing a permission are inverse", "statement": "Parsing the printed form of a permission with at most three scope levels gives back the permission, and parsing accepts exactly texts of the form scope, colon, decimal number below 2^32 with at most three scope levels.", "quantifier": "for all permissions and all texts", "why_tests_cant": "Universal over strings and numbers.", "anchors": [{"file": "auth/auth.go", "symbols": ["ParsePermission", "NewPermission", "Permission.String"]}]}
{"id": "C34", "title": "A protected handler runs only for an authorized principal", "statement": "With AuthorizeAll (AuthorizeAny) the handler runs exactly when the permissions could be determined, a principal is present and it has all (at least one) of them; otherwise the result is the unauthorized error or the supplier's error and the handler does not run.", "quantifier": "for all principals, permission lists and handlers", "why_tests_cant": "Universal over principals, lists and handlers.", "anchors": [{"file": "middleware/authz.go", "symbols": ["Authorize", "AuthorizeAll", "AuthorizeAny"]}, {"file": "middleware/auth.go", "symbols": ["SecurityPrincipalSupplier"]}, {"file": "auth/auth.go", "symbols": ["GetSecurityPrincipalFromContext"]}]}
{"id": "C35", "title": "The in-memory cache reports exactly the live keys", "statement": "After any history of calls, a key is reported present exactly when the latest call on that key was an addition whose expiry lies in the future.", "quantifier": "for all histories of calls and clock readings", "why_tests_cant": "Universal over histories.", "anchors": [{"file": "cache/cache.go", "symbols": ["InMemory.Add", "InMemory.Remove", "InMemory.Contains"]}]}
{"id": "C36", "title": "A state changing request needs a fresh CSRF nonce", "statement": "With the CSRF middleware, the handler of a request other than GET, HEAD, TRACE or OPTIONS runs only if the request carries a nonce that was issued earlier, has not expired and was not used before; in any sequence of requests handled one after the other each issued nonce lets at most one request through.", "quantifier": "for all sequences of requests, clock readings and random nonces", "why_tests_cant": "Universal over request histories.", "anchors": [{"file": "middleware/csrf.go", "symbols": ["CSRFPreventionWithCustomParamAndHeaderName"]}, {"file": "cache/cache.go", "symbols": ["InMemory"]}]}
{"id": "C37", "title": "A CSRF nonce is single use even for concurrent requests", "statement": "Two requests handled at the same time cannot both pass with the same nonce.", "quantifier": "for all interleavings of cache operations", "why_tests_cant": "Depends on scheduling.", "anchors": [{"file": "middleware/csrf.go", "symbols": ["CSRFPreventionWithCustomParamAndHeaderName"]}, {"file": "cache/cache.go", "symbols": ["Cache"]}]}
{"id": "C38", "title": "Nonces are an injective 32 character encoding of 16 random bytes", "statement": "A generated nonce has exactly 32 characters from 0-9A-F and determines the 16 random bytes it was made from.", "quantifier": "for all random inputs", "why_tests_cant": "2^128 inputs.", "anchors": [{"file": "middleware/csrf.go", "symbols": ["generateNonce"]}]}
{"id": "C39", "title": "Cross origin answers are given only to allowed origins", "statement": "A request carrying an Origin that is not the request's own origin gets a response only if the origin is allowed and the method is allowed (for a preflight: the requested method and every requested header); a given response names that origin (or * when any origin is allowed).", "quantifier": "for all configurations, requests and handlers", "why_tests_cant": "Universal over header values and configurations.", "anchors": [{"file": "middleware/cors.go", "symbols": ["Cors", "getRequestType", "addSimpleCorsHeaders", "addPreFlightCorsHeaders", "addStandardCorsHeaders", "isOriginAllowed"]}]}
{"id": "C40", "title": "A request refused by CORS has no effect", "statement": "When the CORS middleware refuses a request the protected handler has not run.", "quantifier": "for all configurations, requests and handlers", "why_tests_cant": "Universal over handlers with effects.", "anchors": [{"file": "middleware/cors.go", "symbols": ["Cors"]}]}
{"id": "C41", "title": "Same origin requests are not treated as cross origin", "statement": "A request whose Origin is exactly the scheme, host and port it was sent to is not refused by the CORS middleware.", "quantifier": "for all request URLs and configurations", "why_tests_cant": "Universal over hosts and ports.", "anchors": [{"file": "middleware/cors.go", "symbols": ["isSameOrigin", "getRequestType"]}]}
{"id": "C42", "title": "The Vary header only grows", "statement": "Adding a field to Vary keeps every field already listed and lists the new one, unless the list is or becomes *.", "quantifier": "for all existing header values and names", "why_tests_cant": "Universal over header texts.", "anchors": [{"file": "middleware/cors.go", "symbols": ["addVaryHeader"]}]}
{"id": "C43", "title": "Security headers are set exactly as configured", "statement": "For a successful response the middleware sets exactly the headers that are enabled, HSTS only on secure requests, with the configured values, leaving other headers alone; an error passes through unchanged.", "quantifier": "for all configurations, requests and handlers", "why_tests_cant": "Universal over configurations and responses.", "anchors": [{"file": "middleware/security.go", "symbols": ["SecurityHeaders", "ShStrictTransportSecurityConfig.getHeaderValue", "ShClickJackingConfig.getAntiClickJackingHeaderValue"]}]}
{"id": "C44", "title": "A response is written with its status, headers and cookies", "statement": "Writing a response with a status from 100 to 999 (0 meaning 200) sends that status, every custom header and cookie, the default content type when none is set, and X-Content-Type-Options nosniff unless overridden; any other status writes nothing and reports an error.", "quantifier": "for all responses, header maps and iteration orders", "why_tests_cant": "Map iteration order is random; universal over maps.", "anchors": [{"file": "response/headers.go", "symbols": ["HttpHeadersResponse.Write", "HttpHeadersResponse.StatusCode"]}]}
{"id": "C45", "title": "Headers and cookies put on a redirect reach the client", "statement": "Headers and cookies added to a redirect response (for example by a middleware) are sent to the client.", "quantifier": "for all redirect responses", "why_tests_cant": "Universal over headers and cookies.", "anchors": [{"file": "response/redirect.go", "symbols": ["HttpRedirectResponse.Write"]}]}
{"id": "C46", "title": "Cookies are kept per name, path and domain", "statement": "Adding cookies keeps, for each combination of name, path and domain, exactly the last one added.", "quantifier": "for all lists of cookies", "why_tests_cant": "Universal over cookie attributes, which are joined into one text key.", "anchors": [{"file": "response/response.go", "symbols": ["HttpCookies.Add", "NewHttpCookie"]}]}
{"id": "C47", "title": "Server sent events arrive as sent", "statement": "A client that reads the stream according to the event stream format receives exactly the events that were sent, each with its name, id, data lines and retry.", "quantifier": "for all sequences of events", "why_tests_cant": "Universal over field contents; a line break inside a field changes the framing.", "anchors": [{"file": "response/sse.go", "symbols": ["ServerSentEvent.String", "HttpSSEResponse.Write"]}]}
{"id": "C48", "title": "An event stream forbids caching", "statement": "The response headers sent for an event stream contain Cache-Control no-cache.", "quantifier": "for all event stream responses", "why_tests_cant": "Depends on the order of header changes and sending the status for every response.", "anchors": [{"file": "response/sse.go", "symbols": ["HttpSSEResponse.Write"]}, {"file": "response/headers.go", "symbols": ["HttpHeadersResponse.Write"]}]}
{"id": "C49", "title": "The content encoding is one the client listed", "statement": "A compressed response uses an encoding listed in the Accept-Encoding header of the request, gzip being preferred over deflate, and no encoding is used when none of the supported ones is listed.", "quantifier": "for all header values", "why_tests_cant": "Universal over header texts.", "anchors": [{"file": "response/compress.go", "symbols": ["getCompressionAlgorithmFromHeaderValue", "HttpCompressResponse.Write"]}]}
{"id": "C50", "title": "OAuth callbacks need a known state", "statement": "The handler behind the OAuth callback runs only if the provider is configured, the provider reported no error, the state value was issued by this server and has not expired (when a cache is configured), and the code was exchanged for a token; it then sees that token and, if requested, that user.", "quantifier": "for all histories of initiate and callback requests", "why_tests_cant": "Universal over histories and provider behaviours.", "anchors": [{"file": "gofre.go", "symbols": ["MuxHandler.HandleOAUTH2WithCustomPaths"]}, {"file": "auth/oauth/oauth2.go", "symbols": ["Config.GetProviderByName"]}]}
{"id": "C51", "title": "An OAuth state is accepted once", "statement": "A state value lets at most one callback through.", "quantifier": "for all histories of requests", "why_tests_cant": "Universal over histories.", "anchors": [{"file": "gofre.go", "symbols": ["MuxHandler.HandleOAUTH2WithCustomPaths"]}]}
{"id": "C52", "title": "Generated identifiers have the requested length and alphabet", "statement": "A generated identifier has exactly the requested length and only lower case letters and digits.", "quantifier": "for all lengths and random streams", "why_tests_cant": "Universal over random streams.", "anchors": [{"file": "gofre.go", "symbols": ["generateUniqueId"]}]}
{"id": "C53", "title": "Recycled header and cookie maps never leak between responses", "statement": "As long as no header or cookie map is used after a response that has it was written (so it is given to only one response), no response ever shows a header or cookie of another response although maps are recycled.", "quantifier": "for all interleavings of creating, filling and writing responses", "why_tests_cant": "Depends on scheduling and on the recycling order.", "anchors": [{"file": "response/response.go", "symbols": ["HttpHeaders.Release", "NewHttpHeaders", "HttpCookies.Release", "NewEmptyHttpCookie"]}, {"file": "response/headers.go", "symbols": ["HttpHeadersResponse.Write"]}]}
{"id": "C54", "title": "Headers can be added to any response", "statement": "A middleware may set a header on any response a handler returned without crashing.", "quantifier": "for all responses", "why_tests_cant": "Universal over response kinds.", "anchors": [{"file": "response/hijack.go", "symbols": ["HttpHijackConnectionResponse.Headers"]}, {"file": "middleware/security.go", "symbols": ["SecurityHeaders"]}, {"file": "middleware/cors.go", "symbols": ["Cors"]}]}
{"id": "C55", "title": "JSON error bodies contain the message with its first letter capitalised", "statement": "A JSON error response carries the error message with only its first letter changed to upper case.", "quantifier": "for all messages", "why_tests_cant": "Universal over texts, including non ASCII ones.", "anchors": [{"file": "response/json.go", "symbols": ["errorToString"]}]}
{"id": "C56", "title": "Implication of permissions is a preorder", "statement": "Every permission implies itself, and if a first permission implies a second one and the second implies a third then the first implies the third.", "quantifier": "for all permissions", "why_tests_cant": "Transitivity ranges over all triples of scopes of any depth.", "anchors": [{"file": "auth/auth.go", "symbols": ["Permission.Implies"]}]}
{"id": "C57", "title": "AllPermissions implies everything that is defined", "statement": "The permission returned by AllPermissions implies a permission exactly when that permission uses only the nine defined access bits, whatever its scope.", "quantifier": "for all permissions", "why_tests_cant": "Infinitely many scopes and 2^32 masks.", "anchors": [{"file": "auth/auth.go", "symbols": ["AllPermissions", "AccessAll", "Permission.Implies"]}]}
{"id": "C59", "title": "A configured context path is the beginning of all paths", "statement": "With a context path in the configuration, every handler registered on the mux and the static resources are served below that path.", "quantifier": "all context paths, mapping paths, prefixes and handler paths", "why_tests_cant": "The default context path is the root, where the property cannot fail; tests use the default.", "anchors": [{"file": "gofre.go", "symbols": ["Config.ContextPath", "NewMuxHandler", "MuxHandler.HandleRequest", "MuxHandler.resolvePath"]}]}
{"id": "C58", "title": "A CSRF nonce is accepted as a form parameter", "statement": "A state changing request that carries a valid nonce in the configured form parameter, and none in the header, passes the CSRF middleware.", "quantifier": "all requests, nonces, parameter and header names, states of the cache", "why_tests_cant": "Tests fill the form of the request by hand, which the server never does.", "anchors": [{"file": "middleware/csrf.go", "symbols": ["CSRFPreventionWithCustomParamAndHeaderName"]}]}
{"id": "C60", "title": "Answers of OAuth providers do not crash a request", "statement": "Whatever JSON object and status a provider answers to the request for an access token or for user details, the built-in providers turn it into a token, a user or an error.", "quantifier": "all statuses and JSON objects", "why_tests_cant": "Universal over answers; tests use well formed ones.", "anchors": [{"file": "auth/oauth/github.go", "symbols": ["FetchAccessToken", "FetchAuthenticatedUser"]}, {"file": "auth/oauth/google.go", "symbols": ["FetchAccessToken", "FetchAuthenticatedUser"]}]}
{"id": "C61", "title": "The scopes for the user details are requested", "statement": "If user details are to be fetched, the URL that starts the flow asks the provider for the scopes this needs.", "quantifier": "all provider configurations, redirect URLs and states", "why_tests_cant": "Universal over configurations.", "anchors": [{"file": "auth/oauth/github.go", "symbols": ["GitHubProvider.InitiateUrl"]}, {"file": "auth/oauth/google.go", "symbols": ["GoogleProvider.InitiateUrl"]}]}
{"id": "C62", "title": "State, redirect URL, client and options arrive at the provider", "statement": "The URL that starts the flow leads to the provider. Decoding its query gives exactly the state, the redirect URL, the client id and the options that went in, and for Google the request for a code.", "quantifier": "all byte strings and provider configurations", "why_tests_cant": "Universal over byte strings.", "anchors": [{"file": "auth/oauth/github.go", "symbols": ["GitHubProvider.InitiateUrl"]}, {"file": "auth/oauth/google.go", "symbols": ["GoogleProvider.InitiateUrl"]}]}
{"id": "C63", "title": "The provider sends the browser back to the callback", "statement": "The path of the redirect URL given to the provider is the registered path of the callback with the name of the provider in place of the path variable.", "quantifier": "all path prefixes, base paths and providers", "why_tests_cant": "Universal over prefixes and base paths.", "anchors": [{"file": "gofre.go", "symbols": ["MuxHandler.HandleOAUTH2WithCustomPaths", "MuxHandler.resolvePath"]}]}
{"id": "C64", "title": "Compression does not change what the client reads", "statement": "A client that undoes the encoding named in Content-Encoding reads, from a compressed response, the same status and payload as without compression.", "quantifier": "all responses, levels, Accept-Encoding values and compressors that can be undone", "why_tests_cant": "Universal over payloads and how they are cut into writes and flushes.", "anchors": [{"file": "response/compress.go", "symbols": ["HttpCompressResponse.Write", "compressResponseWriter"]}]}
{"id": "C65", "title": "Events reach the client when they are sent", "statement": "When an event stream waits for the next event, all events sent so far have been handed to the client, with or without compression.", "quantifier": "all sequences of events", "why_tests_cant": "Depends on what is buffered at every moment of every stream.", "anchors": [{"file": "response/sse.go", "symbols": ["HttpSSEResponse.Write"]}, {"file": "response/compress.go", "symbols": ["HttpCompressResponse.Write", "compressResponseWriter"]}]}
{"id": "C66", "title": "A hijack response takes over the connection or its callback is told", "statement": "A handler that returns a hijack response gets the connection, whatever middlewares are around it; when it does not, its callback gets an error.", "quantifier": "all callbacks, requests, protocols and numbers of compressions", "why_tests_cant": "Depends on the combination of response and middleware.", "anchors": [{"file": "response/hijack.go", "symbols": ["HttpHijackConnectionResponse.Write"]}, {"file": "response/compress.go", "symbols": ["HttpCompressResponse.Write", "compressResponseWriter"]}]}
{"id": "C67", "title": "A declared length is the length of the body", "statement": "A Content-Length header put on a response agrees with the body that is sent, also when the response is compressed.", "quantifier": "all responses and compressors", "why_tests_cant": "Universal over payloads.", "anchors": [{"file": "response/compress.go", "symbols": ["HttpCompressResponse.Write", "compressResponseWriter"]}]}
{"id": "C68", "title": "Headers put on an adapted handler reach the client", "statement": "A header added to the response of an adapted net/http handler is sent, unless that handler sets, adds or deletes it itself.", "quantifier": "all header maps, iteration orders and adapted handlers", "why_tests_cant": "Universal over what the adapted handler does.", "anchors": [{"file": "response/adaptor.go", "symbols": ["HttpHandlerAdaptorResponse.Write"]}]}
{"id": "C69", "title": "The body is the payload", "statement": "The body that is sent is exactly the payload: the text, the JSON text ({} for nil), everything the writer function or the template wrote, or the events; the reported error is the one the payload gave.", "quantifier": "all responses with a status that allows a body", "why_tests_cant": "Universal over payloads and pieces.", "anchors": [{"file": "response/text.go", "symbols": ["HttpTextResponse.Write"]}, {"file": "response/json.go", "symbols": ["HttpJsonResponse.Write"]}, {"file": "response/raw.go", "symbols": ["HttpRawResponse.Write"]}, {"file": "response/streaming.go", "symbols": ["HttpStreamResponse.Write"]}, {"file": "response/template.go", "symbols": ["HttpTemplateResponse.Write"]}]}
{"id": "C70", "title": "Allowed cross origin requests are answered", "statement": "A request from an allowed origin with an allowed method (for a preflight: an allowed requested method and allowed requested headers) gets the handler's response, and the response names the origin.", "quantifier": "for all configurations, requests with a well-formed origin and handlers", "why_tests_cant": "Universal over methods, headers and configurations.", "anchors": [{"file": "middleware/cors.go", "symbols": ["Cors", "getRequestType", "isValidOrigin", "getMediaType"]}]}
{"id": "C71", "title": "Credentials are granted in a way browsers accept", "statement": "When credentials are supported, the response to a cross origin request names the origin (never *) and allows credentials.", "quantifier": "for all configurations and requests", "why_tests_cant": "Universal over configurations.", "anchors": [{"file": "middleware/cors.go", "symbols": ["addStandardCorsHeaders"]}]}
{"id": "C72", "title": "Responses that depend on the origin say so to caches", "statement": "When only listed origins are allowed, the Vary header of every response lists Origin or *; a response to OPTIONS also lists the two request headers it depends on.", "quantifier": "for all configurations, requests and handlers", "why_tests_cant": "Universal over existing Vary headers.", "anchors": [{"file": "middleware/cors.go", "symbols": ["addStandardCorsHeaders", "addVaryHeader"]}]}
{"id": "C73", "title": "Responses announce the configured permissions", "statement": "Every response lists the configured exposed headers, and every response to OPTIONS lists the configured methods, headers and maximal age.", "quantifier": "for all configurations, requests and handlers", "why_tests_cant": "Universal over configurations.", "anchors": [{"file": "middleware/cors.go", "symbols": ["addStandardCorsHeaders"]}]}
{"id": "C74", "title": "CORS changes nothing else of a response", "statement": "A response that passes the CORS middleware keeps its kind, status, payload, cookies and all headers but the CORS headers and Vary.", "quantifier": "for all configurations, requests and handlers", "why_tests_cant": "Universal over responses.", "anchors": [{"file": "middleware/cors.go", "symbols": ["Cors", "addStandardCorsHeaders"]}]}
{"id": "C75", "title": "A text that is no origin is refused", "statement": "A request whose Origin header is empty, contains a percent sign, or has no scheme and is not null is answered with an access denied error, whatever the configuration.", "quantifier": "for all configurations, requests and handlers", "why_tests_cant": "Universal over header texts.", "anchors": [{"file": "middleware/cors.go", "symbols": ["getRequestType", "isValidOrigin"]}]}
{"id": "C76", "title": "A body that cannot be sent is reported", "statement": "Writing a response that has a body with a status that allows none (204, 304) returns an error, and the client gets no body.", "quantifier": "for all responses, statuses and requests", "why_tests_cant": "Universal over kinds of responses and payloads.", "anchors": [{"file": "response/text.go", "symbols": ["HttpTextResponse"]}, {"file": "response/json.go", "symbols": ["HttpJsonResponse"]}, {"file": "response/raw.go", "symbols": ["HttpRawResponse"]}, {"file": "response/streaming.go", "symbols": ["HttpStreamResponse"]}, {"file": "response/template.go", "symbols": ["HttpTemplateResponse"]}, {"file": "response/sse.go", "symbols": ["HttpSSEResponse"]}, {"file": "response/compress.go", "symbols": ["HttpCompressResponse"]}]}
{"id": "C77", "title": "An adapted net/http handler answers as written", "statement": "A net/http handler that is adapted sends the client its status and body, whatever headers and cookies middlewares put on the response; a status outside of 100 to 999 is a panic.", "quantifier": "for all handlers as sequences of calls on the writer, headers and cookies", "why_tests_cant": "Universal over handlers.", "anchors": [{"file": "response/adaptor.go", "symbols": ["HttpHandlerAdaptorResponse"]}, {"file": "handler/handler.go", "symbols": ["Handler2Handler", "HandlerFunc2Handler"]}]}
{"id": "C78", "title": "Common middlewares guard every answer", "statement": "If the common middlewares of the first mux, set before anything is registered, never pass a request on (authentication, for example), then no request is answered by anything but the router's own 404 or these middlewares.", "quantifier": "for all applications, programs, handlers, middlewares and requests", "why_tests_cant": "Universal over programs and requests; a test exercises the routes it knows.", "anchors": [{"file": "gofre.go", "symbols": ["NewMuxHandler", "MuxHandler.CommonMiddlewares", "MuxHandler.HandleRequest", "MuxHandler.RouteUsingPathPrefix", "MuxHandler.EnableDebugEndpoints", "MuxHandler.ServeHTTP", "wrapMiddleware"]}, {"file": "router/router.go", "symbols": ["Router.Handle", "Router.ServeHTTP"]}]}
{"id": "C79", "title": "Security headers are on every answer", "statement": "If SecurityHeaders is the outermost common middleware of the application, every answer a client gets carries the configured security headers.", "quantifier": "for all applications, configurations, handlers and requests", "why_tests_cant": "Universal over programs, handlers and requests.", "anchors": [{"file": "gofre.go", "symbols": ["MuxHandler.CommonMiddlewares", "MuxHandler.HandleRequest", "MuxHandler.ServeHTTP"]}, {"file": "middleware/security.go", "symbols": ["SecurityHeaders"]}, {"file": "router/router.go", "symbols": ["Router.ServeHTTP"]}]}
{"id": "C80", "title": "CORS decides about every answer to another origin", "statement": "If Cors is the outermost common middleware of the application, an allowed preflight request is answered with the CORS headers, and any other request of another origin is answered with a response only if origin, method and headers are allowed.", "quantifier": "for all applications, configurations, handlers and requests", "why_tests_cant": "Universal over programs, handlers, origins and requests.", "anchors": [{"file": "gofre.go", "symbols": ["MuxHandler.CommonMiddlewares", "MuxHandler.HandleRequest", "MuxHandler.ServeHTTP"]}, {"file": "middleware/cors.go", "symbols": ["Cors"]}, {"file": "router/router.go", "symbols": ["Router.ServeHTTP"]}]}
{"id": "C81", "title": "Static resources are served below their mapping path", "statement": "A GET request for a path below the static mapping path is answered by the file server, asked for exactly the rest of the path.", "quantifier": "for all mapping paths, context paths, programs and requests", "why_tests_cant": "Universal over programs and paths.", "anchors": [{"file": "gofre.go", "symbols": ["NewMuxHandler", "ResourcesConfig"]}, {"file": "handler/handler.go", "symbols": ["Handler2Handler"]}, {"file": "response/adaptor.go", "symbols": ["HttpHandlerAdaptorResponse"]}, {"file": "router/router.go", "symbols": ["Router.ServeHTTP"]}]}
{"id": "C82", "title": "Debug endpoints show their pages", "statement": "After EnableDebugEndpoints, a GET request for one of the endpoints below the mux's prefix is answered with the page that the endpoint is named after.", "quantifier": "for all programs and endpoints", "why_tests_cant": "Universal over what else is registered.", "anchors": [{"file": "gofre.go", "symbols": ["MuxHandler.EnableDebugEndpoints"]}, {"file": "handler/handler.go", "symbols": ["HandlerFunc2Handler"]}, {"file": "router/router.go", "symbols": ["Router.ServeHTTP"]}]}
{"id": "C83", "title": "Only a registration that fits is called", "statement": "Whatever program sets up the muxes, a request is answered only by a handler that was registered for its method with a path that reads the request's path, inside the common middlewares that its mux had at that time and its own, and it sees the path variables of that reading.", "quantifier": "for all programs of calls on any number of muxes, handlers, middlewares and requests", "why_tests_cant": "Universal over programs and requests.", "anchors": [{"file": "gofre.go", "symbols": ["MuxHandler.CommonMiddlewares", "MuxHandler.HandleRequest", "MuxHandler.RouteUsingPathPrefix", "MuxHandler.Clone", "MuxHandler.EnableDebugEndpoints", "MuxHandler.ServeHTTP", "wrapMiddleware"]}, {"file": "router/router.go", "symbols": ["Router.Handle", "Router.ServeHTTP"]}, {"file": "router/path/matcher.go", "symbols": ["Matcher.Match"]}]}
{"id": "C84", "title": "The most specific registration answers", "statement": "If some registration of the program reads a request, the client gets the answer of one than which none that reads it is more specific; if none does, the client gets 404.", "quantifier": "for all programs of calls on any number of muxes, handlers, middlewares and requests", "why_tests_cant": "Universal over programs and requests.", "anchors": [{"file": "gofre.go", "symbols": ["MuxHandler.HandleRequest", "MuxHandler.RouteUsingPathPrefix", "MuxHandler.ServeHTTP"]}, {"file": "router/router.go", "symbols": ["Router.Handle", "Router.ServeHTTP"]}, {"file": "router/path/matcher.go", "symbols": ["Matcher.Match"]}]}
{"id": "C85", "title": "An exact registration answers its own path", "statement": "A handler that is registered for a path without variables and wildcards answers every request for that path and method, whatever else the program registers.", "quantifier": "for all programs, handlers, middlewares and requests", "why_tests_cant": "Universal over what else is registered.", "anchors": [{"file": "gofre.go", "symbols": ["MuxHandler.HandleRequest", "MuxHandler.ServeHTTP"]}, {"file": "router/router.go", "symbols": ["Router.Handle", "Router.ServeHTTP"]}, {"file": "router/path/matcher.go", "symbols": ["Matcher.Match"]}]}
{"id": "C86", "title": "A JSON response says its payload", "statement": "The body of a JSON response is a JSON text that can be read in one way only, and that reading is the payload; it has no control characters, angle brackets or ampersands, and without another content type it is announced as application/json.", "quantifier": "for all payloads, statuses, headers, cookies and requests", "why_tests_cant": "Universal over nested payloads and texts of arbitrary bytes; tests compare a few bodies.", "anchors": [{"file": "response/json.go", "symbols": ["HttpJsonResponse.Write", "JsonHttpResponseWithHeadersAndCookies"]}]}
{"id": "C87", "title": "An error is answered with its message in JSON", "statement": "With ErrJsonResponse, an error of the handler is answered with its documented status and a JSON object whose only member, error, is the message of the error, with bytes that are no UTF-8 read as U+FFFD.", "quantifier": "for all handlers, errors and requests", "why_tests_cant": "Universal over messages of arbitrary bytes.", "anchors": [{"file": "middleware/errors.go", "symbols": ["ErrJsonResponse", "ErrResponse", "Error2HttpStatusCode"]}, {"file": "response/json.go", "symbols": ["HttpJsonResponse.Write", "JsonHttpResponseWithHeadersAndCookies"]}, {"file": "errors/errors.go", "symbols": ["ErrBadRequest.Error", "ErrObjectNotFound.Error"]}]}
{"id": "C88", "title": "The stack of a panic is not sent to clients", "statement": "With PanicRecover and ErrJsonResponse among the common middlewares, a client that makes a handler panic does not learn the stack of the program.", "quantifier": "for all orders of the middlewares, handlers, panics and requests", "why_tests_cant": "Universal over handlers and orders.", "anchors": [{"file": "middleware/panic.go", "symbols": ["PanicRecover"]}, {"file": "middleware/errors.go", "symbols": ["ErrJsonResponse"]}]}
{"id": "C89", "title": "RequestDumper logs the request before processing and the response", "statement": "RequestDumper logs every request once, as JSON that tells the request as it was before processing and the response.", "quantifier": "for all handlers, requests and responses", "why_tests_cant": "Universal over requests and handlers, with arbitrary bytes in headers and forms.", "anchors": [{"file": "middleware/dump.go", "symbols": ["RequestDumper"]}]}
{"id": "C90", "title": "What RequestDumper logs is one line", "statement": "A request cannot put line breaks or other control characters into the text that RequestDumper logs, whatever bytes it carries.", "quantifier": "for all handlers, requests and responses", "why_tests_cant": "Universal over the bytes of requests.", "anchors": [{"file": "middleware/dump.go", "symbols": ["RequestDumper"]}]}
{"id": "C91", "title": "RequestDumper does not change the answer", "statement": "With RequestDumper the client gets the same answer as without it, and errors and panics of the handler reach the outer middlewares unchanged.", "quantifier": "for all handlers, requests and responses", "why_tests_cant": "Universal over handlers and responses.", "anchors": [{"file": "middleware/dump.go", "symbols": ["RequestDumper"]}, {"file": "response/headers.go", "symbols": ["HttpHeadersResponse.Headers", "HttpHeadersResponse.Cookies"]}]}
{"id": "C92", "title": "Concurrent requests do not end the process", "statement": "Requests that go through CSRFPrevention with an in-memory cache at the same time do not end the process with the fatal errors of the runtime about concurrent use of a map.", "quantifier": "for all numbers of requests, caches and interleavings of their cache calls", "why_tests_cant": "Depends on the interleaving of goroutines; tests run one at a time.", "anchors": [{"file": "cache/cache.go", "symbols": ["InMemory.Add", "InMemory.Remove", "InMemory.Contains", "InMemory"]}, {"file": "middleware/csrf.go", "symbols": ["CSRFPreventionWithCustomParamAndHeaderName", "CSRFPrevention"]}]}
{"id": "C93", "title": "Expired entries leave the cache", "statement": "Keys whose expiration time is over do not stay in the in-memory cache, so that its size is bounded by the number of live keys.", "quantifier": "for all histories of cache calls and requests", "why_tests_cant": "Needs an unbounded number of requests and the passing of time.", "anchors": [{"file": "cache/cache.go", "symbols": ["InMemory.Add", "InMemory.Remove", "InMemory.Contains", "InMemory"]}, {"file": "middleware/csrf.go", "symbols": ["CSRFPreventionWithCustomParamAndHeaderName", "CSRFPrevention"]}]}
{"id": "C94", "title": "A nonce works only for the visitor it was issued to", "statement": "A state changing request passes CSRFPrevention only with a nonce that was issued to the same visitor.", "quantifier": "for all ways of telling visitors apart, handlers and requests", "why_tests_cant": "Universal over whatever identifies a visitor; tests use one client.", "anchors": [{"file": "middleware/csrf.go", "symbols": ["CSRFPreventionWithCustomParamAndHeaderName", "CSRFPrevention"]}]}
{"id": "C95", "title": "A state works only for the visitor that started the flow", "statement": "An OAuth callback is accepted only from the visitor that started the flow with its state.", "quantifier": "for all ways of telling visitors apart, configurations, providers and requests", "why_tests_cant": "Universal over whatever identifies a visitor; tests use one client.", "anchors": [{"file": "gofre.go", "symbols": ["MuxHandler.HandleOAUTH2WithCustomPaths"]}, {"file": "cache/cache.go", "symbols": ["InMemory.Add", "InMemory.Remove", "InMemory.Contains", "InMemory"]}]}
{"id": "C96", "title": "A state works only for the provider of its flow", "statement": "An OAuth callback of a provider is accepted only with the state of a flow that was started with this provider.", "quantifier": "for all configurations with several providers and all requests", "why_tests_cant": "Universal over configurations and providers.", "anchors": [{"file": "gofre.go", "symbols": ["MuxHandler.HandleOAUTH2WithCustomPaths"]}, {"file": "cache/cache.go", "symbols": ["InMemory.Add", "InMemory.Remove", "InMemory.Contains", "InMemory"]}]}
{"id": "C97", "title": "Concurrent first requests get the configured security headers", "statement": "Requests that come at the same time all get the configured text of the Strict-Transport-Security and X-Frame-Options headers, also when they are the first ones.", "quantifier": "for all texts, numbers of requests and interleavings", "why_tests_cant": "Depends on the interleaving of single memory accesses.", "anchors": [{"file": "middleware/security.go", "symbols": ["ShStrictTransportSecurityConfig.getHeaderValue", "ShClickJackingConfig.getAntiClickJackingHeaderValue"]}]}
{"id": "C98", "title": "The request for a token carries all that the provider needs", "statement": "The request of a provider for an access token carries the code of the callback, the client id, the client secret, the redirect URL and the grant type, in a body whose type is announced, so that the provider reads the same texts.", "quantifier": "for all codes, credentials, redirect URLs and answers, whatever bytes they have", "why_tests_cant": "Escaping has to be right for all texts; tests use plain ones.", "anchors": [{"file": "auth/oauth/github.go", "symbols": ["GitHubProvider.FetchAccessToken", "GitHubProvider.FetchAuthenticatedUser"]}, {"file": "auth/oauth/google.go", "symbols": ["GoogleProvider.FetchAccessToken", "GoogleProvider.FetchAuthenticatedUser"]}]}
{"id": "C99", "title": "The token reaches the user endpoint only as a bearer token", "statement": "The request for the user has the token, unchanged, in one Authorization header, and no token adds anything else to the request.", "quantifier": "for all tokens, whatever bytes they have", "why_tests_cant": "Universal over tokens.", "anchors": [{"file": "auth/oauth/github.go", "symbols": ["GitHubProvider.FetchAccessToken", "GitHubProvider.FetchAuthenticatedUser"]}, {"file": "auth/oauth/google.go", "symbols": ["GoogleProvider.FetchAccessToken", "GoogleProvider.FetchAuthenticatedUser"]}]}
{"id": "C100", "title": "An access token has the fields of the answer", "statement": "The access token has the token, type, scopes, refresh token and expiry of the answer of the provider; it has no scope if none was granted.", "quantifier": "for all answers", "why_tests_cant": "Universal over answers.", "anchors": [{"file": "auth/oauth/github.go", "symbols": ["GitHubProvider.FetchAccessToken", "GitHubProvider.FetchAuthenticatedUser"]}, {"file": "auth/oauth/google.go", "symbols": ["GoogleProvider.FetchAccessToken", "GoogleProvider.FetchAuthenticatedUser"]}, {"file": "auth/oauth/oauth2.go", "symbols": ["AccessToken"]}]}
{"id": "C101", "title": "Different accounts are different users", "statement": "The users that two different accounts, of the same or of different providers, lead to have different identities, and none is empty.", "quantifier": "for all answers of the providers", "why_tests_cant": "Universal over answers; tests use one account.", "anchors": [{"file": "auth/oauth/github.go", "symbols": ["GitHubProvider.FetchAccessToken", "GitHubProvider.FetchAuthenticatedUser"]}, {"file": "auth/oauth/google.go", "symbols": ["GoogleProvider.FetchAccessToken", "GoogleProvider.FetchAuthenticatedUser"]}, {"file": "auth/auth.go", "symbols": ["User", "User.Identity"]}]}
{"id": "C102", "title": "The application sees the user that the provider named for the code", "statement": "When the handler of an OAuth callback runs, the token in its context is the one that the provider gave in a successful answer to a request with the code of the callback, and the principal is the user that the provider named in a successful answer to a request with that token.", "quantifier": "for all histories of requests, codes, configurations of the GitHub and the Google provider and behaviours of the other side", "why_tests_cant": "Quantifies over histories and over everything a provider may answer.", "anchors": [{"file": "auth/oauth/github.go", "symbols": ["GitHubProvider.FetchAccessToken", "GitHubProvider.FetchAuthenticatedUser"]}, {"file": "auth/oauth/google.go", "symbols": ["GoogleProvider.FetchAccessToken", "GoogleProvider.FetchAuthenticatedUser"]}, {"file": "gofre.go", "symbols": ["MuxHandler.HandleOAUTH2WithCustomPaths"]}]}
{"id": "C103", "title": "Events are written in order, and none after the client has left", "statement": "HttpSSEResponse writes the events of its generator in the order in which they are given, leaves none out but the last one, and writes none after the client has left or the response is over.", "quantifier": "for all generators, as goroutines of their own, and all interleavings with the request and its end", "why_tests_cant": "Depends on the interleaving of goroutines.", "anchors": [{"file": "response/sse.go", "symbols": ["HttpSSEResponse.Write", "EventGenerator"]}]}
{"id": "C104", "title": "An event stream ends when its client leaves", "statement": "When the client of an event stream has left, the handling of the request and the goroutine behind the channel end.", "quantifier": "for all generators and interleavings", "why_tests_cant": "Liveness over all schedules; a leak is not visible in a test that ends.", "anchors": [{"file": "response/sse.go", "symbols": ["HttpSSEResponse.Write", "EventGenerator"]}, {"file": "examples/cmd.go", "symbols": ["main"]}]}
{"id": "C105", "title": "No client ends the process of the example", "statement": "No value of the header Last-Event-Id makes the example panic outside of the goroutine of the request.", "quantifier": "for all header values, numbers of clients and interleavings", "why_tests_cant": "Universal over header values and schedules; the panic is in a goroutine that tests do not start.", "anchors": [{"file": "examples/evtgen.go", "symbols": ["EventGenerator.push", "EventGenerator.Next", "EventGenerator.Rewind", "NewEventGenerator"]}, {"file": "examples/cmd.go", "symbols": ["main"]}]}
{"id": "C106", "title": "Every client of the example gets every event once and in order", "statement": "Each client of the event stream of the example gets every event that is made while it is connected, once and in order, and continues behind the last event when it reconnects.", "quantifier": "for all numbers of clients, events and interleavings", "why_tests_cant": "Depends on interleavings and on how late clients are.", "anchors": [{"file": "examples/evtgen.go", "symbols": ["EventGenerator.push", "EventGenerator.Next", "EventGenerator.Rewind", "NewEventGenerator"]}, {"file": "examples/cmd.go", "symbols": ["main"]}]}
{"id": "C107", "title": "A client of the example does not keep events from the others", "statement": "What a client sends in Last-Event-Id has no influence on what the other clients get.", "quantifier": "for all header values, numbers of clients and interleavings", "why_tests_cant": "Needs several clients and chosen header values.", "anchors": [{"file": "examples/evtgen.go", "symbols": ["EventGenerator.push", "EventGenerator.Next", "EventGenerator.Rewind", "NewEventGenerator"]}, {"file": "examples/cmd.go", "symbols": ["main"]}]}
{"id": "C108", "title": "The example answers exactly its pages", "statement": "The example program starts without failing registrations. A GET request whose path has the segments of one of its pages is answered by the handler of that page, behind PanicRecover and ErrJsonResponse and its own middlewares, with the path variables of that page. Every other request gets 404.", "quantifier": "for all methods and paths, regular expression engines, standard library behaviours, states of the recycled buffers", "why_tests_cant": "Universal over paths and methods.", "anchors": [{"file": "examples/cmd.go", "symbols": ["main"]}, {"file": "gofre.go", "symbols": ["MuxHandler.ServeHTTP", "MuxHandler.HandleGet", "MuxHandler.RouteUsingPathPrefix", "MuxHandler.HandleOAUTH2", "MuxHandler.CommonMiddlewares"]}]}
{"id": "C109", "title": "The JSON and text pages of the example", "statement": "GET /json/u/i is answered with status 200, type application/json and a body that says exactly {user: u, id: i}; GET /text/html with the HTML page; GET /text/x with the plain text for every other x. Nothing else changes.", "quantifier": "for all segments u, i and x of any bytes, and all spellings of the path", "why_tests_cant": "Universal over bytes that need escaping and over spellings of paths.", "anchors": [{"file": "examples/cmd.go", "symbols": ["main"]}, {"file": "response/json.go", "symbols": ["JsonHttpResponseOK"]}, {"file": "response/text.go", "symbols": ["PlainTextHttpResponseOK", "HtmlHttpResponseOK"]}]}
{"id": "C110", "title": "Who the example authorizes", "statement": "GET /security/authorize/p is answered with {authorized: true} if p is the decimal number of access bits that hold the delete bit, with 401 if it is a number without this bit or p names another scope, and with 500 and the message of the parser if p names no permission.", "quantifier": "for all segments p", "why_tests_cant": "Universal over texts.", "anchors": [{"file": "examples/cmd.go", "symbols": ["main"]}, {"file": "auth/auth.go", "symbols": ["ParsePermission", "Permission.Implies", "User.HasPermission"]}, {"file": "middleware/authz.go", "symbols": ["AuthorizeAll"]}]}
{"id": "C111", "title": "Failing handlers of the example", "statement": "If a handler of the example returns an error, the client gets the documented status and a JSON object that says the message of the error; if it panics, the client gets status 500 and no text at all.", "quantifier": "for all handlers, errors, panic values and states", "why_tests_cant": "Universal over errors and messages.", "anchors": [{"file": "examples/cmd.go", "symbols": ["main"]}, {"file": "middleware/panic.go", "symbols": ["PanicRecover"]}, {"file": "middleware/errors.go", "symbols": ["ErrJsonResponse"]}]}
{"id": "C112", "title": "Failing templates of the example", "statement": "If a template of the example cannot be rendered, the client gets an error status.", "quantifier": "for all templates and names", "why_tests_cant": "Universal over template behaviours.", "anchors": [{"file": "examples/cmd.go", "symbols": ["main"]}, {"file": "response/template.go", "symbols": ["HttpTemplateResponse.Write", "TemplateHttpResponseOK"]}]}
{"id": "C113", "title": "The download of the example", "statement": "GET /download is answered with the whole file and the type image/png, or with the documented status and message of the error if the file cannot be opened or read.", "quantifier": "for all contents and failures of the file, spellings of the path and states", "why_tests_cant": "Universal over contents and points of failure.", "anchors": [{"file": "examples/cmd.go", "symbols": ["main"]}, {"file": "response/streaming.go", "symbols": ["StreamHttpResponse", "HttpStreamResponse.Write"]}]}
{"id": "C114", "title": "Files opened for a download are closed", "statement": "When GET /download has been answered, no more files are open than before.", "quantifier": "for all requests, states and ways of counting open files", "why_tests_cant": "A leak shows only after very many requests; it is a claim about the state after every request.", "anchors": [{"file": "examples/cmd.go", "symbols": ["main"]}, {"file": "response/streaming.go", "symbols": ["StreamHttpResponse", "HttpStreamResponse.Write"]}]}
{"id": "C115", "title": "The chosen route is the narrowest", "statement": "If several registered routes match a request, no matching route accepts strictly fewer requests than the chosen one.", "quantifier": "for all sets of routes, orders of registration and requests", "why_tests_cant": "Inclusion of sets of requests is a claim about infinitely many requests.", "anchors": [{"file": "router/path/matcher.go", "symbols": ["Matcher.AddPattern", "Matcher.Match"]}, {"file": "router/path/encode.go", "symbols": ["computePriority", "getDecimalDivider"]}]}
{"id": "C116", "title": "Patterns with ** inside are ordered from left to right", "statement": "One pattern has a higher priority than another exactly when its first different piece is of a more specific kind, where ** counts as as many ** as fill the pattern up to 19 pieces; the text decides between patterns of the same kinds.", "quantifier": "for all pairs of accepted patterns of at most 19 pieces", "why_tests_cant": "Universal over pairs of patterns of any shape.", "anchors": [{"file": "router/path/pattern.go", "symbols": ["Pattern.HighPriorityThan", "ParsePattern"]}, {"file": "router/path/encode.go", "symbols": ["computePriority", "getDecimalDivider"]}]}
{"id": "C117", "title": "Patterns can be sorted by priority", "statement": "HighPriorityThan is irreflexive and transitive, and of two patterns with different texts one has the higher priority.", "quantifier": "for all patterns", "why_tests_cant": "Transitivity is a claim about all triples.", "anchors": [{"file": "router/path/pattern.go", "symbols": ["Pattern.HighPriorityThan", "ParsePattern"]}]}
{"id": "C118", "title": "The browser of a login comes back to the callback", "statement": "For an application that registers the OAuth endpoints on a mux: the request to the initiate path is answered with a redirect to the provider; the redirect URL given to the provider is the path of the callback of the same mux with the name of the provider in place of the variable, so the request with which the browser comes back is dispatched to the callback; with the state of the flow, until it expires, the callback hands the visitor with access token and user to the handler of the application.", "quantifier": "all programs around the two registrations, all muxes and prefixes, providers, caches, worlds and handlers; all routings without a more specific registration", "why_tests_cant": "a test has one router with one prefix; that the path which is sent out and the pattern which is registered agree depends on prefixes, other routes and the names of providers", "anchors": [{"file": "gofre.go", "symbols": ["MuxHandler.HandleOAUTH2", "MuxHandler.HandleOAUTH2WithCustomPaths", "MuxHandler.resolvePath"]}]}
{"id": "C119", "title": "Logins at the example program", "statement": "In the example program a visitor who names one of its providers at /oauth/initiate is redirected to that provider with https://localhost:8080/oauth/authorize/<provider> as redirect URL; when they come back there with the state within a minute and the provider hands out token and user, the handler runs with both and the JSON it answers says them; another provider is answered with 400, an error or an unknown state with 401, and no provider is asked; the provider is asked for the scope that user details need.", "quantifier": "all environments (client ids and keys), answers of the providers, caches, times, handlers, contexts and compressors", "why_tests_cant": "a test of the example would need the real providers, and would try a few states and times", "anchors": [{"file": "examples/cmd.go", "symbols": ["main"]}, {"file": "gofre.go", "symbols": ["MuxHandler.HandleOAUTH2"]}]}
{"id": "C120", "title": "Earlier states do not tell the next state of a login", "statement": "Whoever knows the states of earlier logins is not better off at guessing the state of a later login: any text of 12 letters of the alphabet remains possible.", "quantifier": "for all contents of the generator, all sequences of login requests and all numbers of states seen", "why_tests_cant": "Universal over generator contents; a test sees states that look random.", "anchors": [{"file": "gofre.go", "symbols": ["generateUniqueId"]}]}
{"id": "C121", "title": "HTTP clients can read compressed answers", "statement": "A client that decodes an answer as HTTP defines it for the Content-Encoding of the answer gets the body of the response: gzip is the gzip format, deflate is the zlib format (RFC 9110, 8.4.1).", "quantifier": "for all responses, requests, orders of headers and cookies, and compression levels", "why_tests_cant": "Universal over bodies; the test of the repository decodes with the package that encoded, and so agrees with the wrong format.", "anchors": [{"file": "response/compress.go", "symbols": ["HttpCompressResponse.Write", "getCompressionAlgorithmFromHeaderValue"]}, {"file": "middleware/compress.go", "symbols": ["CompressResponse"]}]}
{"id": "C122", "title": "An error keeps its status when it is wrapped", "statement": "A handler that returns a bad request, a missing object, or one of the errors for unauthorized, wrong credentials and denied access gets the same status as before when the error is wrapped with fmt.Errorf and %w, or is a pointer to one of the struct types.", "quantifier": "for all errors, all depths of wrapping, all handlers and all response suppliers", "why_tests_cant": "Universal over wrapping depth and handlers; the test table lists unwrapped errors only.", "anchors": [{"file": "middleware/errors.go", "symbols": ["Error2HttpStatusCode", "ErrResponse"]}, {"file": "errors/errors.go", "symbols": ["ErrBadRequest", "ErrObjectNotFound", "ErrAccessDenied", "ErrUnauthorizedRequest", "ErrWrongCredentials"]}]}
{"id": "C123", "title": "Every error of a handler is answered", "statement": "Behind ErrJsonResponse and PanicRecover every error that a handler returns is answered with its status and, in JSON, its message.", "quantifier": "for all errors, handlers, requests and both orders of the middlewares", "why_tests_cant": "Universal over handlers and errors; errors around nil are rare in tests.", "anchors": [{"file": "middleware/errors.go", "symbols": ["ErrJsonResponse", "ErrResponse"]}, {"file": "middleware/panic.go", "symbols": ["PanicRecover"]}, {"file": "errors/errors.go", "symbols": ["ErrBadRequest.Error", "ErrObjectNotFound.Error", "NewBadRequest", "NewObjectNotFound"]}, {"file": "response/json.go", "symbols": ["JsonErrorHttpResponse"]}]}
{"id": "C124", "title": "Static resources stay inside the assets directory", "statement": "Whatever path a client asks for, the static resources open only files below AssetsDirPath, and no answer depends on what lies outside of it.", "quantifier": "for all request paths, directories, file systems and programs", "why_tests_cant": "Universal over paths: dots, doubled slashes and any mixture of them.", "anchors": [{"file": "gofre.go", "symbols": ["NewMuxHandler", "ResourcesConfig"]}]}
{"id": "C125", "title": "Every file of the assets can be fetched", "statement": "A GET request for the mapping path followed by the path of a file below AssetsDirPath is answered with the content of the file, at once or after following redirects.", "quantifier": "for all file systems, directories and names of files", "why_tests_cant": "Universal over files; the tests fetch none.", "anchors": [{"file": "gofre.go", "symbols": ["NewMuxHandler", "ResourcesConfig"]}, {"file": "handler/handler.go", "symbols": ["Handler2Handler"]}]}
{"id": "C126", "title": "Clients do not learn the names of files they did not ask for", "statement": "The static resources answer no request with the names of the files in a directory.", "quantifier": "for all directories below AssetsDirPath", "why_tests_cant": "Universal over directories and their entries.", "anchors": [{"file": "gofre.go", "symbols": ["NewMuxHandler"]}]}
{"id": "C127", "title": "With PanicRecover no panic ends a request", "statement": "With PanicRecover as outermost common middleware, every panic in the code that answers a request is turned into an error, which is logged and answered by 500 or by the middleware for errors.", "quantifier": "for all programs, handlers, adapted net/http handlers, templates, readers, write functions, event generators and hijack callbacks", "why_tests_cant": "Universal over programs and over where the panic happens; the tests panic in the handler itself only.", "anchors": [{"file": "middleware/panic.go", "symbols": ["PanicRecover"]}, {"file": "router/router.go", "symbols": ["Router.ServeHTTP"]}, {"file": "handler/handler.go", "symbols": ["Handler2Handler", "HandlerFunc2Handler"]}, {"file": "response/adaptor.go", "symbols": ["HttpHandlerAdaptorResponse.Write"]}]}
{"id": "C128", "title": "A response is what the function that makes it says", "statement": "The functions that make responses (PlainTextResponse..., JsonResponse..., TemplateHttpResponse..., RawWriter..., StreamHttpResponse..., event streams, redirects, with status, headers and cookies in every combination) give responses that, when written, send the status, the content type, the custom headers, the cookies and the body that the function was called with.", "quantifier": "for all response functions, statuses, headers, cookies, payloads, templates and requests", "why_tests_cant": "Universal over all constructors and their arguments; the tests call each with one or two fixed arguments.", "anchors": [{"file": "response/text.go", "symbols": ["PlainTextHttpResponseOK", "PlainTextResponseWithHeadersAndCookies", "HtmlResponseWithHeadersAndCookies"]}, {"file": "response/json.go", "symbols": ["JsonHttpResponseWithHeadersAndCookies", "JsonErrorHttpResponseWithHeadersAndCookies"]}, {"file": "response/raw.go", "symbols": ["RawWriterHttpResponseWithHeaders"]}, {"file": "response/streaming.go", "symbols": ["StreamHttpResponseWithHeaders"]}, {"file": "response/template.go", "symbols": ["TemplateHttpResponseWithHeadersAndCookies"]}, {"file": "response/sse.go", "symbols": ["SSEHttpResponseWithHeaders"]}, {"file": "response/redirect.go", "symbols": ["RedirectHttpResponse", "RedirectHttpResponseMovedPermanently", "RedirectHttpResponseSeeOther"]}, {"file": "response/headers.go", "symbols": ["NewHttpCookie"]}]}
{"id": "C129", "title": "A mux keeps its configuration and has the documented defaults", "statement": "NewMuxHandler keeps every value that the Config and the ResourcesConfig give, fills in the documented default for every value that is missing, uses these values for its router, its log function, its static resources and its template, and changes no other configuration.", "quantifier": "for all configurations, resources, stores of configurations, template parsers and regular expressions", "why_tests_cant": "Universal over which fields are given and over sharing between configurations; the tests check two configurations.", "anchors": [{"file": "gofre.go", "symbols": ["Config", "ResourcesConfig", "Config.setDefaults", "ResourcesConfig.setDefaults", "NewMuxHandler", "MuxHandler.ExecutableTemplate"]}]}
{"id": "C130", "title": "Config returns a copy", "statement": "Changing what MuxHandler.Config returns does not change the mux.", "quantifier": "for all muxes, configurations and changes", "why_tests_cant": "Universal over changes through the copy; the tests compare values only.", "anchors": [{"file": "gofre.go", "symbols": ["MuxHandler.Config", "MuxHandler.ExecutableTemplate", "ResourcesConfig"]}]}
{"id": "C131", "title": "Templates that cannot be parsed are reported as an error", "statement": "Every function that makes a mux returns an error if the templates cannot be parsed.", "quantifier": "for all configurations and parsers of templates", "why_tests_cant": "Universal over configurations; a test of the failing path would end the test process.", "anchors": [{"file": "gofre.go", "symbols": ["NewDefaultResourcesConfig", "NewMuxHandlerWithDefaultConfigAndTemplateSupport", "NewMuxHandler", "ResourcesConfig.setDefaults"]}]}
{"id": "C132", "title": "The template of a mux can be used for responses", "statement": "A handler can answer with the template that MuxHandler.ExecutableTemplate returns.", "quantifier": "for all configurations and templates", "why_tests_cant": "Needs the mux, the response and the writing together; tests of each part use a template that exists.", "anchors": [{"file": "gofre.go", "symbols": ["MuxHandler.ExecutableTemplate", "NewMuxHandlerWithDefaultConfig"]}, {"file": "response/template.go", "symbols": ["TemplateHttpResponseOK", "HttpTemplateResponse.Write"]}]}
{"id": "C133", "title": "A user sent as JSON is shown with all permissions, and no other user has the same JSON", "statement": "The JSON of an auth.User, as JsonHttpResponse sends it, shows the id, the name, the platform and all groups, roles and permissions of the user, so that two users with different permissions have different JSON texts.", "quantifier": "for all users, groups, roles and permissions, and all requests", "why_tests_cant": "Universal over nested groups, roles, permissions and arbitrary bytes in their texts.", "anchors": [{"file": "auth/auth.go", "symbols": ["User", "Group", "Role", "Permission"]}, {"file": "response/json.go", "symbols": ["JsonHttpResponseOK", "HttpJsonResponse.Write"]}]}
{"id": "C134", "title": "Registering a route does not change the answers to requests it does not match", "statement": "When a handler is registered for a path that does not match a request, the request is still answered by the same handler with the same path variables, or still by nobody, as before.", "quantifier": "for all routers, all further registrations and all requests", "why_tests_cant": "Universal over trees of routes: a new pattern changes priorities, inner nodes and the order in which children are tried.", "anchors": [{"file": "router/router.go", "symbols": ["Router.Handle", "Router.ServeHTTP"]}, {"file": "router/path/matcher.go", "symbols": ["Matcher.AddPattern", "Matcher.Match"]}]}
{"id": "C135", "title": "A redirect leads where its URL points", "statement": "When a handler answers with a redirect to a URL, the Location header that is sent leads a browser to the same place as the URL itself would, read as a reference from the page that was asked for (RFC 3986): same scheme, host, path, query and fragment.", "quantifier": "for all request paths, redirect URLs, statuses from 200 to 999 and earlier headers", "why_tests_cant": "Redirect tests compare the Location header of one absolute URL or one rooted path; queries, dots at the end, double slashes, fragments with slashes and escaped request paths are rewritten differently and there are unboundedly many.", "anchors": [{"file": "response/redirect.go", "symbols": ["HttpRedirectResponse.Write", "RedirectHttpResponse", "RedirectHttpResponseMovedPermanently", "RedirectHttpResponseSeeOther"]}]}
{"id": "C136", "title": "A redirect to a path stays on the site", "statement": "When a handler redirects to a path, without scheme and host, the Location header does not lead a browser to another site, whatever path the request asked for.", "quantifier": "for all request paths and all redirect URLs that name a path", "why_tests_cant": "The path of the request becomes part of the Location header; the paths that turn it into the name of another host contain escaped backslashes or tabs, which tests with ordinary paths do not have.", "anchors": [{"file": "response/redirect.go", "symbols": ["HttpRedirectResponse.Write", "RedirectHttpResponse", "RedirectHttpResponseMovedPermanently", "RedirectHttpResponseSeeOther"]}]}
{"id": "C137", "title": "The page of a redirect has one link to the same place and no other markup", "statement": "For a GET request and no Content-Type set before, the body of a redirect, compressed or not, is one HTML link to the place named in the Location header, in which the text of the URL cannot end the attribute or begin an element, and is sent as HTML; otherwise the client reads an empty body.", "quantifier": "for all request paths, redirect URLs (any bytes), final statuses, compression levels and earlier headers without an encoding", "why_tests_cant": "Whether a URL can break out of the attribute depends on every character at every position of the URL.", "anchors": [{"file": "response/redirect.go", "symbols": ["HttpRedirectResponse.Write", "RedirectHttpResponse", "RedirectHttpResponseMovedPermanently", "RedirectHttpResponseSeeOther"]}, {"file": "response/compress.go", "symbols": ["HttpCompressResponse.Write"]}]}
{"id": "C138", "title": "Every cookie added to a response is sent with its name", "statement": "Every cookie added to a response reaches the browser in a Set-Cookie line of its own, in which the browser (RFC 6265, 5.2) reads the cookie's name, value and attributes.", "quantifier": "for all responses with a status from 200 to 999, all cookies and all orders in which the maps are visited", "why_tests_cant": "Tests add one or two cookies with plain names and look for a substring of the header; a name with a blank or a bracket is dropped without an error.", "anchors": [{"file": "response/headers.go", "symbols": ["HttpHeadersResponse.Write", "HttpHeadersResponse.Cookies"]}, {"file": "response/response.go", "symbols": ["HttpCookies", "HttpCookies.Add"]}]}
{"id": "C139", "title": "A cookie comes back with its value", "statement": "When a browser keeps the cookies of a response and sends them back, in one Cookie line or several, a handler that reads them gets the same names and values in the same order.", "quantifier": "for all lists of cookies, all values and all ways to spread them over lines", "why_tests_cant": "Which bytes survive depends on every byte of the value: quotes, semicolons, backslashes, control signs and everything outside ASCII are dropped without an error.", "anchors": [{"file": "response/headers.go", "symbols": ["HttpHeadersResponse.Write", "HttpHeadersResponse.Cookies"]}, {"file": "response/response.go", "symbols": ["HttpCookies", "HttpCookies.Add"]}]}
{"id": "C140", "title": "The text of a cookie cannot add attributes or header lines", "statement": "Whatever texts a handler puts in the name, value, path and domain of a cookie, a browser reads exactly the attributes that the fields ask for, each once, and the text has no line break or other control sign.", "quantifier": "for all names, values, paths, domains, dates, ages and flags of a cookie", "why_tests_cant": "An attack would use some byte sequence in one of four free texts; tests can only try a few.", "anchors": [{"file": "response/headers.go", "symbols": ["HttpHeadersResponse.Write", "HttpHeadersResponse.Cookies"]}, {"file": "response/response.go", "symbols": ["HttpCookies", "HttpCookies.Add"]}]}
{"id": "C141", "title": "Registering a route does not take answers away from other routes", "statement": "While a route is being registered, every request that is looked up at the same time gets the answer of the router before the registration or of the router after it.", "quantifier": "for all routers, all new routes, all requests and all interleavings of the registration and the lookup", "why_tests_cant": "The outcome depends on where the lookup is when the children are sorted and on the spare capacity of an array that nothing shows; a test hits the window by luck.", "anchors": [{"file": "router/path/matcher.go", "symbols": ["Matcher.AddPattern", "Matcher.Match"]}]}
{"id": "C142", "title": "RequestDumper logs the cookies of a request as they came", "statement": "For every request that RequestDumper logs, the member cookies lists exactly the well-formed cookies of the Cookie header, in order, each with its name and value, and is missing when there are none; whatever the handler does to the header.", "quantifier": "for all Cookie lines, handlers, requests and responses", "why_tests_cant": "The header is free text from the client: quotes, blanks, semicolons and any other bytes; tests use a cookie or two.", "anchors": [{"file": "middleware/dump.go", "symbols": ["RequestDumper"]}]}
{"id": "C143", "title": "Routes can be registered while requests are served", "statement": "Calls of Router.Handle that run at the same time as each other and as requests neither end the process nor lose a route: every call ends, and every request is answered, as if the calls had been made one after the other.", "quantifier": "for all routers, all sets of concurrent registrations and requests and all interleavings of their steps", "why_tests_cant": "Whether the runtime notices concurrent use of the map, and whether a route is lost, depends on the interleaving; the failing ones are rare.", "anchors": [{"file": "router/router.go", "symbols": ["Router.Handle", "Router.ServeHTTP"]}]}
{"id": "C144", "title": "Cookies put on an adapted handler reach the client", "statement": "When a http.Handler is adapted to a response and cookies are added to that response, the client gets one Set-Cookie header for each cookie that can be written, beside the ones that were there before.", "quantifier": "for all handlers that leave Set-Cookie alone, all cookies and headers on the response, all orders of the maps, plain and compressing writers", "why_tests_cant": "The order in which the headers and cookies of the maps are written differs from run to run, and the handlers behind the adaptor are arbitrary programs.", "anchors": [{"file": "response/adaptor.go", "symbols": ["HttpHandlerAdaptorResponse.Write", "HttpHandlerAdaptorResponse.Cookies"]}]}
{"id": "C145", "title": "The body of a provider's answer is read as the JSON object that it is", "statement": "When an OAuth provider's answer is used, its body is a JSON text that is an object, and each key has the value that the text gives to it (the last one if it is repeated, with escapes, characters and whole numbers up to 2^53 read as JSON says). A body that is anything else is an error.", "quantifier": "for all bodies, statuses and results of converting other numbers", "why_tests_cant": "Universal over bodies: escapes, surrogates, bytes that are no UTF-8, nesting, repeated keys and what follows the value.", "anchors": [{"file": "auth/oauth/github.go", "symbols": ["GitHubProvider.FetchAccessToken", "GitHubProvider.FetchAuthenticatedUser"]}, {"file": "auth/oauth/google.go", "symbols": ["GoogleProvider.FetchAccessToken", "GoogleProvider.FetchAuthenticatedUser"]}]}
{"id": "C146", "title": "Path variables stay the same while a request is handled", "statement": "PathVar gives the same text for a name in every middleware, in the handler and in clones of the context, at any time while the request is handled: the text of the segment that stood at the variable when the request was routed, whatever middlewares do with their own copies of the context.", "quantifier": "for all registrations, requests, and sequences of passing, cloning, changing, cutting and resetting contexts and their requests", "why_tests_cant": "Depends on which of arbitrarily many copies and clones share a URL or an array, and on the order in which they are changed.", "anchors": [{"file": "router/path/matching_context.go", "symbols": ["MatchingContext.PathVar", "MatchingContext.Clone", "UrlSegment.Reset"]}, {"file": "handler/handler.go", "symbols": ["Handler"]}, {"file": "middleware/middleware.go", "symbols": ["Middleware"]}, {"file": "router/router.go", "symbols": ["Router.ServeHTTP"]}]}
{"id": "C147", "title": "Routing a request takes a bounded number of comparisons", "statement": "While the router looks for the handler of a request it compares a segment of the path with a piece of a pattern at most (2*s+1)*p times, where p is the number of pieces of the patterns accepted for the method and s the number of segments of the path, of which at most 19 count. So no set of patterns, with any number of ** in them, and no path can make the search take longer than in proportion to the registered routes.", "quantifier": "for all registrations (accepted or not), case modes, regular expression engines, methods and request paths, and for any number of rounds of the search", "why_tests_cant": "The search goes back and forth in the tree; tests see single trees and paths, not the worst ones.", "anchors": [{"file": "router/path/matcher.go", "symbols": ["Matcher.Match", "Matcher.AddPattern"]}, {"file": "router/path/pattern.go", "symbols": ["segment.matchUrlPathSegment", "ParsePattern"]}, {"file": "router/router.go", "symbols": ["Router.ServeHTTP", "Router.Handle"]}]}
{"id": "C148", "title": "Comparing a text with a wildcard piece takes at most quadratic work", "statement": "For every pattern that the router accepts, every piece of it with the wildcards * and ?, and every text, comparing the text with the piece takes at most (n+2)*(2*m+3) rounds of the loops of the comparison, where n is the length of the text and m that of the piece. No choice of stars and text makes it try all ways of splitting the text.", "quantifier": "for all accepted patterns, pieces and texts, with and without letter case", "why_tests_cant": "Tests time a few patterns; matchers with backtracking are fast on those and take exponential time for particular pieces with many stars, which an attacker chooses the text for.", "anchors": [{"file": "router/path/pattern.go", "symbols": ["regexSegmentMatch"]}]}
{"id": "C149", "title": "All wildcard comparisons of a request together take polynomial work", "statement": "Whatever routes were registered and whatever path is asked for, the comparisons of segments with wildcard pieces that finding the route makes take together at most (n+2)*(2*m+3)*(2*s+1)*k rounds of the loops of the comparison, where n is the length of the path, m the length of the longest registered pattern, s the number of slashes of the path (at most 19 count) and k the number of pieces accepted for the method. No choice of path makes the search and the comparisons blow each other up.", "quantifier": "for all lists of registrations, methods, paths and engines, with and without letter case, and for any number of rounds of the search that are looked at", "why_tests_cant": "Tests time a few routes and paths. Whether a path exists for which going back in the search and going back in a comparison multiply beyond the product of the sizes can only be settled for all of them at once.", "anchors": [{"file": "router/path/matcher.go", "symbols": ["Matcher.Match", "Matcher.AddPattern"]}, {"file": "router/path/pattern.go", "symbols": ["regexSegmentMatch", "segment.matchUrlPathSegment", "ParsePattern"]}, {"file": "router/router.go", "symbols": ["Router.ServeHTTP", "Router.Handle"]}]}
{"id": "C150", "title": "A compression level that is not supported is reported and never used", "statement": "With the compression middleware and a level outside -1 to 9, every request whose handler returns a response ends in the error 'compression level not supported', which the error middleware turns into an answer with status 500; the handler has run and its effects stay. With a level from -1 to 9 the middleware causes no error: status and headers are those of the response of the handler, and a client that names no encoding gets that response as it is. Errors and panics of the handler pass unchanged with any level.", "quantifier": "for all levels, handlers, requests and states of the program", "why_tests_cant": "The level is an int; tests try a few. That nothing else than the range decides, and that the effects of the handler stay, holds for all handlers.", "anchors": [{"file": "middleware/compress.go", "symbols": ["CompressResponse"]}, {"file": "response/compress.go", "symbols": ["NewHttpCompressResponse", "HttpCompressResponse.Write"]}, {"file": "middleware/errors.go", "symbols": ["ErrResponse"]}]}
