# Design of the gofre model and proofs

This file says, for each property in `properties.jsonl`, what is modelled and how it is proved.
It also says what has to be trusted.

## 1. Layout

| Files | Content |
|---|---|
| `rocq/theories/*_Model.v` | Executable transcription of the Go code, function by function. No proofs. Each definition cites the file and lines it models and states its simplifications. |
| `rocq/theories/*_Spec.v` | Small independent specifications. They do not use the model's helper functions. |
| `rocq/theories/*_Proofs.v` | Lemmas. |
| `rocq/theories/*_Props.v` | The property theorems only, each closed by `exact`, with `Print Assumptions` beneath, and examples that meet the hypotheses. |

Naming: a theorem whose name ends in `_partial` proves a weaker statement than the property (the missing part is stated in the comment above it and in the manifest).
A theorem whose name ends in `_refuted` proves that the property, as users would state it, is false of the faithful model, by exhibiting a witness.

## 2. Modelling decisions

* Text is `list ascii` (bytes). Machine integers are `N` or `Z` with explicit wrap-around wherever the Go code can wrap (`uint8` counters, `uint16` offsets, `uint64` ranks).
* Run-time panics are values (`Panic`), so absence of panics is a theorem and never an assumption. Handlers, adapted handlers, templates, readers, write functions, event generators and hijack callbacks of the program may panic.
* Loops whose termination is not obvious are written with fuel, and running out of fuel is a distinct value. A termination theorem states that some amount of fuel always suffices; a divergence theorem states that no amount does.
* Regular expressions (`regexp`) are an arbitrary engine: a record of two functions (does this text compile, does this expression match this text). All theorems quantify over it.
* `strings.EqualFold`, `strings.ToLower`, `strings.ToUpper` and `strings.TrimSpace` are modelled on ASCII. For case-insensitive routers the model is exact for ASCII patterns. `unicode.ToUpper` on a single byte, which the wildcard matcher uses, is modelled exactly on all 256 values.
* Maps are association lists. Iteration over a map is a choice of an arbitrary permutation, and theorems quantify over it.
* `sort.SliceStable` is modelled as Go 1.19 implements it (`Sort_Model.v`): blocks of 20 elements are sorted by insertion and then merged in place (`symMerge`), for any number of children. Of a rotation only the result is taken, not the single exchanges. `Sort_Proofs.v` shows that nothing is lost and that the result is in order, also for a comparison that answers true on equal elements, which is what the routing tree passes.
* `sync.Pool` is a bag from which any element, or a fresh one, may be taken.
* Concurrency is interleaving of the atomic steps named in the model. The Go memory model is not modelled, except that C92 and C143 take the use of the two unlocked maps apart into beginning and end, with the checks of the runtime, and C97 takes strings apart into their two words.
* `net/http`, `html/template`, `compress/*`, `net/url`, `crypto/rand`, `math/rand` and `time` are represented only by the parameters named in the models (functions, random inputs, clock readings). C120 models the generator of `math/rand`, C121 the writers of `compress/*` at level 0. `encoding/json` is modelled for the values named under C86.

## 3. Properties

P = intended as a full proof, R = the property is false of the code and the refutation is proved, with the largest true part proved beside it.

| Property | Model | How |
|---|---|---|
| C01 | `regexSegmentMatch` as a step function on the two indices, the checkpoint and the restore flag | P. Invariant: the answer from a state is the specification on the remaining suffixes, or on the alternatives left at the checkpoint. A later star subsumes earlier alternatives. Termination by a lexicographic measure. |
| C02 | same | R (`a*bc` against `ab` reads past the end). Partial: the panicking pairs are characterised exactly (`overruns`: the segment is refused, and its last character fits the character after the last star up to which the pattern accepts it). Proved by running the search on the pattern cut off after each star side by side (`GlobExact_Proofs.v`). The routing theorems assume the negation (`calm`). |
| C03 | same | R (final `*` does not match the empty run). Partial: true for every star that is not final. |
| C04, C05 | `ParsePattern`, `validatePathSegment`, `determineMatchTypeForSegment` | P against a grammar on the slash separated pieces. |
| C06 | `ParsePattern` with its `uint8` counter | R (256 pieces give the pattern `/`). Partial: exactly which pieces are left of a longer pattern; true up to 255 pieces. |
| C07 | `ParseURLPath` | P against fold over pieces. |
| C08 | `ParseURLPath`, `Match`, `ServeHTTP` | R (served by `/`). Partial: true if `/` is not registered. |
| C09 | `ParseURLPath`, `PathVar` with `uint16` offsets | R (path of 65536 bytes or more). Partial: true below 65536 bytes. |
| C10 | `AddPattern`, `Match` | R for patterns whose constraint text is the whole text of another constrained piece. Partial: true for all others, with no restriction on `**`, order or path; and for all patterns with `meets` (`Loose_Spec.v`) in place of the engine, where a constraint that spells a constrained piece may be taken for the one of that piece. Proof: the loop refines a structurally recursive search (simulation over the explicit stacks; `Wide_Proofs.v` repeats it for nodes with 65536 children or more, of which the loop sees the first ones only, so that C09, C10, C16, C18 and C146 need no bound on the number of registrations), the tree invariant relates each leaf path to its pattern. |
| C11 | same | R four times (last segment on an inner node; `**` with children; a failed scan behind an inner `**`; the number of children taken as `uint16`, so that 65536 literal routes side by side are all lost, proved for every such set of routes). Partial, an equivalence: routed iff some route reads the request, for route sets with `**` only last and requests that no longer pattern cuts off (`not_cut` in `Choice_Spec.v`: where a pattern goes on behind the last segment, a route with the same beginning and a last piece that is the same or of a better kind matches, or no route with that beginning does; so `/users/{id}` beside `/users` is covered). Proof: the search visits the sibling subtrees in order, and each subtree reports the first leaf whose pieces read the rest; a child without a route that matches the last segment ends the search of its siblings, and `trie_ends` shows that a child before it has the answer or none has. With `**` anywhere (`Inner_Props.v`): the search finds a route if, wherever the request reads up to an inner `**`, a route through that `**` reads all of it (`not_stuck`), and no pattern cuts it off (`not_ended`); both hold by themselves for a method with one route. Proof: induction over the subtree; a `**` child that is entered is scanned to the end of the request, and the hypothesis gives the leaf below it. |
| C12 | same and `computePriority` | R (two wildcard texts that accept the same segment: all patterns below the first are tried first; and two `**`: all digits go to the last one). Partial under the hypotheses of C11 and equal wildcard texts wherever two matching routes agree in kinds so far. |
| C13 | same | R. Partial under the hypotheses of C12 and pairwise different kinds of the matching routes: every permutation gives the same handler and the same path variables. |
| C14 | `AddPattern` | R for constrained variables. Partial: exact for patterns without constrained variables. |
| C15 | `AddPattern` | R for patterns of more than 255 pieces (a refused call changes the segment counter of a node). Partial: up to 255 pieces a refused call changes no answer. |
| C16 | `Match`, `PathVar`; also with concurrent requests | R (a pattern of 257 pieces). Partial: patterns of at most 255 pieces. Two pieces on one node are alike, or the constraint of one spells the other (`near` in `Loose_Proofs.v`), so the segments at the variables are right even where the wrong constraint is asked. |
| C17 | `Match` | P: a measure of the work left on the path from the root decreases in every round, for every tree (`search_ends`), and the wildcard comparison of accepted patterns ends (`wildcards_end`). |
| C18 | `Match` | R (19 pieces with a `**` that covers nothing). Partial: true if every route has at most 18 pieces or `**` only last. |
| C19 | `computePriority` | R (17 pieces with eight `**`; 20 pieces with two `**`). Partial: for at most 19 pieces it is decided exactly. The number is seen as a list of digits; the loops only look at which digits are 6 and which are 0, so the outcome depends only on the places of the `**`; all shapes without neighbouring `**` are then run in the kernel and compared with the table of 67 shapes in `Spin_Spec.v`. Partial: with at most one `**`, up to 255 pieces. |
| C20 | `computePriority` | P on the class in the statement, by decimal expansion. |
| C21 | `Router.Handle` | P. |
| C22 | `Router.ServeHTTP` as a trace of visible steps | R (a handler that returns neither response nor error). Partial: exactly one documented outcome under the hypotheses of C11; all steps on any router, the segment buffer going back with 19 zero segments. |
| C23 | A machine with threads, a heap and pools (`Pool_Model`); `ServeHTTP`, `PathVar` and the deferred reset in single-segment steps; routing cut in any way that decides like the sequential model | P: ownership invariant over all schedules (each thread alone with its own objects and with objects nobody changes any more; pooled objects look new), also no data race. |
| C24 | same, with `Clone` | P as a consequence of the same invariant; a clone handed to a goroutine becomes an object nobody changes. |
| C25 | `resolvePath`, `RouteUsingPathPrefix` | R (a prefix equal to the current one is dropped). Partial: exact otherwise. |
| C26 | slices with capacity on a heap, muxes as objects | R (`RouteUsingPathPrefix` with the same or an empty prefix returns the receiver). Partial: refinement to value semantics for all other histories. |
| C27 | `wrapMiddleware`, `HandleRequest` | P over arbitrary lists; traces of observing middlewares. |
| C28 | `PanicRecover`, `ErrResponse` | R for `panic(nil)` under Go 1.19. Partial: every other panic value. |
| C29 | `Error2HttpStatusCode`, `ErrResponse`; `errors/errors.go` (`C29_offered`) | P. |
| C30 | `Permission.Implies`, `Auth_*` | R (a last level also matches its own repetition). Partial: exact characterisation, and the described rule where no level repeats. |
| C31 | `Role.HasPermission` | R (a request for two bits of which one is denied). Partial: a request covered by one denied permission is refused. |
| C32 | `User`, `Group` | P, with monotonicity in the groups. |
| C33 | `ParsePermission`, `NewPermission`, `String` | P: round trip, exact accepted texts, injectivity. |
| C34 | `Authorize*`, `SecurityPrincipalSupplier` | P with handlers that record their execution. |
| C35 | `InMemory`; clock readings are arguments of the calls | P over all histories. |
| C36 | CSRF middleware on the in-memory cache, around any handler that does not use that cache | P: for all sequential histories the outcome, the effects and the nonce in the context are those of a separate event specification, which has exactly one solution. Single use follows. The cache of the model never fails. |
| C37 | The three cache calls of the middleware as atomic steps, any schedule | R (both requests check before either removes). Partial: in every schedule a request that passes carries an issued, unexpired nonce; single use if nothing comes between check and removal and the nonce is drawn once. For the race inside the map of `InMemory`, which has no lock, see C92. |
| C38 | `generateNonce` on 16 bytes of the random source | P against a hexadecimal decoder. |
| C39 | `Cors` and all its helpers, `ParseRequestURI` and `URL.Port` of net/url (no percent signs reach it) | R (origin that repeats the port). Partial: all other requests with a web scheme or none. |
| C40 | `Cors` around any handler with a state | R for all handlers. |
| C43 | `SecurityHeaders` with its cached texts, over histories of requests | R (`XFrameOption` Deny/SameOrigin do nothing; nil response). Partial: everything else exactly. |
| C44 | `HttpHeadersResponse.Write` and the writes built on it, on a writer with a header snapshot and informational statuses | R (status 100 to 199; two spellings of a name; custom Set-Cookie). Partial: all iteration orders, status 200 to 999, one spelling per name, any writer with headers already on it; invalid status writes nothing. |
| C45 | `HttpRedirectResponse.Write`, `http.Redirect` | R for all redirects. Partial: status, Location and the headers already on the writer are sent. The Location text that `http.Redirect` makes is a parameter (C135 has it). |
| C46 | `HttpCookies.Add`, `NewHttpCookie` | R (colon in path or domain). Partial: names and domains without a colon, any sequence of calls. |
| C47 | `ServerSentEvent.String`, `HttpSSEResponse.Write` and a separate event stream reader | R (line break; no data). Partial: exact for fields without line breaks. |
| C48 | `HttpSSEResponse.Write` | R for every stream without a custom Cache-Control. Partial: a custom one is sent. |
| C49 | `getCompressionAlgorithmFromHeaderValue`, `HttpCompressResponse.Write` | R (`compress`; weights). Partial: the encoding used is listed, exact without weights, label sent. |
| C50 | Both OAuth endpoints on the cache; providers are arbitrary functions on the world | P for all histories, as an equivalence. Without a cache the state is not checked at all, as the statement says. |
| C51 | same | R (the state stays in the cache until it expires). |
| C52 | `generateUniqueId` on a stream of numbers | P, and every text of the alphabet is reached. The source is `math/rand`, never seeded by the code; what its numbers tell about one another is C120. |
| C53 | Same machine with the two map pools; `Headers`, `Cookies`, `Set`, `Add`, `Release`, the loops of `HttpHeadersResponse.Write` | P by the same invariant, for programs that do not use a map after it was released. |
| C54 | `Headers().Set` and `Cookies().Add` of each response kind | R, exactly for hijack and compressed nil. Partial: all other kinds, under any number of compressions. |
| C55 | `errorToString` | R for every first byte above 127. Partial: ASCII. |
| C58 | CSRF middleware; the form is nil until `ParseForm` is called, which nothing in gofre does before the middleware | R (always refused). Partial: passes once something has parsed the form. |
| C59 | `NewMuxHandler` | R (handlers ignore the context path). Partial: static resources. |
| C60 | `FetchAccessToken`, `FetchAuthenticatedUser` from the decoded answer on | R (GitHub answers a wrong code with status 200 and an error object: the type assertion panics). Partial: exactly which answers make the fetch of token and user panic. |
| C61 | `InitiateUrl` of both providers | R (GitHub without own scopes). Partial: GitHub with own scopes, Google always. |
| C62 | `InitiateUrl`, `url.Values.Encode` | P against a query decoder, for all byte strings: the query has exactly the values that went in. |
| C63 | redirect URL, `resolvePath` | R (empty base path below a prefix that ends with a slash). Partial: true for every other base path. |
| C56, C57 | `Permission.Implies`, `AllPermissions` | P: implication is a preorder; the permission for everything covers exactly the nine defined bits. |
| C64 | `HttpCompressResponse.Write`; compressors are arbitrary machines whose output decodes to their input | R (two layers; custom Content-Encoding). Partial: the client reads status and payload. What the coding `deflate` means in HTTP is C121. |
| C65 | `HttpSSEResponse.Write`, both `Flush` | R behind any compressor. Partial: without compression. |
| C66 | `HttpHijackConnectionResponse.Write` | R behind compression and over HTTP/2, where the callback gets an error. Partial: without compression over HTTP/1.x. `C66_told`: in all cases the callback gets the connection or an error, whichever is true; the callback is any function, so what it gets is seen from whether it panics. |
| C67 | same as C64 | R, and the header is kept for all compressed responses. net/http refusing to write past the declared length is not modelled. |
| C68 | `HttpHandlerAdaptorResponse.Write` | P. |
| C69 | `Write` of text, JSON, raw, stream, template and event stream responses | P. |
| C41 | `isSameOrigin` | R (no absolute URL, i.e. every browser request; port other than default; default port left out). Partial: absolute URLs without port, or with the default port on both sides. |
| C42 | `addVaryHeader`, and the writing of responses for the refutation | R (lower case key). Partial: key `Vary`, all values. |
| C70 | as C39 | R (POST without media type). Partial: everything else, exactly, with the accepted origins stated byte by byte (Origin_Spec.v). |
| C71 | `addStandardCorsHeaders` | R (any origin). Partial: listed origins. |
| C72 | `addStandardCorsHeaders`, `addVaryHeader` | P. |
| C73 | `addStandardCorsHeaders` | P. |
| C74 | `Cors` | P. |
| C75 | `isValidOrigin` with `ParseRequestURI` | P, also exactly (Origin_Spec.v). |
| C76 | `Write` of all responses with standard fields | R (event streams; compression). Partial: all other kinds. |
| C77 | `HttpHandlerAdaptorResponse.Write` on the net/http writer | P. |
| C78 | Muxes, router, chains, static resources, debug endpoints and response writing put together | R (static resources, debug pages). Partial: all other registrations; independence from handlers for all programs. |
| C79 | The application of C78 with `SecurityHeaders` | R (404, 500, static resources). Partial: responses that are written. |
| C80 | The application of C78 with `Cors` | R (preflight). Partial: a response is written only if allowed. |
| C81 | The application of C78 with `http.StripPrefix` | R (letter case, doubled slashes, dots, the directory). Partial: all other requests; the client gets what the file server writes. |
| C82 | The application of C78 with the paths of `pprof.Index` | R (prefix). Partial: the first mux. |
| C83 | The application of C78; registrations as `wires` derives them from the calls | R (the case of C10 in a whole program). Partial. |
| C84 | The application of C78 | R (the case of C12 in a whole program). Partial. |
| C85 | The application of C78 | R (20 literals; the handler of `/` answers). Partial. |
| C86 | `json.Marshal` for nil, booleans, integers, strings, slices, maps and structs without tags, with the UTF-8 decoder and the escapes of Go; the grammar of JSON (RFC 8259) and UTF-8 as inductive relations in `Json_Spec.v` | R (status 204). Partial (types of payloads). Proof: the encoder follows the grammar, by induction over the payload and over the characters of a text; the grammar is unambiguous, by mutual induction over values, elements and members, where each text is followed by a byte that cannot belong to it. |
| C87 | `ErrJsonResponse`, `Error2HttpStatusCode`, `Error` of the errors, and C86 | P. |
| C88 | `PanicRecover` with the text of its error | R (all of the stack is in the body if `ErrJsonResponse` is outside). Partial: the other order. |
| C89 | `RequestDumper`; the maps of the header and the form are references that are read after the handler; clock and logger are parameters | R twice (failed handlers, changed headers). Partial: all other handlers, against a list of the members that the text has to have. |
| C90 | same | P. |
| C91 | same, with the maps that `Headers` and `Cookies` create | R (nil). Partial: all other responses. |
| C92 | `InMemory` as a Go map with the flag of the runtime that marks writers; calls begin and end in separate steps; the CSRF middleware as goroutines that make such calls | R twice (two additions; a check during an addition). Partial: the exact condition by an invariant (the flag is set iff somebody writes, never two at a time); calls that do not overlap; only forged requests; a refinement to the single steps of C37. |
| C93 | `Cache_Model`, `csrf` | R, for any number of visits. Partial: the entries after any history of calls. |
| C94 | `csrf` on requests with arbitrary further content | R, universally. |
| C95 | The two OAuth endpoints on requests with arbitrary further content | R, universally. |
| C96 | same | R, universally. |
| C97 | The field `headerValue` as two words, each read and written in one step | R for one order of the writes. Partial: the other order, by an invariant over all schedules. |
| C98 | `FetchAccessToken` of both providers up to `HttpClient.Do`, with `url.Values.Encode` and `json.Marshal` | R, universally. Partial: by the decoding of forms (C60) and what JSON texts say (C86). |
| C99 | `FetchAuthenticatedUser` of both providers up to `HttpClient.Do`, which refuses control characters in headers | Proved. |
| C100 | What `FetchAccessToken` makes of an answer | R, universally. Partial: a token comes out exactly if `github_grants` or `google_grants` say so of the answer, with all fields. |
| C101 | What `FetchAuthenticatedUser` makes of an answer | R twice. Partial: an exact characterisation of identities. |
| C102 | The two OAuth endpoints (C50) with the two providers, over an arbitrary other side | Partial: soundness for all histories via C50, and completeness when the other side answers, also with bodies (the decoder of C145). |
| C103 | The loop of `HttpSSEResponse.Write`, the channel and the context as a labelled transition system over an arbitrary generator | Proved, by invariants over all runs. |
| C104 | same, and the goroutine of the example | R twice. Partial: the last step, and a generator that watches the context while it sends. |
| C105 | `EventGenerator` of the example with its atomic operations as steps, any number of clients, `strconv.Atoi` | R, universally. Partial: an invariant. |
| C106 | same | R three times. Partial: an invariant about the slots of the ring. |
| C107 | same | R, universally. |
| C108 | `main` of the example as a list of registrations on the model of C78 to C85, with its handlers and middlewares; rendering, the image, the OAuth handlers and the event stream are given | Proved for up to 19 segments: no two registrations lie side by side, by computing over the pieces of the patterns, so that C84 applies to all paths. R for longer ones, universally. |
| C109 | same, with the JSON encoder of C86 | Proved. |
| C110 | same, with the permission parser of C33 and the model of C32 | Proved: the last colon of the permission is found, in the scope or in the segment, which holds no slash. |
| C111 | same | Proved. |
| C112 | same; a template is what it writes and whether it fails | R, universally. Partial: templates that work. |
| C113 | same; a file is what is read from it and whether reading fails | R, universally. Partial: files that can be read or cannot be opened. |
| C114 | same; the world after opening has the open file, and nothing in the handler or in the response closes it | R, universally. |
| C115 | Router and matcher as for C12; inclusion of the accepted segment lists as a relation | R. Partial: inclusion implies the left to right comparison, by induction over both patterns, so that C12 applies. |
| C116 | `computePriority`, `HighPriorityThan` | R (two `**`). Partial: the digits around the `**` are moved apart (with the digit lists of C19), then by decimal expansion. |
| C117 | `HighPriorityThan` | Proved. |
| C118 | `handle_oauth_at`, `login_start`, `login_return` in Login_Model behind the router and the response writer | R (prefix with a variable). Partial: both requests are followed through the registrations, the router and the response writer; the segments of the redirect URL are computed from the pieces of the registered pattern. |
| C119 | the program of C108 with `example_oauth` (configuration of cmd.go) and the providers of C98-C102 | R (scope of GitHub). Partial: the two requests of a login through the routes of C108 and its common middlewares, with all refusals, for an arbitrary handler; for `example_home` (cmd.go 53-61) the JSON body that says the token and the user of the provider's answers. |
| C120 | `rngSource` of math/rand in Go 1.19 with any content, as `generateUniqueId` uses it when the draws come from logins only | R, universally: number n is the sum of numbers n-607 and n-273, so each letter has two possible values. Partial: the words can be chosen so that the first 600 letters are any letters. Seeding is not modelled. Later toolchains seed another generator at random when the code does not seed. |
| C121 | `HttpCompressResponse.Write`; `compress/flate` and `compress/gzip` of Go 1.19 at level 0 (stored blocks, gzip header, CRC-32, length); other levels are arbitrary machines | R for deflate at every level, for each machine whose first byte is the start of a block as `compress/flate` writes it. Partial: at level 0 a reader of the gzip format, checks included, gets the body. The zlib reader of the specification reads stored blocks only; the refutation does not depend on that, since the first two bytes are wrong. |
| C122 | `Error2HttpStatusCode` and `ErrResponse` on Go error values: wrapping, pointers, identity of the three variables | R for every wrapped or pointed to error. Partial: unwrapped ones. The variable `Error2HttpStatusCode` can be replaced by programs; the model has its initial value. |
| C123 | as C122, with `ErrJsonResponse`, `PanicRecover`, the end of `ServeHTTP` and `JsonErrorHttpResponse`; a method called on nil panics | R for all errors without a message. Partial: the others, down to the bytes of the body. `C29_go_values` shows that the errors of the other models are such values. |
| C124 | `http.FileServer`, `http.Dir`, `path.Clean` and `filepath.Join` of Go 1.19 byte by byte, behind the registration of `NewMuxHandler` | Proved: `path.Clean` writes down the place to which a path leads; the names opened are the place of the directory followed by names. Links in the file system are not modelled; neither are systems with another separator. |
| C125 | as C124, with `serveFile` | R in a program for every file system. Partial: the file server alone, and what the client of a program as in C81 gets. How contents are sent (types, ranges, conditional requests) is an arbitrary function. |
| C126 | as C124, with `dirList` | R for every directory below. Names with characters that HTML escapes are shown escaped. |
| C127 | as C78 with the writing of all responses (C62 to C77), whose bodies may panic | R with `ErrResponse` and `PanicRecover` around every faulty adapted handler and every panicking template. `breaks` lists the responses whose writing panics. Partial: full case analysis of the request under `PanicRecover`, without static resources and debug pages. |
| C128 | all functions that make responses | R for every template of another type. Partial: `promised` lists per function the page it announces; every response so made sends that page. |
| C129 | `gofre.go` 24-151 over a memory of configurations and resources reached by pointers | Case analysis; the application of C78 is the one for the values given. |
| C130 | as C129 | R for every mux with resources and every value written. |
| C131 | as C129, with the end of the process as an outcome | R for every parser that fails on the default pattern. |
| C132 | as C129 and C128 | R for the default configuration in every store. |
| C133 | `auth.User` as encoding/json sees it, with the encoder of C86 | R with two bytes that are no UTF-8. Partial: `shows_user` describes the JSON value; texts in UTF-8 are determined by their characters. |
| C134 | as C13 | R (`/a/{x}` and then `/a/b/c`). Partial: the choice of C12 is unique among the routes that read the request, so any two routers with the same such routes answer alike. |
| C135 | `http.Redirect`, `url.Parse`, `path.Clean`, `path.Split` and `hexEscapeNonASCII` of Go 1.19 as functions of the request path and the URL, in `HttpRedirectResponse.Write` | R for every redirect to a query or to the dot. Partial: references are read in one way only (`reads`), and the rewritten one has the same target by RFC 3986, 5.2; which references are rewritten is shown in both directions, also with a user and no host. |
| C136 | as C135; browsers skip tabs and line breaks and read a backslash as a slash (WHATWG URL) | R for every host name. Partial: the text sent begins with one slash, or is the URL itself. |
| C137 | as C135, with `htmlEscape`, also inside a compressed response | By the reading of escaped texts of C126 and the promise of the compressors of C64, for all bytes. |
| C138 | `http.SetCookie` and `Cookie.String` of Go 1.19 in `HttpHeadersResponse.Write`; the reading of a browser (RFC 6265, 5.2) is the spec | R for every name that is not a token. Partial: by C44 and the text of a cookie as a list of parts. |
| C139 | as C138, with `readCookies` of Go 1.19 | R for every value with such a byte. Partial: a text split at semicolons, blanks dropped and quotes removed gives back the parts it was joined from. |
| C140 | as C138, with `validCookieDomain`, `isCookieDomainName` and addresses of four numbers | The text has no semicolon but those between its parts; the accepted domains are stated as host names and addresses (`domain_of`) and the loop is shown to accept just those. |
| C141 | `AddPattern` 107-130 in four steps and the loop over the children of the root in `Match`, on arrays with capacity | R for all routers with spare capacity and a new child that is not the last. Partial: an invariant over all interleavings says what a lookup has read; requests are answered alike when the search among the children finds the same child (a simulation of the matching loop). |
| C142 | `RequestDumper` 34-41 with `readCookies` and `Cookie.String` of Go 1.19 | The loop over the texts between semicolons reads just the cookies that the relation `cookies_in` names; the text in the log by C89's lemma. |
| C143 | `Handle` and the lookup of `ServeHTTP` as goroutines on a heap of matchers and the Go map with the flag of the runtime | R three times, for all routers and any further goroutines. Partial: the exact condition by an invariant on the flag; an invariant that relates heap and map to the router of the calls made so far, in the order in which they reach `AddPattern`. |
| C144 | `HttpHandlerAdaptorResponse.Write` with `http.SetCookie`, the handler as a list of what it does to the writer | R for every writer. Partial: without such a header; a handler that leaves a header alone leaves it in what is sent (as C68). |
| C145 | `json.Decoder.Decode` into a map (encoding/json: scanner, strings, numbers, nesting limit), as one recursive function in JsonDec_Model.v | R: what follows; null. Partial: equivalent to a grammar of JSON written separately (JsonDec_Spec.v), with texts of C86's grammar as special cases; numbers other than small whole ones are converted by an arbitrary function. |
| C146 | Matching contexts as values with pointers to a URL and an array: passing, `Clone`, other requests, new URL paths, bounds, `Reset`, assignments, `PathVar` | R for every request with a variable. Partial: a record of who touched what, kept by the deeds alone, goes along with the memory; the values are those of C16. |
| C147 | Counters of the calls of `matchUrlPathSegment` along the steps of `Match` | P: what is left to do at the levels of the search pays for each round; a level that stands at a `**` is never left upwards, so nothing above it counts any more. The tree has no more nodes than the accepted patterns have pieces. R for the plain product. That the count leaves nothing out: two regular expression engines that agree on the counted comparisons give the same answer. |
| C148 | Counters of the rounds of the loops of `regexSegmentMatch` along its steps | P: each return to a star moves the remembered position in the text on, and pays for going through the rest of the piece once more. Lower bounds by following the steps for a family of texts. |
| C149 | The search of C147 where each comparison with a wildcard piece counts with the rounds of C148 | P: every node of the tree has only wildcard pieces without adjacent stars that are not longer than the longest pattern, also while the search goes on; so each comparison costs at most the bound of C148, and C147 bounds their number. |
| C150 | `CompressResponse` and `NewHttpCompressResponse` as in C64, with `ErrResponse` | P by cases on the range. |

## 4. Trusted base

* Coq's kernel, version 8.16.1, and `coqchk`.
* The axioms listed by `Print Assumptions` for each theorem. The aim is none: every theorem should be "Closed under the global context". The outputs are checked in section 5.
* The transcription of the Go code into the `*_Model.v` files, and the parameters that stand for the standard library (section 2).

Modelled: see the table above. Not modelled:

* the parsing of templates (any function from patterns, C129), template rendering and compression at levels other than 0 (the models take them as arbitrary functions or machines), JSON encoding of structs with tags, floats and values with their own encoding;
* of the OAuth exchanges with the providers: the conversion of JSON numbers that are not whole or beyond 2^53, errors while a body is read, redirects, timeouts and headers that net/http adds;
* TLS, the standard library handlers behind debug endpoints (the pages of pprof and expvar), how the file server sends the content of a file, and logging formats;
* registering handlers while requests are served beyond C141 (deeper nodes, routes with several pieces, weak memory) and C143 (where `AddPattern` is one step);
* which cookies a browser keeps, replaces and sends to which path and domain (C139), and cookie domains that are addresses with colons;
* letter case and white space outside ASCII;
* data races other than those on the recycled segment buffers and the recycled header and cookie maps (C23, C53), on the cache map (C92, without what two overlapping calls read before the runtime notices), on the map from methods to trees (C143) and on the cached security headers (C97).

## 5. Assumptions printed

`Print Assumptions` stands beneath every theorem of the `*_Props.v` files and prints "Closed under the global context" for each of them: no theorem rests on an axiom.

`coqchk -o` lists seven axioms `Coq.ssr.ssrunder.Under_rel.*` of the standard library. They belong to a library file loaded by `Lia`; no theorem uses them.
