# Formal model of connectrpc/connect-python: design

## 1. What is modelled and how

The model is a *shallow*, function-by-function transcription of the Python source in `/repo` into total,
computable Gallina functions. Nothing is extracted or run; each definition carries a comment naming the
file and lines it models and says where it simplifies.

Conventions

* `str` is `list N` (code points), `bytes` is `list N` (values `< 256` where it matters; theorems that need it say
  so with `Forall is_byte`). A Python `dict` is an association list in insertion order.
* Exceptions are values: `exn` distinguishes `ConnectError(code, message, details)`, `HTTPException`, and other
  exceptions by kind (`TimeoutError`, `ValueError`, stream reset, ...). `CancelledError`/`GeneratorExit`
  (not subclasses of `Exception`) are separate outcomes.
* Codecs and compressions are records of *functions* (encode/decode, compress/decompress/name) quantified over in
  every theorem. When a theorem needs `decode (encode m) = m` that is a hypothesis of the theorem.
* Standard-library functions the code relies on (`str.lower` (ASCII), `strip`, `partition`, `int()`,
  UTF-8, `base64`, `urllib.parse.quote/unquote/urlencode/parse_qs`, `json.dumps/loads`, `struct.pack`, float
  multiplication) are modelled concretely, not assumed, and were compared with CPython 3.11 on many inputs.
* Server methods are arbitrary *programs*: an inductive tree of actions (pull a request message, yield a response
  message, set a header/trailer, raise, be cancelled, return). Quantifying over the tree quantifies over every
  method behaviour that terminates. Schedules (disconnect time, cancellation point, send failure,
  short reads) are explicit arguments.

Layout of `rocq/theories`: `M*.v` model definitions only; `S*.v` independent specifications; `L*.v` lemmas;
`P*.v` property theorems, each closed by an already proved lemma and followed by examples showing its hypotheses are met.

## 2. Plan per property

| id | model | proof |
|----|-------|-------|
| C01 | envelope reader state machine, one `feed` per chunk | feeding `a++b` = feeding `a` then `b`; induction on chunks; lifted to client calls in `PMixed` and to requests on both servers in `PPieces` (`SPieces`: what the pieces of a request deliver) |
| C02 | writer + reader | induction on messages, reader on a concatenation of frames |
| C03 | reader | invariant over all inputs of the reader loop |
| C04 | reader | same |
| C05 | writer, `struct.pack` | big-endian arithmetic |
| C06 | reader, end message | holds when the rest is in the same chunk; refuted otherwise (finding) |
| C07 | server request stream, client stream | expected refuted (finding) for server and Connect client; proved for gRPC |
| C08 | Connect client stream | expected refuted (finding) |
| C09 | gRPC client reader | case analysis over all responses |
| C10 | JSON printer/parser, base64, wire error | round-trip lemmas composed |
| C11 | Connect end message | as C10 |
| C12 | gRPC trailers, percent encoding, protobuf Status | round-trip lemmas |
| C13 | gRPC-Web trailer block | line splitting lemma + C12 |
| C14 | code tables | case analysis + decimal printing |
| C15 | validate_response + unary client | total case analysis |
| C16 | status tables against a separate specification table | case analysis |
| C17 | from_exception through each protocol | composition of C10-C13 |
| C18 | client call as function of transport outcome | case analysis; stream path expected refuted in one corner |
| C19 | reset table, clock | case analysis |
| C20 | Headers | refinement to a history-based specification, induction over histories |
| C21 | Headers | invariant + refinement |
| C22 | client create_request_context; `MHeap` for the copy | via C20; C88 |
| C23 | unary header/trailer packing | list filtering lemmas |
| C24 | end messages per protocol | round trip |
| C25 | ResponseMetadata stack machine | induction over histories; reuse expected to merge (finding) |
| C26-C28 | timeout printer/parser with exact binary64 multiplication | Z arithmetic |
| C29 | `int()` model | expected refuted (finding) + proved part |
| C30 | connect timeout | decimal round trip |
| C31 | `timeout_ms or default` | expected refuted for 0, proved otherwise |
| C32 | RequestContext deadline | arithmetic |
| C33 | content-type negotiation | string prefix lemmas |
| C34 | negotiate_compression | list induction |
| C35 | servers | proved for unary and gRPC; refuted for Connect streaming (finding) |
| C36 | method gate | case analysis |
| C37 | server functions return a trace with method invocations | case analysis |
| C38 | consume_single_* | list induction |
| C39 | ASGI server trace | induction over method program |
| C40 | WSGI server trace | induction; expected refuted corner (finding) |
| C41 | ASGI stream with cancellation | expected refuted (finding) |
| C42 | ASGI stream with disconnect schedule | induction |
| C43 | WSGI body read loop over a read schedule | induction |
| C44 | all unary readers | proved for POST and client; refuted for GET (finding) |
| C45 | urlencode/parse_qs/base64 | round trip |
| C46 | ASGI vs WSGI stream functions | simulation; listed divergences refuted |
| C47-C49 | interceptor composition over an abstract trace monad | list induction |
| C50 | lifespan loop | induction over events |
| C51 | client with closed flag | expected refuted (finding) |
| C52 | URL construction and routing | string lemmas |
| C53 | snake_case regex model | induction; distinctness expected refuted |
| C54 | OTel on_start/on_end | expected refuted for addresses without a numeric port (finding) |
| C55 | asyncio timeout state machine | invariant over all interleavings |
| C56 | unary servers | proved for WSGI; refuted for ASGI (finding) |
| C57 | stream servers | induction over method program |
| C58 | base64 | induction in steps of three bytes |
| C59 | quote/unquote | induction over code points |
| C60 | servers | ASGI proved; WSGI mid-stream expected refuted (finding) |
| C61 | request bodies of both servers | case analysis over what the server reports; WSGI streams refuted (finding) |
| C62 | both client classes (one model, told apart by a flag wherever their code differs) | equality of results over every call; two refutations (findings) |
| C63 | the generated base classes (`gen_stub`) behind the generated endpoints, both servers, all clients | composition of C52 and C33 |
| C64 | `ErrorDetail`, `ConnectError.__init__`, over the protobuf runtime as a record with laws (`lawful`) | composition of C10/C33 with the laws; two refutations (findings) |
| C65 | end of streaming responses on both servers (`stream_finally`, `end_response`, the three envelope writers) | invariants over every method and environment; cancellation left to C41; one refutation (finding) |
| C66 | dispatch and response start on both servers for gRPC and gRPC-Web | invariant over the events of a call; refuted for malformed timeouts (finding) |
| C67 | `Headers.__eq__` (inherited), the objects `allitems()` returns, over time | induction over histories; six refutations (findings) |
| C68 | the request context as made by both `__call__`s, for all four kinds of methods | congruence: methods that agree on the contexts that describe the request give the same response; specification in SContext.v from the scope / environ alone |
| C69 | WSGI calls whose body is closed after n chunks (`MStop`) | simulation between the loop that is cut and the one that is not, by induction over the method; laziness as a congruence |
| C70 | the instrumentor with the hooks and wrapper layers of the two modules (`MInstr`) | invariant over histories of switching and importing |
| C71 | the `class` statements of a generated module and their effect on its namespace (`MFile`) | class names determine service and role; last definition of a name |
| C72 | `_message_ident`, `_module_name` (`MFile`); Python's relative imports in the specification | splitting and joining of names |
| C73 | both servers (`MAsgi`, `MWsgi`); Vary as HTTP reads it in the specification (`PCache`) | two runs compared: what a GET response can depend on |
| C74 | the iterator of a streaming call as a machine that is asked, closed or interrupted, with what the HTTP library sees (`MIter`) | invariant over all sequences of uses; the machine run to its end is the call of `MClient` |
| C75 | the same machine, with the envelope reader suspended at each message (`MEnvelope`, `MIter`) | induction over the messages and the parts of the body |
| C76 | a stream on the ASGI server as the list of what is asked, received, given, yielded and sent (`MDuplex`) | invariant on the request stream: what is buffered, as frames; agreement with `MAsgi` |
| C77 | a request to the WSGI server as the list of what is asked, read, given, yielded and handed over, with what is left of the input (`MTalk`) | the outcomes without draining are the successful ones; what was read plus what is left is the body; agreement with `MWsgi` |
| C78 | the same conversations | invariant on the request stream: what is buffered, as frames |
| C79 | the readers (`MEnvelope`) and the conversations (`MDuplex`, `MTalk`) | what is held is the rest after the last whole frame |
| C80 | the content of a request as a generator between the HTTP library and the application's iterator (`MSend`) | invariant over all sequences of uses; agreement with `MClient` |
| C81 | `MDuplex`: the conversation with the events the server will report as a list | relational invariant over pairs of positions of the request stream: same result, or traces that part at the first reception after the common prefix; the interactive client by recursion on the number of receptions |
| C82 | the conversations of MDuplex and MTalk against a direct dialogue between a client application (a function of the responses) and the method | induction on the method, with an invariant on the reader: what has arrived beyond the messages told is a beginning of what the client has written and the method was not yet told |
| C83 | whole requests and calls (asgi_call, wsgi_call, execute_unary) that differ in the content type only | normal form of a header value = the media type it names; congruence of both servers in every other header |
| C84 | `MEndless`: methods as coinductive step sequences; the request after n steps of the method | agreement with the finite model on the first n steps, monotonicity, termination when a step is answered by an exception |
| C85 | `MWrap`: methods as generators wrapped by interceptors, run by the server models; the client models as the functions clients wrap | step-by-step agreement of wrapped and bare methods, lifted through both servers; step equality of guarded stacks |
| C86 | `MServe`: one application object, any number of calls advanced in any order, on top of the lifespan (C50) and request (C84) models | invariants of the shared object over histories, and the state of one call as a function of its own turns |
| C87 | `MAsgi`, `MWsgi`, `MWire` as they are; `SAccept`: Accept-Encoding as HTTP defines it | the response in terms of the negotiated compression; lists as pieces between commas |
| C88 | `MHeap`: Headers objects, dictionaries and lists as objects with addresses; `SHeap`: one history of operations per object | ownership invariant: the cells of different objects are disjoint, and each object's cells represent the value in `MHeaders` |
| C89 | `MAsgi`, `MWsgi` as they are; `SBlind`: the header names that concern the protocol, methods that cannot tell two contexts apart | both runs step by step: the code reads headers only through the listed names |
| C90 | `MClient` with its clocks; `MAsgi`, `MWsgi` | the ways a stream can end with success; C89 for servers |
| C91 | `MAsgi`, `MWsgi` as they are; `SReply`: programs, codecs and connections that give Unicode text only | invariant of the response headers and trailers along the method; the writer's end message exists for every such state; shapes of the event lists; C56 for unary Connect |
| C92 | `MAsgi`, `MWsgi`, `MProtocol` as they are; `SRefuse`: the faults of a head and the response to each | case analysis of the checks, in their order; the converse by exhaustion of the faults |
| C93 | `MAsgi`, `MWsgi` as they are; `SCut`: the message at which a method is cut short and what closing does there | induction over the run of the method up to the message |
| C94 | the links of `SLink` between any client and any server; `SSame`: outcomes and metadata a caller cannot tell apart | both calls show their caller what the method did (C33), hence the same |
| C95 | `MRetry`: calls of clients with interceptors in which every request has its own times and response; `SRetry`: requests that say the same, a retrying interceptor | induction over what the interceptors do; induction over the retries |
| C96 | `MLook`: streams whose steps run in the scope of whoever asks, with the scopes of `MScope`; `SLook`: readable end-of-stream messages, histories of many streams | a relation between readers that differ in the metadata only, kept by every step; induction over the history |
| C97 | `SNewer`: bodies that say the same to an older client; the client is that of `MClient` | reading a body depends on the known members only; the frames before the end-of-stream message are read alike |
| C98 | `SQuery`: how bytes, texts, parameters and query strings may be written; the applications are those of `MAsgi` and `MWsgi`, the parser that of `MPercent` | induction over the written form: parsing gives the parameters back; the applications look at first values only |
| C99 | `SProxy`: the lines each protocol gives a meaning to and responses alike in them; the calls are those of `MClient` | the client asks its headers and trailers only for those names; what a ResponseMetadata holds decides nothing but whether there is one (simulation of the reader) |
| C100 | `SOnce`: responses without messages and the two places of a status; the calls are those of `MClient` | the reader of an empty body is the new one; the reader of a trailer frame holds its lines (as in C13); the end depends only on the chosen lines |
| C101 | `SLines`: the ways to write a block of trailers, and bodies that agree on the status lines; the calls are those of `MClient` | induction over the written form: the reader gives the lines back up to case; the end depends only on the first line of each name |
| C102 | `SMixed`: frames with the same contents, and networks that differ in nothing else; readers and calls are those of `MEnvelope` and `MClient` | a frame is read by its contents and end flag only; a reader left at a message knows nothing but that there was one |

Cannot be expressed in the model: real-time behaviour (how soon a timer fires), memory use, the byte-level behaviour of
third-party libraries (pyqwest, protobuf runtime beyond the `Status` message, brotli/zstd), thread interleavings inside those libraries.

## 3. Which code is modelled, and where

| source (`/repo/src/connectrpc` unless said otherwise) | model | theorems |
|---|---|---|
| `_headers.py` | `MHeaders`, `MView` (equality, views as objects), `MHeap` (objects with identity) | `PHeaders`, `PView`, `PHeap` |
| `_envelope.py`, end messages of `_protocol_connect.py`, `_protocol_grpc.py` | `MEnvelope` | `PEnvelope`, `PHold` |
| `_protocol.py` (wire errors), `errors.py` (`ConnectError` as a value; `ErrorDetail` in `MDetail`), `code.py`, `_compression.py` | `MWire` | `PText`, `PProtocol`, `PUnary`, `PAccept`, `PNewer` |
| `_response_metadata.py` | `MWire` (reports), `MScope` (scopes), `MLook` (streams in scopes) | `PScope`, `PLink`, `PLook` |
| timeouts in `_protocol_connect.py`, `_protocol_grpc.py`, `request.py` | `MTimeout` | `PTimeout` |
| `_protocol_connect.py`, `_protocol_grpc.py`, `_protocol_server.py`, `request.py`, `method.py` | `MProtocol` | `PProtocol`, `PMedia` |
| `_client_async.py`, `_client_sync.py`, `_client_shared.py` | `MClient` (one model, `cl_sync` selects the variant), `MIter` (the iterator of a streaming call, step by step), `MSend` (the content of a request, step by step), `MRetry` (calls made again by interceptors), `MLook` (streams and ResponseMetadata blocks) | `PClient`, `PLink`, `PUnary`, `PSame`, `PIter`, `PSend`, `PRetry`, `PLook`, `PNewer`, `PProxy`, `POnce`, `PLines`, `PMixed` |
| `_server_shared.py`, parts common to both servers | `MServer` | |
| `_server_async.py` (requests) | `MAsgi`, `MDuplex` (streams as conversations, in the order of events), `MEndless` (methods that never end) | `PRequest`, `PResponse`, `PBody`, `PParity`, `PStatus`, `PAnswer`, `PContext`, `PCache`, `PDuplex`, `PCausal`, `PDialogue`, `PEndless`, `PBlind`, `PReply`, `PRefuse`, `PCut`, `PQuery`, `PPieces` |
| `_server_async.py:86-176` (lifespan) | `MLifespan`, `MServe` (one application object shared by concurrent calls) | `PLifespan`, `PServe` |
| `_server_sync.py` | `MWsgi`, `MStop` (bodies that are not consumed to the end), `MTalk` (requests as conversations, with what is left of the input), `MEndless` | `PRequest`, `PResponse`, `PBody`, `PParity`, `PStatus`, `PAnswer`, `PContext`, `PCache`, `PLine`, `PStop`, `PTalk`, `PCausal`, `PDialogueW`, `PEndless`, `PBlind`, `PReply`, `PRefuse`, `PCut`, `PQuery`, `PPieces`, `PSurplus` |
| `_interceptor_async.py`, `_interceptor_sync.py` and their application in clients and servers | `MIntercept`, `MWrap` (around the methods of the server models and the calls of the client models) | `PIntercept`, `PWrap` |
| `_asyncio_timeout.py` | `MTimer` | `PTimer` |
| `protoc-gen-connectrpc/protoc_gen_connectrpc/__init__.py` | `MGen` (what the generated classes do), `MFile` (which classes a module has, which message classes it refers to) | `PGen`, `PStub`, `PFile` |
| `errors.py` (`ErrorDetail`, `ConnectError.__init__`) | `MDetail` | `PDetail` |
| `connectrpc-otel/connectrpc_otel/_interceptor.py`, `_instrumentor.py` | `MOtel`, `MInstr` (switching on and off; wrapt's import hooks and wrappers and `BaseInstrumentor` as documented) | `POtel`, `PInstr` |
| `_gen/status_pb.py` (google.rpc.Status) | `MStatusPb` | through `PLink`, `PClient` |
| CPython: `str`, `int()`, UTF-8, base64, urllib.parse, json | `MPyStr`, `MUtf8`, `MBase64`, `MPercent`, `MJson` | `PText` and lemma files |

Not modelled

* `_codec.py`, `compat/_codec.py`, `compression/{gzip,brotli,zstd}.py`: one-line adapters to third-party libraries. A codec or
  compression of the model is any record of functions, so every theorem covers these adapters and any user-written one.
* `_semconv.py`, `_version.py`, the re-export modules
  (`client.py`, `server.py`, ...), `typing` protocols.
* `conformance/`, `example/`, tests, documentation, build files.
* Message classes of methods: one request and one response type per application (`A`, `B`), type parameters of every theorem.

Simplifications inside the model (each is also in the comment of the definition)

* `str.lower` changes ASCII letters only. Header names are ASCII in HTTP.
* Texts of exceptions raised by libraries (json, base64, struct) are shortened; no theorem depends on them.
* `float`: finite binary64 numbers are exact integers times 2^-1074; rounding is computed, overflow to infinity is not modelled.
* JSON input is UTF-8 (Python also recognises UTF-16 and UTF-32); Python's recursion limit is not modelled; JSON floats are kept as text.
* Header objects are values in the models of clients and servers; two names for one `Headers` object (aliasing) are modelled there only where the code shares one (the request context). `MHeap` models the objects themselves, with their dictionaries and lists, and C88 and C22_copy show that different objects never share any.
* pyqwest: requests and responses are records; errors raised by its own header class are not modelled.
* A server method is a finite tree of steps that answers every outcome of each step; it may do anything else that is not observable here.
  Methods that never end are in `MEndless` (C84), which relates them to the finite ones; timing is outside except through deadlines.
* Garbage collection of abandoned asynchronous generators is not modelled (`MIntercept` says where the code relies on it).
* `MTimer`: integer times; code between suspensions takes no time; `ExceptionGroup` left out (it needs Python 3.11, which does not use this file).
* `MGen`: the generated text is modelled by the classes and dictionaries it defines; `escape_identifier` is a parameter.
* `MOtel`: the OpenTelemetry SDK is a parameter (any effects, any results); recorded durations are left out.

## 4. Trusted base

* The Coq 8.16.1 kernel and the standard library. No other library is used.
* `Print Assumptions` follows every property theorem; each one answers `Closed under the global context`. No axiom of the standard library
  is used either. (A scan of the loaded libraries lists seven fields of the library functor argument
  `Coq.ssr.ssrunder.Under_rel`; they come with the library files that `lia` loads, and no theorem depends on them.)
* No `Axiom`, `Admitted`, functor, module type or `Declare Module` of our own; no kernel flag is changed.
* The transcription of the Python code, section 3, including the models of CPython primitives. These were compared with
  CPython 3.11 on many inputs; the project itself was not run.
* What the theorems assume about third parties appears as hypotheses or parameters, never as axioms:
  * codecs and compressions: arbitrary functions; where a property needs it, "what one side writes the other reads" (`fits`, `undoes`);
  * the protobuf runtime for `google.rpc.Status`: `status_codec_ok` (writes what it can read), with an instance in `MStatusPb`;
  * the protobuf runtime for error details: `lawful` (`PDetail`): names contain no slash, unpacking gives the message back under its type and
    nothing under another; with an instance `ex_rt`;
  * HTTP between client and server (`SLink`): same status, header lines per name, body in pieces of any size, trailers;
    `carried` allows the lines servers and proxies add; a unary client's library undoes the content encoding (`inflate`);
  * ASGI and WSGI servers: any sequence of events, reads of any size, failing sends and reads, cancellation at any suspension;
  * asyncio (`MTimer`): `Task.cancel`, `uncancel`, timers and context variables as documented.

## 5. Properties that do not hold: findings

Each is a theorem `..._refuted` with a concrete witness, next to the theorem that proves what does hold.

| property | what the code does | theorem |
|---|---|---|
| C06 | messages in chunks after the end-of-stream message are still delivered | `C06_later_chunk_refuted` |
| C07 | a stream cut inside a frame counts as complete (Connect client; gRPC client when trailers follow; both servers) | `C07_connect_client_refuted`, `C07_grpc_client_refuted`, `C07_server_refuted` |
| C08 | a Connect stream without an end-of-stream message counts as success | `C08_refuted` |
| C12 | trailers a method sets under `grpc-message` or `grpc-status-details-bin` change the error the client sees | `C12_reserved_trailers_refuted` |
| C18 | a malformed `grpc-status-details-bin` makes a streaming call raise something other than ConnectError | `C18_stream_refuted` |
| C24 | read_max_bytes of the client also limits the end-of-stream message (Connect, gRPC-Web): trailers, or the details of an error, that exceed it turn a call whose messages all fit into RESOURCE_EXHAUSTED, and are lost | `C24_limit_refuted` |
| C11, C13, C17 | for the same reason an error with a long text or many details that ends a Connect or gRPC-Web stream arrives as RESOURCE_EXHAUSTED, without its code, text and details | `C11_limit_refuted`, `C13_limit_refuted`, `C17_limit_refuted` |
| C10, C23 | a content-encoding header set by a unary method is sent beside the server's own (success) or instead of one (error); the client then refuses the error response with INTERNAL, and the error, headers and trailers are lost | `C10_encoding_refuted`, `C23_encoding_refuted` |
| C25 | re-entering an open `ResponseMetadata` does not restore the outer state; two calls in one block merge | `C25_reentrant_refuted`, `C25_two_calls_refuted` |
| C29 | negative, signed, spaced, underscored and over-long timeouts are accepted | `C29_connect_refuted`, `C29_grpc_refuted`, `C29_grpc_length_refuted` |
| C31 | a per-call timeout of 0 is replaced by the default | `C31_zero_refuted` |
| C32 | the remaining time can exceed the timeout by one millisecond at the start | `C32_initial_bound_refuted` |
| C35 | a Connect stream with an unknown content encoding is read as uncompressed | `C35_connect_streams_refuted` |
| C36 | GET runs streaming methods declared side-effect free | `C36_unary_only_refuted` |
| C39 | with a connection whose `send` fails once and recovers, the response is malformed | `C39_recovering_send_refuted` |
| C40 | WSGI: `start_response` called twice, or never | `C40_twice_refuted`, `C40_never_refuted` |
| C41 | a cancelled ASGI stream is reported to the client as a success | `C41_stream_refuted` |
| C44 | `read_max_bytes` is not applied to GET requests | `C44_get_refuted` |
| C46 | ASGI and WSGI answer differently: undecodable bodies, empty compressed bodies, unknown GET codec, GET on streams, Accept-Post, cleanup trailers | `C46_*_refuted` |
| C47 | an ASGI application given an iterator of interceptors applies them to the first method only | `C47_asgi_iterator_refuted` |
| C48 | closing an async stream early leaves inner generators open, so `on_end` does not run | `C48_async_close_refuted` |
| C49 | an object that is both a metadata and a call interceptor is applied as metadata interceptor only | `C49_metadata_refuted` |
| C50 | lifespan: failing endpoint creation gives no reply; a service without methods is not served | `C50_endpoints_refuted`, `C50_empty_refuted` |
| C51 | a closed client goes on sending requests | `C51_closed_client_refuted` |
| C52 | WSGI below another mount point, and client addresses ending in a slash, miss the registered path | `C52_nested_mount_refuted`, `C52_address_slash_refuted` |
| C53 | two RPC names can get one Python name; an RPC can hide a client method | `C53_distinct_refuted`, `C53_inherited_refuted` |
| C54 | telemetry makes calls fail for some addresses and Host headers; propagates the wrong span; records cancelled calls as successes; exhausts iterators | `C54_*_refuted` |
| C55 | a cancellation coinciding with the deadline is lost; a deadline fires in the consumer of a stream | `C55_cancellation_lost`, `C55_consumer_refuted` |
| C56 | ASGI answers an undecodable body with UNKNOWN | `C56_asgi_undecodable_refuted` |
| C60 | WSGI: exceptions after the first message of a stream are not logged | `C60_wsgi_refuted` |
| C61 | WSGI: a stream shorter than its declared length counts as finished | `C61_wsgi_length_refuted` |
| C62 | An exception raised on leaving an unfinished response replaces the reason of the failure in the asynchronous client (UNAVAILABLE instead of RESOURCE_EXHAUSTED); the synchronous client keeps it | `C62_exit_refuted`, `C44_client_stream` |
| C62 | A response complete after the deadline is a success for the asynchronous client and DEADLINE_EXCEEDED for the synchronous one | `C62_late_refuted`, `C62_late_sync` |
| C64 | `ErrorDetail.value(typ)` of a detail that was made in this process returns its message even when `typ` is another type; a received one returns None | `C64_made_type_refuted` |
| C64 | For an Any whose type URL names another host than type.googleapis.com, `type_name` is the whole URL and `value(registry)` finds nothing, although the type is known | `C64_host_refuted` |
| C65 | gRPC-Web: a trailer value with CR LF set by a method injects trailer lines; a failing method can be reported as a success | `C65_web_injection_refuted` |
| C66 | a malformed grpc-timeout is answered with HTTP 500 and a JSON body instead of a gRPC status, and surfaces as an unhandled exception | `C66_timeout_refuted` |
| C67 | `Headers.__eq__` ignores all but the first value of a header, and compares letter case with a plain dictionary | `C67_eq_refuted`, `C67_eq_dict_refuted` |
| C67 | `(k, v) in headers.allitems()` raises AttributeError once a header is repeated (`_AllItemsView` does not initialise its base class) | `C67_member_refuted` |
| C67 | a view taken before the first repeated header never shows repeated values; after `clear()` the length of an older view is wrong | `C67_view_refuted`, `C67_view_len_refuted` |
| C67 | a view taken while a header is repeated shows, after `clear()`, values the headers no longer hold | `C67_view_stale_refuted` |
| C68 | for a Host header that is an IPv6 address without a port, the server address in the request context has no port | `C68_ipv6_refuted` |
| C70 | switched off before `connectrpc.client` or `connectrpc.server` is imported, the instrumentation still takes hold when it is, and further `uninstrument` calls do nothing: the post-import hook is not removed | `C70_refuted`, `C70_stays_refuted` |
| C71 | in a file with services `Hat` and `HatClient` (or `HatSync`, ...) the class generated for the one replaces a class of the other | `C71_refuted` |
| C72 | with `protobuf=google`, the module for a .proto file at the top of the tree imports its messages with a relative import, which a top-level module cannot | `C72_top_level_refuted` |
| C73 | a GET request to a streaming method without side effects is answered with status 200, compressed as Connect-Accept-Encoding says, and no Vary header (`C73_stream_refuted`); the 405 that a GET request with a gRPC Content-Type gets has no Vary header either, although the same URL is answered with 200 for other clients (`C73_refused_refuted`) |
| C74 | a call with a single response whose server sends two messages raises Unimplemented while the response is still open: `_consume_single_response` does not close the iterator it stops using, so the response is given back only when the iterator is collected (`C74_single_refuted`) |
| C77 | a method that returns successfully before its request stream is at its end (client streaming, bidirectional), and a GET request with a body, leave the rest of the body unread over HTTP/1: `_drain_request_body` is called on the error paths only, although its comment says that the body should be drained before returning. On a server that does not drain (gunicorn, says the comment), what the client sent after that message is taken for the next request on the connection | `C77_early_refuted`, `C77_get_refuted` |
| C79 | a frame that announces more than read_max_bytes is not refused until all of it has arrived: a peer can make the library hold up to 4 GiB per stream, whatever the limit. Unary bodies are received whole before the limit is looked at, on both servers. (Decompression also comes first.) | `C79_reader_refuted`, `C79_servers_refuted`, `C79_unary_asgi_refuted`, `C79_unary_wsgi_refuted`, `C79_decompress_refuted` |
| C80 | the iterator of request messages is never closed: when a call ends early, the clean-up of a generator that produces requests waits for the garbage collector | `C80_close_refuted` |
| C82 | on a WSGI server over HTTP/1 the error of a method that fails is sent only after the request was read to its end: a client that keeps its stream open until it gets an answer waits for ever | `C82_http1_refuted` |
| C83 | gRPC content types must be written exactly (`application/grpc+proto;charset=utf-8` is answered 415); a content type that is just the name of a codec (`json`) is served; a streaming client refuses parameters that the server and the unary client accept | `C83_grpc_refuted`, `C83_bare_name_refuted`, `C83_stream_client_refuted` |
| C84 | after the client is gone: the method of a bidirectional stream that does not read, a server-stream method that is waiting, and a unary or client-stream method are not stopped; they may run for ever | `C84_bidi_refuted`, `C84_waiting_refuted`, `C84_unary_refuted` |
| C85 | on an ASGI server a metadata interceptor that does nothing changes responses: a streaming method whose message cannot be sent is no longer closed, the trailers it sets while cleaning up are lost | `C85_decorated_asgi_refuted` |
| C86 | an application whose second startup failed (its generator is exhausted) serves requests with the closed service of the first | `C86_restart_refuted` |
| C87 | a client that asks for `gzip;q=1.0`, for `GZIP`, or (on ASGI) for gzip on a second Accept-Encoding line gets an uncompressed response, and so does one that refuses identity | `C87_weights_refuted`, `C87_case_refuted`, `C87_lines_refuted`, `C87_identity_refuted` |
| C88 | `Headers(headers)` drops all but the first value of every repeated header | `C88_of_refuted` |
| C89 | on ASGI any header line that is not UTF-8, even one nobody looks at, makes the request fail with 500 | `C89_bytes_refuted` |
| C90 | servers never stop a method whose deadline has passed, and start methods for requests that have no time left | `C90_expired_refuted`, `C90_server_asgi` |
| C91 | an error message or trailer with a surrogate (Python makes them of undecodable bytes) leaves a gRPC call without any response, or without its trailers | `C91_text_refuted`, `C91_trailers_refuted` |
| C92 | the `connect` parameter of a GET request is ignored: a request of protocol version v9 runs the method | `C92_get_version_refuted` |
| C93 | the WSGI server ends a response before it closes the method, and the ASGI server does not close a server-streaming method when `receive()` raises while it runs: trailers set by the cleanup are lost | `C93_wsgi_close_refuted`, `C93_monitor_refuted` |
| C95 | A request that an interceptor makes again tells the server the timeout of the whole call, and the ResponseMetadata of a call that was retried has the trailers of the failed attempts, too. | `C95_deadline_refuted`, `C95_metadata_refuted` |
| C96 | In a ResponseMetadata block, a Connect stream fails on end-of-stream metadata that it would pass over elsewhere, and the server's error is lost with it. A block reports on streams that are used in it, not on those called in it. | `C96_unreadable_refuted`, `C96_made_inside_refuted`, `C96_inner_refuted` |
| C97 | One error detail that cannot be decoded replaces the whole error of the server by `unavailable`. A Connect stream that ends with `{"error":{}}` counts as successful. | `C97_detail_refuted`, `C97_empty_error_refuted` |
| C98 | In a GET request with base64=1, characters that are not base64 are dropped silently and the method is called with another message; a `+` of the usual alphabet that is not escaped is one of them. | `C98_garbage_refuted` |

## 6. Testing the theorems

`seeded/LOG.jsonl` lists edits of the model that a realistic bug would make, and which theorems failed. Edits that no theorem noticed
led to stronger theorems (`theorems_tightened`).
