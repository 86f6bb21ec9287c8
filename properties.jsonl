{"id": "C01", "title": "Streaming messages do not depend on how the network splits the bytes", "statement": "For a request or response stream, the sequence of messages handed to the application, the error (if any) that ends it and the trailers reported are the same whatever non-empty or empty chunks the transport cuts the body into, as long as nothing follows the end-of-stream message.", "quantifier": "every body byte string without bytes after an end-of-stream frame, every way of cutting it into chunks (including empty chunks), every codec, compression, size limit and protocol", "why_tests_cant": "The number of chunkings is exponential in the body length and the reader keeps state between chunks; a test fixes a few cuts.", "anchors": ["src/connectrpc/_envelope.py:EnvelopeReader.feed", "src/connectrpc/_envelope.py:EnvelopeReader._read_messages"]}
{"id": "C02", "title": "Every message written on a stream is read back, in order, exactly once", "statement": "If one side sends a list of messages through a stream and the other side uses the same codec and compression and no message exceeds its size limit, the receiver gets exactly that list: nothing lost, duplicated, reordered or altered, for all of Connect, gRPC and gRPC-Web.", "quantifier": "every finite list of messages, every codec/compression pair whose decode/decompress inverts encode/compress, every chunking", "why_tests_cant": "Needs an inductive argument over unbounded message lists and payload sizes.", "anchors": ["src/connectrpc/_envelope.py:EnvelopeWriter.write", "src/connectrpc/_envelope.py:EnvelopeReader._read_messages", "src/connectrpc/_client_async.py:_streaming_request_content"]}
{"id": "C03", "title": "read_max_bytes is enforced on every streamed message", "statement": "When a reader has read_max_bytes=n, no message whose (decompressed) payload is longer than n is ever delivered; the first such message ends the stream with RESOURCE_EXHAUSTED and nothing after it is delivered; a payload of exactly n bytes is delivered.", "quantifier": "every byte stream (well-formed or hostile), every limit, every codec/compression behaviour, every chunking", "why_tests_cant": "Safety against all hostile inputs is a universal claim.", "anchors": ["src/connectrpc/_envelope.py:EnvelopeReader._read_messages"]}
{"id": "C04", "title": "A compressed frame without negotiated compression is an error, not data", "statement": "If no compression was negotiated, a frame whose compressed bit is set terminates the stream with INTERNAL and its payload is never delivered.", "quantifier": "every frame with the compressed bit set, at every position in every stream", "why_tests_cant": "Universal over stream positions and payloads.", "anchors": ["src/connectrpc/_envelope.py:EnvelopeReader._read_messages"]}
{"id": "C05", "title": "Frame header is exact or the write fails", "statement": "Every frame produced for a stream is 5+n bytes: the flag byte, the 4-byte big-endian payload length n, and the payload; a payload of 2^32 bytes or more makes the write raise instead of producing a frame with a wrong length.", "quantifier": "every message and every payload length, including those not representable in 4 bytes", "why_tests_cant": "4 GiB payloads and all lengths cannot be enumerated by tests.", "anchors": ["src/connectrpc/_envelope.py:EnvelopeWriter.write", "src/connectrpc/_protocol_connect.py:ConnectEnvelopeWriter.end", "src/connectrpc/_protocol_grpc.py:GRPCWebEnvelopeWriter.end"]}
{"id": "C06", "title": "Nothing is delivered after the end-of-stream message", "statement": "Once a Connect or gRPC-Web client stream has received the end-of-stream message no further message is delivered, whatever bytes follow.", "quantifier": "every byte string following the end-of-stream frame and every chunking of it", "why_tests_cant": "Depends on the cut between the end frame and the following bytes.", "anchors": ["src/connectrpc/_envelope.py:EnvelopeReader._read_messages", "src/connectrpc/_protocol_connect.py:ConnectEnvelopeReader.handle_end_message", "src/connectrpc/_protocol_grpc.py:GRPCWebEnvelopeReader.handle_end_message"]}
{"id": "C07", "title": "A stream cut in the middle of a frame is never mistaken for a complete one", "statement": "If a peer's byte stream ends inside a frame, the receiving side reports an error instead of treating the messages received so far as the complete stream.", "quantifier": "every truncation point of every stream, for server request streams and client response streams of each protocol", "why_tests_cant": "Every crash point of the peer is a different truncation.", "anchors": ["src/connectrpc/_envelope.py:EnvelopeReader._read_messages", "src/connectrpc/_server_async.py:_request_stream", "src/connectrpc/_server_sync.py:_request_stream", "src/connectrpc/_client_async.py:ConnectClient._send_request_bidi_stream"]}
{"id": "C08", "title": "A Connect client stream only succeeds if an end-of-stream message was received", "statement": "A Connect streaming call that finishes without raising has received an end-of-stream message without error.", "quantifier": "every response byte stream and chunking", "why_tests_cant": "Universal over response streams, including truncated ones.", "anchors": ["src/connectrpc/_protocol_connect.py:ConnectEnvelopeReader", "src/connectrpc/_client_async.py:ConnectClient._send_request_bidi_stream", "src/connectrpc/_client_sync.py:ConnectClientSync._send_request_bidi_stream"]}
{"id": "C09", "title": "A gRPC or gRPC-Web call only succeeds if the server reported status 0", "statement": "A gRPC/gRPC-Web call that ends without raising has seen grpc-status equal to 0, in the trailers, or in the headers when no message frame arrived; a missing status raises INTERNAL.", "quantifier": "every combination of response frames, headers and trailers", "why_tests_cant": "Universal over responses of arbitrary servers and proxies.", "anchors": ["src/connectrpc/_protocol_grpc.py:GRPCEnvelopeReader.handle_response_complete", "src/connectrpc/_protocol_grpc.py:GRPCWebEnvelopeReader"]}
{"id": "C10", "title": "A unary ConnectError raised by a server method is raised unchanged by a Connect client", "statement": "If a server method raises ConnectError(code, message, details), a Connect unary client call raises a ConnectError with the same code, the same message and details with the same type names and bytes in the same order.", "quantifier": "every code, every message string (any Unicode, quotes, control characters), every list of details", "why_tests_cant": "Unbounded strings and byte payloads pass through JSON and base64 encoders on both sides.", "anchors": ["src/connectrpc/_protocol.py:ConnectWireError.to_json_bytes", "src/connectrpc/_protocol.py:ConnectWireError.from_response", "src/connectrpc/_protocol.py:ConnectWireError.from_dict", "src/connectrpc/errors.py:ConnectError"]}
{"id": "C11", "title": "A ConnectError ending a Connect stream is raised unchanged by the client", "statement": "If a server streaming method raises ConnectError after any number of messages, the client receives those messages and then raises a ConnectError with equal code, message and details; trailers set by the method are reported.", "quantifier": "every message prefix, code, message, details, trailer multimap, chunking", "why_tests_cant": "Unbounded data and all chunkings.", "anchors": ["src/connectrpc/_protocol_connect.py:ConnectEnvelopeWriter.end", "src/connectrpc/_protocol_connect.py:ConnectEnvelopeReader.handle_end_message", "src/connectrpc/_protocol.py:ConnectWireError.to_dict"]}
{"id": "C12", "title": "A ConnectError is preserved across gRPC trailers", "statement": "If a server method raises ConnectError(code, message, details), a gRPC client raises ConnectError with equal code, message and details whether or not details are present.", "quantifier": "every code, every message encodable in UTF-8, every list of details", "why_tests_cant": "Percent-encoding, protobuf and unpadded base64 over unbounded strings.", "anchors": ["src/connectrpc/_protocol_grpc.py:GRPCEnvelopeWriter.end", "src/connectrpc/_protocol_grpc.py:GRPCEnvelopeReader.handle_response_complete"]}
{"id": "C13", "title": "A ConnectError is preserved across a gRPC-Web trailer frame", "statement": "Same as C12 for gRPC-Web, where trailers are a text block inside the body: no message text can break the block, inject another trailer or change the status.", "quantifier": "every code, every message (including CR, LF and colon), every list of details", "why_tests_cant": "Injection safety is universal over message contents.", "anchors": ["src/connectrpc/_protocol_grpc.py:GRPCWebEnvelopeWriter.end", "src/connectrpc/_protocol_grpc.py:GRPCWebEnvelopeReader.handle_end_message"]}
{"id": "C14", "title": "Error codes and gRPC numeric statuses correspond one to one", "statement": "Each of the 16 codes is sent as a distinct non-zero gRPC status which is read back as the same code; any other status text is reported as UNKNOWN; status 0 is never an error.", "quantifier": "all codes and all status strings", "why_tests_cant": "The status text is an arbitrary string from the peer.", "anchors": ["src/connectrpc/_protocol_grpc.py:_connect_status_to_grpc", "src/connectrpc/_protocol_grpc.py:_grpc_status_to_connect"]}
{"id": "C15", "title": "Every HTTP failure status produces a Connect error", "statement": "A Connect unary response with a status other than 200 always raises a ConnectError: from the JSON body if the content type is JSON, otherwise with the code the Connect protocol assigns to the HTTP status (UNKNOWN for unlisted ones). It never returns a message.", "quantifier": "every status code, content type and body", "why_tests_cant": "Universal over arbitrary intermediary responses.", "anchors": ["src/connectrpc/_protocol.py:ConnectWireError.from_http_status", "src/connectrpc/_protocol_connect.py:ConnectClientProtocol.validate_response", "src/connectrpc/_protocol.py:ConnectWireError.from_response"]}
{"id": "C16", "title": "The HTTP status of a unary error response determines the code class", "statement": "The HTTP status sent for a code is the one in the Connect specification, and no error is ever sent with status 200.", "quantifier": "all codes", "why_tests_cant": "Finite, but relied on by every non-Connect intermediary; proved for all codes together with the reverse mapping.", "anchors": ["src/connectrpc/_protocol.py:_error_to_http_status", "src/connectrpc/_protocol.py:ConnectWireError.to_http_status"]}
{"id": "C17", "title": "An unexpected exception in a server method reaches the client as UNKNOWN", "statement": "If a method raises any exception other than ConnectError/HTTPException, the client sees code UNKNOWN with the exception text as message and no details.", "quantifier": "every exception and exception text, each protocol", "why_tests_cant": "Universal over exceptions.", "anchors": ["src/connectrpc/_protocol.py:ConnectWireError.from_exception"]}
{"id": "C18", "title": "A client call fails only with ConnectError", "statement": "Whatever the transport, server or codec does, an error escaping a client call is a ConnectError (timeouts give DEADLINE_EXCEEDED, task cancellation gives CANCELED, other transport failures UNAVAILABLE).", "quantifier": "every transport outcome and response, unary and streaming, sync and async", "why_tests_cant": "Requires considering every exception at every point of the call, including inside error handlers.", "anchors": ["src/connectrpc/_client_async.py:ConnectClient._send_request_unary", "src/connectrpc/_client_async.py:ConnectClient._send_request_bidi_stream", "src/connectrpc/_client_sync.py:ConnectClientSync._send_request_unary", "src/connectrpc/_client_sync.py:ConnectClientSync._send_request_bidi_stream"]}
{"id": "C19", "title": "HTTP/2 stream resets map to the documented codes", "statement": "A stream reset is reported with the code gRPC/Connect assign to the reset reason, and a CANCEL reset is DEADLINE_EXCEEDED exactly when the call's own deadline has passed.", "quantifier": "every reset code and every clock reading", "why_tests_cant": "Depends on time at which the reset is observed.", "anchors": ["src/connectrpc/_client_shared.py:maybe_map_stream_reset"]}
{"id": "C20", "title": "Headers behaves as a case-insensitive multimap", "statement": "After any sequence of add, set, delete, clear and update operations, reading a name in any letter case returns exactly the values in the order they were added since the last set/delete/clear of that name.", "quantifier": "every finite history of operations and every key", "why_tests_cant": "Universal over operation histories; the two-store representation has corner cases.", "anchors": ["src/connectrpc/_headers.py:Headers"]}
{"id": "C21", "title": "Header views are consistent with each other", "statement": "allitems, items, keys, len, contains, get and getall always describe the same contents: keys appear once in first-insertion order, allitems lists every value grouped by key, and len(allitems()) equals the number of pairs it yields.", "quantifier": "every finite history of operations", "why_tests_cant": "Consistency between cached representations over all histories.", "anchors": ["src/connectrpc/_headers.py:Headers.allitems", "src/connectrpc/_headers.py:_AllItemsView"]}
{"id": "C22", "title": "Copying headers loses nothing and never affects the original", "statement": "The client sends every header value the caller passed (all duplicates, same order per name) except the protocol-owned names it sets itself. The caller's headers object is left as it was, and changing it after the call has no effect on the call.", "quantifier": "every caller header multimap or mapping, every protocol, timeout, codec and compression", "why_tests_cant": "Universal over header contents, including names colliding with protocol headers in any case.", "anchors": ["src/connectrpc/_protocol_connect.py:ConnectClientProtocol.create_request_context", "src/connectrpc/_protocol_grpc.py:GRPCClientProtocol.create_request_context"]}
{"id": "C23", "title": "Response headers and trailers of a unary call are delivered", "statement": "Headers and trailers set by a unary method are seen by the client's ResponseMetadata: every trailer value under its own name and in order, and no trailer shows up as a header nor a header as a trailer unless its name starts with 'trailer-'.", "quantifier": "every header and trailer multimap", "why_tests_cant": "Universal over names, including ones starting with the marker prefix.", "anchors": ["src/connectrpc/_server_async.py:_add_context_headers", "src/connectrpc/_server_sync.py:_add_context_headers", "src/connectrpc/_response_metadata.py:handle_response_headers"]}
{"id": "C24", "title": "Trailers of a streaming call are delivered by each protocol", "statement": "Trailers set by a streaming method reach the client with every value and order: in the end-stream JSON for Connect, in HTTP trailers for gRPC and in the trailer frame for gRPC-Web.", "quantifier": "every trailer multimap whose names and values are legal HTTP header text", "why_tests_cant": "Universal over multimaps and text contents.", "anchors": ["src/connectrpc/_protocol_connect.py:ConnectEnvelopeWriter.end", "src/connectrpc/_protocol_grpc.py:GRPCEnvelopeWriter.end", "src/connectrpc/_protocol_grpc.py:GRPCWebEnvelopeWriter.end", "src/connectrpc/_response_metadata.py:handle_response_trailers"]}
{"id": "C25", "title": "ResponseMetadata scopes nest and report only their own call", "statement": "With nested ResponseMetadata blocks each call reports to the innermost open block, leaving a block restores the outer one, and what a block reports belongs to calls made inside it.", "quantifier": "every well-bracketed history of enter, call and exit", "why_tests_cant": "Universal over histories.", "anchors": ["src/connectrpc/_response_metadata.py:ResponseMetadata"]}
{"id": "C26", "title": "A gRPC deadline never grows on the wire", "statement": "The timeout a server derives from the grpc-timeout header a client sends is at most the client's timeout and smaller by less than one unit of the resolution used; it is exact below 10^8 ms.", "quantifier": "every integer timeout in milliseconds (negative, zero, huge)", "why_tests_cant": "Unbounded integers with unit switches at 10^8 boundaries.", "anchors": ["src/connectrpc/_protocol_grpc.py:_serialize_timeout", "src/connectrpc/_protocol_grpc.py:_parse_timeout"]}
{"id": "C27", "title": "A client never sends a grpc-timeout a server would reject", "statement": "Every grpc-timeout header the client sends has at most 8 digits and is accepted by the server, provided the timeout is below 10^8 hours; beyond that the server rejects it.", "quantifier": "every integer timeout", "why_tests_cant": "The exact boundary is at 3.6*10^14 ms.", "anchors": ["src/connectrpc/_protocol_grpc.py:_serialize_timeout", "src/connectrpc/_protocol_grpc.py:_parse_timeout"]}
{"id": "C28", "title": "Every valid grpc-timeout is read as the right number of whole milliseconds", "statement": "For every value of 1 to 8 digits and every unit H, M, S, m, u, n, the server's deadline is the value converted to milliseconds rounded down, despite binary floating point being used for u and n.", "quantifier": "all 10^8 values for each of the six units", "why_tests_cant": "6*10^8 inputs with floating point multiplication.", "anchors": ["src/connectrpc/_protocol_grpc.py:_parse_timeout", "src/connectrpc/_protocol_grpc.py:_lookup_timeout_unit"]}
{"id": "C29", "title": "Malformed timeouts are rejected", "statement": "A timeout header that is not a plain non-negative decimal number of the allowed length (with a valid unit for gRPC) is rejected before the method runs.", "quantifier": "every header string", "why_tests_cant": "Universal over strings; Python's int() accepts many spellings.", "anchors": ["src/connectrpc/_protocol_connect.py:ConnectServerProtocol.create_request_context", "src/connectrpc/_protocol_grpc.py:_parse_timeout"]}
{"id": "C30", "title": "Connect timeouts round trip", "statement": "A client timeout of t milliseconds arrives at the server as exactly t for every t the protocol can carry (up to 10 digits), and larger ones are rejected with INVALID_ARGUMENT.", "quantifier": "every non-negative integer timeout", "why_tests_cant": "Unbounded integers.", "anchors": ["src/connectrpc/_protocol_connect.py:ConnectClientProtocol.create_request_context", "src/connectrpc/_protocol_connect.py:ConnectServerProtocol.create_request_context"]}
{"id": "C31", "title": "Per-call timeouts take precedence over the client default", "statement": "A timeout_ms passed to a call is the one used for that call, whatever the client's default.", "quantifier": "every pair of per-call and default timeouts, including zero", "why_tests_cant": "Universal over integers; zero is the corner case.", "anchors": ["src/connectrpc/_client_async.py:ConnectClient.execute_unary", "src/connectrpc/_client_sync.py:ConnectClientSync.execute_unary"]}
{"id": "C32", "title": "Remaining time in a request context never increases and reaches zero at the deadline", "statement": "ctx.timeout_ms decreases as the clock advances, is never above the initial timeout, and is at most zero from the deadline on.", "quantifier": "every clock history and timeout", "why_tests_cant": "Universal over clock readings.", "anchors": ["src/connectrpc/request.py:RequestContext.timeout_ms"]}
{"id": "C33", "title": "Client and server agree on protocol and codec", "statement": "A request sent by a client configured with any of the three protocols and a codec is recognised by the server as that protocol with that codec, and the response content type passes the client's validation.", "quantifier": "every codec name that is a legal lowercase media subtype, each protocol, unary and streaming", "why_tests_cant": "Universal over codec names, prefixes overlap (grpc / grpc-web).", "anchors": ["src/connectrpc/_protocol_server.py:negotiate_server_protocol", "src/connectrpc/_protocol_connect.py:codec_name_from_content_type", "src/connectrpc/_protocol_grpc.py:GRPCServerProtocol.codec_name_from_content_type", "src/connectrpc/_protocol_connect.py:ConnectClientProtocol.validate_response", "src/connectrpc/_protocol_connect.py:ConnectClientProtocol.validate_stream_response"]}
{"id": "C34", "title": "Response compression is always one the client listed and the server supports", "statement": "The compression chosen for a response is the first name in the client's accept list that the server supports, or identity if there is none; the client can always decode a response from a server it negotiated with.", "quantifier": "every accept header string and every set of compressions", "why_tests_cant": "Universal over header strings.", "anchors": ["src/connectrpc/_compression.py:negotiate_compression", "src/connectrpc/_compression.py:resolve_compressions"]}
{"id": "C35", "title": "A request in an unknown compression is rejected with UNIMPLEMENTED", "statement": "If the request names a compression the server does not have, the method is not run and the client gets UNIMPLEMENTED.", "quantifier": "every encoding name and set of compressions, unary and streaming, each protocol", "why_tests_cant": "Universal over names and configurations.", "anchors": ["src/connectrpc/_server_async.py:ConnectASGIApplication._read_post_request", "src/connectrpc/_protocol_connect.py:ConnectServerProtocol.negotiate_stream_compression", "src/connectrpc/_protocol_grpc.py:GRPCServerProtocol.negotiate_stream_compression"]}
{"id": "C36", "title": "Only methods declared side-effect free can be called with GET", "statement": "A GET request runs a method only if it is unary and declared NO_SIDE_EFFECTS; any other HTTP method than POST/GET is refused with 405 and an Allow header listing what is permitted.", "quantifier": "every HTTP method string, idempotency level, endpoint and protocol", "why_tests_cant": "Universal over method strings and content types.", "anchors": ["src/connectrpc/_protocol_connect.py:ConnectServerProtocol.create_request_context", "src/connectrpc/_protocol_grpc.py:GRPCServerProtocol.create_request_context"]}
{"id": "C37", "title": "A server method is invoked at most once per request and only for well-formed requests", "statement": "For one HTTP request the method body is started at most once, and not at all when the path, HTTP method, media type, protocol version, timeout, compression or body is rejected.", "quantifier": "every HTTP request", "why_tests_cant": "Universal over requests.", "anchors": ["src/connectrpc/_server_async.py:ConnectASGIApplication.__call__", "src/connectrpc/_server_sync.py:ConnectWSGIApplication.__call__"]}
{"id": "C38", "title": "Unary calls carry exactly one message", "statement": "On envelope protocols a unary or server-streaming method runs only if the request stream holds exactly one message, and a unary or client-streaming client call returns only if the response holds exactly one; otherwise UNIMPLEMENTED.", "quantifier": "every message sequence, including errors at any position", "why_tests_cant": "Universal over sequences.", "anchors": ["src/connectrpc/_server_async.py:_consume_single_request", "src/connectrpc/_server_sync.py:_consume_single_request", "src/connectrpc/_client_async.py:_consume_single_response", "src/connectrpc/_client_sync.py:_consume_single_response"]}
{"id": "C39", "title": "An ASGI response is always well formed", "statement": "For every request that is answered, the application emits exactly one http.response.start followed by body events, of which exactly the last has more_body false, then trailers if and only if they were announced; failures of send or cancellation leave a prefix of such a sequence.", "quantifier": "every request, method behaviour (messages, errors, cancellation at any point), disconnect time and send failure", "why_tests_cant": "Universal over schedules and failure points.", "anchors": ["src/connectrpc/_server_async.py:ConnectASGIApplication._handle_stream", "src/connectrpc/_server_async.py:ConnectASGIApplication._handle_unary_connect", "src/connectrpc/_server_async.py:ConnectASGIApplication._handle_error"]}
{"id": "C40", "title": "A WSGI response starts exactly once before any body byte", "statement": "start_response is called exactly once per request, before the first body chunk is produced, with a status line made of the status and the phrase HTTP gives it.", "quantifier": "every request and method behaviour", "why_tests_cant": "Universal over method behaviours and encoding failures.", "anchors": ["src/connectrpc/_server_sync.py:ConnectWSGIApplication.__call__", "src/connectrpc/_server_sync.py:ConnectWSGIApplication._handle_stream", "src/connectrpc/_server_sync.py:_response_stream"]}
{"id": "C41", "title": "A cancelled method is not reported to the client as success", "statement": "If the server task running a streaming method is cancelled, the client does not see a successful end of stream.", "quantifier": "every point at which cancellation is delivered", "why_tests_cant": "Schedule dependent.", "anchors": ["src/connectrpc/_server_async.py:ConnectASGIApplication._handle_stream"]}
{"id": "C42", "title": "After a client disconnect no further messages are produced", "statement": "Once the disconnect of a client is noticed the method's stream is closed and no more of its messages are sent.", "quantifier": "every disconnect time relative to the method's messages", "why_tests_cant": "Schedule dependent.", "anchors": ["src/connectrpc/_server_async.py:ConnectASGIApplication._handle_stream"]}
{"id": "C43", "title": "A request body shorter than its Content-Length is rejected", "statement": "Under WSGI a request body is accepted only if exactly Content-Length bytes were read, however the server splits reads; a short body is INVALID_ARGUMENT, and nothing beyond that length makes a difference to the answer, as long as it can be drained.", "quantifier": "every body, content length and sequence of short reads, and everything that could be read after the body", "why_tests_cant": "All read schedules.", "anchors": ["src/connectrpc/_server_sync.py:_read_body_with_content_length"]}
{"id": "C44", "title": "read_max_bytes is enforced on unary requests and responses", "statement": "A unary request or response message larger than read_max_bytes is refused with RESOURCE_EXHAUSTED and never reaches the method or caller, whatever HTTP method carried it.", "quantifier": "every body, compression and limit; GET and POST; ASGI, WSGI and clients", "why_tests_cant": "Universal over inputs and transport forms.", "anchors": ["src/connectrpc/_server_async.py:ConnectASGIApplication._read_post_request", "src/connectrpc/_server_async.py:ConnectASGIApplication._read_get_request", "src/connectrpc/_server_sync.py:ConnectWSGIApplication._handle_post_request", "src/connectrpc/_server_sync.py:ConnectWSGIApplication._handle_get_request", "src/connectrpc/_client_async.py:ConnectClient._send_request_unary"]}
{"id": "C45", "title": "A GET request carries the same message as a POST", "statement": "For a side-effect-free method a client GET call delivers to the server exactly the request message it was given, with the same codec, through URL encoding, URL-safe base64 (padded or not) and compression.", "quantifier": "every message, codec and compression; ASGI and WSGI", "why_tests_cant": "Universal over binary payloads and query string encodings.", "anchors": ["src/connectrpc/_client_shared.py:prepare_get_params", "src/connectrpc/_server_async.py:ConnectASGIApplication._read_get_request", "src/connectrpc/_server_sync.py:ConnectWSGIApplication._handle_get_request"]}
{"id": "C46", "title": "ASGI and WSGI servers answer identically", "statement": "For the same request and method behaviour, the ASGI and WSGI applications produce the same status, body and trailers.", "quantifier": "every request and method behaviour", "why_tests_cant": "Equivalence of two separate implementations over all inputs.", "anchors": ["src/connectrpc/_server_async.py:ConnectASGIApplication", "src/connectrpc/_server_sync.py:ConnectWSGIApplication"]}
{"id": "C47", "title": "Interceptors wrap a call in list order, each exactly once", "statement": "The first interceptor in the list is outermost on client and server, every interceptor that implements the interface for the call type is entered exactly once, others never.", "quantifier": "every list of interceptors and call type", "why_tests_cant": "Universal over lists.", "anchors": ["src/connectrpc/_server_async.py:_apply_interceptors", "src/connectrpc/_server_sync.py:_apply_interceptors", "src/connectrpc/_client_async.py:ConnectClient.__init__", "src/connectrpc/_client_sync.py:ConnectClientSync.__init__"]}
{"id": "C48", "title": "Metadata interceptors: on_end runs exactly once for each on_start", "statement": "If on_start returned, on_end is called exactly once, with the token on_start returned and the error (if any) that ended the call, also for streams that fail part way or are closed early, in LIFO order across interceptors.", "quantifier": "every call behaviour, number of messages, failure or close point", "why_tests_cant": "Universal over failure points.", "anchors": ["src/connectrpc/_interceptor_sync.py:MetadataInterceptorInvokerSync", "src/connectrpc/_interceptor_async.py:MetadataInterceptorInvoker"]}
{"id": "C49", "title": "An interceptor implementing several interfaces has all of them applied", "statement": "Every interface an interceptor object implements is honoured.", "quantifier": "every combination of interfaces", "why_tests_cant": "Universal over combinations.", "anchors": ["src/connectrpc/_interceptor_sync.py:resolve_interceptors", "src/connectrpc/_interceptor_async.py:resolve_interceptors"]}
{"id": "C50", "title": "Lifespan follows the ASGI protocol", "statement": "For a service given as an async generator, startup and shutdown each get exactly one reply (complete or failed), the service is started before any reply of completion and closed at shutdown.", "quantifier": "every sequence of lifespan events and generator behaviour", "why_tests_cant": "Universal over event sequences.", "anchors": ["src/connectrpc/_server_async.py:ConnectASGIApplication.__call__"]}
{"id": "C51", "title": "A closed client makes no more requests", "statement": "After close() (or leaving the with block) no call sends a request.", "quantifier": "every history of calls and close", "why_tests_cant": "Universal over histories.", "anchors": ["src/connectrpc/_client_async.py:ConnectClient.close", "src/connectrpc/_client_sync.py:ConnectClientSync.close"]}
{"id": "C52", "title": "Client URLs address the path the server registered", "statement": "For a method of a service the path requested by the client equals the path the generated server application registers, also when the application is mounted under its own path, and different methods have different paths.", "quantifier": "every service and method name without '/'", "why_tests_cant": "Universal over names.", "anchors": ["src/connectrpc/_client_async.py:ConnectClient._send_request_unary", "src/connectrpc/_server_async.py:ConnectASGIApplication.__call__", "src/connectrpc/_server_sync.py:ConnectWSGIApplication.__call__", "protoc-gen-connectrpc/protoc_gen_connectrpc/__init__.py"]}
{"id": "C53", "title": "Generated Python method names only change case and add underscores", "statement": "The Python name generated for an RPC equals the RPC name once lower-cased with underscores removed; distinct RPCs of a service get distinct Python names.", "quantifier": "every RPC name", "why_tests_cant": "Universal over names; two regex substitutions.", "anchors": ["protoc-gen-connectrpc/protoc_gen_connectrpc/__init__.py:_pascal_to_snake_case"]}
{"id": "C54", "title": "Tracing never changes the outcome of a call", "statement": "With the OpenTelemetry interceptor installed a call has the same result or error as without it, whatever the server address or peer header contents.", "quantifier": "every address string, host header and call outcome", "why_tests_cant": "Universal over strings from the network.", "anchors": ["connectrpc-otel/connectrpc_otel/_interceptor.py:OpenTelemetryInterceptor"]}
{"id": "C55", "title": "Async timeout raises exactly when its deadline fired", "statement": "The timeout context used for streaming calls raises TimeoutError if and only if its own deadline fired and the body ended with the resulting cancellation; otherwise the body's own outcome is kept.", "quantifier": "every interleaving of timer firing, reschedule, external cancellation and body outcome", "why_tests_cant": "Universal over interleavings.", "anchors": ["src/connectrpc/_asyncio_timeout.py:Timeout"]}
{"id": "C56", "title": "A malformed or hostile body never crashes a unary server method call", "statement": "Every unary POST or GET request with any body and headers gets an HTTP response; a body that cannot be decoded is INVALID_ARGUMENT under both servers.", "quantifier": "every request body and codec/compression failure", "why_tests_cant": "Universal over inputs.", "anchors": ["src/connectrpc/_server_async.py:ConnectASGIApplication._read_post_request", "src/connectrpc/_server_sync.py:ConnectWSGIApplication._handle_post_request"]}
{"id": "C57", "title": "A method error never loses messages already produced", "statement": "Messages a streaming method produced before raising are sent, in order, before the error, and response headers set before the first message are sent exactly once.", "quantifier": "every method behaviour", "why_tests_cant": "Universal over prefixes.", "anchors": ["src/connectrpc/_server_async.py:ConnectASGIApplication._handle_stream", "src/connectrpc/_server_sync.py:_response_stream"]}
{"id": "C58", "title": "base64 fields without padding decode to the original bytes", "statement": "Binary fields sent by either side (error details, grpc-status-details-bin, GET messages) decode to the same bytes whether or not padding is present.", "quantifier": "every byte string", "why_tests_cant": "Universal over byte strings; three length classes.", "anchors": ["src/connectrpc/_protocol.py:ConnectWireError.to_dict", "src/connectrpc/_protocol.py:ConnectWireError.from_dict", "src/connectrpc/_protocol_grpc.py:GRPCEnvelopeReader.handle_response_complete", "src/connectrpc/_client_shared.py:prepare_get_params"]}
{"id": "C59", "title": "gRPC message percent-encoding is printable ASCII and reversible", "statement": "Every error message is sent in grpc-message as printable ASCII without spaces or control characters and decodes to the original text.", "quantifier": "every Unicode string without surrogates", "why_tests_cant": "Universal over strings.", "anchors": ["src/connectrpc/_protocol_grpc.py:GRPCEnvelopeWriter.end", "src/connectrpc/_protocol_grpc.py:GRPCEnvelopeReader.handle_response_complete"]}
{"id": "C60", "title": "Unhandled exceptions in server methods are always surfaced to the operator", "statement": "An exception other than ConnectError/HTTPException raised by a method is re-raised to the ASGI server or logged to wsgi.errors, at whatever point of the response it occurs.", "quantifier": "every method behaviour and failure point", "why_tests_cant": "Universal over failure points.", "anchors": ["src/connectrpc/_server_async.py:ConnectASGIApplication._handle_stream", "src/connectrpc/_server_sync.py:_maybe_log_exception", "src/connectrpc/_server_sync.py:_response_stream"]}
{"id": "C61", "title": "A request counts as complete only when the client has finished it", "statement": "The request stream of a method ends normally, and a method taking one message is run, only when the server received the whole request body; a disconnect, a failed read or a cancellation in between surfaces as an exception.", "quantifier": "every sequence of body events, reads, disconnects and cancellations", "why_tests_cant": "Universal over where the connection is lost.", "anchors": ["src/connectrpc/_server_async.py:_request_stream", "src/connectrpc/_server_async.py:_read_body", "src/connectrpc/_server_sync.py:_request_stream", "src/connectrpc/_server_sync.py:_read_body"]}
{"id": "C62", "title": "The synchronous and the asynchronous client behave alike", "statement": "A ConnectClient and a ConnectClientSync built with the same arguments send the same requests and give the same messages, outcome and metadata for every call and every behaviour of the server and the network.", "quantifier": "every call kind, protocol, request, response, transport fault and clock", "why_tests_cant": "Universal over server and network behaviour; two code bases that are tested separately.", "anchors": ["src/connectrpc/_client_async.py:ConnectClient._send_request_bidi_stream", "src/connectrpc/_client_sync.py:ConnectClientSync._send_request_bidi_stream", "src/connectrpc/_client_async.py:ConnectClient._send_request_unary", "src/connectrpc/_client_sync.py:ConnectClientSync._send_request_unary"]}
{"id": "C63", "title": "An RPC that a service does not implement answers UNIMPLEMENTED", "statement": "A client that calls an RPC whose method the service class inherits from the generated base class gets a ConnectError with code UNIMPLEMENTED and the generated text, no messages, and one request is sent; for every kind of RPC, protocol and server.", "quantifier": "every service description, RPC kind, protocol, server and request", "why_tests_cant": "Universal over services, RPC kinds, protocols and requests; generated stubs are exercised by tests for a few combinations only.", "anchors": ["protoc-gen-connectrpc/protoc_gen_connectrpc/__init__.py:generate", "src/connectrpc/_server_async.py:ConnectASGIApplication", "src/connectrpc/_server_sync.py:ConnectWSGIApplication"]}
{"id": "C64", "title": "Typed error details arrive as the messages the method attached", "statement": "A caller that asks a detail of a received error for its message, by type or by a registry that knows the type, gets the message that the server method attached, in the order attached; asking for another type gives None. type_name is the name of the message type.", "quantifier": "every list of detail messages, code and text, RPC kind, protocol and server", "why_tests_cant": "Universal over messages and over the three wire encodings of details.", "anchors": ["src/connectrpc/errors.py:ErrorDetail", "src/connectrpc/errors.py:ConnectError", "src/connectrpc/_protocol.py:ConnectWireError.to_dict", "src/connectrpc/_protocol.py:ConnectWireError.from_dict", "src/connectrpc/_protocol_grpc.py:GRPCEnvelopeReader.handle_response_complete"]}
{"id": "C65", "title": "A response reports success only if the method succeeded", "statement": "A streaming response (Connect streaming, gRPC, gRPC-Web) whose final frame or trailers report success was produced by a method that ran to its end without an exception, and whose messages were all written before it; a method that fails, is cut off or is cancelled never yields a response that its client takes for a success, also when it set trailers named like the status fields.", "quantifier": "every request, method behaviour, trailer set by the method, connection fault and cancellation", "why_tests_cant": "Universal over methods, trailers and failure points.", "anchors": ["src/connectrpc/_server_async.py:ConnectASGIApplication._handle_stream", "src/connectrpc/_server_sync.py:_response_stream", "src/connectrpc/_protocol_grpc.py:GRPCEnvelopeWriter.end", "src/connectrpc/_protocol_grpc.py:GRPCWebEnvelopeWriter.end"]}
{"id": "C66", "title": "gRPC and gRPC-Web requests are answered in their own protocol", "statement": "A POST to a known method with a gRPC or gRPC-Web content type naming a known codec is answered, if at all, with HTTP 200 and the content type of that protocol, whatever else the request, the method and the connection do.", "quantifier": "every method path, header set, body, method behaviour and connection fault", "why_tests_cant": "Universal over headers and failures before and after dispatch.", "anchors": ["src/connectrpc/_server_async.py:ConnectASGIApplication.__call__", "src/connectrpc/_server_sync.py:ConnectWSGIApplication.__call__", "src/connectrpc/_protocol_grpc.py:GRPCServerProtocol"]}
{"id": "C67", "title": "Headers compare, and their views answer, by all values held", "statement": "Two Headers objects are equal exactly if they hold the same values under the same names; the view returned by allitems() lists the current items, has their number as its length, and contains exactly the items it lists.", "quantifier": "every history of operations before and after the view is taken", "why_tests_cant": "Universal over histories; needs the interplay of the two internal dictionaries over time.", "anchors": ["src/connectrpc/_headers.py:Headers.allitems", "src/connectrpc/_headers.py:_AllItemsView", "src/connectrpc/_headers.py:Headers"]}
{"id": "C68", "title": "A method is told the truth about its request", "statement": "Whatever a method does depends on its request context only through a context that describes the request: the RPC's own method description, the HTTP method, the header lines by name and in order, the time limit the request asks for, the address named by the Host header with the scheme's default port added if it has none, and the address of the peer.", "quantifier": "every request, path, header set, scheme, peer address, application and method of the four kinds, on both servers", "why_tests_cant": "Universal over requests and over what methods do with their context; each field is filled from a different part of the request.", "anchors": ["src/connectrpc/_server_async.py:ConnectASGIApplication.__call__", "src/connectrpc/_server_sync.py:ConnectWSGIApplication.__call__", "src/connectrpc/_server_sync.py:_process_headers", "src/connectrpc/_protocol.py:host_to_server_address", "src/connectrpc/request.py:RequestContext"]}
{"id": "C69", "title": "A WSGI server that stops taking the response stops the method", "statement": "If a WSGI server takes n chunks of a response and then closes it, as it does when the client has gone away, then it has seen exactly the beginning of the full response up to its n-th chunk, no trailers were sent, and a streaming method has not been run past its n-th message: what it would do afterwards makes no difference.", "quantifier": "every request, application, method behaviour and number of chunks taken", "why_tests_cant": "Universal over methods and over the point at which the server stops.", "anchors": ["src/connectrpc/_server_sync.py:_response_stream", "src/connectrpc/_server_sync.py:ConnectWSGIApplication._handle_stream", "src/connectrpc/_server_sync.py:_end_response"]}
{"id": "C70", "title": "Clients and applications are instrumented exactly while the instrumentation is switched on", "statement": "Whatever the order in which a program switches the OpenTelemetry instrumentation on and off, imports the library's modules and makes clients and applications: one made while the instrumentation is on gets the telemetry interceptor with the providers given when it was switched on, first and once unless its interceptors already include one; one made while it is off gets exactly the interceptors it was given.", "quantifier": "every history of instrument, uninstrument and module imports, every list of interceptors, clients and applications", "why_tests_cant": "Universal over histories; the effect of a call depends on the imports before and after it, through hooks and stacked wrappers.", "anchors": ["connectrpc-otel/connectrpc_otel/_instrumentor.py:ConnectInstrumentor"]}
{"id": "C71", "title": "Every service gets its own generated classes", "statement": "For every file with services, and no other, a module is generated; it has, for each service X of the file, the classes X, XASGIApplication and XClient (unless only synchronous code is asked for) and XSync, XWSGIApplication and XClientSync (unless only asynchronous code is), each made for that service, and no other classes.", "quantifier": "every set of files, services and service names, every io option", "why_tests_cant": "Universal over schemas; names are built by concatenation and later definitions replace earlier ones.", "anchors": ["protoc-gen-connectrpc/protoc_gen_connectrpc/__init__.py:_generate", "protoc-gen-connectrpc/protoc_gen_connectrpc/__init__.py:_generate_async_stubs", "protoc-gen-connectrpc/protoc_gen_connectrpc/__init__.py:_generate_sync_stubs"]}
{"id": "C72", "title": "Generated code refers to the message classes of its RPCs", "statement": "Code generated for google.protobuf refers, for the input and output of each RPC, to the class that protoc generates for that message: in the module of the message's file, whether that is the service's own file or another, and by the full path of the messages it is nested in. Different messages of a file have different references.", "quantifier": "every directory and file name of the service and of the message, every nesting", "why_tests_cant": "Universal over file names and nestings; module names are computed from file names by text replacement, and own messages are imported relatively.", "anchors": ["protoc-gen-connectrpc/protoc_gen_connectrpc/__init__.py:_message_ident", "protoc-gen-connectrpc/protoc_gen_connectrpc/__init__.py:_module_name"]}
{"id": "C73", "title": "A cached response to a GET request may be reused as its Vary header says", "statement": "If a server has answered a GET request and the method does not look at its context, then every other GET request for the same URL that agrees on the request headers named by Vary in that response, and is not refused, is answered with the same response: status, headers and body. It does not matter who asks, when, or with which other headers. A shared HTTP cache may therefore answer for the server.", "quantifier": "All applications, pairs of GET requests, header lines, clocks, queries, codecs and compressions, on ASGI and WSGI.", "why_tests_cant": "A header that influences the response without being named by Vary shows only when two clients that differ in it share a cache; tests send one request at a time.", "anchors": ["src/connectrpc/_server_async.py:ConnectASGIApplication._handle_unary_connect", "src/connectrpc/_server_async.py:ConnectASGIApplication._read_get_request", "src/connectrpc/_server_sync.py:ConnectWSGIApplication._handle_get_request", "src/connectrpc/_server_sync.py:prepare_response_headers"]}
{"id": "C74", "title": "A streaming call gives its HTTP response back", "statement": "Nothing is sent until the iterator a streaming call returns is first asked for a message. From then on, as long as its consumer is being given messages, one HTTP response is open. As soon as the consumer is told that the iteration is over - by its end, by an exception, because it closed the iterator or was cancelled - the response has been given back to the HTTP library, and no later use of the iterator touches the library again. The same holds for calls with a single response when they return or raise.", "quantifier": "All sequences of uses of the iterator (asking, closing, cancelling, throwing, also after the end), clients, protocols, requests and network behaviours.", "why_tests_cant": "A leaked response shows only as an exhausted connection pool long after the call; tests iterate to the end once.", "anchors": ["src/connectrpc/_client_async.py:ConnectClient._send_request_bidi_stream", "src/connectrpc/_client_sync.py:ConnectClientSync._send_request_bidi_stream", "src/connectrpc/_client_async.py:_consume_single_response", "src/connectrpc/_client_sync.py:_consume_single_response"]}
{"id": "C75", "title": "A client delivers a message as soon as its bytes have arrived", "statement": "If the parts of the response body that have arrived contain k messages the client can read, then asking the iterator of a streaming call k times gives those k messages, and no further part is waited for: no part is read before the message it completes is asked for.", "quantifier": "All clients and protocols, messages, and all ways to cut the body into parts, whatever follows them.", "why_tests_cant": "Reading one part too far shows only as a deadlock with a peer that waits for an answer, and only for some cuts of the body; tests deliver whole bodies.", "anchors": ["src/connectrpc/_client_async.py:ConnectClient._send_request_bidi_stream", "src/connectrpc/_client_sync.py:ConnectClientSync._send_request_bidi_stream", "src/connectrpc/_envelope.py:EnvelopeReader.feed", "src/connectrpc/_envelope.py:EnvelopeReader._read_messages"]}
{"id": "C76", "title": "Full-duplex streams on ASGI: the server waits for the client only for what it lacks", "statement": "When a method with a request stream asks for the next message, every response message it has yielded so far has been handed to the HTTP server. If the parts of the request received so far hold a message the method was not yet given, it is given without waiting; otherwise parts are received one by one and no more than needed. A response message is handed over before the method is resumed. So a client that waits for the answer to each message before it sends the next one is never kept waiting by the library.", "quantifier": "All applications, bidirectional, client-streaming and server-streaming methods on ASGI, requests, ways to cut the body into parts, faults of receive and send, and cancellations.", "why_tests_cant": "Waiting too early is a deadlock that depends on how the body is cut into parts and on the order in which two sides wait for each other; tests use one cut and one order.", "anchors": ["src/connectrpc/_server_async.py:ConnectASGIApplication._handle_stream", "src/connectrpc/_server_async.py:_request_stream", "src/connectrpc/_server_async.py:_read_body", "src/connectrpc/_envelope.py:EnvelopeReader._read_messages"]}
{"id": "C77", "title": "Over HTTP/1 the WSGI application leaves nothing of a request body unread", "statement": "When the application has answered an HTTP/1 request, the request body has been read to its end, so that a server that keeps the connection open does not take the rest of the body for the next request. This holds for every response that reports an error, and for every successful call of a method that takes one request message (there: to the end, or as far as Content-Length says).", "quantifier": "All applications, requests, inputs and ways they are cut into reads, methods, protocols, and failures before, during and after the response.", "why_tests_cant": "What is left unread depends on where in the body a failure happens and on how reads cut it, and shows only in the next request on the same connection; tests send one request per connection.", "anchors": ["src/connectrpc/_server_sync.py:_drain_request_body", "src/connectrpc/_server_sync.py:ConnectWSGIApplication.__call__", "src/connectrpc/_server_sync.py:ConnectWSGIApplication._handle_stream", "src/connectrpc/_server_sync.py:_response_stream", "src/connectrpc/_server_sync.py:_read_body", "src/connectrpc/_server_sync.py:_read_body_with_content_length"]}
{"id": "C78", "title": "Full-duplex streams on WSGI: the server waits for the client only for what it lacks", "statement": "When a method with a request stream asks for the next message, every response message it has yielded so far has been handed to the HTTP server. If what was read of the request body so far holds a message the method was not yet given, it is given without reading; otherwise the body is read piece by piece and no more than needed. A response message is handed over before the method is resumed.", "quantifier": "All applications, methods with streams on WSGI, requests, and ways to cut the body into reads.", "why_tests_cant": "Waiting too early is a deadlock that depends on how the body is cut and on the order in which two sides wait for each other; tests use one cut and one order.", "anchors": ["src/connectrpc/_server_sync.py:ConnectWSGIApplication._handle_stream", "src/connectrpc/_server_sync.py:_response_stream", "src/connectrpc/_server_sync.py:_request_stream", "src/connectrpc/_server_sync.py:_read_body", "src/connectrpc/_envelope.py:EnvelopeReader._read_messages"]}
{"id": "C79", "title": "read_max_bytes limits what a peer can make the library hold", "statement": "With read_max_bytes set, a peer cannot make the library hold more than that many bytes of a message (and the header of its frame): a message that announces more is refused when its header has arrived. Without regard to the limit: between two parts of the body of a stream the library holds less than one message.", "quantifier": "All readers of clients and servers, limits, bodies and ways to cut them into parts.", "why_tests_cant": "Memory held for a message that never completes is invisible to a test that sends whole messages.", "anchors": ["src/connectrpc/_envelope.py:EnvelopeReader._read_messages", "src/connectrpc/_server_async.py:_request_stream", "src/connectrpc/_server_sync.py:_request_stream"]}
{"id": "C80", "title": "Request messages are taken one at a time and sent at once", "statement": "The iterator of request messages given to a streaming call is asked only when the HTTP library wants the next part of the request, once for each part; each message is handed over in the part it was asked for, in order and as a complete frame, so that a server that has the parts has every message taken so far; when the iterator or the encoding of a message fails, the exception is raised to the HTTP library after the frames before it; and once the content has ended, failed or been closed the iterator is not asked again, and is closed.", "quantifier": "every iterator (finite, endless or failing at any point), every sequence of uses of the content by the HTTP library, every codec, compression, protocol and both clients", "why_tests_cant": "Laziness and ordering are about every interleaving of the application's iterator with the HTTP library; a test drives one, usually to the end.", "anchors": ["src/connectrpc/_client_async.py:_streaming_request_content", "src/connectrpc/_client_sync.py:_streaming_request_content"]}
{"id": "C81", "title": "A request is served from what has been received so far", "statement": "What a method is given and what is sent in answer to a request, up to any point, depends only on what was received of the request up to that point (on the WSGI server: on what was read of its body): two clients that send the same up to a point are served alike until the application receives what comes after it. What is received is what the server reports, in its order and without a gap. So a client that decides what to send next from the answers it has got is served, and its conversation is the one it would have had by sending the same without waiting.", "quantifier": "every application and method, every request, every sequence of events before and after the point, every client (any function from what has happened to what comes next), any number of events", "why_tests_cant": "A test plays one client, and it cannot show that the server never looks at, or waits for, something the client has not sent yet: that is a statement about pairs of histories.", "anchors": ["src/connectrpc/_server_async.py:ConnectASGIApplication._handle_stream", "src/connectrpc/_server_async.py:_request_stream", "src/connectrpc/_server_async.py:_read_body", "src/connectrpc/_server_async.py:_consume_single_request", "src/connectrpc/_server_sync.py:ConnectWSGIApplication._handle_stream", "src/connectrpc/_server_sync.py:_request_stream", "src/connectrpc/_server_sync.py:_read_body"]}
{"id": "C82", "title": "Through a bidirectional stream a client application and a method talk as if face to face", "statement": "A client application calls a bidirectional method, sending messages that may depend on the responses it has got so far. For every such application and every method: however the client's bytes are cut into pieces and whatever the delays in both directions, the sequence of what the method is told (messages, the end) and what it yields is exactly the one that would result if the two were connected directly; it is cut short only where the response breaks off. If every yielded message was handed to the server, the sequence is complete and the client reads exactly the yielded messages. If the method never waits for something the client does not send, the stream can always be carried out.", "quantifier": "all client applications that take nothing back (any function from responses received to messages sent), methods, protocols, codecs and compressions that fit together, header lines, timeouts, messages within the size limits, cuts of the request body into pieces, delays in both directions, and failures of sends, on both servers", "why_tests_cant": "The interleavings of two programs that each react to what the other has sent, over all cuts and delays, cannot be enumerated; tests exercise a few scripted exchanges.", "anchors": ["src/connectrpc/_server_async.py:_handle_stream", "src/connectrpc/_server_async.py:_request_stream", "src/connectrpc/_server_async.py:_read_body", "src/connectrpc/_server_sync.py:_handle_stream", "src/connectrpc/_server_sync.py:_request_stream", "src/connectrpc/_server_sync.py:_response_stream", "src/connectrpc/_envelope.py:EnvelopeReader.feed", "src/connectrpc/_envelope.py:EnvelopeWriter.write", "src/connectrpc/_client_async.py:execute_bidi_stream"]}
{"id": "C83", "title": "Content types are read as media types", "statement": "On the Connect protocol the content type is read as a media type: letters of either case, white space around it and parameters after it (such as charset) make no difference. A request that differs only in how its content type is written gets exactly the same answer, and so does a client that gets a unary response whose content type is written differently. A request whose content type names no codec of the application is answered with HTTP 415 without running the method, and a client takes a unary response as a message only if its content type names the client's own codec.", "quantifier": "all header values, applications whose methods do not read the content-type header, kinds of methods, bodies, environments (ASGI and WSGI), clients and responses", "why_tests_cant": "Header values are unbounded text; tests use the literal spellings of the project's own clients.", "anchors": ["src/connectrpc/_protocol_connect.py:_normalize_content_type", "src/connectrpc/_protocol_connect.py:codec_name_from_content_type", "src/connectrpc/_protocol_connect.py:validate_response", "src/connectrpc/_protocol_connect.py:validate_stream_response", "src/connectrpc/_server_async.py:__call__", "src/connectrpc/_server_sync.py:__call__"]}
{"id": "C84", "title": "Methods that never end are served like the others", "statement": "A server method need not end: it may send messages, or wait, for ever. What has been sent at any moment is what would have been sent had the method done the same so far and ended later, and it stays sent; a request that has finished stays finished. Every message of a stream is sent after finitely many steps of the method, whatever the method does afterwards. A streaming method that keeps producing messages is stopped when the client has gone (server streams on ASGI), when a send fails, or when a WSGI server closes the body: the request finishes, with no message sent after the disconnect was noticed and no chunk beyond those the server took. If the methods of an application do end, every request finishes.", "quantifier": "all applications whose methods are arbitrary possibly infinite step sequences (including steps that cannot be observed), numbers of steps, requests and environments, moments of disconnect, failing sends, numbers of chunks taken", "why_tests_cant": "A test cannot run a method for ever; it sees one finite method and one moment of disconnect.", "anchors": ["src/connectrpc/_server_async.py:_handle_stream", "src/connectrpc/_server_async.py:_handle_unary_connect", "src/connectrpc/_server_async.py:_watch_for_disconnect", "src/connectrpc/_server_async.py:_request_stream", "src/connectrpc/_server_sync.py:_handle_stream", "src/connectrpc/_server_sync.py:_handle_unary", "src/connectrpc/_server_sync.py:_response_stream"]}
{"id": "C85", "title": "Interceptors decorate and guard calls", "statement": "An application with metadata interceptors that set response headers or trailers before the call answers every request as if its methods did so themselves, first thing and in the order of the interceptors; a client with metadata interceptors that change request headers makes the call it would make with headers so changed, and every value they leave under a name of theirs is in the request. An interceptor that raises instead of going on guards what is behind it: on a server the request is answered with its error and the headers set so far, and nothing in the answer depends on the methods or interceptors behind it; on a client no request is made and the caller gets the error. Without interceptors calls are what they are in the rest of this list.", "quantifier": "all applications and clients with any number of interceptors, methods of every kind with any behaviour, requests and environments of either server, numbers of messages taken, calls of every kind, protocol and transport outcome", "why_tests_cant": "Tests run a few interceptors around a few methods; the claim is about every stack of interceptors around every method, and non-interference compares all pairs of methods.", "anchors": ["src/connectrpc/_server_async.py:_resolve_endpoints", "src/connectrpc/_server_async.py:_apply_interceptors", "src/connectrpc/_server_sync.py:ConnectWSGIApplication.__init__", "src/connectrpc/_server_sync.py:_apply_interceptors", "src/connectrpc/_interceptor_async.py:MetadataInterceptorInvoker", "src/connectrpc/_interceptor_async.py:resolve_interceptors", "src/connectrpc/_interceptor_sync.py:MetadataInterceptorInvokerSync", "src/connectrpc/_interceptor_sync.py:resolve_interceptors", "src/connectrpc/_client_async.py:ConnectClient.__init__", "src/connectrpc/_client_async.py:execute_unary", "src/connectrpc/_client_async.py:execute_bidi_stream", "src/connectrpc/_client_sync.py:ConnectClientSync.__init__"]}
{"id": "C86", "title": "Concurrent requests on one application are independent", "statement": "When one ASGI application serves any number of requests and its lifespan at once, interleaved in any way, each request gets the response it would get alone in a fresh application, from the endpoints of the service that was running when it started. Requests that run before the service is started are refused, those that run after are served by the service that was started, and nothing that happens later, another request, a shutdown or a restart, changes what a request in progress is served with. An application that could not be started serves no requests.", "quantifier": "all services and endpoints, settings, histories of calls, turns and lifespan messages, requests, methods and environments", "why_tests_cant": "Tests run a handful of requests in the order one event loop happens to choose; the claim is about every interleaving of every set of requests and lifespans.", "anchors": ["src/connectrpc/_server_async.py:ConnectASGIApplication.__init__", "src/connectrpc/_server_async.py:__call__", "src/connectrpc/_server_async.py:_resolve_endpoints"]}
{"id": "C87", "title": "Unary responses are compressed as Accept-Encoding asks", "statement": "The coding of a unary Connect response is one the request accepts: one listed in Accept-Encoding with a weight other than 0, or identity unless it is refused, and the body is the message in that coding. Of the codings listed it is the first that the server has. How the list is written, in letters of either case, with or without weights, on one line or several, makes no difference.", "quantifier": "all requests, header lines, applications with any compressions, methods and messages, on both servers", "why_tests_cant": "Tests send a handful of lists; the claim is about every list, and needs what HTTP says about weights and lines.", "anchors": ["src/connectrpc/_compression.py:negotiate_compression", "src/connectrpc/_server_async.py:_handle_unary_connect", "src/connectrpc/_server_sync.py:_handle_unary"]}
{"id": "C88", "title": "Headers objects do not share state", "statement": "What a Headers object holds depends only on what it was made from, at the time it was made, and on the operations on it: operations on other objects, on the one it was made from, and on those made from it, change nothing. A Headers object made from another holds the same values. A view of an object depends on the operations on that object alone.", "quantifier": "all programs that make Headers objects (from pairs, from mappings, from other Headers objects, by the copy a call makes), operate on any of them in any order and take views at any time", "why_tests_cant": "Sharing shows only for the particular order of operations on two objects that meets it; no finite set of programs covers them.", "anchors": ["src/connectrpc/_headers.py:Headers", "src/connectrpc/_headers.py:_AllItemsView", "src/connectrpc/_protocol_connect.py:ConnectClientProtocol.create_request_context"]}
{"id": "C89", "title": "Headers that nobody looks at change nothing", "statement": "Two requests with the same method, path, query and body, and with the same values of the headers that have a meaning for the protocol (content type and codings, accepted codings, protocol version, timeouts, host), are answered in the same way, whatever other header lines they carry, in whatever order and spelling, as long as the method and its interceptors do not look at them.", "quantifier": "all requests, header lines, applications, methods of all kinds, protocols, environments and failures, on both servers", "why_tests_cant": "A test compares two particular requests; that no other header line can influence the response is a claim about all of them.", "anchors": ["src/connectrpc/_server_async.py:ConnectASGIApplication.__call__", "src/connectrpc/_server_sync.py:ConnectWSGIApplication.__call__", "src/connectrpc/_protocol_connect.py:ConnectServerProtocol", "src/connectrpc/_protocol_grpc.py:GRPCServerProtocol"]}
{"id": "C90", "title": "Deadlines are kept", "statement": "A call with a timeout does not succeed after its deadline: the client gives DEADLINE_EXCEEDED, and the server stops working on a request whose time is over.", "quantifier": "all calls, timeouts, clocks and responses; all requests and methods", "why_tests_cant": "A test waits for a few timeouts; the claim is about every moment at which a response can end, and about every request that arrives late.", "anchors": ["src/connectrpc/_client_sync.py:ConnectClientSync._send_request_bidi_stream", "src/connectrpc/_server_async.py:ConnectASGIApplication.__call__", "src/connectrpc/_server_sync.py:ConnectWSGIApplication.__call__"]}
{"id": "C91", "title": "Every request on a working connection is answered in full", "statement": "As long as the connection works, every request, valid or not, gets one complete response: a start, a body and, where announced, trailers, in all protocols and for methods of all kinds. This holds whatever bytes the request has, and whatever the method, the codecs, the decompression and the reading of the request raise; on ASGI a cancelled stream is completed as well. The application must write Unicode text in headers, trailers and errors, and its compressions must not fail; only a message of 4 GiB or more, which the envelope cannot hold, is given up.", "quantifier": "all applications, requests, bodies, methods of all kinds, protocols, exceptions, moments of cancellation and disconnection, on both servers", "why_tests_cant": "A test sees the responses to some requests and failures; that no combination of request, method and failure leaves a client waiting is a claim about all of them.", "anchors": ["src/connectrpc/_server_async.py:ConnectASGIApplication.__call__", "src/connectrpc/_server_async.py:ConnectASGIApplication._handle_stream", "src/connectrpc/_server_async.py:ConnectASGIApplication._handle_error", "src/connectrpc/_server_sync.py:ConnectWSGIApplication.__call__", "src/connectrpc/_server_sync.py:ConnectWSGIApplication._handle_stream", "src/connectrpc/_server_sync.py:_response_stream", "src/connectrpc/_protocol_grpc.py:GRPCEnvelopeWriter.end"]}
{"id": "C92", "title": "A refused request is told why", "statement": "A request to an unknown path is answered 404, one with a wrong HTTP method 405 with the methods allowed, and a Connect request of another protocol version or with an unreadable timeout 400 with an invalid_argument error naming the fault, by both servers alike and without running a method. No other Connect request is refused before its codec is chosen.", "quantifier": "all applications, paths, mount points, HTTP methods, headers and bodies, on both servers", "why_tests_cant": "The order and the text of the refusals depend on all parts of the head of a request; a test sees some combinations.", "anchors": ["src/connectrpc/_server_async.py:ConnectASGIApplication.__call__", "src/connectrpc/_server_async.py:ConnectASGIApplication._handle_error", "src/connectrpc/_server_sync.py:ConnectWSGIApplication.__call__", "src/connectrpc/_server_sync.py:ConnectWSGIApplication._handle_error", "src/connectrpc/_protocol_connect.py:ConnectServerProtocol.create_request_context"]}
{"id": "C93", "title": "A message that cannot be written ends the stream with its error", "statement": "When a method produces a message that the codec or the compression cannot write, the messages before it reach the client, no message after it is produced, the method is closed so that its cleanup runs, and the response ends with the error of the message (or the one the cleanup raised) and with the trailers as the cleanup left them.", "quantifier": "all methods of the four kinds, request streams, codecs and compressions that fail on some message, and points of failure, over the streaming protocols on both servers", "why_tests_cant": "Failures of a codec or compression in the middle of a stream are rare, and what the cleanup adds shows only when both come together.", "anchors": ["src/connectrpc/_server_async.py:ConnectASGIApplication._handle_stream", "src/connectrpc/_server_sync.py:ConnectWSGIApplication._handle_stream", "src/connectrpc/_server_sync.py:_response_stream"]}
{"id": "C94", "title": "The outcome of a call does not depend on how it travels", "statement": "If two calls give a method the same messages and header lines, and the method does the same for both, their callers get the same messages and the same end (success, or errors with the same code, message and details) and read the same response headers and trailers, whichever protocol, codec, compression, HTTP method, kind of client and kind of server each call uses, as far as both protocols can carry what the method does.", "quantifier": "all pairs of clients, applications, protocols, codecs, compressions, deadlines and links, all methods of the four kinds, request messages and header histories", "why_tests_cant": "The combinations of two transports multiply; tests compare each transport with expectations, for a few methods.", "anchors": ["src/connectrpc/_client_async.py:ConnectClient.execute_unary", "src/connectrpc/_client_async.py:ConnectClient.execute_client_stream", "src/connectrpc/_client_async.py:ConnectClient.execute_bidi_stream", "src/connectrpc/_client_sync.py:ConnectClientSync.execute_unary", "src/connectrpc/_server_async.py:ConnectASGIApplication.__call__", "src/connectrpc/_server_sync.py:ConnectWSGIApplication.__call__", "src/connectrpc/_protocol_connect.py:ConnectServerProtocol", "src/connectrpc/_protocol_grpc.py:GRPCServerProtocol"]}
{"id": "C95", "title": "A call that an interceptor makes again is made anew", "statement": "When an interceptor of a client makes a call again, for instance to retry it after an error, every attempt sends the whole request again: the same URL, HTTP method, header lines and message, with what is left of the timeout of the call. The attempts are what they would be as calls of their own, the caller gets the outcome of the last one, and the server is told no more time than is left.", "quantifier": "all clients, protocols, interceptors, timeouts, numbers of attempts, errors to be retried, times at which the attempts are made and responses to each of them", "why_tests_cant": "Attempts depend on the times and the responses of all attempts before; tests retry once, if at all, without a clock that moves.", "anchors": ["src/connectrpc/_client_async.py:ConnectClient._send_request_unary", "src/connectrpc/_client_async.py:ConnectClient._send_request_client_stream", "src/connectrpc/_client_async.py:ConnectClient._send_request_bidi_stream", "src/connectrpc/_client_sync.py:ConnectClientSync._send_request_unary", "src/connectrpc/_client_sync.py:ConnectClientSync._send_request_bidi_stream", "src/connectrpc/_client_shared.py:prepare_get_params", "src/connectrpc/_response_metadata.py:handle_response_headers", "src/connectrpc/_response_metadata.py:handle_response_trailers"]}
{"id": "C96", "title": "Reading the response metadata of a call does not change the call", "statement": "A call sends the same request, gives the same messages and ends in the same way whether or not it is made in a ResponseMetadata block, and whichever blocks are entered and left while a stream is used. A block in which a stream is called has the headers and trailers of that stream.", "quantifier": "all clients, protocols, calls, responses and ways to use them, and all programs that enter, leave and nest blocks, start tasks, and use any number of streams by turns in any context", "why_tests_cant": "A stream runs piece by piece in the contexts of whoever asks it for messages; tests put one call in one block and read well-formed trailers.", "anchors": ["src/connectrpc/_response_metadata.py:ResponseMetadata", "src/connectrpc/_response_metadata.py:handle_response_headers", "src/connectrpc/_response_metadata.py:handle_response_trailers", "src/connectrpc/_protocol_connect.py:ConnectEnvelopeReader.handle_end_message", "src/connectrpc/_client_async.py:ConnectClient._send_request_unary", "src/connectrpc/_client_async.py:ConnectClient._send_request_bidi_stream", "src/connectrpc/_client_sync.py:ConnectClientSync._send_request_unary", "src/connectrpc/_client_sync.py:ConnectClientSync._send_request_bidi_stream"]}
{"id": "C97", "title": "Errors of newer servers are understood", "statement": "What a server adds to Connect errors and end-of-stream messages that this client does not know, in any layout and order, does not change the request, messages, outcome and metadata of a call. An error with a code that the client does not know keeps its message and its details.", "quantifier": "all clients, calls, requests, error bodies, end-of-stream messages and members added to them or to their details", "why_tests_cant": "A test has the members that its author knows of; servers add others later.", "anchors": ["src/connectrpc/_protocol.py:ConnectWireError.from_dict", "src/connectrpc/_protocol.py:ConnectWireError.from_response", "src/connectrpc/_protocol_connect.py:ConnectEnvelopeReader.handle_end_message", "src/connectrpc/_client_async.py:ConnectClient._send_request_unary", "src/connectrpc/_client_async.py:ConnectClient._send_request_bidi_stream", "src/connectrpc/_client_sync.py:ConnectClientSync._send_request_unary", "src/connectrpc/_client_sync.py:ConnectClientSync._send_request_bidi_stream"]}
{"id": "C98", "title": "A GET request means the same however its query string is written", "statement": "Two GET requests whose parameters message, base64, compression and encoding have the same (first) values are answered alike, whatever the order, the escapes and their case, the way spaces are written, empty parts, repeated and other parameters. A message given as text and the same message in base64, padded or not, are answered alike.", "quantifier": "all applications (ASGI and WSGI), requests, parameter lists and ways to write them into a query string", "why_tests_cant": "Proxies, caches and browsers rewrite query strings in ways that no list of test strings exhausts.", "anchors": ["src/connectrpc/_server_async.py:ConnectASGIApplication.__call__", "src/connectrpc/_server_async.py:ConnectASGIApplication._read_get_request", "src/connectrpc/_server_sync.py:ConnectWSGIApplication._handle_get_request"]}
{"id": "C99", "title": "Header and trailer lines that a client does not look at change nothing", "statement": "If two servers (or one server, directly and through a proxy) answer alike but for header and trailer lines other than the content type, the content coding and, in gRPC, the status lines, and but for the order, repetition and case of lines that leave the first of each of those as it is, then a call sends the same requests, yields the same messages and ends alike with both, whether or not its response metadata is being read.", "quantifier": "all clients (synchronous or not), protocols, methods, clocks, messages, uses of a stream, ResponseMetadata in scope or not, and all networks and pairs of responses that agree on the named lines", "why_tests_cant": "Proxies add, reorder and rewrite header lines in ways that no list of test responses exhausts.", "anchors": ["src/connectrpc/_client_async.py:ConnectClient._send_request_unary", "src/connectrpc/_client_async.py:ConnectClient._send_request_bidi_stream", "src/connectrpc/_client_sync.py:ConnectClientSync._send_request_unary", "src/connectrpc/_client_sync.py:ConnectClientSync._send_request_bidi_stream", "src/connectrpc/_protocol_grpc.py:GRPCEnvelopeReader.handle_response_complete", "src/connectrpc/_protocol_grpc.py:GRPCClientProtocol.handle_response_compression", "src/connectrpc/_protocol_connect.py:ConnectClientProtocol.handle_response_compression", "src/connectrpc/_protocol_connect.py:ConnectEnvelopeReader.handle_end_message"]}
{"id": "C100", "title": "A gRPC status is understood alike whether it comes at the end or at once", "statement": "A gRPC or gRPC-Web server may report the status of a call without messages after the headers (as HTTP trailers, or as a trailer frame in the body) or at once among the headers. Calls send the same requests, yield the same messages and end alike in both cases, whatever the status, its message and details, whatever the connection does afterwards, and whether or not response metadata is being read.", "quantifier": "all gRPC and gRPC-Web clients (synchronous or not), kinds of call, clocks, requests, uses of a stream, splits of the body into chunks, and all pairs of responses that carry the same status lines in the two places", "why_tests_cant": "Servers and proxies choose between the two forms by timing and by the kind of failure, and the client decides which lines to read from whether it has seen a frame; no list of responses covers statuses, splits and resets.", "anchors": ["src/connectrpc/_protocol_grpc.py:GRPCEnvelopeReader.handle_response_complete", "src/connectrpc/_protocol_grpc.py:GRPCWebEnvelopeReader.handle_end_message", "src/connectrpc/_protocol_grpc.py:GRPCWebEnvelopeReader.get_response_trailers", "src/connectrpc/_client_async.py:ConnectClient._send_request_bidi_stream", "src/connectrpc/_client_sync.py:ConnectClientSync._send_request_bidi_stream"]}
{"id": "C101", "title": "gRPC-Web trailers mean the same however they are written", "statement": "Two gRPC-Web responses with the same messages, whose trailers have the same (first) status, message and details lines, give the same messages and end alike, whatever the case of the names, the spaces and tabs around names and values, the order of the lines, other lines, empty lines, whether the last line is ended, whether and how the frames are compressed, and however the body is split.", "quantifier": "all gRPC-Web clients (synchronous or not), kinds of call, clocks, requests, uses of a stream, ResponseMetadata in scope or not, messages, splits, compressions and ways to write trailer lines in ASCII", "why_tests_cant": "Other servers and proxies write trailer frames in their own style; no list of texts covers the styles, and the library's own server only ever writes one of them.", "anchors": ["src/connectrpc/_protocol_grpc.py:GRPCWebEnvelopeReader.handle_end_message", "src/connectrpc/_protocol_grpc.py:GRPCWebEnvelopeReader.get_response_trailers", "src/connectrpc/_protocol_grpc.py:GRPCEnvelopeReader.handle_response_complete"]}
{"id": "C102", "title": "Which messages of a stream its sender compresses makes no difference", "statement": "Two streams whose frames have the same contents once decompressed, each frame compressed or not as its sender likes, give a reader the same messages, error, trailers and metadata. Calls answered with such streams have exactly the same result: the same requests, messages, end and response metadata, whether the stream is read to its end or left early. Both servers do the same with such requests.", "quantifier": "all readers of servers and clients, codecs, compressions, size limits, bodies, choices of the frames to compress (the end-of-stream message and trailers included) and ways to split the bodies; all clients of the three protocols, kinds of call, clocks, requests and points at which a stream is left; all applications and methods, and requests that arrive whole or break off", "why_tests_cant": "A sender may decide about each message; the choices grow exponentially with the stream, and the library's own senders always choose the same way.", "anchors": ["src/connectrpc/_envelope.py:EnvelopeReader._read_messages", "src/connectrpc/_protocol_connect.py:ConnectEnvelopeReader.handle_end_message", "src/connectrpc/_protocol_grpc.py:GRPCEnvelopeReader.handle_end_message", "src/connectrpc/_protocol_grpc.py:GRPCWebEnvelopeReader.handle_end_message"]}
