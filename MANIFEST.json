{
 "claims": [
  {
   "property": "C01",
   "status": "proved",
   "theorems": [
    "C01_spec_total",
    "C01_chunking_invariant",
    "C01_server_request_streams",
    "C01_calls",
    "C01_asgi",
    "C01_wsgi"
   ],
   "note": ""
  },
  {
   "property": "C02",
   "status": "proved",
   "theorems": [
    "C02_stream_roundtrip"
   ],
   "note": ""
  },
  {
   "property": "C03",
   "status": "proved",
   "theorems": [
    "C03_delivered_within_limit",
    "C03_first_too_large"
   ],
   "note": ""
  },
  {
   "property": "C04",
   "status": "proved",
   "theorems": [
    "C04_never_delivered",
    "C04_compressed_is_error"
   ],
   "note": ""
  },
  {
   "property": "C05",
   "status": "proved",
   "theorems": [
    "C05_write_exact",
    "C05_end_exact",
    "C05_web_end_exact"
   ],
   "note": ""
  },
  {
   "property": "C06",
   "status": "partial",
   "theorems": [
    "C06_same_chunk_partial",
    "C06_later_chunk_refuted"
   ],
   "note": "proved for everything in the same chunk as the end-of-stream message; refuted for later chunks, whose messages are still delivered (finding)"
  },
  {
   "property": "C07",
   "status": "partial",
   "theorems": [
    "C07_connect_client_refuted",
    "C07_grpc_client_refuted",
    "C07_grpc_web_client_partial",
    "C07_grpc_client_partial",
    "C07_server_refuted"
   ],
   "note": "proved for the gRPC-Web client, and for the gRPC client when the response has no status trailer; refuted for the Connect client, the gRPC client when trailers follow the cut, and both servers (findings)"
  },
  {
   "property": "C08",
   "status": "partial",
   "theorems": [
    "C08_no_error_partial",
    "C08_refuted"
   ],
   "note": "proved that success means that no end-of-stream message carried an error; refuted: a Connect stream without end-of-stream message counts as success (finding)"
  },
  {
   "property": "C09",
   "status": "proved",
   "theorems": [
    "C09_stream",
    "C09_single",
    "C09_missing"
   ],
   "note": ""
  },
  {
   "property": "C10",
   "status": "partial",
   "theorems": [
    "C10_json_roundtrip",
    "C10_unary_error_partial",
    "C10_encoding_refuted"
   ],
   "note": "Proved for every method whose own header lines are ASCII and include no content-encoding, and texts without surrogates; refuted for a method that sets content-encoding itself: the client refuses the error response (C10_encoding_refuted)."
  },
  {
   "property": "C11",
   "status": "partial",
   "theorems": [
    "C11_stream_error_partial",
    "C11_limit_refuted"
   ],
   "note": "Proved when the end-of-stream message is within the client's read_max_bytes and header lines are ASCII; refuted beyond the limit, where the caller gets RESOURCE_EXHAUSTED instead (C11_limit_refuted)."
  },
  {
   "property": "C12",
   "status": "partial",
   "theorems": [
    "C12_stream_error",
    "C12_unary_error",
    "C12_reserved_trailers_refuted"
   ],
   "note": "proved for methods that set no trailers under the names gRPC reserves; refuted for those that do (finding)"
  },
  {
   "property": "C13",
   "status": "partial",
   "theorems": [
    "C13_stream_error_partial",
    "C13_limit_refuted"
   ],
   "note": "Proved when the end-of-stream message is within the client's read_max_bytes and header lines are ASCII; refuted beyond the limit, where the caller gets RESOURCE_EXHAUSTED instead (C13_limit_refuted)."
  },
  {
   "property": "C14",
   "status": "proved",
   "theorems": [
    "C14_status_sent",
    "C14_table",
    "C14_status_read"
   ],
   "note": ""
  },
  {
   "property": "C15",
   "status": "proved",
   "theorems": [
    "C15_unary",
    "C15_unary_json",
    "C15_stream"
   ],
   "note": ""
  },
  {
   "property": "C16",
   "status": "proved",
   "theorems": [
    "C16_status",
    "C16_code_of_status"
   ],
   "note": ""
  },
  {
   "property": "C17",
   "status": "partial",
   "theorems": [
    "C17_stream_exception_partial",
    "C17_unary_grpc_exception_partial",
    "C17_limit_refuted",
    "C17_unary_exception_partial"
   ],
   "note": "Unary Connect: as C10. Others: Proved when the end-of-stream message is within the client's read_max_bytes and header lines are ASCII; refuted beyond the limit, where the caller gets RESOURCE_EXHAUSTED instead (C17_limit_refuted)."
  },
  {
   "property": "C18",
   "status": "partial",
   "theorems": [
    "C18_unary",
    "C18_unary_codes",
    "C18_stream_partial",
    "C18_stream_refuted",
    "C18_stream_codes"
   ],
   "note": "proved for unary calls, and for streams unless grpc-status-details-bin is malformed; refuted for those (finding)"
  },
  {
   "property": "C19",
   "status": "proved",
   "theorems": [
    "C19_reset"
   ],
   "note": ""
  },
  {
   "property": "C20",
   "status": "proved",
   "theorems": [
    "C20_getall_is_history",
    "C20_getitem_is_first",
    "C20_case_insensitive",
    "C20_of_pairs",
    "C20_of_mapping",
    "C20_delete",
    "C20_update",
    "C20_pop",
    "C20_setdefault",
    "C20_popitem"
   ],
   "note": ""
  },
  {
   "property": "C21",
   "status": "proved",
   "theorems": [
    "C21_keys",
    "C21_allitems",
    "C21_items",
    "C21_lengths",
    "C21_contains"
   ],
   "note": ""
  },
  {
   "property": "C22",
   "status": "proved",
   "theorems": [
    "C22_copy",
    "C22_unary",
    "C22_stream"
   ],
   "note": ""
  },
  {
   "property": "C23",
   "status": "partial",
   "theorems": [
    "C23_unary_metadata_partial",
    "C23_encoding_refuted"
   ],
   "note": "Proved for every method whose own header lines are ASCII and include no content-encoding; refuted for an error with a content-encoding line of the method's own: headers and trailers are lost (C23_encoding_refuted)."
  },
  {
   "property": "C24",
   "status": "partial",
   "theorems": [
    "C24_stream_trailers_partial",
    "C24_limit_refuted"
   ],
   "note": "Proved for every method, client and network when the end-of-stream message is within the client's read_max_bytes, for names that are not gRPC's own status lines and that the method did not also send as a header 'trailer-<name>'. Refuted beyond the limit: the call fails and the trailers are lost (C24_limit_refuted)."
  },
  {
   "property": "C25",
   "status": "partial",
   "theorems": [
    "C25_scopes_partial",
    "C25_restores",
    "C25_reentrant_refuted",
    "C25_two_calls_refuted"
   ],
   "note": "proved for blocks that are not re-entered and hold one call each; refuted otherwise (findings)"
  },
  {
   "property": "C26",
   "status": "proved",
   "theorems": [
    "C26_deadline_never_grows"
   ],
   "note": ""
  },
  {
   "property": "C27",
   "status": "proved",
   "theorems": [
    "C27_accepted_iff"
   ],
   "note": ""
  },
  {
   "property": "C28",
   "status": "proved",
   "theorems": [
    "C28_exact_milliseconds",
    "C28_no_header"
   ],
   "note": ""
  },
  {
   "property": "C29",
   "status": "partial",
   "theorems": [
    "C29_grpc_partial",
    "C29_connect_partial",
    "C29_connect_error",
    "C29_connect_refuted",
    "C29_grpc_refuted",
    "C29_grpc_length_refuted"
   ],
   "note": "proved for texts that are not numerals after int()'s tolerance; refuted: negative, signed, spaced, underscored and over-long timeouts are accepted (findings)"
  },
  {
   "property": "C30",
   "status": "proved",
   "theorems": [
    "C30_connect_roundtrip"
   ],
   "note": ""
  },
  {
   "property": "C31",
   "status": "partial",
   "theorems": [
    "C31_transport",
    "C31_call_timeout",
    "C31_sent",
    "C31_zero_refuted"
   ],
   "note": "proved for every timeout but 0; a per-call timeout of 0 is replaced by the default (finding)"
  },
  {
   "property": "C32",
   "status": "partial",
   "theorems": [
    "C32_monotone_partial",
    "C32_zero_at_deadline_partial",
    "C32_near_partial",
    "C32_witness",
    "C32_initial_bound_refuted"
   ],
   "note": "proved for clocks and timeouts in the range of exact float arithmetic stated in the theorems; at the start the remaining time can exceed the timeout by a millisecond (finding)"
  },
  {
   "property": "C33",
   "status": "proved",
   "theorems": [
    "C33_stream_call",
    "C33_client_stream_call",
    "C33_unary_grpc_call",
    "C33_unary_request",
    "C33_stream_request",
    "C33_response",
    "C33_other_codec_refused",
    "C33_stream_types",
    "C33_unary_call"
   ],
   "note": ""
  },
  {
   "property": "C34",
   "status": "proved",
   "theorems": [
    "C34_first_supported",
    "C34_client_can_decode"
   ],
   "note": ""
  },
  {
   "property": "C35",
   "status": "partial",
   "theorems": [
    "C35_asgi_post_partial",
    "C35_asgi_get_partial",
    "C35_asgi_grpc_partial",
    "C35_wsgi_post_partial",
    "C35_wsgi_get_partial",
    "C35_wsgi_grpc_partial",
    "C35_connect_streams_refuted"
   ],
   "note": "proved for unary and gRPC requests; refuted for Connect streams, where an unknown content encoding is treated as identity (finding)"
  },
  {
   "property": "C36",
   "status": "partial",
   "theorems": [
    "C36_asgi_permitted",
    "C36_wsgi_permitted",
    "C36_asgi_405",
    "C36_wsgi_405",
    "C36_unary_only_refuted"
   ],
   "note": "405/Allow and NO_SIDE_EFFECTS proved; 'unary' refuted: GET also runs streaming methods declared side-effect free (finding)"
  },
  {
   "property": "C37",
   "status": "proved",
   "theorems": [
    "C37_asgi",
    "C37_wsgi",
    "C37_asgi_accepted"
   ],
   "note": ""
  },
  {
   "property": "C38",
   "status": "proved",
   "theorems": [
    "C38_client_one",
    "C38_client_many",
    "C38_client_none",
    "C38_asgi_one",
    "C38_wsgi_one"
   ],
   "note": ""
  },
  {
   "property": "C39",
   "status": "partial",
   "theorems": [
    "C39_wellformed_partial",
    "C39_streams",
    "C39_recovering_send_refuted"
   ],
   "note": "proved for connections that do not recover after a failed send, and for all streams that end; refuted for a send that fails once and recovers (finding)"
  },
  {
   "property": "C40",
   "status": "partial",
   "theorems": [
    "C40_status_line",
    "C40_start_once_partial",
    "C40_messages_once",
    "C40_twice_refuted",
    "C40_never_refuted"
   ],
   "note": "proved when the end of the stream can be encoded and the rest of the body can be read; refuted: start_response twice or never (findings)"
  },
  {
   "property": "C41",
   "status": "partial",
   "theorems": [
    "C41_unary_partial",
    "C41_wsgi_streams",
    "C41_stream_refuted"
   ],
   "note": "proved for unary methods (ASGI) and WSGI streams; refuted for ASGI streams, where a cancellation from outside is reported as success (finding)"
  },
  {
   "property": "C42",
   "status": "proved",
   "theorems": [
    "C42_no_more_messages",
    "C42_closed"
   ],
   "note": ""
  },
  {
   "property": "C43",
   "status": "proved",
   "theorems": [
    "C43_exact",
    "C43_short_request",
    "C43_surplus"
   ],
   "note": "C43_surplus: apart from what draining the rest of an HTTP/1 request raises, which is held fixed (C77)."
  },
  {
   "property": "C44",
   "status": "partial",
   "theorems": [
    "C44_client",
    "C44_asgi_post_partial",
    "C44_wsgi_post_partial",
    "C44_get_refuted",
    "C44_client_stream"
   ],
   "note": "client and POST proved; refuted for GET, where neither server applies the limit (finding)"
  },
  {
   "property": "C45",
   "status": "proved",
   "theorems": [
    "C45_get_as_post",
    "C45_asgi_get",
    "C45_wsgi_get"
   ],
   "note": ""
  },
  {
   "property": "C46",
   "status": "partial",
   "theorems": [
    "C46_same_partial",
    "C46_unsupported_codec_partial",
    "C46_undecodable_refuted",
    "C46_undecompressable_refuted",
    "C46_empty_refuted",
    "C46_get_codec_refuted",
    "C46_get_stream_refuted",
    "C46_accept_post_refuted",
    "C46_cleanup_refuted"
   ],
   "note": "proved for every undisturbed request whose message is readable, whose codec is known and whose stream can be written (headers and invoked methods too); refuted outside that: undecodable or undecompressable bodies, empty compressed bodies, GET with an unknown codec, GET on streams, Accept-Post, cleanup trailers (findings)"
  },
  {
   "property": "C47",
   "status": "partial",
   "theorems": [
    "C47_order",
    "C47_client",
    "C47_wsgi",
    "C47_asgi_partial",
    "C47_asgi_iterator_refuted",
    "C47_trace"
   ],
   "note": "proved for clients and WSGI for every list, and for ASGI when interceptors are given as a sequence; refuted for an iterator (finding)"
  },
  {
   "property": "C48",
   "status": "partial",
   "theorems": [
    "C48_bracket_partial",
    "C48_unary",
    "C48_client_stream",
    "C48_server_stream_partial",
    "C48_bidi_stream_partial",
    "C48_async_one_partial",
    "C48_async_close_refuted"
   ],
   "note": "proved for all kinds of calls as long as the consumer reads on; refuted for async streams abandoned by their consumer (finding)"
  },
  {
   "property": "C49",
   "status": "partial",
   "theorems": [
    "C49_interfaces_partial",
    "C49_metadata_refuted"
   ],
   "note": "proved for the four call interfaces in any combination; refuted for a metadata interceptor that also has a call interface (finding)"
  },
  {
   "property": "C50",
   "status": "partial",
   "theorems": [
    "C50_protocol",
    "C50_always_replies_partial",
    "C50_course",
    "C50_failed",
    "C50_object",
    "C50_endpoints_refuted",
    "C50_empty_refuted"
   ],
   "note": "proved for every event sequence, including failures, once endpoints can be created; refuted for failing endpoint creation and services without methods (findings)"
  },
  {
   "property": "C51",
   "status": "partial",
   "theorems": [
    "C51_closed_client_refuted"
   ],
   "note": "refuted: close() does not stop later calls (finding)"
  },
  {
   "property": "C52",
   "status": "partial",
   "theorems": [
    "C52_generated",
    "C52_only_rpcs",
    "C52_paths_differ",
    "C52_asgi",
    "C52_wsgi",
    "C52_served_asgi",
    "C52_served_wsgi",
    "C52_nested_mount_refuted",
    "C52_address_slash_refuted"
   ],
   "note": "proved for the exact path, any ASGI root path and WSGI mounting at the application's own path; refuted for the own path below another mount point, and for an address ending with a slash (findings)"
  },
  {
   "property": "C53",
   "status": "partial",
   "theorems": [
    "C53_only_case_and_underscores",
    "C53_distinct_partial",
    "C53_words",
    "C53_usual_names_distinct",
    "C53_distinct_refuted",
    "C53_inherited_refuted"
   ],
   "note": "the name only changes case and underscores: proved for every name; distinctness proved for names in usual spelling and names differing otherwise, refuted in general (GetUrl/GetURL) and for RPCs named like client methods (findings)"
  },
  {
   "property": "C54",
   "status": "partial",
   "theorems": [
    "C54_same_partial",
    "C54_span_partial",
    "C54_address",
    "C54_usual_addresses",
    "C54_url_refuted",
    "C54_host_refuted",
    "C54_propagation_refuted",
    "C54_cancelled_refuted",
    "C54_instrumentor_partial",
    "C54_instrumentor_refuted"
   ],
   "note": "same outcome, messages, effects and state, and exactly one span with the right attributes: proved when the OpenTelemetry library does not raise and addresses are host:port (usual ones are); for async streams with consumers that read on. Findings: addresses with a path or without numeric port make every call fail (client URL, Host header), trace header never names the client's span, cancelled calls are recorded as successes, instrumentor exhausts an iterator of interceptors"
  },
  {
   "property": "C55",
   "status": "partial",
   "theorems": [
    "C55_outcome",
    "C55_fires",
    "C55_told",
    "C55_misuse",
    "C55_cancellation_lost",
    "C55_consumer_refuted"
   ],
   "note": "proved for every schedule of deadline, cancellation and completion inside the block; a cancellation that coincides with the deadline is lost and a deadline can fire in the consumer of a stream (findings)"
  },
  {
   "property": "C56",
   "status": "partial",
   "theorems": [
    "C56_asgi_answered",
    "C56_wsgi_answered",
    "C56_wsgi_undecodable",
    "C56_asgi_undecodable_refuted"
   ],
   "note": "always answered: proved; INVALID_ARGUMENT proved for WSGI, refuted for ASGI (finding)"
  },
  {
   "property": "C57",
   "status": "proved",
   "theorems": [
    "C57_messages_first",
    "C57_asgi_response",
    "C57_wsgi_response",
    "C57_behaviour_exists"
   ],
   "note": ""
  },
  {
   "property": "C58",
   "status": "proved",
   "theorems": [
    "C58_standard_unpadded",
    "C58_standard_padded",
    "C58_urlsafe_padded",
    "C58_urlsafe_unpadded"
   ],
   "note": ""
  },
  {
   "property": "C59",
   "status": "proved",
   "theorems": [
    "C59_percent_roundtrip",
    "C59_fails_only_on_surrogates",
    "C59_injective"
   ],
   "note": ""
  },
  {
   "property": "C60",
   "status": "partial",
   "theorems": [
    "C60_asgi_unary",
    "C60_asgi_streams",
    "C60_wsgi_unary",
    "C60_wsgi_streams_partial",
    "C60_wsgi_refuted"
   ],
   "note": "proved for ASGI and for WSGI up to the first message of a stream; refuted for exceptions after it (finding)"
  },
  {
   "property": "C61",
   "status": "partial",
   "theorems": [
    "C61_asgi_stream",
    "C61_asgi_messages",
    "C61_asgi_message",
    "C61_wsgi_stream",
    "C61_wsgi_messages",
    "C61_wsgi_length_refuted"
   ],
   "note": "proved for ASGI; for WSGI proved that no read failed, but a stream shorter than its declared length is taken as finished (finding)"
  },
  {
   "property": "C62",
   "status": "partial",
   "theorems": [
    "C62_same_partial",
    "C62_exit_refuted",
    "C62_late_sync",
    "C62_late_refuted"
   ],
   "note": "proved for every call without task cancellation, when the deadline has not passed at the end of the response and leaving a failed response raises nothing; refuted outside that: a response complete after the deadline (DEADLINE_EXCEEDED vs success) and an exception raised on leaving the response (RESOURCE_EXHAUSTED vs UNAVAILABLE) (findings)"
  },
  {
   "property": "C63",
   "status": "proved",
   "theorems": [
    "C63_unimplemented"
   ],
   "note": "every generated service, RPC kind, protocol and server, for clients and applications that fit together (hypotheses shown met)"
  },
  {
   "property": "C64",
   "status": "partial",
   "theorems": [
    "C64_received",
    "C64_stream",
    "C64_single",
    "C64_unary",
    "C64_made",
    "C64_debug",
    "C64_made_type_refuted",
    "C64_host_refuted"
   ],
   "note": "proved for details attached as messages, every code, text, kind of call, protocol and server, given the stated laws of the protobuf runtime; refuted for Any details with a type URL of another host (type_name and registries) and for details read where they were made (any type gives the message) (findings)"
  },
  {
   "property": "C65",
   "status": "partial",
   "theorems": [
    "C65_asgi_grpc_partial",
    "C65_asgi_connect_partial",
    "C65_asgi_web_partial",
    "C65_wsgi_grpc",
    "C65_wsgi_connect",
    "C65_wsgi_web",
    "C65_web_injection_refuted"
   ],
   "note": "proved for gRPC, Connect streaming and gRPC-Web on both servers (on ASGI up to cancellation from outside, see C41); refuted for gRPC-Web when a method sets a trailer value that contains CR LF (finding)"
  },
  {
   "property": "C66",
   "status": "partial",
   "theorems": [
    "C66_asgi_partial",
    "C66_wsgi_partial",
    "C66_timeout_refuted"
   ],
   "note": "proved on both servers for requests whose grpc-timeout is absent or well formed (on WSGI also: the rest of the body can be read and the end of an empty response can be encoded); refuted for malformed timeouts, which are answered with HTTP 500 and JSON (finding)"
  },
  {
   "property": "C67",
   "status": "partial",
   "theorems": [
    "C67_eq",
    "C67_eq_partial",
    "C67_eq_refuted",
    "C67_eq_dict_refuted",
    "C67_view_partial",
    "C67_view_refuted",
    "C67_view_len_refuted",
    "C67_view_cleared",
    "C67_view_stale_refuted",
    "C67_member_partial",
    "C67_member_refuted"
   ],
   "note": "proved without repeated headers (equality, membership) and for views taken while a header is repeated, before and after clear(); refuted: equality ignores further values and compares spelling with dictionaries, older views miss repeated values, or after clear() show old ones and miscount, membership raises AttributeError (findings)"
  },
  {
   "property": "C68",
   "status": "partial",
   "theorems": [
    "C68_asgi_partial",
    "C68_wsgi_partial",
    "C68_ipv6_refuted"
   ],
   "note": "proved for both servers for every request (WSGI: environments with CGI names), except that for an IPv6 Host without a port no port is added (refuted, finding); timeouts that are malformed but accepted are C29"
  },
  {
   "property": "C69",
   "status": "proved",
   "theorems": [
    "C69_cut",
    "C69_lazy"
   ],
   "note": "for every request, number of chunks and method; the cleanup of the abandoned generator (run by the garbage collector) is not modelled"
  },
  {
   "property": "C70",
   "status": "partial",
   "theorems": [
    "C70_partial",
    "C70_refuted",
    "C70_stays_refuted"
   ],
   "note": "proved for every history in which the module is imported before the instrumentation is first switched off; switched off earlier, it comes back with the import and cannot be switched off (refuted, finding)"
  },
  {
   "property": "C71",
   "status": "partial",
   "theorems": [
    "C71_partial",
    "C71_files",
    "C71_refuted"
   ],
   "note": "proved for files in which no service name ends like a generated class; refuted in general: a service HatClient replaces the client of the service Hat (finding)"
  },
  {
   "property": "C72",
   "status": "partial",
   "theorems": [
    "C72_partial",
    "C72_distinct",
    "C72_top_level_refuted"
   ],
   "note": "proved for files inside a directory, given that the module is written beside protoc's; refuted for files at the top of the tree, whose modules import their own messages relatively (finding)"
  },
  {
   "property": "C73",
   "status": "partial",
   "theorems": [
    "C73_asgi_partial",
    "C73_wsgi_partial",
    "C73_stream_refuted",
    "C73_refused_refuted"
   ],
   "note": "Proved on both servers for unary methods and responses with status 200, with Vary read as HTTP reads it. Refuted for GET requests to streaming methods (compressed as Connect-Accept-Encoding says, no Vary) and for the 405 that a GET request gets because of its Content-Type (no Vary)."
  },
  {
   "property": "C74",
   "status": "partial",
   "theorems": [
    "C74_server_stream",
    "C74_release",
    "C74_calls",
    "C74_single_partial",
    "C74_unary_partial",
    "C74_single_refuted"
   ],
   "note": "Proved for every use of the iterator of a streaming call, and for calls with a single response unless the server sends more than one message. Refuted in that case: the call raises while its response is still open (finding)."
  },
  {
   "property": "C75",
   "status": "proved",
   "theorems": [
    "C75_timely"
   ],
   "note": "For the readers of all three protocols; the model of the iterator is proved to agree with the model of the call that C13 and the other client properties are about (C74_calls)."
  },
  {
   "property": "C76",
   "status": "proved",
   "theorems": [
    "C76_same",
    "C76_ask",
    "C76_arrived",
    "C76_yield"
   ],
   "note": "For the ASGI server. A message is handed over when the send() of the HTTP server has been awaited; what the server does with it is not modelled. The WSGI server is documented as not full-duplex; that it produces a message only when it is asked for is C69."
  },
  {
   "property": "C77",
   "status": "partial",
   "theorems": [
    "C77_same",
    "C77_account",
    "C77_end",
    "C77_error_partial",
    "C77_status",
    "C77_grpc",
    "C77_one_partial",
    "C77_early_refuted",
    "C77_get_refuted"
   ],
   "note": "Every response that is not that of a successful call (any HTTP status but 200, any gRPC status but 0, any error in an end-of-stream message), and every successful call of a method taking one message other than by GET. Refuted for successful calls of methods that return before their request stream is at its end (C77_early_refuted, all three protocols) and for GET requests with a body (C77_get_refuted): the body is drained on the error paths only. C77_same ties the conversations to the requests of the other theorems; C77_account and C77_end say what reading to the end means for the input."
  },
  {
   "property": "C78",
   "status": "proved",
   "theorems": [
    "C78_ask",
    "C78_arrived",
    "C78_yield"
   ],
   "note": "C78_ask is the general statement; C78_arrived and C78_yield follow. What the HTTP server does with what it is handed is outside the model."
  },
  {
   "property": "C79",
   "status": "partial",
   "theorems": [
    "C79_reader_partial",
    "C79_reader_refuted",
    "C79_decompress_refuted",
    "C79_asgi_partial",
    "C79_wsgi_partial",
    "C79_servers_refuted",
    "C79_unary_asgi_refuted",
    "C79_unary_wsgi_refuted"
   ],
   "note": "Proved: between two parts, every whole message has been passed on and less than one frame is held (readers of both sides, and both servers as conversations). Refuted: the limit is checked only when the frame is complete, so up to 4 GiB are held (C79_reader_refuted, for every reader and limit; C79_servers_refuted for both servers). Unary requests are received whole before the limit is looked at, on both servers and for every limit (C79_unary_asgi_refuted, C79_unary_wsgi_refuted). Compressed messages are decompressed whole before anything is compared with the limit (C79_decompress_refuted)."
  },
  {
   "property": "C80",
   "status": "partial",
   "theorems": [
    "C80_one_at_a_time",
    "C80_nothing_held_back",
    "C80_over",
    "C80_body",
    "C80_failure",
    "C80_close_refuted"
   ],
   "note": "Everything but closing is proved, for iterators that may go on for ever; the bodies of requests in the model of calls are what this conversation gives (C80_body). Refuted: the application's iterator is never closed, not even when the HTTP library closes the content of a call that ended early (C80_close_refuted)."
  },
  {
   "property": "C81",
   "status": "proved",
   "theorems": [
    "C81_causal",
    "C81_in_order",
    "C81_interactive",
    "C81_determined",
    "C81_wsgi"
   ],
   "note": "C81_causal: two requests that agree in everything but the events after a prefix have equal conversations (results included), or conversations that agree up to the first reception after that prefix. C81_in_order: the receptions are a prefix of what the server reports, followed by a disconnect. C81_interactive: for every client, given as any function from the events so far to the next event, there is one sequence of events whose every prefix gives a conversation that follows the client. C81_determined: any two sequences of that length that follow the client give the same conversation. What the disconnect monitor of a server stream sees and when sends fail are fixed by the environment, not by the client. C81_wsgi: on the WSGI server, for every request, two bodies that have been read alike so far lead to the same next step, and to the same result if all reads are alike."
  },
  {
   "property": "C82",
   "status": "partial",
   "theorems": [
    "C82_dialogue",
    "C82_wsgi",
    "C82_http1_refuted"
   ],
   "note": "C82_dialogue (ASGI) and C82_wsgi start from a client and an application that fit (the same notion as C33) and the client's own request, and compare the conversation with the direct dialogue of SDialogue: every conversation in which the server reports what the client has written is the dialogue, and such a conversation exists whenever the method never waits in vain. Refuted over HTTP/1 on WSGI (C82_http1_refuted): the request is read to its end before the error of a failed method is sent, so a client that waits for the answer before it ends its stream waits for ever. Methods are finite trees, as everywhere."
  },
  {
   "property": "C83",
   "status": "partial",
   "theorems": [
    "C83_asgi",
    "C83_wsgi",
    "C83_client",
    "C83_client_only",
    "C83_asgi_unknown",
    "C83_wsgi_unknown",
    "C83_grpc_refuted",
    "C83_bare_name_refuted",
    "C83_stream_client_refuted"
   ],
   "note": "C83_asgi, C83_wsgi, C83_client are invariance theorems over whole calls; C83_asgi_unknown, C83_wsgi_unknown and C83_client_only say what is refused. Refuted: gRPC types in another spelling (C83_grpc_refuted), the bare name of a codec is served (C83_bare_name_refuted), streaming responses with parameters are refused by the client (C83_stream_client_refuted). Letters are ASCII (str.lower is modelled on ASCII letters)."
  },
  {
   "property": "C84",
   "status": "partial",
   "theorems": [
    "C84_asgi_grows",
    "C84_wsgi_grows",
    "C84_asgi_as_ending",
    "C84_wsgi_as_ending",
    "C84_ending_exists",
    "C84_asgi_ending",
    "C84_wsgi_ending",
    "C84_asgi_served",
    "C84_wsgi_served",
    "C84_disconnect_partial",
    "C84_send_fails",
    "C84_wsgi_close",
    "C84_bidi_refuted",
    "C84_waiting_refuted",
    "C84_unary_refuted"
   ],
   "note": "Methods are a coinductive type with silent steps. C84_asgi_as_ending/C84_wsgi_as_ending carry every theorem about ending methods over to what has happened so far. Missing (C84_disconnect_partial): bidirectional streams are not watched (C84_bidi_refuted), a waiting server-stream method is not stopped (C84_waiting_refuted), unary methods are not stopped (C84_unary_refuted)."
  },
  {
   "property": "C85",
   "status": "partial",
   "theorems": [
    "C85_server_plain",
    "C85_decorated_wsgi",
    "C85_decorated_asgi_partial",
    "C85_decorated_asgi_refuted",
    "C85_refused_wsgi",
    "C85_refused_asgi",
    "C85_guarded_wsgi",
    "C85_guarded_asgi",
    "C85_client_decorated",
    "C85_client_plain",
    "C85_client_headers",
    "C85_client_refused"
   ],
   "note": "Composes the interceptor model (C47, C48) with the servers and clients. Missing (C85_decorated_asgi_partial): on ASGI, interceptors given as an iterator (C47_asgi_iterator_refuted) and streaming methods that change the response when closed (C85_decorated_asgi_refuted). Interceptors read the context as it is when the call starts."
  },
  {
   "property": "C86",
   "status": "partial",
   "theorems": [
    "C86_independent",
    "C86_made_once",
    "C86_in_service",
    "C86_before_startup",
    "C86_after_startup",
    "C86_lifespan",
    "C86_restart_refuted"
   ],
   "note": "Proved for every history with a service object, and for generators up to a second startup. Refuted (C86_restart_refuted): after a second startup that failed requests are served by the service closed before. Nothing else runs while the generator is advanced or closed. What methods share among themselves is theirs."
  },
  {
   "property": "C87",
   "status": "partial",
   "theorems": [
    "C87_asgi_partial",
    "C87_wsgi_partial",
    "C87_weights_refuted",
    "C87_case_refuted",
    "C87_identity_refuted",
    "C87_lines_refuted"
   ],
   "note": "Proved: whole responses of both servers, accepted whenever nothing is refused, and the first coding named on a single line in lower case without weights. Refuted: weights make a coding unknown (C87_weights_refuted), a refused identity is sent (C87_identity_refuted), upper case (C87_case_refuted), and on ASGI further lines (C87_lines_refuted) are ignored."
  },
  {
   "property": "C88",
   "status": "partial",
   "theorems": [
    "C88_objects",
    "C88_views",
    "C88_of_refuted"
   ],
   "note": "Proved on a heap of Headers objects, dictionaries and lists for all programs; made from another by its pairs (as calls do) an object holds the same values (C22_copy). Refuted: Headers(other) keeps the first value of each name only (C88_of_refuted)."
  },
  {
   "property": "C89",
   "status": "partial",
   "theorems": [
    "C89_asgi_partial",
    "C89_bytes_refuted",
    "C89_wsgi"
   ],
   "note": "Equality of everything the application does, for methods that look at any chosen set of headers and at the time or not; complete for WSGI. Refuted on ASGI: a header line that is not UTF-8 fails the request (C89_bytes_refuted)."
  },
  {
   "property": "C90",
   "status": "partial",
   "theorems": [
    "C90_sync_partial",
    "C90_server_asgi",
    "C90_server_wsgi",
    "C90_expired_refuted"
   ],
   "note": "Proved for every synchronous call that reads a response stream (streams, client streams, unary gRPC and gRPC-Web). The asynchronous client relies on asyncio's timeout (C55 with its findings) and unary Connect calls on the HTTP library. Servers do not act on deadlines at all: a timeout changes nothing for a method that does not look at it (C90_server_asgi, C90_server_wsgi), and expired requests are served (C90_expired_refuted)."
  },
  {
   "property": "C91",
   "status": "proved",
   "theorems": [
    "C91_asgi_stream",
    "C91_asgi",
    "C91_wsgi",
    "C91_text_refuted",
    "C91_trailers_refuted"
   ],
   "note": "The hypotheses about text are about the program of the method, step by step, not about the state it ends in. C91_text_refuted and C91_trailers_refuted show that they are needed. Cancelled unary Connect requests on ASGI, and BaseExceptions such as SystemExit on WSGI, are excluded (they get no response)."
  },
  {
   "property": "C92",
   "status": "partial",
   "theorems": [
    "C92_asgi_path",
    "C92_wsgi_path",
    "C92_asgi",
    "C92_wsgi",
    "C92_accepted",
    "C92_get_version_refuted"
   ],
   "note": "Proved for the HTTP method, the connect-protocol-version header and connect-timeout-ms. Refuted for the version that a GET request names in its connect parameter (finding). Media types are C83, compressions C35, the timeouts of gRPC C29 and C66."
  },
  {
   "property": "C93",
   "status": "partial",
   "theorems": [
    "C93_asgi",
    "C93_wsgi_partial",
    "C93_wsgi_close_refuted",
    "C93_monitor_refuted"
   ],
   "note": "Proved in full for ASGI as long as receiving does not fail while the method runs (finding). On WSGI the messages and the error are proved, but the response ends before the method is closed, so that the trailers lack what the cleanup adds (finding)."
  },
  {
   "property": "C94",
   "status": "proved",
   "theorems": [
    "C94_stream",
    "C94_client_stream",
    "C94_unary"
   ],
   "note": "What a protocol can carry is spelled out in SLink (sendable, sendable_answer); where that is narrower than one would like is in the findings of C10-C13, C17, C23 and C24. Names that the protocols or HTTP use themselves are not compared."
  },
  {
   "property": "C95",
   "status": "partial",
   "theorems": [
    "C95_requests",
    "C95_retry",
    "C95_deadline_refuted",
    "C95_metadata_refuted"
   ],
   "note": "Requests: proved for every interceptor and kind of call, as long as the interceptors change neither message nor headers. Attempts and outcome: proved for retrying calls with one answer. Refuted: retried requests tell the server the whole timeout, however much of it is gone (C95_deadline_refuted), and the ResponseMetadata keeps the trailers of failed attempts (C95_metadata_refuted)."
  },
  {
   "property": "C96",
   "status": "partial",
   "theorems": [
    "C96_unary",
    "C96_streams",
    "C96_history",
    "C96_reported",
    "C96_unreadable_refuted",
    "C96_made_inside_refuted",
    "C96_inner_refuted"
   ],
   "note": "Unary calls, gRPC and gRPC-Web: proved without conditions. Connect streams: proved when the metadata of end-of-stream messages can be read; otherwise refuted, a call that succeeds or fails with the server's error fails with another error in a block (C96_unreadable_refuted). Reports: proved for a block that is in scope exactly when the stream is used; a block in which a stream is called, but not used, learns nothing (C96_made_inside_refuted), and trailers go to the block in which the end is met (C96_inner_refuted)."
  },
  {
   "property": "C97",
   "status": "partial",
   "theorems": [
    "C97_unary",
    "C97_streams",
    "C97_unknown_code",
    "C97_detail_refuted",
    "C97_empty_error_refuted"
   ],
   "note": "Proved for added members of errors, details and end-of-stream messages. Refuted for details whose value is not base64 or not a string, with which the code and message of the error are lost (C97_detail_refuted), and for end-of-stream errors without members, which count as success (C97_empty_error_refuted)."
  },
  {
   "property": "C98",
   "status": "partial",
   "theorems": [
    "C98_asgi",
    "C98_wsgi",
    "C98_base64",
    "C98_garbage_refuted"
   ],
   "note": "Proved for every way to write parameters in ASCII. Refuted: what is not base64 in a message said to be base64 is not refused but left out (C98_garbage_refuted)."
  },
  {
   "property": "C99",
   "status": "proved",
   "theorems": [
    "C99_unary",
    "C99_streams"
   ],
   "note": "Unconditional: also for streams whose end cannot be read and calls that are left early."
  },
  {
   "property": "C100",
   "status": "proved",
   "theorems": [
    "C100_unary",
    "C100_streams"
   ],
   "note": "The trailer frame of gRPC-Web is uncompressed, within read_max_bytes, and its lines are legal header lines; that compressed frames are read like others is C02."
  },
  {
   "property": "C101",
   "status": "proved",
   "theorems": [
    "C101_unary",
    "C101_streams"
   ],
   "note": "For trailers within read_max_bytes. Responses without messages: C100."
  },
  {
   "property": "C102",
   "status": "proved",
   "theorems": [
    "C102_reader",
    "C102_unary",
    "C102_streams",
    "C102_asgi",
    "C102_wsgi"
   ],
   "note": "For frames that are the same or can be decompressed, with nothing after the end of the stream (as in C01); the bodies may break off within a further frame. Requests on servers: C102_asgi, C102_wsgi (for unary methods over Connect there are no frames)."
  }
 ]
}