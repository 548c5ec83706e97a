#!/usr/bin/env python3
"""Writes /verif/properties.jsonl (one JSON object per line)."""
import json, os
P = []
def p(title, statement, quantifier, why, anchors):
    P.append(dict(id="C%02d" % (len(P) + 1), title=title, statement=statement,
                  quantifier=quantifier, why_tests_cant=why, anchors=anchors))

MSG = "lib/src/coap_msg.c"; MEM = "lib/src/coap_mem.c"; CLI = "lib/src/coap_client.c"; SRV = "lib/src/coap_server.c"

# ---- message codec -------------------------------------------------------
p("Decode after encode",
  "Any message built through the message API (version 1, token of at most 8 bytes, options added in any order, optional payload, a code class a receiver accepts) that coap_msg_format writes into a large enough buffer is read back by coap_msg_parse as the same message: same type, code, message ID, token, option list and payload.",
  "every message value the setters can build (any number of options, any option numbers and lengths representable on the wire, any payload), every buffer length that suffices, and both choices of the implementation-defined signedness of char",
  "option deltas and lengths have three encodings each and the extension bytes take every value; the tests only use a handful of small options, none with an extension byte above 127",
  [MSG + ":coap_msg_format", MSG + ":coap_msg_parse", MSG + ":coap_msg_format_op", MSG + ":coap_msg_parse_op"])
p("Encode after decode",
  "Every datagram that coap_msg_parse accepts is the only wire form of the message it returns: formatting the parsed message into a large enough buffer gives back the datagram byte for byte.",
  "every byte string of every length up to the datagram size, both signednesses of char",
  "the set of accepted datagrams is infinite and includes every mix of short and extended option headers",
  [MSG + ":coap_msg_parse", MSG + ":coap_msg_format"])
p("Parser accepts exactly the CoAP grammar",
  "coap_msg_parse returns success exactly on the datagrams described by the RFC 7252 message grammar restricted to code classes 0, 2, 4 and 5 (version 1, token length at most 8, no reserved option nibble, no truncated option, a payload marker followed by at least one byte, empty messages without token, options or payload and never NON, RST only empty), and the message returned is the one the grammar assigns.",
  "every byte string",
  "a test can only sample accepted and rejected datagrams, it cannot show that nothing else is accepted",
  [MSG + ":coap_msg_parse", MSG + ":coap_msg_check"])
p("Parser stays inside the datagram",
  "coap_msg_parse(msg, buf, len) reads only buf[0..len-1], and its result depends only on those bytes.",
  "every datagram and every content of the memory that follows it",
  "an out-of-bounds read is silent; only a proof over every index the parser touches can exclude it",
  [MSG + ":coap_msg_parse_ops", MSG + ":coap_msg_parse_op", MSG + ":coap_msg_parse_payload"])
p("Formatter stays inside the buffer",
  "coap_msg_format(msg, buf, len) never writes at or beyond buf[len]; it either returns the number of bytes written (at most len) or -ENOSPC / -EBADMSG.",
  "every message and every buffer length",
  "overflow by one byte needs a particular combination of option number, option length and exact buffer length that random tests do not hit",
  [MSG + ":coap_msg_format_op", MSG + ":coap_msg_format_ops", MSG + ":coap_msg_format"])
p("Formatter succeeds when there is room",
  "If the wire form of a valid message fits in the buffer, coap_msg_format succeeds: it returns -ENOSPC only if the buffer is shorter than the wire form.",
  "every valid message and every buffer length",
  "needs every combination of option number, option length and remaining space",
  [MSG + ":coap_msg_format_op", MSG + ":coap_msg_format"])
p("Options are ordered and stable",
  "Whatever order options are added in, the message lists them in ascending option number, options with equal numbers stay in the order they were added, and no option is lost, duplicated or altered.",
  "every sequence of coap_msg_add_op calls",
  "quantifies over all insertion histories",
  [MSG + ":coap_msg_add_op", MSG + ":coap_msg_op_list_add"])
p("Unrecognised critical or unsafe options are always detected",
  "coap_msg_check_critical_ops returns 0 exactly when every odd-numbered option of the message is one of the recognised options, and otherwise the number of the first offending option; coap_msg_check_unsafe_ops does the same for options with bit 1 set.",
  "every message with any option list",
  "quantifies over all 2^32 option numbers and all option lists",
  [MSG + ":coap_msg_check_critical_ops", MSG + ":coap_msg_check_unsafe_ops", MSG + ":coap_msg_op_num_is_recognized"])
p("Block option round trip",
  "If coap_msg_op_format_block_val accepts a block number, more flag and block size, then coap_msg_op_parse_block_val applied to the formatted bytes returns the same number, flag and size.",
  "every block number, more flag, block size and option length",
  "2^32 numbers times 3 lengths times 7 sizes; the failing values are isolated",
  [MSG + ":coap_msg_op_format_block_val", MSG + ":coap_msg_op_parse_block_val"])
p("Block option parsing reads only the option value",
  "coap_msg_op_parse_block_val(num, more, size, val, len) reads only val[0..len-1] and reports an error for lengths that a block option cannot have.",
  "every option value of every length a peer may send",
  "reading past a short value gives a plausible number rather than a crash",
  [MSG + ":coap_msg_op_parse_block_val", MSG + ":coap_msg_parse_block_op"])
p("Copying a message",
  "coap_msg_copy into a fresh message gives a message with the same wire form as the source, and leaves the source unchanged.",
  "every source message",
  "quantifies over all messages, including option lists that are not sorted because they came from the wire",
  [MSG + ":coap_msg_copy"])
p("URI path reconstruction",
  "coap_msg_uri_path_to_str writes the path made of the message's Uri-Path options, each preceded by '/', truncated to the buffer and always terminated, never writes outside the buffer, and returns the number of bytes the full path needs.",
  "every message and every buffer length",
  "truncation boundaries and empty segments",
  [MSG + ":coap_msg_uri_path_to_str"])
p("Message operations return every buffer to its pool",
  "Whatever a datagram contains and whether coap_msg_parse succeeds or fails, destroying the message afterwards leaves the small and the medium buffer pools exactly as they were before the call.",
  "every datagram, every pool configuration and every pool state",
  "a leak of one buffer on a rare error path shows only after many repetitions",
  [MSG + ":coap_msg_op_new", MSG + ":coap_msg_parse", MSG + ":coap_msg_destroy"])
# ---- allocator -----------------------------------------------------------
p("Allocated buffers never overlap",
  "In any history of allocations and frees, every buffer handed out by coap_mem_alloc lies inside the pool, is at least as long as requested, and does not overlap any buffer that is still allocated.",
  "every pool geometry and every finite history of alloc and free calls",
  "quantifies over all histories",
  [MEM + ":coap_mem_alloc", MEM + ":coap_mem_free"])
p("Allocation fails only when it must",
  "coap_mem_alloc returns NULL exactly when the request is longer than the pool's buffer length or every buffer is allocated; after a free the buffer can be allocated again.",
  "every history of alloc and free calls",
  "exhaustion and re-use after arbitrary free orders",
  [MEM + ":coap_mem_alloc", MEM + ":coap_mem_free"])
p("Freeing a foreign pointer is harmless",
  "coap_mem_free with a pointer that is not the start of one of the pool's buffers changes nothing, and with the start of a buffer it releases exactly that buffer.",
  "every pool state and every pointer",
  "quantifies over all pointers, including those inside a buffer and one past the pool",
  [MEM + ":coap_mem_free"])
p("Pool creation reserves all the memory it hands out",
  "If coap_mem_create(num, len) succeeds, the memory it obtained holds num buffers of len bytes.",
  "every num and len that fit in size_t",
  "the failing sizes make the product wrap around and cannot be allocated in a test",
  [MEM + ":coap_mem_create"])
p("Concurrent allocation",
  "Two threads that allocate from the same pool at the same time never receive the same buffer.",
  "every interleaving of the two calls",
  "the window is a few instructions wide",
  [MEM + ":coap_mem_alloc", "proxy/http_coap/src/connection.c:connection_thread_func"])
# ---- client --------------------------------------------------------------
p("Bounded retransmission with back-off",
  "During one coap_client_exchange with a confirmable request the client transmits the request at most 1 + 4 times, every transmission carries the same bytes, and the k-th wait for an acknowledgement lasts 2^k times the first, which lies between 2 s and 3 s.",
  "every behaviour of the server and network, every timing, every random number",
  "quantifies over all schedules of datagrams and timer expirations",
  [CLI + ":coap_client_exchange", CLI + ":coap_client_exchange_con", CLI + ":coap_client_handle_ack_timeout", CLI + ":coap_client_init_ack_timeout"])
p("Only a matching response is accepted",
  "If coap_client_exchange succeeds, the response it returns was received from the network during the exchange, carries the token of the request, has no unrecognised critical option, and, when it is piggy-backed in an acknowledgement, carries the message ID of the request.",
  "every sequence of datagrams an adversarial server may send",
  "quantifies over all datagram sequences",
  [CLI + ":coap_client_exchange", CLI + ":coap_client_match_token", CLI + ":coap_client_handle_piggybacked_response", CLI + ":coap_client_handle_sep_response"])
p("A request is never taken for a response",
  "If coap_client_exchange succeeds, the message returned is a response: its code class is 2, 4 or 5.",
  "every sequence of datagrams",
  "needs a peer that answers with its own request or an empty-code message carrying the token",
  [CLI + ":coap_client_exchange_con", CLI + ":coap_client_exchange_non"])
p("Separate responses are acknowledged",
  "When coap_client_exchange returns a separate response that was confirmable, the client has sent exactly one acknowledgement, with the response's message ID; no acknowledgement is sent for a non-confirmable one.",
  "every sequence of datagrams",
  "quantifies over all datagram orders",
  [CLI + ":coap_client_handle_sep_response", CLI + ":coap_client_send_ack"])
p("The client gives up in bounded time",
  "coap_client_exchange returns within a bounded time whatever the network delivers.",
  "every timed sequence of datagrams",
  "an endless stream of unrelated datagrams is a schedule no finite test exhausts",
  [CLI + ":coap_client_listen_ack", CLI + ":coap_client_listen_resp", CLI + ":coap_client_exchange_con"])
p("Blockwise upload sends the body once and in order",
  "If the upload phase of coap_client_exchange_blockwise succeeds, the payloads of the requests that were sent, in order, are a partition of the body: concatenated they are exactly the caller's body, every block but the last has the more flag set and the last has not.",
  "every body, every initial block size and every behaviour of the server, including changes of block size in mid transfer",
  "server-driven block size negotiation gives unboundedly many schedules",
  [CLI + ":coap_client_exchange_blockwise1", CLI + ":coap_client_exchange_blockwise"])
p("Blockwise download assembles the body",
  "If coap_client_exchange_blockwise succeeds with a count n, then n is at most the buffer length and the first n bytes of the buffer are the concatenation, in order, of the payloads of the responses received in the download phase; nothing outside the buffer is written.",
  "every behaviour of the server, every buffer length",
  "quantifies over all servers",
  [CLI + ":coap_client_exchange_blockwise2"])
p("Blockwise transfers terminate",
  "coap_client_exchange_blockwise performs a bounded number of exchanges whatever the server answers.",
  "every behaviour of the server",
  "a hostile server can shrink the block size or repeat blocks; termination is a statement about all infinite behaviours",
  [CLI + ":coap_client_exchange_blockwise1", CLI + ":coap_client_exchange_blockwise2"])
# ---- server --------------------------------------------------------------
p("At most one transaction per client and at most eight in total",
  "At any time the server holds at most eight active transactions and never two for the same client address and port.",
  "every history of datagrams, timer expirations and handler results",
  "quantifies over all histories",
  [SRV + ":coap_server_exchange", SRV + ":coap_server_find_trans", SRV + ":coap_server_find_empty_trans"])
p("Eviction takes the least recently used transaction",
  "When a datagram arrives from a new client and all transactions are in use, the transaction that is replaced is one whose last use is not later than that of any other; every other transaction is untouched.",
  "every transaction table and every clock reading",
  "quantifies over all tables and clock values",
  [SRV + ":coap_server_find_oldest_trans", SRV + ":coap_server_exchange"])
p("Every response answers its request",
  "Every response the server sends for a request carries the request's token; a piggy-backed one is an acknowledgement with the request's message ID, a separate one is a confirmable message preceded by an empty acknowledgement with the request's message ID, and a non-confirmable request gets a non-confirmable response.",
  "every request datagram, every handler behaviour, every server state",
  "quantifies over all requests and handlers",
  [SRV + ":coap_server_exchange", SRV + ":coap_server_trans_send_ack"])
p("A repeated request is not executed twice",
  "If the same confirmable or non-confirmable request (same client, same message ID) arrives again, the handler is not called again and, for a confirmable request, the stored response is sent again.",
  "every history in which a request is delivered more than once",
  "the outcome depends on what happened in between, over unbounded histories",
  [SRV + ":coap_server_exchange", SRV + ":coap_server_trans_match_req"])
p("Every new request reaches the handler",
  "A well-formed request from a client that has not used the message ID before, without unrecognised critical options and outside a blockwise transfer, is passed to the handler exactly once.",
  "every server state and every request, including every message ID",
  "one message ID in 65536 behaves differently",
  [SRV + ":coap_server_exchange", SRV + ":coap_server_trans_create", SRV + ":coap_server_trans_match_req"])
p("Only confirmable responses are retransmitted, at most four times",
  "The server retransmits a message only while it is an unacknowledged confirmable response, at most four times, and stops once it is acknowledged or reset.",
  "every history of datagrams and timer expirations",
  "needs a new request to arrive between the separate response and its acknowledgement",
  [SRV + ":coap_server_trans_handle_ack_timeout", SRV + ":coap_server_exchange", SRV + ":coap_server_trans_stop_ack_timer"])
p("Messages that are not requests never reach the handler",
  "Acknowledgements, resets, responses and empty messages are never passed to the handler; a confirmable one is answered with a reset carrying its message ID.",
  "every datagram and every server state",
  "quantifies over all datagrams",
  [SRV + ":coap_server_exchange", SRV + ":coap_server_trans_reject"])
p("Bad options are refused",
  "A request with an unrecognised critical option never reaches the handler and is answered with 4.02 Bad Option.",
  "every request with any option list",
  "quantifies over all option numbers",
  [SRV + ":coap_server_trans_handle_bad_option", SRV + ":coap_server_check_options"])
p("Server message IDs",
  "Message IDs of messages the server originates are consecutive modulo 65536, so two of them are equal only if they are a multiple of 65536 apart.",
  "every number of messages sent",
  "wrap-around takes 65536 messages",
  [SRV + ":coap_server_get_next_msg_id"])
p("The server survives send errors",
  "A failure to send a datagram to one client does not stop the server from serving others: coap_server_run returns only if waiting for input or receiving fails.",
  "every history with a failing send",
  "needs a send error at a particular time",
  [SRV + ":coap_server_run", SRV + ":coap_server_listen", SRV + ":coap_server_trans_handle_ack_timeout"])
p("Server-side blockwise upload assembles the body",
  "During a blockwise PUT or POST the body handed to the receive callback is the concatenation, in order, of the payloads of the accepted blocks, whose positions are contiguous from 0; the callback is called exactly once, when the final block arrives; a block out of sequence, too long or missing a payload is refused and ends the transfer.",
  "every sequence of block requests a client may send, every buffer length",
  "quantifies over all request sequences",
  [SRV + ":coap_server_trans_handle_next_block", SRV + ":coap_server_trans_handle_blockwise"])
p("Server-side blockwise download serves the body",
  "During a blockwise GET the payloads of the successive responses, concatenated, are a prefix of the body and, when the response without the more flag has been sent, the whole body.",
  "every body, block size and every size the client asks for, changing in mid transfer",
  "quantifies over all client behaviours",
  [SRV + ":coap_server_trans_handle_next_block"])
p("Blockwise handling stays inside the body buffer",
  "No sequence of block requests makes the server read or write outside the transaction's body buffer.",
  "every sequence of requests and every body length",
  "out-of-range block numbers and sizes over unbounded histories",
  [SRV + ":coap_server_trans_handle_next_block"])
p("End-to-end blockwise download",
  "When the client library downloads a resource from the server library over a network that neither loses nor alters messages, the client obtains exactly the server's body, for any body that fits the client's buffer and any pair of block sizes.",
  "every body length and content, every valid client and server block size",
  "the two state machines interact over unboundedly many rounds",
  [CLI + ":coap_client_exchange_blockwise2", SRV + ":coap_server_trans_handle_next_block"])
p("End-to-end blockwise upload",
  "When the client library uploads a body to the server library over such a network, the server's callback receives exactly the client's body.",
  "every body length and content, every valid client and server block size",
  "the two state machines interact over unboundedly many rounds",
  [CLI + ":coap_client_exchange_blockwise1", SRV + ":coap_server_trans_handle_next_block"])
p("Separate-response resources",
  "A confirmable request is answered by a separate response exactly when its URI path equals a path registered with coap_server_add_sep_resp_uri_path.",
  "every list of registered paths and every request",
  "path segments may contain any byte, including '/' and NUL, and may exceed the internal buffer",
  [SRV + ":coap_server_get_resp_type", SRV + ":coap_server_path_list_match", SRV + ":coap_server_add_sep_resp_uri_path"])
# ---- proxy ---------------------------------------------------------------
p("The proxy's receive buffer is a FIFO",
  "Over any history of filling, expanding and consuming, the bytes in a data buffer are exactly the bytes added and not yet consumed, in order, and the buffer never exceeds its maximum size.",
  "every history of data_buf operations",
  "quantifies over all histories",
  ["proxy/common/src/data_buf.c:data_buf_add", "proxy/common/src/data_buf.c:data_buf_consume", "proxy/common/src/data_buf.c:data_buf_expand"])
p("Percent-encoding round trip",
  "Decoding the percent-encoding of any URI component gives back the component.",
  "every NUL-free byte string and every set of exempted characters the library uses, both signednesses of char",
  "256^n strings",
  ["proxy/common/src/uri.c:uri_encode_str", "proxy/common/src/uri.c:uri_decode_str"])
p("URI generation stays inside the buffer and reports the needed length",
  "uri_generate never writes outside the buffer, terminates the result, returns the length of the full URI, and writes the full URI whenever it fits.",
  "every URI structure and every buffer length",
  "quantifies over all structures and lengths",
  ["proxy/common/src/uri.c:uri_generate"])
p("Parsing a generated URI",
  "Parsing the URI generated from a URI structure gives back the structure.",
  "every URI structure with syntactically valid components",
  "characters left unescaped in one component can be taken for a delimiter of another",
  ["proxy/common/src/uri.c:uri_parse", "proxy/common/src/uri.c:uri_generate"])
p("The host comes from the authority",
  "For a URI scheme://authority/path, the host, user information and port that uri_parse reports are those of the authority: characters of the path have no influence on them.",
  "every authority and every path",
  "needs delimiter characters inside the path",
  ["proxy/common/src/uri.c:uri_parse_hier_part", "proxy/common/src/uri.c:uri_find_port"])
p("Copying a URI",
  "uri_copy succeeds, unless memory runs out, and gives a structure equal to the source.",
  "every URI structure, with any subset of components present",
  "2^7 subsets of components",
  ["proxy/common/src/uri.c:uri_copy"])
p("HTTP parsing terminates",
  "http_msg_parse terminates on every input.",
  "every byte string a peer may send",
  "termination is a statement about all inputs; the looping ones are specially crafted",
  ["proxy/common/src/http_msg.c:http_msg_parse_body"])
p("HTTP parse after generate",
  "An HTTP message with a Content-Length body that http_msg_generate writes completely is read back by http_msg_parse as the same start line, headers and body, and the whole message is consumed.",
  "every message with well-formed fields",
  "quantifies over all header lists and bodies, including bodies with arbitrary bytes",
  ["proxy/common/src/http_msg.c:http_msg_generate", "proxy/common/src/http_msg.c:http_msg_parse"])
p("Chunk generation stays inside the buffer",
  "http_msg_generate_chunk(out, out_len, in, in_len) never writes at or beyond out[out_len].",
  "every buffer length and every input",
  "fails only for buffers shorter than the chunk header",
  ["proxy/common/src/http_msg.c:http_msg_generate_chunk"])
p("Bounded string utilities",
  "util_strncpy and util_strncat never write outside the destination, always terminate it, and return the length the result would have had.",
  "every pair of strings and every destination length",
  "quantifies over all lengths",
  ["proxy/common/src/util.c:util_strncpy", "proxy/common/src/util.c:util_strncat"])
p("Configuration lookups return the last assignment",
  "After any sequence of config_set calls, config_get returns the value last set for that section and name, or NULL if there is none.",
  "every sequence of assignments",
  "quantifies over all histories",
  ["proxy/common/src/config.c:config_set", "proxy/common/src/config.c:config_get"])
p("Configuration parsing stays inside the text",
  "config_parse reads only the characters of the configuration text, whatever the text.",
  "every NUL-terminated text",
  "an over-read is silent and depends on how the text ends",
  ["proxy/common/src/config.c:config_parser_next", "proxy/common/src/config.c:config_parser_exec"])
p("CoAP to HTTP status mapping",
  "A successful CoAP response is never reported to the HTTP client as a client or server error, and an error response never as a success.",
  "every CoAP response code",
  "the switch falls through between cases",
  ["proxy/common/src/cross.c:cross_status_coap_to_http"])
p("The proxy forwards every method it accepts",
  "Every HTTP request that the proxy converts to a CoAP request is sent to the CoAP server.",
  "every HTTP request accepted by the conversion",
  "a method that is accepted but not dispatched",
  ["proxy/http_coap/src/connection.c:connection_coap_exchange", "proxy/common/src/cross.c:cross_method_http_to_coap"])
p("HTTP responses are sent completely",
  "The bytes connection_send writes to the HTTP client are exactly the generated response.",
  "every response length",
  "fails only when the length equals the buffer size",
  ["proxy/http_coap/src/connection.c:connection_send", "proxy/common/src/http_msg.c:http_msg_generate"])
p("Each proxied request goes to the server its URI names",
  "For every sequence of requests on one HTTP connection, each CoAP request is sent over a client connected to the host and port of that request's URI, and no request makes the proxy dereference a missing host or port.",
  "every sequence of request URIs",
  "depends on the previous request and on URIs without a port",
  ["proxy/http_coap/src/connection.c:connection_process", "proxy/http_coap/src/connection.c:connection_coap_client_create"])
p("HTTP to CoAP URI conversion",
  "The Uri-Path and Uri-Query options produced by cross_uri_http_to_coap are the non-empty '/'-separated path segments and '&'-separated query arguments of the URI, in order.",
  "every HTTP request URI",
  "quantifies over all URIs",
  ["proxy/common/src/cross.c:cross_uri_http_to_coap"])
p("Registrar",
  "After any sequence of registrar_add and registrar_del calls, registrar_find returns the address last added for an identifier that has not been deleted since, and NULL otherwise, without touching freed memory.",
  "every history of add and delete calls",
  "needs deletion from the middle of the list followed by another access",
  ["sample/reg_server/registrar.c:registrar_add", "sample/reg_server/registrar.c:registrar_del", "sample/reg_server/registrar.c:registrar_find"])
p("TLS session caches",
  "A lookup in the TLS client or server session cache returns the session data most recently stored under that key, if it has not been evicted or deleted, and never data stored under another key.",
  "every history of set, get and delete calls and every cache size",
  "quantifies over all histories including slot re-use",
  ["proxy/common/src/tls.c:tls_client_cache_set", "proxy/common/src/tls.c:tls_client_cache_get", "proxy/common/src/tls.c:tls_server_cache_set", "proxy/common/src/tls.c:tls_server_cache_get", "proxy/common/src/tls.c:tls_server_cache_delete"])
p("Formatting is faithful",
  "Whenever coap_msg_format succeeds on a message with a known code class, the bytes it wrote are a wire form of exactly that message: every option number, option value, token and payload byte is represented.",
  "every message the setters can build, including option numbers and lengths a peer never sends",
  "the limit of the two-byte extension is only reached by option numbers or lengths above 65804",
  [MSG + ":coap_msg_format", MSG + ":coap_msg_format_op"])
p("Client replies",
  "Every acknowledgement and every reset the client sends during an exchange is an empty message that follows directly on the receipt of a confirmable message and carries its message ID; non-confirmable messages, acknowledgements and resets are never answered and nothing is answered twice.",
  "every sequence of datagrams, timer expiries and system call failures",
  "quantifies over all interleavings of unrelated, malformed and matching messages with retransmissions",
  ["lib/src/coap_client.c:coap_client_reject", "lib/src/coap_client.c:coap_client_send_ack", "lib/src/coap_client.c:coap_client_handle_format_error", "lib/src/coap_client.c:coap_client_exchange"])
p("The response sent is the handler's",
  "When the request handler builds a response, the datagram sent is exactly that response, formatted, with only the message ID, the request's token and the message type filled in by the server.",
  "every handler, request and server state, including leftovers of earlier exchanges in the transaction",
  "quantifies over all handlers and over the state left by earlier requests",
  ["lib/src/coap_server.c:coap_server_exchange"])

out = os.path.join(os.path.dirname(os.path.abspath(__file__)), "..", "properties.jsonl")
with open(out, "w") as f:
    for x in P:
        f.write(json.dumps(x, ensure_ascii=False) + "\n")
print(len(P))
