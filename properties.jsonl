{"id": "C01", "title": "Decode after encode", "statement": "Any message built through the message API (version 1, token of at most 8 bytes, options added in any order, optional payload, a code class a receiver accepts) that coap_msg_format writes into a large enough buffer is read back by coap_msg_parse as the same message: same type, code, message ID, token, option list and payload.", "quantifier": "every message value the setters can build (any number of options, any option numbers and lengths representable on the wire, any payload), every buffer length that suffices, and both choices of the implementation-defined signedness of char", "why_tests_cant": "option deltas and lengths have three encodings each and the extension bytes take every value; the tests only use a handful of small options, none with an extension byte above 127", "anchors": ["lib/src/coap_msg.c:coap_msg_format", "lib/src/coap_msg.c:coap_msg_parse", "lib/src/coap_msg.c:coap_msg_format_op", "lib/src/coap_msg.c:coap_msg_parse_op"]}
{"id": "C02", "title": "Encode after decode", "statement": "Every datagram that coap_msg_parse accepts is the only wire form of the message it returns: formatting the parsed message into a large enough buffer gives back the datagram byte for byte.", "quantifier": "every byte string of every length up to the datagram size, both signednesses of char", "why_tests_cant": "the set of accepted datagrams is infinite and includes every mix of short and extended option headers", "anchors": ["lib/src/coap_msg.c:coap_msg_parse", "lib/src/coap_msg.c:coap_msg_format"]}
{"id": "C03", "title": "Parser accepts exactly the CoAP grammar", "statement": "coap_msg_parse returns success exactly on the datagrams described by the RFC 7252 message grammar restricted to code classes 0, 2, 4 and 5 (version 1, token length at most 8, no reserved option nibble, no truncated option, a payload marker followed by at least one byte, empty messages without token, options or payload and never NON, RST only empty), and the message returned is the one the grammar assigns.", "quantifier": "every byte string", "why_tests_cant": "a test can only sample accepted and rejected datagrams, it cannot show that nothing else is accepted", "anchors": ["lib/src/coap_msg.c:coap_msg_parse", "lib/src/coap_msg.c:coap_msg_check"]}
{"id": "C04", "title": "Parser stays inside the datagram", "statement": "coap_msg_parse(msg, buf, len) reads only buf[0..len-1], and its result depends only on those bytes.", "quantifier": "every datagram and every content of the memory that follows it", "why_tests_cant": "an out-of-bounds read is silent; only a proof over every index the parser touches can exclude it", "anchors": ["lib/src/coap_msg.c:coap_msg_parse_ops", "lib/src/coap_msg.c:coap_msg_parse_op", "lib/src/coap_msg.c:coap_msg_parse_payload"]}
{"id": "C05", "title": "Formatter stays inside the buffer", "statement": "coap_msg_format(msg, buf, len) never writes at or beyond buf[len]; it either returns the number of bytes written (at most len) or -ENOSPC / -EBADMSG.", "quantifier": "every message and every buffer length", "why_tests_cant": "overflow by one byte needs a particular combination of option number, option length and exact buffer length that random tests do not hit", "anchors": ["lib/src/coap_msg.c:coap_msg_format_op", "lib/src/coap_msg.c:coap_msg_format_ops", "lib/src/coap_msg.c:coap_msg_format"]}
{"id": "C06", "title": "Formatter succeeds when there is room", "statement": "If the wire form of a valid message fits in the buffer, coap_msg_format succeeds: it returns -ENOSPC only if the buffer is shorter than the wire form.", "quantifier": "every valid message and every buffer length", "why_tests_cant": "needs every combination of option number, option length and remaining space", "anchors": ["lib/src/coap_msg.c:coap_msg_format_op", "lib/src/coap_msg.c:coap_msg_format"]}
{"id": "C07", "title": "Options are ordered and stable", "statement": "Whatever order options are added in, the message lists them in ascending option number, options with equal numbers stay in the order they were added, and no option is lost, duplicated or altered.", "quantifier": "every sequence of coap_msg_add_op calls", "why_tests_cant": "quantifies over all insertion histories", "anchors": ["lib/src/coap_msg.c:coap_msg_add_op", "lib/src/coap_msg.c:coap_msg_op_list_add"]}
{"id": "C08", "title": "Unrecognised critical or unsafe options are always detected", "statement": "coap_msg_check_critical_ops returns 0 exactly when every odd-numbered option of the message is one of the recognised options, and otherwise the number of the first offending option; coap_msg_check_unsafe_ops does the same for options with bit 1 set.", "quantifier": "every message with any option list", "why_tests_cant": "quantifies over all 2^32 option numbers and all option lists", "anchors": ["lib/src/coap_msg.c:coap_msg_check_critical_ops", "lib/src/coap_msg.c:coap_msg_check_unsafe_ops", "lib/src/coap_msg.c:coap_msg_op_num_is_recognized"]}
{"id": "C09", "title": "Block option round trip", "statement": "If coap_msg_op_format_block_val accepts a block number, more flag and block size, then coap_msg_op_parse_block_val applied to the formatted bytes returns the same number, flag and size.", "quantifier": "every block number, more flag, block size and option length", "why_tests_cant": "2^32 numbers times 3 lengths times 7 sizes; the failing values are isolated", "anchors": ["lib/src/coap_msg.c:coap_msg_op_format_block_val", "lib/src/coap_msg.c:coap_msg_op_parse_block_val"]}
{"id": "C10", "title": "Block option parsing reads only the option value", "statement": "coap_msg_op_parse_block_val(num, more, size, val, len) reads only val[0..len-1] and reports an error for lengths that a block option cannot have.", "quantifier": "every option value of every length a peer may send", "why_tests_cant": "reading past a short value gives a plausible number rather than a crash", "anchors": ["lib/src/coap_msg.c:coap_msg_op_parse_block_val", "lib/src/coap_msg.c:coap_msg_parse_block_op"]}
{"id": "C11", "title": "Copying a message", "statement": "coap_msg_copy into a fresh message gives a message with the same wire form as the source, and leaves the source unchanged.", "quantifier": "every source message", "why_tests_cant": "quantifies over all messages, including option lists that are not sorted because they came from the wire", "anchors": ["lib/src/coap_msg.c:coap_msg_copy"]}
{"id": "C12", "title": "URI path reconstruction", "statement": "coap_msg_uri_path_to_str writes the path made of the message's Uri-Path options, each preceded by '/', truncated to the buffer and always terminated, never writes outside the buffer, and returns the number of bytes the full path needs.", "quantifier": "every message and every buffer length", "why_tests_cant": "truncation boundaries and empty segments", "anchors": ["lib/src/coap_msg.c:coap_msg_uri_path_to_str"]}
{"id": "C13", "title": "Message operations return every buffer to its pool", "statement": "Whatever a datagram contains and whether coap_msg_parse succeeds or fails, destroying the message afterwards leaves the small and the medium buffer pools exactly as they were before the call.", "quantifier": "every datagram, every pool configuration and every pool state", "why_tests_cant": "a leak of one buffer on a rare error path shows only after many repetitions", "anchors": ["lib/src/coap_msg.c:coap_msg_op_new", "lib/src/coap_msg.c:coap_msg_parse", "lib/src/coap_msg.c:coap_msg_destroy"]}
{"id": "C14", "title": "Allocated buffers never overlap", "statement": "In any history of allocations and frees, every buffer handed out by coap_mem_alloc lies inside the pool, is at least as long as requested, and does not overlap any buffer that is still allocated.", "quantifier": "every pool geometry and every finite history of alloc and free calls", "why_tests_cant": "quantifies over all histories", "anchors": ["lib/src/coap_mem.c:coap_mem_alloc", "lib/src/coap_mem.c:coap_mem_free"]}
{"id": "C15", "title": "Allocation fails only when it must", "statement": "coap_mem_alloc returns NULL exactly when the request is longer than the pool's buffer length or every buffer is allocated; after a free the buffer can be allocated again.", "quantifier": "every history of alloc and free calls", "why_tests_cant": "exhaustion and re-use after arbitrary free orders", "anchors": ["lib/src/coap_mem.c:coap_mem_alloc", "lib/src/coap_mem.c:coap_mem_free"]}
{"id": "C16", "title": "Freeing a foreign pointer is harmless", "statement": "coap_mem_free with a pointer that is not the start of one of the pool's buffers changes nothing, and with the start of a buffer it releases exactly that buffer.", "quantifier": "every pool state and every pointer", "why_tests_cant": "quantifies over all pointers, including those inside a buffer and one past the pool", "anchors": ["lib/src/coap_mem.c:coap_mem_free"]}
{"id": "C17", "title": "Pool creation reserves all the memory it hands out", "statement": "If coap_mem_create(num, len) succeeds, the memory it obtained holds num buffers of len bytes.", "quantifier": "every num and len that fit in size_t", "why_tests_cant": "the failing sizes make the product wrap around and cannot be allocated in a test", "anchors": ["lib/src/coap_mem.c:coap_mem_create"]}
{"id": "C18", "title": "Concurrent allocation", "statement": "Two threads that allocate from the same pool at the same time never receive the same buffer.", "quantifier": "every interleaving of the two calls", "why_tests_cant": "the window is a few instructions wide", "anchors": ["lib/src/coap_mem.c:coap_mem_alloc", "proxy/http_coap/src/connection.c:connection_thread_func"]}
{"id": "C19", "title": "Bounded retransmission with back-off", "statement": "During one coap_client_exchange with a confirmable request the client transmits the request at most 1 + 4 times, every transmission carries the same bytes, and the k-th wait for an acknowledgement lasts 2^k times the first, which lies between 2 s and 3 s.", "quantifier": "every behaviour of the server and network, every timing, every random number", "why_tests_cant": "quantifies over all schedules of datagrams and timer expirations", "anchors": ["lib/src/coap_client.c:coap_client_exchange", "lib/src/coap_client.c:coap_client_exchange_con", "lib/src/coap_client.c:coap_client_handle_ack_timeout", "lib/src/coap_client.c:coap_client_init_ack_timeout"]}
{"id": "C20", "title": "Only a matching response is accepted", "statement": "If coap_client_exchange succeeds, the response it returns was received from the network during the exchange, carries the token of the request, has no unrecognised critical option, and, when it is piggy-backed in an acknowledgement, carries the message ID of the request.", "quantifier": "every sequence of datagrams an adversarial server may send", "why_tests_cant": "quantifies over all datagram sequences", "anchors": ["lib/src/coap_client.c:coap_client_exchange", "lib/src/coap_client.c:coap_client_match_token", "lib/src/coap_client.c:coap_client_handle_piggybacked_response", "lib/src/coap_client.c:coap_client_handle_sep_response"]}
{"id": "C21", "title": "A request is never taken for a response", "statement": "If coap_client_exchange succeeds, the message returned is a response: its code class is 2, 4 or 5.", "quantifier": "every sequence of datagrams", "why_tests_cant": "needs a peer that answers with its own request or an empty-code message carrying the token", "anchors": ["lib/src/coap_client.c:coap_client_exchange_con", "lib/src/coap_client.c:coap_client_exchange_non"]}
{"id": "C22", "title": "Separate responses are acknowledged", "statement": "When coap_client_exchange returns a separate response that was confirmable, the client has sent exactly one acknowledgement, with the response's message ID; no acknowledgement is sent for a non-confirmable one.", "quantifier": "every sequence of datagrams", "why_tests_cant": "quantifies over all datagram orders", "anchors": ["lib/src/coap_client.c:coap_client_handle_sep_response", "lib/src/coap_client.c:coap_client_send_ack"]}
{"id": "C23", "title": "The client gives up in bounded time", "statement": "coap_client_exchange returns within a bounded time whatever the network delivers.", "quantifier": "every timed sequence of datagrams", "why_tests_cant": "an endless stream of unrelated datagrams is a schedule no finite test exhausts", "anchors": ["lib/src/coap_client.c:coap_client_listen_ack", "lib/src/coap_client.c:coap_client_listen_resp", "lib/src/coap_client.c:coap_client_exchange_con"]}
{"id": "C24", "title": "Blockwise upload sends the body once and in order", "statement": "If the upload phase of coap_client_exchange_blockwise succeeds, the payloads of the requests that were sent, in order, are a partition of the body: concatenated they are exactly the caller's body, every block but the last has the more flag set and the last has not.", "quantifier": "every body, every initial block size and every behaviour of the server, including changes of block size in mid transfer", "why_tests_cant": "server-driven block size negotiation gives unboundedly many schedules", "anchors": ["lib/src/coap_client.c:coap_client_exchange_blockwise1", "lib/src/coap_client.c:coap_client_exchange_blockwise"]}
{"id": "C25", "title": "Blockwise download assembles the body", "statement": "If coap_client_exchange_blockwise succeeds with a count n, then n is at most the buffer length and the first n bytes of the buffer are the concatenation, in order, of the payloads of the responses received in the download phase; nothing outside the buffer is written.", "quantifier": "every behaviour of the server, every buffer length", "why_tests_cant": "quantifies over all servers", "anchors": ["lib/src/coap_client.c:coap_client_exchange_blockwise2"]}
{"id": "C26", "title": "Blockwise transfers terminate", "statement": "coap_client_exchange_blockwise performs a bounded number of exchanges whatever the server answers.", "quantifier": "every behaviour of the server", "why_tests_cant": "a hostile server can shrink the block size or repeat blocks; termination is a statement about all infinite behaviours", "anchors": ["lib/src/coap_client.c:coap_client_exchange_blockwise1", "lib/src/coap_client.c:coap_client_exchange_blockwise2"]}
{"id": "C27", "title": "At most one transaction per client and at most eight in total", "statement": "At any time the server holds at most eight active transactions and never two for the same client address and port.", "quantifier": "every history of datagrams, timer expirations and handler results", "why_tests_cant": "quantifies over all histories", "anchors": ["lib/src/coap_server.c:coap_server_exchange", "lib/src/coap_server.c:coap_server_find_trans", "lib/src/coap_server.c:coap_server_find_empty_trans"]}
{"id": "C28", "title": "Eviction takes the least recently used transaction", "statement": "When a datagram arrives from a new client and all transactions are in use, the transaction that is replaced is one whose last use is not later than that of any other; every other transaction is untouched.", "quantifier": "every transaction table and every clock reading", "why_tests_cant": "quantifies over all tables and clock values", "anchors": ["lib/src/coap_server.c:coap_server_find_oldest_trans", "lib/src/coap_server.c:coap_server_exchange"]}
{"id": "C29", "title": "Every response answers its request", "statement": "Every response the server sends for a request carries the request's token; a piggy-backed one is an acknowledgement with the request's message ID, a separate one is a confirmable message preceded by an empty acknowledgement with the request's message ID, and a non-confirmable request gets a non-confirmable response.", "quantifier": "every request datagram, every handler behaviour, every server state", "why_tests_cant": "quantifies over all requests and handlers", "anchors": ["lib/src/coap_server.c:coap_server_exchange", "lib/src/coap_server.c:coap_server_trans_send_ack"]}
{"id": "C30", "title": "A repeated request is not executed twice", "statement": "If the same confirmable or non-confirmable request (same client, same message ID) arrives again, the handler is not called again and, for a confirmable request, the stored response is sent again.", "quantifier": "every history in which a request is delivered more than once", "why_tests_cant": "the outcome depends on what happened in between, over unbounded histories", "anchors": ["lib/src/coap_server.c:coap_server_exchange", "lib/src/coap_server.c:coap_server_trans_match_req"]}
{"id": "C31", "title": "Every new request reaches the handler", "statement": "A well-formed request from a client that has not used the message ID before, without unrecognised critical options and outside a blockwise transfer, is passed to the handler exactly once.", "quantifier": "every server state and every request, including every message ID", "why_tests_cant": "one message ID in 65536 behaves differently", "anchors": ["lib/src/coap_server.c:coap_server_exchange", "lib/src/coap_server.c:coap_server_trans_create", "lib/src/coap_server.c:coap_server_trans_match_req"]}
{"id": "C32", "title": "Only confirmable responses are retransmitted, at most four times", "statement": "The server retransmits a message only while it is an unacknowledged confirmable response, at most four times, and stops once it is acknowledged or reset.", "quantifier": "every history of datagrams and timer expirations", "why_tests_cant": "needs a new request to arrive between the separate response and its acknowledgement", "anchors": ["lib/src/coap_server.c:coap_server_trans_handle_ack_timeout", "lib/src/coap_server.c:coap_server_exchange", "lib/src/coap_server.c:coap_server_trans_stop_ack_timer"]}
{"id": "C33", "title": "Messages that are not requests never reach the handler", "statement": "Acknowledgements, resets, responses and empty messages are never passed to the handler; a confirmable one is answered with a reset carrying its message ID.", "quantifier": "every datagram and every server state", "why_tests_cant": "quantifies over all datagrams", "anchors": ["lib/src/coap_server.c:coap_server_exchange", "lib/src/coap_server.c:coap_server_trans_reject"]}
{"id": "C34", "title": "Bad options are refused", "statement": "A request with an unrecognised critical option never reaches the handler and is answered with 4.02 Bad Option.", "quantifier": "every request with any option list", "why_tests_cant": "quantifies over all option numbers", "anchors": ["lib/src/coap_server.c:coap_server_trans_handle_bad_option", "lib/src/coap_server.c:coap_server_check_options"]}
{"id": "C35", "title": "Server message IDs", "statement": "Message IDs of messages the server originates are consecutive modulo 65536, so two of them are equal only if they are a multiple of 65536 apart.", "quantifier": "every number of messages sent", "why_tests_cant": "wrap-around takes 65536 messages", "anchors": ["lib/src/coap_server.c:coap_server_get_next_msg_id"]}
{"id": "C36", "title": "The server survives send errors", "statement": "A failure to send a datagram to one client does not stop the server from serving others: coap_server_run returns only if waiting for input or receiving fails.", "quantifier": "every history with a failing send", "why_tests_cant": "needs a send error at a particular time", "anchors": ["lib/src/coap_server.c:coap_server_run", "lib/src/coap_server.c:coap_server_listen", "lib/src/coap_server.c:coap_server_trans_handle_ack_timeout"]}
{"id": "C37", "title": "Server-side blockwise upload assembles the body", "statement": "During a blockwise PUT or POST the body handed to the receive callback is the concatenation, in order, of the payloads of the accepted blocks, whose positions are contiguous from 0; the callback is called exactly once, when the final block arrives; a block out of sequence, too long or missing a payload is refused and ends the transfer.", "quantifier": "every sequence of block requests a client may send, every buffer length", "why_tests_cant": "quantifies over all request sequences", "anchors": ["lib/src/coap_server.c:coap_server_trans_handle_next_block", "lib/src/coap_server.c:coap_server_trans_handle_blockwise"]}
{"id": "C38", "title": "Server-side blockwise download serves the body", "statement": "During a blockwise GET the payloads of the successive responses, concatenated, are a prefix of the body and, when the response without the more flag has been sent, the whole body.", "quantifier": "every body, block size and every size the client asks for, changing in mid transfer", "why_tests_cant": "quantifies over all client behaviours", "anchors": ["lib/src/coap_server.c:coap_server_trans_handle_next_block"]}
{"id": "C39", "title": "Blockwise handling stays inside the body buffer", "statement": "No sequence of block requests makes the server read or write outside the transaction's body buffer.", "quantifier": "every sequence of requests and every body length", "why_tests_cant": "out-of-range block numbers and sizes over unbounded histories", "anchors": ["lib/src/coap_server.c:coap_server_trans_handle_next_block"]}
{"id": "C40", "title": "End-to-end blockwise download", "statement": "When the client library downloads a resource from the server library over a network that neither loses nor alters messages, the client obtains exactly the server's body, for any body that fits the client's buffer and any pair of block sizes.", "quantifier": "every body length and content, every valid client and server block size", "why_tests_cant": "the two state machines interact over unboundedly many rounds", "anchors": ["lib/src/coap_client.c:coap_client_exchange_blockwise2", "lib/src/coap_server.c:coap_server_trans_handle_next_block"]}
{"id": "C41", "title": "End-to-end blockwise upload", "statement": "When the client library uploads a body to the server library over such a network, the server's callback receives exactly the client's body.", "quantifier": "every body length and content, every valid client and server block size", "why_tests_cant": "the two state machines interact over unboundedly many rounds", "anchors": ["lib/src/coap_client.c:coap_client_exchange_blockwise1", "lib/src/coap_server.c:coap_server_trans_handle_next_block"]}
{"id": "C42", "title": "Separate-response resources", "statement": "A confirmable request is answered by a separate response exactly when its URI path equals a path registered with coap_server_add_sep_resp_uri_path.", "quantifier": "every list of registered paths and every request", "why_tests_cant": "path segments may contain any byte, including '/' and NUL, and may exceed the internal buffer", "anchors": ["lib/src/coap_server.c:coap_server_get_resp_type", "lib/src/coap_server.c:coap_server_path_list_match", "lib/src/coap_server.c:coap_server_add_sep_resp_uri_path"]}
{"id": "C43", "title": "The proxy's receive buffer is a FIFO", "statement": "Over any history of filling, expanding and consuming, the bytes in a data buffer are exactly the bytes added and not yet consumed, in order, and the buffer never exceeds its maximum size.", "quantifier": "every history of data_buf operations", "why_tests_cant": "quantifies over all histories", "anchors": ["proxy/common/src/data_buf.c:data_buf_add", "proxy/common/src/data_buf.c:data_buf_consume", "proxy/common/src/data_buf.c:data_buf_expand"]}
{"id": "C44", "title": "Percent-encoding round trip", "statement": "Decoding the percent-encoding of any URI component gives back the component.", "quantifier": "every NUL-free byte string and every set of exempted characters the library uses, both signednesses of char", "why_tests_cant": "256^n strings", "anchors": ["proxy/common/src/uri.c:uri_encode_str", "proxy/common/src/uri.c:uri_decode_str"]}
{"id": "C45", "title": "URI generation stays inside the buffer and reports the needed length", "statement": "uri_generate never writes outside the buffer, terminates the result, returns the length of the full URI, and writes the full URI whenever it fits.", "quantifier": "every URI structure and every buffer length", "why_tests_cant": "quantifies over all structures and lengths", "anchors": ["proxy/common/src/uri.c:uri_generate"]}
{"id": "C46", "title": "Parsing a generated URI", "statement": "Parsing the URI generated from a URI structure gives back the structure.", "quantifier": "every URI structure with syntactically valid components", "why_tests_cant": "characters left unescaped in one component can be taken for a delimiter of another", "anchors": ["proxy/common/src/uri.c:uri_parse", "proxy/common/src/uri.c:uri_generate"]}
{"id": "C47", "title": "The host comes from the authority", "statement": "For a URI scheme://authority/path, the host, user information and port that uri_parse reports are those of the authority: characters of the path have no influence on them.", "quantifier": "every authority and every path", "why_tests_cant": "needs delimiter characters inside the path", "anchors": ["proxy/common/src/uri.c:uri_parse_hier_part", "proxy/common/src/uri.c:uri_find_port"]}
{"id": "C48", "title": "Copying a URI", "statement": "uri_copy succeeds, unless memory runs out, and gives a structure equal to the source.", "quantifier": "every URI structure, with any subset of components present", "why_tests_cant": "2^7 subsets of components", "anchors": ["proxy/common/src/uri.c:uri_copy"]}
{"id": "C49", "title": "HTTP parsing terminates", "statement": "http_msg_parse terminates on every input.", "quantifier": "every byte string a peer may send", "why_tests_cant": "termination is a statement about all inputs; the looping ones are specially crafted", "anchors": ["proxy/common/src/http_msg.c:http_msg_parse_body"]}
{"id": "C50", "title": "HTTP parse after generate", "statement": "An HTTP message with a Content-Length body that http_msg_generate writes completely is read back by http_msg_parse as the same start line, headers and body, and the whole message is consumed.", "quantifier": "every message with well-formed fields", "why_tests_cant": "quantifies over all header lists and bodies, including bodies with arbitrary bytes", "anchors": ["proxy/common/src/http_msg.c:http_msg_generate", "proxy/common/src/http_msg.c:http_msg_parse"]}
{"id": "C51", "title": "Chunk generation stays inside the buffer", "statement": "http_msg_generate_chunk(out, out_len, in, in_len) never writes at or beyond out[out_len].", "quantifier": "every buffer length and every input", "why_tests_cant": "fails only for buffers shorter than the chunk header", "anchors": ["proxy/common/src/http_msg.c:http_msg_generate_chunk"]}
{"id": "C52", "title": "Bounded string utilities", "statement": "util_strncpy and util_strncat never write outside the destination, always terminate it, and return the length the result would have had.", "quantifier": "every pair of strings and every destination length", "why_tests_cant": "quantifies over all lengths", "anchors": ["proxy/common/src/util.c:util_strncpy", "proxy/common/src/util.c:util_strncat"]}
{"id": "C53", "title": "Configuration lookups return the last assignment", "statement": "After any sequence of config_set calls, config_get returns the value last set for that section and name, or NULL if there is none.", "quantifier": "every sequence of assignments", "why_tests_cant": "quantifies over all histories", "anchors": ["proxy/common/src/config.c:config_set", "proxy/common/src/config.c:config_get"]}
{"id": "C54", "title": "Configuration parsing stays inside the text", "statement": "config_parse reads only the characters of the configuration text, whatever the text.", "quantifier": "every NUL-terminated text", "why_tests_cant": "an over-read is silent and depends on how the text ends", "anchors": ["proxy/common/src/config.c:config_parser_next", "proxy/common/src/config.c:config_parser_exec"]}
{"id": "C55", "title": "CoAP to HTTP status mapping", "statement": "A successful CoAP response is never reported to the HTTP client as a client or server error, and an error response never as a success.", "quantifier": "every CoAP response code", "why_tests_cant": "the switch falls through between cases", "anchors": ["proxy/common/src/cross.c:cross_status_coap_to_http"]}
{"id": "C56", "title": "The proxy forwards every method it accepts", "statement": "Every HTTP request that the proxy converts to a CoAP request is sent to the CoAP server.", "quantifier": "every HTTP request accepted by the conversion", "why_tests_cant": "a method that is accepted but not dispatched", "anchors": ["proxy/http_coap/src/connection.c:connection_coap_exchange", "proxy/common/src/cross.c:cross_method_http_to_coap"]}
{"id": "C57", "title": "HTTP responses are sent completely", "statement": "The bytes connection_send writes to the HTTP client are exactly the generated response.", "quantifier": "every response length", "why_tests_cant": "fails only when the length equals the buffer size", "anchors": ["proxy/http_coap/src/connection.c:connection_send", "proxy/common/src/http_msg.c:http_msg_generate"]}
{"id": "C58", "title": "Each proxied request goes to the server its URI names", "statement": "For every sequence of requests on one HTTP connection, each CoAP request is sent over a client connected to the host and port of that request's URI, and no request makes the proxy dereference a missing host or port.", "quantifier": "every sequence of request URIs", "why_tests_cant": "depends on the previous request and on URIs without a port", "anchors": ["proxy/http_coap/src/connection.c:connection_process", "proxy/http_coap/src/connection.c:connection_coap_client_create"]}
{"id": "C59", "title": "HTTP to CoAP URI conversion", "statement": "The Uri-Path and Uri-Query options produced by cross_uri_http_to_coap are the non-empty '/'-separated path segments and '&'-separated query arguments of the URI, in order.", "quantifier": "every HTTP request URI", "why_tests_cant": "quantifies over all URIs", "anchors": ["proxy/common/src/cross.c:cross_uri_http_to_coap"]}
{"id": "C60", "title": "Registrar", "statement": "After any sequence of registrar_add and registrar_del calls, registrar_find returns the address last added for an identifier that has not been deleted since, and NULL otherwise, without touching freed memory.", "quantifier": "every history of add and delete calls", "why_tests_cant": "needs deletion from the middle of the list followed by another access", "anchors": ["sample/reg_server/registrar.c:registrar_add", "sample/reg_server/registrar.c:registrar_del", "sample/reg_server/registrar.c:registrar_find"]}
{"id": "C61", "title": "TLS session caches", "statement": "A lookup in the TLS client or server session cache returns the session data most recently stored under that key, if it has not been evicted or deleted, and never data stored under another key.", "quantifier": "every history of set, get and delete calls and every cache size", "why_tests_cant": "quantifies over all histories including slot re-use", "anchors": ["proxy/common/src/tls.c:tls_client_cache_set", "proxy/common/src/tls.c:tls_client_cache_get", "proxy/common/src/tls.c:tls_server_cache_set", "proxy/common/src/tls.c:tls_server_cache_get", "proxy/common/src/tls.c:tls_server_cache_delete"]}
{"id": "C62", "title": "Formatting is faithful", "statement": "Whenever coap_msg_format succeeds on a message with a known code class, the bytes it wrote are a wire form of exactly that message: every option number, option value, token and payload byte is represented.", "quantifier": "every message the setters can build, including option numbers and lengths a peer never sends", "why_tests_cant": "the limit of the two-byte extension is only reached by option numbers or lengths above 65804", "anchors": ["lib/src/coap_msg.c:coap_msg_format", "lib/src/coap_msg.c:coap_msg_format_op"]}
{"id": "C63", "title": "Client replies", "statement": "Every acknowledgement and every reset the client sends during an exchange is an empty message that follows directly on the receipt of a confirmable message and carries its message ID; non-confirmable messages, acknowledgements and resets are never answered and nothing is answered twice.", "quantifier": "every sequence of datagrams, timer expiries and system call failures", "why_tests_cant": "quantifies over all interleavings of unrelated, malformed and matching messages with retransmissions", "anchors": ["lib/src/coap_client.c:coap_client_reject", "lib/src/coap_client.c:coap_client_send_ack", "lib/src/coap_client.c:coap_client_handle_format_error", "lib/src/coap_client.c:coap_client_exchange"]}
{"id": "C64", "title": "The response sent is the handler's", "statement": "When the request handler builds a response, the datagram sent is exactly that response, formatted, with only the message ID, the request's token and the message type filled in by the server.", "quantifier": "every handler, request and server state, including leftovers of earlier exchanges in the transaction", "why_tests_cant": "quantifies over all handlers and over the state left by earlier requests", "anchors": ["lib/src/coap_server.c:coap_server_exchange"]}
{"id": "C65", "title": "URI parsing is safe on every string", "statement": "uri_parse and the functions that set a component never read or write outside an object and always stop, whatever the string and whichever memory allocations fail, and what they store are NUL-free strings.", "quantifier": "every string, every pattern of failing allocations, both signednesses of char", "why_tests_cant": "infinitely many strings, among them truncated and invalid escapes", "anchors": ["proxy/common/src/uri.c:uri_parse", "proxy/common/src/uri.c:uri_decode_str", "proxy/common/src/uri.c:uri_set_path"]}
{"id": "C66", "title": "HTTP parsing is memory safe", "statement": "http_msg_parse never reads or writes outside an object, whatever bytes the peer sends.", "quantifier": "every byte string a peer may send", "why_tests_cant": "the failing inputs are crafted; safety is a statement about all inputs", "anchors": ["proxy/common/src/http_msg.c:http_msg_parse", "proxy/common/src/http_msg.c:http_msg_parse_body"]}
{"id": "C67", "title": "HTTP generation stays inside the buffer", "statement": "http_msg_generate(msg, buf, len) writes to the first len bytes of buf only: a prefix of the text of the message, ended by a NUL, and returns the length of the whole text.", "quantifier": "every message and every buffer length", "why_tests_cant": "quantifies over all messages and the lengths at which the text is cut off", "anchors": ["proxy/common/src/http_msg.c:http_msg_generate"]}
{"id": "C68", "title": "Chunked messages are reassembled", "statement": "A message in chunked encoding is read by http_msg_parse as the message whose body is the concatenation of the data of its chunks, with the trailer fields added to the headers, and it is consumed entirely, whatever follows it.", "quantifier": "every list of chunks, all data and all trailers", "why_tests_cant": "quantifies over all lists of chunks and data with arbitrary bytes", "anchors": ["proxy/common/src/http_msg.c:http_msg_parse_body"]}
{"id": "C69", "title": "CoAP to HTTP URI conversion stays inside the buffer", "statement": "cross_uri_coap_to_http(buf, len, msg) accesses memory within bounds whatever the options of the message, writes to the first len bytes of buf only, and reports success only if the complete URI, ended by a NUL, is there.", "quantifier": "every list of options and every buffer length", "why_tests_cant": "the unsafe lengths and option values are exceptional", "anchors": ["proxy/common/src/cross.c:cross_uri_coap_to_http"]}
{"id": "C70", "title": "CoAP options survive the URI round trip", "statement": "The URI that cross_uri_coap_to_http makes of the Uri-Host, Uri-Port, Uri-Path and Uri-Query options of a request is translated by cross_uri_http_to_coap to the same options.", "quantifier": "every host, port, list of segments and list of arguments", "why_tests_cant": "quantifies over all option values", "anchors": ["proxy/common/src/cross.c:cross_uri_coap_to_http", "proxy/common/src/cross.c:cross_uri_http_to_coap"]}
{"id": "C71", "title": "Integer options have the CoAP format", "statement": "The Max-Age, Accept and Uri-Port options the proxy sends are unsigned integers in the format of RFC 7252 section 3.2, and it reads those of responses in that format; HTTP headers translated to options are translated back to the same headers.", "quantifier": "every header the proxy translates", "why_tests_cant": "a test of the proxy against itself sees consistent values", "anchors": ["proxy/common/src/cross.c:cross_headers_http_to_coap", "proxy/common/src/cross.c:cross_headers_coap_to_http"]}
{"id": "C72", "title": "HTTP responses carry the CoAP response and nothing else", "statement": "The HTTP response made of a CoAP response carries its body and its ETags, and the client reads it as this one message with these headers.", "quantifier": "every CoAP response", "why_tests_cant": "the option values come from another party and may contain any bytes", "anchors": ["proxy/common/src/cross.c:cross_resp_coap_to_http", "proxy/common/src/cross.c:cross_headers_coap_to_http"]}
{"id": "C73", "title": "HTTP responses are self-delimiting", "statement": "Every HTTP response the proxy makes of a CoAP response on a connection that stays open tells the client where it ends.", "quantifier": "every CoAP response", "why_tests_cant": "fails only for responses without payload, with a client that waits", "anchors": ["proxy/common/src/cross.c:cross_body_coap_to_http", "proxy/common/src/cross.c:cross_resp_coap_to_http"]}
{"id": "C74", "title": "HTTP requests are translated faithfully", "statement": "A HTTP request that cross_req_http_to_coap accepts becomes a confirmable CoAP request with the code of its method, the options of its URI, its ETags, and its body as payload or as the body of a block-wise transfer; any other is answered with an error status; memory is accessed within bounds.", "quantifier": "every HTTP request and every pattern of allocation failures", "why_tests_cant": "quantifies over all requests", "anchors": ["proxy/common/src/cross.c:cross_req_http_to_coap", "proxy/common/src/cross.c:cross_method_http_to_coap"]}
{"id": "C75", "title": "HTTP requests are reassembled", "statement": "Whatever the pieces in which the bytes of a request with a Content-Length, in chunked encoding or without a body arrive, connection_recv returns exactly that request, and the bytes after it stay for the next one.", "quantifier": "every request, every division of the input, every number of bytes left over", "why_tests_cant": "quantifies over all divisions of the input", "anchors": ["proxy/http_coap/src/connection.c:connection_recv", "proxy/common/src/data_buf.c"]}
{"id": "C76", "title": "Pipelined requests are answered", "statement": "A request that is completely in the receive buffer is read without waiting for further input.", "quantifier": "every content of the receive buffer", "why_tests_cant": "only when two requests arrive in one read and the client then waits", "anchors": ["proxy/http_coap/src/connection.c:connection_recv"]}
{"id": "C77", "title": "The HTTP response has the body of the CoAP response", "statement": "The body of a HTTP response that reports no error is the payload of the last CoAP response, or the payloads of a block-wise transfer in order.", "quantifier": "every sequence of requests and every behaviour of the servers", "why_tests_cant": "depends on the length of the body of the HTTP request and on the options of the CoAP response", "anchors": ["proxy/http_coap/src/connection.c:connection_coap_exchange", "proxy/http_coap/src/connection.c:connection_process"]}
{"id": "C78", "title": "Every request is answered", "statement": "Every HTTP request that the proxy has read gets a HTTP response.", "quantifier": "every sequence of requests", "why_tests_cant": "depends on the URI and on the responses of the servers", "anchors": ["proxy/http_coap/src/connection.c:connection_process", "proxy/http_coap/src/connection.c:connection_exchange"]}
{"id": "C79", "title": "A proxy connection is memory-safe and terminates", "statement": "For every input from the HTTP client, every behaviour of the CoAP servers and every pattern of failures, the thread of a connection accesses memory within bounds and each transaction terminates.", "quantifier": "every input, every division of it, every behaviour of the servers, every failure", "why_tests_cant": "quantifies over all executions of the connection", "anchors": ["proxy/http_coap/src/connection.c:connection_thread_func"]}
{"id": "C80", "title": "Configuration files are read as their grammar says", "statement": "config_parse accepts a text if and only if it consists of lines that are empty, name a section or assign a value to a name, and then each name has, in its section, the value that the last such line assigns, or the one it had before.", "quantifier": "every text, every configuration before it", "why_tests_cant": "the texts and values are unbounded; tests try a few files", "anchors": ["proxy/common/src/config.c:config_parse", "proxy/common/src/config.c:config_parser_lex", "proxy/common/src/config.c:config_parser_expression"]}
{"id": "C81", "title": "Errors in a configuration are reported where they are", "statement": "If config_parse returns a lexical or a syntax error, the line and column it reports are those of the first token that cannot continue its line, a lexical error if there is no token there; the lines before, and an assignment that the erroneous line begins with, have been applied.", "quantifier": "every text of fewer than 2^30 - 2 characters, every pattern of allocation failures", "why_tests_cant": "quantifies over all texts and all ways to be wrong", "anchors": ["proxy/common/src/config.c:config_parser_next", "proxy/common/src/config.c:config_parser_set_token_pos", "proxy/common/src/config.c:config_parser_exec"]}
{"id": "C82", "title": "A failed assignment changes nothing", "statement": "If config_set fails, config_get returns for every section and name what it returned before.", "quantifier": "every configuration, every failure", "why_tests_cant": "depends on memory running out at one point", "anchors": ["proxy/common/src/config.c:config_set"]}
{"id": "C83", "title": "The proxy runs with the parameters of its file", "statement": "param_create succeeds exactly for files that follow the grammar and name a known log level, and each parameter has the value last assigned to it in its section, or its default.", "quantifier": "every file", "why_tests_cant": "quantifies over all files", "anchors": ["proxy/http_coap/src/param.c:param_create", "proxy/http_coap/src/param.c:param_parse", "proxy/http_coap/src/param.c:param_parse_log_level"]}
{"id": "C84", "title": "Configuration errors are described correctly", "statement": "config_strerr returns for each error of config_error_t its description, and a string for every other number.", "quantifier": "every int", "why_tests_cant": "one wrong entry of the table is not noticed unless that error is tested", "anchors": ["proxy/common/src/config.c:config_strerr", "proxy/common/src/config.c:config_str"]}
{"id": "C85", "title": "Malformed percent-encoding is rejected", "statement": "A string in which a percent sign is not followed by two hexadecimal digits, or in which NUL is encoded, is accepted neither by uri_parse nor by the functions that set a component; no part of a component is dropped silently.", "quantifier": "every string, either signedness of char, every pattern of allocation failures", "why_tests_cant": "the strings are unbounded and the malformed octet may be anywhere in any component", "anchors": ["proxy/common/src/uri.c:uri_decode_octet", "proxy/common/src/uri.c:uri_parse", "proxy/common/src/uri.c:uri_2_hex_to_int"]}
{"id": "C86", "title": "Setting a component stores what the string decodes to", "statement": "uri_set_scheme, uri_set_userinfo, uri_set_host, uri_set_port, uri_set_query and uri_set_fragment store the decoded string; uri_set_path also puts a slash in front if the string has none; without memory they return -ENOMEM.", "quantifier": "every encoded string", "why_tests_cant": "quantifies over all strings and their encodings", "anchors": ["proxy/common/src/uri.c:uri_set_path", "proxy/common/src/uri.c:uri_set_host"]}
{"id": "C87", "title": "An incomplete HTTP message is waited for", "statement": "As long as part of a message is missing, http_msg_parse returns -EAGAIN: it neither accepts nor refuses a proper prefix of a message, with a Content-Length body or in chunked encoding.", "quantifier": "every message, every proper prefix of it, any number of chunks and headers", "why_tests_cant": "TCP may split a message anywhere; messages and split points are unbounded", "anchors": ["proxy/common/src/http_msg.c:http_msg_parse", "proxy/common/src/http_msg.c:http_msg_parse_headers", "proxy/common/src/http_msg.c:http_msg_parse_body"]}
{"id": "C88", "title": "Exactly the heads of RFC 7230 are accepted", "statement": "What http_msg_parse accepts begins with a start line of three non-empty fields and header lines, which may be continued on lines that begin with a space or a tab; it keeps the fields with white space reduced to single spaces, and takes as the body what follows the blank line. All such messages with a correct Content-Length are accepted.", "quantifier": "every input; every head and body", "why_tests_cant": "the language of accepted inputs is infinite, and both inclusions are claimed", "anchors": ["proxy/common/src/http_msg.c:http_msg_parse_start", "proxy/common/src/http_msg.c:http_msg_parse_headers", "proxy/common/src/http_msg.c:http_msg_trim_ws"]}
{"id": "C89", "title": "The answer to an upload reaches the client", "statement": "When the application on the server answers an uploaded body with a body of its own, the client library ends with exactly that response body in the buffer that held the upload, whatever the block sizes in both directions.", "quantifier": "every uploaded body and every response body that fits, every pair of block sizes, every reachable server state and every client state", "why_tests_cant": "the transfer runs through two blockwise phases in both state machines, with unboundedly many rounds in each", "anchors": ["lib/src/coap_client.c:coap_client_exchange_blockwise", "lib/src/coap_server.c:coap_server_trans_handle_next_block"]}
{"id": "C90", "title": "The transfer server stores what is sent to it", "statement": "The file of the transfer server holds, at every time, the last body passed to its receive callback that could be written; and a transfer client given a file makes the server store exactly the contents of that file and reports 2.04.", "quantifier": "every execution of the server (any datagrams, timers, failures of the operating system and of the file); every file of 1 to 8192 bytes, every reachable server state and every client state", "why_tests_cant": "executions and histories are unbounded, and a transfer takes many rounds of two state machines", "anchors": ["sample/transfer_server/transfer_server.c:transfer_server_handle_rx", "sample/transfer_server/transfer_server.c:transfer_server_handle", "sample/transfer_client/transfer_client.c:transfer_client_execute"]}
{"id": "C91", "title": "The transfer client returns an error if the transfer fails", "statement": "transfer_client_execute returns 0 only if the server has stored the file.", "quantifier": "every file, every client and server state, every failure", "why_tests_cant": "it is about every way in which a transfer can fail", "anchors": ["sample/transfer_client/transfer_client.c:transfer_client_execute"]}
{"id": "C92", "title": "What the transfer server stores was PUT to its path by one client", "statement": "A body passed to the receive callback of the transfer server is the concatenation of the payloads of consecutive blocks of 64 bytes, starting with block 0, of PUT requests for /client/transfer received from one client since its transfer was handled, and has at most 8192 bytes.", "quantifier": "every execution of the server: any datagrams from any clients, timers, failures of the operating system and of the file", "why_tests_cant": "interleavings of datagrams of different clients, methods and paths are unbounded", "anchors": ["sample/transfer_server/transfer_server.c:transfer_server_handle", "sample/transfer_server/transfer_server.c:transfer_server_handle_rx", "lib/src/coap_server.c"]}
{"id": "C93", "title": "The transfer server acknowledges only what it stored", "statement": "The receive callback of the transfer server sets 2.04 and an empty body only if the file now holds the whole body; otherwise it sets 5.00, and then the file could not be opened and is unchanged or the write was short.", "quantifier": "every body, every buffer, every earlier content of the file and every outcome of opening and writing it", "why_tests_cant": "failures of the file can not be produced at every length by a test", "anchors": ["sample/transfer_server/transfer_server.c:transfer_server_handle_rx"]}
{"id": "C94", "title": "The registration server keeps the directory its clients make", "statement": "At every time the registrar of the registration server holds, for each identifier, the address of the client that last registered it with a POST to /client/id with a payload of 1 to 31 bytes, and nothing else, and no freed memory is touched; a new identifier is kept if there is memory for it.", "quantifier": "every execution of the server: any datagrams from any clients, timers, failures of the operating system and of malloc", "why_tests_cant": "histories of registrations of many clients, repetitions and failures are unbounded", "anchors": ["sample/reg_server/reg_server.c:reg_server_handle", "sample/reg_server/reg_server.c:reg_server_handle_client_id", "sample/reg_server/registrar.c:registrar_add"]}
{"id": "C95", "title": "The registration server's answers say what it did", "statement": "A request that registers an identifier is answered with 2.04 and OK if the identifier is in the directory, with 2.01 and OK if it is new and there is memory for it, and otherwise the handler fails; a request that registers nothing is never answered with success.", "quantifier": "every request of every client in every reachable state of the server", "why_tests_cant": "the answer depends on the whole history of the server", "anchors": ["sample/reg_server/reg_server.c:reg_server_handle", "sample/reg_server/reg_server.c:reg_server_handle_client_id"]}
{"id": "C96", "title": "tls_sock_write_full writes everything or says why not", "statement": "tls_sock_write_full passes a beginning of the buffer to GnuTLS, in order and each byte once; it returns the length exactly if all has been accepted, and otherwise 0 or the error for the first event that ends it, and reads nothing outside the buffer.", "quantifier": "every buffer and length below 2^63 and every sequence of results of gnutls_record_send and select", "why_tests_cant": "short writes, retries and failures can come in every order", "anchors": ["proxy/common/src/tls_sock.c:tls_sock_write", "proxy/common/src/tls_sock.c:tls_sock_write_full"]}
{"id": "C97", "title": "tls_sock_read_full reads the bytes sent, in order, into the buffer", "statement": "tls_sock_read_full moves a beginning of what the peer has sent to the beginning of the buffer, in order and each byte once, and changes no other byte; it returns the length exactly if the buffer is full, and otherwise 0 or the error for the first event that ends it.", "quantifier": "every input, buffer and length below 2^63 and every sequence of results of gnutls_record_recv, handshakes and select", "why_tests_cant": "short reads, rehandshakes, retries and failures can come in every order", "anchors": ["proxy/common/src/tls_sock.c:tls_sock_read", "proxy/common/src/tls_sock.c:tls_sock_read_full"]}
{"id": "C98", "title": "The time server answers with the time", "statement": "If ctime_r writes less than 32 characters, the time server never writes outside its buffer, and it answers a GET for /time with 2.05, the Uri-Path time and the first line of what ctime_r gives for that request, another method with 5.01 and another path with 4.04; for a path of more than 31 bytes and for another version its handler fails.", "quantifier": "every request of every client in every reachable state of the server, and every result of ctime_r", "why_tests_cant": "paths, methods and times are unbounded, and so are the histories before the request", "anchors": ["sample/time_server/time_server.c:time_server_handle", "sample/time_server/time_server.c:time_server_handle_time"]}
{"id": "C99", "title": "The registration client succeeds exactly if it is told so", "statement": "reg_client_register sends one request, a POST to /client/id with the string in its buffer, and succeeds exactly if the response is 2.01 or 2.04 with that path and the payload OK; the payload of such a response is stored in the buffer with zeros up to the given length, in all other cases the buffer is left as it is, and nothing outside the buffer is read or written.", "quantifier": "every string, buffer and length, and every behaviour of the exchange with the server", "why_tests_cant": "a server can answer with any code, path and payload", "anchors": ["sample/reg_client/reg_client.c:reg_client_register"]}
{"id": "C100", "title": "The time client returns the time it is sent", "statement": "time_client_get_time sends one GET for /time and has defined behaviour whatever the server answers; it succeeds exactly if the response is a 2.05 with that path and a payload that fits the buffer with a NUL, and then the buffer has the payload and zeros up to the given length; in all other cases it fails and leaves the buffer as it is.", "quantifier": "every buffer and length and every behaviour of the exchange with the server", "why_tests_cant": "a server can answer with any code, path and payload, also with none", "anchors": ["sample/time_client/time_client.c:time_client_get_time"]}
