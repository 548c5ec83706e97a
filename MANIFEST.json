{
 "claims": [
  {
   "property": "C01",
   "status": "partial",
   "theorems": [
    "C01_decode_encode_refuted",
    "C01_decode_encode_partial"
   ],
   "note": "False with signed char (refuted: option number difference 200); proved for unsigned char, and for signed char when no option delta or length needs an extension byte above 127."
  },
  {
   "property": "C02",
   "status": "partial",
   "theorems": [
    "C02_encode_decode_refuted",
    "C02_encode_decode_partial"
   ],
   "note": "False with signed char (refuted); proved for unsigned char and every buffer longer than the datagram."
  },
  {
   "property": "C03",
   "status": "partial",
   "theorems": [
    "C03_parser_is_grammar_refuted",
    "C03_parser_is_grammar_partial",
    "C03_parser_complete_partial"
   ],
   "note": "False with signed char (refuted); proved as an equivalence for unsigned char, and completeness for signed char without large extension bytes."
  },
  {
   "property": "C04",
   "status": "partial",
   "theorems": [
    "C04_parser_in_bounds_refuted",
    "C04_parser_in_bounds_partial",
    "C04_parser_at_end_partial"
   ],
   "note": "False as stated (refuted: the byte after the datagram is read to look for the payload marker); proved that at most that one byte is read and that no byte after the datagram changes the result."
  },
  {
   "property": "C05",
   "status": "partial",
   "theorems": [
    "C05_formatter_in_bounds_refuted",
    "C05_formatter_in_bounds_partial"
   ],
   "note": "False as stated (refuted: one byte written past the buffer for an option with number < 13 and length 13..268); proved when the wire form fits or there is no such option."
  },
  {
   "property": "C06",
   "status": "partial",
   "theorems": [
    "C06_formatter_succeeds_refuted",
    "C06_formatter_succeeds_partial"
   ],
   "note": "False as stated (refuted: -ENOSPC at the exact size for options with number >= 13 and length < 13); proved with one byte to spare or without such options."
  },
  {
   "property": "C07",
   "status": "proved",
   "theorems": [
    "C07_options_sorted_stable"
   ],
   "note": "Proved for every sequence of setter calls."
  },
  {
   "property": "C08",
   "status": "proved",
   "theorems": [
    "C08_critical_detected",
    "C08_unsafe_detected",
    "C08_recognised"
   ],
   "note": "Proved for every option list, for the critical and the unsafe check."
  },
  {
   "property": "C09",
   "status": "partial",
   "theorems": [
    "C09_block_round_trip_refuted",
    "C09_block_round_trip_partial"
   ],
   "note": "False at block numbers 16, 4096 and 1048576 (refuted); proved for all numbers that fit in the option."
  },
  {
   "property": "C10",
   "status": "partial",
   "theorems": [
    "C10_block_parse_refuted",
    "C10_block_parse_partial"
   ],
   "note": "False for zero-length values (out-of-bounds read) and for four-byte values (accepted); proved for one to three bytes."
  },
  {
   "property": "C11",
   "status": "partial",
   "theorems": [
    "C11_copy_refuted",
    "C11_copy_partial"
   ],
   "note": "False for messages parsed with signed char (refuted: unsorted option list); proved for messages built by setters and parsed with unsigned char."
  },
  {
   "property": "C12",
   "status": "partial",
   "theorems": [
    "C12_uri_path_refuted",
    "C12_uri_path_partial",
    "C12_uri_path_safe_partial"
   ],
   "note": "Return value wrong for the root path in a one-byte buffer (refuted); proved for buffers of two bytes or more; bounds and termination proved for every length."
  },
  {
   "property": "C13",
   "status": "partial",
   "theorems": [
    "C13_pools_restored_refuted",
    "C13_pools_restored_partial",
    "C13_parse_with_pools"
   ],
   "note": "False (refuted: an option longer than a medium buffer loses a small buffer); proved for the medium pool, and for the small pool up to one buffer per -ENOMEM, over every sequence of message calls."
  },
  {
   "property": "C14",
   "status": "proved",
   "theorems": [
    "C14_live_buffers_disjoint",
    "C14_new_buffer_fits"
   ],
   "note": "Proved for every history of calls on a created pool."
  },
  {
   "property": "C15",
   "status": "proved",
   "theorems": [
    "C15_alloc_fails_iff",
    "C15_alloc_after_free"
   ],
   "note": "Proved for every history of calls on a created pool."
  },
  {
   "property": "C16",
   "status": "proved",
   "theorems": [
    "C16_free_foreign",
    "C16_free_exactly"
   ],
   "note": "Proved for every history of calls on a created pool."
  },
  {
   "property": "C17",
   "status": "partial",
   "theorems": [
    "C17_create_size_refuted",
    "C17_create_size_partial"
   ],
   "note": "False when num * len wraps around (refuted); proved otherwise."
  },
  {
   "property": "C18",
   "status": "partial",
   "theorems": [
    "C18_concurrent_alloc_refuted",
    "C18_concurrent_alloc_partial",
    "C18_machine_is_alloc"
   ],
   "note": "False without a lock (refuted: schedule in which two threads get the same buffer); proved when no thread is interrupted between test and store."
  },
  {
   "property": "C19",
   "status": "proved",
   "theorems": [
    "C19_retransmission"
   ],
   "note": "Proved for every environment, including failing system calls."
  },
  {
   "property": "C20",
   "status": "proved",
   "theorems": [
    "C20_response_matches"
   ],
   "note": "Proved for every sequence of events."
  },
  {
   "property": "C21",
   "status": "partial",
   "theorems": [
    "C21_response_class_refuted",
    "C21_response_class_partial"
   ],
   "note": "False (refuted: a request with the right token is returned as response); proved if no request arrives."
  },
  {
   "property": "C22",
   "status": "proved",
   "theorems": [
    "C22_separate_acknowledged"
   ],
   "note": "Proved for every sequence of events."
  },
  {
   "property": "C23",
   "status": "partial",
   "theorems": [
    "C23_bounded_time_refuted",
    "C23_bounded_time_partial"
   ],
   "note": "False (refuted: a flood of datagrams starves the timer); proved with an explicit bound if the timer is not starved and can be armed."
  },
  {
   "property": "C24",
   "status": "proved",
   "theorems": [
    "C24_upload",
    "C24_recording"
   ],
   "note": "Proved for every environment of the client, through the exchange function."
  },
  {
   "property": "C25",
   "status": "proved",
   "theorems": [
    "C25_download",
    "C25_recording",
    "C25_no_write_outside"
   ],
   "note": "Proved for GET, PUT and POST, for every environment of the client."
  },
  {
   "property": "C26",
   "status": "proved",
   "theorems": [
    "C26_blockwise_terminates"
   ],
   "note": "Proved: at most 2 (len / 16 + 1) exchanges."
  },
  {
   "property": "C27",
   "status": "proved",
   "theorems": [
    "C27_one_transaction_per_client"
   ],
   "note": "Proved for every run."
  },
  {
   "property": "C28",
   "status": "partial",
   "theorems": [
    "C28_eviction_refuted",
    "C28_eviction_partial",
    "C28_others_untouched",
    "C28_uses_noted"
   ],
   "note": "False if the clock reads 0 (refuted); proved otherwise. The other transactions stay as they are, and uses are noted exactly at creation, reception and sending, in every run."
  },
  {
   "property": "C29",
   "status": "partial",
   "theorems": [
    "C29_response_answers_request_refuted",
    "C29_response_answers_request_partial"
   ],
   "note": "False for a first request with message ID 0 (refuted: an empty confirmable message is sent); proved for every other new request, with piggybacked, separate and non-confirmable responses."
  },
  {
   "property": "C30",
   "status": "partial",
   "theorems": [
    "C30_no_second_execution_refuted",
    "C30_no_second_execution_partial"
   ],
   "note": "False if another request was received in between (refuted: message IDs 1, 2, 1); proved otherwise."
  },
  {
   "property": "C31",
   "status": "partial",
   "theorems": [
    "C31_new_request_handled_refuted",
    "C31_new_request_handled_partial"
   ],
   "note": "False for a first request with message ID 0 (refuted); proved for all others, unless the acknowledgement for a separate response cannot be sent."
  },
  {
   "property": "C32",
   "status": "partial",
   "theorems": [
    "C32_retransmission_refuted",
    "C32_retransmission_partial",
    "C32_sends_prompted"
   ],
   "note": "False (refuted: after a new request its acknowledgement is retransmitted by the old timer); proved otherwise, with the number of retransmissions, the intervals, and that nothing is sent without a message or an expiry."
  },
  {
   "property": "C33",
   "status": "partial",
   "theorems": [
    "C33_only_requests_refuted",
    "C33_only_requests_partial",
    "C33_others_reset_partial",
    "C33_others_ignored"
   ],
   "note": "False (refuted: a ping reaches the handler); proved for everything else, except that a confirmable message with the message ID of the last request is taken for a repetition. Also proved that any other non-confirmable or non-request message is not answered."
  },
  {
   "property": "C34",
   "status": "partial",
   "theorems": [
    "C34_bad_options_not_handled",
    "C34_bad_options_refused_refuted",
    "C34_bad_options_refused_partial"
   ],
   "note": "Proved that the handler never sees such a message; the answer 4.02 is false for a first request with message ID 0 (refuted) and proved for every other new request."
  },
  {
   "property": "C35",
   "status": "partial",
   "theorems": [
    "C35_message_ids_refuted",
    "C35_message_ids_partial"
   ],
   "note": "False after 65535 (refuted: the next ID is random and may be the same); proved up to there, and that every message the server originates carries such an ID."
  },
  {
   "property": "C36",
   "status": "partial",
   "theorems": [
    "C36_survives_send_errors_refuted",
    "C36_survives_send_errors_partial"
   ],
   "note": "False (refuted: a retransmission that cannot be sent ends the server); proved for everything else."
  },
  {
   "property": "C37",
   "status": "proved",
   "theorems": [
    "C37_upload_assembles",
    "C37_upload_step",
    "C37_upload_begins"
   ],
   "note": "Proved for body buffers below 2^63 bytes: what the callback gets is made of consecutive blocks; each step of an upload; how an upload begins."
  },
  {
   "property": "C38",
   "status": "proved",
   "theorems": [
    "C38_download_serves",
    "C38_download_step",
    "C38_download_begins"
   ],
   "note": "Proved for body buffers below 2^63 bytes and applications that leave the buffer's length alone and hand over bytes and options the protocol has room for: the responses, as RFC 7252 encodings, are consecutive blocks; each step of a download; how a download begins."
  },
  {
   "property": "C39",
   "status": "proved",
   "theorems": [
    "C39_body_buffer"
   ],
   "note": "Proved for every step of every run and every application that keeps the contract well_behaved. Undefined behaviour remains outside the body buffer: a datagram of 1152 bytes (C04) or a block option of no length (C10, shown by C39_exception)."
  },
  {
   "property": "C40",
   "status": "partial",
   "theorems": [
    "C40_download_partial",
    "C40_download_any_ids_refuted"
   ],
   "note": "Proved for every body that fits, every pair of block sizes, every reachable server state without a transfer of this client and every client state, provided neighbouring requests have different message IDs (false otherwise: refuted) and the options besides the Block options take at most 100 bytes with numbers up to 140."
  },
  {
   "property": "C41",
   "status": "partial",
   "theorems": [
    "C41_upload_partial",
    "C41_upload_any_ids_refuted",
    "C41_empty_upload_refuted"
   ],
   "note": "Proved for every non-empty body that fits, every pair of block sizes, every reachable server state without a transfer of this client and every client state: the callback is called once, with exactly the body, and the client ends with the code the application set. Refuted for the empty body (the server answers 4.00) and when neighbouring requests have equal message IDs. Missing: options besides the Block options of more than 100 bytes or with numbers above 140."
  },
  {
   "property": "C42",
   "status": "partial",
   "theorems": [
    "C42_separate_response_refuted",
    "C42_separate_response_partial"
   ],
   "note": "False for paths with NUL (refuted); proved for paths of at most 255 bytes without NUL."
  },
  {
   "property": "C43",
   "status": "proved",
   "theorems": [
    "C43_buffer_is_queue",
    "C43_queue_is_received"
   ],
   "note": "Proved for every history in which the user receives no more than there is space for, and maximum sizes below 2^63."
  },
  {
   "property": "C44",
   "status": "proved",
   "theorems": [
    "C44_round_trip"
   ],
   "note": "Strings shorter than 2^64 / 3."
  },
  {
   "property": "C45",
   "status": "proved",
   "theorems": [
    "C45_generate"
   ],
   "note": "Texts shorter than 2^64."
  },
  {
   "property": "C46",
   "status": "partial",
   "theorems": [
    "C46_at_refuted",
    "C46_colon_refuted",
    "C46_query_refuted",
    "C46_round_trip_partial"
   ],
   "note": "False of the code: an unescaped at sign or colon of the path is taken for a delimiter of the authority, and a colon of the query for the end of a scheme (refuted). Proved for all other structures with valid components."
  },
  {
   "property": "C47",
   "status": "partial",
   "theorems": [
    "C47_path_refuted",
    "C47_authority_partial"
   ],
   "note": "False of the code: c://a/b@evil has host evil (refuted). Proved for paths without at sign, or with user information, and without colon, or with port."
  },
  {
   "property": "C48",
   "status": "partial",
   "theorems": [
    "C48_scheme_refuted",
    "C48_memory_refuted",
    "C48_copy_partial"
   ],
   "note": "False of the code: without scheme a host or port is never copied; and a failed allocation of the host or port is not noticed (both refuted). Proved for a structure with scheme, or without host and port, if these two allocations do not fail."
  },
  {
   "property": "C49",
   "status": "partial",
   "theorems": [
    "C49_refuted",
    "C49_plain_partial",
    "C49_calm_partial"
   ],
   "note": "False of the code: on a chunk of size -6 the loop does not advance (refuted). Proved for messages without the word \"chunked\", and for messages shorter than 2^30 without a line after the head that reads as a negative size or one of eight digits or more. Allocations succeed."
  },
  {
   "property": "C50",
   "status": "partial",
   "theorems": [
    "C50_refuted",
    "C50_parse_generate_partial"
   ],
   "note": "False of the code: a body with a NUL is not read back (refuted). Proved for bodies without NUL, shorter than 2^31, and all messages with well-formed fields and a correct Content-Length."
  },
  {
   "property": "C51",
   "status": "partial",
   "theorems": [
    "C51_refuted",
    "C51_chunk_partial"
   ],
   "note": "False of the code: if the size line fills the buffer the data are written behind it (refuted). Proved for longer buffers, with the exact contents."
  },
  {
   "property": "C52",
   "status": "partial",
   "theorems": [
    "C52_strncpy_refuted",
    "C52_strncpy_partial",
    "C52_strncpy_none",
    "C52_strncat"
   ],
   "note": "False for util_strncpy with a destination of length 0, which returns 0 (refuted); proved otherwise, source and destination being distinct objects."
  },
  {
   "property": "C53",
   "status": "partial",
   "theorems": [
    "C53_refuted",
    "C53_partial"
   ],
   "note": "Refuted: if strdup fails while a value is replaced, the old value has been freed and config_get returns NULL. Proved: for every sequence of calls, a name for which no call failed has the value last set."
  },
  {
   "property": "C54",
   "status": "partial",
   "theorems": [
    "C54_refuted",
    "C54_partial",
    "C54_newline_partial"
   ],
   "note": "Refuted by a text such as a=b without end of line: the parser goes on behind the terminating NUL. Proved for all texts of up to 2^31 characters and all allocation failures: it always ends, the over-read occurs exactly if the last line is a section or an assignment without its end, and a text that ends with an end of line is read within bounds."
  },
  {
   "property": "C55",
   "status": "partial",
   "theorems": [
    "C55_refuted",
    "C55_continue_refuted",
    "C55_error_partial",
    "C55_registered_partial"
   ],
   "note": "First half false of the code: the switch falls through, 2.12 becomes 412, 2.31 becomes 502 (refuted). Proved: errors are always reported as errors; registered codes get exactly the status of a table."
  },
  {
   "property": "C56",
   "status": "partial",
   "theorems": [
    "C56_refuted",
    "C56_partial",
    "C56_upload_partial"
   ],
   "note": "Refuted: DELETE is converted but connection_coap_exchange does nothing for it, and the client is told 502. Proved for GET, PUT and POST: if the transaction succeeds, the first message sent is the converted request, or its first block of 32 bytes for long bodies. C56_upload_partial: unless the HTTP response reports an error, the whole body of a PUT or POST of more than 1024 bytes, or of one the server refused with 4.13, was sent in order, or the server ended the transfer with a final response."
  },
  {
   "property": "C57",
   "status": "partial",
   "theorems": [
    "C57_refuted",
    "C57_partial"
   ],
   "note": "Refuted: a response as long as the buffer loses its last byte (witness: 4096 bytes, reached by a block-wise GET). Proved for all other lengths: exactly the text of the response is written."
  },
  {
   "property": "C58",
   "status": "partial",
   "theorems": [
    "C58_refuted",
    "C58_server_partial"
   ],
   "note": "Refuted: a URI without port on a connection with an active client is a null dereference. Proved for every sequence of requests: everything sent in a transaction goes to the server that the URI of the request read in that transaction names. That URIs with host and port are safe is C79_named_partial."
  },
  {
   "property": "C59",
   "status": "partial",
   "theorems": [
    "C59_refuted",
    "C59_text_partial",
    "C59_parsed_partial"
   ],
   "note": "False of the code: the path is decoded before it is divided (refuted). Proved for URIs in which no decoded segment has a slash and no decoded argument an ampersand, and for all URIs in terms of what uri_parse makes of them."
  },
  {
   "property": "C60",
   "status": "partial",
   "theorems": [
    "C60_freed_refuted",
    "C60_oldest_refuted",
    "C60_long_refuted",
    "C60_registrar_partial"
   ],
   "note": "False in general: an entry deleted is not unlinked from its predecessor, and identifiers longer than 31 characters are cut (refuted, three ways). Proved for histories in which identifiers and addresses fit and only the oldest of several entries, or an only entry added when there was none, is deleted."
  },
  {
   "property": "C61",
   "status": "partial",
   "theorems": [
    "C61_client_places",
    "C61_client_latest",
    "C61_client_kept",
    "C61_server_latest_refuted",
    "C61_server_delete_refuted",
    "C61_server_own_key",
    "C61_server_places_partial"
   ],
   "note": "Client: proved for addresses that are not empty and fit their array. Server: that data was stored under the key asked for is proved for every history; the latest data and deletion are false if a key is stored twice (refuted), and proved if it is not. malloc failing in the server's get, and locking, are not modelled."
  },
  {
   "property": "C62",
   "status": "partial",
   "theorems": [
    "C62_format_faithful_refuted",
    "C62_format_faithful_partial"
   ],
   "note": "False for option number differences or lengths above 65804 (refuted: written modulo 2^16); proved for representable messages."
  },
  {
   "property": "C63",
   "status": "proved",
   "theorems": [
    "C63_replies"
   ],
   "note": "Proved for every run of one exchange."
  },
  {
   "property": "C64",
   "status": "proved",
   "theorems": [
    "C64_handler_response_sent"
   ],
   "note": "Proved for every handler that builds its response with the setters."
  },
  {
   "property": "C65",
   "status": "proved",
   "theorems": [
    "C65_parse_safe",
    "C65_set_safe"
   ],
   "note": "Strings are shorter than 2^64 - 2."
  },
  {
   "property": "C66",
   "status": "partial",
   "theorems": [
    "C66_refuted",
    "C66_plain_partial",
    "C66_calm_partial"
   ],
   "note": "False of the code: negative chunk sizes lead to a write in front of the body and to memcpy with a negative size (refuted). Proved for the messages named at C49. Allocations succeed."
  },
  {
   "property": "C67",
   "status": "partial",
   "theorems": [
    "C67_refuted",
    "C67_generate_partial"
   ],
   "note": "False of the code for len = 0 and a message with a body (refuted). Proved for all len > 0, with the exact contents."
  },
  {
   "property": "C68",
   "status": "partial",
   "theorems": [
    "C68_refuted",
    "C68_chunks_partial"
   ],
   "note": "False of the code: a NUL in the data ends the text for the parser (refuted). Proved for data without NUL, of less than 2^31 - 1 bytes."
  },
  {
   "property": "C69",
   "status": "partial",
   "theorems": [
    "C69_refuted",
    "C69_safe_partial"
   ],
   "note": "False of the code for len = 0 (refuted). Proved for len > 0 and all options."
  },
  {
   "property": "C70",
   "status": "partial",
   "theorems": [
    "C70_refuted",
    "C70_round_trip_partial"
   ],
   "note": "False of the code: option values are percent-decoded (refuted). Proved for values without percent sign, NUL, byte 255 and separators that fit the buffer of 256 bytes."
  },
  {
   "property": "C71",
   "status": "partial",
   "theorems": [
    "C71_refuted",
    "C71_response_refuted",
    "C71_port_refuted",
    "C71_headers_partial"
   ],
   "note": "False of the code: values are decimal text (refuted for requests, responses and the port). Proved: the two translations of headers are inverse."
  },
  {
   "property": "C72",
   "status": "partial",
   "theorems": [
    "C72_refuted",
    "C72_faithful_partial",
    "C72_received_partial"
   ],
   "note": "False of the code: an ETag with a line end adds headers (refuted). Proved for ETags of printable words; received back if the body has no NUL."
  },
  {
   "property": "C73",
   "status": "partial",
   "theorems": [
    "C73_refuted",
    "C73_payload_partial"
   ],
   "note": "False of the code for responses without payload (refuted). Proved for responses with a payload."
  },
  {
   "property": "C74",
   "status": "proved",
   "theorems": [
    "C74_request"
   ],
   "note": "Proved for all requests whose URI is shorter than 2^32 - 1 bytes; whether the options are right for the URI is C59."
  },
  {
   "property": "C75",
   "status": "proved",
   "theorems": [
    "C75_reassembly",
    "C75_chunks"
   ],
   "note": "Proved for requests of at most 32641 bytes whose bodies have no NUL: with a Content-Length, without body, and in chunked encoding."
  },
  {
   "property": "C76",
   "status": "partial",
   "theorems": [
    "C76_refuted",
    "C76_partial"
   ],
   "note": "Refuted: connection_recv waits before it looks at the buffer. Proved: with whatever arrives next the request is read."
  },
  {
   "property": "C77",
   "status": "partial",
   "theorems": [
    "C77_refuted",
    "C77_first_block_refuted",
    "C77_partial"
   ],
   "note": "Refuted for a GET with a body of more than 1024 bytes (the client gets its own body back) and for a short PUT or POST whose response is the first of several blocks (only this block is passed on). Proved for all other requests, under the conditions of C79: the body is the payload of one response that is not a part of a longer one, or the payloads of a transfer in order."
  },
  {
   "property": "C78",
   "status": "partial",
   "theorems": [
    "C78_refuted",
    "C78_partial"
   ],
   "note": "Refuted: a URI without port closes the connection without an answer. Proved if the URI has host and port, nothing fails, and the response has at most 32768 bytes."
  },
  {
   "property": "C79",
   "status": "partial",
   "theorems": [
    "C79_refuted",
    "C79_partial",
    "C79_named_partial"
   ],
   "note": "Refuted: a response with an empty Block2 option is read out of bounds (see also C49, C58, C66). Proved for input on which http_msg_parse is safe and responses without empty block options: the only undefined behaviour left is the null dereference of C58, and only for URIs without host or port."
  },
  {
   "property": "C80",
   "status": "partial",
   "theorems": [
    "C80_refuted",
    "C80_partial"
   ],
   "note": "Refuted by a last line without end of line (see C54). Proved for all texts of up to 2^31 characters: config_parse returns 0 exactly for texts of the grammar whose last line, unless empty or a comment, has its end, and the values are those of the last assignments."
  },
  {
   "property": "C81",
   "status": "proved",
   "theorems": [
    "C81_error_position"
   ],
   "note": "Proved for all texts of fewer than 2^30 - 2 characters and all results but CONFIG_ENOMEM: the position is that of the first character that no line can continue, of the token that does not exist, or of the end of the text; the values are those of the lines before, and perhaps of an assignment on the erroneous line."
  },
  {
   "property": "C82",
   "status": "partial",
   "theorems": [
    "C82_refuted",
    "C82_partial"
   ],
   "note": "Refuted: replacing a value frees the old one first. Proved: all other values are unchanged, and this one is unchanged or NULL."
  },
  {
   "property": "C83",
   "status": "partial",
   "theorems": [
    "C83_refuted",
    "C83_partial"
   ],
   "note": "Refuted by a file that does not end with an end of line (see C54). Proved for all files whose text has up to 2^31 characters: success only with the parameters the grammar gives, and success for these, unknown log levels being rejected, if no allocation fails. Reading the file is an oracle."
  },
  {
   "property": "C84",
   "status": "partial",
   "theorems": [
    "C84_refuted",
    "C84_partial"
   ],
   "note": "Refuted: the table has an entry for input/output errors that config_error_t lacks, so lexical errors are described as input/output errors and syntax errors as lexical errors. Proved: the other errors are described correctly, and every int but INT_MIN gets a string of the table."
  },
  {
   "property": "C85",
   "status": "partial",
   "theorems": [
    "C85_refuted",
    "C85_malformed_partial"
   ],
   "note": "False: an encoded NUL ends the component and the rest is dropped. Proved for percent signs not followed by two hexadecimal digits."
  },
  {
   "property": "C86",
   "status": "proved",
   "theorems": [
    "C86_set"
   ],
   "note": "Strings are shorter than 2^64 - 2."
  },
  {
   "property": "C87",
   "status": "partial",
   "theorems": [
    "C87_refuted",
    "C87_huge_refuted",
    "C87_length_partial",
    "C87_chunks_partial"
   ],
   "note": "False of the code: a header whose name is continued on the next line is refused if the text ends between the lines, and the first byte of a body of 2^32 + 1 bytes is taken for the whole (refuted). Proved for the messages of C50 and C68: headers on one line, bodies without NUL and shorter than 2^31."
  },
  {
   "property": "C88",
   "status": "proved",
   "theorems": [
    "C88_accepted",
    "C88_accepts"
   ],
   "note": "Messages in chunked encoding: the head only (C68 for the rest). The bodies accepted are without NUL and shorter than 2^31."
  },
  {
   "property": "C89",
   "status": "partial",
   "theorems": [
    "C89_upload_response_partial",
    "C89_longer_response_refuted"
   ],
   "note": "Proved for every response body not longer than the uploaded one; refuted for longer ones (the client reports ENOSPC after the application has taken the body, as it has only the buffer of the upload)."
  },
  {
   "property": "C90",
   "status": "partial",
   "theorems": [
    "C90_file",
    "C90_transfer_partial"
   ],
   "note": "Proved: the contents of the file as a function of the bodies passed to the callback, in every execution and whatever the attempts to write the file give. Proved in part: a whole transfer between the sample client and the sample server, for every file of 1 to 8192 bytes, every reachable server state without a transfer of this client and every client state, when neighbouring requests have different message IDs. Missing, as false of the libraries (C41): equal message IDs and the empty file."
  },
  {
   "property": "C91",
   "status": "partial",
   "theorems": [
    "C91_return_refuted",
    "C91_return_partial"
   ],
   "note": "False: line 237 of transfer_client.c returns ret, which is 0, after coap_client_exchange_blockwise has failed, and an error code in the response is not looked at. Both refuted by computed runs. Proved instead: an error is returned exactly if the file can not be loaded."
  },
  {
   "property": "C92",
   "status": "proved",
   "theorems": [
    "C92_source"
   ],
   "note": "Proved from C37 and the handler of the transfer server, for every execution of the server."
  },
  {
   "property": "C93",
   "status": "proved",
   "theorems": [
    "C93_acknowledged"
   ],
   "note": "Proved by cases on what opening and writing the file give. The count returned by fwrite is taken to be what the file holds: the code does not look at the result of fclose, and it is not modelled."
  },
  {
   "property": "C94",
   "status": "proved",
   "theorems": [
    "C94_directory"
   ],
   "note": "Proved for every execution of the server with the registration application: an invariant over all functions of the server (the application's state is what the requests handled make of it), with the registrar of C60, of which this application calls registrar_add only. Assumed of inet_ntop: its strings fit the array given to it."
  },
  {
   "property": "C95",
   "status": "proved",
   "theorems": [
    "C95_answers"
   ],
   "note": "Proved for every request in every reachable state. The answer is that of the handler; that it is sent is C64 and the other properties of the server."
  },
  {
   "property": "C96",
   "status": "proved",
   "theorems": [
    "C96_write_full"
   ],
   "note": "Proved for every sequence of events. A call that is left without events has not returned; the theorem says what has been written by then."
  },
  {
   "property": "C97",
   "status": "proved",
   "theorems": [
    "C97_read_full"
   ],
   "note": "Proved for every sequence of events, given that tls_sock_handshake returns no positive number (it returns SOCK_ constants only). GnuTLS is taken to deliver the bytes sent in order."
  },
  {
   "property": "C98",
   "status": "proved",
   "theorems": [
    "C98_time"
   ],
   "note": "Proved for every request in every reachable state, given that what ctime_r writes fits 32 bytes (POSIX: 26). A ctime_r that fails is taken to leave the buffer as it is. The answer is that of the handler; that it is sent is C64 and the other properties of the server."
  },
  {
   "property": "C99",
   "status": "proved",
   "theorems": [
    "C99_register"
   ],
   "note": "Proved for every exchange function. A payload is compared up to a NUL, as strcmp does. A payload that is not OK is stored before the call fails. The memory for the request is taken to be available, and the length of a payload to fit an int."
  },
  {
   "property": "C100",
   "status": "partial",
   "theorems": [
    "C100_defined_refuted",
    "C100_get_time_partial"
   ],
   "note": "Refuted: a 2.05 with the path and without payload makes the client call memcpy with a null pointer and length 0, which is undefined up to C17 (reg_client.c tests for it, time_client.c does not). Partial: all other responses, for every exchange function. The memory for the request is taken to be available, and the length of a payload to fit an int."
  }
 ]
}