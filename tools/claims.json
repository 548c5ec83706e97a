{
 "C01": "False with signed char (refuted: option number difference 200); proved for unsigned char, and for signed char when no option delta or length needs an extension byte above 127.",
 "C02": "False with signed char (refuted); proved for unsigned char and every buffer longer than the datagram.",
 "C03": "False with signed char (refuted); proved as an equivalence for unsigned char, and completeness for signed char without large extension bytes.",
 "C04": "False as stated (refuted: the byte after the datagram is read to look for the payload marker); proved that at most that one byte is read and that no byte after the datagram changes the result.",
 "C05": "False as stated (refuted: one byte written past the buffer for an option with number < 13 and length 13..268); proved when the wire form fits or there is no such option.",
 "C06": "False as stated (refuted: -ENOSPC at the exact size for options with number >= 13 and length < 13); proved with one byte to spare or without such options.",
 "C07": "Proved for every sequence of setter calls.",
 "C08": "Proved for every option list, for the critical and the unsafe check.",
 "C09": "False at block numbers 16, 4096 and 1048576 (refuted); proved for all numbers that fit in the option.",
 "C10": "False for zero-length values (out-of-bounds read) and for four-byte values (accepted); proved for one to three bytes.",
 "C11": "False for messages parsed with signed char (refuted: unsorted option list); proved for messages built by setters and parsed with unsigned char.",
 "C12": "Return value wrong for the root path in a one-byte buffer (refuted); proved for buffers of two bytes or more; bounds and termination proved for every length.",
 "C13": "False (refuted: an option longer than a medium buffer loses a small buffer); proved for the medium pool, and for the small pool up to one buffer per -ENOMEM, over every sequence of message calls.",
 "C14": "Proved for every history of calls on a created pool.",
 "C15": "Proved for every history of calls on a created pool.",
 "C16": "Proved for every history of calls on a created pool.",
 "C17": "False when num * len wraps around (refuted); proved otherwise.",
 "C18": "False without a lock (refuted: schedule in which two threads get the same buffer); proved when no thread is interrupted between test and store.",
 "C19": "Proved for every environment, including failing system calls.",
 "C20": "Proved for every sequence of events.",
 "C21": "False (refuted: a request with the right token is returned as response); proved if no request arrives.",
 "C22": "Proved for every sequence of events.",
 "C23": "False (refuted: a flood of datagrams starves the timer); proved with an explicit bound if the timer is not starved and can be armed.",
 "C24": "Proved for every environment of the client, through the exchange function.",
 "C25": "Proved for GET, PUT and POST, for every environment of the client.",
 "C26": "Proved: at most 2 (len / 16 + 1) exchanges.",
 "C62": "False for option number differences or lengths above 65804 (refuted: written modulo 2^16); proved for representable messages.",
 "C63": "Proved for every run of one exchange.",
 "C27": "Proved for every run.",
 "C28": "False if the clock reads 0 (refuted); proved otherwise. The other transactions stay as they are, and uses are noted exactly at creation, reception and sending, in every run.",
 "C29": "False for a first request with message ID 0 (refuted: an empty confirmable message is sent); proved for every other new request, with piggybacked, separate and non-confirmable responses.",
 "C30": "False if another request was received in between (refuted: message IDs 1, 2, 1); proved otherwise.",
 "C31": "False for a first request with message ID 0 (refuted); proved for all others, unless the acknowledgement for a separate response cannot be sent.",
 "C32": "False (refuted: after a new request its acknowledgement is retransmitted by the old timer); proved otherwise, with the number of retransmissions, the intervals, and that nothing is sent without a message or an expiry.",
 "C33": "False (refuted: a ping reaches the handler); proved for everything else, except that a confirmable message with the message ID of the last request is taken for a repetition. Also proved that any other non-confirmable or non-request message is not answered.",
 "C34": "Proved that the handler never sees such a message; the answer 4.02 is false for a first request with message ID 0 (refuted) and proved for every other new request.",
 "C35": "False after 65535 (refuted: the next ID is random and may be the same); proved up to there, and that every message the server originates carries such an ID.",
 "C36": "False (refuted: a retransmission that cannot be sent ends the server); proved for everything else.",
 "C42": "False for paths with NUL (refuted); proved for paths of at most 255 bytes without NUL.",
 "C64": "Proved for every handler that builds its response with the setters.",
 "C37": "Proved for body buffers below 2^63 bytes: what the callback gets is made of consecutive blocks; each step of an upload; how an upload begins.",
 "C38": "Proved for body buffers below 2^63 bytes and applications that leave the buffer's length alone and hand over bytes and options the protocol has room for: the responses, as RFC 7252 encodings, are consecutive blocks; each step of a download; how a download begins.",
 "C39": "Proved for every step of every run and every application that keeps the contract well_behaved. Undefined behaviour remains outside the body buffer: a datagram of 1152 bytes (C04) or a block option of no length (C10, shown by C39_exception).",
 "C43": "Proved for every history in which the user receives no more than there is space for, and maximum sizes below 2^63.",
 "C52": "False for util_strncpy with a destination of length 0, which returns 0 (refuted); proved otherwise, source and destination being distinct objects.",
 "C60": "False in general: an entry deleted is not unlinked from its predecessor, and identifiers longer than 31 characters are cut (refuted, three ways). Proved for histories in which identifiers and addresses fit and only the oldest of several entries, or an only entry added when there was none, is deleted.",
 "C61": "Client: proved for addresses that are not empty and fit their array. Server: that data was stored under the key asked for is proved for every history; the latest data and deletion are false if a key is stored twice (refuted), and proved if it is not. malloc failing in the server's get, and locking, are not modelled.",
 "C44": "Strings shorter than 2^64 / 3.",
 "C45": "Texts shorter than 2^64.",
 "C46": "False of the code: an unescaped at sign or colon of the path is taken for a delimiter of the authority, and a colon of the query for the end of a scheme (refuted). Proved for all other structures with valid components.",
 "C47": "False of the code: c://a/b@evil has host evil (refuted). Proved for paths without at sign, or with user information, and without colon, or with port.",
 "C48": "False of the code: without scheme a host or port is never copied; and a failed allocation of the host or port is not noticed (both refuted). Proved for a structure with scheme, or without host and port, if these two allocations do not fail.",
 "C65": "Strings are shorter than 2^64 - 2.",
 "C49": "False of the code: on a chunk of size -6 the loop does not advance (refuted). Proved for messages without the word \"chunked\", and for messages shorter than 2^30 without a line after the head that reads as a negative size or one of eight digits or more. Allocations succeed.",
 "C50": "False of the code: a body with a NUL is not read back (refuted). Proved for bodies without NUL, shorter than 2^31, and all messages with well-formed fields and a correct Content-Length.",
 "C51": "False of the code: if the size line fills the buffer the data are written behind it (refuted). Proved for longer buffers, with the exact contents.",
 "C66": "False of the code: negative chunk sizes lead to a write in front of the body and to memcpy with a negative size (refuted). Proved for the messages named at C49. Allocations succeed.",
 "C67": "False of the code for len = 0 and a message with a body (refuted). Proved for all len > 0, with the exact contents.",
 "C68": "False of the code: a NUL in the data ends the text for the parser (refuted). Proved for data without NUL, of less than 2^31 - 1 bytes.",
 "C55": "First half false of the code: the switch falls through, 2.12 becomes 412, 2.31 becomes 502 (refuted). Proved: errors are always reported as errors; registered codes get exactly the status of a table.",
 "C59": "False of the code: the path is decoded before it is divided (refuted). Proved for URIs in which no decoded segment has a slash and no decoded argument an ampersand, and for all URIs in terms of what uri_parse makes of them.",
 "C69": "False of the code for len = 0 (refuted). Proved for len > 0 and all options.",
 "C70": "False of the code: option values are percent-decoded (refuted). Proved for values without percent sign, NUL, byte 255 and separators that fit the buffer of 256 bytes.",
 "C71": "False of the code: values are decimal text (refuted for requests, responses and the port). Proved: the two translations of headers are inverse.",
 "C72": "False of the code: an ETag with a line end adds headers (refuted). Proved for ETags of printable words; received back if the body has no NUL.",
 "C73": "False of the code for responses without payload (refuted). Proved for responses with a payload.",
 "C74": "Proved for all requests whose URI is shorter than 2^32 - 1 bytes; whether the options are right for the URI is C59.",
 "C56": "Refuted: DELETE is converted but connection_coap_exchange does nothing for it, and the client is told 502. Proved for GET, PUT and POST: if the transaction succeeds, the first message sent is the converted request, or its first block of 32 bytes for long bodies. C56_upload_partial: unless the HTTP response reports an error, the whole body of a PUT or POST of more than 1024 bytes, or of one the server refused with 4.13, was sent in order, or the server ended the transfer with a final response.",
 "C57": "Refuted: a response as long as the buffer loses its last byte (witness: 4096 bytes, reached by a block-wise GET). Proved for all other lengths: exactly the text of the response is written.",
 "C58": "Refuted: a URI without port on a connection with an active client is a null dereference. Proved for every sequence of requests: everything sent in a transaction goes to the server that the URI of the request read in that transaction names. That URIs with host and port are safe is C79_named_partial.",
 "C75": "Proved for requests of at most 32641 bytes whose bodies have no NUL: with a Content-Length, without body, and in chunked encoding.",
 "C76": "Refuted: connection_recv waits before it looks at the buffer. Proved: with whatever arrives next the request is read.",
 "C77": "Refuted for a GET with a body of more than 1024 bytes (the client gets its own body back) and for a short PUT or POST whose response is the first of several blocks (only this block is passed on). Proved for all other requests, under the conditions of C79: the body is the payload of one response that is not a part of a longer one, or the payloads of a transfer in order.",
 "C78": "Refuted: a URI without port closes the connection without an answer. Proved if the URI has host and port, nothing fails, and the response has at most 32768 bytes.",
 "C79": "Refuted: a response with an empty Block2 option is read out of bounds (see also C49, C58, C66). Proved for input on which http_msg_parse is safe and responses without empty block options: the only undefined behaviour left is the null dereference of C58, and only for URIs without host or port.",
 "C53": "Refuted: if strdup fails while a value is replaced, the old value has been freed and config_get returns NULL. Proved: for every sequence of calls, a name for which no call failed has the value last set.",
 "C54": "Refuted by a text such as a=b without end of line: the parser goes on behind the terminating NUL. Proved for all texts of up to 2^31 characters and all allocation failures: it always ends, the over-read occurs exactly if the last line is a section or an assignment without its end, and a text that ends with an end of line is read within bounds.",
 "C80": "Refuted by a last line without end of line (see C54). Proved for all texts of up to 2^31 characters: config_parse returns 0 exactly for texts of the grammar whose last line, unless empty or a comment, has its end, and the values are those of the last assignments.",
 "C81": "Proved for all texts of fewer than 2^30 - 2 characters and all results but CONFIG_ENOMEM: the position is that of the first character that no line can continue, of the token that does not exist, or of the end of the text; the values are those of the lines before, and perhaps of an assignment on the erroneous line.",
 "C82": "Refuted: replacing a value frees the old one first. Proved: all other values are unchanged, and this one is unchanged or NULL.",
 "C83": "Refuted by a file that does not end with an end of line (see C54). Proved for all files whose text has up to 2^31 characters: success only with the parameters the grammar gives, and success for these, unknown log levels being rejected, if no allocation fails. Reading the file is an oracle.",
 "C84": "Refuted: the table has an entry for input/output errors that config_error_t lacks, so lexical errors are described as input/output errors and syntax errors as lexical errors. Proved: the other errors are described correctly, and every int but INT_MIN gets a string of the table.",
 "C85": "False: an encoded NUL ends the component and the rest is dropped. Proved for percent signs not followed by two hexadecimal digits.",
 "C86": "Strings are shorter than 2^64 - 2.",
 "C87": "False of the code: a header whose name is continued on the next line is refused if the text ends between the lines, and the first byte of a body of 2^32 + 1 bytes is taken for the whole (refuted). Proved for the messages of C50 and C68: headers on one line, bodies without NUL and shorter than 2^31.",
 "C88": "Messages in chunked encoding: the head only (C68 for the rest). The bodies accepted are without NUL and shorter than 2^31.",
 "C40": "Proved for every body that fits, every pair of block sizes, every reachable server state without a transfer of this client and every client state, provided neighbouring requests have different message IDs (false otherwise: refuted) and the options besides the Block options take at most 100 bytes with numbers up to 140.",
 "C41": "Proved for every non-empty body that fits, every pair of block sizes, every reachable server state without a transfer of this client and every client state: the callback is called once, with exactly the body, and the client ends with the code the application set. Refuted for the empty body (the server answers 4.00) and when neighbouring requests have equal message IDs. Missing: options besides the Block options of more than 100 bytes or with numbers above 140.",
 "C89": "Proved for every response body not longer than the uploaded one; refuted for longer ones (the client reports ENOSPC after the application has taken the body, as it has only the buffer of the upload).",
 "C90": "Proved: the contents of the file as a function of the bodies passed to the callback, in every execution and whatever the attempts to write the file give. Proved in part: a whole transfer between the sample client and the sample server, for every file of 1 to 8192 bytes, every reachable server state without a transfer of this client and every client state, when neighbouring requests have different message IDs. Missing, as false of the libraries (C41): equal message IDs and the empty file.",
 "C91": "False: line 237 of transfer_client.c returns ret, which is 0, after coap_client_exchange_blockwise has failed, and an error code in the response is not looked at. Both refuted by computed runs. Proved instead: an error is returned exactly if the file can not be loaded.",
 "C92": "Proved from C37 and the handler of the transfer server, for every execution of the server.",
 "C93": "Proved by cases on what opening and writing the file give. The count returned by fwrite is taken to be what the file holds: the code does not look at the result of fclose, and it is not modelled.",
 "C94": "Proved for every execution of the server with the registration application: an invariant over all functions of the server (the application's state is what the requests handled make of it), with the registrar of C60, of which this application calls registrar_add only. Assumed of inet_ntop: its strings fit the array given to it.",
 "C95": "Proved for every request in every reachable state. The answer is that of the handler; that it is sent is C64 and the other properties of the server.",
 "C96": "Proved for every sequence of events. A call that is left without events has not returned; the theorem says what has been written by then.",
 "C97": "Proved for every sequence of events, given that tls_sock_handshake returns no positive number (it returns SOCK_ constants only). GnuTLS is taken to deliver the bytes sent in order.",
 "C98": "Proved for every request in every reachable state, given that what ctime_r writes fits 32 bytes (POSIX: 26). A ctime_r that fails is taken to leave the buffer as it is. The answer is that of the handler; that it is sent is C64 and the other properties of the server.",
 "C99": "Proved for every exchange function. A payload is compared up to a NUL, as strcmp does. A payload that is not OK is stored before the call fails. The memory for the request is taken to be available, and the length of a payload to fit an int.",
 "C100": "Refuted: a 2.05 with the path and without payload makes the client call memcpy with a null pointer and length 0, which is undefined up to C17 (reg_client.c tests for it, time_client.c does not). Partial: all other responses, for every exchange function. The memory for the request is taken to be available, and the length of a payload to fit an int."
}