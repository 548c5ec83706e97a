# Formal model of FreeCoAP: design

Source: /repo (keith-cullen/FreeCoAP, C). The code is read as text; it is never
built or run. The model is written in Rocq (Coq 8.16.1) under
`rocq/theories/`. Properties are numbered as in `properties.jsonl`;
`MANIFEST.json` maps each to its theorems.

## 1. Method

* One `*Model.v` file per source file (or coherent part of one): computable
  Gallina functions, one per C function, each with a comment citing file and
  lines and stating what was simplified. No proofs in model files.
* `*Spec.v`: small declarative specifications, independent of the model's
  helpers (wire grammar, FIFO, map, ...).
* `*Lemmas.v`: proofs.
* `Properties_*.v`: the property theorems. Each is derived from lemmas,
  followed by `Print Assumptions`, with an `Example` beside it (for several
  theorems sometimes one) that shows a concrete, non-trivial case meeting the
  hypotheses.
* A property that is false of the faithful model gets a `..._refuted` theorem
  with a concrete witness, and a `..._partial` theorem with the hypothesis that
  makes it true. It is listed as `partial` in the manifest.

### Conventions

* A byte is an `N` below 256 (`bytes_ok`). A C `char` is read either as signed
  (x86) or as unsigned (ARM): the models of functions whose result depends on
  that take a `signedness` parameter, so theorems quantify over both.
* `unsigned` is `N` modulo 2^32, `size_t` is `N` modulo 2^64, where the code can
  wrap. Lists carry lengths.
* Results: `Ok v`, `Err errno` or `UB why`. `UB` is a distinct outcome: read or
  write outside an object, use of an indeterminate value, dereference of NULL or
  of freed memory. A safety theorem says that `UB` is not reached.
* Loops without a structural measure run on fuel; `OutOfFuel` is a distinct
  outcome, excluded by a theorem (or, where the C loop really does not
  terminate, the theorem says that every fuel runs out).
* Peers, network, clock, random numbers and memory allocation are inputs
  (event lists or oracles), universally quantified in the theorems.

## 2. Trusted base

* The Coq 8.16.1 kernel (with `vm_compute`).
* What `Print Assumptions` lists per theorem: nothing, for every theorem in a
  `Properties_*.v` file ("Closed under the global context"). The gate's
  `coqchk` also lists seven axioms `Coq.ssr.ssrunder.Under_rel.*`: they are the
  sealed definitions of the standard library's `under` tactic, which are loaded
  with the library but used by no theorem here.
* The reading of the C code recorded in the comments of the model files.
* Semantics of C as written in `Base.v`: fixed-width arithmetic with
  `unsigned` = 32 bits, `size_t` and pointers = 64 bits, two's complement,
  8-bit char.
* Behaviour of the C library where the standard leaves it open: glibc's ctype
  tables in the C locale (valid also for negative `char`), glibc's `atoi` and
  `sscanf("%x")` on overlong numbers, `malloc(0)` not NULL; `snprintf`, `strdup`,
  `memcpy` as specified. A pointer outside its object counts as undefined
  behaviour only when it is dereferenced.
* Peers, network, `select`, timers, clocks, random numbers and failures of
  system calls and allocations are universally quantified inputs. They are not
  assumed to behave in any way except where a theorem says so in a hypothesis.
* The application of the server is a parameter: a function of its state and the
  request that builds the response with the setters of the library, or calls
  `coap_server_trans_handle_blockwise`, and returns its result. The contracts
  `well_behaved`, `keeps_buffer` and `proper` (ServerSpec, ServerBlockSpec) say
  what a theorem needs of it.

### What is modelled

| File of /repo | Model | Modelled | Not modelled |
|---|---|---|---|
| lib/src/coap_msg.c | MsgModel, MsgMemModel | all functions: header, token, options, payload, formatting, block options, copying, paths, option classes; which pool buffers a message owns | log text; coap_msg_gen_rand_str is an input |
| lib/src/coap_mem.c | MemModel | creation, allocation, release; two threads interleaved at memory accesses | the three global pools as such (MsgMemModel has two) |
| lib/src/coap_client.c | ClientModel | exchange, retransmission, separate and piggybacked responses, replies, blockwise GET/PUT/POST | DTLS (69-543), creation and destruction of the socket (549-661), logging |
| lib/src/coap_server.c | ServerModel | transactions, listening, exchange, retransmission, timers, blockwise receive and send, path list, run loop | DTLS (205-633, 1733-1854), name resolution and sockets of coap_server_create, destruction, logging |
| proxy/common/src/data_buf.c, util.c | BufModel | all of data_buf.c, util_strncpy, util_strncat | util_load_txt_file is an oracle in ConfigModel; hex dumps |
| proxy/common/src/tls.c | TableModel | the two session caches | GnuTLS set-up, locking |
| sample/reg_server/registrar.c | TableModel | all functions | the lock |
| proxy/common/src/uri.c | UriModel | parsing, encoding, decoding, generation, copying | NULL arguments |
| proxy/common/src/http_msg.c | HttpModel | parsing with chunked bodies, generation, headers | failing allocations |
| proxy/common/src/cross.c | CrossModel | translation of requests, responses, URIs, options, headers, status codes | log text |
| proxy/http_coap/src/connection.c | ConModel | receiving, sending, URI and client of a transaction, exchange, error responses, the thread's loop | TLS (an event list of reads and writes), statistics, thread creation |
| proxy/common/src/config.c, proxy/http_coap/src/param.c | ConfigModel | all functions but freeing | log text |
| sample/transfer_server/transfer_server.c, sample/transfer_client/transfer_client.c | SampleModel | the request handler, the receive callback, transfer_client_execute | setting up and taking down, the log; load_file is an input; what fwrite accepts is taken to be in the file after fclose |
| sample/reg_server/reg_server.c | RegModel | the two request handlers | setting up and taking down, the log; inet_ntop and malloc are oracles |
| sample/time_server/time_server.c | TimeModel | the two request handlers | setting up and taking down, the log; ctime_r is an oracle |
| sample/reg_client/reg_client.c | RegClientModel | reg_client_register | setting up and taking down, the log; the exchange is a parameter |
| sample/time_client/time_client.c | TimeClientModel | time_client_get_time | setting up and taking down, the log; the exchange is a parameter |
| proxy/common/src/tls_sock.c | TlsSockModel | tls_sock_read, tls_sock_write and their _full forms (514-677) | opening, handshakes, closing; GnuTLS and select are events |
| coap_log.c, sock.c, thread.c, listener.c, the rest of tls_sock.c, proxy.c, rust-bindings, test | - | - | all: logging, wrappers around system calls, main programs, tests |

## 3. Properties

The manifest's note says for each property what is proved, what is refuted and
what is missing. Here: how.

| Id | Model | How it is proved |
|----|-------|------------------|
| C01, C02, C03 | MsgModel; MsgSpec: relation `encodes m bytes` (RFC 7252 section 3 grammar) | format = encoder by computation on the three ranges; parse sound and complete for the relation by induction on the option list; C01 and C02 follow. Refuted for signed char (extension byte >= 128) |
| C04 | MsgModel reads through a bounded accessor, out of range = `UB` | induction over the parser; refuted (one byte read past the end when no payload follows); partial: the value read does not matter and nothing else is out of range |
| C05, C06 | format_op with the space computation of the code (unsigned subtraction) and a bounded write | case analysis; refuted by exact-fit witness; partial for option numbers >= 13 or with spare room |
| C07 | op_list_add | permutation + sortedness + stability by induction over the insertion history |
| C08 | op_num_is_recognized, check_*_ops | induction over option list |
| C09, C10 | parse_block_val, format_block_val | arithmetic on shifts and masks; refuted at the boundary numbers and for lengths 0 and > 3 |
| C11 | copy | induction over option list, insertion into sorted list |
| C12 | uri_path_to_str | induction |
| C13 | MsgMemModel: the same parser threading the two pools | conservation invariant; refuted by an option longer than the medium buffers |
| C14-C16 | MemModel: bitmap allocator | invariant over operation lists, refinement to a set of live indices |
| C17 | coap_mem_create with wrap-around product | refuted by num * len >= 2^64; partial below |
| C18 | alloc split into its atomic memory accesses, two threads interleaved | refuted by a schedule; partial: atomic schedules |
| C19-C23, C63 | ClientModel: send/receive/timer state machine over an event list; a trace of what is sent and received | invariants over event lists, induction on fuel; C21, C23 refuted |
| C24-C26 | client blockwise loops over the exchange in an arbitrary environment | loop invariants |
| C27-C36, C64 | ServerModel: transaction table, one step per loop iteration, over all runs (`reach`) | invariants over histories; refuted by concrete runs, partial under the stated hypotheses |
| C37-C39 | server blockwise handling over all runs, with the notes of received and sent blocks in the trace | invariant over block request sequences |
| C40, C41, C89 | E2EModel: the exchange of ClientModel with the run loop of ServerModel at the other end of a network that delivers every datagram once and at once | one round of both machines, then induction over the blocks; refuted by equal message IDs, by the empty upload and by a response longer than the upload |
| C90–C93 | SampleModel: the transfer server as an application of ServerModel, the transfer client on the network of E2EModel | an invariant over all functions of the server (the application's state is what the callbacks made of it), and C41; C91 refuted by computed runs; C92 from C37; C93 by cases |
| C94, C95 | RegModel: the registration server as an application of ServerModel, with the registrar of TableModel | an invariant over all functions of the server (the application's state is what the requests handled make of it) and the lemmas of C60 |
| C98 | TimeModel: the time server as an application of ServerModel | the invariant of C94 for the number of requests handled; cases of the handler |
| C99 | RegClientModel: reg_client_register over any exchange function | cases of the function, with the path lemma of C12 |
| C100 | TimeClientModel: time_client_get_time over any exchange function | as C99; refuted by a response without payload (null pointer given to memcpy) |
| C96, C97 | TlsSockModel: one event for each round of the loops | induction over the events and over the rounds |
| C42 | path list, response type | case analysis; refuted by path aliasing |
| C43, C52 | BufModel | refinement to a FIFO; induction on strings |
| C44-C48, C65, C85, C86 | UriModel; UriSpec: RFC 3986 structures | induction on strings, one lemma per component; witnesses for the refuted ones |
| C49-C51, C66-C68, C87, C88 | HttpModel; HttpSpec: text of a message, grammar of heads | induction on positions in the block; termination measure; witnesses: negative chunk size, NUL in a body |
| C55, C59, C69-C74 | CrossModel; CrossSpec | case analysis over the tables, induction over headers, options and path segments |
| C56-C58, C75-C79 | ConModel over an arbitrary network; a transfer longer than the body buffer is UB | invariant `healthy` over the sequence of transactions, giving for each what was sent (`uploads`) and where the body comes from (`body_from`); composition with C49, C66, C74 |
| C53, C82 | ConfigModel: sections and entries | refinement to a finite map over histories with failures |
| C54, C80, C81, C83 | ConfigModel: lexical analyser and parser; ConfigSpec: grammar of lines, position of a text | a pure reading of the text (`stmtf`), sound and complete for the grammar; the parser follows it step by step (`statement_spec`, `loop_spec`); readings are unique |
| C60 | TableModel: heap of nodes with explicit allocation status | refuted by use after free, partial for add-only and first-node histories |
| C61 | TableModel | invariant over histories; server cache refuted (stale first match) |
| C62 | format followed by the reading of RFC 7252 | case analysis; refuted above 65804 |
| C84 | ConfigModel | computation |

## 4. Tests of the theorems

`tools/mutate.py` applies an edit to a definition of a model in a scratch copy,
recompiles what depends on it and records the theorems that no longer compile.
That a proof script breaks does not show that the theorem has become false. So
for each theorem that states the claim broken by the edit a refutation is given:
a proof of `statement -> False` in the edited model, which must be closed under
the global context. Where a theorem could still be proved, it was tightened;
`seeded/LOG.jsonl` has one line per attempt, `seeded/mutants_*.json` the edits
and refutations. With `--fast` the proofs of the dependants are skipped and only
the refutations are checked.

The limits: edits are chosen by hand, one at a time; an edit that a theorem
survives because its claim is still true of the edited model is recorded as such.

## 5. Assumptions of each theorem

`Print Assumptions` follows every theorem in `Properties_*.v`; `make` prints
"Closed under the global context" for each of them. There are no axioms, section
variables outside sections, admitted proofs or disabled checks in the development.
