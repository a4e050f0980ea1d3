# Formal model of python-postgres/fe in Rocq (Coq 8.16.1)

(Generated by tools/mkdesign.py.)

## Layout

* `rocq/theories/<Area>Model.v`: the model, function by function; each definition cites the file and the lines of /repo.
* `rocq/theories/<Area>Spec.v`: small specifications, independent of the model, that the statements use.
* `rocq/theories/<Area>Proof*.v`: lemmas. `rocq/theories/<Area>Props*.v`: the theorems `Cnn_*`, `Print Assumptions` for each, and the
  `Example`s showing that concrete cases meet the hypotheses.
* `Base`, `PyStr`, `PyInt`, `PyList`, `PyDict`, `RegexModel`: the Python built-ins used.
* `properties.jsonl` (from `tools/mkprops.py`, `tools/moreprops.py`), `MANIFEST.json` (from `tools/mkmanifest.py`, `tools/status.json`).
* `seeded/LOG.jsonl`: wrong programs tried against the theorems (by `tools/mutate.py`, in scratch copies).

## Conventions

* Bytes are `Z` in 0..255; text is a list of code points (`Z`); Python `int` is `Z`; a Python float is a binary64 `spec_float`.
* A call that may raise gives `res A := Ok a | Err e` (or an outcome type of its area); generators are lists or step functions; mutation
  is a new state; loops are structural or carry fuel with a result `OutOfFuel` that the theorems exclude, with a theorem that enough fuel exists.
* Everything outside the process (sockets, server, files, clock, processes, Unicode tables, codecs) is an arbitrary function or an
  arbitrary script of replies, quantified over in the theorems.
* The pure-Python path is modelled: the C extension `port.optimized` is optional and every use has an `ImportError` fallback.
* Where the code breaks a property the full statement is refuted by a theorem `..._refuted` with a concrete witness, the property is
  marked partial, and what does hold is proved beside it. So "partial" nearly always means: the rest is false of this code.

## Trusted base

* The kernel of Coq 8.16.1. No axioms are added, no kernel check is switched off; no functors, module types or plugins.
* `Print Assumptions` says "Closed under the global context" for every theorem of the manifest (`ASSUMPTIONS.md` lists each of them): not
  even axioms of the standard library are used.
* That the model reads /repo correctly (nothing is executed; each definition cites the lines it models).
* The Python behaviour described in `Base`, `PyStr`, `PyInt`, `PyList`, `PyDict`, `RegexModel`, `LibModel` and the heads of the model files (struct, BytesIO, str
  methods, slices, dictionaries in insertion order, regular expressions, generators, with blocks, exceptions).
* Where a property speaks of the server (transactions, settings, cursors, advisory locks, COPY, notifications), the model of the server in
  that area, after the PostgreSQL documentation.

## Properties

| id | title | area | how it is proved | theorems | status |
|----|-------|------|------------------|----------|--------|
| C01 | Message stream is independent of how the network chunks the data | PBuffer | the buffer simulates a byte FIFO (refinement), for every history of operations | 3 | proved: The buffer is a simulation of a byte FIFO for every history; FIFO spec deterministic; chunking irrelevant. |
| C02 | Message stream never returns a partial message and never holds back a complete one | PBuffer | the buffer simulates a byte FIFO (refinement), for every history of operations | 1 | proved: Part of C01's refinement (spec_step for has_message/len/read/next) plus the delivery theorem. |
| C03 | Serialised batches decode back to the messages that were sent | Element3 | round-trip laws by induction on lists of fields; the wire format as a separate relation | 3 | proved: Any batch of typed items in any chunking is received item for item. |
| C04 | Every protocol message round-trips through serialize and parse | Element3 | round-trip laws by induction on lists of fields; the wire format as a separate relation | 8 | partial: Round trip proved for all message classes under the wire constraints; the rejection half is refuted (NUL in C strings, Bind format count). |
| C05 | Row data decode is exact | Element3 | round-trip laws by induction on lists of fields; the wire format as a separate relation | 2 | partial: Round trip proved; strictness of the pure Python row parser refuted. |
| C06 | Fixed-width integers: exact round trip, out-of-range values rejected | TypeIO | round trips and strictness; fuelled loops with proofs of termination | 9 | proved: Two's complement/unsigned big-endian codecs characterised exactly (iff) for every value; pure Python path (struct). |
| C07 | numeric values survive the wire exactly | Numeric | value semantics of digits in base 10000, scaled integers | 8 | partial: Round trip / sent and received values proved for all finite decimals; NaN refuted (send TypeError, receive ValueError). |
| C08 | date/time/timestamp/interval values survive the wire | Datetime | arithmetic of days and microseconds | 40 | partial: 64-bit formats: sent bytes, received values and round trips proved for all dates, times, timestamps, intervals. Float formats (IEEE arithmetic modelled exactly): sent double and value read back proved for all values: the same or one microsecond less (timestamps further than 272 years from 2000: up to 31 microseconds off), exact for whole seconds. Refuted: last/first date and timestamp coincide with the infinities, timestamptz infinities are naive, timetz offsets lose seconds and have the wrong sign for the server, time 24:00:00 unreadable, float formats lose a microsecond. Partial because of the refuted parts only. |
| C09 | Composite (record) values round-trip and malformed records are rejected | TypeIO | round trips and strictness; fuelled loops with proofs of termination | 4 | partial: Round trip and strictness proved (accepted data = exactly a packed record), except that a negative column count is accepted as an empty record (refuted). |
| C10 | Array values round-trip on the wire | TypeIO | round trips and strictness; fuelled loops with proofs of termination | 2 | proved: Any number of dimensions and elements, NULLs included; library level raw arrays. |
| C11 | Decoding of server supplied values always terminates with a value or an error | TypeIO | round trips and strictness; fuelled loops with proofs of termination | 6 | partial: Sized data, hstore and record decoders terminate and account for all data; for arrays refuted: a negative element size loops forever, a truncated element is accepted. |
| C12 | hstore, bool, jsonb, bit string and other simple codecs round-trip | TypeIO | round trips and strictness; fuelled loops with proofs of termination | 14 | partial: hstore, bool, jsonb, uuid, bit strings proved; refuted: Varbit.getbit and oidvector/int2vector packing always raise. |
| C13 | Network addresses survive the wire | TypeIO | round trips and strictness; fuelled loops with proofs of termination | 6 | partial: inet/cidr/macaddr round trips proved; refuted: a host address is sent with prefix length 0. |
| C14 | Array: flat and nested forms are inverse, indexing agrees with nesting | Array | induction on the dimensions | 16 | partial: Proved except integer indexing of multi-dimensional arrays, which is false at -1, len and below -len (C14_index_refuted, ValueError); strings are accepted as rows (C14_strings_as_rows_refuted). |
| C15 | Row access by name, position, slice and get() agree | Row | rows as tuple and key map | 11 | partial: Proved for rows whose columns have distinct names; get(-len) returns None although row[-len] exists (C15_get_int_refuted); with repeated names items() misaligns (C15_repeated_items_refuted). |
| C16 | Quoted literals and identifiers cannot be broken out of | Str | a separate SQL lexer as the specification | 5 | proved: quoting proved against an SQL lexer for all strings; the refuted theorem is about standard_conforming_strings=off servers |
| C17 | Qualified names round-trip | Str | a separate SQL lexer as the specification | 7 | partial: split_qname(qname(parts)) and split_using proved for all inputs; the if-needed variants proved for lower-case ASCII parts only, because they are false for upper-case letters (C17_uppercase_refuted) and reserved words |
| C18 | Statement splitting never cuts inside a quotation | Str | a separate SQL lexer as the specification | 7 | partial: splitting proved exact for every text with closed single-line quotations, unsplit/split and split_sql characterised for every text; refuted: unterminated E' and dollar stubs, dollar quotes spanning lines, lower-case e'' literals |
| C19 | bytea escape codec is lossless | Bytea | induction on byte strings | 4 | partial: lossless on all byte strings; every well-formed text accepted; malformed escapes rejected for texts without blank/underscore/o, refuted otherwise (int(...,8) accepts '\12 ', '\1_2', '\0o7') |
| C20 | Version strings parse and print consistently | Version | induction on the text | 6 | partial: split and normalize proved for every written version; unsplit loses with a state word without level (8.3devNone) and fails with four numbers; order proved for differing numbers and releases, refuted for rc/dev |
| C21 | Password file: escaping round-trips and the first matching entry wins | PgPass | induction on the text; first match | 5 | partial: line round trip proved unless the line ends in a blank of a field (refuted: password trailing blank is lost); lookup = first match proved |
| C22 | RI parsing is lossless | RI | round trips by induction | 11 | partial: unsplit(split s)=s for every string; field escapes, network locations and whole dictionaries round-trip when the host is unambiguous; ambiguous hosts and the single empty component are refuted by concrete cases |
| C23 | Connection IRIs denote the parameters they were built from | IRI | round trip and noninterference | 10 | partial: Round trip proved for every expressible parameter dictionary (any order, any strings subject to IRISpec); password noninterference of the obscured form proved for all dictionaries; refuted: database escapes, ssl scheme, None settings, port without host. |
| C24 | Configuration file edits take effect and touch nothing else | Conf | invariants over the lines of a file | 13 | partial: Proved for files with at least one line, settings named with letters, digits and underscores; at file level for values without line feeds and lines with closed quotes. Refuted (theorems *_refuted): empty file, item deletion, names with a period, spelling, unterminated quotes. |
| C25 | A protocol transaction completes only when the server has answered all of its commands, in order | Inst | state machine; invariants, simulation by a protocol automaton, batching lemma | 5 | proved: Completion iff the server answered everything, in order, every message accounted once; progress on any readable batch. Transactions begun by a Flush are outside (refuted side case). |
| C26 | Protocol processing does not depend on message batching | Inst | state machine; invariants, simulation by a protocol automaton, batching lemma | 3 | partial: Outcome, error, position, results and deliveries proved independent of the batching for servers keeping to the protocol; refuted: results of the batch in which an error ends the transaction are dropped, equal asynchronous messages of one batch are merged. |
| C27 | After a server error processing resumes at the next synchronization point only | Inst | state machine; invariants, simulation by a protocol automaton, batching lemma | 5 | partial: Proved for all command sequences and servers; refuted side cases: function call error followed by Ready, NoData for a portal. |
| C28 | Asynchronous messages are delivered exactly once | Inst | state machine; invariants, simulation by a protocol automaton, batching lemma | 6 | partial: Delivered in order, none lost, exactly once if the messages of a batch differ; refuted: equal messages in one batch delivered once, redelivery after an interrupted batch. |
| C29 | The password is only sent when the server asks for it | Neg | invariant over all scripts of the server | 3 | proved: The whole conversation has one of three shapes; unsupported requests end in an error with only the startup message sent. MD5 and crypt are parameters. |
| C30 | A connection is usable only after authentication, backend key and ready-for-query | Neg | invariant over all scripts of the server | 7 | partial: Success exactly on the proper conversation, except that the message confirming a password is not checked to be an authentication message (refuted part, xact3.py:214-220). |
| C31 | Bytes are sent exactly once and in order despite partial sends | Conn | invariants over histories with an arbitrary socket | 3 | proved: all socket behaviours and histories; C31_step_ignores_loss_refuted: a lost connection met while sending within step() is only reported by the next read |
| C32 | Garbage cursors and statements are closed exactly once | Conn | invariants over histories with an arbitrary socket | 3 | proved: cursors and statements trashed at any moment of push(), also while the batch is being made; that the Close batch is sent is by C32_batch_sent_once for batches which completed without a lost connection |
| C33 | sslmode=require never falls back to plaintext | Ssl | trace specification, all behaviours of the outside | 10 | proved: For all host lists and all behaviours of the outside per attempt (open, partial sends, answer byte, handshake, start-up outcome). The start-up conversation itself is one event here (C29, C30 treat it). Refuted part: an exception while asking for SSL or during the start-up leaves the socket open and aborts the remaining servers. |
| C34 | Streamed results contain every row exactly once, in order | Fetch | the rows given are those of the server, every run | 9 | partial: FetchAll (one transaction: call, first, COPY, rows/chunks without source): every run, whole. MultiXactStream at the level of the replies of the server's cursor. Refuted: after an error completed by another use of the connection, or after a caught exception, the stream ends silently (C34_stream_truncated_refuted) |
| C35 | DB-API cursor fetches deliver every row exactly once in order | Dbapi | delivered ++ buffered ++ remaining is constant | 4 | partial: Proved for all interleavings of fetchone, fetchmany with sizes >= 0 (or the default arraysize) and fetchall; fetchmany with a negative size is shown to repeat rows (C35_negative_refuted). The recursion limit of the interpreter is not modelled. |
| C36 | DB-API parameter conversion preserves the statement | Percent | induction on the parts of a statement | 8 | partial: Proved for every statement made of unquoted text (characters, %%, %s, %(name)s with names without parentheses) and closed quotations. The part of the property that is false is refuted: %% is only halved in unquoted parts with a placeholder, a digit after %s changes the parameter number, extra dictionary keys are refused. Other directives of Python's % operator (which raise in practice) are not modelled. |
| C37 | Transaction blocks nest and always leave the server where they found it | Xact | induction on programs against a model of the server | 7 | partial: for all programs with exceptions that are Exceptions; refuted for KeyboardInterrupt and the like |
| C38 | Settings cache and settings blocks are coherent with the server | Sett | simulation of the settings of a session | 16 | partial: for settings the server reports, and for all settings in histories without rollback or SET by SQL, spelled as the server does; refuted otherwise (7 counterexamples) |
| C39 | Advisory lock objects hold the server lock exactly while locked() is true | Alock | invariant between the object and the lock counters of the server | 10 | partial: Held exactly while locked() proved for every history with nested release excluded and uninterrupted acquires; failed non-blocking acquire leaves nothing behind; count/locked() for every history. Missing because false of the code: release() of a re-entered lock releases on the server at once (proved refuted), an interrupted blocking acquire keeps the locks taken so far (proved refuted). |
| C40 | COPY stream tracking is independent of chunking and counts messages exactly | Copy | invariance under cutting; invariant of the manager | 7 | proved: WireState and ProtocolProducer: any cut of the stream; well-formed CopyData messages (length field at least 4). Realignment included. |
| C41 | A failed receiver never affects the others in a COPY distribution | Copy | invariance under cutting; invariant of the manager | 9 | partial: Any behaviour of producer and receivers and any use of reconcile, without interrupts. Refuted parts: a receiver brought back after other data was distributed gets garbage (C41_late_reconcile_refuted); an interrupted transmission loses data of the others (C41_interrupted_refuted); an abandoned COPY may be reported as done (C41_abandoned_refuted). |
| C42 | Notifications are neither lost nor duplicated, idle events never overtake them | Notify | invariant over schedules and clocks | 13 | partial: Any schedule, any clock, any use of the connections in between; also iternotifies. Refuted parts: notifications received by the command which finds the connection failed are not given (C42_failed_connection_refuted); polling never looks at the wires (C42_poll_wire_refuted); an idle event may come although the connection already holds a notification (C42_idle_held_refuted); idle events are not guaranteed (C42_idle_guaranteed_refuted). |
| C43 | Client parameter precedence | Param | merge of sources, per key | 8 | partial: Precedence (options, service, environment, parameters, defaults), settings merging, password resolution, totality proved for every input, with os.path/configparser/getuser/prompt abstracted and posix defaults. Missing because false of the code: PGTZ/PGDATESTYLE/PGCLIENTENCODING/PGGEQO are documented but never yielded, PGREQUIRESSL=1 yields a tuple (both proved as _refuted). |
| C44 | Row transformation processes exactly the right columns and reports the failing one | Iter | induction on the list an iterator has left | 8 | proved: Complete characterisation of success, failure index and mismatch. |
| C45 | Every SQLSTATE maps to the most specific exception class | Exc | the generated class table, and a search specified separately | 7 | partial: Proved for every code string and the class table of the module; refuted for the 54xxx classes (derive from the builtin OverflowError) and 22019 (class statement replaced): C45_program_limit_refuted, C45_escape_character_refuted. |
| C46 | Chunking iterators lose nothing | Iter | induction on the list an iterator has left | 4 | proved: chunk, interlace and find characterised; chunksize 0 never ends. |
| C47 | A COPY FROM STDIN is always terminated | Inst | state machine; invariants, simulation by a protocol automaton, batching lemma | 2 | proved: Shape of everything sent, for every history. |
| C48 | From the socket to the results: every message of the server is given to exactly one transaction, in order | Conn | invariants over histories with an arbitrary socket | 4 | proved: connection after connect(); an interruption between the return of send/recv and the assignment of its result is not modelled |
| C49 | A DB-API connection's commit(), rollback() and autocommit delimit its transactions | Xact | induction on programs against a model of the server | 4 | partial: for all histories in which no COMMIT is refused; refuted after a refused COMMIT, and for commit() of a failed transaction |
| C50 | Setting subscriptions are delivered exactly to the subscribers | Sett | simulation of the settings of a session | 3 | partial: for callbacks which do not raise; refuted when one raises |
| C51 | Cursors read every row once, in order, from where they are; seek() and direction are as documented | Curs | simulation of a scrollable cursor | 14 | partial: all documented operations; refuted: seeks FORWARD/BACKWARD, 'ALL' and negative absolute positions with direction BACKWARD |
| C52 | Reading an ILF library gives the symbols its document describes | Lib | a grammar of documents as the specification | 6 | partial: Proved for all unambiguous documents. Refuted part: a SQL line between brackets is taken for a marker, and a preface line beginning like a reference raises TypeError |
| C53 | A bound library executes each symbol's own statement | Lib | a grammar of documents as the specification | 10 | partial: Proved except: a constant whose value is None is executed again at each read and constants/procedures are not resolved when the library is bound, as documented (C53_const_refuted) |
| C54 | A category binds its libraries under their names and never replaces an attribute | Lib | a grammar of documents as the specification | 6 | partial: Proved except: a conflict raises NameError rather than AttributeError, with part of the libraries bound (C54_conflict_refuted) |
| C55 | Rows are converted column by column | Tres | all catalogs, induction on the types | 3 | proved: Python implementation of process_tuple (the C one is optional). |
| C56 | Values of every type of the catalog are sent and read in the server's format | Tres | all catalogs, induction on the types | 8 | partial: Proved for a catalog that does not change while the connection is used. Refuted parts: a composite altered after its first use cannot be read any more on the connection (C56_altered_refuted); identify() has no effect on composites resolved before (C56_identify_refuted). |
| C57 | A prepared statement or cursor means its own query for as long as it lives, and is closed on the server when given up | Life | invariant over all histories of names and closings | 11 | proved: messages served in order and once (C25, C48); user statements managing names themselves (DEALLOCATE, DISCARD, PREPARE, CLOSE) left out; C57_user_names_refuted shows the exception |
| C58 | The exception raised for a server error carries what the server sent | Mesg | case analysis over all fields, invariants over histories | 6 | partial: Proved for every error with a code and a message. Error.fatal is refuted where the server localizes severities (C58_fatal_localized_refuted). |
| C59 | Every notice reaches the hooks once, in order, attributed to the request it belongs to | Mesg | case analysis over all fields, invariants over histories | 9 | partial: Proved for the messages processed while a request runs. Warnings with a localized severity are refuted to be of a Warning class (C59_localized_refuted). Messages received while take_out_trash closes names and notices of the negotiation never come to _receive_async (see DESIGN.md). |
| C60 | An error position is shown on the right line and character | Mark | induction on the text; an SQL reader as specification | 2 | proved: Positions of characters that are not themselves part of a line break; every such character is covered (C60_everywhere). |
| C61 | notify() sends exactly the notifications asked for | Mark | induction on the text; an SQL reader as specification | 4 | partial: Proved for notify(). listen() and unlisten() are refuted: they do not quote (C61_listen_refuted); C61_listen_partial says what they send. |
| C62 | The text of an exception shows the message, code, place and every detail | Mark | induction on the text; an SQL reader as specification | 2 | proved: The description of the creator (format_element) that follows is a parameter. |
| C63 | Loading rows executes the statement once per row, in whole chunks | Load | outcome relation over all sources and replies | 11 | partial: Proved except for two parts that do not hold: an exception of the iterable hides an error of the server for the chunk under way (C63_error_lost_refuted), and every execution asks for one row only (C63_row_limit_refuted). |
| C64 | Loading by COPY sends every line once and never ends the data early | Lcopy | outcome relation over all sources and replies | 6 | partial: all proved but one part: the error of a COPY whose iterable raised is raised by the next, unrelated operation (C64_next_refuted) |
| C65 | first() gives the first row, the row count or the command of the statement | First | outcome relation over all replies | 5 | proved: first(): findings: single-column unpack errors are not wrapped in ColumnError, a zero-column result takes the count path, a closed statement is not refused |
| C66 | An installation is described as pg_config describes it | Pgc | a grammar of the output of pg_config | 12 | partial: refuted parts: a trailing dash or quote of an option value is stripped, a quote quoted by configure is misread, Installation() of a packaged version (three words) raises ValueError, includedir_server is never found since pg_config prints INCLUDEDIR-SERVER, an option ending its --help line loses a character |
| C67 | A temporary cluster's context provides its own connection, and only there | Tmp | histories of nested contexts | 10 | partial: refuted parts: builtins that had a value before the outermost context are deleted instead of restored (membership is tested in the pair), new is never removed (newdb is), a failing close keeps other connections and the schema, an interrupt during __enter__ leaves the context pushed |
| C68 | close() ends a connection once and for good | Cls | invariant over all histories | 11 | partial: Proved over all histories; what is false of the code is shown by C68_reconnect_refuted and C68_revived_refuted (pq.synchronize() is excluded where it matters). The start-up queries of _establish are operations like others; fileno is not modelled. |
| C69 | Signals go once to the server's process, and running() reports what was just seen | Clu | an arbitrary environment as functions of the history of events; exact relational view of each call | 4 | partial: proved for every environment; C69_signal_refuted: a child that has ended is still signalled |
| C70 | Starting makes one server, and waiting for it ends when it answers | Clu | an arbitrary environment as functions of the history of events; exact relational view of each call | 7 | partial: start, wait_until_started, restart proved for every environment; refuted: start(settings), default configuration, failing with block |
| C71 | Files are removed only after the server is down, and then all of them | Clu | an arbitrary environment as functions of the history of events; exact relational view of each call | 8 | partial: wait_until_stopped, drop, and the removal of every tree proved; refuted: race for servers that are not children, links to directories |
| C72 | Creating a cluster passes every option and never leaves the password | Clu | an arbitrary environment as functions of the history of events; exact relational view of each call | 3 | proved: init proved for every environment |
| C73 | A cluster is connected to at the address its configuration gives | Clu | an arbitrary environment as functions of the history of events; exact relational view of each call | 4 | partial: address and connect proved; refuted: blanks in listen_addresses |
| C74 | A request for crypt authentication is answered with crypt(3) of the password | Cryp | symbolic words: both the code and FIPS 46-3 are computed on linear forms; S-box tables compared entry by entry | 7 | proved: for a password with a zero byte the C function differs (C74_nul_refuted) |
| C75 | Connectors try exactly the addresses their parameters name | Ctor | all parameter dictionaries; the server reading the packet as specification | 9 | proved: driver.fit and the connectors; getaddrinfo, inet_aton and inet_pton are arbitrary functions |
| C76 | The startup packet gives the server exactly the session parameters | Ctor | all parameter dictionaries; the server reading the packet as specification | 6 | partial: startup parameters, password and wire reading proved; refuted parts: C76_no_path_refuted, C76_pairs_path_refuted, C76_nul_refuted (faults of the code) |
| C77 | open() takes every parameter from the keywords, the IRI, the service, the environment or the defaults, in that order | Ctor | all parameter dictionaries; the server reading the packet as specification | 4 | proved: open() up to the call of driver.fit; os and file access are arbitrary functions |
| C78 | A stored procedure is called with its own statement and answers as it is declared | Proc | all functions of the catalog; the SQL text as specification | 6 | partial: the statement and calls are proved for positional arguments; keyword arguments and character arguments are refuted |
| C79 | float4 and float8 are exchanged as IEEE 754 numbers | Flt | IEEE 754 encodings defined by their value; rounding by distance | 10 | proved: struct's d and f formats against an independent definition of IEEE encodings |
| C80 | Geometric values keep their coordinates | Geo | order of the values of floats | 8 | partial: all proved except boxes with NaN, refuted |
| C81 | A prepared statement describes itself, and says which value could not be converted | Stmt | every conversion an arbitrary partial function; first failing position as specification | 14 | partial: refuted in part: column() reports TypeError for failing values and NULLs (C81_column_refuted, C81_column_null_refuted), the report of cursor_from_id's cursors is an AttributeError (C81_cursor_refuted), input formats are always binary (C81_input_format_refuted); the rest is proved in full |
| C82 | Rows as namedtuples have one field for each column | Nt | induction over the names with the set of those seen; invariant of the type cache over all histories | 10 | partial: proved in full for ASCII column names; refuted in part: NamedTupleFactory with repeated column names (C82_repeated_refuted), names equal after NFKC (C82_normalized_refuted) |
| C83 | A configuration file is changed only by a complete edit that was computed before it is touched | Cfile | the file as a value, every step may be the last; frame conditions on the other lines | 11 | partial: refuted: the file is emptied before it is rewritten, so a crash loses every setting (C83_crash_refuted); leaving a with block raises AttributeError and restores nothing (C83_block_refuted); iteration raises TypeError (C83_iter_refuted); pg_dotconf -f raises NameError (C83_dotconf_file_refuted) |
| C85 | An element traceback shows every object that led to an error, once, and always ends | Elem | visited objects as measure of termination; the text as an inductive layout of lines | 5 | partial: refuted: prime_factors() looks for the name of the first object's prime factor in every object, so it does not give the chain of prime factors (C85_prime_factors_refuted); ElementSet not modelled |
| C84 | A procedural code block reaches the server exactly as it was given | Do | lexing of the message the server receives, determinism of the reading | 5 | partial: refuted for texts with a NUL (C84_nul_refuted) and for servers with standard_conforming_strings off (C84_nonstandard_strings_refuted); the replies to the Query are XactModel's |
| C86 | Interrupting a connection sends one cancel request over its own socket and leaks none | Sock | all environments: every call of the socket module may fail in any way | 8 | partial: refuted: a KeyboardInterrupt leaks the socket (C86_leak_refuted), the timeout does not limit sending (C86_limit_refuted), the interface is ignored (C86_interface_refuted), socket.timeout is not fatal (C86_timeout_refuted) |
| C88 | A Python command runs exactly the code it was told to, in order, and gives the script's exit code | Pyx | the code that runs is an arbitrary function on the state of the interpreter | 7 | partial: refuted: SystemExit in -C code (C88_context_exit_refuted), absent modules become None (C88_absent_refuted), os.environ is replaced by a dict (C88_environ_refuted) |
| C89 | pg_python leaves the interpreter's builtins and the server in order | Pyx | the code that runs is an arbitrary function on the state of the interpreter | 6 | partial: refuted: names that were not in builtins stay as None (C89_builtins_refuted), the library path is not restored after a normal end (C89_libpath_refuted) |
| C87 | An XML value is sent whole in the session's encoding and received as elements | Xml | induction over the items with the UTF-8 codec defined and proved against the table of the standard; library and session codec arbitrary | 9 | partial: sending proved for every value, codec and library; received values proved; refuted: tuples of one element and text at the top level do not come back (C87_roundtrip_refuted) |
| C90 | The console runs its backslash commands, and only those, itself | Cons | environment as functions of the event history; relations for what the words and files of a command do; invariant for temporary files | 12 | proved: the help text is one event; executed code is taken not to change os.environ; shlex, the editor, files and Python are arbitrary functions of what was done before |
| C91 | Bit strings behave as the sequences of their bits | Bit | bytes of eight bits by reflection on all eight-bit texts, induction over the rest | 11 | partial: refuted: a single bit against other lengths raises (C91_equal_refuted), empty slices of a single bit (C91_slice_refuted), truth (C91_truth_refuted), iteration (C91_iterate_refuted), texts of int() (C91_text_refuted) |
| C92 | A DB-API cursor describes the last statement that was executed | Desc | induction over histories, newest operation first | 7 | partial: refuted: callproc() and nextset() leave the description of another statement (C92_callproc_refuted, C92_nextset_refuted); several types have no type code (C92_type_refuted) |
| C93 | pg_python understands its command line in every spelling, and exactly those | Opt | a relation of the ways to write each option; the parser is proved to accept exactly the lines of that relation and to mean what they say | 6 | partial: exactly the lines written as described are understood, whatever the spelling, order or abbreviation, and mean what they say; after -c and -m everything is the program's; the last option for a parameter decides it in collect(); an unknown letter is a usage error.  Refuted: a setting without = ends in a NameError instead of a usage error. |

## What is modelled

The head of each model file, which says what it covers and what it leaves out:

* Base.v: Python values and exceptions shared by every model. - bytes are [list Z] whose items satisfy [is_byte]; - a Python call that may raise returns [res A]; - [be]/[unbe] are the big-endian integers of the [struct] module ("!" formats, /repo/postgresql/python/structlib.py:11-20).
* PBufferModel.v: /repo/postgresql/protocol/pbuffer.py (pure Python message buffer). A [BytesIO] is its contents and its position.
* Element3Model.v: /repo/postgresql/protocol/element3.py (protocol 3 messages) and /repo/postgresql/protocol/version.py. The pure Python definitions of pack_tuple_data, cat_messages and Tuple.parse are modelled. repr(), __eq__, Void, WireMessage, ClientNotice and ClientError are not.
* PyList.v: Python sequence indexing and slicing with negative indices.
* IterModel.v: /repo/postgresql/python/itertools.py and the tuple processors of /repo/postgresql/python/functools.py (pure Python definitions). An iterator is the list of the items it has left.
* TypeIOModel.v: binary type I/O: /repo/postgresql/types/io/lib.py (record, array, vectors, varbit, net, macaddr), /repo/postgresql/python/structlib.py (integers, split_sized_data), /repo/postgresql/python/itertools.py (interlace, chunk), /repo/postgresql/types/io/contrib_hstore.py, stdlib_jsonb.py, builtins.py, pg_bitwise.py, pg_network.py and /repo/postgresql/types/bitwise.py. Floating point codecs are not modelled.
* NumericModel.v: numeric <-> decimal.Decimal, /repo/postgresql/types/io/stdlib_decimal.py and lib.py:37-41.
* DatetimeModel.v: date and time type I/O, 64-bit integer format: /repo/postgresql/types/io/stdlib_datetime.py, the time part of /repo/postgresql/types/io/lib.py and /repo/postgresql/python/datetime.py. Python's datetime module (not part of the repository) is represented so: - date: its ordinal ([toordinal], 1 = 0001-01-01 .. 3652059 = 9999-12-31); - naive datetime: (ordinal, second of the day, microsecond); - aware datetime: the local datetime and the utc offset, a timedelta; - time: (hour, minute, second, microsecond), tzinfo separately; - timedelta: the normalised triple (days, seconds, microseconds). The float formats (FloatTimes, stdlib_datetime.py:216-245) are in FdtModel.v.
* NegModel.v: connection negotiation, /repo/postgresql/protocol/xact3.py:85-264 (class Negotiation) and Closing (57-83). A server message is a pair (type byte, body). Object identity of a batch of messages ([messages is self.received[-1]]) is an integer naming the object; 0 names the empty tuple. The MD5 and crypt functions are parameters: [md5hex b] is md5(b).hexdigest().encode('ascii').
* InstModel.v: protocol transactions, /repo/postgresql/protocol/xact3.py:266-716 (class Instruction). The pure Python put_tupledata (657-679) is modelled. A server message is a pair (type byte, body). The identity of a batch of messages ([messages is self.last[0]], [id(messages)]) is an integer naming the object; 0 names the empty tuple. CopyData results (bytes) are [MCopyData], row results (tuple) are [MTuple]. asynchook is represented by the list of the messages it was called with; an exception it raises is swallowed by the code (528-533). repr() and reverse() are not modelled.
* PyStr.v: the Python str methods used by the modelled code. A str is the list of its code points ([list Z]).
* PyStrProof.v: facts about the str methods.
* RegexModel.v: Python's backtracking regular expressions (module re), the part used by /repo/postgresql/string.py:52-57 and /repo/postgresql/driver/dbapi20.py:28-31. Alternatives are tried in order, [*] and [?] are greedy, [*?] is lazy, a failing continuation makes the matcher backtrack. One capture group.
* StrModel.v: /repo/postgresql/string.py (quoting, splitting).
* PyInt.v: Python's int(text, base) (CPython PyLong_FromUnicodeObject) and str(int). Python library, not part of /repo: the modelled code calls it on version numbers, octal escapes, row counts and ports.
* ByteaModel.v: /repo/postgresql/encodings/bytea.py
* VersionModel.v: /repo/postgresql/versionstring.py
* PgPassModel.v: /repo/postgresql/pgpassfile.py
* RIModel.v: /repo/postgresql/resolved/riparse.py
* PyDict.v: Python dictionaries with str keys, as association lists in insertion order. [d[k]], [d[k] = v], [k in d], [del d[k]], [d.update(e)].
* IRIModel.v: /repo/postgresql/iri.py
* ConfModel.v: /repo/postgresql/configfile.py
* ArrayModel.v: Array and Row of /repo/postgresql/types/__init__.py
* ExcModel.v: /repo/postgresql/exceptions.py, the lookup of an exception class by code
* ExcTable.v: the class statements of /repo/postgresql/exceptions.py:38-678, in order; generated by tools/mkexc.py. A class is identified by the line of its statement; 34 is Message (imported on that line; message.py:10-33). Bases that are builtins of Python are left out: they have no code.
* ParamModel.v: /repo/postgresql/clientparameters.py
* AlockModel.v: /repo/postgresql/alock.py and the advisory lock statements of /repo/postgresql/lib/libsys.sql
* DbapiModel.v: the fetching interface of /repo/postgresql/driver/dbapi20.py
* PercentModel.v: the pyformat parameters of the DB-API module, /repo/postgresql/driver/dbapi20.py (percent_parameters, convert_keywords, Cursor._convert_query and the parameter part of Cursor.execute).
* ConnModel.v: /repo/postgresql/protocol/client3.py, class Connection: reading, writing, push, step, complete, synchronize and the closing of garbage. The transactions are the Instructions of InstModel.v, the message buffer is that of PBufferModel.v. The model starts where connect() has succeeded. Not modelled: tracing (75-90, 333-363), interrupt (106-112), __str__, the messages of the errors. The socket is given by what send() and recv() will do, one outcome per call. When no outcome is left the call is interrupted (KeyboardInterrupt while waiting): the exception is none of those caught and it leaves the connection as it is. An interruption between the return of send()/recv() and the assignment of its result is not modelled.
* SslModel.v: establishing a connection: /repo/postgresql/protocol/client3.py:114-222 Connection.connect and negotiate_ssl, and /repo/postgresql/driver/pq3.py:2436-2560 Connection._establish (up to the choice of a server; the reading of the server's version and the like that follow, 2561-2603, are not modelled). What the outside does in one attempt is a record; the start-up conversation itself (self.complete(), see NegModel.v and ConnModel.v) is here one event with an outcome.
* FetchModel.v: /repo/postgresql/driver/pq3.py:837-1045, the results of statements: FetchAll (SingleXactFetch, SingleXactCopy), MultiXactStream (MultiXactInsideBlock, MultiXactOutsideBlock), and the choice between them in Statement (1565-1640). The protocol transactions are those of InstModel.v. Not modelled: the conversion of the rows (_process_chunk; see C44, C14, C15), the registration of cursors for closing (C32), the element tracebacks.
* CopyModel.v: /repo/postgresql/copyman.py, the management of COPY: the tracking of the wire (WireState, ProtocolProducer), the receivers, and the CopyManager. Not modelled: StatementProducer.confiscate (it takes what the connection holds and calls track_state, modelled, with it) and StatementReceiver.__enter__/__exit__ (what they do to the connection: C25-C28, C47); the element descriptions.
* NotifyModel.v: /repo/postgresql/notifyman.py, NotificationManager, and driver/pq3.py:2716-2723 Connection.iternotifies. A connection is a number; [raw] is a NotificationResponse as the connection holds it, [note] is the (channel, payload, pid) of it, [decode] makes one from the other (notifyman.py:126-129: it raises if the text is not valid in the client's encoding). Times are integers (in any unit). A set of connections is a list (without an assumed order). Subclasses which override trash() and queue() are not modelled.
* XactModel.v: /repo/postgresql/driver/pq3.py:2098-2262 Transaction; its use by with-blocks; and driver/dbapi20.py:331-404, the transaction of a DB-API connection. The server is modelled by the documented behaviour of the transaction commands of PostgreSQL. Not modelled: two-phase commit ("prepared" is a state the object never has); transaction commands the user sends himself.
* SettModel.v: /repo/postgresql/driver/pq3.py:1936-2095 SettingsCM and Settings, and the SQL of lib/libsys.sql:130-159 they run, over a model of the settings of a PostgreSQL session. Not modelled: custom settings (names with a dot); SET LOCAL; values which are not str.
* CursModel.v: /repo/postgresql/driver/pq3.py:98-113, 715-740, 1065-1224 Cursor: read, next, seek, direction; api.py:223-229 the map of whence. The server side is a scrollable cursor over a fixed list of rows (declare() makes it INSENSITIVE SCROLL ... WITH HOLD), by the documented behaviour of FETCH and MOVE. Not modelled: errors of the server (a failed transaction, a closed cursor), the conversion of rows, the count seek() returns.
* LibModel.v: /repo/postgresql/lib/__init__.py: the INI Library Format, symbols, bindings and categories. Not modelled: ModuleLibrary (the name is undefined in the package), subjective symbols (383-391: an ILF only has Symbols), load() and find_libsql (the file system), the arguments of the calls (they are passed on as they are).
* TresModel.v: the resolution of types, TypeIO of /repo/postgresql/driver/pq3.py, and process_tuple of /repo/postgresql/python/functools.py
* LifeModel.v: the life of prepared statements and cursors: the names given to them, their registration, close(), their collection by Python, and the closing of what is no longer used on the server. driver/pq3.py: ID 75-77, Output 616-665, 672-750, Chunks and Cursor 986-1060, 1074-1130, Statement 1331-1345, 1482-1512, 1545-1560, 1577-1600, 1660-1680; protocol/client3.py: take_out_trash 365-383, push 385-406, register and trash 487-507. The driver is cut into steps so that the collection of an object (and the callback of its weak reference) can come between any two of them. The messages of an instruction are given to the server in their order, once, and the instruction is complete when all were processed: C25 and C48 are about that part. Query texts composed by the driver (DECLARE .. WITH HOLD FOR .., FETCH ..) are represented by what they say. User statements that manage names themselves (DEALLOCATE, DISCARD, PREPARE, CLOSE) are left out.
* MesgModel.v: /repo/postgresql/driver/pq3.py 47-65, 167-174, 501-615 and 2603-2662, message.py, encodings/aliases.py, python/element.py prime_factor: how errors and messages of the server become Python objects and reach the user.
* MarkModel.v: /repo/postgresql/driver/pq3.py 1264-1308 (the LINE entry of Statement._e_metas) and 2668-2719 (notify, listen, unlisten); message.py 19-30, 102-118 and sys.py:29-52 (the text of an exception)
* LoadModel.v: /repo/postgresql/driver/pq3.py:1781-1846, the loading of rows with a prepared statement: Statement.load_rows, load_chunks and _load_tuple_chunks, with _pq_push and _pq_complete (2603-2624) of the connection and PQ.synchronize (client3.py:93-104). _load_copy_chunks is in LcopyModel.v. Requests are lists of protocol messages. How a request and its answer travel, and how the answer makes the attributes fatal and error_message of its protocol transaction, is C25-C32; here a request gets an answer: done, an ERROR of the server, or the loss of the connection (FATAL errors included). Not modelled: the closing of discarded statements and cursors that push() does in between (C57), the type resolution, a row that is not a sequence.
* LcopyModel.v: /repo/postgresql/driver/pq3.py:1729-1779, Statement._load_copy_chunks: a COPY ... FROM STDIN fed from an iterable. The protocol transaction is that of InstModel.v; what the connection reads is given as in FetchModel.v; the sending number i is taken as a whole, or only the first messages of it and the connection is lost. Not modelled: what was pending on the connection before, the closing of discarded statements, the synchronize() at the end (1779, see LoadModel.v), a line that is not bytes.
* FirstModel.v: /repo/postgresql/driver/pq3.py:1641-1727, Statement.first. The protocol transaction is that of InstModel.v, the connection that of FetchModel.v. Not modelled: the _fini() of a statement that was interrupted while it was prepared (C57), what was pending on the connection before (C31). The row constructor (RowTypeFactory, C15) is left out: a Row is the list of its values.
* PgcModel.v: /repo/postgresql/installation.py (what pg_config says about an installation) and python/os.py
* TmpModel.v: /repo/postgresql/temporal.py, the contexts of a temporary cluster (push, pop, __enter__, __exit__)
* ClsModel.v: /repo/postgresql/driver/pq3.py:2362-2445 (closed, close, state, connect of the driver's Connection), 2603-2636 (_pq_push, _pq_complete, _pq_step) and /repo/postgresql/protocol/xact3.py:57-83 (Closing), over the protocol connection of ConnModel.v. What _establish does until self.pq is assigned is modelled in SslModel.v and is here an outcome; the queries it makes afterwards (2561-2601) are operations like any other, and when one raises, connect() calls close() (2440-2444). Not modelled: the fileno attribute, the texts of the errors.
* CluModel.v: /repo/postgresql/cluster.py, the control of a cluster (start, stop, kill, restart, the waits, drop, init, address, connect). What is outside of the process, the file system, the processes, the clock and the server, is an [env]: the answer it gives to a question may depend on all that happened before (the history), so quantifying over environments is quantifying over everything other processes may do between any two system calls. Times are integers (of any unit). Signals are sent with os.kill (POSIX). A loop runs [fuel] times at most and then ends with [XFuel].
* CrypTable.v: the tables of /repo/postgresql/resolved/crypt.py, generated by tools/mkcrypt.py
* CrypModel.v: /repo/postgresql/resolved/crypt.py, the crypt() with which a password is answered to a server that asks for "crypt" authentication (protocol/xact3.py:203-204). Integers are those of Python: they are unbounded, and a negative one (the struct format is signed) has infinitely many leading ones. Bytes are numbers 0..255.
* CtorModel.v: from the parameters to the connector: driver/pq3.py:2741-3050 (Connector, SocketConnector, IP4, IP6, Unix, Host, Driver.fit), api.py:1102-1130 (Connector.__init__), __init__.py:38-94 (open).
* ProcModel.v: stored procedures. /repo/postgresql/driver/pq3.py:1847-1932 (StoredProcedure), 203-213 (TypeIO.sql_type_from_oid), types/__init__.py:100-133 (oid_to_sql_name), 136-225 (oid_to_name). The prepared statement is given by two functions: what calling it gives, and what its rows() gives (an iterator, as a [src]).
* FltModel.v: floating point numbers on the wire. /repo/postgresql/python/structlib.py:12-27 (struct.Struct('!d'), '!f', '!dd', '!ddd', '!dddd'), types/io/builtins.py:30-50 (float4, float8), types/io/lib.py:9-31. A Python float is a binary64 number of Coq's SpecFloat (all NaNs are one: Python does not tell them apart either). Only floats are packed here; that struct converts integers and objects with __float__ first is not modelled.
* GeoModel.v: geometric types. /repo/postgresql/types/geometry.py:7-192, types/io/pg_geometry.py:13-44, types/io/lib.py:28-31. Coordinates are floats; float(x) of other numbers is not modelled.
* FdtModel.v: date and time type I/O in the floating point formats (servers with integer_datetimes off): /repo/postgresql/types/io/lib.py:66-71, 76-79, 85-88, 93-134, 180-197, structlib.py '!d', '!dl', '!dll', types/io/stdlib_datetime.py:56-61, 72-75, 210-245. The arithmetic is that of IEEE 754: the exact result, rounded to the nearest binary64 number, ties to even.
* StmtModel.v: the description of a prepared statement, and the conversion of its parameters and columns. /repo/postgresql/driver/pq3.py:1353-1410, 1416-1480, 1515-1562 (Statement), 751-840 (Output), 1564-1590 (Statement.__call__), 188-192, 200-201, 220-226, 402-403 (TypeIO), 501-516 (raise_client_error). Python values are of an abstract type. The resolution of the I/O functions (which may need further queries) is C56: here it is a function of the oid. repr() of a value is taken to return.
* NtModel.v: rows as namedtuples, /repo/postgresql/types/namedtuple.py:1-67, with Python's collections.namedtuple(..., rename=True). Values are of an abstract type. A type made by namedtuple is its number, in the order of creation, and its fields.
* CfileModel.v: configuration files on disk: /repo/postgresql/configfile.py:217-315 (ConfigFile), bin/pg_dotconf.py:10-78 (command). The file is seen by other processes, and by a restart after a crash, in every state that it passes through: [disk] is its content, [seen] are the contents since the last operation began, oldest first. Whatever the operating system does is a parameter: opening or reading may raise; opening for writing empties the file; Python's buffer reaches the file in pieces; writing and closing may raise. (A loss of power, after which not even these contents need be left, is not modelled.) Names with U: Unicode.
* ElemModel.v: element tracebacks: /repo/postgresql/python/element.py:97-230 (prime_factor, prime_factors, format_element), python/string.py:6-11 (indent). Objects are numbers; what the attributes of an object are is a parameter. os.linesep is a line feed. Not modelled: ElementSet (its metas format further elements), _e_metas that raise, and objects whose attributes change while they are read.
* DoModel.v: /repo/postgresql/driver/pq3.py 2310-2324, Connection.execute and Connection.do. The session encoding (self.typio._encode, 177, a codec looked up by name) is a parameter [enc]. execute hands one message, a Query, to a protocol transaction; what that transaction does with the replies is in XactModel.
* SockModel.v: sockets outside of a connection: /repo/postgresql/python/socket.py (SocketFactory.__call__, try_again, fatal_exception_message, timed_out, find_available_port) and protocol/client3.py:106-112, Connection.interrupt. A call of the socket module is an operation whose outcome the environment decides from all that happened before. Exceptions are of class Exception (RExc) or not (RBase: KeyboardInterrupt and the like); a close() that raises has released the descriptor. Addresses and socket_create arguments are opaque. Not modelled: SocketFactory.secure and _security_context (SslModel has the negotiation).
* PyxModel.v: Python commands: /repo/postgresql/python/command.py:57-129 (loaders), 134-160 (the -C and -m/-c options), 375-404 (postmortem), 406-603 (Execution) and /repo/postgresql/bin/pg_python.py:42-134 (command). The code that is run is an arbitrary function on the [world], which is what it can reach of the interpreter; so is a console, and the postmortem object. Files and modules are found by an [env], whose answers may depend on all that happened before. Lists and dicts are values: a list or dict that is changed in place behind a reference kept by the command is not modelled; nor is sys.path, nor the texts of reports. optparse is the standard library's (ClientParamModel has the options of the connection).
* PyxSpec.v: what code a command is made of, and what is read off the events.
* PyxProof.v
* PyxProps.v: C88 (python commands) and C89 (pg_python).
* XmlModel.v: /repo/postgresql/types/io/stdlib_xml_etree.py (the branch for an etree with tostringlist, i.e. Python 3.2 and later) with Python's own UTF-8 codec and xml.etree.ElementTree.
* ConsModel.v: /repo/postgresql/python/command.py 193-401 (ExtendedConsole) with Python's code.InteractiveConsole.push. Simplified: the executed code and Python source change neither os.environ nor the console; what a command writes is the event of its writing; the help text (showhelp, 257-268) is one event; commands registered by others are not there; tempfile.mktemp always finds a name.
* BitModel.v: /repo/postgresql/types/bitwise.py: the constructors from any text, comparison, slices, truth and iteration. An object is the pair (bits, data) as in TypeIOModel.v (139-202); it is one of the two Bit objects exactly if bits is 1 (from_bits, 4-12).
* DescModel.v: /repo/postgresql/driver/dbapi20.py 63-80 (dbapi_type), 130-140, 164-183, 255-309: what a DB-API cursor says of its statements. The fetching is DbapiModel's.
* OptModel.v: the command line of pg_python: /repo/postgresql/clientparameters.py:219-367, python/command.py:141-204 (the options), bin/pg_python.py:20-42. optparse.OptionParser.parse_args (Python 3.11) is modelled with them; the texts of the messages are left out.

## What is not modelled

* `port/` (the C extension and signal1_msw), `release/`, `documentation/`, `test/`, `bin/`, `python/command.py` (the interactive console), `python/msw.py`, `python/decorlib.py`, `python/doc.py`.
* `types/io/stdlib_xml_etree.py` (a wrapper around xml.etree), path and polygon (no type I/O registered), `types/io/pg_system.py`.
* `api.py`: abstract classes and documentation; `exceptions.py`: only the class table and the lookup.
* `repr` and `_e_metas` descriptions except the LINE mark (C60) and the text of exceptions (C62); warnings.
* Threads: every call is atomic with respect to other threads. Interrupts (KeyboardInterrupt) are modelled where the property speaks of them
  (C37, C39, C41, C48, C67, C68), at the calls to the outside.
* Memory limits, recursion limits, and the timing of the garbage collector (C57 lets collection happen at any moment).

## Findings

Where the code does not keep what its documentation or its users may expect, the model shows it: either a theorem `Cnn_..._refuted`
(a concrete execution of the model that breaks the full statement) or a note here of something seen while the model was written.

**Protocol, connection**
* `step()` after a send that failed fatally lets `op()` overwrite `Complete`; end of file in `put_copydata`/`put_tupledata` raises IndexError; a failing `cat_messages` makes the connection fatal for ever.
* Equal asynchronous messages in one batch are delivered once (C28_exactly_once_refuted); a `put` that raises has its batch's messages delivered again.
* Results of the batch in which an error ends a transaction are dropped (C26).
* Asynchronous messages received while trash is taken out or in `synchronize()` are dropped silently (the default asynchook); notices of the negotiation too.
* The message that confirms a password is not checked to be an authentication message (C30).
* SSL: with `prefer` a failing handshake never falls back; an error raised while negotiating aborts all further hosts and leaks the socket (C33); `PROTOCOL_TLS_CLIENT` without CA always fails verification.
* `load_rows`' handler calls `synchronize()`, which replaces a fatal transaction: a connection reported closed can become open again (C68_revived_refuted), and Sync may follow Terminate; `connect()` after a failed connect raises AttributeError (C68_reconnect_refuted).

**Types**
* NaN numerics can neither be sent nor received (C07); dates: the last and first values coincide with the infinities, timestamptz infinities are naive, timetz offsets lose their seconds and have the wrong sign for the server, 24:00:00 is unreadable (C08).
* `pack_tuple_data`-level and parse strictness: negative column counts, negative array element sizes (endless loop), truncated elements accepted (C05, C09, C11); oidvector/int2vector packing and `Varbit.getbit` always raise (C12); host addresses are sent with prefix 0 (C13); `Varbit.__nonzero__` is Python 2, so bool(ZeroBit) is True.
* Array: integer indexes -1, len and below of multi-dimensional arrays raise ValueError, strings are taken as rows (C14); Row: get(-len) is None, repeated column names misalign items() (C15).
* Float date/time formats: a time may come back one microsecond less (C08_float_refuted), far timestamps up to 31 off, the last microseconds of year 9999 cannot be read back.
* Box: a NaN coordinate comes back with its corners exchanged (C80_nan_refuted), 0.0 and -0.0 may be exchanged; `Point.__div__` is Python 2 and its formula is wrong.
* TypeIO: pairs cached for ever, so ALTER TYPE makes a composite unreadable (C56_altered_refuted); identify() after use has no effect on composites (C56_identify_refuted); the anonymous record pair is a 2-tuple (type_from_oid IndexError); type_from_oid of an uncached oid raises UnboundLocalError.
* Stored procedures: arguments of type bpchar are cast to CHARACTER, i.e. character(1), and so cut (C78_character_refuted); keyword arguments always raise (C78_keywords_refuted).

**Statements and cursors**
* MultiXactStream ends silently when its failed request was completed by another operation or after its own exception (C34_stream_truncated_refuted); if `_pq_push` raises in `__next__` the new request is never sent; chunks() may yield empty lists.
* column() of a column with a NULL, or with a value that cannot be converted, raises TypeError from `next(range)` (C81_column_null_refuted, C81_column_refuted); conversion errors of cursor_from_id's cursors raise AttributeError (C81_cursor_refuted); first(): errors of a single column are not wrapped, a closed statement is not refused; `_fini` always uses binary input formats (`x is None` tests an oid); line 1120 `_output_attmap` is a zip, not a dict; cursor_from_id calls `_init` twice; `Statement.__call__` does not check closed, chunks()/declare() of a closed statement still work outside a block; two statements with the same user-given name share it (C57_user_names_refuted).
* Cursor with direction BACKWARD: seek FORWARD/BACKWARD k becomes ABSOLUTE k, 'ALL' and negative absolute positions are not inverted (C51).
* Loading: an exception of the iterable hides the server's error of the chunk under way (C63_error_lost_refuted), Execute asks for one row only, load_rows on a parameterless statement that is no COPY executes it once and then raises '--OPE', chunksize 0 never ends; a COPY whose iterable raises leaves its transaction, so the next operation raises (C64_next_refuted).
* copyman: late reconcile sends garbage, an interrupt loses other receivers' data, an abandoned COPY may be reported as done (C41); StatementProducer.confiscate raises AttributeError; a malformed length below 4 leaves WireState stuck.
* notifyman: see C42's refuted theorems. alock: release() of a re-entered lock drops the server lock; an interrupted acquire keeps locks (C39).
* Transaction: the messages for ';' in isolation/mode are swapped; a BaseException leaves the transaction open (C37). DB-API: a refused COMMIT leaves an autocommit-like state, commit() of a failed transaction silently rolls back (C49); fetchmany(-1) repeats rows (C35); `%%` is halved only in unquoted parts with a placeholder, `%s0` becomes `$10`, extra dictionary keys are refused (C36).
* Settings: the cache is stale after a rollback or a SET by SQL of unreported settings (and then setting the remembered value sends nothing), spellings have separate entries, the documented `with db.settings(...)` of an unset name raises KeyError, `del settings.path` keeps the cache, the empty path is unreadable, settings[k] = None does nothing if uncached, a raising callback leaves a stale value (C38, C50).
* Messages: localized severities give plain Message and fatal False (the 'V' field is unknown) (C58, C59); a stale `_controller` keeps objects alive; an error position at the end of the text marks its last character; listen/unlisten do not quote (C61_listen_refuted).
* Exceptions: the 54xxx classes derive from the builtin OverflowError and are never found; the class of 22019 is replaced by a second EscapeCharacterError (C45).

**Connecting**
* A NUL in user, database or settings brings further parameters into the startup packet (C76_nul_refuted); search_path None in a dict is sent as 'None' (and popped from the connector's settings); search_path as a list in settings given as pairs is not joined; unknown keywords are ignored; address_family is ignored for numeric addresses; `[ipv]=4` of an IRI is a str and refused; PGHOST starting with '/' is a host name; crypt() does not end a password at a zero byte (C74_nul_refuted).
* clientparameters: PGTZ, PGDATESTYLE, PGCLIENTENCODING, PGGEQO are never yielded, PGREQUIRESSL gives a tuple (C43).
* IRI, password file, version strings, bytea codec, string splitting, configuration file: see the refuted theorems of C17-C24.

**Cluster, installation, temporal, libraries**
* start(settings) AttributeError (tuple.append); ready_for_connections/wait_until_started raise TypeError when listen_addresses or port is not explicit in postgresql.conf; stop/kill signal the number of an already reaped child; a stale or negative pid in the pid file is signalled (-pid: a process group); any IOError on the pid file is "absent", an empty pid file raises ValueError; wait_until_stopped on a server that is no child races (TypeError or ProcessLookupError); a failing `__enter__` leaves the server running; drop fails on links to directories; blanks in listen_addresses hide the preferred hosts; a child that ended leaving its pid file gives "has not been started"; repr(cluster) raises KeyError; the 'stdout' detail of InitDBError is stderr; the pg_ctl initdb fallback gets -E, unknown to pg_ctl.
* Installation: trailing dashes and quotes of option values are stripped, shell-quoted quotes misread, versions of more than two words raise ValueError, includedir_server is never found, an option at the end of a --help line loses a character (C66).
* Temporal: previous builtins are deleted rather than restored, `new` leaks, a failing close keeps other connections and the schema, an interrupt during `__enter__` leaves the context pushed (C67); a failing CREATE SCHEMA is masked by DROP; destroy() uses an unbound `cluster`, so backends are never terminated.
* ILF: a SQL line between brackets is a marker, a reference in the preface raises TypeError, documentation comments are dropped, a const whose value is None is executed at every access, const/proc symbols are not resolved when bound, a conflict of categories raises NameError with libraries partly bound, a library without name TypeError, load() of modules uses the undefined ModuleLibrary (C52-C54).
* NamedTupleFactory with repeated column names raises TypeError for every row (C82_repeated_refuted), column names equal after NFKC raise SyntaxError (C82_normalized_refuted); its documented installation `db.typio.RowTypeFactory(NamedTupleFactory)` installs nothing (it must be assigned); prime_factors walks the factor names of the first object; find_available_port ignores its interface argument.
* Configuration files: the file is emptied before it is rewritten (C83_crash_refuted), leaving `with config:` raises AttributeError (`_restored`) and restores nothing, `del config[k]` of a present key raises TypeError (`_save()` without argument), iteration and `in` raise TypeError, pg_dotconf -f raises NameError (C83).
* Sockets: an exception that is no OSError (KeyboardInterrupt) between creation and return leaves the socket open; the timeout of an interrupt limits its connect only, not its write; a socket.timeout is neither fatal nor a reason to retry (C86).
* A NUL in the text of do() or execute() ends the statement for the server (C84).
* python/command.py, bin/pg_python.py: builtins that were overloaded by None are deleted by the wrong name, so they stay as None; Execution leaves os.environ a plain dictionary; the module search path of -L is not restored; -C with SystemExit ends with status 1 (C88, C89).
* XML: a tuple of one element comes back as the element, text at the top level is lost on receiving, an ElementTree (the announced type of xml) cannot be sent (C87).
* python/command.py ExtendedConsole: `\x` always ends with a TypeError, as the module's `command` is the option of -c and no function; `\i NAME` without a directory opens the lower-cased name (C90).
* types/bitwise.py: `Varbit('1') == Varbit('01')` raises ValueError in either order; `Varbit('1')[0:0]` raises; `Varbit('0b1_0110')` is `Varbit('00010110')`; iterating raises TypeError (C91).
* driver/dbapi20.py: callproc() leaves the description of the statement before, nextset() that of the later one; character(n), float, numeric, date and time columns have type code None (C92).
* clientparameters.py:284 append_settings raises OptionValueError, which is not imported: `-s name` without = ends in a NameError (C93).
