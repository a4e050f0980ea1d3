{
"C01": [
"proved",
"The buffer is a simulation of a byte FIFO for every history; FIFO spec deterministic; chunking irrelevant."
],
"C02": [
"proved",
"Part of C01's refinement (spec_step for has_message/len/read/next) plus the delivery theorem."
],
"C03": [
"proved",
"Any batch of typed items in any chunking is received item for item."
],
"C04": [
"partial",
"Round trip proved for all message classes under the wire constraints; the rejection half is refuted (NUL in C strings, Bind format count)."
],
"C05": [
"partial",
"Round trip proved; strictness of the pure Python row parser refuted."
],
"C06": [
"proved",
"Two's complement/unsigned big-endian codecs characterised exactly (iff) for every value; pure Python path (struct)."
],
"C09": [
"partial",
"Round trip and strictness proved (accepted data = exactly a packed record), except that a negative column count is accepted as an empty record (refuted)."
],
"C10": [
"proved",
"Any number of dimensions and elements, NULLs included; library level raw arrays."
],
"C11": [
"partial",
"Sized data, hstore and record decoders terminate and account for all data; for arrays refuted: a negative element size loops forever, a truncated element is accepted."
],
"C12": [
"partial",
"hstore, bool, jsonb, uuid, bit strings proved; refuted: Varbit.getbit and oidvector/int2vector packing always raise."
],
"C13": [
"partial",
"inet/cidr/macaddr round trips proved; refuted: a host address is sent with prefix length 0."
],
"C44": [
"proved",
"Complete characterisation of success, failure index and mismatch."
],
"C46": [
"proved",
"chunk, interlace and find characterised; chunksize 0 never ends."
],
"C07": [
"partial",
"Round trip / sent and received values proved for all finite decimals; NaN refuted (send TypeError, receive ValueError)."
],
"C08": [
"partial",
"64-bit formats: sent bytes, received values and round trips proved for all dates, times, timestamps, intervals. Float formats (IEEE arithmetic modelled exactly): sent double and value read back proved for all values: the same or one microsecond less (timestamps further than 272 years from 2000: up to 31 microseconds off), exact for whole seconds. Refuted: last/first date and timestamp coincide with the infinities, timestamptz infinities are naive, timetz offsets lose seconds and have the wrong sign for the server, time 24:00:00 unreadable, float formats lose a microsecond. Partial because of the refuted parts only."
],
"C29": [
"proved",
"The whole conversation has one of three shapes; unsupported requests end in an error with only the startup message sent. MD5 and crypt are parameters."
],
"C30": [
"partial",
"Success exactly on the proper conversation, except that the message confirming a password is not checked to be an authentication message (refuted part, xact3.py:214-220)."
],
"C25": [
"proved",
"Completion iff the server answered everything, in order, every message accounted once; progress on any readable batch. Transactions begun by a Flush are outside (refuted side case)."
],
"C26": [
"partial",
"Outcome, error, position, results and deliveries proved independent of the batching for servers keeping to the protocol; refuted: results of the batch in which an error ends the transaction are dropped, equal asynchronous messages of one batch are merged."
],
"C27": [
"partial",
"Proved for all command sequences and servers; refuted side cases: function call error followed by Ready, NoData for a portal."
],
"C28": [
"partial",
"Delivered in order, none lost, exactly once if the messages of a batch differ; refuted: equal messages in one batch delivered once, redelivery after an interrupted batch."
],
"C47": [
"proved",
"Shape of everything sent, for every history."
],
"C16": [
"proved",
"quoting proved against an SQL lexer for all strings; the refuted theorem is about standard_conforming_strings=off servers"
],
"C17": [
"partial",
"split_qname(qname(parts)) and split_using proved for all inputs; the if-needed variants proved for lower-case ASCII parts only, because they are false for upper-case letters (C17_uppercase_refuted) and reserved words"
],
"C18": [
"partial",
"splitting proved exact for every text with closed single-line quotations, unsplit/split and split_sql characterised for every text; refuted: unterminated E' and dollar stubs, dollar quotes spanning lines, lower-case e'' literals"
],
"C19": [
"partial",
"lossless on all byte strings; every well-formed text accepted; malformed escapes rejected for texts without blank/underscore/o, refuted otherwise (int(...,8) accepts '\\12 ', '\\1_2', '\\0o7')"
],
"C20": [
"partial",
"split and normalize proved for every written version; unsplit loses with a state word without level (8.3devNone) and fails with four numbers; order proved for differing numbers and releases, refuted for rc/dev"
],
"C21": [
"partial",
"line round trip proved unless the line ends in a blank of a field (refuted: password trailing blank is lost); lookup = first match proved"
],
"C22": [
"partial",
"unsplit(split s)=s for every string; field escapes, network locations and whole dictionaries round-trip when the host is unambiguous; ambiguous hosts and the single empty component are refuted by concrete cases"
],
"C23": [
"partial",
"Round trip proved for every expressible parameter dictionary (any order, any strings subject to IRISpec); password noninterference of the obscured form proved for all dictionaries; refuted: database escapes, ssl scheme, None settings, port without host."
],
"C24": [
"partial",
"Proved for files with at least one line, settings named with letters, digits and underscores; at file level for values without line feeds and lines with closed quotes. Refuted (theorems *_refuted): empty file, item deletion, names with a period, spelling, unterminated quotes."
],
"C14": [
"partial",
"Proved except integer indexing of multi-dimensional arrays, which is false at -1, len and below -len (C14_index_refuted, ValueError); strings are accepted as rows (C14_strings_as_rows_refuted)."
],
"C15": [
"partial",
"Proved for rows whose columns have distinct names; get(-len) returns None although row[-len] exists (C15_get_int_refuted); with repeated names items() misaligns (C15_repeated_items_refuted)."
],
"C45": [
"partial",
"Proved for every code string and the class table of the module; refuted for the 54xxx classes (derive from the builtin OverflowError) and 22019 (class statement replaced): C45_program_limit_refuted, C45_escape_character_refuted."
],
"C43": [
"partial",
"Precedence (options, service, environment, parameters, defaults), settings merging, password resolution, totality proved for every input, with os.path/configparser/getuser/prompt abstracted and posix defaults. Missing because false of the code: PGTZ/PGDATESTYLE/PGCLIENTENCODING/PGGEQO are documented but never yielded, PGREQUIRESSL=1 yields a tuple (both proved as _refuted)."
],
"C39": [
"partial",
"Held exactly while locked() proved for every history with nested release excluded and uninterrupted acquires; failed non-blocking acquire leaves nothing behind; count/locked() for every history. Missing because false of the code: release() of a re-entered lock releases on the server at once (proved refuted), an interrupted blocking acquire keeps the locks taken so far (proved refuted)."
],
"C35": [
"partial",
"Proved for all interleavings of fetchone, fetchmany with sizes >= 0 (or the default arraysize) and fetchall; fetchmany with a negative size is shown to repeat rows (C35_negative_refuted). The recursion limit of the interpreter is not modelled."
],
"C36": [
"partial",
"Proved for every statement made of unquoted text (characters, %%, %s, %(name)s with names without parentheses) and closed quotations. The part of the property that is false is refuted: %% is only halved in unquoted parts with a placeholder, a digit after %s changes the parameter number, extra dictionary keys are refused. Other directives of Python's % operator (which raise in practice) are not modelled."
],
"C31": [
"proved",
"all socket behaviours and histories; C31_step_ignores_loss_refuted: a lost connection met while sending within step() is only reported by the next read"
],
"C32": [
"proved",
"cursors and statements trashed at any moment of push(), also while the batch is being made; that the Close batch is sent is by C32_batch_sent_once for batches which completed without a lost connection"
],
"C48": [
"proved",
"connection after connect(); an interruption between the return of send/recv and the assignment of its result is not modelled"
],
"C33": [
"proved",
"For all host lists and all behaviours of the outside per attempt (open, partial sends, answer byte, handshake, start-up outcome). The start-up conversation itself is one event here (C29, C30 treat it). Refuted part: an exception while asking for SSL or during the start-up leaves the socket open and aborts the remaining servers."
],
"C34": [
"partial",
"FetchAll (one transaction: call, first, COPY, rows/chunks without source): every run, whole. MultiXactStream at the level of the replies of the server's cursor. Refuted: after an error completed by another use of the connection, or after a caught exception, the stream ends silently (C34_stream_truncated_refuted)"
],
"C40": [
"proved",
"WireState and ProtocolProducer: any cut of the stream; well-formed CopyData messages (length field at least 4). Realignment included."
],
"C41": [
"partial",
"Any behaviour of producer and receivers and any use of reconcile, without interrupts. Refuted parts: a receiver brought back after other data was distributed gets garbage (C41_late_reconcile_refuted); an interrupted transmission loses data of the others (C41_interrupted_refuted); an abandoned COPY may be reported as done (C41_abandoned_refuted)."
],
"C42": [
"partial",
"Any schedule, any clock, any use of the connections in between; also iternotifies. Refuted parts: notifications received by the command which finds the connection failed are not given (C42_failed_connection_refuted); polling never looks at the wires (C42_poll_wire_refuted); an idle event may come although the connection already holds a notification (C42_idle_held_refuted); idle events are not guaranteed (C42_idle_guaranteed_refuted)."
],
"C37": [
"partial",
"for all programs with exceptions that are Exceptions; refuted for KeyboardInterrupt and the like"
],
"C49": [
"partial",
"for all histories in which no COMMIT is refused; refuted after a refused COMMIT, and for commit() of a failed transaction"
],
"C38": [
"partial",
"for settings the server reports, and for all settings in histories without rollback or SET by SQL, spelled as the server does; refuted otherwise (7 counterexamples)"
],
"C50": [
"partial",
"for callbacks which do not raise; refuted when one raises"
],
"C51": [
"partial",
"all documented operations; refuted: seeks FORWARD/BACKWARD, 'ALL' and negative absolute positions with direction BACKWARD"
],
"C52": [
"partial",
"Proved for all unambiguous documents. Refuted part: a SQL line between brackets is taken for a marker, and a preface line beginning like a reference raises TypeError"
],
"C53": [
"partial",
"Proved except: a constant whose value is None is executed again at each read and constants/procedures are not resolved when the library is bound, as documented (C53_const_refuted)"
],
"C54": [
"partial",
"Proved except: a conflict raises NameError rather than AttributeError, with part of the libraries bound (C54_conflict_refuted)"
],
"C55": [
"proved",
"Python implementation of process_tuple (the C one is optional)."
],
"C56": [
"partial",
"Proved for a catalog that does not change while the connection is used. Refuted parts: a composite altered after its first use cannot be read any more on the connection (C56_altered_refuted); identify() has no effect on composites resolved before (C56_identify_refuted)."
],
"C57": [
"proved",
"messages served in order and once (C25, C48); user statements managing names themselves (DEALLOCATE, DISCARD, PREPARE, CLOSE) left out; C57_user_names_refuted shows the exception"
],
"C58": [
"partial",
"Proved for every error with a code and a message. Error.fatal is refuted where the server localizes severities (C58_fatal_localized_refuted)."
],
"C59": [
"partial",
"Proved for the messages processed while a request runs. Warnings with a localized severity are refuted to be of a Warning class (C59_localized_refuted). Messages received while take_out_trash closes names and notices of the negotiation never come to _receive_async (see DESIGN.md)."
],
"C60": [
"proved",
"Positions of characters that are not themselves part of a line break; every such character is covered (C60_everywhere)."
],
"C61": [
"partial",
"Proved for notify(). listen() and unlisten() are refuted: they do not quote (C61_listen_refuted); C61_listen_partial says what they send."
],
"C62": [
"proved",
"The description of the creator (format_element) that follows is a parameter."
],
"C63": [
"partial",
"Proved except for two parts that do not hold: an exception of the iterable hides an error of the server for the chunk under way (C63_error_lost_refuted), and every execution asks for one row only (C63_row_limit_refuted)."
],
"C64": [
"partial",
"all proved but one part: the error of a COPY whose iterable raised is raised by the next, unrelated operation (C64_next_refuted)"
],
"C65": [
"proved",
"first(): findings: single-column unpack errors are not wrapped in ColumnError, a zero-column result takes the count path, a closed statement is not refused"
],
"C66": [
"partial",
"refuted parts: a trailing dash or quote of an option value is stripped, a quote quoted by configure is misread, Installation() of a packaged version (three words) raises ValueError, includedir_server is never found since pg_config prints INCLUDEDIR-SERVER, an option ending its --help line loses a character"
],
"C67": [
"partial",
"refuted parts: builtins that had a value before the outermost context are deleted instead of restored (membership is tested in the pair), new is never removed (newdb is), a failing close keeps other connections and the schema, an interrupt during __enter__ leaves the context pushed"
],
"C68": [
"partial",
"Proved over all histories; what is false of the code is shown by C68_reconnect_refuted and C68_revived_refuted (pq.synchronize() is excluded where it matters). The start-up queries of _establish are operations like others; fileno is not modelled."
],
"C69": [
"partial",
"proved for every environment; C69_signal_refuted: a child that has ended is still signalled"
],
"C70": [
"partial",
"start, wait_until_started, restart proved for every environment; refuted: start(settings), default configuration, failing with block"
],
"C71": [
"partial",
"wait_until_stopped, drop, and the removal of every tree proved; refuted: race for servers that are not children, links to directories"
],
"C72": [
"proved",
"init proved for every environment"
],
"C73": [
"partial",
"address and connect proved; refuted: blanks in listen_addresses"
],
"C74": [
"proved",
"for a password with a zero byte the C function differs (C74_nul_refuted)"
],
"C75": [
"proved",
"driver.fit and the connectors; getaddrinfo, inet_aton and inet_pton are arbitrary functions"
],
"C76": [
"partial",
"startup parameters, password and wire reading proved; refuted parts: C76_no_path_refuted, C76_pairs_path_refuted, C76_nul_refuted (faults of the code)"
],
"C77": [
"proved",
"open() up to the call of driver.fit; os and file access are arbitrary functions"
],
"C78": [
"partial",
"the statement and calls are proved for positional arguments; keyword arguments and character arguments are refuted"
],
"C79": [
"proved",
"struct's d and f formats against an independent definition of IEEE encodings"
],
"C80": [
"partial",
"all proved except boxes with NaN, refuted"
],
"C81": [
"partial",
"refuted in part: column() reports TypeError for failing values and NULLs (C81_column_refuted, C81_column_null_refuted), the report of cursor_from_id's cursors is an AttributeError (C81_cursor_refuted), input formats are always binary (C81_input_format_refuted); the rest is proved in full"
],
"C82": [
"partial",
"proved in full for ASCII column names; refuted in part: NamedTupleFactory with repeated column names (C82_repeated_refuted), names equal after NFKC (C82_normalized_refuted)"
],
"C83": [
"partial",
"refuted: the file is emptied before it is rewritten, so a crash loses every setting (C83_crash_refuted); leaving a with block raises AttributeError and restores nothing (C83_block_refuted); iteration raises TypeError (C83_iter_refuted); pg_dotconf -f raises NameError (C83_dotconf_file_refuted)"
],
"C85": [
"partial",
"refuted: prime_factors() looks for the name of the first object's prime factor in every object, so it does not give the chain of prime factors (C85_prime_factors_refuted); ElementSet not modelled"
],
"C84": [
"partial",
"refuted for texts with a NUL (C84_nul_refuted) and for servers with standard_conforming_strings off (C84_nonstandard_strings_refuted); the replies to the Query are XactModel's"
],
"C86": [
"partial",
"refuted: a KeyboardInterrupt leaks the socket (C86_leak_refuted), the timeout does not limit sending (C86_limit_refuted), the interface is ignored (C86_interface_refuted), socket.timeout is not fatal (C86_timeout_refuted)"
],
"C88": [
"partial",
"refuted: SystemExit in -C code (C88_context_exit_refuted), absent modules become None (C88_absent_refuted), os.environ is replaced by a dict (C88_environ_refuted)"
],
"C89": [
"partial",
"refuted: names that were not in builtins stay as None (C89_builtins_refuted), the library path is not restored after a normal end (C89_libpath_refuted)"
],
"C87": [
"partial",
"sending proved for every value, codec and library; received values proved; refuted: tuples of one element and text at the top level do not come back (C87_roundtrip_refuted)"
],
"C90": [
"proved",
"the help text is one event; executed code is taken not to change os.environ; shlex, the editor, files and Python are arbitrary functions of what was done before"
],
"C91": [
"partial",
"refuted: a single bit against other lengths raises (C91_equal_refuted), empty slices of a single bit (C91_slice_refuted), truth (C91_truth_refuted), iteration (C91_iterate_refuted), texts of int() (C91_text_refuted)"
],
"C92": [
"partial",
"refuted: callproc() and nextset() leave the description of another statement (C92_callproc_refuted, C92_nextset_refuted); several types have no type code (C92_type_refuted)"
],
"C93": [
"partial",
"exactly the lines written as described are understood, whatever the spelling, order or abbreviation, and mean what they say; after -c and -m everything is the program's; the last option for a parameter decides it in collect(); an unknown letter is a usage error.  Refuted: a setting without = ends in a NameError instead of a usage error."
]
}