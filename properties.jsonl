{"id": "C01", "title": "Message stream is independent of how the network chunks the data", "statement": "Whatever interleaving of write(), read(n), next_message(), len(), has_message(), getvalue() and truncate() is applied to a message stream, it behaves as a plain FIFO of the bytes written: the internal compaction never loses, duplicates or reorders a byte, and the messages returned depend only on the concatenation of the chunks written, not on where they were cut.", "quantifier": "all sequences of operations, all byte strings, all chunkings, any buffer size (compaction included)", "why_tests_cant": "compaction starts only past 2048 consumed bytes and depends on block alignment; chunkings are unbounded", "anchors": ["postgresql/protocol/pbuffer.py: pq_message_stream"]}
{"id": "C02", "title": "Message stream never returns a partial message and never holds back a complete one", "statement": "has_message() is true exactly when the next read would return a message; a message is returned iff all of its declared bytes have been written, its body has exactly the declared length, and a declared length below 4 is reported as an error without consuming anything. len() is the number of messages that read() would return.", "quantifier": "all buffer contents", "why_tests_cant": "declared lengths range over 2^32 values and boundaries move with chunking", "anchors": ["postgresql/protocol/pbuffer.py: has_message, __len__, read, next_message"]}
{"id": "C03", "title": "Serialised batches decode back to the messages that were sent", "statement": "The bytes produced for a sequence of outgoing messages (ordinary messages, raw COPY lines given as bytes, tuple rows) split, on the receiving side, into exactly the same number of messages, in the same order, with the same types and bodies.", "quantifier": "all sequences of messages of any length and content below the 2^31 frame limit", "why_tests_cant": "framing is compositional over unbounded batches", "anchors": ["postgresql/protocol/element3.py: cat_messages, Message.bytes, pack_tuple_data", "postgresql/protocol/pbuffer.py"]}
{"id": "C04", "title": "Every protocol message round-trips through serialize and parse", "statement": "For every protocol-3 message type with both a serializer and a parser, parse(serialize(m)) = m for every message m meeting the wire constraints (no NUL in NUL-terminated strings, counts and sizes within field width); outside the constraints the serializer raises rather than emitting a frame that decodes to something else.", "quantifier": "all message types and all field values", "why_tests_cant": "field values are unbounded strings/lists and 16/32-bit integers", "anchors": ["postgresql/protocol/element3.py"]}
{"id": "C05", "title": "Row data decode is exact", "statement": "A data row decodes to the list of attributes that was encoded, NULL distinguished from the empty string, and a row frame whose declared attribute sizes do not match the data is rejected.", "quantifier": "all rows: any number of attributes up to 65535, any contents", "why_tests_cant": "sizes and NULL markers are data dependent", "anchors": ["postgresql/protocol/element3.py: Tuple.parse, Tuple.serialize", "postgresql/python/structlib.py"]}
{"id": "C06", "title": "Fixed-width integers: exact round trip, out-of-range values rejected", "statement": "int2/int4/int8/oid and the unsigned variants: unpack(pack(x)) = x for every x in range; values out of range raise, never wrap; unpack of any correctly sized input packs back to the same bytes.", "quantifier": "all integers, all byte strings of the right size", "why_tests_cant": "2^64 values", "anchors": ["postgresql/python/structlib.py", "postgresql/types/io/lib.py", "postgresql/types/io/builtins.py"]}
{"id": "C07", "title": "numeric values survive the wire exactly", "statement": "A finite Decimal sent as numeric and read back denotes the same number with the same display scale; NaN maps to NaN; every group sent is in 0..9999.", "quantifier": "all finite decimals (sign, digit tuple, exponent)", "why_tests_cant": "digit strings are unbounded and the group alignment depends on exponent mod 4", "anchors": ["postgresql/types/io/stdlib_decimal.py: numeric_pack, numeric_unpack", "postgresql/types/io/lib.py: numeric_pack, numeric_unpack"]}
{"id": "C08", "title": "date/time/timestamp/interval values survive the wire", "statement": "date, time, timetz, timestamp, timestamptz and interval values in the supported range: unpack(pack(v)) = v to the microsecond, for 64-bit integer representations; the infinities map to the infinity codes only.", "quantifier": "all dates, times, offsets and durations", "why_tests_cant": "calendar/epoch arithmetic over the whole range, negative values and borrow", "anchors": ["postgresql/types/io/stdlib_datetime.py", "postgresql/types/io/lib.py"]}
{"id": "C09", "title": "Composite (record) values round-trip and malformed records are rejected", "statement": "record_unpack(record_pack(fields)) = fields including NULLs; the declared column count, per-attribute sizes and absence of trailing data are enforced.", "quantifier": "all field lists, all byte strings", "why_tests_cant": "nested length-prefixed encodings of unbounded size", "anchors": ["postgresql/types/io/lib.py: record_pack, record_unpack"]}
{"id": "C10", "title": "Array values round-trip on the wire", "statement": "array_unpack(array_pack(a)) returns the same element type, dimensions, lower bounds and elements (NULLs included), for arrays of any dimensionality.", "quantifier": "all dimension lists, bounds and element lists", "why_tests_cant": "unbounded structure", "anchors": ["postgresql/types/io/lib.py: array_pack, array_unpack, elements_pack, elements_unpack"]}
{"id": "C11", "title": "Decoding of server supplied values always terminates with a value or an error", "statement": "For any bytes, the array/record/row/hstore decoders terminate and either return a value accounting for all of the declared data or raise.", "quantifier": "all byte strings", "why_tests_cant": "non-termination and silent truncation only show on adversarial inputs", "anchors": ["postgresql/types/io/lib.py: elements_unpack", "postgresql/python/structlib.py: split_sized_data", "postgresql/types/io/contrib_hstore.py"]}
{"id": "C12", "title": "hstore, bool, jsonb, bit string and other simple codecs round-trip", "statement": "For hstore (any dict with unique keys, NULL values allowed), bool, jsonb, varbit, uuid, macaddr: unpack(pack(v)) = v, and duplicate keys / bad counts / unknown version bytes are rejected.", "quantifier": "all values of each type", "why_tests_cant": "unbounded contents", "anchors": ["postgresql/types/io/contrib_hstore.py", "postgresql/types/io/stdlib_jsonb.py", "postgresql/types/io/lib.py", "postgresql/types/io/builtins.py", "postgresql/types/bitwise.py"]}
{"id": "C13", "title": "Network addresses survive the wire", "statement": "cidr/inet/macaddr values: unpack(pack(x)) = x for every address, family and mask, and an inet host without a mask is sent as a host (full prefix) address.", "quantifier": "all addresses and prefix lengths", "why_tests_cant": "2^128 addresses", "anchors": ["postgresql/types/io/lib.py: net_pack, net_unpack, macaddr_pack, macaddr_unpack", "postgresql/types/io/pg_network.py"]}
{"id": "C14", "title": "Array: flat and nested forms are inverse, indexing agrees with nesting", "statement": "Array.from_nest(nested) followed by nest() gives the nested lists back; from_elements(elements, dims) keeps element order, rejects a mismatching element count; indexing a[i] (positive or negative, in range) agrees with the nested list; out of range indexing raises IndexError.", "quantifier": "all rectangular nested lists of any depth, all indices", "why_tests_cant": "unbounded depth and dimensions", "anchors": ["postgresql/types/__init__.py: Array"]}
{"id": "C15", "title": "Row access by name, position, slice and get() agree", "statement": "For a Row: row[i], row[name], row.get(i), row.get(name), keys(), items(), from_mapping and transform are consistent with the column list and the tuple; get() returns the default exactly when row[...] would raise.", "quantifier": "all rows, all keys and integer positions", "why_tests_cant": "negative/edge indices and unbounded widths", "anchors": ["postgresql/types/__init__.py: Row"]}
{"id": "C16", "title": "Quoted literals and identifiers cannot be broken out of", "statement": "quote_literal(s) scanned by a standard-conforming SQL lexer is exactly one string constant denoting s with nothing left over; likewise quote_ident(s) is one quoted identifier denoting s.", "quantifier": "all strings, followed by any SQL text not starting with a quote", "why_tests_cant": "SQL injection safety is a for-all statement", "anchors": ["postgresql/string.py: quote_literal, quote_ident, escape_literal, escape_ident"]}
{"id": "C17", "title": "Qualified names round-trip", "statement": "split_qname(qname(*parts)) = parts for all non-empty parts; the 'only quote if needed' variants produce text that denotes the same identifiers to the server.", "quantifier": "all lists of identifiers", "why_tests_cant": "arbitrary strings with dots, quotes and case", "anchors": ["postgresql/string.py: qname, qname_if_needed, needs_quoting, split_ident, split_qname"]}
{"id": "C18", "title": "Statement splitting never cuts inside a quotation", "statement": "string.split() partitions the text into quoted and unquoted parts with unsplit(split(s)) = s; split_sql only separates at separators outside of quotations.", "quantifier": "all strings", "why_tests_cant": "quotation nesting is data dependent", "anchors": ["postgresql/string.py: split, unsplit, split_using, split_sql"]}
{"id": "C19", "title": "bytea escape codec is lossless", "statement": "decoding to text and encoding back gives the original bytes for every byte string; malformed escapes are rejected.", "quantifier": "all byte strings / all texts", "why_tests_cant": "unbounded strings", "anchors": ["postgresql/encodings/bytea.py"]}
{"id": "C20", "title": "Version strings parse and print consistently", "statement": "normalize/unsplit of split version strings yields an equivalent version; ordering comparisons of normalised versions agree with release order.", "quantifier": "all version strings of the documented form", "why_tests_cant": "unbounded numerals and optional parts", "anchors": ["postgresql/versionstring.py"]}
{"id": "C21", "title": "Password file: escaping round-trips and the first matching entry wins", "statement": "A pgpass line made by escaping ':' and backslash in five fields parses back to those five fields; lookup returns the password of the first entry all of whose fields match or are '*', or none.", "quantifier": "all field strings, all entry lists, all queries", "why_tests_cant": "unbounded files and escapes", "anchors": ["postgresql/pgpassfile.py"]}
{"id": "C22", "title": "RI parsing is lossless", "statement": "unsplit(split(s)) = s for every string; netloc split/unsplit round-trips.", "quantifier": "all strings", "why_tests_cant": "delimiter interactions over arbitrary strings", "anchors": ["postgresql/resolved/riparse.py: split, unsplit, split_netloc, unsplit_netloc"]}
{"id": "C23", "title": "Connection IRIs denote the parameters they were built from", "statement": "parse(serialize(params)) = params for every user, password, host, port, database, settings combination; obscured serialization never contains the password.", "quantifier": "all parameter dictionaries", "why_tests_cant": "escape interactions over arbitrary strings", "anchors": ["postgresql/iri.py: structure, construct, parse, serialize"]}
{"id": "C24", "title": "Configuration file edits take effect and touch nothing else", "statement": "After altering a configuration file with a map of settings, reading it gives each altered setting its new value (None: absent), every other setting its former value, and every unrelated line byte-for-byte unchanged.", "quantifier": "all files (any line list) and all setting maps", "why_tests_cant": "duplicates, comments and quoting interact", "anchors": ["postgresql/configfile.py: alter_config, read_config, parse_line, unquote, write_config"]}
{"id": "C25", "title": "A protocol transaction completes only when the server has answered all of its commands, in order", "statement": "An instruction is complete without a fatal condition only after every command's terminating response was received; responses are attributed to commands in order; each received message is accounted exactly once.", "quantifier": "all command sequences and all server message streams", "why_tests_cant": "unbounded pipelines and server behaviours", "anchors": ["postgresql/protocol/xact3.py: Instruction"]}
{"id": "C26", "title": "Protocol processing does not depend on message batching", "statement": "Feeding a transaction the same server messages in different batches gives the same final state, completed responses and asynchronous deliveries.", "quantifier": "all partitions of all message sequences", "why_tests_cant": "batch boundaries depend on network timing", "anchors": ["postgresql/protocol/xact3.py: Instruction.standard_put, put_copydata, put_tupledata"]}
{"id": "C27", "title": "After a server error processing resumes at the next synchronization point only", "statement": "An ERROR response makes the transaction skip exactly the commands up to the next Sync (none if the command is a simple query or function call), a non-ERROR severity is fatal, and the error is recorded.", "quantifier": "all command sequences and error positions", "why_tests_cant": "unbounded pipelines", "anchors": ["postgresql/protocol/xact3.py: Instruction.standard_put"]}
{"id": "C28", "title": "Asynchronous messages are delivered exactly once", "statement": "Each NOTICE, NOTIFY or parameter status message received during a transaction is delivered to the handler exactly once, in order.", "quantifier": "all message streams and batchings, including interrupted handlers", "why_tests_cant": "duplicates and re-processing depend on timing", "anchors": ["postgresql/protocol/xact3.py: Instruction, Negotiation"]}
{"id": "C29", "title": "The password is only sent when the server asks for it", "statement": "During negotiation nothing but the startup message is sent before the server requests authentication; a password message is sent only in answer to a cleartext/crypt/md5 request and in the requested form; unsupported requests end in an error without sending anything.", "quantifier": "all server message sequences", "why_tests_cant": "adversarial servers", "anchors": ["postgresql/protocol/xact3.py: Negotiation"]}
{"id": "C30", "title": "A connection is usable only after authentication, backend key and ready-for-query", "statement": "Negotiation completes without a fatal condition only if the server sent AuthenticationOk, BackendKeyData and ReadyForQuery in this order (async messages interspersed); any other message yields a fatal condition.", "quantifier": "all server message sequences and batchings", "why_tests_cant": "adversarial servers", "anchors": ["postgresql/protocol/xact3.py: Negotiation"]}
{"id": "C31", "title": "Bytes are sent exactly once and in order despite partial sends", "statement": "For any behaviour of the socket (partial sends, retryable errors), the bytes put on the wire are a prefix of the concatenated serialisation of the message batches in order; when writing is finished they are equal.", "quantifier": "all socket behaviours and message batches", "why_tests_cant": "partial sends are timing dependent", "anchors": ["postgresql/protocol/client3.py: Connection.send_message_data, standard_write_messages, step, complete"]}
{"id": "C32", "title": "Garbage cursors and statements are closed exactly once", "statement": "Every identifier trashed is eventually part of exactly one Close batch followed by a Sync, none is closed twice, and identifiers trashed while a batch is being prepared are kept for the next one.", "quantifier": "all interleavings of trash and collection", "why_tests_cant": "timing of the garbage collector", "anchors": ["postgresql/protocol/client3.py: take_out_trash, trash_cursor, trash_statement"]}
{"id": "C33", "title": "sslmode=require never falls back to plaintext", "statement": "With sslmode require every socket on which startup data is sent was upgraded to SSL; with disable no SSL is attempted; prefer/allow attempt the documented sequence; an unexpected negotiation byte is an error.", "quantifier": "all host lists and server behaviours", "why_tests_cant": "server behaviour is adversarial", "anchors": ["postgresql/driver/pq3.py: Connection._establish", "postgresql/protocol/client3.py: Connection.connect, negotiate_ssl"]}
{"id": "C34", "title": "Streamed results contain every row exactly once, in order", "statement": "rows()/chunks()/all() return, over any chunk size and any number of rows, exactly the rows the server would return, in order, and stop.", "quantifier": "all result sets and chunk sizes", "why_tests_cant": "boundary at exact multiples of the chunk size", "anchors": ["postgresql/driver/pq3.py: Chunks, FetchAll, MultiXactStream"]}
{"id": "C35", "title": "DB-API cursor fetches deliver every row exactly once in order", "statement": "Any mix of fetchone/fetchmany(n)/fetchall/iteration on a DB-API cursor returns consecutive segments of the result whose concatenation is a prefix of the result, and fetchall exhausts it.", "quantifier": "all interleavings of fetch calls and chunk sizes", "why_tests_cant": "buffer boundaries", "anchors": ["postgresql/driver/dbapi20.py: Portal, Cursor"]}
{"id": "C36", "title": "DB-API parameter conversion preserves the statement", "statement": "%s / %(name)s parameters are replaced by $n positions, each bound to the right argument; literals and %% are preserved.", "quantifier": "all statements and parameter sets", "why_tests_cant": "quotation interaction", "anchors": ["postgresql/driver/dbapi20.py: percent_parameters, convert_keywords, Cursor._convert_query"]}
{"id": "C37", "title": "Transaction blocks nest and always leave the server where they found it", "statement": "Properly nested with-blocks of transactions issue START/COMMIT/ROLLBACK at the outermost level and SAVEPOINT/RELEASE/ROLLBACK TO inside; on exit of the block, normal or exceptional, the server is at the nesting level it had on entry; changes of a failed block are not kept.", "quantifier": "all nestings and failure points", "why_tests_cant": "unbounded nesting and failure interleavings", "anchors": ["postgresql/driver/pq3.py: Transaction"]}
{"id": "C38", "title": "Settings cache and settings blocks are coherent with the server", "statement": "Reading a setting gives the value in force on the server; a 'with db.settings(...)' block restores the former values on exit.", "quantifier": "all histories of set/get/reset/rollback", "why_tests_cant": "cache coherence is a history property", "anchors": ["postgresql/driver/pq3.py: Settings, SettingsCM"]}
{"id": "C39", "title": "Advisory lock objects hold the server lock exactly while locked() is true", "statement": "For every sequence of acquire/release (blocking and non-blocking, reentrant) the server-side lock count is positive iff locked(); a failed non-blocking acquire leaves no lock behind.", "quantifier": "all operation sequences, any number of lock identifiers", "why_tests_cant": "histories are unbounded", "anchors": ["postgresql/alock.py: ALock"]}
{"id": "C40", "title": "COPY stream tracking is independent of chunking and counts messages exactly", "statement": "However a COPY stream of messages is cut into buffers, the tracker reports the same total number of complete messages, stops at the first non-COPY message and gives back exactly the bytes from there on.", "quantifier": "all streams and all cuts", "why_tests_cant": "cuts inside headers", "anchors": ["postgresql/copyman.py: WireState, ProtocolProducer"]}
{"id": "C41", "title": "A failed receiver never affects the others in a COPY distribution", "statement": "Every receiver that does not fault receives all messages produced, in order; a faulted receiver receives a prefix (on message boundaries after reconciliation) and is reported.", "quantifier": "all fault schedules", "why_tests_cant": "fault timing", "anchors": ["postgresql/copyman.py: CopyManager"]}
{"id": "C42", "title": "Notifications are neither lost nor duplicated, idle events never overtake them", "statement": "NotificationManager yields each received notification exactly once in order, per connection, and a timeout event only when there was nothing pending.", "quantifier": "all event schedules", "why_tests_cant": "timing", "anchors": ["postgresql/notifyman.py: NotificationManager"]}
{"id": "C43", "title": "Client parameter precedence", "statement": "normalize/collect resolve parameters so that later sources override earlier ones, settings are merged, and environment variables map to the documented parameters.", "quantifier": "all parameter sources", "why_tests_cant": "arbitrary combinations", "anchors": ["postgresql/clientparameters.py"]}
{"id": "C44", "title": "Row transformation processes exactly the right columns and reports the failing one", "statement": "process_tuple applies the i-th routine to the i-th item, passes NULL through, refuses a length mismatch and reports the index of the first failing item; process_chunk does so for each row in order.", "quantifier": "all rows, routine lists and failures", "why_tests_cant": "unbounded width", "anchors": ["postgresql/python/functools.py"]}
{"id": "C45", "title": "Every SQLSTATE maps to the most specific exception class", "statement": "An error code resolves to the class registered for that code, otherwise to the class of its two-character class, otherwise to the default.", "quantifier": "all codes and registries", "why_tests_cant": "all 36^5 codes", "anchors": ["postgresql/exceptions.py: code_lookup, map_errors_and_warnings, ErrorLookup, WarningLookup"]}
{"id": "C46", "title": "Chunking iterators lose nothing", "statement": "itertools.chunk(it, n) yields chunks whose concatenation is it, all but the last of size n; interlace preserves the order of each source.", "quantifier": "all iterables and sizes", "why_tests_cant": "unbounded", "anchors": ["postgresql/python/itertools.py"]}
{"id": "C47", "title": "A COPY FROM STDIN is always terminated", "statement": "Whatever data is or is not supplied during a COPY FROM STDIN, what a transaction sends is its commands followed, for each COPY, by the lines supplied and exactly one CopyDone or CopyFail, followed by the commands after the COPY; when no more data is supplied the COPY is failed.", "quantifier": "all command sequences, data batches and server behaviours", "why_tests_cant": "unbounded histories of sends and receives", "anchors": ["postgresql/protocol/xact3.py: Instruction.sent_from_stdin, standard_put"]}
{"id": "C48", "title": "From the socket to the results: every message of the server is given to exactly one transaction, in order", "statement": "For any behaviour of the socket and any use of the connection (push, step, complete, synchronize, interruptions), the bytes received are, in order, the messages taken by the successive transactions followed by what has not been taken yet; each transaction is driven according to the protocol, its commands are sent first, and one that completes without failure has been answered in full and its results are exactly the server's messages. Pushed transactions are executed in the order pushed, none twice.", "quantifier": "all socket behaviours and all histories of use", "why_tests_cant": "unbounded interleavings of partial reads, partial writes and interruptions", "anchors": ["postgresql/protocol/client3.py: Connection.push, step, complete, synchronize, read_messages, read_into", "postgresql/protocol/xact3.py: Instruction"]}
{"id": "C49", "title": "A DB-API connection's commit(), rollback() and autocommit delimit its transactions", "statement": "Without autocommit, changes become durable exactly when commit() returns normally, all together; rollback() discards exactly the changes since the last commit() or rollback(); with autocommit each statement is durable at once and commit() and rollback() raise; switching to autocommit discards what waits.", "quantifier": "all sequences of statements (accepted or refused), commits, rollbacks and autocommit assignments", "why_tests_cant": "durability depends on the whole history of calls", "anchors": ["postgresql/driver/dbapi20.py: Connection.commit, Connection.rollback, Connection.autocommit, connect", "postgresql/driver/pq3.py: Transaction"]}
{"id": "C50", "title": "Setting subscriptions are delivered exactly to the subscribers", "statement": "When the server reports a change of a setting, every callback subscribed to it, and then every callback subscribed to all settings, is called exactly once, in the order of subscription, with the old value still readable; unsubscribed callbacks are not called.", "quantifier": "all histories of subscribe and unsubscribe, all reports", "why_tests_cant": "histories are unbounded", "anchors": ["postgresql/driver/pq3.py: Settings.subscribe, Settings.unsubscribe, Settings._notify"]}
{"id": "C51", "title": "Cursors read every row once, in order, from where they are; seek() and direction are as documented", "statement": "read(k) and next() give the next rows in the direction of the cursor, and pieces of any sizes give together the rows in order; seek() moves to the absolute, relative or from-the-end position; a cursor with direction BACKWARD over the reversed rows gives the same results as a forward one for every sequence of operations.", "quantifier": "all lists of rows, all sequences of reads, iterations, seeks and direction changes", "why_tests_cant": "the position depends on the whole history; the symmetry ranges over all histories", "anchors": ["postgresql/driver/pq3.py: Cursor.read, Cursor.seek, Cursor.__next__, Cursor.direction", "postgresql/api.py: Cursor"]}
{"id": "C52", "title": "Reading an ILF library gives the symbols its document describes", "statement": "A document (preface, [name:type:method] markers, lines, *[name] references) is read into a library that has exactly the names of the sections; each symbol's query is the text of its last section with the comments at its beginning removed and each reference replaced by the latest query defined above under that name; its type and method are the annotations; the preloaded symbols are those marked so; an unknown annotation is refused with ValueError and an undefined reference with TypeError.", "quantifier": "all documents whose text lines are not themselves markers", "why_tests_cant": "documents are of any length, with any text and any chain of references", "anchors": ["postgresql/lib/__init__.py: ILF, SymbolCollection, Symbol"]}
{"id": "C53", "title": "A bound library executes each symbol's own statement", "statement": "Whatever the sequence of attribute reads and calls on a binding, what is executed under a symbol's name is that symbol's statement (or, for a reference, the statement its query gave), with that symbol's method; what was read once is given again without any operation unless transient; a transient symbol is prepared anew at every read; reading a missing name raises AttributeError and does nothing; binding prepares the preloaded symbols and nothing else.", "quantifier": "all libraries, all sequences of reads and calls, all server answers", "why_tests_cant": "histories are unbounded", "anchors": ["postgresql/lib/__init__.py: Binding, BoundSymbol, BoundReference, SymbolCollection"]}
{"id": "C54", "title": "A category binds its libraries under their names and never replaces an attribute", "statement": "Binding a category to a connection gives every library under its name and aliases, adds nothing else, replaces nothing, and succeeds exactly if all are libraries, have names, and the names are distinct and free.", "quantifier": "all lists of libraries, aliases and connections' attributes", "why_tests_cant": "ranges over all sets of names", "anchors": ["postgresql/lib/__init__.py: Category"]}
{"id": "C55", "title": "Rows are converted column by column", "statement": "Each item of a row that is not NULL is given to the processor of its own column and the results are in the same order, NULLs staying None; a row with another number of columns is refused with TypeError; if columns cannot be converted, the first of them is the one reported; a chunk is converted row by row.", "quantifier": "all rows, all processors, all error handlers", "why_tests_cant": "ranges over rows of any width and any failing column", "anchors": ["postgresql/python/functools.py: process_tuple, process_chunk"]}
{"id": "C56", "title": "Values of every type of the catalog are sent and read in the server's format", "statement": "Whatever types were resolved before on the connection, a value of any nesting of arrays, composites and domains is sent with the catalog's type identifiers in the server's format and read back; a composite with a wrong number of columns is refused with TypeError; every type of a catalog without self-containing types is resolved; anonymous records are read to any depth with the types their data tells; the resolution always ends, and a self-containing type is refused.", "quantifier": "all catalogs, all types, all values, all histories of resolution", "why_tests_cant": "types nest to any depth, and the cache depends on the history", "anchors": ["postgresql/driver/pq3.py: TypeIO.resolve, TypeIO.array_io_factory, TypeIO.record_io_factory, TypeIO.anon_record_io_factory, TypeIO.identify"]}
{"id": "C57", "title": "A prepared statement or cursor means its own query for as long as it lives, and is closed on the server when given up", "statement": "Whatever statements and cursors are created, used, closed and collected by Python at whatever moment, and whatever addresses are reused, everything executed or fetched for an object is the query of that object; an open statement is on the server with its query and the portal of an open cursor stays until the server itself drops it; whatever the driver named on the server belongs to a living object or is to be closed, and what was to be closed when a request is pushed is gone before the request becomes current. (Two living statements of one name given by the user are the exception.)", "quantifier": "all histories of creation, use, close(), collection between any two steps of the driver, refusals by the server, and loss of the connection", "why_tests_cant": "garbage collection comes at any moment, and names are made of addresses, which are reused", "anchors": ["postgresql/driver/pq3.py: ID, Statement.__init__, Statement.close, Output.close, Cursor, CursorWithHold", "postgresql/protocol/client3.py: Connection.push, Connection.take_out_trash, Connection.trash_statement, Connection.register_statement"]}
{"id": "C58", "title": "The exception raised for a server error carries what the server sent", "statement": "For every error response that has a code and a message, the exception raised is of the class of its code and has exactly the server's code, message and named details, decoded in the client encoding, or, if they cannot be decoded, as printable text from which the bytes can be read back; no content of the message makes the raising itself fail. (fatal is wrong where the server localizes severities.)", "quantifier": "all field lists, byte contents, encodings and creators", "why_tests_cant": "what servers put in messages, in which encoding, is unbounded", "anchors": ["postgresql/driver/pq3.py: TypeIO.raise_error, TypeIO.raise_server_error, TypeIO.raise_client_error, TypeIO._decode_failsafe, TypeIO.decode_notice", "postgresql/message.py: Message.__init__", "postgresql/exceptions.py: Error.fatal"]}
{"id": "C59", "title": "Every notice reaches the hooks once, in order, attributed to the request it belongs to", "statement": "Every notice the server sends while a request runs is emitted exactly once, in order, decoded with the encoding then in force: to the msghook of the object that made the request, of its prime factor, and so on until one returns true, else to postgresql.sys.msghook; a raising hook or a bad message does not keep later ones from being processed; notifications are kept in order; errors and notices are attributed to the object whose request was running. (Warnings of servers that localize severities are plain messages.)", "quantifier": "all histories of requests, all traffic, all hooks and factor chains", "why_tests_cant": "notices come at any moment of any request and hooks may do anything", "anchors": ["postgresql/message.py: Message.emit", "postgresql/driver/pq3.py: Connection._receive_async, Connection._pq_push, Connection._pq_complete, Connection._pq_step, TypeIO.emit_message, TypeIO.set_encoding", "postgresql/encodings/aliases.py: get_python_name", "postgresql/python/element.py: prime_factor"]}
{"id": "C60", "title": "An error position is shown on the right line and character", "statement": "If the server says that the error is at the n-th character of the statement, the LINE entry of the statement's description shows exactly the line of that character, with tabs as spaces, and below it a mark under that very character with the numbers of its line and column, whatever line breaks the statement has.", "quantifier": "all statements, positions and line breaks", "why_tests_cant": "queries have any mixture of line breaks and tabs before the error", "anchors": ["postgresql/driver/pq3.py: Statement._e_metas"]}
{"id": "C61", "title": "notify() sends exactly the notifications asked for", "statement": "Read as the server reads it, the text notify() executes is the NOTIFYs of the given channels and payloads, in the given order, whatever characters they contain. (listen() and unlisten() do not quote their channels.)", "quantifier": "all channels and payloads", "why_tests_cant": "quoting must hold for every string", "anchors": ["postgresql/driver/pq3.py: Connection.notify, Connection.listen, Connection.unlisten"]}
{"id": "C62", "title": "The text of an exception shows the message, code, place and every detail", "statement": "str() of an exception begins with the message and has an entry for its code, for the place it was raised at, and one for each detail that is not the severity or part of the place, sorted by name, with nothing left out or repeated.", "quantifier": "all messages, codes and details", "why_tests_cant": "details are whatever the server sends", "anchors": ["postgresql/message.py: Message._e_metas, Message.location_string", "postgresql/sys.py: default_errformat", "postgresql/exceptions.py: Error.__str__"]}
{"id": "C63", "title": "Loading rows executes the statement once per row, in whole chunks", "statement": "If load_rows() of a statement with parameters returns, the statement was executed exactly once for every row, in order, with the packed row; if it raises, outside of a transaction block the rows of a whole number of chunks are committed and nothing else, in a block nothing is committed; an unpackable row or an exception of the iterable is raised after the chunks before it and before anything of its chunk, an error of the server is raised after exactly the chunks before; no error is left for the next operation. (An exception of the iterable hides the server's error of the chunk under way; each execution is limited to one row.)", "quantifier": "all rows, chunk sizes, packers, iterables that raise, servers, and losses of the connection at any request", "why_tests_cant": "where a load fails, in the rows, in the packing, on the server or on the wire, is unbounded", "anchors": ["postgresql/driver/pq3.py: Statement.load_rows, Statement.load_chunks, Statement._load_tuple_chunks, Connection._pq_push, Connection._pq_complete", "postgresql/protocol/client3.py: Connection.synchronize", "postgresql/python/itertools.py: chunk"]}
{"id": "C64", "title": "Loading by COPY sends every line once and never ends the data early", "statement": "If loading with a COPY ... FROM STDIN returns, the server got the request, all the lines of all the chunks in order, once each, and the end of the data, and answered without an error; however a load ends, what was sent is a beginning of that, and the end of the data is sent only if the iterable came to its end; an exception of the iterable is raised as it is and the COPY is failed by whatever is done next. (Whose error is then raised by that unrelated operation; a parameterless statement that is not a COPY is executed and then refused.)", "quantifier": "all chunks and lines, iterables that raise, answers of the server in any batches, and losses of the connection at any message", "why_tests_cant": "the interplay of the iterable, the server's messages and the loss of the connection is unbounded", "anchors": ["postgresql/driver/pq3.py: Statement._load_copy_chunks, Connection._pq_push, Connection._pq_step, Connection._pq_complete", "postgresql/protocol/xact3.py: Instruction.sent_from_stdin", "postgresql/protocol/client3.py: Connection.step, Connection.complete"]}
{"id": "C65", "title": "first() gives the first row, the row count or the command of the statement", "statement": "If first() returns, the statement was executed with exactly the converted parameters, all its rows were asked for, the server answered without an error, and the result is: for several columns the first row's converted values, for one column the first row's value, None for NULL or no row; for a statement without columns the row count of the command tag, else the command's name. Wrong parameters are refused before anything is sent; an error of the server is raised; every complete answer gives such a result or a conversion error. (Conversion errors of a single column are not wrapped as column errors; a closed statement is not refused.)", "quantifier": "all statements, parameters, converters, answers of the server in any batches", "why_tests_cant": "the rows, tags and their division over the wire are unbounded", "anchors": ["postgresql/driver/pq3.py: Statement._read_first, Statement.first, Connection._pq_push, Connection._pq_complete", "postgresql/protocol/element3.py: Complete.extract_count, Complete.extract_command"]}
{"id": "C66", "title": "An installation is described as pg_config describes it", "statement": "Every option configure was given is in configure_options with its own value, in order, whatever blanks, dashes or equals signs the value has; the information dictionary has for every name pg_config prints the value printed last and nothing else, also when an old pg_config must be asked name by name; the version, the type, ssl and the paths of the executables that exist follow from it; PGINSTALLATION is preferred to the first pg_config on the PATH. (Quotes and dashes at the end of an option are lost, a version with more than two words is refused, includedir_server is never found.)", "quantifier": "all options, outputs of pg_config, versions, file systems and paths", "why_tests_cant": "what pg_config prints depends on how the server was built", "anchors": ["postgresql/installation.py: parse_configure_options, pg_config_dictionary, Installation, default_pg_config", "postgresql/python/os.py: find_executable, find_file"]}
{"id": "C67", "title": "A temporary cluster's context provides its own connection, and only there", "statement": "In a pg_tmp context the provided names (db, prepare, xact, ...) are those of the innermost context that has not been left, however contexts were nested, failed to be entered or were left by exceptions before; other builtins are never touched; leaving closes the context's connection and those made by new(), each once, and drops exactly the schema made for it; contexts open at the same time have different schemas; a context that cannot be entered raises the reason and counts as not entered. (After the last context, earlier values of the names are lost and new stays; a connection that fails to close keeps the rest open.)", "quantifier": "all nestings, failures and interruptions of contexts", "why_tests_cant": "the order in which contexts are entered, fail and are left is unbounded", "anchors": ["postgresql/temporal.py: Temporal.push, Temporal.pop, Temporal.__enter__, Temporal.__exit__"]}
{"id": "C68", "title": "close() ends a connection once and for good", "statement": "When close() returns, the connection is closed and its socket is closed, exactly once; afterwards nothing is sent or read by whatever is done with the connection and its objects, closed stays true, requests and connect() raise. The running request is completed first, the Terminate message is sent at most once, only after all requests were sent and completed, and nothing follows it, also when close() was interrupted and called again; a connection known to be lost is closed without sending anything. A Connection object is connected at most once; a lost connection stays closed. (connect() after a failed connect() raises AttributeError; the synchronization made by load_rows() after an exception can revive a connection that was reported closed.)", "quantifier": "all histories of requests, failures of the socket, interruptions, close() and connect() calls", "why_tests_cant": "the interleavings of requests with socket failures and interrupted closes are unbounded", "anchors": ["postgresql/driver/pq3.py: Connection.close, Connection.closed, Connection.connect, Connection.state, Connection._pq_push, Connection._pq_complete", "postgresql/protocol/xact3.py: Closing", "postgresql/protocol/client3.py: Connection.push, Connection.complete, Connection.synchronize"]}
{"id": "C69", "title": "Signals go once to the server's process, and running() reports what was just seen", "statement": "reload(), stop(), shutdown() and kill() of a Cluster send SIGHUP, SIGTERM, SIGINT and SIGKILL, exactly once, to the process named by postmaster.pid, or, if there is none, to the child started by start(), and to nothing else; a vanished process is no error; running() never sends a signal other than 0 and answers what it has just seen of the child, the pid file and the process; if nothing changes outside its answer is the truth. (A stale pid file or the number of a child that has ended may name an unrelated process.)", "quantifier": "all contents of the pid file, states of the child and answers of the operating system, at every system call", "why_tests_cant": "other processes may change the pid file and the process table between any two system calls", "anchors": ["postgresql/cluster.py: Cluster.running, Cluster.pid, Cluster.get_pid_from_file, Cluster.stop, Cluster.shutdown, Cluster.kill, Cluster.reload"]}
{"id": "C70", "title": "Starting makes one server, and waiting for it ends when it answers", "statement": "start() does nothing if the server is running and else makes exactly one process, with the daemon and the data directory, after having seen that it is down; wait_until_started() returns only when a running server has just answered at the configured address, raises only for the listed reasons (the daemon ended, was never started, the timeout passed, it is still starting after the timeout, a configuration or protocol error), sends no signals, makes no process and ends within the timeout if the clock runs; restart() makes at most one process, only after the old one was seen to be down, with at most one SIGTERM. (start(settings=...) raises AttributeError; a configuration without explicit listen_addresses and port raises TypeError; a with block that cannot be entered leaves the server running.)", "quantifier": "all behaviours of the operating system, the server and the clock during the calls", "why_tests_cant": "when a server comes up or dies relative to the polling is unbounded", "anchors": ["postgresql/cluster.py: Cluster.start, Cluster.wait_until_started, Cluster.ready_for_connections, Cluster.restart, Cluster.__enter__"]}
{"id": "C71", "title": "Files are removed only after the server is down, and then all of them", "statement": "wait_until_stopped() returns only when the server was just seen to be down, with no living child, raises a timeout only after the timeout, and ends within it; for a server that is the cluster's child there is no other outcome; drop() removes nothing before the server was seen to be down, or SIGINT and SIGKILL were sent and two whole timeouts passed, with a warning; it then removes children before their directories, the whole tree and nothing outside, for every tree without symbolic links to directories. (A server of another process that goes down at the wrong moment makes the wait raise TypeError; a link to a directory, as of a tablespace, stops the removal half way.)", "quantifier": "all behaviours of the operating system, the server and the clock, all directory trees", "why_tests_cant": "the moments at which a server stops, and the trees, are unbounded", "anchors": ["postgresql/cluster.py: Cluster.wait_until_stopped, Cluster.drop"]}
{"id": "C72", "title": "Creating a cluster passes every option and never leaves the password", "statement": "init() runs initdb, or pg_ctl initdb, exactly once, with the data directory, an option for every keyword in the order given, the encoding UTF-8 if none is given, and the extra arguments last; a password is written to a file whose name is all that the command gets of it and which is removed however the call ends; a return code other than 0 raises InitDBError; an unknown keyword, or an installation without the programs, is refused before anything is done.", "quantifier": "all keywords, values, passwords, outcomes of writing the file and of the command", "why_tests_cant": "the failure points and the keyword combinations are unbounded", "anchors": ["postgresql/cluster.py: Cluster.init, initdb_option_map"]}
{"id": "C73", "title": "A cluster is connected to at the address its configuration gives", "statement": "address() gives the port of the configuration file and, of the addresses of listen_addresses, localhost if localhost or * is listed in any case, else 127.0.0.1, else ::1, else the first; connect() tries nothing if the server is not running, and else makes one attempt at that address, localhost and 5432 standing for what is not given. (Blanks after the commas hide the preferred addresses.)", "quantifier": "all configuration files, address lists and states of the server", "why_tests_cant": "configuration files and address lists are unbounded", "anchors": ["postgresql/cluster.py: Cluster.address, Cluster.connect, Cluster.connector"]}
{"id": "C74", "title": "A request for crypt authentication is answered with crypt(3) of the password", "statement": "For every password and every salt of two characters of the crypt alphabet the answer is that of the traditional crypt(3): DES as FIPS 46-3 states it, with the expansion exchanged by the salt, applied 25 times to a block of zeros, printed in the alphabet ./0-9A-Za-z after the salt; a shorter salt is filled up with A; for any salt the answer is the two characters of it and 11 of the alphabet; giving a hash as the salt verifies a password; only the lower 7 bits of the first 8 bytes count; and in every negotiation the password message after such a request is this answer. (Unlike the C function, a zero byte is not the end of the password.)", "quantifier": "all passwords, all salts, all conversations with the server", "why_tests_cant": "there are 2^56 keys and 4096 salts: no test can compare the table-driven implementation with the standard on all of them", "anchors": ["postgresql/resolved/crypt.py: crypt, _set_key, _body, _PERM_OP, _HPERM_OP, _SPtrans, _skb, _con_salt", "postgresql/protocol/xact3.py: Negotiation"]}
{"id": "C75", "title": "Connectors try exactly the addresses their parameters name", "statement": "driver.fit(**params) with a socket file gives a connector that tries that file and nothing else, and a host or port beside it is refused; without one, a host and a port are required, and a numeric IPv6 or IPv4 address is tried itself, once, with the port's number, while any other name is looked up for every connection, restricted to the family asked for, and every address found is tried in that order; ipv must agree with a numeric address and cannot be combined with address_family for a name; a user is required; keywords that no connector knows change nothing; an empty TLS parameter is as good as none, and every attempt uses the same TLS files.", "quantifier": "all parameter dictionaries, all results of the address functions", "why_tests_cant": "parameter combinations and host strings are unbounded", "anchors": ["postgresql/driver/pq3.py: Driver.fit, Connector.__init__, SocketConnector, IPConnector, Unix, Host"]}
{"id": "C76", "title": "The startup packet gives the server exactly the session parameters", "statement": "The server reads from the startup packet of a connector the user, the database if one is given, and the settings, each once and with the value given (in the server_encoding if one is given, else UTF-8), client_min_messages as WARNING unless it is set, nothing else; a list of schemas as search_path is read back name by name; the password is encoded the same way. (A None as search_path in a dictionary is sent as the text None; in settings given as pairs, a list of schemas is sent as Python shows it; a zero character in a user, database or setting is not refused and brings in further parameters.)", "quantifier": "all parameter dictionaries, settings and encodings", "why_tests_cant": "names, settings and schema lists are unbounded, and quoting must be undone by the server for all of them", "anchors": ["postgresql/driver/pq3.py: Connector.__init__", "postgresql/protocol/element3.py: Startup"]}
{"id": "C77", "title": "open() takes every parameter from the keywords, the IRI, the service, the environment or the defaults, in that order", "statement": "For every parameter and every setting separately, open() uses the value of the keywords if they have one, else of the IRI, else of the service named by PGSERVICE, else of the environment, else the default; when the keywords or the IRI name a socket file, the environment, service and defaults add no host or port; the password is prompted for only if that is asked for, else the one given with the same order, else looked up in the password file for the parameters found.", "quantifier": "all IRIs, keywords, environments, service files and password files", "why_tests_cant": "the combinations of sources are unbounded", "anchors": ["postgresql/__init__.py: open", "postgresql/clientparameters.py: collect, normalize, denormalize_parameters, resolve_password"]}
{"id": "C78", "title": "A stored procedure is called with its own statement and answers as it is declared", "statement": "db.proc(identifier) prepares one statement that selects from the function found, schema and name quoted, with one placeholder per argument cast to the type of that argument; an unknown function raises LookupError; calling it gives the rows if it returns a set, the row if it returns a composite, else the single value, for the arguments in the order given, and the statement's errors are raised unchanged. (Keyword arguments always raise; an argument of type character is cast to character(1).)", "quantifier": "all functions of the catalog, names, argument types, arguments and server answers", "why_tests_cant": "names and signatures are unbounded", "anchors": ["postgresql/driver/pq3.py: StoredProcedure", "postgresql/types/io/lib.py, postgresql/types/__init__.py: oid_to_sql_name"]}
{"id": "C79", "title": "float4 and float8 are exchanged as IEEE 754 numbers", "statement": "A float sent as float8 is the big-endian binary64 encoding of exactly that number, and any 8 bytes received give the number they encode; a value sent and received is the same, and so are the bytes of any number but NaN; a float sent as float4 is the encoding of the nearest binary32 number, ties to even, and raises OverflowError if the nearest is out of range; 4 bytes received give exactly the number they encode, and sending it again gives the same bytes.", "quantifier": "all floats, including subnormals, infinities and NaN; all byte strings", "why_tests_cant": "there are 2^64 floats; rounding boundaries must all be right", "anchors": ["postgresql/types/io/builtins.py: float4, float8", "postgresql/python/structlib.py: float_pack, double_pack"]}
{"id": "C80", "title": "Geometric values keep their coordinates", "statement": "A Box made of any two opposite corners has its high point not below or left of its low point, with the coordinates given; a Circle with a negative radius is refused; points, segments, boxes and circles are sent as float8 coordinates in the server's order and come back the same (in a box, 0.0 and -0.0 may be exchanged); sum and product of points do not depend on the order. (A box with a NaN coordinate comes back with that coordinate's corners exchanged.)", "quantifier": "all coordinates that are floats", "why_tests_cant": "coordinates range over all floats", "anchors": ["postgresql/types/geometry.py: Point, Lseg, Box, Circle", "postgresql/types/io/pg_geometry.py"]}
{"id": "C81", "title": "A prepared statement describes itself, and says which value could not be converted", "statement": "Names and types of the columns and the types of the parameters are those the server gave, in order, and None stands for columns a statement does not have; calling it with the wrong number of parameters raises TypeError, and nothing is sent unless every parameter could be converted; else the error names the first parameter, or the first column of the first row, that could not be, its number, type and value; the rows of all chunks are given in order, each value converted by the function of its column and NULL as None. (column() raises TypeError in place of such a report, and for a NULL; cursors made by cursor_from_id raise AttributeError; parameters are always declared to be binary.)", "quantifier": "all descriptions, parameters, rows and conversion functions", "why_tests_cant": "descriptions and rows are unbounded and any conversion may fail at any place", "anchors": ["postgresql/driver/pq3.py: Statement._fini, Statement._pq_parameters, Statement._raise_parameter_tuple_error, Output._raise_column_tuple_error, Statement.column_names, Statement.__call__, Output._process_tuple_chunk"]}
{"id": "C82", "title": "Rows as namedtuples have one field for each column", "statement": "namedtuples(stmt) and NamedTupleFactory give rows whose type has exactly one field for each column, all different: the column's name with its blanks as underscores if that is a Python identifier, no keyword, without a leading underscore and not the name of an earlier column, else an underscore and the column's number; every value is found under its field; the same column names always give the same type and different ones different types, whatever was asked for before; all rows of all chunks are given in order. (NamedTupleFactory raises TypeError for every row if two columns have the same name; two names that Python's parser takes for the same raise SyntaxError.)", "quantifier": "all lists of column names, rows, chunkings and orders of requests", "why_tests_cant": "column names are arbitrary text and the type cache is shared by the whole program", "anchors": ["postgresql/types/namedtuple.py: _factory, NamedTupleFactory, namedtuples"]}
{"id": "C83", "title": "A configuration file is changed only by a complete edit that was computed before it is touched", "statement": "Every operation of ConfigFile that fails before writing (an unreadable file, a value that cannot be converted) leaves the file as it was; one that succeeds leaves exactly the text of the edit, which reads back as the new settings with every other line unchanged; reading operations never write; and pg_dotconf applies exactly the settings of its command line, in order, or, if one of them is malformed, nothing at all. (The file is emptied before it is written, so that a crash in between loses every setting; leaving a with block raises AttributeError and restores nothing; iteration raises TypeError; pg_dotconf -f raises NameError.)", "quantifier": "all files, settings, command lines, failures of the file system and crash points", "why_tests_cant": "files and edits are unbounded, and the process may end between any two operations on the file", "anchors": ["postgresql/configfile.py: ConfigFile.update, ConfigFile.__setitem__, ConfigFile._save, ConfigFile.__enter__, ConfigFile.__exit__, ConfigFile.getset", "postgresql/bin/pg_dotconf.py: command"]}
{"id": "C85", "title": "An element traceback shows every object that led to an error, once, and always ends", "statement": "format_element() of an object always ends: with a text, or with RecursiveFactor exactly if going from factor to factor leads to an object equal to an earlier one (for objects that have the attributes they name); the text shows each object by its label, its metas and its other factors in order, each on a line of its own, or on indented lines under its name if it is longer than 70 characters or has several lines, and then its prime factor; so that the prime factors, from the object to the driver, follow one another, each with its label at the beginning of a line. (prime_factors() gives something else: it looks for the name of the first object's factor in all objects.)", "quantifier": "all finite graphs of objects, cyclic ones included, with arbitrary labels, metas and texts", "why_tests_cant": "graphs and texts are unbounded and cycles can be of any length", "anchors": ["postgresql/python/element.py: format_element, prime_factor, prime_factors", "postgresql/python/string.py: indent"]}
{"id": "C84", "title": "A procedural code block reaches the server exactly as it was given", "statement": "do(language, source) sends exactly one Query message, and what the server reads from it is a DO statement with exactly that source and that language, whatever quotes, semicolons or dollars they contain, and no other reading exists; execute(query) sends exactly the given text, when it can be encoded and is not too long for a message, and otherwise nothing. (Not when the text contains a NUL, which is sent and ends the statement early for the server; and not when standard_conforming_strings is off, where a block can end early and the rest run as other statements.)", "quantifier": "all sources, language names, queries and session encodings", "why_tests_cant": "texts are arbitrary and unbounded", "anchors": ["postgresql/driver/pq3.py: Connection.execute, Connection.do", "postgresql/string.py: quote_literal, quote_ident", "postgresql/protocol/element3.py: Query"]}
{"id": "C86", "title": "Interrupting a connection sends one cancel request over its own socket and leaks none", "statement": "interrupt() sends exactly one CancelRequest, with the process id and the key of the connection's backend, to the server's address through a socket made for it that is closed exactly once however the request ends; if it fails, at most a beginning of the request was sent; the connection's socket and every other is not touched, and nothing happens before the server has told the process id. SocketFactory gives a connected socket without a time limit, or closes the one it made, once, if anything raises an Exception. find_available_port gives the port of a socket bound to localhost and always closes it. (A KeyboardInterrupt during connect leaves the socket open; the timeout of interrupt() does not limit sending; find_available_port ignores its interface argument; an error that has only a text, like socket.timeout, is not taken as fatal nor as one to try again.)", "quantifier": "all outcomes of all calls of the socket module, in any order, and all addresses, ids and timeouts", "why_tests_cant": "every operation may fail with any exception, dependent on all that happened before", "anchors": ["postgresql/python/socket.py: SocketFactory.__call__, SocketFactory.try_again, SocketFactory.fatal_exception_message, find_available_port", "postgresql/protocol/client3.py: Connection.interrupt"]}
{"id": "C88", "title": "A Python command runs exactly the code it was told to, in order, and gives the script's exit code", "statement": "Execution runs the code of the -C options in order up to the first that fails, then, only if all of them ended normally, the main that -m, -c, the first argument or standard input selects, once, with its file name and the remaining arguments as sys.argv, all in the namespace of one new __main__; the result is 0, the code of main's SystemExit, or 1 for another exception, whatever the postmortem object does, which is called exactly if main raised; and however it ends sys.argv, the contents of os.environ and the modules __main__ and __context__ are what they were. (SystemExit in a -C option gives 1; a module that was absent is None afterwards; os.environ is a plain dict afterwards, so that the environment of child processes is neither restored nor can it be changed.)", "quantifier": "all code, which may do anything to the interpreter and raise anything, all options and arguments, files and modules", "why_tests_cant": "the code that is run is arbitrary", "anchors": ["postgresql/python/command.py: Execution, postmortem, find_loader, append_context, single_loader, file_loader"]}
{"id": "C89", "title": "pg_python leaves the interpreter's builtins and the server in order", "statement": "While the script runs, the eight names (db, prepare, ...) are in builtins and all others as before; afterwards each of them that existed has its value again. The connection is closed properly after a script that ended normally, by an Exception, or by SystemExit with success; its socket is dropped after an unsuccessful SystemExit or a KeyboardInterrupt. No code is run without a connection, and connecting is tried again, with a prompt, exactly as long as it is the authentication that is refused. (Names that did not exist stay in builtins with the value None; the current directory and --libpath stay in the library path after a normal end.)", "quantifier": "all scripts, connection attempts and contents of builtins", "why_tests_cant": "the script is arbitrary, and attempts can go on without end", "anchors": ["postgresql/bin/pg_python.py: command"]}
{"id": "C87", "title": "An XML value is sent whole in the session's encoding and received as elements", "statement": "A str, an Element or a tuple of both given for an xml parameter is sent as exactly what the session's codec makes of its XML text, the items one after the other, whatever the session's encoding is; if a character has no code in it nothing is sent; bytes are sent as they are and anything else is refused. A received document is its root element and any other content the tuple of its elements in order, so that an element without tail and a sequence of several elements come back as they were sent. (Not so a tuple of one element, which comes back as the element, nor text at the top level, which is lost; an ElementTree, the type the driver announces for xml, cannot be sent.)", "quantifier": "all texts, elements and tuples, all session encodings, all received data", "why_tests_cant": "texts and documents are unbounded, and the XML library and the codec are arbitrary", "anchors": ["postgresql/types/io/stdlib_xml_etree.py: xml_pack, xml_unpack, xml_io_factory"]}
{"id": "C90", "title": "The console runs its backslash commands, and only those, itself", "statement": "In the console a line that begins with a backslash, outside of an unfinished statement, never raises, is never run as Python and leaves no statement unfinished; every other line goes to Python unchanged, with the lines before it of the same statement. \\set writes and sets the environment's variables word by word, up to the first that is refused; \\i executes the named files in order, up to the first that cannot be loaded; \\E edits them all at once and executes nothing; \\e executes them if the editor could be run. A name without directory stands for the same temporary file for as long as the console lives, and no two names share one unless they differ in white space around and case only. An unknown command does nothing but tell so. (But \\x never executes a command, and \\i looks for the lower-cased name in the current directory.)", "quantifier": "all sequences of lines, environments, editors and files", "why_tests_cant": "histories of a console are unbounded, and what the files, the editor and Python do is arbitrary", "anchors": ["postgresql/python/command.py: ExtendedConsole"]}
{"id": "C91", "title": "Bit strings behave as the sequences of their bits", "statement": "Varbit of a text of zeros and ones is the bit string of those digits, and no text with any other character than those int() takes for base 2 is accepted. Slices, concatenation with text and comparison with a bit string or a text give what they give for the texts of the bits. (But comparing a single bit with a bit string of another length raises, as does an empty slice of a single bit; iterating raises; truth is whether there are bits; and prefixes, signs and blanks of int() are accepted.)", "quantifier": "all texts, bit strings and slices", "why_tests_cant": "bit strings are unbounded, and the packing into bytes has a case for every remainder", "anchors": ["postgresql/types/bitwise.py: Varbit, Bit"]}
{"id": "C92", "title": "A DB-API cursor describes the last statement that was executed", "statement": "After any operations on a DB-API cursor, description has the name and type code of each column of the last statement executed, in order, and is None if it had no columns or the cursor is closed; rowcount is the count of a statement without columns and -1 otherwise. executemany() resets the row count only, failed executions and fetching change neither, and a closed cursor refuses everything. The type codes are those of the module for exactly the types text, \"char\", varchar, name, cstring, bytea, the integers, timestamp and oid. (But callproc() and nextset() leave the description of another statement, and character(n), float, numeric, date and time columns have no type code.)", "quantifier": "all histories of a cursor and all columns", "why_tests_cant": "histories are unbounded, and the statements and their columns are arbitrary", "anchors": ["postgresql/driver/dbapi20.py: Cursor, dbapi_type"]}
{"id": "C93", "title": "pg_python understands its command line in every spelling, and exactly those", "statement": "A command line of pg_python is accepted exactly when it consists of options, each written as its letter with the value joined or in the next argument, or as its word or an unambiguous beginning of it with the value after = or in the next argument, any number of -W sharing an argument with what follows, then nothing, or -- or a first other argument and the rest. Then it means the list of these options in their order, whatever values look like, and the arguments from there on are the program's, untouched; -c and -m end the options as well. A setting is split at its first =. In collect() the last option for a parameter decides it. A letter that is not an option ends with status 2 and nothing is run. (But a setting without = ends in a NameError.)", "quantifier": "all command lines", "why_tests_cant": "command lines are unbounded, and spellings, clusters, abbreviations and values that look like options combine freely", "anchors": ["postgresql/clientparameters.py: append_db_client_parameters, append_settings, append_db_client_x_parameters, DefaultParser", "postgresql/python/command.py: append_context, set_python_main", "postgresql/bin/pg_python.py: command"]}
