#!/usr/bin/env python3
# Writes properties.jsonl from the table below (kept in one place so ids stay unique).
import json
P=[]
def p(id,title,statement,quantifier,why,anchors):
    P.append(dict(id=id,title=title,statement=statement,quantifier=quantifier,why_tests_cant=why,anchors=anchors))

p("C01","Message stream is independent of how the network chunks the data",
 "Whatever interleaving of write(), read(n), next_message(), len(), has_message(), getvalue() and truncate() is applied to a message stream, it behaves as a plain FIFO of the bytes written: the internal compaction never loses, duplicates or reorders a byte, and the messages returned depend only on the concatenation of the chunks written, not on where they were cut.",
 "all sequences of operations, all byte strings, all chunkings, any buffer size (compaction included)",
 "compaction starts only past 2048 consumed bytes and depends on block alignment; chunkings are unbounded",
 ["postgresql/protocol/pbuffer.py: pq_message_stream"])
p("C02","Message stream never returns a partial message and never holds back a complete one",
 "has_message() is true exactly when the next read would return a message; a message is returned iff all of its declared bytes have been written, its body has exactly the declared length, and a declared length below 4 is reported as an error without consuming anything. len() is the number of messages that read() would return.",
 "all buffer contents", "declared lengths range over 2^32 values and boundaries move with chunking",
 ["postgresql/protocol/pbuffer.py: has_message, __len__, read, next_message"])
p("C03","Serialised batches decode back to the messages that were sent",
 "The bytes produced for a sequence of outgoing messages (ordinary messages, raw COPY lines given as bytes, tuple rows) split, on the receiving side, into exactly the same number of messages, in the same order, with the same types and bodies.",
 "all sequences of messages of any length and content below the 2^31 frame limit", "framing is compositional over unbounded batches",
 ["postgresql/protocol/element3.py: cat_messages, Message.bytes, pack_tuple_data", "postgresql/protocol/pbuffer.py"])
p("C04","Every protocol message round-trips through serialize and parse",
 "For every protocol-3 message type with both a serializer and a parser, parse(serialize(m)) = m for every message m meeting the wire constraints (no NUL in NUL-terminated strings, counts and sizes within field width); outside the constraints the serializer raises rather than emitting a frame that decodes to something else.",
 "all message types and all field values", "field values are unbounded strings/lists and 16/32-bit integers",
 ["postgresql/protocol/element3.py"])
p("C05","Row data decode is exact",
 "A data row decodes to the list of attributes that was encoded, NULL distinguished from the empty string, and a row frame whose declared attribute sizes do not match the data is rejected.",
 "all rows: any number of attributes up to 65535, any contents", "sizes and NULL markers are data dependent",
 ["postgresql/protocol/element3.py: Tuple.parse, Tuple.serialize", "postgresql/python/structlib.py"])
p("C06","Fixed-width integers: exact round trip, out-of-range values rejected",
 "int2/int4/int8/oid and the unsigned variants: unpack(pack(x)) = x for every x in range; values out of range raise, never wrap; unpack of any correctly sized input packs back to the same bytes.",
 "all integers, all byte strings of the right size", "2^64 values",
 ["postgresql/python/structlib.py","postgresql/types/io/lib.py","postgresql/types/io/builtins.py"])
p("C07","numeric values survive the wire exactly",
 "A finite Decimal sent as numeric and read back denotes the same number with the same display scale; NaN maps to NaN; every group sent is in 0..9999.",
 "all finite decimals (sign, digit tuple, exponent)", "digit strings are unbounded and the group alignment depends on exponent mod 4",
 ["postgresql/types/io/stdlib_decimal.py: numeric_pack, numeric_unpack","postgresql/types/io/lib.py: numeric_pack, numeric_unpack"])
p("C08","date/time/timestamp/interval values survive the wire",
 "date, time, timetz, timestamp, timestamptz and interval values in the supported range: unpack(pack(v)) = v to the microsecond, for 64-bit integer representations; the infinities map to the infinity codes only.",
 "all dates, times, offsets and durations", "calendar/epoch arithmetic over the whole range, negative values and borrow",
 ["postgresql/types/io/stdlib_datetime.py","postgresql/types/io/lib.py"])
p("C09","Composite (record) values round-trip and malformed records are rejected",
 "record_unpack(record_pack(fields)) = fields including NULLs; the declared column count, per-attribute sizes and absence of trailing data are enforced.",
 "all field lists, all byte strings", "nested length-prefixed encodings of unbounded size",
 ["postgresql/types/io/lib.py: record_pack, record_unpack"])
p("C10","Array values round-trip on the wire",
 "array_unpack(array_pack(a)) returns the same element type, dimensions, lower bounds and elements (NULLs included), for arrays of any dimensionality.",
 "all dimension lists, bounds and element lists", "unbounded structure",
 ["postgresql/types/io/lib.py: array_pack, array_unpack, elements_pack, elements_unpack"])
p("C11","Decoding of server supplied values always terminates with a value or an error",
 "For any bytes, the array/record/row/hstore decoders terminate and either return a value accounting for all of the declared data or raise.",
 "all byte strings", "non-termination and silent truncation only show on adversarial inputs",
 ["postgresql/types/io/lib.py: elements_unpack","postgresql/python/structlib.py: split_sized_data","postgresql/types/io/contrib_hstore.py"])
p("C12","hstore, bool, jsonb, bit string and other simple codecs round-trip",
 "For hstore (any dict with unique keys, NULL values allowed), bool, jsonb, varbit, uuid, macaddr: unpack(pack(v)) = v, and duplicate keys / bad counts / unknown version bytes are rejected.",
 "all values of each type", "unbounded contents",
 ["postgresql/types/io/contrib_hstore.py","postgresql/types/io/stdlib_jsonb.py","postgresql/types/io/lib.py","postgresql/types/io/builtins.py","postgresql/types/bitwise.py"])
p("C13","Network addresses survive the wire",
 "cidr/inet/macaddr values: unpack(pack(x)) = x for every address, family and mask, and an inet host without a mask is sent as a host (full prefix) address.",
 "all addresses and prefix lengths", "2^128 addresses",
 ["postgresql/types/io/lib.py: net_pack, net_unpack, macaddr_pack, macaddr_unpack","postgresql/types/io/pg_network.py"])
p("C14","Array: flat and nested forms are inverse, indexing agrees with nesting",
 "Array.from_nest(nested) followed by nest() gives the nested lists back; from_elements(elements, dims) keeps element order, rejects a mismatching element count; indexing a[i] (positive or negative, in range) agrees with the nested list; out of range indexing raises IndexError.",
 "all rectangular nested lists of any depth, all indices", "unbounded depth and dimensions",
 ["postgresql/types/__init__.py: Array"])
p("C15","Row access by name, position, slice and get() agree",
 "For a Row: row[i], row[name], row.get(i), row.get(name), keys(), items(), from_mapping and transform are consistent with the column list and the tuple; get() returns the default exactly when row[...] would raise.",
 "all rows, all keys and integer positions", "negative/edge indices and unbounded widths",
 ["postgresql/types/__init__.py: Row"])
p("C16","Quoted literals and identifiers cannot be broken out of",
 "quote_literal(s) scanned by a standard-conforming SQL lexer is exactly one string constant denoting s with nothing left over; likewise quote_ident(s) is one quoted identifier denoting s.",
 "all strings, followed by any SQL text not starting with a quote", "SQL injection safety is a for-all statement",
 ["postgresql/string.py: quote_literal, quote_ident, escape_literal, escape_ident"])
p("C17","Qualified names round-trip",
 "split_qname(qname(*parts)) = parts for all non-empty parts; the 'only quote if needed' variants produce text that denotes the same identifiers to the server.",
 "all lists of identifiers", "arbitrary strings with dots, quotes and case",
 ["postgresql/string.py: qname, qname_if_needed, needs_quoting, split_ident, split_qname"])
p("C18","Statement splitting never cuts inside a quotation",
 "string.split() partitions the text into quoted and unquoted parts with unsplit(split(s)) = s; split_sql only separates at separators outside of quotations.",
 "all strings", "quotation nesting is data dependent",
 ["postgresql/string.py: split, unsplit, split_using, split_sql"])
p("C19","bytea escape codec is lossless",
 "decoding to text and encoding back gives the original bytes for every byte string; malformed escapes are rejected.",
 "all byte strings / all texts", "unbounded strings",
 ["postgresql/encodings/bytea.py"])
p("C20","Version strings parse and print consistently",
 "normalize/unsplit of split version strings yields an equivalent version; ordering comparisons of normalised versions agree with release order.",
 "all version strings of the documented form", "unbounded numerals and optional parts",
 ["postgresql/versionstring.py"])
p("C21","Password file: escaping round-trips and the first matching entry wins",
 "A pgpass line made by escaping ':' and backslash in five fields parses back to those five fields; lookup returns the password of the first entry all of whose fields match or are '*', or none.",
 "all field strings, all entry lists, all queries", "unbounded files and escapes",
 ["postgresql/pgpassfile.py"])
p("C22","RI parsing is lossless",
 "unsplit(split(s)) = s for every string; netloc split/unsplit round-trips.",
 "all strings", "delimiter interactions over arbitrary strings",
 ["postgresql/resolved/riparse.py: split, unsplit, split_netloc, unsplit_netloc"])
p("C23","Connection IRIs denote the parameters they were built from",
 "parse(serialize(params)) = params for every user, password, host, port, database, settings combination; obscured serialization never contains the password.",
 "all parameter dictionaries", "escape interactions over arbitrary strings",
 ["postgresql/iri.py: structure, construct, parse, serialize"])
p("C24","Configuration file edits take effect and touch nothing else",
 "After altering a configuration file with a map of settings, reading it gives each altered setting its new value (None: absent), every other setting its former value, and every unrelated line byte-for-byte unchanged.",
 "all files (any line list) and all setting maps", "duplicates, comments and quoting interact",
 ["postgresql/configfile.py: alter_config, read_config, parse_line, unquote, write_config"])
p("C25","A protocol transaction completes only when the server has answered all of its commands, in order",
 "An instruction is complete without a fatal condition only after every command's terminating response was received; responses are attributed to commands in order; each received message is accounted exactly once.",
 "all command sequences and all server message streams", "unbounded pipelines and server behaviours",
 ["postgresql/protocol/xact3.py: Instruction"])
p("C26","Protocol processing does not depend on message batching",
 "Feeding a transaction the same server messages in different batches gives the same final state, completed responses and asynchronous deliveries.",
 "all partitions of all message sequences", "batch boundaries depend on network timing",
 ["postgresql/protocol/xact3.py: Instruction.standard_put, put_copydata, put_tupledata"])
p("C27","After a server error processing resumes at the next synchronization point only",
 "An ERROR response makes the transaction skip exactly the commands up to the next Sync (none if the command is a simple query or function call), a non-ERROR severity is fatal, and the error is recorded.",
 "all command sequences and error positions", "unbounded pipelines",
 ["postgresql/protocol/xact3.py: Instruction.standard_put"])
p("C28","Asynchronous messages are delivered exactly once",
 "Each NOTICE, NOTIFY or parameter status message received during a transaction is delivered to the handler exactly once, in order.",
 "all message streams and batchings, including interrupted handlers", "duplicates and re-processing depend on timing",
 ["postgresql/protocol/xact3.py: Instruction, Negotiation"])
p("C29","The password is only sent when the server asks for it",
 "During negotiation nothing but the startup message is sent before the server requests authentication; a password message is sent only in answer to a cleartext/crypt/md5 request and in the requested form; unsupported requests end in an error without sending anything.",
 "all server message sequences", "adversarial servers",
 ["postgresql/protocol/xact3.py: Negotiation"])
p("C30","A connection is usable only after authentication, backend key and ready-for-query",
 "Negotiation completes without a fatal condition only if the server sent AuthenticationOk, BackendKeyData and ReadyForQuery in this order (async messages interspersed); any other message yields a fatal condition.",
 "all server message sequences and batchings", "adversarial servers",
 ["postgresql/protocol/xact3.py: Negotiation"])
p("C31","Bytes are sent exactly once and in order despite partial sends",
 "For any behaviour of the socket (partial sends, retryable errors), the bytes put on the wire are a prefix of the concatenated serialisation of the message batches in order; when writing is finished they are equal.",
 "all socket behaviours and message batches", "partial sends are timing dependent",
 ["postgresql/protocol/client3.py: Connection.send_message_data, standard_write_messages, step, complete"])
p("C32","Garbage cursors and statements are closed exactly once",
 "Every identifier trashed is eventually part of exactly one Close batch followed by a Sync, none is closed twice, and identifiers trashed while a batch is being prepared are kept for the next one.",
 "all interleavings of trash and collection", "timing of the garbage collector",
 ["postgresql/protocol/client3.py: take_out_trash, trash_cursor, trash_statement"])
p("C33","sslmode=require never falls back to plaintext",
 "With sslmode require every socket on which startup data is sent was upgraded to SSL; with disable no SSL is attempted; prefer/allow attempt the documented sequence; an unexpected negotiation byte is an error.",
 "all host lists and server behaviours", "server behaviour is adversarial",
 ["postgresql/driver/pq3.py: Connection._establish","postgresql/protocol/client3.py: Connection.connect, negotiate_ssl"])
p("C34","Streamed results contain every row exactly once, in order",
 "rows()/chunks()/all() return, over any chunk size and any number of rows, exactly the rows the server would return, in order, and stop.",
 "all result sets and chunk sizes", "boundary at exact multiples of the chunk size",
 ["postgresql/driver/pq3.py: Chunks, FetchAll, MultiXactStream"])
p("C35","DB-API cursor fetches deliver every row exactly once in order",
 "Any mix of fetchone/fetchmany(n)/fetchall/iteration on a DB-API cursor returns consecutive segments of the result whose concatenation is a prefix of the result, and fetchall exhausts it.",
 "all interleavings of fetch calls and chunk sizes", "buffer boundaries",
 ["postgresql/driver/dbapi20.py: Portal, Cursor"])
p("C36","DB-API parameter conversion preserves the statement",
 "%s / %(name)s parameters are replaced by $n positions, each bound to the right argument; literals and %% are preserved.",
 "all statements and parameter sets", "quotation interaction",
 ["postgresql/driver/dbapi20.py: percent_parameters, convert_keywords, Cursor._convert_query"])
p("C37","Transaction blocks nest and always leave the server where they found it",
 "Properly nested with-blocks of transactions issue START/COMMIT/ROLLBACK at the outermost level and SAVEPOINT/RELEASE/ROLLBACK TO inside; on exit of the block, normal or exceptional, the server is at the nesting level it had on entry; changes of a failed block are not kept.",
 "all nestings and failure points", "unbounded nesting and failure interleavings",
 ["postgresql/driver/pq3.py: Transaction"])
p("C38","Settings cache and settings blocks are coherent with the server",
 "Reading a setting gives the value in force on the server; a 'with db.settings(...)' block restores the former values on exit.",
 "all histories of set/get/reset/rollback", "cache coherence is a history property",
 ["postgresql/driver/pq3.py: Settings, SettingsCM"])
p("C39","Advisory lock objects hold the server lock exactly while locked() is true",
 "For every sequence of acquire/release (blocking and non-blocking, reentrant) the server-side lock count is positive iff locked(); a failed non-blocking acquire leaves no lock behind.",
 "all operation sequences, any number of lock identifiers", "histories are unbounded",
 ["postgresql/alock.py: ALock"])
p("C40","COPY stream tracking is independent of chunking and counts messages exactly",
 "However a COPY stream of messages is cut into buffers, the tracker reports the same total number of complete messages, stops at the first non-COPY message and gives back exactly the bytes from there on.",
 "all streams and all cuts", "cuts inside headers",
 ["postgresql/copyman.py: WireState, ProtocolProducer"])
p("C41","A failed receiver never affects the others in a COPY distribution",
 "Every receiver that does not fault receives all messages produced, in order; a faulted receiver receives a prefix (on message boundaries after reconciliation) and is reported.",
 "all fault schedules", "fault timing",
 ["postgresql/copyman.py: CopyManager"])
p("C42","Notifications are neither lost nor duplicated, idle events never overtake them",
 "NotificationManager yields each received notification exactly once in order, per connection, and a timeout event only when there was nothing pending.",
 "all event schedules", "timing",
 ["postgresql/notifyman.py: NotificationManager"])
p("C43","Client parameter precedence",
 "normalize/collect resolve parameters so that later sources override earlier ones, settings are merged, and environment variables map to the documented parameters.",
 "all parameter sources", "arbitrary combinations",
 ["postgresql/clientparameters.py"])
p("C44","Row transformation processes exactly the right columns and reports the failing one",
 "process_tuple applies the i-th routine to the i-th item, passes NULL through, refuses a length mismatch and reports the index of the first failing item; process_chunk does so for each row in order.",
 "all rows, routine lists and failures", "unbounded width",
 ["postgresql/python/functools.py"])
p("C45","Every SQLSTATE maps to the most specific exception class",
 "An error code resolves to the class registered for that code, otherwise to the class of its two-character class, otherwise to the default.",
 "all codes and registries", "all 36^5 codes",
 ["postgresql/exceptions.py: code_lookup, map_errors_and_warnings, ErrorLookup, WarningLookup"])
p("C46","Chunking iterators lose nothing",
 "itertools.chunk(it, n) yields chunks whose concatenation is it, all but the last of size n; interlace preserves the order of each source.",
 "all iterables and sizes","unbounded",
 ["postgresql/python/itertools.py"])
import sys
sys.path.insert(0, __import__('os').path.dirname(__file__))
try:
    from moreprops import MORE
    P.extend(MORE)
except ImportError: pass
assert len({x['id'] for x in P})==len(P)
open(__import__('os').path.join(__import__('os').path.dirname(__file__),'..','properties.jsonl'),'w').write(''.join(json.dumps(x)+'\n' for x in P))
