Where the code does not keep what its documentation or its users may expect, the model shows it: either a theorem `Cnn_..._refuted`
(a concrete execution of the model that breaks the full statement) or a note here of something seen while the model was written.

**Protocol, connection**
* `step()` after a send that failed fatally lets `op()` overwrite `Complete`; end of file in `put_copydata`/`put_tupledata` raises IndexError; a failing `cat_messages` makes the connection fatal for ever.
* Equal asynchronous messages in one batch are delivered once (C28_exactly_once_refuted); a `put` that raises has its batch's messages delivered again.
* Results of the batch in which an error ends a transaction are dropped (C26).
* Asynchronous messages received while trash is taken out or in `synchronize()` are dropped silently (the default asynchook); notices of the negotiation too.
* The message that confirms a password is not checked to be an authentication message (C30).
* SSL: with `prefer` a failing handshake never falls back; an error raised while negotiating aborts all further hosts and leaks the socket (C33); `PROTOCOL_TLS_CLIENT` without CA always fails verification.
* `load_rows`' handler calls `synchronize()`, which replaces a fatal transaction: a connection reported closed can become open again (C68_revived_refuted), and Sync may follow Terminate; `connect()` after a failed connect raises AttributeError (C68_reconnect_refuted).

**Types**
* NaN numerics can neither be sent nor received (C07); dates: the last and first values coincide with the infinities, timestamptz infinities are naive, timetz offsets lose their seconds and have the wrong sign for the server, 24:00:00 is unreadable (C08).
* `pack_tuple_data`-level and parse strictness: negative column counts, negative array element sizes (endless loop), truncated elements accepted (C05, C09, C11); oidvector/int2vector packing and `Varbit.getbit` always raise (C12); host addresses are sent with prefix 0 (C13); `Varbit.__nonzero__` is Python 2, so bool(ZeroBit) is True.
* Array: integer indexes -1, len and below of multi-dimensional arrays raise ValueError, strings are taken as rows (C14); Row: get(-len) is None, repeated column names misalign items() (C15).
* Float date/time formats: a time may come back one microsecond less (C08_float_refuted), far timestamps up to 31 off, the last microseconds of year 9999 cannot be read back.
* Box: a NaN coordinate comes back with its corners exchanged (C80_nan_refuted), 0.0 and -0.0 may be exchanged; `Point.__div__` is Python 2 and its formula is wrong.
* TypeIO: pairs cached for ever, so ALTER TYPE makes a composite unreadable (C56_altered_refuted); identify() after use has no effect on composites (C56_identify_refuted); the anonymous record pair is a 2-tuple (type_from_oid IndexError); type_from_oid of an uncached oid raises UnboundLocalError.
* Stored procedures: arguments of type bpchar are cast to CHARACTER, i.e. character(1), and so cut (C78_character_refuted); keyword arguments always raise (C78_keywords_refuted).

**Statements and cursors**
* MultiXactStream ends silently when its failed request was completed by another operation or after its own exception (C34_stream_truncated_refuted); if `_pq_push` raises in `__next__` the new request is never sent; chunks() may yield empty lists.
* column() of a column with a NULL, or with a value that cannot be converted, raises TypeError from `next(range)` (C81_column_null_refuted, C81_column_refuted); conversion errors of cursor_from_id's cursors raise AttributeError (C81_cursor_refuted); first(): errors of a single column are not wrapped, a closed statement is not refused; `_fini` always uses binary input formats (`x is None` tests an oid); line 1120 `_output_attmap` is a zip, not a dict; cursor_from_id calls `_init` twice; `Statement.__call__` does not check closed, chunks()/declare() of a closed statement still work outside a block; two statements with the same user-given name share it (C57_user_names_refuted).
* Cursor with direction BACKWARD: seek FORWARD/BACKWARD k becomes ABSOLUTE k, 'ALL' and negative absolute positions are not inverted (C51).
* Loading: an exception of the iterable hides the server's error of the chunk under way (C63_error_lost_refuted), Execute asks for one row only, load_rows on a parameterless statement that is no COPY executes it once and then raises '--OPE', chunksize 0 never ends; a COPY whose iterable raises leaves its transaction, so the next operation raises (C64_next_refuted).
* copyman: late reconcile sends garbage, an interrupt loses other receivers' data, an abandoned COPY may be reported as done (C41); StatementProducer.confiscate raises AttributeError; a malformed length below 4 leaves WireState stuck.
* notifyman: see C42's refuted theorems. alock: release() of a re-entered lock drops the server lock; an interrupted acquire keeps locks (C39).
* Transaction: the messages for ';' in isolation/mode are swapped; a BaseException leaves the transaction open (C37). DB-API: a refused COMMIT leaves an autocommit-like state, commit() of a failed transaction silently rolls back (C49); fetchmany(-1) repeats rows (C35); `%%` is halved only in unquoted parts with a placeholder, `%s0` becomes `$10`, extra dictionary keys are refused (C36).
* Settings: the cache is stale after a rollback or a SET by SQL of unreported settings (and then setting the remembered value sends nothing), spellings have separate entries, the documented `with db.settings(...)` of an unset name raises KeyError, `del settings.path` keeps the cache, the empty path is unreadable, settings[k] = None does nothing if uncached, a raising callback leaves a stale value (C38, C50).
* Messages: localized severities give plain Message and fatal False (the 'V' field is unknown) (C58, C59); a stale `_controller` keeps objects alive; an error position at the end of the text marks its last character; listen/unlisten do not quote (C61_listen_refuted).
* Exceptions: the 54xxx classes derive from the builtin OverflowError and are never found; the class of 22019 is replaced by a second EscapeCharacterError (C45).

**Connecting**
* A NUL in user, database or settings brings further parameters into the startup packet (C76_nul_refuted); search_path None in a dict is sent as 'None' (and popped from the connector's settings); search_path as a list in settings given as pairs is not joined; unknown keywords are ignored; address_family is ignored for numeric addresses; `[ipv]=4` of an IRI is a str and refused; PGHOST starting with '/' is a host name; crypt() does not end a password at a zero byte (C74_nul_refuted).
* clientparameters: PGTZ, PGDATESTYLE, PGCLIENTENCODING, PGGEQO are never yielded, PGREQUIRESSL gives a tuple (C43).
* IRI, password file, version strings, bytea codec, string splitting, configuration file: see the refuted theorems of C17-C24.

**Cluster, installation, temporal, libraries**
* start(settings) AttributeError (tuple.append); ready_for_connections/wait_until_started raise TypeError when listen_addresses or port is not explicit in postgresql.conf; stop/kill signal the number of an already reaped child; a stale or negative pid in the pid file is signalled (-pid: a process group); any IOError on the pid file is "absent", an empty pid file raises ValueError; wait_until_stopped on a server that is no child races (TypeError or ProcessLookupError); a failing `__enter__` leaves the server running; drop fails on links to directories; blanks in listen_addresses hide the preferred hosts; a child that ended leaving its pid file gives "has not been started"; repr(cluster) raises KeyError; the 'stdout' detail of InitDBError is stderr; the pg_ctl initdb fallback gets -E, unknown to pg_ctl.
* Installation: trailing dashes and quotes of option values are stripped, shell-quoted quotes misread, versions of more than two words raise ValueError, includedir_server is never found, an option at the end of a --help line loses a character (C66).
* Temporal: previous builtins are deleted rather than restored, `new` leaks, a failing close keeps other connections and the schema, an interrupt during `__enter__` leaves the context pushed (C67); a failing CREATE SCHEMA is masked by DROP; destroy() uses an unbound `cluster`, so backends are never terminated.
* ILF: a SQL line between brackets is a marker, a reference in the preface raises TypeError, documentation comments are dropped, a const whose value is None is executed at every access, const/proc symbols are not resolved when bound, a conflict of categories raises NameError with libraries partly bound, a library without name TypeError, load() of modules uses the undefined ModuleLibrary (C52-C54).
* NamedTupleFactory with repeated column names raises TypeError for every row (C82_repeated_refuted), column names equal after NFKC raise SyntaxError (C82_normalized_refuted); its documented installation `db.typio.RowTypeFactory(NamedTupleFactory)` installs nothing (it must be assigned); prime_factors walks the factor names of the first object; find_available_port ignores its interface argument.
* Configuration files: the file is emptied before it is rewritten (C83_crash_refuted), leaving `with config:` raises AttributeError (`_restored`) and restores nothing, `del config[k]` of a present key raises TypeError (`_save()` without argument), iteration and `in` raise TypeError, pg_dotconf -f raises NameError (C83).
* Sockets: an exception that is no OSError (KeyboardInterrupt) between creation and return leaves the socket open; the timeout of an interrupt limits its connect only, not its write; a socket.timeout is neither fatal nor a reason to retry (C86).
* A NUL in the text of do() or execute() ends the statement for the server (C84).
* python/command.py, bin/pg_python.py: builtins that were overloaded by None are deleted by the wrong name, so they stay as None; Execution leaves os.environ a plain dictionary; the module search path of -L is not restored; -C with SystemExit ends with status 1 (C88, C89).
* XML: a tuple of one element comes back as the element, text at the top level is lost on receiving, an ElementTree (the announced type of xml) cannot be sent (C87).
* python/command.py ExtendedConsole: `\x` always ends with a TypeError, as the module's `command` is the option of -c and no function; `\i NAME` without a directory opens the lower-cased name (C90).
* types/bitwise.py: `Varbit('1') == Varbit('01')` raises ValueError in either order; `Varbit('1')[0:0]` raises; `Varbit('0b1_0110')` is `Varbit('00010110')`; iterating raises TypeError (C91).
* driver/dbapi20.py: callproc() leaves the description of the statement before, nextset() that of the later one; character(n), float, numeric, date and time columns have type code None (C92).
* clientparameters.py:284 append_settings raises OptionValueError, which is not imported: `-s name` without = ends in a NameError (C93).
