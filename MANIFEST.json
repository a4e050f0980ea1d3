{
 "claims": [
  {
   "property": "C01",
   "status": "proved",
   "theorems": [
    "C01_buffer_refines_fifo",
    "C01_fifo_deterministic",
    "C01_chunking_irrelevant"
   ],
   "note": "The buffer is a simulation of a byte FIFO for every history; FIFO spec deterministic; chunking irrelevant."
  },
  {
   "property": "C02",
   "status": "proved",
   "theorems": [
    "C02_complete_messages_delivered"
   ],
   "note": "Part of C01's refinement (spec_step for has_message/len/read/next) plus the delivery theorem."
  },
  {
   "property": "C03",
   "status": "proved",
   "theorems": [
    "C03_batch_received",
    "C03_oversized_copy_line_refused",
    "C03_wire"
   ],
   "note": "Any batch of typed items in any chunking is received item for item."
  },
  {
   "property": "C04",
   "status": "partial",
   "theorems": [
    "C04_parse_serialize",
    "C04_nul_not_rejected_refuted",
    "C04_bind_formats_not_checked_refuted",
    "C04_command_tag_count",
    "C04_wire_format",
    "C04_serialize_wire",
    "C04_parse_wire",
    "C04_notice_terminator_missing_refuted"
   ],
   "note": "Round trip proved for all message classes under the wire constraints; the rejection half is refuted (NUL in C strings, Bind format count)."
  },
  {
   "property": "C05",
   "status": "partial",
   "theorems": [
    "C05_row_roundtrip",
    "C05_truncated_row_accepted_refuted"
   ],
   "note": "Round trip proved; strictness of the pure Python row parser refuted."
  },
  {
   "property": "C06",
   "status": "proved",
   "theorems": [
    "C06_signed_pack",
    "C06_signed_range",
    "C06_signed_unpack",
    "C06_signed_roundtrip",
    "C06_unsigned_pack",
    "C06_unsigned_range",
    "C06_unsigned_unpack",
    "C06_short_data",
    "C06_codecs"
   ],
   "note": "Two's complement/unsigned big-endian codecs characterised exactly (iff) for every value; pure Python path (struct)."
  },
  {
   "property": "C07",
   "status": "partial",
   "theorems": [
    "C07_sent_value",
    "C07_sent_total",
    "C07_received_value",
    "C07_roundtrip",
    "C07_roundtrip_decimals",
    "C07_infinity_refused",
    "C07_nan_send_refuted",
    "C07_nan_receive_refuted"
   ],
   "note": "Round trip / sent and received values proved for all finite decimals; NaN refuted (send TypeError, receive ValueError)."
  },
  {
   "property": "C08",
   "status": "partial",
   "theorems": [
    "C08_date_sent",
    "C08_date_received",
    "C08_date_roundtrip",
    "C08_infinity_strings",
    "C08_last_date_refuted",
    "C08_timestamp_sent",
    "C08_timestamp_received",
    "C08_representable",
    "C08_timestamp_roundtrip",
    "C08_timestamptz_sent",
    "C08_timestamptz_sent_out_of_range",
    "C08_timestamptz_received",
    "C08_timestamptz_roundtrip",
    "C08_timestamptz_infinity_naive_refuted",
    "C08_time_sent",
    "C08_time_roundtrip",
    "C08_time_received",
    "C08_midnight24_refuted",
    "C08_timetz_sent",
    "C08_timetz_returns",
    "C08_timetz_roundtrip_partial",
    "C08_timetz_seconds_refuted",
    "C08_timetz_zone_sign_refuted",
    "C08_interval_sent",
    "C08_interval_roundtrip",
    "C08_interval_received",
    "C08_interval_noday_roundtrip",
    "C08_interval_noday_range",
    "C08_interval_noday_received",
    "C08_float_time",
    "C08_float_timetz",
    "C08_float_timestamp",
    "C08_float_timestamp_far",
    "C08_float_timestamptz",
    "C08_float_infinity",
    "C08_float_not_finite",
    "C08_float_interval",
    "C08_float_interval_noday",
    "C08_float_interval_received",
    "C08_float_refuted"
   ],
   "note": "64-bit formats: sent bytes, received values and round trips proved for all dates, times, timestamps, intervals. Float formats (IEEE arithmetic modelled exactly): sent double and value read back proved for all values: the same or one microsecond less (timestamps further than 272 years from 2000: up to 31 microseconds off), exact for whole seconds. Refuted: last/first date and timestamp coincide with the infinities, timestamptz infinities are naive, timetz offsets lose seconds and have the wrong sign for the server, time 24:00:00 unreadable, float formats lose a microsecond. Partial because of the refuted parts only."
  },
  {
   "property": "C09",
   "status": "partial",
   "theorems": [
    "C09_record_pack",
    "C09_record_roundtrip",
    "C09_record_strict",
    "C09_negative_count_refuted"
   ],
   "note": "Round trip and strictness proved (accepted data = exactly a packed record), except that a negative column count is accepted as an empty record (refuted)."
  },
  {
   "property": "C10",
   "status": "proved",
   "theorems": [
    "C10_array_pack",
    "C10_array_roundtrip"
   ],
   "note": "Any number of dimensions and elements, NULLs included; library level raw arrays."
  },
  {
   "property": "C11",
   "status": "partial",
   "theorems": [
    "C11_sized_terminates",
    "C11_sized_exact",
    "C11_hstore_terminates",
    "C11_array_terminates_partial",
    "C11_array_loops_refuted",
    "C11_array_truncated_refuted"
   ],
   "note": "Sized data, hstore and record decoders terminate and account for all data; for arrays refuted: a negative element size loops forever, a truncated element is accepted."
  },
  {
   "property": "C12",
   "status": "partial",
   "theorems": [
    "C12_hstore_roundtrip",
    "C12_hstore_strict",
    "C12_hstore_bad_count",
    "C12_hstore_duplicates",
    "C12_bool",
    "C12_jsonb",
    "C12_uuid",
    "C12_varbit",
    "C12_varbit_concat",
    "C12_varbit_repeat",
    "C12_getbit_refuted",
    "C12_vectors_refuted",
    "C12_oidvector_read",
    "C12_int2vector_read"
   ],
   "note": "hstore, bool, jsonb, uuid, bit strings proved; refuted: Varbit.getbit and oidvector/int2vector packing always raise."
  },
  {
   "property": "C13",
   "status": "partial",
   "theorems": [
    "C13_inet_roundtrip",
    "C13_inet_receive",
    "C13_cidr_roundtrip",
    "C13_host_prefix_refuted",
    "C13_macaddr_unpack",
    "C13_macaddr_pack"
   ],
   "note": "inet/cidr/macaddr round trips proved; refuted: a host address is sent with prefix length 0."
  },
  {
   "property": "C14",
   "status": "partial",
   "theorems": [
    "C14_round_trip",
    "C14_accepted",
    "C14_ragged",
    "C14_from_elements",
    "C14_from_elements_default",
    "C14_count_mismatch",
    "C14_index_flat",
    "C14_index_partial",
    "C14_index_high",
    "C14_index_refuted",
    "C14_get_element",
    "C14_get_element_error",
    "C14_sql_get_element",
    "C14_slice",
    "C14_strings_as_rows_refuted",
    "C14_sql_length_refuted"
   ],
   "note": "Proved except integer indexing of multi-dimensional arrays, which is false at -1, len and below -len (C14_index_refuted, ValueError); strings are accepted as rows (C14_strings_as_rows_refuted)."
  },
  {
   "property": "C15",
   "status": "partial",
   "theorems": [
    "C15_statement_rows",
    "C15_agree",
    "C15_columns",
    "C15_unknown_name",
    "C15_get_int_partial",
    "C15_get_int_refuted",
    "C15_from_mapping",
    "C15_transform",
    "C15_transform_unknown",
    "C15_repeated_name",
    "C15_repeated_items_refuted"
   ],
   "note": "Proved for rows whose columns have distinct names; get(-len) returns None although row[-len] exists (C15_get_int_refuted); with repeated names items() misaligns (C15_repeated_items_refuted)."
  },
  {
   "property": "C16",
   "status": "proved",
   "theorems": [
    "C16_quote_literal",
    "C16_quote_ident",
    "C16_lexer_deterministic",
    "C16_injective",
    "C16_nonstandard_strings_refuted"
   ],
   "note": "quoting proved against an SQL lexer for all strings; the refuted theorem is about standard_conforming_strings=off servers"
  },
  {
   "property": "C17",
   "status": "partial",
   "theorems": [
    "C17_split_qname_qname",
    "C17_split_qname_if_needed",
    "C17_if_needed_denotes_partial",
    "C17_uppercase_refuted",
    "C17_reserved_word_refuted",
    "C17_split_using",
    "C17_split_using_lossless"
   ],
   "note": "split_qname(qname(parts)) and split_using proved for all inputs; the if-needed variants proved for lower-case ASCII parts only, because they are false for upper-case letters (C17_uppercase_refuted) and reserved words"
  },
  {
   "property": "C18",
   "status": "partial",
   "theorems": [
    "C18_split_render",
    "C18_unsplit_split",
    "C18_unsplit_split_refuted",
    "C18_split_sql",
    "C18_split_sql_closed",
    "C18_multiline_dollar_refuted",
    "C18_lowercase_e_refuted"
   ],
   "note": "splitting proved exact for every text with closed single-line quotations, unsplit/split and split_sql characterised for every text; refuted: unterminated E' and dollar stubs, dollar quotes spanning lines, lower-case e'' literals"
  },
  {
   "property": "C19",
   "status": "partial",
   "theorems": [
    "C19_roundtrip",
    "C19_wellformed",
    "C19_malformed_partial",
    "C19_malformed_refuted"
   ],
   "note": "lossless on all byte strings; every well-formed text accepted; malformed escapes rejected for texts without blank/underscore/o, refuted otherwise (int(...,8) accepts '\\12 ', '\\1_2', '\\0o7')"
  },
  {
   "property": "C20",
   "status": "partial",
   "theorems": [
    "C20_split",
    "C20_unsplit_partial",
    "C20_unsplit_refuted",
    "C20_normalize",
    "C20_order_partial",
    "C20_order_refuted"
   ],
   "note": "split and normalize proved for every written version; unsplit loses with a state word without level (8.3devNone) and fails with four numbers; order proved for differing numbers and releases, refuted for rc/dev"
  },
  {
   "property": "C21",
   "status": "partial",
   "theorems": [
    "C21_line_partial",
    "C21_blank_refuted",
    "C21_lookup",
    "C21_defaults",
    "C21_any_file"
   ],
   "note": "line round trip proved unless the line ends in a blank of a field (refuted: password trailing blank is lost); lookup = first match proved"
  },
  {
   "property": "C22",
   "status": "partial",
   "theorems": [
    "C22_unsplit_split",
    "C22_split_unsplit",
    "C22_escape",
    "C22_unescape_plain",
    "C22_unescape_percent",
    "C22_unescape_hex",
    "C22_unescape_stray",
    "C22_netloc_partial",
    "C22_netloc_refuted",
    "C22_dict_partial",
    "C22_dict_refuted"
   ],
   "note": "unsplit(split s)=s for every string; field escapes, network locations and whole dictionaries round-trip when the host is unambiguous; ambiguous hosts and the single empty component are refuted by concrete cases"
  },
  {
   "property": "C23",
   "status": "partial",
   "theorems": [
    "C23_roundtrip_partial",
    "C23_obscured",
    "C23_obscured_absent",
    "C23_database_refuted",
    "C23_database_escape_refuted",
    "C23_ssl_refuted",
    "C23_ssl_unreadable_refuted",
    "C23_none_setting_refuted",
    "C23_lost_refuted",
    "C23_path_string"
   ],
   "note": "Round trip proved for every expressible parameter dictionary (any order, any strings subject to IRISpec); password noninterference of the obscured form proved for all dictionaries; refuted: database escapes, ssl scheme, None settings, port without host."
  },
  {
   "property": "C24",
   "status": "partial",
   "theorems": [
    "C24_succeeds",
    "C24_set",
    "C24_removed",
    "C24_others",
    "C24_unrelated_lines",
    "C24_removed_lines",
    "C24_line_count",
    "C24_file",
    "C24_empty_file_refuted",
    "C24_delete_refuted",
    "C24_custom_name_refuted",
    "C24_spelling_refuted",
    "C24_open_quote_refuted"
   ],
   "note": "Proved for files with at least one line, settings named with letters, digits and underscores; at file level for values without line feeds and lines with closed quotes. Refuted (theorems *_refuted): empty file, item deletion, names with a period, spelling, unterminated quotes."
  },
  {
   "property": "C25",
   "status": "proved",
   "theorems": [
    "C25_complete",
    "C25_accounted",
    "C25_answered",
    "C25_progress",
    "C25_flush_refuted"
   ],
   "note": "Completion iff the server answered everything, in order, every message accounted once; progress on any readable batch. Transactions begun by a Flush are outside (refuted side case)."
  },
  {
   "property": "C26",
   "status": "partial",
   "theorems": [
    "C26_batching_partial",
    "C26_prefix",
    "C26_results_refuted"
   ],
   "note": "Outcome, error, position, results and deliveries proved independent of the batching for servers keeping to the protocol; refuted: results of the batch in which an error ends the transaction are dropped, equal asynchronous messages of one batch are merged."
  },
  {
   "property": "C27",
   "status": "partial",
   "theorems": [
    "C27_complete",
    "C27_recorded",
    "C27_violation",
    "C27_function_refuted",
    "C27_portal_nodata_refuted"
   ],
   "note": "Proved for all command sequences and servers; refuted side cases: function call error followed by Ready, NoData for a portal."
  },
  {
   "property": "C28",
   "status": "partial",
   "theorems": [
    "C28_delivered_partial",
    "C28_exactly_once",
    "C28_batch",
    "C28_again",
    "C28_exactly_once_refuted",
    "C28_interrupted_refuted"
   ],
   "note": "Delivered in order, none lost, exactly once if the messages of a batch differ; refuted: equal messages in one batch delivered once, redelivery after an interrupted batch."
  },
  {
   "property": "C29",
   "status": "proved",
   "theorems": [
    "C29_sends",
    "C29_pending",
    "C29_unsupported"
   ],
   "note": "The whole conversation has one of three shapes; unsupported requests end in an error with only the startup message sent. MD5 and crypt are parameters."
  },
  {
   "property": "C30",
   "status": "partial",
   "theorems": [
    "C30_success_partial",
    "C30_complete",
    "C30_error",
    "C30_fatal_has_error",
    "C30_asyncs",
    "C30_batch_once",
    "C30_ok_type_refuted"
   ],
   "note": "Success exactly on the proper conversation, except that the message confirming a password is not checked to be an authentication message (refuted part, xact3.py:214-220)."
  },
  {
   "property": "C31",
   "status": "proved",
   "theorems": [
    "C31_sent_once_in_order",
    "C31_wire_grows",
    "C31_step_ignores_loss_refuted"
   ],
   "note": "all socket behaviours and histories; C31_step_ignores_loss_refuted: a lost connection met while sending within step() is only reported by the next read"
  },
  {
   "property": "C32",
   "status": "proved",
   "theorems": [
    "C32_closed_exactly_once",
    "C32_closed_before_push",
    "C32_batch_sent_once"
   ],
   "note": "cursors and statements trashed at any moment of push(), also while the batch is being made; that the Close batch is sent is by C32_batch_sent_once for batches which completed without a lost connection"
  },
  {
   "property": "C33",
   "status": "proved",
   "theorems": [
    "C33_require_always_tls",
    "C33_disable_never_tls",
    "C33_answer_respected",
    "C33_request_bytes",
    "C33_security_truthful",
    "C33_sequence",
    "C33_attempt_outcome",
    "C33_sockets_closed",
    "C33_exception_leaks_refuted",
    "C33_unknown_mode"
   ],
   "note": "For all host lists and all behaviours of the outside per attempt (open, partial sends, answer byte, handshake, start-up outcome). The start-up conversation itself is one event here (C29, C30 treat it). Refuted part: an exception while asking for SSL or during the start-up leaves the socket open and aborts the remaining servers."
  },
  {
   "property": "C34",
   "status": "partial",
   "theorems": [
    "C34_rows_in_order",
    "C34_end_is_the_end",
    "C34_rows_whole",
    "C34_stream_in_order",
    "C34_stream_end",
    "C34_stream_whole",
    "C34_stream_failure",
    "C34_stream_truncated_refuted",
    "C34_strategy"
   ],
   "note": "FetchAll (one transaction: call, first, COPY, rows/chunks without source): every run, whole. MultiXactStream at the level of the replies of the server's cursor. Refuted: after an error completed by another use of the connection, or after a caught exception, the stream ends silently (C34_stream_truncated_refuted)"
  },
  {
   "property": "C35",
   "status": "partial",
   "theorems": [
    "C35_fetches",
    "C35_segments",
    "C35_fetchall_exhausts",
    "C35_negative_refuted"
   ],
   "note": "Proved for all interleavings of fetchone, fetchmany with sizes >= 0 (or the default arraysize) and fetchall; fetchmany with a negative size is shown to repeat rows (C35_negative_refuted). The recursion limit of the interpreter is not modelled."
  },
  {
   "property": "C36",
   "status": "partial",
   "theorems": [
    "C36_positional",
    "C36_named",
    "C36_named_exact",
    "C36_mixed",
    "C36_plain",
    "C36_percent_escape_refuted",
    "C36_adjacent_digit_refuted",
    "C36_extra_key_refuted"
   ],
   "note": "Proved for every statement made of unquoted text (characters, %%, %s, %(name)s with names without parentheses) and closed quotations. The part of the property that is false is refuted: %% is only halved in unquoted parts with a placeholder, a digit after %s changes the parameter number, extra dictionary keys are refused. Other directives of Python's % operator (which raise in practice) are not modelled."
  },
  {
   "property": "C37",
   "status": "partial",
   "theorems": [
    "C37_outside",
    "C37_inside",
    "C37_failed_block",
    "C37_start_commands",
    "C37_end_commands",
    "C37_ended",
    "C37_interrupt_refuted"
   ],
   "note": "for all programs with exceptions that are Exceptions; refuted for KeyboardInterrupt and the like"
  },
  {
   "property": "C38",
   "status": "partial",
   "theorems": [
    "C38_coherent",
    "C38_reported",
    "C38_read",
    "C38_unknown",
    "C38_set",
    "C38_del",
    "C38_update",
    "C38_block",
    "C38_path",
    "C38_rollback_refuted",
    "C38_sql_refuted",
    "C38_spelling_refuted",
    "C38_documented_block_refuted",
    "C38_del_path_refuted",
    "C38_empty_path_refuted",
    "C38_none_refuted"
   ],
   "note": "for settings the server reports, and for all settings in histories without rollback or SET by SQL, spelled as the server does; refuted otherwise (7 counterexamples)"
  },
  {
   "property": "C39",
   "status": "partial",
   "theorems": [
    "C39_held_partial",
    "C39_locked_partial",
    "C39_try",
    "C39_blocking",
    "C39_count",
    "C39_release_unacquired",
    "C39_closed",
    "C39_reentrant_refuted",
    "C39_reentrant_other_refuted",
    "C39_interrupted_refuted"
   ],
   "note": "Held exactly while locked() proved for every history with nested release excluded and uninterrupted acquires; failed non-blocking acquire leaves nothing behind; count/locked() for every history. Missing because false of the code: release() of a re-entered lock releases on the server at once (proved refuted), an interrupted blocking acquire keeps the locks taken so far (proved refuted)."
  },
  {
   "property": "C40",
   "status": "proved",
   "theorems": [
    "C40_count",
    "C40_end",
    "C40_after_end",
    "C40_producer",
    "C40_producer_end",
    "C40_realign",
    "C40_lines"
   ],
   "note": "WireState and ProtocolProducer: any cut of the stream; well-formed CopyData messages (length field at least 4). Realignment included."
  },
  {
   "property": "C41",
   "status": "partial",
   "theorems": [
    "C41_all_data",
    "C41_in_set",
    "C41_prefix",
    "C41_faults",
    "C41_progress",
    "C41_done",
    "C41_late_reconcile_refuted",
    "C41_abandoned_refuted",
    "C41_interrupted_refuted"
   ],
   "note": "Any behaviour of producer and receivers and any use of reconcile, without interrupts. Refuted parts: a receiver brought back after other data was distributed gets garbage (C41_late_reconcile_refuted); an interrupted transmission loses data of the others (C41_interrupted_refuted); an abandoned COPY may be reported as done (C41_abandoned_refuted)."
  },
  {
   "property": "C42",
   "status": "partial",
   "theorems": [
    "C42_exactly_once",
    "C42_not_empty",
    "C42_idle",
    "C42_stop",
    "C42_poll",
    "C42_wait",
    "C42_idle_interval",
    "C42_idle_comes",
    "C42_iternotifies",
    "C42_failed_connection_refuted",
    "C42_poll_wire_refuted",
    "C42_idle_held_refuted",
    "C42_idle_guaranteed_refuted"
   ],
   "note": "Any schedule, any clock, any use of the connections in between; also iternotifies. Refuted parts: notifications received by the command which finds the connection failed are not given (C42_failed_connection_refuted); polling never looks at the wires (C42_poll_wire_refuted); an idle event may come although the connection already holds a notification (C42_idle_held_refuted); idle events are not guaranteed (C42_idle_guaranteed_refuted)."
  },
  {
   "property": "C43",
   "status": "partial",
   "theorems": [
    "C43_normalize",
    "C43_denormalize_normalize",
    "C43_precedence",
    "C43_password",
    "C43_total",
    "C43_no_service",
    "C43_settings_variables_refuted",
    "C43_requiressl_refuted"
   ],
   "note": "Precedence (options, service, environment, parameters, defaults), settings merging, password resolution, totality proved for every input, with os.path/configparser/getuser/prompt abstracted and posix defaults. Missing because false of the code: PGTZ/PGDATESTYLE/PGCLIENTENCODING/PGGEQO are documented but never yielded, PGREQUIRESSL=1 yields a tuple (both proved as _refuted)."
  },
  {
   "property": "C44",
   "status": "proved",
   "theorems": [
    "C44_process_tuple_ok",
    "C44_process_tuple_mismatch",
    "C44_process_tuple_fail",
    "C44_process_tuple_total",
    "C44_process_chunk_ok",
    "C44_process_chunk_fail",
    "C44_composition",
    "C44_composition_fail"
   ],
   "note": "Complete characterisation of success, failure index and mismatch."
  },
  {
   "property": "C45",
   "status": "partial",
   "theorems": [
    "C45_error_lookup",
    "C45_warning_lookup",
    "C45_own_code",
    "C45_class_catches",
    "C45_most_general",
    "C45_program_limit_refuted",
    "C45_escape_character_refuted"
   ],
   "note": "Proved for every code string and the class table of the module; refuted for the 54xxx classes (derive from the builtin OverflowError) and 22019 (class statement replaced): C45_program_limit_refuted, C45_escape_character_refuted."
  },
  {
   "property": "C46",
   "status": "proved",
   "theorems": [
    "C46_chunk",
    "C46_chunk_zero_never_ends",
    "C46_interlace",
    "C46_find"
   ],
   "note": "chunk, interlace and find characterised; chunksize 0 never ends."
  },
  {
   "property": "C47",
   "status": "proved",
   "theorems": [
    "C47_copy_terminated",
    "C47_fails_by_default"
   ],
   "note": "Shape of everything sent, for every history."
  },
  {
   "property": "C48",
   "status": "proved",
   "theorems": [
    "C48_input_accounted",
    "C48_transactions_driven",
    "C48_answered",
    "C48_pushed_once"
   ],
   "note": "connection after connect(); an interruption between the return of send/recv and the assignment of its result is not modelled"
  },
  {
   "property": "C49",
   "status": "partial",
   "theorems": [
    "C49_delimits",
    "C49_durable",
    "C49_refused_commit_refuted",
    "C49_failed_commit_refuted"
   ],
   "note": "for all histories in which no COMMIT is refused; refuted after a refused COMMIT, and for commit() of a failed transaction"
  },
  {
   "property": "C50",
   "status": "partial",
   "theorems": [
    "C50_called",
    "C50_order",
    "C50_raising_refuted"
   ],
   "note": "for callbacks which do not raise; refuted when one raises"
  },
  {
   "property": "C51",
   "status": "partial",
   "theorems": [
    "C51_direction",
    "C51_reversed",
    "C51_valid",
    "C51_read",
    "C51_pieces",
    "C51_next",
    "C51_page",
    "C51_from_end",
    "C51_relative",
    "C51_forward_backward",
    "C51_absolute",
    "C51_read_zero",
    "C51_backward_forward_refuted",
    "C51_backward_all_refuted"
   ],
   "note": "all documented operations; refuted: seeks FORWARD/BACKWARD, 'ALL' and negative absolute positions with direction BACKWARD"
  },
  {
   "property": "C52",
   "status": "partial",
   "theorems": [
    "C52_library",
    "C52_undefined",
    "C52_unknown",
    "C52_queries_unique",
    "C52_bracket_line_refuted",
    "C52_preface_refuted"
   ],
   "note": "Proved for all unambiguous documents. Refuted part: a SQL line between brackets is taken for a marker, and a preface line beginning like a reference raises TypeError"
  },
  {
   "property": "C53",
   "status": "partial",
   "theorems": [
    "C53_named",
    "C53_executes",
    "C53_reference_query",
    "C53_attribute",
    "C53_kept",
    "C53_transient",
    "C53_missing",
    "C53_preload",
    "C53_preload_only",
    "C53_const_refuted"
   ],
   "note": "Proved except: a constant whose value is None is executed again at each read and constants/procedures are not resolved when the library is bound, as documented (C53_const_refuted)"
  },
  {
   "property": "C54",
   "status": "partial",
   "theorems": [
    "C54_bound",
    "C54_succeeds",
    "C54_not_replaced",
    "C54_nothing_else",
    "C54_stops",
    "C54_conflict_refuted"
   ],
   "note": "Proved except: a conflict raises NameError rather than AttributeError, with part of the libraries bound (C54_conflict_refuted)"
  },
  {
   "property": "C55",
   "status": "proved",
   "theorems": [
    "C55_converted",
    "C55_failed",
    "C55_chunk"
   ],
   "note": "Python implementation of process_tuple (the C one is optional)."
  },
  {
   "property": "C56",
   "status": "partial",
   "theorems": [
    "C56_round_trip",
    "C56_columns",
    "C56_resolved",
    "C56_anonymous",
    "C56_terminates",
    "C56_once",
    "C56_altered_refuted",
    "C56_identify_refuted"
   ],
   "note": "Proved for a catalog that does not change while the connection is used. Refuted parts: a composite altered after its first use cannot be read any more on the connection (C56_altered_refuted); identify() has no effect on composites resolved before (C56_identify_refuted)."
  },
  {
   "property": "C57",
   "status": "proved",
   "theorems": [
    "C57_own",
    "C57_alive",
    "C57_portal",
    "C57_portal_own",
    "C57_no_leak_statements",
    "C57_no_leak_portals",
    "C57_released",
    "C57_close",
    "C57_collected",
    "C57_progress",
    "C57_user_names_refuted"
   ],
   "note": "messages served in order and once (C25, C48); user statements managing names themselves (DEALLOCATE, DISCARD, PREPARE, CLOSE) left out; C57_user_names_refuted shows the exception"
  },
  {
   "property": "C58",
   "status": "partial",
   "theorems": [
    "C58_error",
    "C58_wire",
    "C58_client",
    "C58_fatal",
    "C58_unlabelled",
    "C58_fatal_localized_refuted"
   ],
   "note": "Proved for every error with a code and a message. Error.fatal is refuted where the server localizes severities (C58_fatal_localized_refuted)."
  },
  {
   "property": "C59",
   "status": "partial",
   "theorems": [
    "C59_emit",
    "C59_delivered",
    "C59_each",
    "C59_attributed",
    "C59_running",
    "C59_codec",
    "C59_encodings",
    "C59_shift_jis_2004_refuted",
    "C59_localized_refuted"
   ],
   "note": "Proved for the messages processed while a request runs. Warnings with a localized severity are refuted to be of a Warning class (C59_localized_refuted). Messages received while take_out_trash closes names and notices of the negotiation never come to _receive_async (see DESIGN.md)."
  },
  {
   "property": "C60",
   "status": "proved",
   "theorems": [
    "C60_marker",
    "C60_everywhere"
   ],
   "note": "Positions of characters that are not themselves part of a line break; every such character is covered (C60_everywhere)."
  },
  {
   "property": "C61",
   "status": "partial",
   "theorems": [
    "C61_notify",
    "C61_listen_refuted",
    "C61_listen_partial",
    "C61_listen_long"
   ],
   "note": "Proved for notify(). listen() and unlisten() are refuted: they do not quote (C61_listen_refuted); C61_listen_partial says what they send."
  },
  {
   "property": "C62",
   "status": "proved",
   "theorems": [
    "C62_text",
    "C62_place"
   ],
   "note": "The description of the creator (format_element) that follows is a parameter."
  },
  {
   "property": "C63",
   "status": "partial",
   "theorems": [
    "C63_all",
    "C63_success",
    "C63_whole_chunks",
    "C63_block",
    "C63_unpackable",
    "C63_iterable",
    "C63_server_error",
    "C63_clean",
    "C63_error_lost_refuted",
    "C63_row_limit_refuted",
    "C63_path"
   ],
   "note": "Proved except for two parts that do not hold: an exception of the iterable hides an error of the server for the chunk under way (C63_error_lost_refuted), and every execution asks for one row only (C63_row_limit_refuted)."
  },
  {
   "property": "C64",
   "status": "partial",
   "theorems": [
    "C64_all",
    "C64_sent",
    "C64_exception",
    "C64_not_copy",
    "C64_returns",
    "C64_next_refuted"
   ],
   "note": "all proved but one part: the error of a COPY whose iterable raised is raised by the next, unrelated operation (C64_next_refuted)"
  },
  {
   "property": "C65",
   "status": "proved",
   "theorems": [
    "C65_result",
    "C65_parameters",
    "C65_determined",
    "C65_answered",
    "C65_error"
   ],
   "note": "first(): findings: single-column unpack errors are not wrapped in ColumnError, a zero-column result takes the count path, a closed statement is not refused"
  },
  {
   "property": "C66",
   "status": "partial",
   "theorems": [
    "C66_options",
    "C66_lines",
    "C66_fallback",
    "C66_installation",
    "C66_more_words",
    "C66_paths",
    "C66_default",
    "C66_options_refuted",
    "C66_packaged_refuted",
    "C66_directories_refuted",
    "C66_fallback_refuted",
    "C66_join"
   ],
   "note": "refuted parts: a trailing dash or quote of an option value is stripped, a quote quoted by configure is misread, Installation() of a packaged version (three words) raises ValueError, includedir_server is never found since pg_config prints INCLUDEDIR-SERVER, an option ending its --help line loses a character"
  },
  {
   "property": "C67",
   "status": "partial",
   "theorems": [
    "C67_innermost",
    "C67_others",
    "C67_left_partial",
    "C67_exit",
    "C67_interrupted",
    "C67_schema",
    "C67_failed",
    "C67_left_refuted",
    "C67_exit_refuted",
    "C67_interrupt_refuted"
   ],
   "note": "refuted parts: builtins that had a value before the outermost context are deleted instead of restored (membership is tested in the pair), new is never removed (newdb is), a failing close keeps other connections and the schema, an interrupt during __enter__ leaves the context pushed"
  },
  {
   "property": "C68",
   "status": "partial",
   "theorems": [
    "C68_close_ends",
    "C68_after_close",
    "C68_close_when_lost",
    "C68_socket_closed_once",
    "C68_disconnect_last",
    "C68_farewell",
    "C68_loss_final",
    "C68_connect_once",
    "C68_state",
    "C68_reconnect_refuted",
    "C68_revived_refuted"
   ],
   "note": "Proved over all histories; what is false of the code is shown by C68_reconnect_refuted and C68_revived_refuted (pq.synchronize() is excluded where it matters). The start-up queries of _establish are operations like others; fileno is not modelled."
  },
  {
   "property": "C69",
   "status": "partial",
   "theorems": [
    "C69_signal",
    "C69_running",
    "C69_truth",
    "C69_signal_refuted"
   ],
   "note": "proved for every environment; C69_signal_refuted: a child that has ended is still signalled"
  },
  {
   "property": "C70",
   "status": "partial",
   "theorems": [
    "C70_start",
    "C70_started",
    "C70_started_ends",
    "C70_restart",
    "C70_settings_refuted",
    "C70_default_refuted",
    "C70_enter_refuted"
   ],
   "note": "start, wait_until_started, restart proved for every environment; refuted: start(settings), default configuration, failing with block"
  },
  {
   "property": "C71",
   "status": "partial",
   "theorems": [
    "C71_stopped",
    "C71_leave",
    "C71_stopped_ends",
    "C71_child",
    "C71_drop",
    "C71_tree",
    "C71_race_refuted",
    "C71_link_refuted"
   ],
   "note": "wait_until_stopped, drop, and the removal of every tree proved; refuted: race for servers that are not children, links to directories"
  },
  {
   "property": "C72",
   "status": "proved",
   "theorems": [
    "C72_init",
    "C72_unknown",
    "C72_no_program"
   ],
   "note": "init proved for every environment"
  },
  {
   "property": "C73",
   "status": "partial",
   "theorems": [
    "C73_address",
    "C73_host",
    "C73_connect",
    "C73_blank_refuted"
   ],
   "note": "address and connect proved; refuted: blanks in listen_addresses"
  },
  {
   "property": "C74",
   "status": "proved",
   "theorems": [
    "C74_unix_crypt",
    "C74_short_salt",
    "C74_shape",
    "C74_verify",
    "C74_eight",
    "C74_nul_refuted",
    "C74_answer"
   ],
   "note": "for a password with a zero byte the C function differs (C74_nul_refuted)"
  },
  {
   "property": "C75",
   "status": "proved",
   "theorems": [
    "C75_unix",
    "C75_exclusive",
    "C75_required",
    "C75_user",
    "C75_inet",
    "C75_family",
    "C75_ipv_conflict",
    "C75_keywords",
    "C75_security"
   ],
   "note": "driver.fit and the connectors; getaddrinfo, inet_aton and inet_pton are arbitrary functions"
  },
  {
   "property": "C76",
   "status": "partial",
   "theorems": [
    "C76_startup",
    "C76_password",
    "C76_wire",
    "C76_no_path_refuted",
    "C76_pairs_path_refuted",
    "C76_nul_refuted"
   ],
   "note": "startup parameters, password and wire reading proved; refuted parts: C76_no_path_refuted, C76_pairs_path_refuted, C76_nul_refuted (faults of the code)"
  },
  {
   "property": "C77",
   "status": "proved",
   "theorems": [
    "C77_precedence",
    "C77_password",
    "C77_socket",
    "C77_plain"
   ],
   "note": "open() up to the call of driver.fit; os and file access are arbitrary functions"
  },
  {
   "property": "C78",
   "status": "partial",
   "theorems": [
    "C78_statement",
    "C78_no_such",
    "C78_call",
    "C78_error",
    "C78_keywords_refuted",
    "C78_character_refuted"
   ],
   "note": "the statement and calls are proved for positional arguments; keyword arguments and character arguments are refuted"
  },
  {
   "property": "C79",
   "status": "proved",
   "theorems": [
    "C79_bytes",
    "C79_double_pack",
    "C79_double_unpack",
    "C79_double_short",
    "C79_double_back",
    "C79_double_again",
    "C79_single_pack",
    "C79_single_overflow",
    "C79_single_unpack",
    "C79_single_again"
   ],
   "note": "struct's d and f formats against an independent definition of IEEE encodings"
  },
  {
   "property": "C80",
   "status": "partial",
   "theorems": [
    "C80_box",
    "C80_sent",
    "C80_point_back",
    "C80_lseg_back",
    "C80_box_back",
    "C80_circle",
    "C80_commute",
    "C80_nan_refuted"
   ],
   "note": "all proved except boxes with NaN, refuted"
  },
  {
   "property": "C81",
   "status": "partial",
   "theorems": [
    "C81_columns",
    "C81_no_columns",
    "C81_parameter_types",
    "C81_formats",
    "C81_parameters",
    "C81_chunk",
    "C81_rows",
    "C81_first",
    "C81_column",
    "C81_column_refuted",
    "C81_column_null_refuted",
    "C81_cursor_refuted",
    "C81_input_format_refuted",
    "C81_call"
   ],
   "note": "refuted in part: column() reports TypeError for failing values and NULLs (C81_column_refuted, C81_column_null_refuted), the report of cursor_from_id's cursors is an AttributeError (C81_cursor_refuted), input formats are always binary (C81_input_format_refuted); the rest is proved in full"
  },
  {
   "property": "C82",
   "status": "partial",
   "theorems": [
    "C82_fields",
    "C82_any",
    "C82_same",
    "C82_different",
    "C82_access",
    "C82_rows",
    "C82_no_columns",
    "C82_factory",
    "C82_repeated_refuted",
    "C82_normalized_refuted"
   ],
   "note": "proved in full for ASCII column names; refuted in part: NamedTupleFactory with repeated column names (C82_repeated_refuted), names equal after NFKC (C82_normalized_refuted)"
  },
  {
   "property": "C83",
   "status": "partial",
   "theorems": [
    "C83_states",
    "C83_done",
    "C83_failed",
    "C83_read_back",
    "C83_reads",
    "C83_crash_refuted",
    "C83_block_refuted",
    "C83_iter_refuted",
    "C83_dotconf",
    "C83_dotconf_invalid",
    "C83_dotconf_file_refuted"
   ],
   "note": "refuted: the file is emptied before it is rewritten, so a crash loses every setting (C83_crash_refuted); leaving a with block raises AttributeError and restores nothing (C83_block_refuted); iteration raises TypeError (C83_iter_refuted); pg_dotconf -f raises NameError (C83_dotconf_file_refuted)"
  },
  {
   "property": "C85",
   "status": "partial",
   "theorems": [
    "C85_ends",
    "C85_recursive",
    "C85_layout",
    "C85_chain",
    "C85_prime_factors_refuted"
   ],
   "note": "refuted: prime_factors() looks for the name of the first object's prime factor in every object, so it does not give the chain of prime factors (C85_prime_factors_refuted); ElementSet not modelled"
  },
  {
   "property": "C84",
   "status": "partial",
   "theorems": [
    "C84_do",
    "C84_execute",
    "C84_injective",
    "C84_nul_refuted",
    "C84_nonstandard_strings_refuted"
   ],
   "note": "refuted for texts with a NUL (C84_nul_refuted) and for servers with standard_conforming_strings off (C84_nonstandard_strings_refuted); the replies to the Query are XactModel's"
  },
  {
   "property": "C86",
   "status": "partial",
   "theorems": [
    "C86_open",
    "C86_interrupt",
    "C86_limit_refuted",
    "C86_leak_refuted",
    "C86_port",
    "C86_interface_refuted",
    "C86_message",
    "C86_timeout_refuted"
   ],
   "note": "refuted: a KeyboardInterrupt leaks the socket (C86_leak_refuted), the timeout does not limit sending (C86_limit_refuted), the interface is ignored (C86_interface_refuted), socket.timeout is not fatal (C86_timeout_refuted)"
  },
  {
   "property": "C88",
   "status": "partial",
   "theorems": [
    "C88_selection",
    "C88_script",
    "C88_console",
    "C88_restored",
    "C88_absent_refuted",
    "C88_environ_refuted",
    "C88_context_exit_refuted"
   ],
   "note": "refuted: SystemExit in -C code (C88_context_exit_refuted), absent modules become None (C88_absent_refuted), os.environ is replaced by a dict (C88_environ_refuted)"
  },
  {
   "property": "C89",
   "status": "partial",
   "theorems": [
    "C89_builtins",
    "C89_builtins_refuted",
    "C89_closed",
    "C89_connecting",
    "C89_command",
    "C89_libpath_refuted"
   ],
   "note": "refuted: names that were not in builtins stay as None (C89_builtins_refuted), the library path is not restored after a normal end (C89_libpath_refuted)"
  },
  {
   "property": "C87",
   "status": "partial",
   "theorems": [
    "C87_utf8",
    "C87_utf8_strict",
    "C87_sent",
    "C87_sent_bytes",
    "C87_sent_other",
    "C87_received",
    "C87_roundtrip_element",
    "C87_roundtrip_elements",
    "C87_roundtrip_refuted"
   ],
   "note": "sending proved for every value, codec and library; received values proved; refuted: tuples of one element and text at the top level do not come back (C87_roundtrip_refuted)"
  },
  {
   "property": "C90",
   "status": "proved",
   "theorems": [
    "C90_python",
    "C90_slash",
    "C90_set",
    "C90_set_all",
    "C90_execute",
    "C90_edit",
    "C90_edit_execute",
    "C90_names",
    "C90_unknown",
    "C90_help",
    "C90_x_refuted",
    "C90_i_case_refuted"
   ],
   "note": "the help text is one event; executed code is taken not to change os.environ; shlex, the editor, files and Python are arbitrary functions of what was done before"
  },
  {
   "property": "C91",
   "status": "partial",
   "theorems": [
    "C91_text",
    "C91_accepted",
    "C91_equal",
    "C91_equal_refuted",
    "C91_equal_text",
    "C91_slice",
    "C91_slice_refuted",
    "C91_truth_refuted",
    "C91_iterate_refuted",
    "C91_append",
    "C91_text_refuted"
   ],
   "note": "refuted: a single bit against other lengths raises (C91_equal_refuted), empty slices of a single bit (C91_slice_refuted), truth (C91_truth_refuted), iteration (C91_iterate_refuted), texts of int() (C91_text_refuted)"
  },
  {
   "property": "C92",
   "status": "partial",
   "theorems": [
    "C92_type",
    "C92_describes",
    "C92_rows",
    "C92_closed",
    "C92_callproc_refuted",
    "C92_nextset_refuted",
    "C92_type_refuted"
   ],
   "note": "refuted: callproc() and nextset() leave the description of another statement (C92_callproc_refuted, C92_nextset_refuted); several types have no type code (C92_type_refuted)"
  },
  {
   "property": "C93",
   "status": "partial",
   "theorems": [
    "C93_understood",
    "C93_spelling",
    "C93_program",
    "C93_wins",
    "C93_unknown",
    "C93_setting_refuted"
   ],
   "note": "exactly the lines written as described are understood, whatever the spelling, order or abbreviation, and mean what they say; after -c and -m everything is the program's; the last option for a parameter decides it in collect(); an unknown letter is a usage error.  Refuted: a setting without = ends in a NameError instead of a usage error."
  }
 ]
}