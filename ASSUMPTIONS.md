# Print Assumptions of every theorem (tools/assume.py)

* `C01_buffer_refines_fifo` (PBufferProps.v): Closed under the global context
* `C01_fifo_deterministic` (PBufferProps.v): Closed under the global context
* `C01_chunking_irrelevant` (PBufferProps.v): Closed under the global context
* `C02_complete_messages_delivered` (PBufferProps.v): Closed under the global context
* `C04_parse_serialize` (Element3Props.v): Closed under the global context
* `C04_nul_not_rejected_refuted` (Element3Props.v): Closed under the global context
* `C04_bind_formats_not_checked_refuted` (Element3Props.v): Closed under the global context
* `C03_batch_received` (Element3Props.v): Closed under the global context
* `C03_oversized_copy_line_refused` (Element3Props.v): Closed under the global context
* `C05_row_roundtrip` (Element3Props.v): Closed under the global context
* `C05_truncated_row_accepted_refuted` (Element3Props.v): Closed under the global context
* `C04_command_tag_count` (Element3Props.v): Closed under the global context
* `C04_wire_format` (Element3Props.v): Closed under the global context
* `C04_serialize_wire` (Element3Props.v): Closed under the global context
* `C04_parse_wire` (Element3Props.v): Closed under the global context
* `C03_wire` (Element3Props.v): Closed under the global context
* `C04_notice_terminator_missing_refuted` (Element3Props.v): Closed under the global context
* `C46_chunk` (IterProps.v): Closed under the global context
* `C46_chunk_zero_never_ends` (IterProps.v): Closed under the global context
* `C46_interlace` (IterProps.v): Closed under the global context
* `C46_find` (IterProps.v): Closed under the global context
* `C44_process_tuple_ok` (IterProps.v): Closed under the global context
* `C44_process_tuple_mismatch` (IterProps.v): Closed under the global context
* `C44_process_tuple_fail` (IterProps.v): Closed under the global context
* `C44_process_tuple_total` (IterProps.v): Closed under the global context
* `C44_process_chunk_ok` (IterProps.v): Closed under the global context
* `C44_process_chunk_fail` (IterProps.v): Closed under the global context
* `C44_composition` (IterProps.v): Closed under the global context
* `C44_composition_fail` (IterProps.v): Closed under the global context
* `C06_signed_pack` (TypeIOProps.v): Closed under the global context
* `C06_signed_range` (TypeIOProps.v): Closed under the global context
* `C06_signed_unpack` (TypeIOProps.v): Closed under the global context
* `C06_signed_roundtrip` (TypeIOProps.v): Closed under the global context
* `C06_unsigned_pack` (TypeIOProps.v): Closed under the global context
* `C06_unsigned_range` (TypeIOProps.v): Closed under the global context
* `C06_unsigned_unpack` (TypeIOProps.v): Closed under the global context
* `C06_short_data` (TypeIOProps.v): Closed under the global context
* `C06_codecs` (TypeIOProps.v): Closed under the global context
* `C09_record_pack` (TypeIOProps.v): Closed under the global context
* `C09_record_roundtrip` (TypeIOProps.v): Closed under the global context
* `C09_record_strict` (TypeIOProps.v): Closed under the global context
* `C09_negative_count_refuted` (TypeIOProps.v): Closed under the global context
* `C10_array_pack` (TypeIOProps.v): Closed under the global context
* `C10_array_roundtrip` (TypeIOProps.v): Closed under the global context
* `C11_sized_terminates` (TypeIOProps.v): Closed under the global context
* `C11_sized_exact` (TypeIOProps.v): Closed under the global context
* `C11_hstore_terminates` (TypeIOProps.v): Closed under the global context
* `C11_array_terminates_partial` (TypeIOProps.v): Closed under the global context
* `C11_array_loops_refuted` (TypeIOProps.v): Closed under the global context
* `C11_array_truncated_refuted` (TypeIOProps.v): Closed under the global context
* `C12_hstore_roundtrip` (TypeIOProps.v): Closed under the global context
* `C12_hstore_strict` (TypeIOProps.v): Closed under the global context
* `C12_hstore_bad_count` (TypeIOProps.v): Closed under the global context
* `C12_hstore_duplicates` (TypeIOProps.v): Closed under the global context
* `C12_bool` (TypeIOProps.v): Closed under the global context
* `C12_jsonb` (TypeIOProps.v): Closed under the global context
* `C12_uuid` (TypeIOProps.v): Closed under the global context
* `C12_varbit` (TypeIOProps.v): Closed under the global context
* `C12_varbit_concat` (TypeIOProps.v): Closed under the global context
* `C12_varbit_repeat` (TypeIOProps.v): Closed under the global context
* `C12_getbit_refuted` (TypeIOProps.v): Closed under the global context
* `C12_vectors_refuted` (TypeIOProps.v): Closed under the global context
* `C12_oidvector_read` (TypeIOProps.v): Closed under the global context
* `C12_int2vector_read` (TypeIOProps.v): Closed under the global context
* `C13_inet_roundtrip` (TypeIOProps.v): Closed under the global context
* `C13_inet_receive` (TypeIOProps.v): Closed under the global context
* `C13_cidr_roundtrip` (TypeIOProps.v): Closed under the global context
* `C13_host_prefix_refuted` (TypeIOProps.v): Closed under the global context
* `C13_macaddr_unpack` (TypeIOProps.v): Closed under the global context
* `C13_macaddr_pack` (TypeIOProps.v): Closed under the global context
* `C07_sent_value` (NumericProps.v): Closed under the global context
* `C07_sent_total` (NumericProps.v): Closed under the global context
* `C07_received_value` (NumericProps.v): Closed under the global context
* `C07_roundtrip` (NumericProps.v): Closed under the global context
* `C07_roundtrip_decimals` (NumericProps.v): Closed under the global context
* `C07_infinity_refused` (NumericProps.v): Closed under the global context
* `C07_nan_send_refuted` (NumericProps.v): Closed under the global context
* `C07_nan_receive_refuted` (NumericProps.v): Closed under the global context
* `C08_date_sent` (DatetimeProps.v): Closed under the global context
* `C08_date_received` (DatetimeProps.v): Closed under the global context
* `C08_date_roundtrip` (DatetimeProps.v): Closed under the global context
* `C08_infinity_strings` (DatetimeProps.v): Closed under the global context
* `C08_last_date_refuted` (DatetimeProps.v): Closed under the global context
* `C08_timestamp_sent` (DatetimeProps.v): Closed under the global context
* `C08_timestamp_received` (DatetimeProps.v): Closed under the global context
* `C08_representable` (DatetimeProps.v): Closed under the global context
* `C08_timestamp_roundtrip` (DatetimeProps.v): Closed under the global context
* `C08_timestamptz_sent` (DatetimeProps.v): Closed under the global context
* `C08_timestamptz_sent_out_of_range` (DatetimeProps.v): Closed under the global context
* `C08_timestamptz_received` (DatetimeProps.v): Closed under the global context
* `C08_timestamptz_roundtrip` (DatetimeProps.v): Closed under the global context
* `C08_timestamptz_infinity_naive_refuted` (DatetimeProps.v): Closed under the global context
* `C08_time_sent` (DatetimeProps.v): Closed under the global context
* `C08_time_roundtrip` (DatetimeProps.v): Closed under the global context
* `C08_time_received` (DatetimeProps.v): Closed under the global context
* `C08_midnight24_refuted` (DatetimeProps.v): Closed under the global context
* `C08_timetz_sent` (DatetimeProps.v): Closed under the global context
* `C08_timetz_returns` (DatetimeProps.v): Closed under the global context
* `C08_timetz_roundtrip_partial` (DatetimeProps.v): Closed under the global context
* `C08_timetz_seconds_refuted` (DatetimeProps.v): Closed under the global context
* `C08_timetz_zone_sign_refuted` (DatetimeProps.v): Closed under the global context
* `C08_interval_sent` (DatetimeProps.v): Closed under the global context
* `C08_interval_roundtrip` (DatetimeProps.v): Closed under the global context
* `C08_interval_received` (DatetimeProps.v): Closed under the global context
* `C08_interval_noday_roundtrip` (DatetimeProps.v): Closed under the global context
* `C08_interval_noday_range` (DatetimeProps.v): Closed under the global context
* `C08_interval_noday_received` (DatetimeProps.v): Closed under the global context
* `C29_sends` (NegProps.v): Closed under the global context
* `C29_pending` (NegProps.v): Closed under the global context
* `C29_unsupported` (NegProps.v): Closed under the global context
* `C30_success_partial` (NegProps.v): Closed under the global context
* `C30_complete` (NegProps.v): Closed under the global context
* `C30_error` (NegProps.v): Closed under the global context
* `C30_fatal_has_error` (NegProps.v): Closed under the global context
* `C30_asyncs` (NegProps.v): Closed under the global context
* `C30_batch_once` (NegProps.v): Closed under the global context
* `C30_ok_type_refuted` (NegProps.v): Closed under the global context
* `C25_complete` (InstProps.v): Closed under the global context
* `C25_accounted` (InstProps.v): Closed under the global context
* `C25_answered` (InstProps.v): Closed under the global context
* `C25_progress` (InstProps.v): Closed under the global context
* `C26_batching_partial` (InstProps.v): Closed under the global context
* `C26_prefix` (InstProps.v): Closed under the global context
* `C27_complete` (InstProps.v): Closed under the global context
* `C27_recorded` (InstProps.v): Closed under the global context
* `C27_violation` (InstProps.v): Closed under the global context
* `C28_delivered_partial` (InstProps.v): Closed under the global context
* `C28_exactly_once` (InstProps.v): Closed under the global context
* `C28_batch` (InstProps.v): Closed under the global context
* `C28_again` (InstProps.v): Closed under the global context
* `C47_copy_terminated` (InstProps.v): Closed under the global context
* `C47_fails_by_default` (InstProps.v): Closed under the global context
* `C26_results_refuted` (InstProps.v): Closed under the global context
* `C28_exactly_once_refuted` (InstProps.v): Closed under the global context
* `C28_interrupted_refuted` (InstProps.v): Closed under the global context
* `C27_function_refuted` (InstProps.v): Closed under the global context
* `C27_portal_nodata_refuted` (InstProps.v): Closed under the global context
* `C25_flush_refuted` (InstProps.v): Closed under the global context
* `C16_quote_literal` (StrProps.v): Closed under the global context
* `C16_quote_ident` (StrProps.v): Closed under the global context
* `C16_lexer_deterministic` (StrProps.v): Closed under the global context
* `C16_injective` (StrProps.v): Closed under the global context
* `C16_nonstandard_strings_refuted` (StrProps.v): Closed under the global context
* `C17_split_qname_qname` (StrProps.v): Closed under the global context
* `C17_split_qname_if_needed` (StrProps.v): Closed under the global context
* `C17_if_needed_denotes_partial` (StrProps.v): Closed under the global context
* `C17_uppercase_refuted` (StrProps.v): Closed under the global context
* `C17_reserved_word_refuted` (StrProps.v): Closed under the global context
* `C17_split_using` (StrProps.v): Closed under the global context
* `C17_split_using_lossless` (StrProps.v): Closed under the global context
* `C18_split_render` (StrProps.v): Closed under the global context
* `C18_unsplit_split` (StrProps.v): Closed under the global context
* `C18_unsplit_split_refuted` (StrProps.v): Closed under the global context
* `C18_split_sql` (StrProps.v): Closed under the global context
* `C18_split_sql_closed` (StrProps.v): Closed under the global context
* `C18_multiline_dollar_refuted` (StrProps.v): Closed under the global context
* `C18_lowercase_e_refuted` (StrProps.v): Closed under the global context
* `C19_roundtrip` (ByteaProps.v): Closed under the global context
* `C19_wellformed` (ByteaProps.v): Closed under the global context
* `C19_malformed_partial` (ByteaProps.v): Closed under the global context
* `C19_malformed_refuted` (ByteaProps.v): Closed under the global context
* `C20_split` (VersionProps.v): Closed under the global context
* `C20_unsplit_partial` (VersionProps.v): Closed under the global context
* `C20_unsplit_refuted` (VersionProps.v): Closed under the global context
* `C20_normalize` (VersionProps.v): Closed under the global context
* `C20_order_partial` (VersionProps.v): Closed under the global context
* `C20_order_refuted` (VersionProps.v): Closed under the global context
* `C21_line_partial` (PgPassProps.v): Closed under the global context
* `C21_blank_refuted` (PgPassProps.v): Closed under the global context
* `C21_lookup` (PgPassProps.v): Closed under the global context
* `C21_defaults` (PgPassProps.v): Closed under the global context
* `C21_any_file` (PgPassProps.v): Closed under the global context
* `C22_unsplit_split` (RIProps.v): Closed under the global context
* `C22_split_unsplit` (RIProps.v): Closed under the global context
* `C22_escape` (RIProps.v): Closed under the global context
* `C22_unescape_plain` (RIProps.v): Closed under the global context
* `C22_unescape_percent` (RIProps.v): Closed under the global context
* `C22_unescape_hex` (RIProps.v): Closed under the global context
* `C22_unescape_stray` (RIProps.v): Closed under the global context
* `C22_netloc_partial` (RIProps.v): Closed under the global context
* `C22_netloc_refuted` (RIProps.v): Closed under the global context
* `C22_dict_partial` (RIProps.v): Closed under the global context
* `C22_dict_refuted` (RIProps.v): Closed under the global context
* `C23_roundtrip_partial` (IRIProps.v): Closed under the global context
* `C23_obscured` (IRIProps.v): Closed under the global context
* `C23_obscured_absent` (IRIProps.v): Closed under the global context
* `C23_database_refuted` (IRIProps.v): Closed under the global context
* `C23_database_escape_refuted` (IRIProps.v): Closed under the global context
* `C23_ssl_refuted` (IRIProps.v): Closed under the global context
* `C23_ssl_unreadable_refuted` (IRIProps.v): Closed under the global context
* `C23_none_setting_refuted` (IRIProps.v): Closed under the global context
* `C23_lost_refuted` (IRIProps.v): Closed under the global context
* `C23_path_string` (IRIProps.v): Closed under the global context
* `C24_succeeds` (ConfProps.v): Closed under the global context
* `C24_set` (ConfProps.v): Closed under the global context
* `C24_removed` (ConfProps.v): Closed under the global context
* `C24_others` (ConfProps.v): Closed under the global context
* `C24_unrelated_lines` (ConfProps.v): Closed under the global context
* `C24_removed_lines` (ConfProps.v): Closed under the global context
* `C24_line_count` (ConfProps.v): Closed under the global context
* `C24_file` (ConfProps.v): Closed under the global context
* `C24_empty_file_refuted` (ConfProps.v): Closed under the global context
* `C24_delete_refuted` (ConfProps.v): Closed under the global context
* `C24_custom_name_refuted` (ConfProps.v): Closed under the global context
* `C24_spelling_refuted` (ConfProps.v): Closed under the global context
* `C24_open_quote_refuted` (ConfProps.v): Closed under the global context
* `C14_round_trip` (ArrayProps.v): Closed under the global context
* `C14_accepted` (ArrayProps.v): Closed under the global context
* `C14_ragged` (ArrayProps.v): Closed under the global context
* `C14_from_elements` (ArrayProps.v): Closed under the global context
* `C14_from_elements_default` (ArrayProps.v): Closed under the global context
* `C14_count_mismatch` (ArrayProps.v): Closed under the global context
* `C14_index_flat` (ArrayProps.v): Closed under the global context
* `C14_index_partial` (ArrayProps.v): Closed under the global context
* `C14_index_high` (ArrayProps.v): Closed under the global context
* `C14_index_refuted` (ArrayProps.v): Closed under the global context
* `C14_get_element` (ArrayProps.v): Closed under the global context
* `C14_get_element_error` (ArrayProps.v): Closed under the global context
* `C14_sql_get_element` (ArrayProps.v): Closed under the global context
* `C14_slice` (ArrayProps.v): Closed under the global context
* `C14_strings_as_rows_refuted` (ArrayProps.v): Closed under the global context
* `C14_sql_length_refuted` (ArrayProps.v): Closed under the global context
* `C15_statement_rows` (RowProps.v): Closed under the global context
* `C15_agree` (RowProps.v): Closed under the global context
* `C15_columns` (RowProps.v): Closed under the global context
* `C15_unknown_name` (RowProps.v): Closed under the global context
* `C15_get_int_partial` (RowProps.v): Closed under the global context
* `C15_get_int_refuted` (RowProps.v): Closed under the global context
* `C15_from_mapping` (RowProps.v): Closed under the global context
* `C15_transform` (RowProps.v): Closed under the global context
* `C15_transform_unknown` (RowProps.v): Closed under the global context
* `C15_repeated_name` (RowProps.v): Closed under the global context
* `C15_repeated_items_refuted` (RowProps.v): Closed under the global context
* `C45_error_lookup` (ExcProps.v): Closed under the global context
* `C45_warning_lookup` (ExcProps.v): Closed under the global context
* `C45_own_code` (ExcProps.v): Closed under the global context
* `C45_class_catches` (ExcProps.v): Closed under the global context
* `C45_most_general` (ExcProps.v): Closed under the global context
* `C45_program_limit_refuted` (ExcProps.v): Closed under the global context
* `C45_escape_character_refuted` (ExcProps.v): Closed under the global context
* `C43_normalize` (ParamProps.v): Closed under the global context
* `C43_denormalize_normalize` (ParamProps.v): Closed under the global context
* `C43_precedence` (ParamProps.v): Closed under the global context
* `C43_password` (ParamProps.v): Closed under the global context
* `C43_total` (ParamProps.v): Closed under the global context
* `C43_no_service` (ParamProps.v): Closed under the global context
* `C43_settings_variables_refuted` (ParamProps.v): Closed under the global context
* `C43_requiressl_refuted` (ParamProps.v): Closed under the global context
* `C39_held_partial` (AlockProps.v): Closed under the global context
* `C39_locked_partial` (AlockProps.v): Closed under the global context
* `C39_try` (AlockProps.v): Closed under the global context
* `C39_blocking` (AlockProps.v): Closed under the global context
* `C39_count` (AlockProps.v): Closed under the global context
* `C39_release_unacquired` (AlockProps.v): Closed under the global context
* `C39_closed` (AlockProps.v): Closed under the global context
* `C39_reentrant_refuted` (AlockProps.v): Closed under the global context
* `C39_reentrant_other_refuted` (AlockProps.v): Closed under the global context
* `C39_interrupted_refuted` (AlockProps.v): Closed under the global context
* `C35_fetches` (DbapiProps.v): Closed under the global context
* `C35_segments` (DbapiProps.v): Closed under the global context
* `C35_fetchall_exhausts` (DbapiProps.v): Closed under the global context
* `C35_negative_refuted` (DbapiProps.v): Closed under the global context
* `C36_positional` (PercentProps.v): Closed under the global context
* `C36_named` (PercentProps.v): Closed under the global context
* `C36_named_exact` (PercentProps.v): Closed under the global context
* `C36_mixed` (PercentProps.v): Closed under the global context
* `C36_plain` (PercentProps.v): Closed under the global context
* `C36_percent_escape_refuted` (PercentProps.v): Closed under the global context
* `C36_adjacent_digit_refuted` (PercentProps.v): Closed under the global context
* `C36_extra_key_refuted` (PercentProps.v): Closed under the global context
* `C31_sent_once_in_order` (ConnProps.v): Closed under the global context
* `C48_input_accounted` (ConnProps.v): Closed under the global context
* `C48_transactions_driven` (ConnProps.v): Closed under the global context
* `C48_answered` (ConnProps.v): Closed under the global context
* `C48_pushed_once` (ConnProps.v): Closed under the global context
* `C32_closed_exactly_once` (ConnProps.v): Closed under the global context
* `C32_closed_before_push` (ConnProps.v): Closed under the global context
* `C32_batch_sent_once` (ConnProps.v): Closed under the global context
* `C31_wire_grows` (ConnProps.v): Closed under the global context
* `C31_step_ignores_loss_refuted` (ConnProps.v): Closed under the global context
* `C33_require_always_tls` (SslProps.v): Closed under the global context
* `C33_disable_never_tls` (SslProps.v): Closed under the global context
* `C33_answer_respected` (SslProps.v): Closed under the global context
* `C33_request_bytes` (SslProps.v): Closed under the global context
* `C33_security_truthful` (SslProps.v): Closed under the global context
* `C33_sequence` (SslProps.v): Closed under the global context
* `C33_attempt_outcome` (SslProps.v): Closed under the global context
* `C33_sockets_closed` (SslProps.v): Closed under the global context
* `C33_exception_leaks_refuted` (SslProps.v): Closed under the global context
* `C33_unknown_mode` (SslProps.v): Closed under the global context
* `C34_rows_in_order` (FetchProps.v): Closed under the global context
* `C34_end_is_the_end` (FetchProps.v): Closed under the global context
* `C34_rows_whole` (FetchProps.v): Closed under the global context
* `C34_stream_in_order` (FetchProps.v): Closed under the global context
* `C34_stream_end` (FetchProps.v): Closed under the global context
* `C34_stream_whole` (FetchProps.v): Closed under the global context
* `C34_stream_failure` (FetchProps.v): Closed under the global context
* `C34_stream_truncated_refuted` (FetchProps.v): Closed under the global context
* `C34_strategy` (FetchProps.v): Closed under the global context
* `C40_count` (CopyProps.v): Closed under the global context
* `C40_end` (CopyProps.v): Closed under the global context
* `C40_after_end` (CopyProps.v): Closed under the global context
* `C40_producer` (CopyProps.v): Closed under the global context
* `C40_producer_end` (CopyProps.v): Closed under the global context
* `C40_realign` (CopyProps.v): Closed under the global context
* `C40_lines` (CopyProps.v): Closed under the global context
* `C41_all_data` (CopyProps.v): Closed under the global context
* `C41_in_set` (CopyProps.v): Closed under the global context
* `C41_prefix` (CopyProps.v): Closed under the global context
* `C41_faults` (CopyProps.v): Closed under the global context
* `C41_progress` (CopyProps.v): Closed under the global context
* `C41_done` (CopyProps.v): Closed under the global context
* `C41_late_reconcile_refuted` (CopyProps.v): Closed under the global context
* `C41_abandoned_refuted` (CopyProps.v): Closed under the global context
* `C41_interrupted_refuted` (CopyProps.v): Closed under the global context
* `C42_exactly_once` (NotifyProps.v): Closed under the global context
* `C42_not_empty` (NotifyProps.v): Closed under the global context
* `C42_idle` (NotifyProps.v): Closed under the global context
* `C42_stop` (NotifyProps.v): Closed under the global context
* `C42_poll` (NotifyProps.v): Closed under the global context
* `C42_wait` (NotifyProps.v): Closed under the global context
* `C42_idle_interval` (NotifyProps.v): Closed under the global context
* `C42_idle_comes` (NotifyProps.v): Closed under the global context
* `C42_iternotifies` (NotifyProps.v): Closed under the global context
* `C42_failed_connection_refuted` (NotifyProps.v): Closed under the global context
* `C42_poll_wire_refuted` (NotifyProps.v): Closed under the global context
* `C42_idle_held_refuted` (NotifyProps.v): Closed under the global context
* `C42_idle_guaranteed_refuted` (NotifyProps.v): Closed under the global context
* `C37_outside` (XactProps.v): Closed under the global context
* `C37_inside` (XactProps.v): Closed under the global context
* `C37_failed_block` (XactProps.v): Closed under the global context
* `C37_start_commands` (XactProps.v): Closed under the global context
* `C37_end_commands` (XactProps.v): Closed under the global context
* `C37_ended` (XactProps.v): Closed under the global context
* `C37_interrupt_refuted` (XactProps.v): Closed under the global context
* `C49_delimits` (XactProps.v): Closed under the global context
* `C49_durable` (XactProps.v): Closed under the global context
* `C49_refused_commit_refuted` (XactProps.v): Closed under the global context
* `C49_failed_commit_refuted` (XactProps.v): Closed under the global context
* `C38_coherent` (SettProps.v): Closed under the global context
* `C38_reported` (SettProps.v): Closed under the global context
* `C38_read` (SettProps.v): Closed under the global context
* `C38_unknown` (SettProps.v): Closed under the global context
* `C38_set` (SettProps.v): Closed under the global context
* `C38_del` (SettProps.v): Closed under the global context
* `C38_update` (SettProps.v): Closed under the global context
* `C38_block` (SettProps.v): Closed under the global context
* `C38_path` (SettProps.v): Closed under the global context
* `C38_rollback_refuted` (SettProps.v): Closed under the global context
* `C38_sql_refuted` (SettProps.v): Closed under the global context
* `C38_spelling_refuted` (SettProps.v): Closed under the global context
* `C38_documented_block_refuted` (SettProps.v): Closed under the global context
* `C38_del_path_refuted` (SettProps.v): Closed under the global context
* `C38_empty_path_refuted` (SettProps.v): Closed under the global context
* `C38_none_refuted` (SettProps.v): Closed under the global context
* `C50_called` (SettProps.v): Closed under the global context
* `C50_order` (SettProps.v): Closed under the global context
* `C50_raising_refuted` (SettProps.v): Closed under the global context
* `C51_direction` (CursProps.v): Closed under the global context
* `C51_reversed` (CursProps.v): Closed under the global context
* `C51_valid` (CursProps.v): Closed under the global context
* `C51_read` (CursProps.v): Closed under the global context
* `C51_pieces` (CursProps.v): Closed under the global context
* `C51_next` (CursProps.v): Closed under the global context
* `C51_page` (CursProps.v): Closed under the global context
* `C51_from_end` (CursProps.v): Closed under the global context
* `C51_relative` (CursProps.v): Closed under the global context
* `C51_forward_backward` (CursProps.v): Closed under the global context
* `C51_absolute` (CursProps.v): Closed under the global context
* `C51_read_zero` (CursProps.v): Closed under the global context
* `C51_backward_forward_refuted` (CursProps.v): Closed under the global context
* `C51_backward_all_refuted` (CursProps.v): Closed under the global context
* `C52_library` (LibProps.v): Closed under the global context
* `C52_undefined` (LibProps.v): Closed under the global context
* `C52_unknown` (LibProps.v): Closed under the global context
* `C52_queries_unique` (LibProps.v): Closed under the global context
* `C52_bracket_line_refuted` (LibProps.v): Closed under the global context
* `C52_preface_refuted` (LibProps.v): Closed under the global context
* `C53_named` (LibProps.v): Closed under the global context
* `C53_executes` (LibProps.v): Closed under the global context
* `C53_reference_query` (LibProps.v): Closed under the global context
* `C53_attribute` (LibProps.v): Closed under the global context
* `C53_kept` (LibProps.v): Closed under the global context
* `C53_transient` (LibProps.v): Closed under the global context
* `C53_missing` (LibProps.v): Closed under the global context
* `C53_preload` (LibProps.v): Closed under the global context
* `C53_preload_only` (LibProps.v): Closed under the global context
* `C53_const_refuted` (LibProps.v): Closed under the global context
* `C54_bound` (LibProps.v): Closed under the global context
* `C54_succeeds` (LibProps.v): Closed under the global context
* `C54_not_replaced` (LibProps.v): Closed under the global context
* `C54_nothing_else` (LibProps.v): Closed under the global context
* `C54_stops` (LibProps.v): Closed under the global context
* `C54_conflict_refuted` (LibProps.v): Closed under the global context
* `C55_converted` (TresProps.v): Closed under the global context
* `C55_failed` (TresProps.v): Closed under the global context
* `C55_chunk` (TresProps.v): Closed under the global context
* `C56_round_trip` (TresProps.v): Closed under the global context
* `C56_columns` (TresProps.v): Closed under the global context
* `C56_resolved` (TresProps.v): Closed under the global context
* `C56_anonymous` (TresProps.v): Closed under the global context
* `C56_terminates` (TresProps.v): Closed under the global context
* `C56_once` (TresProps.v): Closed under the global context
* `C56_altered_refuted` (TresProps.v): Closed under the global context
* `C56_identify_refuted` (TresProps.v): Closed under the global context
* `C57_own` (LifeProps.v): Closed under the global context
* `C57_alive` (LifeProps.v): Closed under the global context
* `C57_portal` (LifeProps.v): Closed under the global context
* `C57_portal_own` (LifeProps.v): Closed under the global context
* `C57_no_leak_statements` (LifeProps.v): Closed under the global context
* `C57_no_leak_portals` (LifeProps.v): Closed under the global context
* `C57_released` (LifeProps.v): Closed under the global context
* `C57_close` (LifeProps.v): Closed under the global context
* `C57_collected` (LifeProps.v): Closed under the global context
* `C57_progress` (LifeProps.v): Closed under the global context
* `C57_user_names_refuted` (LifeProps.v): Closed under the global context
* `C58_error` (MesgProps.v): Closed under the global context
* `C58_wire` (MesgProps.v): Closed under the global context
* `C58_client` (MesgProps.v): Closed under the global context
* `C58_fatal` (MesgProps.v): Closed under the global context
* `C58_unlabelled` (MesgProps.v): Closed under the global context
* `C58_fatal_localized_refuted` (MesgProps.v): Closed under the global context
* `C59_emit` (MesgProps.v): Closed under the global context
* `C59_delivered` (MesgProps.v): Closed under the global context
* `C59_each` (MesgProps.v): Closed under the global context
* `C59_attributed` (MesgProps.v): Closed under the global context
* `C59_running` (MesgProps.v): Closed under the global context
* `C59_codec` (MesgProps.v): Closed under the global context
* `C59_encodings` (MesgProps.v): Closed under the global context
* `C59_shift_jis_2004_refuted` (MesgProps.v): Closed under the global context
* `C59_localized_refuted` (MesgProps.v): Closed under the global context
* `C60_marker` (MarkProps.v): Closed under the global context
* `C60_everywhere` (MarkProps.v): Closed under the global context
* `C61_notify` (MarkProps.v): Closed under the global context
* `C61_listen_refuted` (MarkProps.v): Closed under the global context
* `C61_listen_partial` (MarkProps.v): Closed under the global context
* `C61_listen_long` (MarkProps.v): Closed under the global context
* `C62_text` (MarkProps.v): Closed under the global context
* `C62_place` (MarkProps.v): Closed under the global context
* `C63_all` (LoadProps.v): Closed under the global context
* `C63_success` (LoadProps.v): Closed under the global context
* `C63_whole_chunks` (LoadProps.v): Closed under the global context
* `C63_block` (LoadProps.v): Closed under the global context
* `C63_unpackable` (LoadProps.v): Closed under the global context
* `C63_iterable` (LoadProps.v): Closed under the global context
* `C63_server_error` (LoadProps.v): Closed under the global context
* `C63_clean` (LoadProps.v): Closed under the global context
* `C63_error_lost_refuted` (LoadProps.v): Closed under the global context
* `C63_row_limit_refuted` (LoadProps.v): Closed under the global context
* `C63_path` (LoadProps.v): Closed under the global context
* `C64_all` (LcopyProps.v): Closed under the global context
* `C64_sent` (LcopyProps.v): Closed under the global context
* `C64_exception` (LcopyProps.v): Closed under the global context
* `C64_not_copy` (LcopyProps.v): Closed under the global context
* `C64_returns` (LcopyProps.v): Closed under the global context
* `C64_next_refuted` (LcopyProps.v): Closed under the global context
* `C65_result` (FirstProps.v): Closed under the global context
* `C65_parameters` (FirstProps.v): Closed under the global context
* `C65_determined` (FirstProps.v): Closed under the global context
* `C65_answered` (FirstProps.v): Closed under the global context
* `C65_error` (FirstProps.v): Closed under the global context
* `C66_options` (PgcProps.v): Closed under the global context
* `C66_lines` (PgcProps.v): Closed under the global context
* `C66_fallback` (PgcProps.v): Closed under the global context
* `C66_installation` (PgcProps.v): Closed under the global context
* `C66_more_words` (PgcProps.v): Closed under the global context
* `C66_paths` (PgcProps.v): Closed under the global context
* `C66_default` (PgcProps.v): Closed under the global context
* `C66_options_refuted` (PgcProps.v): Closed under the global context
* `C66_packaged_refuted` (PgcProps.v): Closed under the global context
* `C66_directories_refuted` (PgcProps.v): Closed under the global context
* `C66_fallback_refuted` (PgcProps.v): Closed under the global context
* `C66_join` (PgcProps.v): Closed under the global context
* `C67_innermost` (TmpProps.v): Closed under the global context
* `C67_others` (TmpProps.v): Closed under the global context
* `C67_left_partial` (TmpProps.v): Closed under the global context
* `C67_exit` (TmpProps.v): Closed under the global context
* `C67_interrupted` (TmpProps.v): Closed under the global context
* `C67_schema` (TmpProps.v): Closed under the global context
* `C67_failed` (TmpProps.v): Closed under the global context
* `C67_left_refuted` (TmpProps.v): Closed under the global context
* `C67_exit_refuted` (TmpProps.v): Closed under the global context
* `C67_interrupt_refuted` (TmpProps.v): Closed under the global context
* `C68_close_ends` (ClsProps.v): Closed under the global context
* `C68_after_close` (ClsProps.v): Closed under the global context
* `C68_close_when_lost` (ClsProps.v): Closed under the global context
* `C68_socket_closed_once` (ClsProps.v): Closed under the global context
* `C68_disconnect_last` (ClsProps.v): Closed under the global context
* `C68_farewell` (ClsProps.v): Closed under the global context
* `C68_loss_final` (ClsProps.v): Closed under the global context
* `C68_connect_once` (ClsProps.v): Closed under the global context
* `C68_state` (ClsProps.v): Closed under the global context
* `C68_reconnect_refuted` (ClsProps.v): Closed under the global context
* `C68_revived_refuted` (ClsProps.v): Closed under the global context
* `C69_signal` (CluProps.v): Closed under the global context
* `C69_running` (CluProps.v): Closed under the global context
* `C69_truth` (CluProps.v): Closed under the global context
* `C70_start` (CluProps.v): Closed under the global context
* `C70_started` (CluProps.v): Closed under the global context
* `C70_started_ends` (CluProps.v): Closed under the global context
* `C70_restart` (CluProps.v): Closed under the global context
* `C71_stopped` (CluProps.v): Closed under the global context
* `C71_leave` (CluProps.v): Closed under the global context
* `C71_stopped_ends` (CluProps.v): Closed under the global context
* `C71_child` (CluProps.v): Closed under the global context
* `C71_drop` (CluProps.v): Closed under the global context
* `C71_tree` (CluProps.v): Closed under the global context
* `C72_init` (CluProps.v): Closed under the global context
* `C72_unknown` (CluProps.v): Closed under the global context
* `C72_no_program` (CluProps.v): Closed under the global context
* `C73_address` (CluProps.v): Closed under the global context
* `C73_host` (CluProps.v): Closed under the global context
* `C73_connect` (CluProps.v): Closed under the global context
* `C69_signal_refuted` (CluProps.v): Closed under the global context
* `C70_settings_refuted` (CluProps.v): Closed under the global context
* `C70_default_refuted` (CluProps.v): Closed under the global context
* `C70_enter_refuted` (CluProps.v): Closed under the global context
* `C71_race_refuted` (CluProps.v): Closed under the global context
* `C71_link_refuted` (CluProps.v): Closed under the global context
* `C73_blank_refuted` (CluProps.v): Closed under the global context
* `C74_unix_crypt` (CrypProps.v): Closed under the global context
* `C74_short_salt` (CrypProps.v): Closed under the global context
* `C74_shape` (CrypProps.v): Closed under the global context
* `C74_verify` (CrypProps.v): Closed under the global context
* `C74_eight` (CrypProps.v): Closed under the global context
* `C74_nul_refuted` (CrypProps.v): Closed under the global context
* `C74_answer` (CrypProps.v): Closed under the global context
* `C75_unix` (CtorProps.v): Closed under the global context
* `C75_exclusive` (CtorProps.v): Closed under the global context
* `C75_required` (CtorProps.v): Closed under the global context
* `C75_user` (CtorProps.v): Closed under the global context
* `C75_inet` (CtorProps.v): Closed under the global context
* `C75_family` (CtorProps.v): Closed under the global context
* `C75_ipv_conflict` (CtorProps.v): Closed under the global context
* `C75_keywords` (CtorProps.v): Closed under the global context
* `C75_security` (CtorProps.v): Closed under the global context
* `C76_startup` (CtorProps.v): Closed under the global context
* `C76_password` (CtorProps.v): Closed under the global context
* `C76_wire` (CtorProps.v): Closed under the global context
* `C76_no_path_refuted` (CtorProps.v): Closed under the global context
* `C76_pairs_path_refuted` (CtorProps.v): Closed under the global context
* `C76_nul_refuted` (CtorProps.v): Closed under the global context
* `C77_precedence` (CtorProps2.v): Closed under the global context
* `C77_password` (CtorProps2.v): Closed under the global context
* `C77_socket` (CtorProps2.v): Closed under the global context
* `C77_plain` (CtorProps2.v): Closed under the global context
* `C78_statement` (ProcProps.v): Closed under the global context
* `C78_no_such` (ProcProps.v): Closed under the global context
* `C78_call` (ProcProps.v): Closed under the global context
* `C78_error` (ProcProps.v): Closed under the global context
* `C78_keywords_refuted` (ProcProps.v): Closed under the global context
* `C78_character_refuted` (ProcProps.v): Closed under the global context
* `C79_bytes` (FltProps.v): Closed under the global context
* `C79_double_pack` (FltProps.v): Closed under the global context
* `C79_double_unpack` (FltProps.v): Closed under the global context
* `C79_double_short` (FltProps.v): Closed under the global context
* `C79_double_back` (FltProps.v): Closed under the global context
* `C79_double_again` (FltProps.v): Closed under the global context
* `C79_single_pack` (FltProps.v): Closed under the global context
* `C79_single_overflow` (FltProps.v): Closed under the global context
* `C79_single_unpack` (FltProps.v): Closed under the global context
* `C79_single_again` (FltProps.v): Closed under the global context
* `C80_box` (GeoProps.v): Closed under the global context
* `C80_sent` (GeoProps.v): Closed under the global context
* `C80_point_back` (GeoProps.v): Closed under the global context
* `C80_lseg_back` (GeoProps.v): Closed under the global context
* `C80_box_back` (GeoProps.v): Closed under the global context
* `C80_circle` (GeoProps.v): Closed under the global context
* `C80_commute` (GeoProps.v): Closed under the global context
* `C80_nan_refuted` (GeoProps.v): Closed under the global context
* `C08_float_time` (FdtProps.v): Closed under the global context
* `C08_float_timetz` (FdtProps.v): Closed under the global context
* `C08_float_timestamp` (FdtProps.v): Closed under the global context
* `C08_float_timestamp_far` (FdtProps.v): Closed under the global context
* `C08_float_timestamptz` (FdtProps.v): Closed under the global context
* `C08_float_infinity` (FdtProps.v): Closed under the global context
* `C08_float_not_finite` (FdtProps.v): Closed under the global context
* `C08_float_interval` (FdtProps.v): Closed under the global context
* `C08_float_interval_noday` (FdtProps.v): Closed under the global context
* `C08_float_interval_received` (FdtProps.v): Closed under the global context
* `C08_float_refuted` (FdtProps.v): Closed under the global context
* `C81_columns` (StmtProps.v): Closed under the global context
* `C81_no_columns` (StmtProps.v): Closed under the global context
* `C81_parameter_types` (StmtProps.v): Closed under the global context
* `C81_formats` (StmtProps.v): Closed under the global context
* `C81_parameters` (StmtProps.v): Closed under the global context
* `C81_chunk` (StmtProps.v): Closed under the global context
* `C81_rows` (StmtProps.v): Closed under the global context
* `C81_first` (StmtProps.v): Closed under the global context
* `C81_column` (StmtProps.v): Closed under the global context
* `C81_column_refuted` (StmtProps.v): Closed under the global context
* `C81_column_null_refuted` (StmtProps.v): Closed under the global context
* `C81_cursor_refuted` (StmtProps.v): Closed under the global context
* `C81_input_format_refuted` (StmtProps.v): Closed under the global context
* `C81_call` (StmtProps.v): Closed under the global context
* `C82_fields` (NtProps.v): Closed under the global context
* `C82_any` (NtProps.v): Closed under the global context
* `C82_same` (NtProps.v): Closed under the global context
* `C82_different` (NtProps.v): Closed under the global context
* `C82_access` (NtProps.v): Closed under the global context
* `C82_rows` (NtProps.v): Closed under the global context
* `C82_no_columns` (NtProps.v): Closed under the global context
* `C82_factory` (NtProps.v): Closed under the global context
* `C82_repeated_refuted` (NtProps.v): Closed under the global context
* `C82_normalized_refuted` (NtProps.v): Closed under the global context
* `C83_states` (CfileProps.v): Closed under the global context
* `C83_done` (CfileProps.v): Closed under the global context
* `C83_failed` (CfileProps.v): Closed under the global context
* `C83_read_back` (CfileProps.v): Closed under the global context
* `C83_reads` (CfileProps.v): Closed under the global context
* `C83_crash_refuted` (CfileProps.v): Closed under the global context
* `C83_block_refuted` (CfileProps.v): Closed under the global context
* `C83_iter_refuted` (CfileProps.v): Closed under the global context
* `C83_dotconf` (CfileProps.v): Closed under the global context
* `C83_dotconf_invalid` (CfileProps.v): Closed under the global context
* `C83_dotconf_file_refuted` (CfileProps.v): Closed under the global context
* `C85_ends` (ElemProps.v): Closed under the global context
* `C85_recursive` (ElemProps.v): Closed under the global context
* `C85_layout` (ElemProps.v): Closed under the global context
* `C85_chain` (ElemProps.v): Closed under the global context
* `C85_prime_factors_refuted` (ElemProps.v): Closed under the global context
* `C84_do` (DoProps.v): Closed under the global context
* `C84_execute` (DoProps.v): Closed under the global context
* `C84_injective` (DoProps.v): Closed under the global context
* `C84_nul_refuted` (DoProps.v): Closed under the global context
* `C84_nonstandard_strings_refuted` (DoProps.v): Closed under the global context
* `C86_open` (SockProps.v): Closed under the global context
* `C86_interrupt` (SockProps.v): Closed under the global context
* `C86_limit_refuted` (SockProps.v): Closed under the global context
* `C86_leak_refuted` (SockProps.v): Closed under the global context
* `C86_port` (SockProps.v): Closed under the global context
* `C86_interface_refuted` (SockProps.v): Closed under the global context
* `C86_message` (SockProps.v): Closed under the global context
* `C86_timeout_refuted` (SockProps.v): Closed under the global context
* `C88_selection` (PyxProps.v): Closed under the global context
* `C88_script` (PyxProps.v): Closed under the global context
* `C88_console` (PyxProps.v): Closed under the global context
* `C88_restored` (PyxProps.v): Closed under the global context
* `C88_absent_refuted` (PyxProps.v): Closed under the global context
* `C88_environ_refuted` (PyxProps.v): Closed under the global context
* `C88_context_exit_refuted` (PyxProps.v): Closed under the global context
* `C89_builtins` (PyxProps.v): Closed under the global context
* `C89_builtins_refuted` (PyxProps.v): Closed under the global context
* `C89_closed` (PyxProps.v): Closed under the global context
* `C89_connecting` (PyxProps.v): Closed under the global context
* `C89_command` (PyxProps.v): Closed under the global context
* `C89_libpath_refuted` (PyxProps.v): Closed under the global context
* `C87_utf8` (XmlProps.v): Closed under the global context
* `C87_utf8_strict` (XmlProps.v): Closed under the global context
* `C87_sent` (XmlProps.v): Closed under the global context
* `C87_sent_bytes` (XmlProps.v): Closed under the global context
* `C87_sent_other` (XmlProps.v): Closed under the global context
* `C87_received` (XmlProps.v): Closed under the global context
* `C87_roundtrip_element` (XmlProps.v): Closed under the global context
* `C87_roundtrip_elements` (XmlProps.v): Closed under the global context
* `C87_roundtrip_refuted` (XmlProps.v): Closed under the global context
* `C90_python` (ConsProps.v): Closed under the global context
* `C90_slash` (ConsProps.v): Closed under the global context
* `C90_set` (ConsProps.v): Closed under the global context
* `C90_set_all` (ConsProps.v): Closed under the global context
* `C90_execute` (ConsProps.v): Closed under the global context
* `C90_edit` (ConsProps.v): Closed under the global context
* `C90_edit_execute` (ConsProps.v): Closed under the global context
* `C90_names` (ConsProps.v): Closed under the global context
* `C90_unknown` (ConsProps.v): Closed under the global context
* `C90_help` (ConsProps.v): Closed under the global context
* `C90_x_refuted` (ConsProps.v): Closed under the global context
* `C90_i_case_refuted` (ConsProps.v): Closed under the global context
* `C91_text` (BitProps.v): Closed under the global context
* `C91_accepted` (BitProps.v): Closed under the global context
* `C91_equal` (BitProps.v): Closed under the global context
* `C91_equal_refuted` (BitProps.v): Closed under the global context
* `C91_equal_text` (BitProps.v): Closed under the global context
* `C91_slice` (BitProps.v): Closed under the global context
* `C91_slice_refuted` (BitProps.v): Closed under the global context
* `C91_truth_refuted` (BitProps.v): Closed under the global context
* `C91_iterate_refuted` (BitProps.v): Closed under the global context
* `C91_append` (BitProps.v): Closed under the global context
* `C91_text_refuted` (BitProps.v): Closed under the global context
* `C92_type` (DescProps.v): Closed under the global context
* `C92_describes` (DescProps.v): Closed under the global context
* `C92_rows` (DescProps.v): Closed under the global context
* `C92_closed` (DescProps.v): Closed under the global context
* `C92_callproc_refuted` (DescProps.v): Closed under the global context
* `C92_nextset_refuted` (DescProps.v): Closed under the global context
* `C92_type_refuted` (DescProps.v): Closed under the global context
* `C93_understood` (OptProps.v): Closed under the global context
* `C93_spelling` (OptProps.v): Closed under the global context
* `C93_program` (OptProps.v): Closed under the global context
* `C93_wins` (OptProps.v): Closed under the global context
* `C93_unknown` (OptProps.v): Closed under the global context
* `C93_setting_refuted` (OptProps.v): Closed under the global context
