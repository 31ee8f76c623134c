{
 "claims": [
  {
   "property": "C01",
   "status": "proved",
   "theorems": [
    "C01_bound_every_history",
    "C01_bound_every_session",
    "C01_full_send_changes_nothing",
    "C01_event_view_send",
    "C01_event_view_full",
    "C01_event_view_response",
    "C01_linux_layer",
    "C01_linux_ioctl_layer",
    "C01_solaris_layer",
    "C01_aix_layer",
    "C01_win_layer",
    "C01_win_async_layer"
   ],
   "note": "History view and generator view; C01_event_view_* tie the two together."
  },
  {
   "property": "C02",
   "status": "proved",
   "theorems": [
    "C02_in_order_routing"
   ],
   "note": ""
  },
  {
   "property": "C03",
   "status": "proved",
   "theorems": [
    "C03_timely_histories_are_routed_correctly",
    "C03_untimely_histories_lose_responses",
    "C03_always_routed_correctly_refuted"
   ],
   "note": "Positive part, exactness, and refutation for every max >= 2."
  },
  {
   "property": "C04",
   "status": "proved",
   "theorems": [
    "C04_single_slot_routing"
   ],
   "note": ""
  },
  {
   "property": "C05",
   "status": "proved",
   "theorems": [
    "C05_one_at_a_time_routing"
   ],
   "note": ""
  },
  {
   "property": "C06",
   "status": "proved",
   "theorems": [
    "C06_failed_send",
    "C06_failed_prepare"
   ],
   "note": ""
  },
  {
   "property": "C07",
   "status": "proved",
   "theorems": [
    "C07_unknown_response"
   ],
   "note": ""
  },
  {
   "property": "C08",
   "status": "proved",
   "theorems": [
    "C08_wait_drains",
    "C08_wait_on_empty_queue"
   ],
   "note": ""
  },
  {
   "property": "C09",
   "status": "proved",
   "theorems": [
    "C09_call_returns_own_response",
    "C09_call_send_error"
   ],
   "note": ""
  },
  {
   "property": "C10",
   "status": "proved",
   "theorems": [
    "C10_full_queue_raises_NameError",
    "C10_full_queue_call_raises_NameError",
    "C10_full_queue_raises_queue_full_error_refuted"
   ],
   "note": "Documented AsiRequestQueueFullError refuted: NameError is raised."
  },
  {
   "property": "C11",
   "status": "proved",
   "theorems": [
    "C11_no_callback_raises_TypeError",
    "C11_with_callback"
   ],
   "note": ""
  },
  {
   "property": "C12",
   "status": "proved",
   "theorems": [
    "C12_sync_wait_returns",
    "C12_sync_wait_raises",
    "C12_sync_wait_nothing_else",
    "C12_sync_wait_deterministic"
   ],
   "note": ""
  },
  {
   "property": "C13",
   "status": "proved",
   "theorems": [
    "C13_exception_reaches_handler",
    "C13_unhandled_exception_escapes",
    "C13_handler_stops_exception"
   ],
   "note": ""
  },
  {
   "property": "C14",
   "status": "proved",
   "theorems": [
    "C14_handled_exception_resurfaces",
    "C14_handled_means_gone_refuted",
    "C14_outermost_returns_stale_value"
   ],
   "note": "Refutes the unconditional reading of C13; exact behaviour proved."
  },
  {
   "property": "C15",
   "status": "proved",
   "theorems": [
    "C15_leaks_generator"
   ],
   "note": ""
  },
  {
   "property": "C16",
   "status": "proved",
   "theorems": [
    "C16_yielded_exception_is_raised"
   ],
   "note": ""
  },
  {
   "property": "C17",
   "status": "proved",
   "theorems": [
    "C17_async_wait_results"
   ],
   "note": ""
  },
  {
   "property": "C18",
   "status": "proved",
   "theorems": [
    "C18_adapter_call_returns",
    "C18_adapter_call_raises",
    "C18_adapter_send_raises",
    "C18_adapter_send_returns",
    "C18_adapter_wait_returns",
    "C18_adapter_wait_raises",
    "C18_adapter_is_queue_full_raises",
    "C18_called_twice",
    "C18_raises_at_once"
   ],
   "note": ""
  },
  {
   "property": "C19",
   "status": "proved",
   "theorems": [
    "C19_classification"
   ],
   "note": ""
  },
  {
   "property": "C20",
   "status": "proved",
   "theorems": [
    "C20_data_is_the_buffer",
    "C20_data_of_the_device"
   ],
   "note": ""
  },
  {
   "property": "C21",
   "status": "proved",
   "theorems": [
    "C21_conflict_and_queue_full",
    "C21_conflict_reported_refuted"
   ],
   "note": ""
  },
  {
   "property": "C22",
   "status": "proved",
   "theorems": [
    "C22_block_describes_command",
    "C22_long_cdb_wraps"
   ],
   "note": ""
  },
  {
   "property": "C23",
   "status": "proved",
   "theorems": [
    "C23_ioctl_always_success",
    "C23_errors_reported_refuted"
   ],
   "note": ""
  },
  {
   "property": "C24",
   "status": "proved",
   "theorems": [
    "C24_classification",
    "C24_reason_is_zero"
   ],
   "note": ""
  },
  {
   "property": "C25",
   "status": "proved",
   "theorems": [
    "C25_single_slot_solaris",
    "C25_single_slot_aix",
    "C25_second_command_solaris",
    "C25_second_command_aix"
   ],
   "note": ""
  },
  {
   "property": "C26",
   "status": "proved",
   "theorems": [
    "C26_classification"
   ],
   "note": ""
  },
  {
   "property": "C27",
   "status": "proved",
   "theorems": [
    "C27_fcntl_failure",
    "C27_status_decides",
    "C27_ctypes_failure_unnoticed"
   ],
   "note": ""
  },
  {
   "property": "C28",
   "status": "proved",
   "theorems": [
    "C28_classification",
    "C28_commands_in_a_row",
    "C28_asynchronous_handle"
   ],
   "note": ""
  },
  {
   "property": "C29",
   "status": "proved",
   "theorems": [
    "C29_block_describes_command",
    "C29_long_cdb"
   ],
   "note": ""
  },
  {
   "property": "C30",
   "status": "proved",
   "theorems": [
    "C30_exact",
    "C30_reads_only_when_ready",
    "C30_gives_up",
    "C30_poll_bound"
   ],
   "note": ""
  },
  {
   "property": "C31",
   "status": "proved",
   "theorems": [
    "C31_closed_once",
    "C31_not_opened",
    "C31_left_open",
    "C31_left_open_raises"
   ],
   "note": ""
  },
  {
   "property": "C32",
   "status": "proved",
   "theorems": [
    "C32_read6",
    "C32_read10",
    "C32_read12",
    "C32_read16"
   ],
   "note": ""
  },
  {
   "property": "C33",
   "status": "proved",
   "theorems": [
    "C33_read_size",
    "C33_read6_size",
    "C33_read6_256_size",
    "C33_read6_size_refuted"
   ],
   "note": ""
  },
  {
   "property": "C34",
   "status": "proved",
   "theorems": [
    "C34_write6",
    "C34_write10",
    "C34_write12",
    "C34_write16",
    "C34_whole_blocks"
   ],
   "note": ""
  },
  {
   "property": "C35",
   "status": "proved",
   "theorems": [
    "C35_linux_disk",
    "C35_solaris_disk",
    "C35_aix_disk",
    "C35_win_disk",
    "C35_read_back",
    "C35_read_elsewhere",
    "C35_device_exists"
   ],
   "note": ""
  },
  {
   "property": "C36",
   "status": "proved",
   "theorems": [
    "C36_write_same10",
    "C36_write_same16"
   ],
   "note": ""
  },
  {
   "property": "C37",
   "status": "proved",
   "theorems": [
    "C37_compare_and_write",
    "C37_wrong_buffer_accepted"
   ],
   "note": ""
  },
  {
   "property": "C38",
   "status": "proved",
   "theorems": [
    "C38_unmap"
   ],
   "note": ""
  },
  {
   "property": "C39",
   "status": "proved",
   "theorems": [
    "C39_data_length",
    "C39_data_length_refuted"
   ],
   "note": ""
  },
  {
   "property": "C40",
   "status": "proved",
   "theorems": [
    "C40_request10",
    "C40_request16",
    "C40_response10",
    "C40_response16"
   ],
   "note": ""
  },
  {
   "property": "C41",
   "status": "proved",
   "theorems": [
    "C41_simple",
    "C41_refuses",
    "C41_allowed"
   ],
   "note": ""
  },
  {
   "property": "C42",
   "status": "proved",
   "theorems": [
    "C42_length",
    "C42_opcode_split",
    "C42_table"
   ],
   "note": ""
  },
  {
   "property": "C43",
   "status": "proved",
   "theorems": [
    "C43_no_truncation",
    "C43_constructor_refuses",
    "C43_constructor_accepts",
    "C43_execute_refuses"
   ],
   "note": ""
  },
  {
   "property": "C44",
   "status": "proved",
   "theorems": [
    "C44_basic",
    "C44_register_and_move",
    "C44_refuses",
    "C44_aptpl_refuted"
   ],
   "note": ""
  },
  {
   "property": "C45",
   "status": "proved",
   "theorems": [
    "C45_read_keys",
    "C45_short"
   ],
   "note": ""
  },
  {
   "property": "C46",
   "status": "proved",
   "theorems": [
    "C46_read_reservation"
   ],
   "note": ""
  },
  {
   "property": "C47",
   "status": "proved",
   "theorems": [
    "C47_reserve10",
    "C47_release10",
    "C47_distinct",
    "C47_negative_refuted"
   ],
   "note": ""
  },
  {
   "property": "C48",
   "status": "proved",
   "theorems": [
    "C48_test_unit_ready",
    "C48_report_luns",
    "C48_rtpg",
    "C48_log_sense",
    "C48_receive_copy",
    "C48_receive_diagnostic",
    "C48_inquiry",
    "C48_pr_in",
    "C48_reserve6",
    "C48_release6"
   ],
   "note": ""
  },
  {
   "property": "C49",
   "status": "proved",
   "theorems": [
    "C49_block_limits",
    "C49_veritas",
    "C49_provisioning",
    "C49_provisioning_group",
    "C49_standard_inquiry",
    "C49_receive_copy",
    "C49_report_capabilities",
    "C49_ses_elements",
    "C49_ses_elements_refuted"
   ],
   "note": ""
  },
  {
   "property": "C50",
   "status": "proved",
   "theorems": [
    "C50_pack_unpack",
    "C50_classes",
    "C50_pages",
    "C50_text_designators",
    "C50_enclosure_element_refuted"
   ],
   "note": ""
  },
  {
   "property": "C51",
   "status": "proved",
   "theorems": [
    "C51_descriptors",
    "C51_unknown"
   ],
   "note": ""
  },
  {
   "property": "C52",
   "status": "proved",
   "theorems": [
    "C52_t10_lost"
   ],
   "note": ""
  },
  {
   "property": "C53",
   "status": "proved",
   "theorems": [
    "C53_serial_number",
    "C53_supported_pages",
    "C53_serial_pack",
    "C53_serial_kept"
   ],
   "note": ""
  },
  {
   "property": "C54",
   "status": "proved",
   "theorems": [
    "C54_unpack",
    "C54_additional_length"
   ],
   "note": ""
  },
  {
   "property": "C55",
   "status": "proved",
   "theorems": [
    "C55_configuration",
    "C55_lost_headers",
    "C55_lost_enclosures",
    "C55_expected_refuted"
   ],
   "note": ""
  },
  {
   "property": "C56",
   "status": "proved",
   "theorems": [
    "C56_status",
    "C56_descriptors",
    "C56_lost_elements",
    "C56_lost_descriptors"
   ],
   "note": ""
  },
  {
   "property": "C57",
   "status": "proved",
   "theorems": [
    "C57_fixed",
    "C57_descriptor",
    "C57_other",
    "C57_conforming_parses"
   ],
   "note": ""
  },
  {
   "property": "C58",
   "status": "proved",
   "theorems": [
    "C58_descriptors_lost",
    "C58_descriptors_refuted"
   ],
   "note": ""
  },
  {
   "property": "C59",
   "status": "proved",
   "theorems": [
    "C59_table",
    "C59_ranges",
    "C59_ranges_differ",
    "C59_unknown",
    "C59_last_qualifier"
   ],
   "note": ""
  },
  {
   "property": "C60",
   "status": "proved",
   "theorems": [
    "C60_length_only",
    "C60_extended",
    "C60_extended_shifted",
    "C60_many_ports",
    "C60_extended_refuted"
   ],
   "note": ""
  },
  {
   "property": "C61",
   "status": "proved",
   "theorems": [
    "C61_vpd_page",
    "C61_unknown_vpd_page",
    "C61_ses_page",
    "C61_ses_small_pages",
    "C61_ses_unknown"
   ],
   "note": ""
  },
  {
   "property": "C62",
   "status": "proved",
   "theorems": [
    "C62_library_command",
    "C62_library_refused",
    "C62_linux_commands",
    "C62_solaris_commands",
    "C62_aix_commands",
    "C62_win_commands",
    "C62_linux_send_fails",
    "C62_linux_receive_fails",
    "C62_linux_call",
    "C62_linux_session"
   ],
   "note": "Proved for every command of the library on Linux, and for sessions of any number of commands on the four systems."
  },
  {
   "property": "C63",
   "status": "proved",
   "theorems": [
    "C63_failed_token_bypasses_handler",
    "C63_failed_token_escapes"
   ],
   "note": ""
  },
  {
   "property": "C64",
   "status": "proved",
   "theorems": [
    "C64_failed_token_aborts_all"
   ],
   "note": ""
  },
  {
   "property": "C65",
   "status": "proved",
   "theorems": [
    "C65_bound_async"
   ],
   "note": ""
  },
  {
   "property": "C66",
   "status": "proved",
   "theorems": [
    "C66_receive_error_leaves_request_waiting",
    "C66_single_slot_rejects_everything"
   ],
   "note": "Slot leak."
  },
  {
   "property": "C67",
   "status": "proved",
   "theorems": [
    "C67_clean_unknown_response"
   ],
   "note": ""
  },
  {
   "property": "C68",
   "status": "proved",
   "theorems": [
    "C68_unparsable_sense"
   ],
   "note": ""
  },
  {
   "property": "C69",
   "status": "proved",
   "theorems": [
    "C69_failing_ioctl"
   ],
   "note": ""
  },
  {
   "property": "C70",
   "status": "proved",
   "theorems": [
    "C70_failure_unnoticed"
   ],
   "note": ""
  },
  {
   "property": "C71",
   "status": "proved",
   "theorems": [
    "C71_immediate_completion_is_an_error"
   ],
   "note": ""
  },
  {
   "property": "C72",
   "status": "proved",
   "theorems": [
    "C72_failing_control"
   ],
   "note": ""
  },
  {
   "property": "C73",
   "status": "proved",
   "theorems": [
    "C73_win_close_twice",
    "C73_unix_close_twice"
   ],
   "note": ""
  },
  {
   "property": "C74",
   "status": "proved",
   "theorems": [
    "C74_joined_ranges"
   ],
   "note": ""
  },
  {
   "property": "C75",
   "status": "proved",
   "theorems": [
    "C75_async_calls_get_their_own_answers"
   ],
   "note": ""
  },
  {
   "property": "C76",
   "status": "proved",
   "theorems": [
    "C76_vpd_pages",
    "C76_standard_inquiry",
    "C76_ses_pages",
    "C76_target_port_groups",
    "C76_receive_copy",
    "C76_read_capacity",
    "C76_persistent_reserve_in",
    "C76_report_luns",
    "C76_report_luns_short",
    "C76_sense"
   ],
   "note": ""
  },
  {
   "property": "C77",
   "status": "proved",
   "theorems": [
    "C77_handed_over",
    "C77_test_unit_ready"
   ],
   "note": ""
  },
  {
   "property": "C78",
   "status": "proved",
   "theorems": [
    "C78_ata_information",
    "C78_model_number_cut",
    "C78_sector_count"
   ],
   "note": ""
  },
  {
   "property": "C79",
   "status": "proved",
   "theorems": [
    "C79_linux_has_text",
    "C79_linux_tells",
    "C79_linux_driver_text",
    "C79_linux_host_status_refuted",
    "C79_solaris_has_text",
    "C79_solaris_tells",
    "C79_aix_has_text",
    "C79_aix_tells",
    "C79_aix_status_refuted",
    "C79_win_has_text",
    "C79_win_tells"
   ],
   "note": ""
  },
  {
   "property": "C80",
   "status": "proved",
   "theorems": [
    "C80_sg_io_hdr",
    "C80_uscsi_cmd",
    "C80_sc_passthru",
    "C80_pass_through",
    "C80_overlapped",
    "C80_control_codes"
   ],
   "note": ""
  },
  {
   "property": "C81",
   "status": "proved",
   "theorems": [
    "C81_linux_request",
    "C81_solaris_request",
    "C81_aix_request",
    "C81_windows_request",
    "C81_linux_answer",
    "C81_aix_answer",
    "C81_solaris_answer"
   ],
   "note": ""
  },
  {
   "property": "C82",
   "status": "proved",
   "theorems": [
    "C82_linux",
    "C82_solaris",
    "C82_aix",
    "C82_windows",
    "C82_refused"
   ],
   "note": ""
  },
  {
   "property": "C83",
   "status": "proved",
   "theorems": [
    "C83_portable",
    "C83_differences_refuted"
   ],
   "note": ""
  },
  {
   "property": "C84",
   "status": "proved",
   "theorems": [
    "C84_library",
    "C84_commands",
    "C84_disk",
    "C84_silent",
    "C84_failed_write_noticed_refuted"
   ],
   "note": ""
  },
  {
   "property": "C85",
   "status": "proved",
   "theorems": [
    "C85_programs",
    "C85_batch",
    "C85_exactly_once",
    "C85_out_of_time_refuted"
   ],
   "note": ""
  },
  {
   "property": "C86",
   "status": "proved",
   "theorems": [
    "C86_within_the_limit",
    "C86_calls_within_the_limit",
    "C86_failure_loses_all",
    "C86_failure_keeps_requests",
    "C86_shared_event",
    "C86_any_number_refuted"
   ],
   "note": ""
  },
  {
   "property": "C87",
   "status": "proved",
   "theorems": [
    "C87_cluster",
    "C87_fencing",
    "C87_preempting",
    "C87_same_view_refuted",
    "C87_device_exists"
   ],
   "note": ""
  },
  {
   "property": "C88",
   "status": "proved",
   "theorems": [
    "C88_programs",
    "C88_calls",
    "C88_retry",
    "C88_all_keys",
    "C88_too_many_keys",
    "C88_full_status_refuted",
    "C88_all_luns",
    "C88_all_simple_luns",
    "C88_one_report_luns_refuted"
   ],
   "note": ""
  },
  {
   "property": "C89",
   "status": "proved",
   "theorems": [
    "C89_coroutines",
    "C89_values",
    "C89_exception",
    "C89_guarded",
    "C89_real_waits"
   ],
   "note": ""
  },
  {
   "property": "C90",
   "status": "proved",
   "theorems": [
    "C90_setting",
    "C90_refused",
    "C90_control",
    "C90_control_ignored",
    "C90_control_always_refuted"
   ],
   "note": ""
  },
  {
   "property": "C91",
   "status": "proved",
   "theorems": [
    "C91_ignored",
    "C91_last_wins",
    "C91_any_order",
    "C91_reuse",
    "C91_reuse_six"
   ],
   "note": ""
  },
  {
   "property": "C92",
   "status": "proved",
   "theorems": [
    "C92_managers",
    "C92_handed_over",
    "C92_executer",
    "C92_reader_gives_up",
    "C92_solaris_short",
    "C92_one_number_refuted"
   ],
   "note": ""
  },
  {
   "property": "C93",
   "status": "proved",
   "theorems": [
    "C93_pack",
    "C93_read_back",
    "C93_passed_on"
   ],
   "note": ""
  },
  {
   "property": "C94",
   "status": "proved",
   "theorems": [
    "C94_requests",
    "C94_spelled_out",
    "C94_read_keys",
    "C94_report_luns",
    "C94_report_many_luns",
    "C94_inquiry",
    "C94_read",
    "C94_large_blocks_refuted"
   ],
   "note": ""
  },
  {
   "property": "C95",
   "status": "proved",
   "theorems": [
    "C95_commands",
    "C95_all_pages",
    "C95_page_00",
    "C95_page_80",
    "C95_page_83",
    "C95_block_limits",
    "C95_ata_information",
    "C95_veritas",
    "C95_provisioned",
    "C95_other_page",
    "C95_too_many_pages",
    "C95_long_identification",
    "C95_provisioning",
    "C95_configuration",
    "C95_status",
    "C95_descriptors",
    "C95_unchanged",
    "C95_expected_refuted"
   ],
   "note": ""
  },
  {
   "property": "C96",
   "status": "proved",
   "theorems": [
    "C96_compare_and_write",
    "C96_every_host",
    "C96_no_lost_update",
    "C96_never_stuck",
    "C96_all_succeed",
    "C96_write_refuted"
   ],
   "note": ""
  },
  {
   "property": "C97",
   "status": "proved",
   "theorems": [
    "C97_alone",
    "C97_schedule_decides",
    "C97_linux_any_schedule",
    "C97_linux_rounds",
    "C97_linux_in_order",
    "C97_windows",
    "C97_sg_io",
    "C97_windows_runs",
    "C97_sg_io_runs",
    "C97_linux_overtaken_refuted",
    "C97_sg_io_overwritten_refuted"
   ],
   "note": ""
  },
  {
   "property": "C98",
   "status": "proved",
   "theorems": [
    "C98_dump",
    "C98_restore",
    "C98_too_large",
    "C98_clone",
    "C98_unreadable",
    "C98_salvage",
    "C98_capacity10_refuted",
    "C98_read10_refuted"
   ],
   "note": ""
  },
  {
   "property": "C99",
   "status": "proved",
   "theorems": [
    "C99_linux_calls",
    "C99_windows_calls",
    "C99_front",
    "C99_linux_read",
    "C99_ioctl_read",
    "C99_windows_read",
    "C99_solaris_read",
    "C99_aix_read",
    "C99_linux_write",
    "C99_ioctl_write",
    "C99_windows_write",
    "C99_solaris_write",
    "C99_aix_write",
    "C99_right",
    "C99_linux_read_refuted",
    "C99_4gib_refuted"
   ],
   "note": ""
  },
  {
   "property": "C100",
   "status": "proved",
   "theorems": [
    "C100_parsed",
    "C100_whole",
    "C100_boundary",
    "C100_cut",
    "C100_call",
    "C100_fetch",
    "C100_fetch_too_long",
    "C100_default_refuted",
    "C100_default_fails_refuted"
   ],
   "note": ""
  },
  {
   "property": "C101",
   "status": "proved",
   "theorems": [
    "C101_told",
    "C101_runs",
    "C101_always",
    "C101_succeeds",
    "C101_no_sense_refuted"
   ],
   "note": ""
  },
  {
   "property": "C102",
   "status": "proved",
   "theorems": [
    "C102_windows",
    "C102_unix",
    "C102_stale",
    "C102_other_device_refuted",
    "C102_handles",
    "C102_no_leak",
    "C102_events_refuted",
    "C102_posix_exists"
   ],
   "note": ""
  },
  {
   "property": "C103",
   "status": "proved",
   "theorems": [
    "C103_erase",
    "C103_block_size_refuted",
    "C103_other_pattern",
    "C103_zero_blocks_refuted",
    "C103_trim",
    "C103_unsupported",
    "C103_short_page",
    "C103_at_once",
    "C103_refused"
   ],
   "note": ""
  },
  {
   "property": "C104",
   "status": "proved",
   "theorems": [
    "C104_programs",
    "C104_one_of_them",
    "C104_copy_disk",
    "C104_copy_unreadable",
    "C104_copy_refused"
   ],
   "note": ""
  },
  {
   "property": "C105",
   "status": "proved",
   "theorems": [
    "C105_read",
    "C105_write",
    "C105_session",
    "C105_compare_and_write",
    "C105_compare_and_write_refuted"
   ],
   "note": ""
  },
  {
   "property": "C106",
   "status": "proved",
   "theorems": [
    "C106_linux",
    "C106_solaris",
    "C106_aix",
    "C106_aix_cdb_refuted",
    "C106_windows_code",
    "C106_windows_call",
    "C106_windows_message",
    "C106_windows_message_refuted"
   ],
   "note": ""
  },
  {
   "property": "C107",
   "status": "proved",
   "theorems": [
    "C107_designators",
    "C107_table_grows",
    "C107_membership_refuted",
    "C107_device_types",
    "C107_versions"
   ],
   "note": ""
  },
  {
   "property": "C108",
   "status": "proved",
   "theorems": [
    "C108_optimized_paths",
    "C108_optimized",
    "C108_many_ports_refuted"
   ],
   "note": ""
  },
  {
   "property": "C109",
   "status": "proved",
   "theorems": [
    "C109_all_fit",
    "C109_missing",
    "C109_cut",
    "C109_header",
    "C109_told",
    "C109_fetch",
    "C109_fetch_grown_refuted",
    "C109_default_refuted"
   ],
   "note": ""
  },
  {
   "property": "C110",
   "status": "proved",
   "theorems": [
    "C110_different",
    "C110_at_once",
    "C110_twice",
    "C110_ready_refuted",
    "C110_read_refuted"
   ],
   "note": ""
  },
  {
   "property": "C111",
   "status": "proved",
   "theorems": [
    "C111_returned",
    "C111_raised",
    "C111_token",
    "C111_async_returned",
    "C111_execution",
    "C111_coroutine",
    "C111_elsewhere",
    "C111_ready_refuted",
    "C111_failed",
    "C111_queue_refuted"
   ],
   "note": ""
  },
  {
   "property": "C112",
   "status": "proved",
   "theorems": [
    "C112_always",
    "C112_silent",
    "C112_full_forever",
    "C112_wait_recovers",
    "C112_executed_once",
    "C112_late_answer_refuted"
   ],
   "note": ""
  },
  {
   "property": "C113",
   "status": "proved",
   "theorems": [
    "C113_commands",
    "C113_status",
    "C113_texts",
    "C113_arranged",
    "C113_changed_status",
    "C113_changed_texts",
    "C113_survey",
    "C113_survey_fails",
    "C113_unchecked_refuted"
   ],
   "note": ""
  },
  {
   "property": "C114",
   "status": "proved",
   "theorems": [
    "C114_insisting",
    "C114_overtaken_refuted",
    "C114_repeated_refuted"
   ],
   "note": ""
  },
  {
   "property": "C115",
   "status": "proved",
   "theorems": [
    "C115_one_by_one",
    "C115_every_host",
    "C115_never_stuck",
    "C115_changes",
    "C115_kept_out",
    "C115_shut_out"
   ],
   "note": ""
  },
  {
   "property": "C116",
   "status": "proved",
   "theorems": [
    "C116_takeover",
    "C116_one_winner",
    "C116_never_stuck",
    "C116_every_host",
    "C116_loser_goes_on"
   ],
   "note": ""
  },
  {
   "property": "C117",
   "status": "proved",
   "theorems": [
    "C117_all_fit",
    "C117_same_page",
    "C117_found",
    "C117_missing",
    "C117_cut_number",
    "C117_cut_text",
    "C117_every_cut",
    "C117_told",
    "C117_fetch",
    "C117_paths",
    "C117_confused_refuted",
    "C117_unreadable_refuted"
   ],
   "note": ""
  },
  {
   "property": "C118",
   "status": "proved",
   "theorems": [
    "C118_fetch",
    "C118_list_keys",
    "C118_list_keys_fails",
    "C118_list_keys_too_many",
    "C118_always_listed",
    "C118_generation",
    "C118_generation_refuted",
    "C118_holder",
    "C118_holder_listed",
    "C118_snapshot",
    "C118_snapshot_fails",
    "C118_luns",
    "C118_list_luns",
    "C118_list_luns_fails",
    "C118_unchecked_refuted"
   ],
   "note": ""
  },
  {
   "property": "C119",
   "status": "proved",
   "theorems": [
    "C119_one_by_one",
    "C119_never_stuck",
    "C119_every_host",
    "C119_changes",
    "C119_kept_out",
    "C119_foreign_key",
    "C119_careless_refuted"
   ],
   "note": ""
  },
  {
   "property": "C120",
   "status": "proved",
   "theorems": [
    "C120_sent",
    "C120_copied",
    "C120_assigned",
    "C120_spreads",
    "C120_spreads_later",
    "C120_one_command_refuted"
   ],
   "note": ""
  },
  {
   "property": "C121",
   "status": "proved",
   "theorems": [
    "C121_programs",
    "C121_right",
    "C121_new_executer_refuted"
   ],
   "note": ""
  },
  {
   "property": "C122",
   "status": "proved",
   "theorems": [
    "C122_kept",
    "C122_reused",
    "C122_dropped_refuted",
    "C122_reused_refuted"
   ],
   "note": ""
  },
  {
   "property": "C123",
   "status": "proved",
   "theorems": [
    "C123_raising",
    "C123_call",
    "C123_refilled",
    "C123_quiet",
    "C123_quiet_call",
    "C123_refilled_refuted"
   ],
   "note": ""
  },
  {
   "property": "C124",
   "status": "proved",
   "theorems": [
    "C124_called",
    "C124_one_value",
    "C124_type_error",
    "C124_keyword_order",
    "C124_all_named",
    "C124_third_is_block_size_refuted"
   ],
   "note": ""
  }
 ]
}