{
 "claims": [
  {
   "property": "C01",
   "status": "proved",
   "theorems": [
    "C01_begin_accepted_iff_idle",
    "C01_complete_needs_translation"
   ],
   "note": ""
  },
  {
   "property": "C02",
   "status": "proved",
   "theorems": [
    "C02_reusable_after_complete",
    "C02_reusable_after_abort"
   ],
   "note": ""
  },
  {
   "property": "C03",
   "status": "proved",
   "theorems": [
    "C03_no_leak_no_double_free"
   ],
   "note": ""
  },
  {
   "property": "C04",
   "status": "proved",
   "theorems": [
    "C04_at_most_three_commands"
   ],
   "note": ""
  },
  {
   "property": "C05",
   "status": "proved",
   "theorems": [
    "C05_untranslatable_is_check_condition"
   ],
   "note": ""
  },
  {
   "property": "C06",
   "status": "proved",
   "theorems": [
    "C06_wrong_completion_count"
   ],
   "note": ""
  },
  {
   "property": "C07",
   "status": "proved",
   "theorems": [
    "C07_first_failure_decides"
   ],
   "note": ""
  },
  {
   "property": "C08",
   "status": "proved",
   "theorems": [
    "C08_status_table",
    "C08_good_means_success"
   ],
   "note": ""
  },
  {
   "property": "C09",
   "status": "partial",
   "theorems": [
    "C09_reserved_sense_bits_refuted",
    "C09_sense_fields_partial"
   ],
   "note": "partial: every named sense field is right and exactly 8 bytes are written; refuted: reserved bits are uninitialised stack."
  },
  {
   "property": "C10",
   "status": "proved",
   "theorems": [
    "C10_begin_frame",
    "C10_complete_frame"
   ],
   "note": ""
  },
  {
   "property": "C11",
   "status": "proved",
   "theorems": [
    "C11_begin_defined"
   ],
   "note": ""
  },
  {
   "property": "C12",
   "status": "partial",
   "theorems": [
    "C12_complete_defined_partial",
    "C12_mode_sense6_partial",
    "C12_mode_sense10_partial",
    "C12_no_completion_refuted",
    "C12_shift_refuted"
   ],
   "note": "Proved for every opcode but MODE SENSE, and for MODE SENSE(6) with at least one command and LBADS<32, MODE SENSE(10) with a standard-length CDB. Refuted: DBD=1 with page 0Ah/1Ah (empty completion list indexed), LBADS>=32 (shift), 12-byte MODE SENSE(10) (flows off a function, example). C88 says exactly when."
  },
  {
   "property": "C13",
   "status": "proved",
   "theorems": [
    "C13_read6_exact"
   ],
   "note": ""
  },
  {
   "property": "C14",
   "status": "proved",
   "theorems": [
    "C14_read_exact"
   ],
   "note": ""
  },
  {
   "property": "C15",
   "status": "proved",
   "theorems": [
    "C15_read_accepted_iff"
   ],
   "note": ""
  },
  {
   "property": "C16",
   "status": "proved",
   "theorems": [
    "C16_read_fits_buffer"
   ],
   "note": ""
  },
  {
   "property": "C17",
   "status": "proved",
   "theorems": [
    "C17_write_exact",
    "C17_write_accepted_iff"
   ],
   "note": ""
  },
  {
   "property": "C18",
   "status": "partial",
   "theorems": [
    "C18_write_truncation_refuted",
    "C18_write_block_count_partial"
   ],
   "note": "refuted in the code: lengths above 65536 are accepted and truncated; proved: the block count is right exactly up to 65536."
  },
  {
   "property": "C19",
   "status": "partial",
   "theorems": [
    "C19_write_overrun_refuted",
    "C19_write_in_bounds_partial",
    "C19_write_exact"
   ],
   "note": "Refuted in the code: WRITE never checks the buffer size. Exact (C19_write_exact): an accepted WRITE of any length stays within the buffer iff the buffer covers the blocks submitted, ((length-1) mod 65536 + 1) of 4096 bytes."
  },
  {
   "property": "C20",
   "status": "partial",
   "theorems": [
    "C20_verify_namespace_refuted",
    "C20_verify_partial"
   ],
   "note": "refuted in the code: NSID and PRP1 are always 0; proved: acceptance, LBA, length and protection."
  },
  {
   "property": "C21",
   "status": "proved",
   "theorems": [
    "C21_sync_is_flush"
   ],
   "note": ""
  },
  {
   "property": "C22",
   "status": "proved",
   "theorems": [
    "C22_test_unit_ready"
   ],
   "note": ""
  },
  {
   "property": "C23",
   "status": "partial",
   "theorems": [
    "C23_lun_aliasing_refuted",
    "C23_lun_mapping_partial",
    "C23_nsid_exact",
    "C23_same_namespace_iff"
   ],
   "note": "Exact: NSID = (LUN+1) mod 2^32 for data commands, so two LUNs share a namespace iff their low 32 bits agree; faithful below LUN FFFFFFFEh, refuted above (aliases, NSID 0, broadcast)."
  },
  {
   "property": "C24",
   "status": "proved",
   "theorems": [
    "C24_inquiry_commands",
    "C24_inquiry_short"
   ],
   "note": ""
  },
  {
   "property": "C25",
   "status": "proved",
   "theorems": [
    "C25_standard_inquiry"
   ],
   "note": ""
  },
  {
   "property": "C26",
   "status": "partial",
   "theorems": [
    "C26_supported_list",
    "C26_unlisted_writes_nothing",
    "C26_listed_produced_partial",
    "C26_listed_refuted"
   ],
   "note": "List page and silence on unlisted codes proved; a listed page 83h/86h is not produced for namespaces without identifiers / protection types (refuted)."
  },
  {
   "property": "C27",
   "status": "partial",
   "theorems": [
    "C27_page_code_partial",
    "C27_page_code_refuted"
   ],
   "note": "Holds for every page except B1h, which is labelled 83h (refuted)."
  },
  {
   "property": "C28",
   "status": "partial",
   "theorems": [
    "C28_page_length_partial",
    "C28_page_length_refuted"
   ],
   "note": "Holds for 00h, 80h, B2h; 83h/86h/B0h/B1h carry a wrong length (refuted)."
  },
  {
   "property": "C29",
   "status": "partial",
   "theorems": [
    "C29_unit_serial_partial",
    "C29_unit_serial_exact",
    "C29_distinct",
    "C29_uninitialised_refuted"
   ],
   "note": "Rendering and injectivity proved; 'no uninitialised bytes' refuted when a 64-bit half has a zero most significant byte (exactly then: C115_serial_number_exact). Halves are rendered as little-endian numbers."
  },
  {
   "property": "C30",
   "status": "partial",
   "theorems": [
    "C30_device_identification_partial",
    "C30_device_identification_refuted"
   ],
   "note": "Designator proved; header has 3 bytes instead of 4 and there is no fallback designator (refuted)."
  },
  {
   "property": "C31",
   "status": "partial",
   "theorems": [
    "C31_extended_inquiry_partial",
    "C31_extended_inquiry_refuted"
   ],
   "note": "GRD/APP/REF_CHK and V_SUP proved; SPT exchanges types 1 and 3 (refuted)."
  },
  {
   "property": "C32",
   "status": "proved",
   "theorems": [
    "C32_block_limits"
   ],
   "note": ""
  },
  {
   "property": "C33",
   "status": "proved",
   "theorems": [
    "C33_provisioning"
   ],
   "note": ""
  },
  {
   "property": "C34",
   "status": "proved",
   "theorems": [
    "C34_mode_sense6_commands",
    "C34_mode_sense6_refused",
    "C34_mode_sense6_supported"
   ],
   "note": "Proved for every CDB, LUN and allocator; alloc_len is the CDB's ALLOCATION LENGTH."
  },
  {
   "property": "C35",
   "status": "partial",
   "theorems": [
    "C35_mode_data_partial",
    "C35_wce_without_descriptor_partial",
    "C35_wce_refuted",
    "C35_no_command_refuted",
    "C35_block_size_refuted"
   ],
   "note": "Exact response proved. Refuted as stated: with DBD=0 WCE comes from the Identify completion; DBD=1 with page 0Ah/1Ah makes Complete read the first of zero completions (UB); LBADS>=32 shifts too far (UB). Correct for DBD=1 with page 08h/3Fh."
  },
  {
   "property": "C36",
   "status": "partial",
   "theorems": [
    "C36_mode_sense10_refuted",
    "C36_request_function_partial",
    "C36_response_function_partial"
   ],
   "note": "Refuted: no MODE SENSE(10) for a supported page is ever accepted (missing break). Partial: the two translation functions, called directly, are correct."
  },
  {
   "property": "C37",
   "status": "partial",
   "theorems": [
    "C37_set_features_refuted",
    "C37_translation_partial",
    "C37_malformed_partial",
    "C37_api_refuted",
    "C37_reserved_bits_partial"
   ],
   "note": "The translation function is correct for every request except that the command is marked admin. Refuted through the API: a missing break makes Begin refuse every UNMAP CDB with zero reserved bytes; with reserved bytes that look like MODE SENSE(6) the command is exposed on the admin queue."
  },
  {
   "property": "C38",
   "status": "partial",
   "theorems": [
    "C38_fresh_partial",
    "C38_stale_refuted"
   ],
   "note": "Proved for every opcode but UNMAP (command bytes and queue; not the advertised buffer length, see C53). Refuted for UNMAP: a stale or uninitialised command is exposed."
  },
  {
   "property": "C39",
   "status": "partial",
   "theorems": [
    "C39_report_luns_command",
    "C39_report_luns_refused",
    "C39_report_luns_lists_namespaces",
    "C39_report_luns_partial",
    "C39_list_length_refuted",
    "C39_reported_lun_addresses_its_namespace"
   ],
   "note": "proved for buffers holding the whole list; a truncated list misreports LUN LIST LENGTH (refuted)."
  },
  {
   "property": "C40",
   "status": "partial",
   "theorems": [
    "C40_read_capacity_command",
    "C40_naca_refused",
    "C40_read_capacity_partial",
    "C40_last_lba_refuted",
    "C40_failure_refuted"
   ],
   "note": "refuted in the code: NSZE is returned instead of NSZE-1; block length and command are proved."
  },
  {
   "property": "C41",
   "status": "proved",
   "theorems": [
    "C41_request_sense",
    "C41_refused"
   ],
   "note": ""
  },
  {
   "property": "C42",
   "status": "partial",
   "theorems": [
    "C42_maintenance_in_partial",
    "C42_refused_partial",
    "C42_maintenance_in_refuted",
    "C42_validator_partial"
   ],
   "note": "refuted in the code: every MAINTENANCE IN with byte 2 <= 2 is sent as Identify; the answer bytes are proved."
  },
  {
   "property": "C43",
   "status": "proved",
   "theorems": [
    "C43_truncated_mode_data_is_prefix"
   ],
   "note": "Proved for MODE SENSE(6), the only mode sense command that can be completed."
  },
  {
   "property": "C44",
   "status": "partial",
   "theorems": [
    "C44_always_good_refuted",
    "C44_unsupported_page_refuted",
    "C44_short_buffer_refuted",
    "C44_not_good_partial"
   ],
   "note": "Refuted: Complete discards the back-translation status and always reports GOOD. Partial: rejected CDBs and failed commands are never GOOD."
  },
  {
   "property": "C45",
   "status": "proved",
   "theorems": [
    "C45_byte_order",
    "C45_reading",
    "C45_involutive"
   ],
   "note": ""
  },
  {
   "property": "C46",
   "status": "proved",
   "theorems": [
    "C46_subspan",
    "C46_read_value",
    "C46_write_value"
   ],
   "note": ""
  },
  {
   "property": "C47",
   "status": "proved",
   "theorems": [
    "C47_submissions"
   ],
   "note": ""
  },
  {
   "property": "C48",
   "status": "partial",
   "theorems": [
    "C48_pages_released_partial",
    "C48_leak_refuted"
   ],
   "note": "partial: proved when the response fits the data buffer or the CDB is rejected; refuted otherwise (leak)."
  },
  {
   "property": "C49",
   "status": "proved",
   "theorems": [
    "C49_response_fits"
   ],
   "note": ""
  },
  {
   "property": "C50",
   "status": "partial",
   "theorems": [
    "C50_cdb_reread_refuted",
    "C50_failures_partial",
    "C50_data_commands_partial"
   ],
   "note": "Refuted: Complete re-reads the CDB memory (REQUEST SENSE chooses its format from it). Proved for rejected requests, device failures and the commands without a response body."
  },
  {
   "property": "C51",
   "status": "partial",
   "theorems": [
    "C51_mode10_partial",
    "C51_trailing_bytes_partial",
    "C51_longer_span_partial",
    "C51_trailing_bytes_refuted"
   ],
   "note": "Proved for every opcode but MODE SENSE(10) (UNMAP: for longer spans over the same memory); refuted for MODE SENSE(10), which reads two bytes past its CDB, and only those (C51_mode10_partial)."
  },
  {
   "property": "C52",
   "status": "partial",
   "theorems": [
    "C52_zero_length_refuted",
    "C52_zero_length_transfers_nothing_partial"
   ],
   "note": "refuted in the code: zero-length transfers are CHECK CONDITION; proved: they transfer nothing."
  },
  {
   "property": "C53",
   "status": "partial",
   "theorems": [
    "C53_history_independent_partial",
    "C53_buffer_length_refuted",
    "C53_unmap_refuted"
   ],
   "note": "Commands (bytes and queue) and responses proved history-independent for every opcode but UNMAP; the advertised buffer length and UNMAP are refuted."
  },
  {
   "property": "C54",
   "status": "partial",
   "theorems": [
    "C54_driver_errors_seen_partial",
    "C54_device_errors_refuted"
   ],
   "note": "partial: GOOD only if all completions handed back are successful; nvme_driver.c never fills in the completion (refuted)."
  },
  {
   "property": "C55",
   "status": "partial",
   "theorems": [
    "C55_large_reads_refuted",
    "C55_data_length_partial",
    "C55_data_length_refuted"
   ],
   "note": "proved below 65536 bytes; refuted from 65536 on, where READs are never carried out."
  },
  {
   "property": "C56",
   "status": "proved",
   "theorems": [
    "C56_read_end_to_end"
   ],
   "note": ""
  },
  {
   "property": "C57",
   "status": "proved",
   "theorems": [
    "C57_write_end_to_end"
   ],
   "note": ""
  },
  {
   "property": "C58",
   "status": "partial",
   "theorems": [
    "C58_kernel_memory_released_partial",
    "C58_leak_refuted"
   ],
   "note": "partial: proved unless the engine gives up before submitting (TASK ABORTED), which leaks the engine's pages (refuted)."
  },
  {
   "property": "C59",
   "status": "proved",
   "theorems": [
    "C59_delivery",
    "C59_out_of_memory"
   ],
   "note": ""
  },
  {
   "property": "C60",
   "status": "partial",
   "theorems": [
    "C60_read_within_buffer_partial",
    "C60_write_overrun_refuted",
    "C60_write_exact"
   ],
   "note": "Exact for WRITEs of any length (C60_write_exact, C60_overrun_iff); READs of every size stay within the buffer; refuted for WRITEs of 16 or more blocks."
  },
  {
   "property": "C61",
   "status": "proved",
   "theorems": [
    "C61_test_unit_ready_end_to_end",
    "C61_sync_cache_end_to_end"
   ],
   "note": ""
  },
  {
   "property": "C62",
   "status": "proved",
   "theorems": [
    "C62_report_luns_end_to_end"
   ],
   "note": ""
  },
  {
   "property": "C63",
   "status": "partial",
   "theorems": [
    "C63_inquiry_end_to_end",
    "C63_unsupported_page_refuted"
   ],
   "note": "partial: every supported INQUIRY proved; refusal of unsupported pages is refuted (GOOD and zeros)."
  },
  {
   "property": "C64",
   "status": "partial",
   "theorems": [
    "C64_read_capacity_end_to_end_partial",
    "C64_last_lba_refuted"
   ],
   "note": "partial: one Identify, block size and NSZE (capped) delivered; the last-block address is refuted (NSZE instead of NSZE-1) for 1..FFFFFFFFh blocks."
  },
  {
   "property": "C65",
   "status": "proved",
   "theorems": [
    "C65_request_lifecycle"
   ],
   "note": ""
  },
  {
   "property": "C66",
   "status": "partial",
   "theorems": [
    "C66_return_code_partial",
    "C66_device_error_refuted",
    "C66_indeterminate_refuted"
   ],
   "note": "partial: what the return code says when it is determined; refuted: a device error still gives 0, and without data (or queue) the code is an uninitialised variable."
  },
  {
   "property": "C67",
   "status": "partial",
   "theorems": [
    "C67_commands_reach_device_partial",
    "C67_silent_read_refuted",
    "C67_silent_write_refuted",
    "C67_reaches_exact",
    "C67_effect_exact"
   ],
   "note": "Exact (C67_reaches_exact, C67_effect_exact): a command reaches the device iff there is a namespace, its queue, a request and, for data, a mapping and a disk; memory changes as the device says, else not at all. Refuted: when no request can be allocated READ answers GOOD with zeros and WRITE answers GOOD with nothing written."
  },
  {
   "property": "C68",
   "status": "partial",
   "theorems": [
    "C68_failed_load_partial",
    "C68_block_device_refuted",
    "C68_order_refuted"
   ],
   "note": "partial: all registrations but the block device are undone; refuted: the block device stays open, and after a failed device_register the bus is unregistered before its driver."
  },
  {
   "property": "C69",
   "status": "partial",
   "theorems": [
    "C69_unload_partial",
    "C69_block_device_refuted",
    "C69_reverse_order"
   ],
   "note": "partial: everything but the block device is released, in order; refuted for the block device."
  },
  {
   "property": "C70",
   "status": "partial",
   "theorems": [
    "C70_load_partial",
    "C70_driver_init_partial",
    "C70_no_device_refuted",
    "C70_no_host_refuted"
   ],
   "note": "partial: loads iff the four driver-core registrations succeed; refuted: it loads without an NVMe device (every command then dereferences an invalid pointer) and without a SCSI host."
  },
  {
   "property": "C71",
   "status": "partial",
   "theorems": [
    "C71_probe_partial",
    "C71_rebind_refuted"
   ],
   "note": "partial: exact behaviour of one probe; refuted: once bound and removed the device can never be bound again."
  },
  {
   "property": "C72",
   "status": "proved",
   "theorems": [
    "C72_only_expected_commands",
    "C72_read_only_commands",
    "C72_unmap_commands"
   ],
   "note": "proved for all CDBs but UNMAP; for UNMAP the exact list of commands (C72_unmap_commands), which is not only Deallocate: see C37_set_features_refuted."
  },
  {
   "property": "C73",
   "status": "proved",
   "theorems": [
    "C73_memory_named"
   ],
   "note": "the addresses named; how much the device transfers from them is C16, C19 and C60."
  },
  {
   "property": "C74",
   "status": "proved",
   "theorems": [
    "C74_status_says_what_was_written"
   ],
   "note": "proved."
  },
  {
   "property": "C75",
   "status": "partial",
   "theorems": [
    "C75_out_of_pages_partial",
    "C75_mode10_refuted",
    "C75_unmap_refuted"
   ],
   "note": "partial: proved for all CDBs but UNMAP and MODE SENSE(10); refuted for both: the fallthrough asks again (MODE SENSE(10)) or overwrites the failure (UNMAP) and the command is accepted."
  },
  {
   "property": "C76",
   "status": "proved",
   "theorems": [
    "C76_shared_ledger",
    "C76_no_sharing"
   ],
   "note": "proved; calls are atomic in the model."
  },
  {
   "property": "C77",
   "status": "proved",
   "theorems": [
    "C77_complete_returns_exactly",
    "C77_abort_returns_exactly",
    "C77_rejected_returns_all"
   ],
   "note": "proved."
  },
  {
   "property": "C78",
   "status": "partial",
   "theorems": [
    "C78_commands_initialised",
    "C78_data_initialised_partial"
   ],
   "note": "partial: proved for all commands but INQUIRY page 80h, which does leak stack bytes (C29_uninitialised_refuted); sense data leaks too (C09)."
  },
  {
   "property": "C79",
   "status": "proved",
   "theorems": [
    "C79_api_step",
    "C79_api_refines"
   ],
   "note": "Refinement of an abstract SCSI disk (DiskSpec.disk_step) by Begin / device / Complete, over arbitrary histories."
  },
  {
   "property": "C80",
   "status": "proved",
   "theorems": [
    "C80_adapter_step",
    "C80_adapter_refines"
   ],
   "note": "15 blocks is the largest multiple of 4096 bytes that fits the adapter's 16-bit length (see C55, C60)."
  },
  {
   "property": "C81",
   "status": "proved",
   "theorems": [
    "C81_read_your_writes",
    "C81_unwritten_blocks_keep"
   ],
   "note": "Corollary of C80 about histories, stated on observed commands and answers only."
  },
  {
   "property": "C82",
   "status": "proved",
   "theorems": [
    "C82_page_requests",
    "C82_complete_requests_nothing",
    "C82_module_callbacks",
    "C82_module_pages_zeroed"
   ],
   "note": "Page requests by the same invariant as C03 (the trace of each Begin); module callbacks by evaluation."
  },
  {
   "property": "C83",
   "status": "proved",
   "theorems": [
    "C83_begin_framed",
    "C83_complete_framed",
    "C83_abort_framed",
    "C83_footprint",
    "C83_begin_local",
    "C83_complete_local",
    "C83_mode_sense6_local"
   ],
   "note": "the set of bytes for Complete is shown for every command for which C12 shows it defined; C83_footprint holds for any set and any call"
  },
  {
   "property": "C84",
   "status": "proved",
   "theorems": [
    "C84_begin",
    "C84_complete",
    "C84_abort"
   ],
   "note": "the releasing functions with the callback as a parameter (StrictCls.v) are shown convertible to the model's"
  },
  {
   "property": "C85",
   "status": "proved",
   "theorems": [
    "C85_other_keeps_data",
    "C85_api_refines",
    "C85_adapter_keeps_data",
    "C85_adapter_refines",
    "C85_read_your_writes"
   ],
   "note": ""
  },
  {
   "property": "C86",
   "status": "proved",
   "theorems": [
    "C86_threads",
    "C86_calls",
    "C86_all_finish"
   ],
   "note": "C86_threads is for any programs, C86_calls for the library's calls, C86_all_finish shows every schedule can be completed. Complete of MODE SENSE is included unless C88 says it is undefined; released pages are not handed out again while the calls run (C84: no call uses a page after its release)."
  },
  {
   "property": "C87",
   "status": "proved",
   "theorems": [
    "C87_power_failures",
    "C87_forced_writes_survive",
    "C87_synchronized_writes_survive"
   ],
   "note": "The device (saves blocks atomically, honours Flush and FUA) is specified in DurableSpec.v; that the code asks for the right namespace and blocks is what is proved. C87_may_be_lost shows that an unforced write can be lost in this model."
  },
  {
   "property": "C88",
   "status": "proved",
   "theorems": [
    "C88_undefined_iff"
   ],
   "note": "Exact characterisation: the positive side sharpens C12. Complete of UNMAP and all others never is undefined."
  },
  {
   "property": "C89",
   "status": "proved",
   "theorems": [
    "C89_accepted_iff"
   ],
   "note": "Exact for every opcode. For UNMAP the parameter list must be mapped and new pages apart from the CDB."
  },
  {
   "property": "C90",
   "status": "proved",
   "theorems": [
    "C90_engine_leaks_exactly",
    "C90_adapter_leaks_exactly"
   ],
   "note": "Sharpens C48 and C58 to an equality of ledgers, for every opcode."
  },
  {
   "property": "C91",
   "status": "proved",
   "theorems": [
    "C91_announced_length",
    "C91_engine_outcome",
    "C91_good_iff",
    "C91_adapter_outcome"
   ],
   "note": "The adapter theorem excludes the failed kzalloc (C59). For MODE SENSE(10) and UNMAP new pages must lie apart from the CDB."
  },
  {
   "property": "C92",
   "status": "partial",
   "theorems": [
    "C92_module_step",
    "C92_module_exact",
    "C92_module_refines_partial",
    "C92_read_your_writes_partial",
    "C92_beyond_capacity_refuted"
   ],
   "note": "Exact behaviour proved for every state of the block layer: carried out as by a disk, or nothing done and GOOD (zeros for a READ). So the claim holds while the block layer takes every command and none reaches beyond its unit, and the commands carried out always form a disk history; refuted beyond the capacity and when the block layer refuses, since the driver's result and completion are ignored."
  },
  {
   "property": "C93",
   "status": "partial",
   "theorems": [
    "C93_messages_partial",
    "C93_silent",
    "C93_mismatched_refuted",
    "C93_completion_count_refuted",
    "C93_report_luns_refuted",
    "C93_translating"
   ],
   "note": "Proved for 92 of the 94 messages with all argument values. Refuted for two, reached by any Complete with a wrong completion count (a size_t for %u, translation.cc 183) and by REPORT LUNS / MAINTENANCE IN with SELECT REPORT above 2 (an unpromoted scoped enumeration for %u, report_luns.cc 55): undefined behaviour by the C standard. The list of call sites is transcribed; apart from the calls of Begin, Complete and ReportLuns, which message is logged when is not modelled."
  },
  {
   "property": "C94",
   "status": "partial",
   "theorems": [
    "C94_module_answer",
    "C94_refused_not_sent_partial",
    "C94_blind",
    "C94_not_carried_out_refuted"
   ],
   "note": "Proved: a command not answered GOOD has sent nothing to the device. The exact answer to every command is given as a function of CDB, buffer and page allocations in which the device has no part; so the claim is refuted: a module whose block layer takes no command at all gives, command by command, the same status, residual count and NVMe commands as one with a faultless device."
  },
  {
   "property": "C95",
   "status": "partial",
   "theorems": [
    "C95_module_exact",
    "C95_forced_writes_survive_partial",
    "C95_synchronized_writes_survive_partial",
    "C95_synchronized_writes_refuted",
    "C95_forced_writes_refuted"
   ],
   "note": "Exact: the commands the device carries out, and only they, form the history of a disk with a volatile cache that keeps its promises (C95_module_exact). Partial: forced and synchronized writes survive if they were carried out. Refuted as stated: a SYNCHRONIZE CACHE, or a WRITE with Force Unit Access, that the block layer refuses is answered GOOD and lost."
  },
  {
   "property": "C96",
   "status": "proved",
   "theorems": [
    "C96_linearizable",
    "C96_module_linearizable",
    "C96_progress",
    "C96_all_finish",
    "C96_no_waiting",
    "C96_real_time",
    "C96_read_your_writes"
   ],
   "note": "Memory accesses, allocator calls and the execution of one NVMe command are atomic and sequentially consistent; each thread's CDB, scatterlist and sense buffer are its own; allocators hand out unused main memory. READs and WRITEs within the engine's limits (scsi_presents, as in C80)."
  },
  {
   "property": "C97",
   "status": "partial",
   "theorems": [
    "C97_abort_answers",
    "C97_abort_partial",
    "C97_abort_refuted"
   ],
   "note": "Refuted in every state for every command the device has not carried out yet: scsi_abort returns SUCCESS at once and the command can still take its full effect. Proved: a command already carried out by the device does not change the medium again."
  },
  {
   "property": "C98",
   "status": "partial",
   "theorems": [
    "C98_first_namespace_partial",
    "C98_reported_units_refuted"
   ],
   "note": "Refuted: entries are 64-bit big-endian numbers, not four two-byte levels, so every reported unit, read by the standard, addresses namespace 1. Proved for namespace 1. (C39 proves the mapping for callers that pass the 64-bit number itself.)"
  },
  {
   "property": "C99",
   "status": "partial",
   "theorems": [
    "C99_capacity_exact",
    "C99_capacity_partial",
    "C99_last_block_refuted"
   ],
   "note": "Proved: the unit behaves exactly as a disk of as many blocks as the announced ADDRESS (blocks below it served, requests reaching it refused). Refuted: the block at the announced address does not exist (READ CAPACITY returns NSZE, not NSZE-1)."
  },
  {
   "property": "C100",
   "status": "partial",
   "theorems": [
    "C100_write_block_length",
    "C100_read_block_length_partial",
    "C100_short_blocks_refuted",
    "C100_long_blocks_refuted"
   ],
   "note": "WRITE: proved for every block length. READ: right for 4096-byte blocks; refuted for shorter blocks (every READ is refused) and longer ones (only 4096 bytes per block are mapped)."
  },
  {
   "property": "C101",
   "status": "partial",
   "theorems": [
    "C101_within_limit_partial",
    "C101_largest_refuted",
    "C101_not_enforced_refuted",
    "C101_adapter_refuted"
   ],
   "note": "Proved for the library for every length up to 65535 blocks. Refuted: 65536 blocks can be announced and are refused; longer ones than announced are accepted; through the adapter nothing from 16 blocks on is carried out."
  },
  {
   "property": "C102",
   "status": "partial",
   "theorems": [
    "C102_not_announced_partial",
    "C102_announced_refuted"
   ],
   "note": "Proved when not announced. Refuted when announced: UNMAP falls through into MODE SENSE(6) and is refused."
  },
  {
   "property": "C103",
   "status": "proved",
   "theorems": [
    "C103_force_unit_access",
    "C103_descriptor_sense"
   ],
   "note": "Fully proved."
  },
  {
   "property": "C104",
   "status": "partial",
   "theorems": [
    "C104_block_length_partial",
    "C104_block_count_refuted",
    "C104_large_refuted"
   ],
   "note": "Block length: proved. Number of blocks: refuted (READ CAPACITY implies one more; from 2^32 blocks on the descriptor is taken modulo 2^32 instead of FFFFFFFFh)."
  },
  {
   "property": "C105",
   "status": "partial",
   "theorems": [
    "C105_unprotected_partial",
    "C105_protected_refuted"
   ],
   "note": "Proved for protect values 0, 6 and 7. Refuted for 1 to 5: they are accepted whatever the namespace's format."
  },
  {
   "property": "C106",
   "status": "partial",
   "theorems": [
    "C106_with_descriptor_partial",
    "C106_without_descriptor",
    "C106_no_command_refuted"
   ],
   "note": "Without block descriptor: fully proved for pages 08h and 3Fh; with it: everything but WCE (taken from Identify's completion). Refuted for pages 0Ah and 1Ah without descriptor: undefined behaviour in the kernel (first of zero completions)."
  },
  {
   "property": "C107",
   "status": "partial",
   "theorems": [
    "C107_without_descriptor_partial",
    "C107_with_descriptor_refuted",
    "C107_module_refuted",
    "C107_lost_write_refuted"
   ],
   "note": "Proved with DBD = 1 when the device's completion reaches the engine. Refuted with DBD = 0 (WCE is bit 0 of Identify's completion), and through the complete kernel module always (WCE = 0 for every device, because nvme_driver.c never fills in completions); then every write acknowledged without FUA can be lost in a power failure although no cache is announced."
  },
  {
   "property": "C108",
   "status": "partial",
   "theorems": [
    "C108_request_sense_partial",
    "C108_short_refuted"
   ],
   "note": "Proved for allocation lengths that have room for the sense data (18 or 8 bytes). Refuted for shorter ones: the initiator gets zeros instead of the first bytes of the sense data, with GOOD."
  },
  {
   "property": "C109",
   "status": "partial",
   "theorems": [
    "C109_read_partial",
    "C109_write_partial",
    "C109_six_refuted"
   ],
   "note": "Proved for the sizes 10, 12 and 16. Refuted for 6: the commands differ in exactly the PRINFO field (READ(10) with RDPROTECT 0: PRACT 1, PRCHK 7; READ(6): 0; WRITE(10): PRACT 1; WRITE(6): 0)."
  },
  {
   "property": "C110",
   "status": "partial",
   "theorems": [
    "C110_wrong_namespace_refuted",
    "C110_always_fails_refuted",
    "C110_module_always_good_refuted"
   ],
   "note": "Refuted: the one command submitted is a Compare without data for namespace 0, for every unit and BYTCHK. With a device that rejects commands for namespace 0 every VERIFY ends in CHECK CONDITION; through the complete kernel module every VERIFY is answered GOOD."
  },
  {
   "property": "C111",
   "status": "partial",
   "theorems": [
    "C111_answered_partial",
    "C111_mode_sense_refuted",
    "C111_status_partial",
    "C111_out_of_memory_refuted",
    "C111_answered_exactly"
   ],
   "note": "Answered for every command other than MODE SENSE; and, if the device's LBADS is below 32, exactly the queued commands other than MODE SENSE(6) DBD=1 pages 0Ah/1Ah with room for the answer are answered (C111_answered_exactly; those are undefined behaviour). Outside: 12-byte MODE SENSE(10) CDBs (C88). The answer is a SAM status unless kzalloc fails (refuted: 23)."
  },
  {
   "property": "C112",
   "status": "partial",
   "theorems": [
    "C112_progress_partial",
    "C112_isolated_partial",
    "C112_bystanders_partial",
    "C112_progress_mode_partial",
    "C112_isolated_mode_partial",
    "C112_bystanders_mode_partial"
   ],
   "note": "Proved for commands other than MODE SENSE (C112_mode_*: and for MODE SENSE with the exceptions of C111, on devices with sane block sizes). The exceptions are undefined behaviour alone already (C111_mode_sense_refuted)."
  },
  {
   "property": "C113",
   "status": "partial",
   "theorems": [
    "C113_shared_ledger_partial",
    "C113_all_released_partial",
    "C113_lost_exactly"
   ],
   "note": "Partial: MODE SENSE with the exceptions of C111. What is not given back is exactly determined (C113_lost_exactly): the pages given to an acceptable command whose announced answer does not fit its buffer, which the adapter aborts (C58_leak_refuted); everything else is given back, once."
  },
  {
   "property": "C114",
   "status": "proved",
   "theorems": [
    "C114_failures_are_explained",
    "C114_check_condition_has_sense",
    "C114_kernel_module"
   ],
   "note": "C114_kernel_module: through the kernel module only refused commands get CHECK CONDITION, because no failure of the device comes back (C54, C67). The reserved bits of the sense data are uninitialised (C09_reserved_sense_bits_refuted)."
  },
  {
   "property": "C115",
   "status": "partial",
   "theorems": [
    "C115_nothing_uninitialised_partial",
    "C115_serial_number_refuted",
    "C115_serial_number_exact",
    "C115_settled_serial_number"
   ],
   "note": "Partial: INQUIRY page 80h leaks stack bytes to the initiator (C115_serial_number_refuted), exactly if a half of the NGUID, or the EUI-64, has a zero most significant byte (C115_serial_number_exact); of other units it is clean at every length (C115_settled_serial_number); the reserved bits of sense data leak too; a WRITE with an empty buffer submits the adapter's uninitialised data pointer (C60_write_exact) and an UNMAP the object's (C38_stale_refuted)."
  },
  {
   "property": "C116",
   "status": "partial",
   "theorems": [
    "C116_serial_numbers_differ",
    "C116_serial_numbers_recognise_partial",
    "C116_device_identification_recognises",
    "C116_nameless_units_refuted"
   ],
   "note": "Partial: an identifier whose most significant byte (of a half) is zero is padded with stack bytes, so one unit can give two answers, and only then (C115_serial_number_exact); every other unit is recognised. Units without NGUID and EUI-64 all give the same empty Device Identification (C116_nameless_units_refuted)."
  },
  {
   "property": "C117",
   "status": "partial",
   "theorems": [
    "C117_own_outcome_partial",
    "C117_good_iff_partial"
   ],
   "note": "Partial: the MODE SENSE CDBs whose behaviour is undefined (C88), devices reporting block sizes of 2^32 and more together with MODE SENSE, and commands with a buffer whose kzalloc fails (C111_out_of_memory_refuted) are left out; UNMAP needs the scatterlist to supply the whole parameter list."
  },
  {
   "property": "C118",
   "status": "partial",
   "theorems": [
    "C118_engine",
    "C118_adapter",
    "C118_only_expected_partial"
   ],
   "note": "Partial: UNMAP is left out (C72), and the MODE SENSE CDBs whose behaviour is undefined (C88)."
  },
  {
   "property": "C119",
   "status": "partial",
   "theorems": [
    "C119_every_length_exact",
    "C119_truncation_refuted"
   ],
   "note": "Exact for every allocation length (C119_every_length_exact): status, residual, commands and memory as claimed, but the answer is all or nothing (pages 00h and 80h: header or nothing) instead of truncated; standard data with 3..35 bytes of room comes back as zeros (C119_truncation_refuted)."
  },
  {
   "property": "C120",
   "status": "partial",
   "theorems": [
    "C120_every_length_exact",
    "C120_discovery_refuted",
    "C120_complete_iff",
    "C120_no_room_refuted"
   ],
   "note": "Exact for every allocation length (C120_every_length_exact); the LUN LIST LENGTH is that of what was returned, so an initiator is never told to ask again and misses the units that did not fit (C120_discovery_refuted); complete exactly if the whole list fits (C120_complete_iff). With fewer than 8 bytes of room: GOOD and zeros (C120_no_room_refuted)."
  },
  {
   "property": "C121",
   "status": "partial",
   "theorems": [
    "C121_every_namespace_exact",
    "C121_right_iff",
    "C121_largest_refuted"
   ],
   "note": "Exact for every namespace (C121_every_namespace_exact). Right exactly if the block size is 2^9 to 2^31 and the namespace has more than FFFFFFFFh blocks (C121_right_iff): smaller ones are announced one block too large, other block sizes as GOOD and zeros; a namespace of exactly FFFFFFFFh blocks cannot be told from one needing READ CAPACITY(16) (C121_largest_refuted)."
  },
  {
   "property": "C122",
   "status": "partial",
   "theorems": [
    "C122_capacity_partial",
    "C122_inquiry_partial",
    "C122_alias_refuted",
    "C122_told_apart"
   ],
   "note": "Proved for READ CAPACITY(10) (C122_capacity_partial, C122_told_apart) and all INQUIRY pages but 80h (C122_inquiry_partial; 80h carries stack bytes for some units, C115_serial_number_exact). Units whose LUNs differ by a multiple of 2^32 are not told apart (C122_alias_refuted)."
  }
 ]
}