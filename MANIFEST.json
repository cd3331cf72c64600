{
 "claims": [
  {
   "property": "C01",
   "status": "proved",
   "theorems": [
    "c01_exactly_one_writer"
   ],
   "note": ""
  },
  {
   "property": "C02",
   "status": "proved",
   "theorems": [
    "c02_placement_bijection",
    "c02_placement_total",
    "c02_placement_bijection_single"
   ],
   "note": ""
  },
  {
   "property": "C03",
   "status": "proved",
   "theorems": [
    "c03_order",
    "c02_placement_bijection"
   ],
   "note": "the bound s < B*F is part of c02_placement_bijection"
  },
  {
   "property": "C04",
   "status": "proved",
   "theorems": [
    "c04_expected_count",
    "c04_counts_add_up"
   ],
   "note": ""
  },
  {
   "property": "C05",
   "status": "partial",
   "theorems": [
    "c05_names_distinct_partial",
    "c05_shape_partial",
    "c05_extension",
    "c05_name_exists",
    "c05_names_distinct_refuted",
    "c05_no_numbers_refuted"
   ],
   "note": "false of the code from file number 10^6 on and when file numbers are off"
  },
  {
   "property": "C06",
   "status": "partial",
   "theorems": [
    "c06_adjust_exact_partial",
    "c06_adjust_sound",
    "c06_adjust_exact_refuted"
   ],
   "note": "false of the code for frame numbers from 2^31 on"
  },
  {
   "property": "C07",
   "status": "partial",
   "theorems": [
    "c07_written_iff_partial",
    "c07_mismatch_refused",
    "c07_invalid_but_stored_refuted",
    "c07_bound_cut_refuted"
   ],
   "note": "the mismatch half holds in every state; the full iff needs frame numbers below 2^31 and no HDF5 failure other than of image data; parameter errors report invalid although the image is stored"
  },
  {
   "property": "C08",
   "status": "partial",
   "theorems": [
    "c08_readback",
    "c08_readback_params",
    "c08_create_failure_refuted"
   ],
   "note": "holds as long as H5Fcreate works; false after a failed file creation (a completed file is truncated)"
  },
  {
   "property": "C09",
   "status": "partial",
   "theorems": [
    "c09_starts",
    "c09_file_sequence",
    "c09_no_frames_refuted"
   ],
   "note": "holds for a configuration expecting at least one frame and while H5Fcreate works"
  },
  {
   "property": "C10",
   "status": "proved",
   "theorems": [
    "c10_late_refused"
   ],
   "note": ""
  },
  {
   "property": "C11",
   "status": "partial",
   "theorems": [
    "c11_counters_partial",
    "c11_monotone",
    "c11_exact_at_end_partial"
   ],
   "note": "monotone in every state; the exact value needs the master dataset to have one frame per chunk"
  },
  {
   "property": "C12",
   "status": "partial",
   "theorems": [
    "c12_completion_partial",
    "c12_duplicate_refuted",
    "c12_two_datasets_refuted",
    "c12_chunks_refuted"
   ],
   "note": "false for duplicated frames, for several datasets without a master and for chunks of several frames"
  },
  {
   "property": "C13",
   "status": "proved",
   "theorems": [
    "c13_extent_unlimited",
    "c13_extent_fixed",
    "c13_extent_grows"
   ],
   "note": ""
  },
  {
   "property": "C14",
   "status": "proved",
   "theorems": [
    "c14_geometry_fixed",
    "c14_refused",
    "c14_reachable",
    "c14_zero_processes_refuted"
   ],
   "note": "the refutation is a related finding: 0 processes are accepted"
  },
  {
   "property": "C15",
   "status": "proved",
   "theorems": [
    "c15_written_where_named",
    "c15_unknown_refused",
    "c15_switch",
    "c15_history",
    "c08_plugin_readback"
   ],
   "note": "calls are atomic (process_frame holds the mutex; execute does not, see C18)"
  },
  {
   "property": "C16",
   "status": "partial",
   "theorems": [
    "c16_stop",
    "c16_one_file",
    "c16_files_kept_partial",
    "c16_id_as_file_name_refuted",
    "c16_empty_path_refuted",
    "c16_postfix_refuted"
   ],
   "note": "restart condition proved exactly; that finished files are kept is false in three ways and proved outside them"
  },
  {
   "property": "C17",
   "status": "proved",
   "theorems": [
    "c17_pushed_once",
    "c17_order"
   ],
   "note": ""
  },
  {
   "property": "C18",
   "status": "partial",
   "theorems": [
    "c18_only_after_inactivity_partial",
    "c18_frame_rearms",
    "c18_mutex",
    "c18_once",
    "c18_stop_after_frame_refuted",
    "c18_frame_deadlock_refuted",
    "c18_control_deadlock_refuted"
   ],
   "note": "a whole period without frames always precedes the stop, but a frame processed after the wait has run out does not prevent it; two deadlocks with the timeout thread"
  },
  {
   "property": "C19",
   "status": "proved",
   "theorems": [
    "c19_conserved",
    "c19_take_fresh",
    "c19_double_release_refuted"
   ],
   "note": "calls are serialised; only blocks in use are released (releasing twice is refuted)"
  },
  {
   "property": "C20",
   "status": "partial",
   "theorems": [
    "c20_values_partial",
    "c20_no_leak_partial",
    "c20_copy_refuted",
    "c20_copy_alive_refuted",
    "c20_assign_size_refuted"
   ],
   "note": "proved for programs without the copy constructor and with assignment between frames of one size; false for the copy constructor and for assignment between sizes"
  },
  {
   "property": "C21",
   "status": "proved",
   "theorems": [
    "c21_fifo",
    "c21_program_order",
    "c21_limit"
   ],
   "note": ""
  },
  {
   "property": "C22",
   "status": "partial",
   "theorems": [
    "c22_never_stuck_partial",
    "c22_drains_partial",
    "c22_deadlock_refuted"
   ],
   "note": "one consumer and at most 15 blocking producers: no deadlock and everything is delivered; with 16 blocking producers the signal can wake a producer and all threads sleep (refuted)"
  },
  {
   "property": "C23",
   "status": "partial",
   "theorems": [
    "c23_delivery_partial",
    "c23_prefix",
    "c23_invalid",
    "c23_named",
    "c23_throw_refuted"
   ],
   "note": "exactly once, blocking first, when no called plugin throws; a throwing plugin cuts off the rest (refuted)"
  },
  {
   "property": "C43",
   "status": "proved",
   "theorems": [
    "c43_messages"
   ],
   "note": ""
  },
  {
   "property": "C47",
   "status": "partial",
   "theorems": [
    "c47_graph_partial",
    "c47_receiver",
    "c47_loaded",
    "c47_refused",
    "c47_null_refuted",
    "c47_connect_unloaded_refuted",
    "c47_disconnect_all_refuted",
    "c47_endpoint_change_refuted"
   ],
   "note": "the graph is the one described by the commands, for plugins not named controller and until a null pointer is dereferenced; four ways in which it is not what a user expects are refuted"
  },
  {
   "property": "C51",
   "status": "partial",
   "theorems": [
    "c51_timings_partial",
    "c51_uninitialised_refuted",
    "c51_wrap_refuted"
   ],
   "note": "after a reset and for durations below 2^32 us; both limits are refuted without"
  },
  {
   "property": "C24",
   "status": "partial",
   "theorems": [
    "c24_each_once",
    "c24_in_order_partial",
    "c24_all_processed_partial",
    "c24_stop_takes",
    "c24_ends_partial",
    "c24_stop_discards_refuted",
    "c24_restart_refuted",
    "c24_stop_hangs_refuted"
   ],
   "note": "taken once in order always; processed in order and completely by a worker started once and until it is stopped; stopping discards the queue, can hang on a full queue, and a quick restart gives two threads (refuted)"
  },
  {
   "property": "C25",
   "status": "partial",
   "theorems": [
    "c25_every_packet_partial",
    "c25_one_frame_partial",
    "c25_last_number_refuted",
    "c25_dropping_refuted"
   ],
   "note": "for histories without dropped frames, without frame number 2^32-1 and without packets directly after the time-out of their frame; two of these are refuted without, the third under C28"
  },
  {
   "property": "C26",
   "status": "partial",
   "theorems": [
    "c26_complete_partial",
    "c26_duplicates_refuted"
   ],
   "note": "if no packet of the frame came twice (also when frames are dropped); refuted with duplicates"
  },
  {
   "property": "C27",
   "status": "partial",
   "theorems": [
    "c27_in_bounds_partial",
    "c27_own_place_partial",
    "c27_out_of_range_refuted"
   ],
   "note": "for packet numbers below the configured number; every other number is written outside the buffer (refuted)"
  },
  {
   "property": "C28",
   "status": "partial",
   "theorems": [
    "c28_loop_partial",
    "c28_contents_partial",
    "c28_none_lost",
    "c28_all_return_partial",
    "c28_one_place_partial",
    "c28_late_refuted",
    "c28_last_number_refuted",
    "c28_no_config_refuted",
    "c28_restart_refuted"
   ],
   "note": "whole way receiver - processor - receiver; outside: packets directly after the time-out of their frame, frame number 2^32-1, a second start of the receiver thread, ready messages before configuration (each refuted)"
  },
  {
   "property": "C29",
   "status": "partial",
   "theorems": [
    "c29_lost",
    "c29_missing_partial",
    "c29_timeouts_partial",
    "c29_dropped_frames_refuted",
    "c29_underflow_refuted"
   ],
   "note": "totals are exact modulo 2^32; the missing count of a frame is exact if no packet came twice; consecutive dropped frames are counted once and the total can underflow (refuted)"
  },
  {
   "property": "C30",
   "status": "partial",
   "theorems": [
    "c30_simulator",
    "c30_image_partial",
    "c30_exactly_lost_partial",
    "c30_complete_partial",
    "c30_simulated_partial",
    "c30_end_to_end_partial",
    "c30_duplicates_refuted",
    "c30_single_packet_refuted",
    "c30_packets_lost"
   ],
   "note": "from create_frames through decoder and process plugin; without duplicated packets, dropped frames and the cases of C28; images of one packet are undefined in the simulator (refuted)"
  },
  {
   "property": "C31",
   "status": "partial",
   "theorems": [
    "c31_buffers_partial",
    "c31_destroy",
    "c31_count",
    "c31_same_place",
    "c31_same_name_refuted",
    "c31_stale_header_refuted",
    "c31_overflow_refuted"
   ],
   "note": "for all histories of managers; a name is not created again while in use and sizes are admissible file sizes, else refuted"
  },
  {
   "property": "C32",
   "status": "partial",
   "theorems": [
    "c32_never_early_partial",
    "c32_at_most",
    "c32_enough_turns_partial",
    "c32_exactly_partial",
    "c32_wakes_partial",
    "c32_removed",
    "c32_goes_on_partial",
    "c32_turn_after_sleep",
    "c32_ends",
    "c32_register_while_asleep_refuted",
    "c32_huge_delay_refuted",
    "c32_callback_deadlock_refuted"
   ],
   "note": "IpcReactor timers and run(): never early, exactly n firings given n late enough turns, sleeps end when a held timer is due; false for a timer registered while the reactor sleeps, for delays of 2^63 ms and more, and a timer callback that changes timers deadlocks"
  },
  {
   "property": "C33",
   "status": "partial",
   "theorems": [
    "c33_read_back_partial",
    "c33_tree_partial",
    "c33_others_partial",
    "c33_succeeds",
    "c33_has",
    "c33_push_partial",
    "c33_short_name_refuted",
    "c33_short_last_refuted",
    "c33_last_slash_refuted",
    "c33_empty_name_refuted",
    "c33_array_inside_refuted",
    "c33_has_throws_refuted",
    "c33_default_refuted",
    "c33_reference_refuted",
    "c33_nul_refuted"
   ],
   "note": "set_param then get_param for all paths of plain names of two characters and more; one-character names, trailing slashes, empty names, array marks inside a path, zero characters, references below the first level and the default getter with a path are outside (each refuted)"
  },
  {
   "property": "C34",
   "status": "partial",
   "theorems": [
    "c34_leaves_partial",
    "c34_succeeds_partial",
    "c34_again_partial",
    "c34_message_partial",
    "c34_message_deep_refuted",
    "c34_conflict_refuted",
    "c34_names_refuted",
    "c34_empty_object_refuted",
    "c34_no_params_refuted"
   ],
   "note": "update with a value: all leaves of the tree are merged and the rest is kept, for trees with plain names and no conflict with a scalar; update with a message is shallow (refuted for depth two)"
  },
  {
   "property": "C35",
   "status": "partial",
   "theorems": [
    "c35_types",
    "c35_values",
    "c35_strict",
    "c35_round_trip_partial",
    "c35_nack_partial",
    "c35_made",
    "c35_lenient_id_refuted"
   ],
   "note": "names, strict acceptance and round trip; the text of the time stamp (boost) is an oracle that is assumed to round-trip; a lenient message without a good id has an indeterminate id (refuted)"
  },
  {
   "property": "C36",
   "status": "partial",
   "theorems": [
    "c36_fill_partial",
    "c36_once",
    "c36_accepts_partial",
    "c36_negative_grid_refuted",
    "c36_negative_gap_refuted",
    "c36_unset_refuted",
    "c36_short_frame_refuted",
    "c36_planes_refuted"
   ],
   "note": "every pixel of every chip once at its place, the rest zero, for positive grids and chips, non-negative gaps, two dimensions and images below 2^31 bytes; refuted outside"
  },
  {
   "property": "C38",
   "status": "partial",
   "theorems": [
    "c38_sum_partial",
    "c38_other",
    "c38_large_refuted"
   ],
   "note": "images below 2^31 bytes; a frame of 2^31 bytes is read out of bounds"
  },
  {
   "property": "C39",
   "status": "partial",
   "theorems": [
    "c39_offset_partial",
    "c39_adjust_partial",
    "c39_order_refuted",
    "c39_overflow_refuted",
    "c39_configure_partial"
   ],
   "note": "if no input is the output of another adjustment and without signed overflow; refuted otherwise; exceptions in the middle of a configuration are outside c39_configure_partial"
  },
  {
   "property": "C46",
   "status": "proved",
   "theorems": [
    "c46_types",
    "c46_sizes",
    "c46_compressions",
    "c46_distinct"
   ],
   "note": "names and codes of data types and compressions"
  },
  {
   "property": "C37",
   "status": "partial",
   "theorems": [
    "c37_sends_partial",
    "c37_forward",
    "c37_no_exception",
    "c37_rate_partial",
    "c37_configure_partial",
    "c37_socket",
    "c37_socket_taken",
    "c37_shared_counter_refuted",
    "c37_wrap_refuted",
    "c37_overflow_refuted",
    "c37_negative_rate_refuted"
   ],
   "note": "frames sent exactly as the history demands, below 2^31 frames and with one live view counting without list of datasets; forwarding holds always; refuted outside; text of the header by rapidjson not modelled; reconfiguration between frames restarts the statement"
  },
  {
   "property": "C40",
   "status": "partial",
   "theorems": [
    "c40_settings_partial",
    "c40_lossless",
    "c40_no_id_refuted",
    "c40_interleaved_refuted",
    "c40_zero_threads_refuted",
    "c40_two_plugins_refuted",
    "c40_unsupported_refuted"
   ],
   "note": "one plugin, nonempty acquisition ID, consecutive frames, all compressors built in, well typed configurations; refuted otherwise. The library is an oracle."
  },
  {
   "property": "C41",
   "status": "partial",
   "theorems": [
    "c41_message_partial",
    "c41_made",
    "c41_boundary_refuted",
    "c41_after_blosc_refuted"
   ],
   "note": "headers below 65535 bytes, down to the text of the header, which has exactly one document; refuted at 65535 bytes and for compressed frames (bytes behind the image). Text of floating point numbers is an oracle."
  },
  {
   "property": "C42",
   "status": "partial",
   "theorems": [
    "c42_counts_partial",
    "c42_sent",
    "c42_passed_on",
    "c42_ack_partial",
    "c42_configured",
    "c42_no_topic_refuted",
    "c42_large_header_refuted",
    "c42_race_refuted",
    "c42_reset_refuted",
    "c42_topic_refuted",
    "c42_bad_servers_refuted"
   ],
   "note": "with a topic, messages that can be made and accepted configurations; refuted otherwise. librdkafka is an oracle."
  },
  {
   "property": "C50",
   "status": "partial",
   "theorems": [
    "c50_parse_partial",
    "c50_print",
    "c50_round_trip_partial",
    "c50_range",
    "c50_plus_partial",
    "c50_hex_partial",
    "c50_large_refuted",
    "c50_not_ports_refuted",
    "c50_empty_refuted",
    "c50_dangling_refuted",
    "c50_types"
   ],
   "note": "decimal numbers between blanks, the text of the destroyed temporary taken as intact; refuted for numbers out of range, negative, with leading zero or trailing letters, and for the empty list, which cannot be printed."
  },
  {
   "property": "C52",
   "status": "partial",
   "theorems": [
    "c52_equal_partial",
    "c52_absent",
    "c52_symmetric_partial",
    "c52_reflexive_partial",
    "c52_duplicate_refuted",
    "c52_no_object_refuted",
    "c52_transitive_refuted"
   ],
   "note": "no object with a name twice and no zero character in names; comparison of doubles is an oracle. Refuted for duplicate names (not symmetric), parameters that are no object, and integers with the same double (not transitive)."
  },
  {
   "property": "C44",
   "status": "partial",
   "theorems": [
    "c44_one_reply",
    "c44_id",
    "c44_value",
    "c44_illegal",
    "c44_applied_partial",
    "c44_status",
    "c44_configuration",
    "c44_version",
    "c44_reset",
    "c44_shutdown",
    "c44_answered_partial",
    "c44_survives_partial",
    "c44_shm_refuted",
    "c44_ports_refuted",
    "c44_name_refuted",
    "c44_undefined_refuted",
    "c44_acked_refuted",
    "c44_refused_partly"
   ],
   "note": "Frame receiver: whenever the handler returns, exactly one reply to the sender with id and value of the request; requests that are none are refused and change nothing; an acknowledged configure sets what it gives and nothing else; status, request_configuration, reset, shutdown. That it always returns holds only without certain messages and failures (partial, refuted cases). The frame processor's is C56."
  },
  {
   "property": "C45",
   "status": "partial",
   "theorems": [
    "c45_complete_partial",
    "c45_acknowledged",
    "c45_threads",
    "c45_bind",
    "c45_release_refuted",
    "c45_rebuild_refuted",
    "c45_status_refuted",
    "c45_library_refuted",
    "c45_control_refuted",
    "c45_back_refuted"
   ],
   "note": "Receiver threads come one after the other. An acknowledged configure with a named decoder has loaded it, made buffers and a thread, and reports each part as it is. When all parts are reported, decoder, buffers and thread exist, belong together and have the current settings, until the next configure, and control, rx and ready channels are bound; the release channel need not be (refuted), every later configure rebuilds everything (refuted)."
  },
  {
   "property": "C53",
   "status": "partial",
   "theorems": [
    "c53_ready",
    "c53_release",
    "c53_identity",
    "c53_precharge",
    "c53_buffer_config",
    "c53_status",
    "c53_run",
    "c53_limit_refuted",
    "c53_limit_stays"
   ],
   "note": "Forwarding, order and counts for all runs. The limit of frames is not initialised and cannot be taken back (refuted)."
  },
  {
   "property": "C49",
   "status": "partial",
   "theorems": [
    "c49_update_partial",
    "c49_failed",
    "c49_ignored",
    "c49_encode",
    "c49_restores",
    "c49_from",
    "c49_u16_refuted",
    "c49_atomic_refuted",
    "c49_slash_refuted",
    "c49_number_refuted",
    "c49_through_refuted",
    "c49_pointers_partial",
    "c49_tilde",
    "c49_elements_partial"
   ],
   "note": "Update also through JSON pointers with escapes and elements of arrays, and encoding into existing elements. Otherwise: paths of names (no empty first name for encoding, no '~', no zero character, no number as a name), values that fit the parameter, each parameter bound once. Refuted outside: 16-bit parameters are cut, a failed update is not undone, a leading slash and numeric names are not restored, a path through another parameter loses it."
  },
  {
   "property": "C54",
   "status": "partial",
   "theorems": [
    "c54_grammar",
    "c54_zero",
    "c54_one",
    "c54_numbers_partial",
    "c54_large_refuted",
    "c54_machine",
    "c54_nearest_partial",
    "c54_nearest_refuted"
   ],
   "note": "The reader accepts exactly the texts of a separate grammar, with its values (all texts). Numbers that are no 64-bit integers: proved to be read as some double up to 60 digits before the point and exponents to 308. Nearest double, ties to even: proved for digits that are together below 2^53 with a power of ten from -22 to 22; refuted for 3e23. Beyond that refused or infinite (refuted). Recursion depth is not limited in the code and not modelled."
  },
  {
   "property": "C55",
   "status": "partial",
   "theorems": [
    "c55_written",
    "c55_same_partial",
    "c55_integers",
    "c55_doubles_refuted",
    "c55_no_number_refuted",
    "c55_message_partial",
    "c55_message_lost_refuted"
   ],
   "note": "Every document without infinities and NaN is written and read again, equal up to doubles; equal if its doubles come back, in particular without doubles. Refuted: doubles such as 1/11 come back as a neighbour; an infinity or NaN cuts the text off and the message is refused. Message level needs the hypotheses of C35."
  },
  {
   "property": "C48",
   "status": "partial",
   "theorems": [
    "c48_as_sent_partial",
    "c48_unknown",
    "c48_stored",
    "c48_ends_partial",
    "c48_self_refuted",
    "c48_rest_refuted",
    "c48_infinite_refuted"
   ],
   "note": "A message that only executes acts as the messages of the stored configuration sent in order until one gets no reply (plugins keep the head of the reply and do not look at it; no plugin is named execute); storing keeps the value up to doubles; with ranked configurations execution ends whatever the depth of the stack. Refuted: self reference never ends, later messages are dropped after a failure, infinities."
  },
  {
   "property": "C56",
   "status": "partial",
   "theorems": [
    "c56_one_reply",
    "c56_head",
    "c56_illegal",
    "c56_unknown",
    "c56_reads",
    "c56_shutdown",
    "c56_configuration",
    "c56_status",
    "c56_commands",
    "c56_version",
    "c56_execute",
    "c56_reset",
    "c56_answered_partial",
    "c56_refused_refuted",
    "c56_silent_refuted",
    "c56_short_refuted",
    "c56_bound_refuted",
    "c56_receiver_refuted",
    "c56_named_refuted"
   ],
   "note": "For plugins that keep the head of the reply (and, where their part is spoken about, write in their own part only): at most one reply, last, to the client, with its value and id; contents of each kind of reply; what execute and reset do to the plugins; requests that read change nothing. That a reply comes is proved for configuration, status, commands and version with plugins of proper names that return. Refuted: failed configurations are refused to nobody or silently, one-character plugin names end the reactor, reset names one of two refusing plugins, endpoints."
  },
  {
   "property": "C57",
   "status": "partial",
   "theorems": [
    "c57_published_partial",
    "c57_infinity_refuted"
   ],
   "note": "For headers without numbers read as infinity; refuted for those. Doubles in the header as in C55."
  },
  {
   "property": "C58",
   "status": "proved",
   "theorems": [
    "c58_matched",
    "c58_settings",
    "c58_plugins",
    "c58_reply",
    "c58_master_refuted",
    "c58_nowhere_refuted"
   ],
   "note": "Messages that do not execute stored configurations (those: C48); in all states reached from the start. Refuted extras: the master is read from the section hdf only, a connection to a plugin that is not there is acknowledged."
  },
  {
   "property": "C59",
   "status": "partial",
   "theorems": [
    "c59_exit",
    "c59_passed",
    "c59_uncounted_refuted",
    "c59_limit_refuted"
   ],
   "note": "For limits from above the count so far to 2^31-1, set before. Refuted: limits passed, 2^31 and more, 0, and the limit not initialised."
  },
  {
   "property": "C60",
   "status": "partial",
   "theorems": [
    "c60_applied",
    "c60_accepted",
    "c60_undisturbed",
    "c60_refused",
    "c60_no_empty_blocks",
    "c60_nothing",
    "c60_lived",
    "c60_reported",
    "c60_asking",
    "c60_restored_partial",
    "c60_atomic_refuted",
    "c60_nack_refuted",
    "c60_path_refuted",
    "c60_indexes_refuted",
    "c60_first_refuted",
    "c60_dims_refuted",
    "c60_slash_refuted",
    "c60_unknown_refuted",
    "c60_named_refuted",
    "c60_started_refuted",
    "c60_order_refuted"
   ],
   "note": "All messages and all states reached. Round trip for settings below 2^31, a path that can be written to, names of data sets without slashes, chunks where there are dimensions; indexes are not restored. Refuted: see DESIGN.md."
  },
  {
   "property": "C61",
   "status": "partial",
   "theorems": [
    "c61_status",
    "c61_counters_partial",
    "c61_commands",
    "c61_stop",
    "c61_start",
    "c61_reset",
    "c61_counters_refuted"
   ],
   "note": "Counters exact below 2^31, refuted from there. Durations are an oracle; they are reported as 32 bit numbers."
  },
  {
   "property": "C62",
   "status": "partial",
   "theorems": [
    "c62_reported",
    "c62_status",
    "c62_answered_partial",
    "c62_configured",
    "c62_loaded",
    "c62_accepted_partial",
    "c62_again",
    "c62_path",
    "c62_stopped",
    "c62_started",
    "c62_unknown",
    "c62_reset",
    "c62_lived",
    "c62_restored_partial"
   ],
   "note": "Other plugins are arbitrary, but write in their own part of the reply. Acknowledgement proved for messages with sections for plugins only. Round trip with the limits of C60. Frames come between messages, not between the calls of plugins within one message."
  },
  {
   "property": "C63",
   "status": "partial",
   "theorems": [
    "c63_frames_partial",
    "c63_elsewhere_partial",
    "c63_returns_partial",
    "c63_announced_refuted",
    "c63_kept_refuted",
    "c63_buffers_refuted",
    "c63_closed_refuted",
    "c63_failed_refuted",
    "c63_interrupted_refuted"
   ],
   "note": "At least five buffers, connections without end and errors; announcing, keeping and connection errors refuted."
  },
  {
   "property": "C64",
   "status": "partial",
   "theorems": [
    "c64_order_partial",
    "c64_only_partial",
    "c64_ends_partial",
    "c64_done_partial",
    "c64_exclusive_partial",
    "c64_two_inputs_refuted",
    "c64_shared_refuted",
    "c64_at_once_refuted",
    "c64_circle_refuted"
   ],
   "note": "Trees in which shared frames are not changed; plugins that do not throw; no reconnection or stop during the run (C24, C47)."
  },
  {
   "property": "C65",
   "status": "partial",
   "theorems": [
    "c65_sent",
    "c65_ports_partial",
    "c65_returns_partial",
    "c65_listed",
    "c65_nothing_dropped",
    "c65_port_list",
    "c65_defaults",
    "c65_capture_partial",
    "c65_recorded_partial",
    "c65_single_refuted",
    "c65_dropped_frame_refuted",
    "c65_gap_refuted",
    "c65_bytes_refuted",
    "c65_all_refuted",
    "c65_text_refuted",
    "c65_no_port_refuted",
    "c65_snap_refuted",
    "c65_commas"
   ],
   "note": "Rotation for at least two stored frames none of which is dropped completely; counters within int; captures not shortened; the rest refuted."
  },
  {
   "property": "C66",
   "status": "partial",
   "theorems": [
    "c66_files_partial",
    "c66_end_to_end_partial",
    "c66_lossy_partial",
    "c66_order_refuted",
    "c66_master_refuted",
    "c66_pixels"
   ],
   "note": "At least two frames, one frame per block, no packet later than the time-out and no HDF5 failure for the complete claim; order of frames within two files; the close time-out does not fire; the rest refuted."
  },
  {
   "property": "C67",
   "status": "partial",
   "theorems": [
    "c67_applied",
    "c67_accepted",
    "c67_warned",
    "c67_silent",
    "c67_blosc_refines",
    "c67_nothing",
    "c67_fit",
    "c67_reported",
    "c67_status",
    "c67_restored_partial",
    "c67_commands",
    "c67_reset",
    "c67_live_refuted",
    "c67_kafka_refuted",
    "c67_partition_refuted",
    "c67_adjust_refuted",
    "c67_gap_refuted",
    "c67_gap_short_refuted",
    "c67_gap_atomic_refuted",
    "c67_atomic_refuted",
    "c67_blosc_stuck_refuted",
    "c67_slash_refuted"
   ],
   "note": "Round trip of reports for what is reported and accepted (restorable); names of adjusted parameters without slash; the rest refuted."
  },
  {
   "property": "C68",
   "status": "partial",
   "theorems": [
    "c68_reported",
    "c68_status",
    "c68_configured",
    "c68_loaded",
    "c68_accepted_partial",
    "c68_commands",
    "c68_executed",
    "c68_reset",
    "c68_lived",
    "c68_restored_partial",
    "c68_atomic_refuted",
    "c68_command_refuted",
    "c68_warning_refuted"
   ],
   "note": "Acceptance for well typed sections other than adjustments of parameters; round trip with the limits of C60 and C67; the rest refuted."
  },
  {
   "property": "C69",
   "status": "partial",
   "theorems": [
    "c69_array_partial",
    "c69_silent",
    "c69_endpoint",
    "c69_unreadable",
    "c69_object_ignored",
    "c69_line",
    "c69_excerpt_partial",
    "c69_excerpt_rest",
    "c69_excerpt_lost",
    "c69_excerpt_refuted",
    "c69_object_refuted",
    "c69_wrong_type_refuted",
    "c69_receiver",
    "c69_receiver_silent",
    "c69_receiver_endpoint",
    "c69_receiver_deaf",
    "c69_receiver_unreadable",
    "c69_receiver_refused",
    "c69_receiver_wrong_type_refuted"
   ],
   "note": "The frame processor's file must be an array (a single object is ignored: refuted); the excerpt of the error holds for errors after the first 14 characters with a line end behind."
  },
  {
   "property": "C70",
   "status": "partial",
   "theorems": [
    "c70_status",
    "c70_request",
    "c70_once",
    "c70_frame",
    "c70_ignored",
    "c70_mapped",
    "c70_conserved",
    "c70_release",
    "c70_safe_partial",
    "c70_answer",
    "c70_notified",
    "c70_returned",
    "c70_handshake",
    "c70_remapped_refuted",
    "c70_replaced_refuted",
    "c70_deferred_refuted",
    "c70_ghost_refuted",
    "c70_stale_refuted",
    "c70_ends_refuted",
    "c70_lost_refuted"
   ],
   "note": "Freedom from undefined behaviour for careful use (connections and names change only when nothing is outstanding); the rest for all runs; careless use refuted."
  },
  {
   "property": "C71",
   "status": "partial",
   "theorems": [
    "c71_report",
    "c71_in_time_partial",
    "c71_shown",
    "c71_alive_partial",
    "c71_ends_partial",
    "c71_duration",
    "c71_duration_partial",
    "c71_duration_refuted",
    "c71_returned",
    "c71_constructor_partial",
    "c71_constructor_refuted",
    "c71_zero_timeout_refuted",
    "c71_signal_refuted"
   ],
   "note": "In time, alive and end: unless the uninitialised timer id is the heartbeat's or a signal comes; constructor: if the thread is not too quick; durations below 71 minutes. All four conditions are shown necessary."
  },
  {
   "property": "C72",
   "status": "partial",
   "theorems": [
    "c72_woken",
    "c72_order_partial",
    "c72_finished_partial",
    "c72_cause_partial",
    "c72_blocked_partial",
    "c72_bounded_partial",
    "c72_ends_partial",
    "c72_safe_partial",
    "c72_start_partial",
    "c72_start_refuted",
    "c72_lost_refuted",
    "c72_spurious_refuted",
    "c72_full_refuted",
    "c72_late_refuted",
    "c72_race_refuted",
    "c72_dangling_refuted"
   ],
   "note": "Order, end and bound: unless a request uses plugins_ while they are dropped; cause: without spurious wake-ups; ends: plugins without frames; safe: main thread slower than the workers; start: thread slower than the constructor. All conditions are shown necessary."
  },
  {
   "property": "C73",
   "status": "partial",
   "theorems": [
    "c73_message",
    "c73_one",
    "c73_values",
    "c73_delivered",
    "c73_complete_partial",
    "c73_room",
    "c73_story_partial",
    "c73_freed",
    "c73_writes",
    "c73_lost_refuted",
    "c73_order_refuted"
   ],
   "note": "Complete and story: while no channel is full; story: of one acquisition. Both conditions are shown necessary."
  },
  {
   "property": "C74",
   "status": "partial",
   "theorems": [
    "c74_started",
    "c74_refused",
    "c74_others",
    "c74_clean_partial",
    "c74_leak_refuted",
    "c74_stopped_partial",
    "c74_deadlock_refuted",
    "c74_read_refuted",
    "c74_kept",
    "c74_conserved",
    "c74_release_refuted",
    "c74_defined_partial",
    "c74_decoder_refuted",
    "c74_zmq_refuted",
    "c74_late_refuted"
   ],
   "note": "Clean: without failed starts; stopped: channel not full, no unfinished TCP message, no exception; defined: decoder of the thread's type, not ZMQ. All conditions are shown necessary."
  },
  {
   "property": "C75",
   "status": "partial",
   "theorems": [
    "c75_calls",
    "c75_silent",
    "c75_thrown",
    "c75_ends",
    "c75_signal",
    "c75_removed_partial",
    "c75_removed_refuted",
    "c75_stop_refuted"
   ],
   "note": "Removed: from the next round on; in the same round it is shown false."
  },
  {
   "property": "C76",
   "status": "partial",
   "theorems": [
    "c76_listens_partial",
    "c76_unbind_partial",
    "c76_twice_refuted",
    "c76_long_refuted",
    "c76_requests_partial",
    "c76_replies_partial",
    "c76_waits_refuted",
    "c76_shift_refuted",
    "c76_parts_refuted",
    "c76_float",
    "c76_identity",
    "c76_identity_refuted",
    "c76_identity_form",
    "c76_identity_differ"
   ],
   "note": "Endpoints not bound twice and shorter than 256 characters; messages of one part. Each condition is shown necessary."
  },
  {
   "property": "C77",
   "status": "partial",
   "theorems": [
    "c77_starts_partial",
    "c77_requests",
    "c77_twice",
    "c77_number",
    "c77_unknown",
    "c77_ambiguous",
    "c77_request_value",
    "c77_missing",
    "c77_logging",
    "c77_strays_refuted",
    "c77_swallowed_refuted",
    "c77_negative_refuted"
   ],
   "note": "Starts: without the few spellings listed in DESIGN.md; boost::program_options is modelled from its documentation."
  },
  {
   "property": "C78",
   "status": "partial",
   "theorems": [
    "c78_simulates_partial",
    "c78_codes",
    "c78_directory",
    "c78_unreadable_refuted",
    "c78_dies_refuted",
    "c78_order_refuted",
    "c78_code_refuted"
   ],
   "note": "Simulates: detector first, options spelled out; boost::program_options is modelled from its documentation."
  },
  {
   "property": "C79",
   "status": "partial",
   "theorems": [
    "c79_attributes",
    "c79_frames_partial",
    "c79_blocks_refuted",
    "c79_single_refuted",
    "c79_unlimited_refuted"
   ],
   "note": "Frames: one block per file, more than one frame per block, known number of frames; the rest is shown false."
  },
  {
   "property": "C80",
   "status": "partial",
   "theorems": [
    "c80_readable",
    "c80_unknown",
    "c80_space",
    "c80_created",
    "c80_aligned",
    "c80_accepted_partial",
    "c80_chunks_refuted",
    "c80_blosc_partial",
    "c80_blosc_refuted"
   ],
   "note": "Accepted: chunks no larger than a frame, rank at most 32, below 4 GiB. Blosc: frames below 4 GiB."
  },
  {
   "property": "C81",
   "status": "partial",
   "theorems": [
    "c81_messages_partial",
    "c81_prefix_partial",
    "c81_memory",
    "c81_decoder",
    "c81_long_refuted",
    "c81_kind_refuted"
   ],
   "note": "Messages and prefix: parts no longer than the decoder allocates; longer parts are shown to be undefined behaviour."
  },
  {
   "property": "C82",
   "status": "partial",
   "theorems": [
    "c82_interval",
    "c82_late",
    "c82_pause_partial",
    "c82_none",
    "c82_packets",
    "c82_short_refuted",
    "c82_long_refuted"
   ],
   "note": "The interval is kept to within a second; exact intervals are shown false."
  },
  {
   "property": "C83",
   "status": "partial",
   "theorems": [
    "c83_frame",
    "c83_first",
    "c83_param_partial",
    "c83_rate",
    "c83_earliest",
    "c83_close",
    "c83_closed",
    "c83_stale_refuted",
    "c83_failed_refuted"
   ],
   "note": "Parameters: seen after a further value 1.001 s later, clock not set back, flushes succeed; the rest is shown false."
  },
  {
   "property": "C84",
   "status": "partial",
   "theorems": [
    "c84_known",
    "c84_new",
    "c84_opened",
    "c84_origin",
    "c84_stable_partial",
    "c84_path_refuted",
    "c84_stable_refuted"
   ],
   "note": "Stable: no two libraries register the same name; the general claim is shown false."
  }
 ]
}