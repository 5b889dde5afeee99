{
 "claims": [
  {
   "property": "C01",
   "status": "proved",
   "theorems": [
    "ring_is_bounded_fifo",
    "ring_delivers_published_frames_in_order",
    "ring_full_report",
    "raw_queue_full_report_refuted"
   ],
   "note": "FIFO order, capacity, counts and both refusals proved for every history of non-forced requests. Beyond the statement: the 90% full report is characterised exactly and found wrong for 10-slot raw video queues (raw_queue_full_report_refuted)."
  },
  {
   "property": "C02",
   "status": "proved",
   "theorems": [
    "offered_buffer_holds_no_unread_frame",
    "offered_buffer_not_in_readers_hand",
    "offered_buffer_two_slots_refuted"
   ],
   "note": "Proved for every capacity and every history. Beyond the statement: the buffer is not the one in the reader's hands for three or more slots; with two slots and a forced write it is (refuted)."
  },
  {
   "property": "C03",
   "status": "partial",
   "theorems": [
    "forced_writes_drop_only_newest",
    "forced_writes_two_slots_partial",
    "forced_write_returns",
    "forced_writes_account_for_every_frame",
    "forced_write_one_slot_refuted",
    "zero_slot_queue_refuted"
   ],
   "note": "Proved for three or more slots; for two slots all but reading through a kept pointer; one slot: the forced request never returns; zero slots: division by zero."
  },
  {
   "property": "C04",
   "status": "partial",
   "theorems": [
    "concurrent_reader_gets_published_frames_in_order",
    "concurrent_reader_sees_whole_frames",
    "concurrent_queue_never_stuck",
    "concurrent_forced_writer_refuted",
    "concurrent_forced_writer_partial"
   ],
   "note": "All interleavings of loads and stores (sequentially consistent memory) for a non-forcing writer; a forcing writer is refuted by a schedule."
  },
  {
   "property": "C05",
   "status": "partial",
   "theorems": [
    "queue_never_used_after_free",
    "queue_freed_exactly_once",
    "overlapping_disconnects_leak_refuted",
    "disconnect_while_processing_refuted",
    "run_while_connecting_refuted"
   ],
   "note": "Every interleaving of the two ends' calls with at most one disconnect running at a time: no use after free, exactly one free. Overlapping disconnects leak; a disconnect that overlaps another thread's frame processing, or a reading filter run during connect, is a use after free: refuted."
  },
  {
   "property": "C06",
   "status": "partial",
   "theorems": [
    "sharing_filters_see_every_frame_once",
    "sharing_filters_get_the_same_frame",
    "sharing_filters_never_crash",
    "leaving_mid_round_stalls_refuted",
    "release_without_frame_refuted",
    "after_the_last_filter_nothing_leaves"
   ],
   "note": "Proved for every history in which filters only release frames they hold and leave between rounds; leaving mid-round stalls the reader and a release without a frame dereferences NULL: refuted."
  },
  {
   "property": "C07",
   "status": "partial",
   "theorems": [
    "audio_reframing_loses_nothing",
    "refused_frame_leaves_silence_refuted",
    "low_rate_buffer_refuted"
   ],
   "note": "Proved for every history of frames that arrive on time, any sizes. 'A refused frame changes nothing' is refuted when silence was inserted first; sample rates below 1000 Hz divide by zero."
  },
  {
   "property": "C08",
   "status": "partial",
   "theorems": [
    "audio_buffer_follows_the_timeline_partial",
    "audio_long_gap_refuted",
    "refused_frame_leaves_silence_refuted"
   ],
   "note": "Refinement to the time line for arbitrary time stamps; gaps between 100 ms and the discontinuity limit read out of bounds (refuted for every such gap)."
  },
  {
   "property": "C09",
   "status": "partial",
   "theorems": [
    "sliced_queue_delivers_slices_in_order",
    "sliced_queue_keeps_earlier_pieces_partial",
    "sliced_queue_drops_earlier_piece_refuted",
    "sliced_queue_long_slice_refuted",
    "sliced_queue_one_slot_refuted",
    "sliced_queue_needs_space"
   ],
   "note": "Refinement to a bounded list of pieces for all histories, capacities >= 2 and slices that fit; over-long slices overflow, one-slot queues hang, and the newest earlier piece may be replaced: refuted."
  },
  {
   "property": "C10",
   "status": "proved",
   "theorems": [
    "filter_runs_on_one_worker"
   ],
   "note": "Every interleaving of any number of workers, additions and removals; critical sections under the pool mutex are atomic steps."
  },
  {
   "property": "C100",
   "status": "partial",
   "theorems": [
    "C100_only_who_is_there",
    "C100_once",
    "C100_who_is_told",
    "C100_all_there_partial",
    "C100_same_number_refuted",
    "C100_other_leaves_refuted"
   ],
   "note": "Nobody who has gone is told of and nobody twice, for every history; all who are there are told of while no two of them have the same number; exact condition given; refuted for equal numbers. Reports taken while the transmitter works on its register are not modelled."
  },
  {
   "property": "C101",
   "status": "proved",
   "theorems": [
    "C101_own_ports",
    "C101_first_free_port",
    "C101_port_given_back"
   ],
   "note": "That a port of a server is not shared is taken from live555."
  },
  {
   "property": "C102",
   "status": "partial",
   "theorems": [
    "C102_answered_at_once",
    "C102_tells_partial",
    "C102_before_any_frame_refuted",
    "C102_reads_past_refuted",
    "C102_writes_past_refuted"
   ],
   "note": "Every request is answered, and with the configuration of the last frame that came during the start, in every history; refuted before the first frame (arbitrary text, kept for ever), for the two-byte array (three bytes written past it), and, by aac_channels_refuted, for four and more channels."
  },
  {
   "property": "C103",
   "status": "partial",
   "theorems": [
    "C103_stop_ends",
    "C103_nothing_afterwards",
    "C103_at_most_one_more",
    "C103_one_more_refuted",
    "C103_notification_missed_refuted",
    "C103_notified"
   ],
   "note": "Termination, the state at return and the bound of one more round are proved for every number of workers and every schedule; that rounds of filters end is assumed here. That waiting workers are woken at once is refuted: the notification can be missed."
  },
  {
   "property": "C104",
   "status": "partial",
   "theorems": [
    "C104_no_bad_memory",
    "C104_no_leak",
    "C104_nothing_left",
    "C104_last_unit_releases",
    "C104_safe_partial",
    "C104_empty_packet_refuted"
   ],
   "note": "Full statement is false of the code in one case: a packet without data on a split Annex B stream reads at NULL (C104_empty_packet_refuted). C104_safe_partial: no other history goes wrong. Assumed of libav: a packet without data has no memory; the filter allocates only when it answers more than 0."
  },
  {
   "property": "C105",
   "status": "partial",
   "theorems": [
    "C105_own_segment",
    "C105_refused",
    "C105_created",
    "C105_destroyed",
    "C105_nothing_left_partial",
    "C105_attach_failure_refuted",
    "C105_far_keys_refuted",
    "C105_key_zero_refuted",
    "C105_keys_differ_partial"
   ],
   "note": "Full statement is false of the code when attaching a new segment fails: it stays and blocks its key (C105_attach_failure_refuted; C105_nothing_left_partial for histories without that). Keys differ only by 32 bits (C105_far_keys_refuted) and key 0 is never refused (C105_key_zero_refuted). The kernel is its documented contract; other processes remove only what they made."
  },
  {
   "property": "C106",
   "status": "partial",
   "theorems": [
    "C106_passes_on",
    "C106_connected_in_order_partial",
    "C106_room",
    "C106_output_first_refuted",
    "C106_origin_gone_refuted",
    "C106_larger_stream_refuted",
    "C106_other_codec_refuted",
    "C106_audio_refuted"
   ],
   "note": "Contents, order and count proved for every history; safety, codec and size of the queue if the input is connected first and the stream does not change. Output first, origin destroyed, another stream and audio are refuted."
  },
  {
   "property": "C107",
   "status": "partial",
   "theorems": [
    "C107_some_stream_of_the_port",
    "C107_first_time_partial",
    "C107_same_stream_partial",
    "C107_no_sink_no_output",
    "C107_port_again_refuted",
    "C107_refused_for_ever_refuted",
    "C107_two_sessions_refuted"
   ],
   "note": "Proved the first time an output is asked for and whenever all streams the port ever had are alike; for every history the output is for some stream the port had. Ports used again, unknown codecs and two sessions on a port are refuted."
  },
  {
   "property": "C108",
   "status": "partial",
   "theorems": [
    "C108_description_whole",
    "C108_nothing_else_kept",
    "C108_producer_safe",
    "C108_reads_what_was_given_partial",
    "C108_new_headers_refuted",
    "C108_description_gone_refuted",
    "C108_room_after_refuted",
    "C108_sender_partial",
    "C108_sender_gone_refuted"
   ],
   "note": "Proved: the description tells the last data whole, nothing else is kept, the producer's side is never undefined, and the decoder reads what was given as long as the producer does nothing. Refuted for every history: new headers, a freed description, room after the data."
  },
  {
   "property": "C11",
   "status": "partial",
   "theorems": [
    "wakeup_of_idle_filter_kept_partial",
    "wakeup_kept_by_single_worker",
    "wakeup_is_scheduled",
    "idle_worker_serves_first_filter",
    "lost_wakeup_refuted",
    "reused_identifier_not_scheduled_refuted"
   ],
   "note": "Full property is false: TaskQueue::pop removes the front instead of the picked job (lost_wakeup_refuted), and a stale entry swallows the first wake-up of a filter reusing an identifier. Proved for idle filters, for one worker, and for scheduling and service of wake-ups."
  },
  {
   "property": "C12",
   "status": "partial",
   "theorems": [
    "removal_waits_for_execution",
    "removed_filter_stays_out_partial",
    "removed_filter_runs_refuted",
    "removed_filter_use_after_free_refuted"
   ],
   "note": "Full property is false (stale queue entries are executed, freed memory is used). Proved: removeTask waits for execution to end, unconditionally; and the full claim for callers that remove only unscheduled, idle filters."
  },
  {
   "property": "C13",
   "status": "partial",
   "theorems": [
    "commands_taken_exactly_once",
    "commands_run_in_time_order_partial",
    "commands_taken_sorted",
    "due_command_is_taken",
    "zero_delay_runs_early_refuted",
    "equal_timestamps_any_order_refuted"
   ],
   "note": "Exactly-once, time order and positive delays proved for all histories; a zero-delay command may run up to 1 ms early if the clock is set back (truncation), and commands with equal timestamps have no order."
  },
  {
   "property": "C14",
   "status": "partial",
   "theorems": [
    "identifiers_unique",
    "taken_identifier_refused",
    "path_of_unknown_filter_refused",
    "used_filter_not_removed",
    "registered_paths_complete_partial",
    "shared_mid_filter_removed_refuted"
   ],
   "note": "Identifiers are unique in both tables for every history of control commands, taken identifiers and paths over unknown filters are refused, a filter used by a path cannot be removed. Partial: that a registered path stays complete is proved for histories whose mid filters are not shared between paths (stop not giving up half-way); the unrestricted claim is refuted."
  },
  {
   "property": "C15",
   "status": "partial",
   "theorems": [
    "failed_filter_command_changes_nothing",
    "failed_path_command_keeps_rest_partial",
    "create_path_keeps_connections",
    "failed_create_path_stays_registered_refuted",
    "failed_create_path_leaves_connections_refuted",
    "failed_remove_path_disconnects_refuted",
    "self_path_deadlocks"
   ],
   "note": "Failed filter commands change nothing; failed path commands leave filters, other paths and (createPath) existing connections. Partial: the code leaves a failed path registered (with a NULL input, so that removing it crashes), keeps hops it made and does not undo the disconnection of a failed removePath: refuted. A path from a filter to itself hangs."
  },
  {
   "property": "C16",
   "status": "partial",
   "theorems": [
    "stop_releases_everything_once",
    "stop_without_paths",
    "stop_with_one_path",
    "stop_with_two_paths_never_succeeds",
    "stop_with_two_paths_use_after_free_refuted",
    "no_queue_or_filter_misuse",
    "paths_not_used_after_free",
    "filters_accounted"
   ],
   "note": "Queues and filters are never used or deleted after deletion, for every history; every filter is accounted for; a successful stop deletes each filter and path exactly once; stop succeeds without paths and with one removable path. Partial: with two or more paths stop never succeeds and reads a deleted path: refuted."
  },
  {
   "property": "C17",
   "status": "partial",
   "theorems": [
    "input_identifiers_distinct",
    "inputs_within_limit_partial",
    "shared_input_exceeds_limit_refuted",
    "refused_connection_keeps_inputs_partial",
    "refused_connection_registers_input_refuted"
   ],
   "note": "Input and output identifiers of a filter are distinct for every history. Partial: the number of inputs stays within the declared one if paths start at free outputs, and a refused connection keeps the inputs if the filter class accepts it; both claims in full are refuted."
  },
  {
   "property": "C18",
   "status": "partial",
   "theorems": [
    "written_json_parses_back_partial",
    "texts_differ",
    "any_text_survives",
    "backslash_at_end_refuted",
    "quote_in_name_refuted",
    "exponent_refused_refuted",
    "not_json_accepted_refuted",
    "cut_text_loses_members_refuted",
    "integers_survive",
    "comments_are_skipped",
    "quote_in_comment_refuted"
   ],
   "note": "Round trip proved for every tree whose strings do not end in a backslash and whose names need no escaping; the remaining values are refuted by witnesses."
  },
  {
   "property": "C19",
   "status": "partial",
   "theorems": [
    "every_message_decided",
    "messages_independent_partial",
    "refused_message_spoils_next_refuted",
    "refused_message_changes_next_refuted",
    "parser_never_recovers_refuted",
    "reading_always_defined",
    "unanswered_changes_nothing",
    "refused_text_unanswered_refuted",
    "wrong_shape_terminates_refuted",
    "refused_command_runs_later_refuted"
   ],
   "note": "Parsing is total and never undefined for all histories; independence holds until a message is refused, and is refuted afterwards; refused texts are never answered and some correct JSON ends the program."
  },
  {
   "property": "C20",
   "status": "partial",
   "theorems": [
    "sample_format_names",
    "audio_codec_names",
    "video_codec_names",
    "filter_type_names",
    "role_names",
    "transport_format_names",
    "pixel_format_names_partial",
    "pixel_format_names_refuted",
    "libav_video_names",
    "libav_audio_names",
    "bytes_per_sample"
   ],
   "note": "Faithful for sample formats, audio and video codecs, filter types, roles and transport formats; pixel format names do not convert back (refuted)."
  },
  {
   "property": "C21",
   "status": "partial",
   "theorems": [
    "video_init_wellformed",
    "audio_init_wellformed_partial",
    "audio_rate_refuted",
    "long_audio_config_refuted",
    "wide_picture_refuted",
    "next_track_identifier_refuted",
    "video_init_constants",
    "audio_init_constants"
   ],
   "note": "Byte-level model of the init segment writer; parses into the required box tree with the stream's parameters. Video proved for every configuration, audio when the decoder configuration is at most 104 bytes. Refuted: mp4a sample-rate field, long audio configurations, pictures wider than 65535, next_track_ID."
  },
  {
   "property": "C22",
   "status": "partial",
   "theorems": [
    "segments_hold_the_pictures",
    "audio_segments_hold_the_frames",
    "audio_frames_conserved",
    "big_segment_overruns_refuted",
    "segment_clock_video",
    "segment_clock_audio"
   ],
   "note": "Every segment file demultiplexes to exactly the samples fed, with sizes, durations, sync flags, sequence number, decode time and an index covering the whole fragment, as long as the segment's buffers are not overrun; the overrun is unchecked in the code (big_segment_overruns_refuted)."
  },
  {
   "property": "C23",
   "status": "partial",
   "theorems": [
    "segments_start_with_key_frames",
    "segments_are_contiguous_partial",
    "segments_close_on_time_partial",
    "segments_nearly_last_the_target",
    "target_not_reached_refuted",
    "slow_stream_never_cut_refuted",
    "no_decode_times_refuted",
    "reordered_times_refuted",
    "audio_time_wraps_refuted"
   ],
   "note": "Segments start with key frames and are contiguous for streams without reordering; the closing rule is exact. Refuted: closing before the target, streams slower than the target, reordered pictures, 32-bit audio time. Streams without decoding times never give a segment (no_decode_times_refuted)."
  },
  {
   "property": "C24",
   "status": "partial",
   "theorems": [
    "samples_hold_the_slices_partial",
    "key_marks_partial",
    "suffix_information_hides_key_picture_refuted",
    "other_units_lost_refuted",
    "big_slice_left_out_refuted",
    "short_frame_reads_outside_refuted"
   ],
   "note": "Proved for every stream of separable access units with any contents, start codes, times and buffer leftovers: each sample holds exactly the slices of its access unit in order, with times and size. Missing because false of the code: unknown slice types and SEI are dropped, oversized slices are dropped, and a key picture followed by SEI is not marked; a frame shorter than a stale start code reads out of bounds."
  },
  {
   "property": "C25",
   "status": "partial",
   "theorems": [
    "avc_config_holds_the_sets_partial",
    "avc_profile_refuted",
    "hevc_config_holds_the_sets_partial",
    "hevc_level_refuted",
    "avc_config_is_the_latest_pair_partial",
    "hevc_config_is_the_latest_triple_partial",
    "stale_picture_set_refuted"
   ],
   "note": "Proved: both configuration records parse back to exactly the parameter sets, and follow the latest pair or triple of the stream. Refuted: AVC profile and level bytes are taken one byte too early, HEVC profile and level are constants, a lone PPS leads to mixed pairs."
  },
  {
   "property": "C26",
   "status": "partial",
   "theorems": [
    "aac_config_decodes_partial",
    "aac_channels_refuted"
   ],
   "note": "Proved for every history and every header with channel configuration 0 to 3; configurations 4 to 7 are always announced wrongly (refuted)."
  },
  {
   "property": "C27",
   "status": "partial",
   "theorems": [
    "manifest_and_files_agree_partial",
    "manifest_is_the_window",
    "window_is_newest",
    "leavers_reported_partial",
    "window_length",
    "first_segment_never_deleted_refuted",
    "shrunk_window_leaves_files_refuted",
    "late_stream_misses_files_refuted",
    "waiting_segment_lost_refuted"
   ],
   "note": "The manifest on disk is the window of newest publications and the segment files are exactly those listed, for any setup and any rounds; needs distinct non-zero start times (a segment starting at 0 is never deleted), and one deletion report per publication only while the window is not shrunk; both refuted otherwise. Late streams and overwritten waiting segments refuted."
  },
  {
   "property": "C28",
   "status": "partial",
   "theorems": [
    "mixer_output_within_full_scale",
    "channel_gains_within_unit",
    "single_input_passes_through",
    "unit_gain_is_transparent",
    "single_input_emitted_partial",
    "muted_input_silent_partial",
    "s16_round_trip",
    "master_gain_not_clamped_refuted",
    "muted_input_changes_output_refuted",
    "full_scale_has_no_s16_refuted"
   ],
   "note": "Exact IEEE single precision. Full scale holds for every history including resynchronisations; pass-through of a single input is proved for histories without resynchronisation (a resynchronisation mixes stale samples, refuted witness under C29). Findings: master gain not clamped, muted input re-compresses a loud position, float 1.0 has no 16-bit value."
  },
  {
   "property": "C29",
   "status": "partial",
   "theorems": [
    "mixer_places_samples_partial",
    "late_frames_ignored_partial",
    "resync_mixes_old_samples_refuted",
    "stale_samples_emitted_refuted",
    "earlier_frame_moves_time_back_refuted",
    "early_input_blocks_others_refuted"
   ],
   "note": "Proved for every history in which the mixer does not resynchronise, no frame precedes the origin and fewer than 2^32 samples pass. The claim is false otherwise: a resynchronisation keeps stale samples and output times can go back (refuted)."
  },
  {
   "property": "C30",
   "status": "partial",
   "theorems": [
    "mixer_draws_in_layer_order",
    "topmost_channel_wins",
    "mixer_time_is_latest",
    "documented_channels_always_mixed_partial",
    "top_layer_never_drawn_refuted",
    "tiny_channel_throws_refuted",
    "channel_right_of_layout_throws_refuted",
    "mixer_time_at_fixed_rate"
   ],
   "note": "Proved for every reachable configuration and every input set that yields a picture. Channels as documented always yield one. Refuted: layer = number of channels is accepted and never drawn; sub-pixel channels and channels right of the layout are accepted and then throw."
  },
  {
   "property": "C31",
   "status": "partial",
   "theorems": [
    "splitter_gives_the_rectangle_partial",
    "splitter_never_throws",
    "splitter_defined_partial",
    "crop_sum_overflows_refuted",
    "announced_length_is_a_third_refuted",
    "reconfigure_overwrites_output_refuted"
   ],
   "note": "Rectangle, bounds and untouched memory proved for every history. The announced length is a third of the data (refuted), accepted crops can overflow int, and reconfiguring with the same size overwrites the delivered picture (refuted)."
  },
  {
   "property": "C32",
   "status": "partial",
   "theorems": [
    "C32_fragments_partial",
    "C32_reassembly_partial",
    "C32_last",
    "C32_header_partial",
    "C32_first_packet_overflows_refuted",
    "C32_rate_refuted"
   ],
   "note": "Packets are contiguous, within their space, reassemble to the frame in any arrival order with duplicates, only the last is marked, header fields decode. False of the code: the first packet's memmove writes the whole frame plus 48 bytes whatever the space (proved for every frame), and rates of 1024 or more spill into the interlacing field."
  },
  {
   "property": "C33",
   "status": "partial",
   "theorems": [
    "C33_au_header_partial",
    "C33_au_header_large_refuted",
    "C33_ug_audio_header",
    "C33_buffer_numbers",
    "C33_pcm_order"
   ],
   "note": "Headers decode to what was sent; the AU size only below 8192 bytes (announced modulo 8192 otherwise, proved). PCM samples arrive in network order."
  },
  {
   "property": "C34",
   "status": "partial",
   "theorems": [
    "C34_raw_complete_frames_partial",
    "C34_raw_all_frames",
    "C34_h264_complete_pictures_partial",
    "C34_h264_all_but_last",
    "C34_h264_header_refuted",
    "C34_other_units_refuted",
    "C34_oversize_refuted",
    "C34_wide_refuted",
    "C34_no_start_code_ignored"
   ],
   "note": "Any interleaving of byte stores and byte loads. Raw video: copies are complete input frames, in order, at most once (theorem restricted to frames that fit the segment and header fields). H.264: payloads are complete pictures in order, but the header is the next picture's (refuted part); other unit types are dropped; frames larger than the segment overflow it; dimensions are kept modulo 2^16."
  },
  {
   "property": "C35",
   "status": "partial",
   "theorems": [
    "C35_reads_inside",
    "C35_payload_fits",
    "C35_emulation",
    "C35_emulation_accepts",
    "C35_emulation_single_zero_refuted",
    "C35_ue",
    "C35_se",
    "C35_u",
    "C35_write_ue_partial",
    "C35_write_se_partial",
    "C35_long_code_refuted",
    "C35_size_partial",
    "C35_size_progressive_420",
    "C35_interlaced_crop_refuted",
    "C35_rate_partial",
    "C35_rate_refuted",
    "C35_scaling_list_refuted",
    "C35_profile_refuted",
    "C35_array_overrun_refuted"
   ],
   "note": "Safety for every byte string; emulation prevention, Exp-Golomb and fixed fields read back at every position; picture size for every SPS of the standard's syntax (VUI, HRD, POC included) without scaling lists, profiles on which code and standard agree and cropping in units of two. Refuted: interlaced cropping, scaling lists never read (null pointers), newer high profiles, array overruns and signed overflow on hostile input, integer frame rate, writer beyond 65534."
  },
  {
   "property": "C36",
   "status": "partial",
   "theorems": [
    "C36_parameter_sets_partial",
    "C36_size",
    "C36_overread_refuted",
    "C36_overread_bound",
    "C36_depends_on_memory_refuted",
    "C36_empty_unit_refuted"
   ],
   "note": "Every well-formed unit is recovered with all its bytes, last of each type kept, announced size is the length modulo 256 (right iff below 256). Reading always goes beyond the data (proved for every input), by at most three bytes."
  },
  {
   "property": "C37",
   "status": "partial",
   "theorems": [
    "C37_delivered_exactly",
    "C37_one_frame_per_unit_partial",
    "C37_no_bytes_lost",
    "C37_start_codes",
    "C37_short_last_unit_refuted",
    "C37_glued_refuted",
    "C37_no_start_code_refuted",
    "C37_large_unit_refuted",
    "C37_missing_time_refuted"
   ],
   "note": "Exact for every packet content: one frame per unit with four byte start code except that a unit starting within the last seven bytes of its packet stays glued to the previous one (refuted part); packets without start code and units larger than the frame are out-of-bounds accesses; packets without time are stamped with ticks."
  },
  {
   "property": "C38",
   "status": "partial",
   "theorems": [
    "C38_reference_never_back",
    "C38_frame_rate_kept",
    "C38_rounds",
    "C38_single_input",
    "C38_inputs_in_order",
    "C38_synchronised",
    "C38_progress",
    "C38_two_inputs_in_step_partial",
    "C38_three_inputs_refuted",
    "C38_full_input_refuted",
    "C38_minus_one_refuted",
    "C38_scope_refuted",
    "C38_never_run_for_nothing"
   ],
   "note": "Reference time, pacing, exact rounds, FIFO per input, synchronisation of two inputs and progress are proved for every history of arrivals, rounds and changes of inputs. Synchronisation within the margin for every number of inputs is false of the code (three inputs, full input, time -1, frames out of scope with a frame time): refuted with witnesses."
  },
  {
   "property": "C39",
   "status": "partial",
   "theorems": [
    "C39_times_of_own_picture",
    "C39_decode_time",
    "C39_decode_times_increase",
    "C39_records_bounded",
    "C39_first_decode_time_refuted",
    "C39_decode_time_back_refuted",
    "C39_records_kept_refuted",
    "C39_too_many_units_refuted",
    "C39_failed_open_refuted",
    "C39_every_coded_delivered",
    "C39_given"
   ],
   "note": "Own times, decode times and their order proved for every history and every codec that keeps to the stated contract; records bounded for a codec of constant delay. False of the code, with witnesses: decode time zero before the first dts and after reopening, records leaked at every reopening, more than sixteen units stop delivery for good, a failed opening is not retried."
  },
  {
   "property": "C40",
   "status": "proved",
   "theorems": [
    "segment_names_distinct",
    "init_names_distinct",
    "init_never_overwrites_media",
    "manifest_never_overwritten",
    "template_names_the_file",
    "dollar_in_base_name_refuted"
   ],
   "note": "For every folder, base name, int reader identifier and 64-bit start time; plus the manifest template names the file (base names without a dollar sign)."
  },
  {
   "property": "C41",
   "status": "partial",
   "theorems": [
    "C41_bookkeeping_partial",
    "C41_identifier_in_use",
    "C41_add",
    "C41_add_all_inputs_partial",
    "C41_remove_input_partial",
    "C41_remove_connection",
    "C41_no_crash_partial",
    "C41_lost_objects",
    "C41_mpegts_input_dropped_refuted",
    "C41_refused_input_crash_refuted",
    "C41_unused_input_kept_refuted",
    "C41_stale_source_refuted",
    "C41_lost_object_refuted",
    "C41_minus_one_refuted",
    "C41_add_input",
    "C41_mpegts_accepted_partial"
   ],
   "note": "Proved for every history of add/remove requests. Distinct identifiers, existing inputs, removal of an input removes and destroys exactly the connections that use it. Refuted parts: refused MPEG-TS RTP requests lose the object, an unsupported MPEG-TS input is silently dropped, input id -1 is treated as none, removing an unused input reports failure and leaves its source, removing a refused input dereferences null. live555 is one success flag per request."
  },
  {
   "property": "C42",
   "status": "partial",
   "theorems": [
    "C42_start_code_partial",
    "C42_bare_partial",
    "C42_plain",
    "C42_short_frame_refuted",
    "C42_injected_partial",
    "C42_injected_small_refuted"
   ],
   "note": "Delivered plus truncated equals the size for units behind a start code, bare units of four bytes or more and plain frames; injection adds 0 0 0 1. False for frames shorter than a start code with stale bytes behind, and for spaces below four bytes."
  },
  {
   "property": "C43",
   "status": "partial",
   "theorems": [
    "undisturbed_fill_counter_exact",
    "overlapping_fill_counter_refuted"
   ],
   "note": "Exact when the compound assignments do not overlap; overlapping ones lose updates: refuted."
  },
  {
   "property": "C44",
   "status": "partial",
   "theorems": [
    "request_carried_out",
    "only_commands_change_the_pipeline",
    "identifiers_unique_for_any_bytes",
    "filter_event_delivered",
    "long_message_cut_refuted",
    "refused_command_runs_later_refuted"
   ],
   "note": "Proved for messages of at most 16383 bytes read by a parser that has refused nothing; longer messages are cut, and leftovers of refused messages are carried out (refuted)."
  },
  {
   "property": "C45",
   "status": "partial",
   "theorems": [
    "C45_at_most_once",
    "C45_nal_at_most_once_partial",
    "C45_nal_twice_refuted",
    "C45_not_lost"
   ],
   "note": "Proved for every history for plain streams; for H.264/H.265 only if data is never requested before the frame is collected, otherwise it is delivered twice (witness). Not lost: proved for both."
  },
  {
   "property": "C46",
   "status": "partial",
   "theorems": [
    "C46_pictures_partial",
    "C46_lengths",
    "C46_truncation_refuted",
    "C46_overflow_refuted"
   ],
   "note": "Pictures are the framed units between delimiters while they fit; lengths parse back. A picture that does not fit loses its last unit whole; with less than four bytes left the code writes beyond the space."
  },
  {
   "property": "C47",
   "status": "partial",
   "theorems": [
    "C47_intra_on_grid",
    "C47_first_picture",
    "C47_aligned",
    "C47_catches_up",
    "C47_request_kept",
    "C47_request_lost_refuted",
    "C47_burst_refuted"
   ],
   "note": "Exact grid, alignment, catching up and requests kept proved for every answer of the codec. False of the code: bursts of intra pictures after a gap, request lost when the codec fails."
  },
  {
   "property": "C48",
   "status": "partial",
   "theorems": [
    "C48_refused_changes_nothing",
    "C48_refused_iff",
    "C48_accepted_sets",
    "C48_unpaced_lost_refuted",
    "C48_negative_refuted",
    "C48_high_rate_refuted"
   ],
   "note": "Proved for all reachable states and all requests of non-negative numbers; refuted: negative numbers accepted, pacing turned on again by an unrelated request, frame rates above a million turn pacing off."
  },
  {
   "property": "C49",
   "status": "partial",
   "theorems": [
    "C49_delivery_partial",
    "C49_first_frame_refuted",
    "C49_first_length_refuted",
    "C49_never_stalls",
    "C49_next_request"
   ],
   "note": "Proved when no request is pending at the moment of connection; otherwise the first frame has the length and time of the data but none of their bytes, and its length may exceed the frame (refuted, exact)."
  },
  {
   "property": "C50",
   "status": "partial",
   "theorems": [
    "C50_safe_partial",
    "C50_reconnect_partial",
    "C50_reconnect_refuted",
    "C50_awaited_refuted",
    "C50_removal_refuted",
    "C50_bye_refuted"
   ],
   "note": "Safe for histories without end of stream, without removal while connected and without freeing a queue whose data are awaited; each of the excluded cases is refuted for every reachable state, and reconnecting after a disconnection while data are awaited never delivers again."
  },
  {
   "property": "C51",
   "status": "partial",
   "theorems": [
    "C51_described_partial",
    "C51_refused",
    "C51_mp3_refuted",
    "C51_inject_refuted",
    "C51_negative_refuted"
   ],
   "note": "Round trip with an independent SDP reader for names without separators and non-negative numbers; refused exactly for unknown codecs. Names are not checked, negative numbers wrap, and mp3 loses rate and channels (refuted)."
  },
  {
   "property": "C52",
   "status": "partial",
   "theorems": [
    "C52_rename_partial",
    "C52_rename_refuted"
   ],
   "note": "Proved for CR LF line ends; with LF only, all lines before and after the name run together (refuted for every such description)."
  },
  {
   "property": "C53",
   "status": "partial",
   "theorems": [
    "C53_register",
    "C53_taken_name",
    "C53_accepted",
    "C53_remove_partial",
    "C53_remove_unknown",
    "C53_remove_streams_refuted",
    "C53_refused_refuted",
    "C53_remove_early_refuted",
    "C53_remove_shut_refuted",
    "C53_unparsed_refuted",
    "C53_described"
   ],
   "note": "Unique names, refusal of taken names, accepted requests and removal of RTSP sessions are proved exactly. Refuted: every session made from a description crashes the receiver when removed; a refused description stays registered; removal before the server answers or after the stream was shut down crashes; an unparsable description crashes."
  },
  {
   "property": "C54",
   "status": "partial",
   "theorems": [
    "C54_in_time_partial",
    "C54_default",
    "C54_one_second_refuted",
    "C54_long_refuted"
   ],
   "note": "Proved for timeouts from 2 to 4299 seconds and for servers that announce none. Refuted for one second, and beyond 4299 seconds, where the 32-bit delay wraps and requests flood the server."
  },
  {
   "property": "C55",
   "status": "partial",
   "theorems": [
    "C55_receiver_partial",
    "C55_jitter_refuted",
    "C55_negative_loss_refuted",
    "C55_sender_partial",
    "C55_sender_loss_refuted",
    "C55_sender_unit_refuted",
    "C55_sender_rate_partial",
    "C55_sender_rate_refuted"
   ],
   "note": "Exact rationals instead of doubles. Each measured value is exact; the extremes are right unless every value lies beyond the constant the extreme starts with, refuted there; the sender's loss percentage is a share of 256 (refuted) and its bit rate wraps at 2^29 bytes a second (refuted)."
  },
  {
   "property": "C56",
   "status": "partial",
   "theorems": [
    "C56_pace_partial",
    "C56_catch_up_partial",
    "C56_jump_refuted"
   ],
   "note": "Proved while no measurement is as late as a second, and catching up after less than half an hour; refuted for clock jumps of more than 2^31 microseconds."
  },
  {
   "property": "C57",
   "status": "partial",
   "theorems": [
    "C57_made",
    "C57_when_partial",
    "C57_overflow_refuted",
    "C57_full_hd_refuted",
    "C57_rate",
    "C57_first_format_refuted",
    "C57_format_refuted",
    "C57_leak_refuted"
   ],
   "note": "Sizes, formats, lengths, conversions and rate proved for every history. False of the code: slot overflow for pictures above 6220800 bytes, uninitialised first format, YUVJ420P not requestable, refused P_NONE takes effect, contexts leak."
  },
  {
   "property": "C58",
   "status": "partial",
   "theorems": [
    "C58_delivered_partial",
    "C58_ends_partial",
    "C58_recovers_partial",
    "C58_unsupported_refuted",
    "C58_wrong_decoder_refuted",
    "C58_missing_codec_refuted",
    "C58_hang_refuted",
    "C58_overflow_refuted",
    "C58_one_picture_refuted",
    "C58_delay_refuted"
   ],
   "note": "Proved for offered codecs that libav has: right decoder, stamps of the frame decoded in the round, buffer bounds, no crash, termination when calls take bytes, recovery from errors. False of the code: unsupported or missing codecs crash or reach the wrong decoder, zero-byte calls hang, later pictures of a frame are lost, delays shift times, large pictures overflow."
  },
  {
   "property": "C59",
   "status": "partial",
   "theorems": [
    "C59_delivered_partial",
    "C59_good_partial",
    "C59_conversion_partial",
    "C59_conversion_fixed_refuted",
    "C59_request_refuted",
    "C59_repeat_refuted",
    "C59_reopen_refuted",
    "C59_unsupported_refuted",
    "C59_unsupported_first_refuted",
    "C59_missing_codec_refuted",
    "C59_unknown_format_refuted",
    "C59_hang_refuted",
    "C59_overflow_refuted",
    "C59_channels_refuted",
    "C59_bad_request_refuted"
   ],
   "note": "Proved for sound settings kept since connection and frames of codecs the library has: right decoder, stamps, first block of each packet, bounds, no crash, termination; the right conversion when channels, rate and decoded format do not change. False of the code: conversions never change once set up, packets without samples repeat the previous ones, failed openings are final, unsupported, missing and unknown formats crash or reach the wrong decoder, zero-byte calls hang, wider samples or more than two channels overrun the frame."
  },
  {
   "property": "C60",
   "status": "partial",
   "theorems": [
    "C60_configured_partial",
    "C60_guarded",
    "C60_slot",
    "C60_queue",
    "C60_exact_partial",
    "C60_nothing_lost_partial",
    "C60_pcm_refuted",
    "C60_unlisted_refuted",
    "C60_final_refuted",
    "C60_mp3_refuted",
    "C60_padding_refuted",
    "C60_longer_refuted",
    "C60_backlog_refuted",
    "C60_conversion_fixed_refuted",
    "C60_init_final_refuted",
    "C60_low_rate_refuted"
   ],
   "note": "Proved: the exact condition under which a request is accepted; only open encoders are connected; with equal rates exactly the converted samples are encoded, with their stamps; with any rates no converted sample is lost or moved; a slot is always found. False of the code: requests are final, PCM and unlisted encoders cannot be configured, MP3 hangs, lowering the rate repeats samples, raising it delays without bound, conversions never change, low rates overrun the input frame."
  },
  {
   "property": "C61",
   "status": "partial",
   "theorems": [
    "C61_units_partial",
    "C61_none_announced",
    "C61_phantom_refuted",
    "C61_overflow_refuted",
    "C61_one_set_suffices_refuted",
    "C61_small_buffer_refuted",
    "C61_configuration_partial",
    "C61_early_connection_refuted",
    "C61_announced_sets_partial"
   ],
   "note": "Units, configuration data and end-to-end announcement proved under exact conditions; overrun, phantom frames, early connection and small buffers refute the full statement."
  },
  {
   "property": "C62",
   "status": "partial",
   "theorems": [
    "C62_stamps_partial",
    "C62_no_gaps",
    "C62_wakes",
    "C62_handed_on",
    "C62_destination_partial",
    "C62_marked_failure_refuted"
   ],
   "note": "Proved for work that marks frames only when it succeeds (true of every filter in the repository, by reading); the case outside it is refuted."
  },
  {
   "property": "C63",
   "status": "partial",
   "theorems": [
    "C63_delay_partial",
    "C63_windows",
    "C63_bounds_partial",
    "C63_recent_partial",
    "C63_uncounted_refuted",
    "C63_frozen_refuted",
    "C63_negative_refuted",
    "C63_report_partial",
    "C63_report_refuted"
   ],
   "note": "Exact report proved for non-negative delays; bounds and age; uncounted frames, clocks going back, negative and huge delays refute the full statement."
  },
  {
   "property": "C64",
   "status": "partial",
   "theorems": [
    "C64_configure_partial",
    "C64_holds_partial",
    "C64_never_unmapped_partial",
    "C64_answer_partial",
    "C64_release_partial",
    "C64_state_partial",
    "C64_event",
    "C64_reconfigure_refuted",
    "C64_zero_refuted",
    "C64_stop_refuted",
    "C64_unmap_refuted",
    "C64_leak_refuted",
    "C64_device_refuted",
    "C64_rate_refuted",
    "C64_codec_refuted",
    "C64_mjpeg_refuted"
   ],
   "note": "For histories in which munmap never fails. Refuted: reconfiguring while capturing, failures answered with success, leaked and unmapped buffers, rates of 0 or above 10^6, the device's name, the numerator of the rate, the stale codec, MJPEG."
  },
  {
   "property": "C65",
   "status": "partial",
   "theorems": [
    "C65_frame",
    "C65_picture_partial",
    "C65_wait",
    "C65_cadence",
    "C65_rate_partial",
    "C65_lock_partial",
    "C65_settle_partial",
    "C65_buffers_partial",
    "C65_nothing",
    "C65_lost_refuted",
    "C65_pause_refuted",
    "C65_planar_refuted",
    "C65_coded_refuted",
    "C65_overrun_refuted",
    "C65_from_new"
   ],
   "note": "Whole pictures only for YUYV and RGB24 without padding; the average for a camera not used before. Refuted: YUV420 and coded pictures, frame lengths, pictures beyond 1920x1080, lost buffers, pauses."
  },
  {
   "property": "C66",
   "status": "partial",
   "theorems": [
    "C66_released",
    "C66_history",
    "C66_sent",
    "C66_once",
    "C66_at_most_once",
    "C66_ends_partial",
    "C66_triggers_partial",
    "C66_ends_refuted",
    "C66_triggers_refuted",
    "C66_safe_partial",
    "C66_single_safe_partial",
    "C66_safe_refuted"
   ],
   "note": "Proved for all histories: frames taken are given back and none is kept after a round; at a playing input each is sent first, as-is frames exactly once. Ending and safety hold on stated conditions; that they hold always is refuted (silent playing input, 33rd input, pending trigger of a disconnected input)."
  },
  {
   "property": "C67",
   "status": "partial",
   "theorems": [
    "C67_found_partial",
    "C67_newest",
    "C67_refused_partial",
    "C67_removed_partial",
    "C67_reader_removed_partial",
    "C67_state_partial",
    "C67_duplicate_refuted",
    "C67_refused_refuted",
    "C67_client_joins_partial"
   ],
   "note": "Holds in full for histories in which no request asks for a name in use; in any history the newest connection of a name is the one found. Refuted for names in use: such a request is granted or, if refused, makes the stream unreachable, and later requests use a destroyed session."
  },
  {
   "property": "C68",
   "status": "proved",
   "theorems": [
    "concurrent_reader_gets_published_frames_in_order",
    "concurrent_reader_sees_whole_frames",
    "concurrent_queue_never_stuck"
   ],
   "note": "For sequentially consistent memory. The unconditional part of C04 (forcing writers are refuted there)."
  },
  {
   "property": "C69",
   "status": "proved",
   "theorems": [
    "forced_writes_drop_only_newest",
    "forced_write_returns",
    "forced_writes_account_for_every_frame"
   ],
   "note": "The part of C03 for three or more slots; the remaining sizes are refuted there."
  },
  {
   "property": "C70",
   "status": "proved",
   "theorems": [
    "identifiers_unique",
    "identifiers_unique_for_any_bytes",
    "only_commands_change_the_pipeline",
    "taken_identifier_refused",
    "path_of_unknown_filter_refused"
   ],
   "note": "The unconditional part of C14 and C44."
  },
  {
   "property": "C71",
   "status": "proved",
   "theorems": [
    "commands_taken_exactly_once",
    "commands_taken_sorted",
    "due_command_is_taken"
   ],
   "note": "The unconditional part of C13."
  },
  {
   "property": "C72",
   "status": "proved",
   "theorems": [
    "removal_waits_for_execution"
   ],
   "note": "The unconditional part of C12."
  },
  {
   "property": "C73",
   "status": "proved",
   "theorems": [
    "no_queue_or_filter_misuse",
    "filters_accounted",
    "stop_releases_everything_once"
   ],
   "note": "The unconditional part of C16. Deleted path objects are used (refuted there); this is about queues and filters."
  },
  {
   "property": "C74",
   "status": "proved",
   "theorems": [
    "every_message_decided",
    "reading_always_defined",
    "unanswered_changes_nothing"
   ],
   "note": "The unconditional part of C19."
  },
  {
   "property": "C75",
   "status": "proved",
   "theorems": [
    "sample_format_names",
    "audio_codec_names",
    "video_codec_names",
    "filter_type_names",
    "role_names",
    "transport_format_names"
   ],
   "note": "C20 without pixel formats, which are refuted there."
  },
  {
   "property": "C76",
   "status": "proved",
   "theorems": [
    "video_init_wellformed"
   ],
   "note": "The unconditional part of C21; audio tracks are treated there."
  },
  {
   "property": "C77",
   "status": "proved",
   "theorems": [
    "segments_start_with_key_frames",
    "segments_hold_the_pictures"
   ],
   "note": "The unconditional part of C22 and C23. Runs that overrun the buffer have no result in the model; they are refuted under C22."
  },
  {
   "property": "C78",
   "status": "proved",
   "theorems": [
    "mixer_output_within_full_scale",
    "channel_gains_within_unit"
   ],
   "note": "The unconditional part of C28."
  },
  {
   "property": "C79",
   "status": "proved",
   "theorems": [
    "mixer_draws_in_layer_order",
    "topmost_channel_wins",
    "mixer_time_is_latest"
   ],
   "note": "The unconditional part of C30."
  },
  {
   "property": "C80",
   "status": "proved",
   "theorems": [
    "C35_reads_inside",
    "C35_emulation",
    "C35_ue",
    "C35_se",
    "C35_u"
   ],
   "note": "The unconditional part of C35."
  },
  {
   "property": "C81",
   "status": "proved",
   "theorems": [
    "C45_at_most_once",
    "C45_not_lost"
   ],
   "note": "The unconditional part of C45 (sources of H.264 and H.265 may repeat, refuted there)."
  },
  {
   "property": "C82",
   "status": "proved",
   "theorems": [
    "C38_reference_never_back",
    "C38_frame_rate_kept",
    "C38_rounds",
    "C38_inputs_in_order"
   ],
   "note": "The unconditional part of C38."
  },
  {
   "property": "C83",
   "status": "proved",
   "theorems": [
    "C66_released",
    "C66_history",
    "C66_sent",
    "C66_once"
   ],
   "note": "The unconditional part of C66 (that every round ends is refuted there)."
  },
  {
   "property": "C84",
   "status": "proved",
   "theorems": [
    "C53_register",
    "C53_taken_name",
    "C53_accepted"
   ],
   "note": "The unconditional part of C53."
  },
  {
   "property": "C85",
   "status": "proved",
   "theorems": [
    "C37_no_bytes_lost",
    "C37_start_codes",
    "C37_delivered_exactly"
   ],
   "note": "The unconditional part of C37."
  },
  {
   "property": "C86",
   "status": "partial",
   "theorems": [
    "C86_nearest",
    "C86_text_is_read_as_nearest",
    "C86_value_arrives_close_partial",
    "C86_short_decimal_arrives",
    "C86_zero_arrives",
    "C86_value_arrives_refuted",
    "C86_text_is_a_number",
    "C86_text_is_a_number_refuted"
   ],
   "note": "Decimal texts of any length are read as the nearest float, values of six significant digits arrive exactly, texts of values from 0.0001 to 999999 are accepted by the parser. Other values arrive within one part in 197000 only (_partial); equality is refuted, and so is acceptance of small and large values."
  },
  {
   "property": "C87",
   "status": "partial",
   "theorems": [
    "C87_event_is_carried_out",
    "C87_nothing_else_partial",
    "C87_unknown_action_ignored",
    "C87_incomplete_event_ignored",
    "C87_incomplete_session_ignored",
    "C87_program_goes_on_refuted",
    "C87_wrong_kind_ends_refuted",
    "C87_call_arrives",
    "C87_text_arrives_refuted",
    "C87_video_mixer_keeps_rest",
    "C87_resampler_keeps_rest",
    "C87_splitter_keeps_rest_refuted",
    "C87_width_alone_is_set_refuted",
    "C87_time_is_a_number_refuted",
    "C87_signed_time"
   ],
   "note": "Missing: the whole property for parameters of any kind, false of the code (C87_program_goes_on_refuted, C87_wrong_kind_ends_refuted); splitter (C87_splitter_keeps_rest_refuted); texts with backslashes (C87_text_arrives_refuted); one side of a size (C87_width_alone_is_set_refuted). C87_nothing_else_partial: exactly what is asked, for parameters of the right kinds."
  },
  {
   "property": "C88",
   "status": "partial",
   "theorems": [
    "C88_manifest_tells_history",
    "C88_start_time_is_kept",
    "C88_frame_rate_is_told_refuted",
    "C88_greatest_width_refuted",
    "C88_empty_set_goes_refuted",
    "C88_times_match_scale_refuted",
    "C88_any_base_name_refuted"
   ],
   "note": "C88_manifest_tells_history is the whole property for proper arguments (32 bit ranges, base names without control characters), except that greatest width and height and frame rate are refuted, and so is the time scale when audio streams differ in rate."
  },
  {
   "property": "C89",
   "status": "partial",
   "theorems": [
    "C89_report_tells_partial",
    "C89_second_stream_told_refuted",
    "C89_streams_told_apart_refuted",
    "C89_setting_is_told_partial",
    "C89_everything_is_told_refuted",
    "C89_sent_back_changes_nothing",
    "C89_sent_back_same_state",
    "C89_splitter_sent_back_refuted",
    "C89_changed_report_obeyed_refuted",
    "C89_encoder_sent_back_state",
    "C89_report_is_read_back_partial",
    "C89_any_report_read_back_refuted",
    "C89_other_entries_kept",
    "C89_nothing_asked_nothing_changes"
   ],
   "note": "Told: for all filters modelled, transmitters with at most one stream per connection. Settings: events whose values the filter takes as they are. Read back: floats 0 or in [0.0001, 999999]. Outside, refuted: second stream of a connection, untold settings (mixer fps, audio encoder bitrate, resampler), splitter's report sent back, changed dasher reports, small gains."
  },
  {
   "property": "C90",
   "status": "partial",
   "theorems": [
    "C90_session_is_received_partial",
    "C90_types_told_apart",
    "C90_fixed_types_mean_the_stream",
    "C90_everything_received_refuted",
    "C90_codec_and_format_kept_refuted",
    "C90_received_stream_connects_partial",
    "C90_received_stream_connects_refuted",
    "C90_names_are_registered_partial",
    "C90_names_are_registered_refuted",
    "C90_bandwidth_announced_refuted",
    "C90_format_line_fits"
   ],
   "note": "sessions of any offered streams; exactly the streams in carried come back; refuted for L16, MP3, MPEG-TS, other G.711, 8 kHz mu-law, sample formats, two names, the bandwidth, and connecting a received PCM or mu-law stream"
  },
  {
   "property": "C91",
   "status": "partial",
   "theorems": [
    "C91_sends_where_told_partial",
    "C91_source_ports_are_a_pair_partial",
    "C91_odd_port_refused",
    "C91_sockets_are_closed",
    "C91_refused_streams",
    "C91_same_payload_as_rtsp",
    "C91_search_ends_partial",
    "C91_search_ends_refuted",
    "C91_source_ports_are_a_pair_refuted",
    "C91_wrong_port_refused_refuted",
    "C91_wrong_address_refused_refuted",
    "C91_everything_closed_refuted"
   ],
   "note": "standard RTP connections; refuted for ports outside the range, texts that are no address, hosts without a free pair, and closing of sinks and sources"
  },
  {
   "property": "C92",
   "status": "partial",
   "theorems": [
    "C92_streams_listed",
    "C92_failure_is_told",
    "C92_failure_delivers_nothing",
    "C92_careful_use_partial",
    "C92_reopening_refuted",
    "C92_unlisted_writer_refuted",
    "C92_raw_video_refuted",
    "C92_law_told_refuted",
    "C92_unsigned_told_refuted",
    "C92_deep_pcm_refuted",
    "C92_framed_streams_are_split_partial",
    "C92_one_unit_per_frame_refuted",
    "C92_filters_lost_exactly",
    "C92_filters_closed_partial",
    "C92_filters_closed_refuted"
   ],
   "note": "listing after any history proved; use proved for users who open only while nothing is connected and connect only listed streams other than raw video; the other uses, four kinds of audio names, framing of H.265 and the second filter refuted"
  },
  {
   "property": "C93",
   "status": "partial",
   "theorems": [
    "C93_capture_time_partial",
    "C93_capture_time_same_size_partial",
    "C93_sizes_refuted",
    "C93_leftover_refuted",
    "C93_asked_again"
   ],
   "note": "Holds up to the tolerance for frames of one size; in general up to the difference between the sizes of the frames put in and handed out, and if no frame is refused after its silence was put in. Both restrictions are shown necessary."
  },
  {
   "property": "C94",
   "status": "proved",
   "theorems": [
    "C94_path_connects",
    "C94_told",
    "C94_told_exists",
    "C94_one_source",
    "C94_one_input",
    "C94_removed",
    "C94_stays",
    "C94_line_stays"
   ],
   "note": "granted paths connect end to end; the told filters are the fed ones; removal frees the input; all other connections between filters still there survive every command"
  },
  {
   "property": "C95",
   "status": "partial",
   "theorems": [
    "C95_sessions_listed",
    "C95_all_sessions_told_refuted",
    "C95_rates_partial",
    "C95_mean_rate_below_greatest",
    "C95_losses",
    "C95_gaps_partial",
    "C95_mean_gap_refuted",
    "C95_nothing_lost_refuted",
    "C95_loss_percentage_refuted",
    "C95_late_stream_refuted",
    "C95_earlier_data_refuted",
    "C95_extremes_partial"
   ],
   "note": "Sessions and streams are listed exactly; rates, losses, gaps and jitters told are exact for every history. What is missing is false of the code and refuted: undescribed sessions are not told, late streams and earlier data disorder the mean rate, the mean gap divides by packets, an empty stream is told 100% loss, duplicates give a negative loss."
  },
  {
   "property": "C96",
   "status": "partial",
   "theorems": [
    "C96_conversation",
    "C96_all_are_asked",
    "C96_received_partial",
    "C96_removed_partial",
    "C96_safe_partial",
    "C96_end",
    "C96_long_refuted",
    "C96_nothing_to_play_refuted",
    "C96_port_in_use_refuted",
    "C96_removal_refuted",
    "C96_kept_alive_refuted",
    "C96_ends",
    "C96_told_of_removal",
    "C96_kept_alive",
    "C96_length"
   ],
   "note": "Exact for the conversation, the asking and the end; what is received and removed is proved while no stream that can be received has the port of another (refuted otherwise). Refuted: PLAY with nothing granted, ports in use, removal, long sessions, keep-alive after the end."
  },
  {
   "property": "C97",
   "status": "partial",
   "theorems": [
    "C97_all_answered_partial",
    "C97_messages",
    "C97_turned_away",
    "C97_port",
    "C97_served_for_ever_refuted",
    "C97_silent_client_refuted",
    "C97_pieces_refuted",
    "C97_impatient_client_refuted"
   ],
   "note": "Proved: well-behaved clients are all answered, in order, and leave no connection open, however many; the server is where the messages read lead; exactly when a client is turned away. False in general: unreadable messages keep their connections for ever, silent clients block, pieces are taken for messages, early leavers end the program (refuted)."
  },
  {
   "property": "C98",
   "status": "partial",
   "theorems": [
    "C98_one_of_each_partial",
    "C98_controller_comes_back_refuted",
    "C98_controllers_pipeline_refuted"
   ],
   "note": "Proved while the controller is not destroyed: nothing destroyed is given, the pipeline changes exactly when destroyed, the controller never. False after Controller::destroyInstance, and for the controller's pointer to a destroyed pipeline (refuted)."
  },
  {
   "property": "C99",
   "status": "partial",
   "theorems": [
    "C99_all_can_finish_partial",
    "C99_no_deadlock_partial",
    "C99_somebody_goes_on_partial",
    "C99_deadlock_stays",
    "C99_connect_to_itself_refuted",
    "C99_connect_again_refuted"
   ],
   "note": "Proved for any number of workers and any interleaving, when no filter is connected to itself and none is connected to, or made to share its reader with, a dasher that already reads from it; refuted for both. Stopping the pool is not modelled."
  }
 ]
}