{
 "claims": [
  {
   "property": "C01",
   "status": "proved",
   "theorems": [
    "C01_write_is_encoding",
    "C01_read_decodes",
    "C01_round_trip"
   ],
   "note": "Writer output is the AMF0 encoding of the values it was given, reader stores what its description asks for, and the composition; any buffer sizes, any split. Descriptions with the CONTEXT flag are outside C01 (C02-C04 cover them)."
  },
  {
   "property": "C02",
   "status": "proved",
   "theorems": [
    "C02_split_independence"
   ],
   "note": "Any two splits of the same bytes, any description, including failing reads."
  },
  {
   "property": "C03",
   "status": "proved",
   "theorems": [
    "C03_stores_fit",
    "C03_string_truncated"
   ],
   "note": "All stores of any read stay inside the cells; truncated strings are terminated and skipped in full."
  },
  {
   "property": "C04",
   "status": "proved",
   "theorems": [
    "C04_always_ends",
    "C04_crash_only_at_end",
    "C04_survives_refuted"
   ],
   "note": "Reader always ends. The full survival claim is refuted: an object cut behind an unknown key dereferences NULL. With type-correct descriptions undefined behaviour is possible only when the data is exhausted."
  },
  {
   "property": "C05",
   "status": "proved",
   "theorems": [
    "C05_packed",
    "C05_fails_only_without_memory"
   ],
   "note": "From any partly filled chain; success exactly when the allocator supplies enough room."
  },
  {
   "property": "C06",
   "status": "proved",
   "theorems": [
    "C06_chunk_round_trip",
    "C06_frames_are_sent",
    "C06_time_fix_mismatch_refuted"
   ],
   "note": "Holds when both ends agree on repeating extended timestamps (play_time_fix / publish_time_fix); refuted otherwise."
  },
  {
   "property": "C07",
   "status": "proved",
   "theorems": [
    "C07_segmentation_independence",
    "C07_buffer_has_room",
    "C07_every_stream_runs",
    "C07_no_livelock"
   ],
   "note": "Any two segmentations of the same bytes; plus: recv always has room, every stream has an execution, the loop terminates."
  },
  {
   "property": "C08",
   "status": "proved",
   "theorems": [
    "C08_interleaved_delivery"
   ],
   "note": "All interleavings and header formats of a conforming sender, formalised as a transition system in ChunkSpec.v."
  },
  {
   "property": "C09",
   "status": "proved",
   "theorems": [
    "C09_delivered_within_limit",
    "C09_collected_within_limit",
    "C09_max_message_refuted"
   ],
   "note": "Announced length is limited; collected bytes are limited for conforming senders and unlimited for a peer that shrinks the length in mid-message (refuted)."
  },
  {
   "property": "C10",
   "status": "proved",
   "theorems": [
    "C10_no_overflow_when_growing",
    "C10_size_in_force",
    "C10_collected_data_kept",
    "C10_set_chunk_size_refuted",
    "C10_growing_loses_data_refuted"
   ],
   "note": "Safe when announced sizes never decrease; a decrease can overflow the buffer and a change can lose data collected for other streams (both refuted)."
  },
  {
   "property": "C11",
   "status": "proved",
   "theorems": [
    "C11_acks_when_due",
    "C11_unacked_below_window",
    "C11_unbounded_traffic",
    "C11_contract_refuted_at_reset"
   ],
   "note": "Acks go out exactly when a window of bytes is unacknowledged, and fewer than a window stay unacknowledged, for any traffic volume. The literal contract is refuted at the point where the 32-bit byte counter is reset."
  },
  {
   "property": "C12",
   "status": "proved",
   "theorems": [
    "C12_outcomes",
    "C12_fifo",
    "C12_in_bounds"
   ],
   "note": "Histories of any length over any number of sessions; frames are queued exactly when there is room for their priority, handed to the socket in order and once, indices stay in bounds. merge_frame 0..64 as validated by the configuration."
  },
  {
   "property": "C13",
   "status": "proved",
   "theorems": [
    "C13_alloc_unheld",
    "C13_recycled_exactly",
    "C13_no_leak"
   ],
   "note": "Reference counts equal the number of holders in every legal history; a frame is in the free list once, exactly when it has no holder. The GOP module's low-latency path, which leaves the queue without releasing (finding), is not a legal release and is outside the op set."
  },
  {
   "property": "C14",
   "status": "proved",
   "theorems": [
    "C14_copy_exact",
    "C14_no_empty_buffer"
   ],
   "note": "Any sequence of chains appended to a new frame, any buffer size >= 1; includes termination."
  },
  {
   "property": "C15",
   "status": "proved",
   "theorems": [
    "C15_complete_body_refuted",
    "C15_carries_last_buffer",
    "C15_complete_iff_one_buffer"
   ],
   "note": "Refuted for encodings longer than one buffer; the exact payload (the last buffer) is proved for all arguments, and completeness is proved equivalent to fitting one buffer. Memory allocation assumed to succeed."
  },
  {
   "property": "C16",
   "status": "proved",
   "theorems": [
    "C16_never_twice",
    "C16_available_once",
    "C16_report_exact",
    "C16_double_return_refuted",
    "C16_out_of_memory_refuted"
   ],
   "note": "ngx_rbuf.c in full; the allocator is an oracle. Holds for callers that return only what they hold while buffer memory lasts; two refuted theorems show both preconditions are needed."
  },
  {
   "property": "C17",
   "status": "proved",
   "theorems": [
    "C17_lookup",
    "C17_traversal",
    "C17_key_types"
   ],
   "note": "ngx_map.c in full over an arbitrary binary search tree; nginx red-black rebalancing and deletion are arguments assumed only to keep the in-order sequence / remove one node. Keys are compared by contents and assumed unchanged while linked."
  },
  {
   "property": "C18",
   "status": "proved",
   "theorems": [
    "C18_largest_priority_refuted",
    "C18_source",
    "C18_rules",
    "C18_largest_without_relay",
    "C18_priority"
   ],
   "note": "The claim is false of the code (pull relay priority -1 sorts above all, theorem _refuted); the exact rule of the code is proved for all histories, and the claim itself for histories without pull relays."
  },
  {
   "property": "C19",
   "status": "proved",
   "theorems": [
    "C19_registry",
    "C19_no_deletion",
    "C19_reuse_refuted",
    "C19_two_names_refuted",
    "C19_long_name_refuted",
    "C19_nul_name_refuted"
   ],
   "note": "Registry of ngx_live.c as a linked heap. Right for every history without server deletion (how the modules use it) and for every history with deletion as long as at most one removed server waits for reuse when a server is created; refuted otherwise (stale link of a reused server), for over-long stream names followed by deletion, and for names with a NUL byte. Memory is taken to be available."
  },
  {
   "property": "C20",
   "status": "proved",
   "theorems": [
    "C20_pair",
    "C20_client_echo_refuted",
    "C20_response_unchecked",
    "C20_server",
    "C20_server_any",
    "C20_client"
   ],
   "note": "HMAC-SHA256 is any function with 32-byte results, rand() any sequence. C20_client_echo_refuted: without digests the client echoes S2 where the protocol asks for S1. C20_response_unchecked: neither response is ever verified."
  },
  {
   "property": "C21",
   "status": "proved",
   "theorems": [
    "C21_frame",
    "C21_short_write_refuted",
    "C21_fragment"
   ],
   "note": "Every frame and every list of frames; receiver-side parser is the specification. Short writes are not detected by the code: C21_short_write_refuted."
  },
  {
   "property": "C22",
   "status": "proved",
   "theorems": [
    "C22_stamp",
    "C22_pcr",
    "C22_stamp_injective"
   ],
   "note": "All 64-bit stamps."
  },
  {
   "property": "C23",
   "status": "proved",
   "theorems": [
    "C23_granularity",
    "C23_decrypt",
    "C23_same_file",
    "C23_iv",
    "C23_fragment"
   ],
   "note": "For every 16-byte block cipher; AES itself is not modelled."
  },
  {
   "property": "C24",
   "status": "proved",
   "theorems": [
    "C24_segmentation",
    "C24_packets",
    "C24_buffer",
    "C24_all_bytes"
   ],
   "note": "reader result is a function of the byte string"
  },
  {
   "property": "C25",
   "status": "proved",
   "theorems": [
    "C25_roundtrip",
    "C25_known_lengths",
    "C25_per_stream",
    "C25_tables",
    "C25_late_clock_refuted"
   ],
   "note": "tables and frames read back for all programs, frames, buffer chains and segmentations; late clock of frames without a length shown"
  },
  {
   "property": "C26",
   "status": "proved",
   "theorems": [
    "C26_defined",
    "C26_pat",
    "C26_pat_once",
    "C26_pmt"
   ],
   "note": "no read without data for any input, limits on tables, PAT and PMT contents exact"
  },
  {
   "property": "C27",
   "status": "proved",
   "theorems": [
    "C27_mpegts_crc",
    "C27_ts_crc",
    "C27_residue",
    "C27_bursts"
   ],
   "note": "Both table-driven routines equal the bitwise CRC-32/MPEG-2 for every byte string; a section with its checksum has residue 0 and no other four bytes do; every corruption within 32 consecutive bits is detected."
  },
  {
   "property": "C28",
   "status": "proved",
   "theorems": [
    "C28_rtmp_reader",
    "C28_ts_reader"
   ],
   "note": "Both readers (RTMP and TS), any sequence of reads."
  },
  {
   "property": "C29",
   "status": "proved",
   "theorems": [
    "C29_golomb",
    "C29_golomb_ts",
    "C29_undefined_iff",
    "C29_undefined_ts_iff",
    "C29_total_refuted"
   ],
   "note": "Both decoders, every number below 2^64-1; undefined exactly on 64 leading zeros (C29_total_refuted)."
  },
  {
   "property": "C30",
   "status": "proved",
   "theorems": [
    "C30_aac",
    "C30_adts",
    "C30_stale_refuted"
   ],
   "note": "RTMP: every AudioSpecificConfig (plain, SBR, PS, escaped object types, explicit rates) gives the rate, object type and channels of the standard; TS: every ADTS header. Refuted: SBR/PS flags of an earlier header are never cleared."
  },
  {
   "property": "C31",
   "status": "proved",
   "theorems": [
    "C31_bound",
    "C31_wellformed",
    "C31_refuted",
    "C31_ts_refuted"
   ],
   "note": "False of the code: C31_refuted and C31_ts_refuted exhibit 36 byte headers with 2^62 loop turns. Positive: bound linear in size plus the announced count, and linear for well-formed headers. The HEVC loops (at most 255*65535 turns) are not bounded by a theorem."
  },
  {
   "property": "C32",
   "status": "proved",
   "theorems": [
    "C32_unescape",
    "C32_safe",
    "C32_overread_refuted",
    "C32_overflow_refuted"
   ],
   "note": "Exact: unescaping inverts escaping (plus two extra bytes that follow) iff the unescaped unit fits 4094 bytes and two bytes follow; refuted at both boundaries; safe for any content with 4096 byte units and three bytes after."
  },
  {
   "property": "C33",
   "status": "proved",
   "theorems": [
    "C33_delivers",
    "C33_split_independent",
    "C33_terminates",
    "C33_back_pointer_needed"
   ],
   "note": "All lists of parts, all splits, any receiver; plus split independence and termination on arbitrary bytes. The back pointer of the last part is required by the code."
  },
  {
   "property": "C34",
   "status": "proved",
   "theorems": [
    "C34_encoding",
    "C34_abort_refuted",
    "C34_handled",
    "C34_round_trip",
    "C34_short_ignored"
   ],
   "note": "All constructors but abort (refuted) produce the specified message and every conforming message has its effect; handlers read the first buffer only, which is where the chunk layer puts messages of this size when the chunk size is at least 10."
  },
  {
   "property": "C35",
   "status": "proved",
   "theorems": [
    "C35_proxy_line_removed",
    "C35_proxy_accepted_exactly",
    "C35_proxy_signature_refuted",
    "C35_proxy_split_refuted",
    "C35_proxy_access_refuted"
   ],
   "note": "Exact acceptance set; refuted: signature not checked, split lines close the connection, the announced address does not reach the access rules."
  },
  {
   "property": "C36",
   "status": "proved",
   "theorems": [
    "C36_counters_exact",
    "C36_steady_rate_refuted"
   ],
   "note": "Byte total and interval rate exact; refuted: a steady stream is over-reported because an interval spans eleven seconds."
  },
  {
   "property": "C37",
   "status": "proved",
   "theorems": [
    "C37_access_ipv4",
    "C37_access_ipv6_rules",
    "C37_access_ipv6_clients_refuted",
    "C37_access_ipv6_networks"
   ],
   "note": "First matching rule decides, for IPv4 clients and for IPv6 networks up to /64; refuted for whole IPv6 addresses and for IPv4-mapped clients because the session keeps 16 bytes of the socket address."
  },
  {
   "property": "C38",
   "status": "partial",
   "theorems": [
    "C38_limit_not_enforced_refuted",
    "C38_limit_handlers_partial"
   ],
   "note": "Refuted: NGX_RTMP_CONNECT is never fired, so the limit is never enforced and the counter only decreases. The handlers themselves are proved correct for histories in which they are called."
  },
  {
   "property": "C39",
   "status": "proved",
   "theorems": [
    "C39_every_template",
    "C39_eval",
    "C39_value",
    "C39_incomplete_refuted",
    "C39_alloc_refuted"
   ],
   "note": "Full for templates when memory lasts; refuted for incomplete ends and failing allocations, which are silent."
  },
  {
   "property": "C40",
   "status": "proved",
   "theorems": [
    "C40_parse",
    "C40_parse_no_slash",
    "C40_lossless",
    "C40_fragment_refuted",
    "C40_args_refuted",
    "C40_host_refuted",
    "C40_port"
   ],
   "note": "Refuted as stated: fragment without arguments, arguments without a path, bracketed IPv6 hosts. Exact positive theorems for all other URLs and a lossless converse."
  },
  {
   "property": "C41",
   "status": "proved",
   "theorems": [
    "C41_address",
    "C41_distinct",
    "C41_no_overflow",
    "C41_high_ports_refuted",
    "C41_sum_overflow_refuted"
   ],
   "note": "Exact characterisation; refuted for ports above 65408 and for the largest number."
  },
  {
   "property": "C42",
   "status": "proved",
   "theorems": [
    "C42_one_owner",
    "C42_one_entry",
    "C42_told_the_owner",
    "C42_owner_decides",
    "C42_cleanup_and_delete",
    "C42_nul_names_refuted"
   ],
   "note": "Every interleaving of single memory accesses of any number of processes, with crashes and respawns at every point. Refuted for names that contain a NUL byte (the stored C string never compares equal)."
  },
  {
   "property": "C43",
   "status": "proved",
   "theorems": [
    "C43_partition",
    "C43_nothing_lost",
    "C43_counted",
    "C43_no_deadlock",
    "C43_insert_alone",
    "C43_crash_blocks_bucket",
    "C43_crash_refuted"
   ],
   "note": "Partition in every state; nothing lost, counter exact and no deadlock as long as no process dies inside the table. A crash inside a bucket is proved to block the bucket and every later worker start for ever (the memory is not a zone of the cycle, so nginx does not unlock it)."
  },
  {
   "property": "C44",
   "status": "proved",
   "theorems": [
    "C44_init",
    "C44_video",
    "C44_audio",
    "C44_long_config_refuted",
    "C44_split_config_refuted",
    "C44_audio_only_refuted",
    "C44_segment",
    "C44_bounds"
   ],
   "note": "Init and media segments are properly nested box files carrying the configuration, for every codec context and sample list that fits; nothing is written past the buffer. Refuted: no AVC configuration (NULL dereference), configuration split over buffers, AAC configuration of 105 bytes or more."
  },
  {
   "property": "C45",
   "status": "proved",
   "theorems": [
    "C45_offset",
    "C45_samples",
    "C45_index",
    "C45_first_offset_refuted"
   ],
   "note": "Data offset, sizes, durations, flags read back by an independent demuxer for every sample list and mask; index size reaches the end of file. Refuted: the first_offset field of sidx is the duration instead of 0."
  },
  {
   "property": "C46",
   "status": "proved",
   "theorems": [
    "C46_exact",
    "C46_flushed",
    "C46_crash",
    "C46_packet_refuted",
    "C46_errors",
    "C46_any",
    "C46_short_refuted",
    "C46_zero_refuted",
    "C46_session",
    "C46_frames"
   ],
   "note": "Exact content for any calls, crash prefix, failing writes; whole sessions from messages to files. Short writes, a buffer of size 0 and crashes in mid-packet refuted."
  },
  {
   "property": "C47",
   "status": "proved",
   "theorems": [
    "C47_line",
    "C47_index",
    "C47_duration",
    "C47_minimum",
    "C47_duration_refuted",
    "C47_long_name_refuted",
    "C47_name_refuted",
    "C47_interval_refuted",
    "C47_index_refuted"
   ],
   "note": "Index lines read back, tile the file over any number of sessions; slice durations. Long names, the name in the line, intervals under a second, a failing index and audio after video stops refuted."
  },
  {
   "property": "C48",
   "status": "proved",
   "theorems": [
    "C48_order",
    "C48_once",
    "C48_answer",
    "C48_start",
    "C48_update",
    "C48_failed_refuted",
    "C48_series_refuted",
    "C48_nested_refuted",
    "C48_swapped_refuted",
    "C48_freed_refuted",
    "C48_memory_refuted"
   ],
   "note": "Proved for answer functions that do not themselves start a call (none does today) and requests that do not run out of memory half way; nested starts, failed starts and memory failures are refuted separately."
  },
  {
   "property": "C49",
   "status": "proved",
   "theorems": [
    "C49_prefix",
    "C49_complete",
    "C49_reads",
    "C49_blocked_header_refuted",
    "C49_metadata_only_refuted"
   ],
   "note": "FLV stream sent to a player: prefix at any time, complete when the socket takes it, tags read back. Two refutations: frames merged behind a partly sent FLV header are dropped (write_handler calls the filter without the chain while the connection is buffered); a stream with metadata only is cut off."
  },
  {
   "property": "C50",
   "status": "proved",
   "theorems": [
    "C50_files",
    "C50_append",
    "C50_time",
    "C50_everything",
    "C50_crash",
    "C50_append_crash_refuted",
    "C50_append_crash_overwrites",
    "C50_write_error_refuted",
    "C50_body_error_refuted",
    "C50_mask_refuted",
    "C50_long_refuted",
    "C50_long_file_refuted",
    "C50_max_size_refuted",
    "C50_full_refuted",
    "C50_tiny_refuted"
   ],
   "note": "Refinement of the whole recorder to a specification of tag lists; crash safety at every point of the write log; time and completeness. Refuted: append after a crash behind a tag header overwrites; write errors use a closed descriptor or spoil the file; flags of an appended file; files of 2^31 ms; max_size truncation and loss."
  },
  {
   "property": "C51",
   "status": "proved",
   "theorems": [
    "C51_window",
    "C51_finish",
    "C51_numbering",
    "C51_advances",
    "C51_durations",
    "C51_keys",
    "C51_backwards_refuted",
    "C51_event_refuted",
    "C51_name_refuted",
    "C51_key_refuted"
   ],
   "note": "Histories of publishes, frames with arbitrary timestamps, failures and partial playlist writes are related to a packager over unbounded lists; the published text is read by an independent m3u8 reader. Refuted: durations when time steps back by less than a second, event playlists, newlines in names, keys after a failed key write. Doubles are kept as exact ticks; variant playlists are not modelled."
  },
  {
   "property": "C52",
   "status": "proved",
   "theorems": [
    "C52_restore",
    "C52_same",
    "C52_crash",
    "C52_sequence_refuted",
    "C52_long_refuted"
   ],
   "note": "Round trip through the 4096-byte line reader for any window, key and id; every crash point of the playlist write. Sequence numbers from 2^53 on and entries longer than the 1024-byte buffer are refuted."
  },
  {
   "property": "C53",
   "status": "proved",
   "theorems": [
    "C53_cache",
    "C53_covers",
    "C53_not_refused",
    "C53_released",
    "C53_headers_refuted",
    "C53_frozen_refuted"
   ],
   "note": "The ring of ngx_rtmp_gop_module.c refines a list of the most recent frames for every stream that shows a key frame before the ring is full (or sound with single repeated headers); head is a key frame once one was dropped; at most Q-1 frames; headers kept apart are the right ones; all references returned once at the end. Refuted: Q codec headers in a row crash the server; a group of pictures of Q-1 frames freezes the cache for good."
  },
  {
   "property": "C54",
   "status": "proved",
   "theorems": [
    "C54_at_most_once",
    "C54_exactly_once",
    "C54_no_use_after_free",
    "C54_player_refuted",
    "C54_player_log_refuted",
    "C54_player_quiet",
    "C54_handlers"
   ],
   "note": "One session at a time; what the handlers of the disconnect event do is left out except that the access log may finalize the session again. Refuted for HTTP players, with the exact precondition under which they are safe."
  },
  {
   "property": "C55",
   "status": "proved",
   "theorems": [
    "C55_h264",
    "C55_lossless",
    "C55_hevc",
    "C55_hevc_one_buffer",
    "C55_split",
    "C55_safe",
    "C55_cut_refuted",
    "C55_hevc_split_refuted",
    "C55_hevc_overflow_refuted",
    "C55_pts",
    "C55_pts_refuted"
   ],
   "note": "Reader of ISO 14496-10 Annex B over every access unit and buffer split, H.264 and H.265 (ngx_rtmp_hls_video). Refuted: messages cut inside a unit or ending in a one-byte unit crash when errors are logged; H.265 units starting with a zero byte across buffers; three bytes past the output buffer; negative composition times. The same loop in mpegts/ngx_mpegts_live_module.c and ngx_live_record.c is not modelled."
  },
  {
   "property": "C56",
   "status": "proved",
   "theorems": [
    "C56_closes_only_silent",
    "C56_busy_closes_only_silent",
    "C56_silent_peer_closed"
   ],
   "note": "Timer model of the ping exchange: close only after a silent period, silent peers are closed."
  },
  {
   "property": "C57",
   "status": "proved",
   "theorems": [
    "C57_program_map",
    "C57_association",
    "C57_clock_pid",
    "C57_audio_only_refuted"
   ],
   "note": "The announced PCR PID is wrong for audio-only streams: C57_audio_only_refuted."
  },
  {
   "property": "C58",
   "status": "proved",
   "theorems": [
    "C58_avc",
    "C58_ts_avc",
    "C58_avc_refuted",
    "C58_hevc",
    "C58_hevc_window_refuted"
   ],
   "note": "AVC (RTMP and TS): equal to the standard when there is no cropping or the crop units are 2; refuted for 1080i. HEVC: equal without a window; with a window always one less, proved for all. Scaling lists that are present and AVC emulation bytes are outside the theorems; profiles 128, 134, 135, 138, 139 are excluded (the code does not know their high part)."
  },
  {
   "property": "C59",
   "status": "proved",
   "theorems": [
    "C59_exact",
    "C59_refuted"
   ],
   "note": "refuted with a stream a sender can produce; exact condition proved"
  },
  {
   "property": "C60",
   "status": "proved",
   "theorems": [
    "C60_ignored",
    "C60_refuted"
   ],
   "note": "refuted: neither checksum nor table id is looked at"
  },
  {
   "property": "C61",
   "status": "proved",
   "theorems": [
    "C61_exact_length",
    "C61_waiting",
    "C61_refuted"
   ],
   "note": "exact for non-empty payloads whose header has room for its stamps; refuted for empty payloads"
  },
  {
   "property": "C62",
   "status": "proved",
   "theorems": [
    "C62_streams",
    "C62_tables_refuted"
   ],
   "note": "proved for streams; refuted for repeated tables"
  },
  {
   "property": "C63",
   "status": "proved",
   "theorems": [
    "C63_lists",
    "C63_no_gone",
    "C63_close_first_refuted",
    "C63_rejoin_refuted",
    "C63_both_refuted",
    "C63_long_name_refuted",
    "C63_redirect_refuted"
   ],
   "note": "The streams table is taken as a finite map (C19 shows ngx_live.c implements one); static relays are not modelled. The refutations hold after every orderly history."
  },
  {
   "property": "C64",
   "status": "proved",
   "theorems": [
    "C64_reads",
    "C64_split",
    "C64_pull"
   ],
   "note": "The relay parser equals a reader of the FLV format for all inputs and all divisions into buffers; composed with the player side."
  },
  {
   "property": "C65",
   "status": "proved",
   "theorems": [
    "C65_segments",
    "C65_no_crash",
    "C65_playback",
    "C65_crowded_refuted",
    "C65_audio_only_refuted"
   ],
   "note": "Files and raw data are taken to be written in full; the audio-only crash and the loss beyond 1024 frames a fragment are refuted variants."
  },
  {
   "property": "C66",
   "status": "proved",
   "theorems": [
    "C66_window",
    "C66_timeline",
    "C66_single_refuted",
    "C66_jump_back_refuted"
   ],
   "note": "Single-frame durations and clocks that jump back are refuted variants. The XML around the timeline is not modelled."
  },
  {
   "property": "C67",
   "status": "proved",
   "theorems": [
    "C67_player",
    "C67_player_dense",
    "C67_flows",
    "C67_pause_refuted",
    "C67_replay_refuted",
    "C67_low_latency_refuted",
    "C67_republish_refuted"
   ],
   "note": "Proved for players that are offered every frame (not paused), unchanged metadata, at most two leading codec headers and no refused frame; refuted for pause, refusal, low_latency and a replaced publisher."
  },
  {
   "property": "C68",
   "status": "proved",
   "theorems": [
    "C68_lists",
    "C68_leaves",
    "C68_stays",
    "C68_close_first_refuted",
    "C68_play2_refuted",
    "C68_two_roles_refuted"
   ],
   "note": "Proved for sessions that take one role and do not close before they start; refuted, for every prior history, for closeStream before publish/play, for play2 as first command and for a session that both publishes and plays (use of a released session by the next reader)."
  },
  {
   "property": "C69",
   "status": "proved",
   "theorems": [
    "C69_machine",
    "C69_only_approved",
    "C69_once",
    "C69_done",
    "C69_answered",
    "C69_two_roles_refuted",
    "C69_two_roles_released_refuted",
    "C69_close_first_refuted",
    "C69_header_first_refuted",
    "C69_meta_twice_refuted",
    "C69_meta_headers_refuted",
    "C69_message_refuted",
    "C69_redirect_refuted"
   ],
   "note": "One role per session: refinement to the machine of NfySpec.v for every configuration and history, with corollaries (only approved, once, done, answered). The refuted theorems give the orders that admit by the wrong approval, use a released session or follow a null stream. HTTP transport and the text of the call are not part of this model."
  },
  {
   "property": "C70",
   "status": "proved",
   "theorems": [
    "C70_isolated",
    "C70_order",
    "C70_headers",
    "C70_delivery",
    "C70_delivery_audio",
    "C70_header_time_refuted",
    "C70_takeover_refuted",
    "C70_hold_refuted",
    "C70_hevc_refuted",
    "C70_no_header_refuted"
   ],
   "note": "All operation sequences. Isolation and order hold for any publishers and codecs; headers and delivery for one publisher of AVC/AAC not held by the control interface. GOP cache off (see C67 for the cache). Five refutations name the cases where frames reach players under a wrong or missing header."
  },
  {
   "property": "C71",
   "status": "proved",
   "theorems": [
    "C71_chunked",
    "C71_length",
    "C71_until_close",
    "C71_segmentation",
    "C71_header_alone_refuted",
    "C71_wakeup_refuted",
    "C71_large_header_refuted",
    "C71_close_refuted",
    "C71_empty_refuted",
    "C71_excess_refuted",
    "C71_rest_refuted"
   ],
   "note": "parse stands for the status line and header parsers of nginx; the chunk parser of nginx is transcribed. Failing cases are proved as refutations."
  },
  {
   "property": "C72",
   "status": "proved",
   "theorems": [
    "C72_playlist",
    "C72_fetch",
    "C72_wait",
    "C72_target",
    "C72_numbers",
    "C72_names",
    "C72_end",
    "C72_begin_refuted",
    "C72_sound_refuted",
    "C72_window_refuted",
    "C72_stale_refuted",
    "C72_close_refuted",
    "C72_dash_refuted",
    "C72_long_refuted",
    "C72_open_refuted",
    "C72_time_refuted",
    "C72_jump_refuted",
    "C72_header_refuted",
    "C72_waiters_refuted"
   ],
   "note": "One session; the publisher cache that feeds it and the HTTP framing by nginx are outside the model. The positive theorems assume a run whose frames begin at a boundary, without small steps back in time, with fragments that fit the queue; each assumption has a refutation that drops it."
  },
  {
   "property": "C73",
   "status": "proved",
   "theorems": [
    "C73_playlist_never_lies",
    "C73_survives",
    "C73_everything_published",
    "C73_end_of_upload",
    "C73_durations",
    "C73_key_pictures",
    "C73_master",
    "C73_cleaner",
    "C73_untimed_segment_refuted",
    "C73_clock_back_refuted",
    "C73_negative_duration_refuted",
    "C73_target_duration_refuted",
    "C73_same_name_refuted",
    "C73_failure_listed_refuted",
    "C73_empty_upload_refuted",
    "C73_single_pes_refuted",
    "C73_dies_refuted",
    "C73_foreign_files_refuted",
    "C73_master_before_playlist_refuted"
   ],
   "note": "Proved for every upload, failing file operation and crash point; eleven ways in which the output is wrong are proved as refutations."
  },
  {
   "property": "C74",
   "status": "proved",
   "theorems": [
    "C74_once",
    "C74_refresh",
    "C74_addresses",
    "C74_known_latest",
    "C74_single",
    "C74_first_callers_refuted",
    "C74_delete_refuted",
    "C74_ipv6_refuted",
    "C74_ipv6_overflow_refuted",
    "C74_literal_refuted",
    "C74_buckets_refuted",
    "C74_empty_refuted",
    "C74_no_context_refuted"
   ],
   "note": "Callers that call the resolver again from their callback, and allocation failures, are not modelled. Refuted without the preconditions: answers of two or more addresses (the first callers may be told there is none), deletion while a query is on its way, IPv6 addresses, literal IPv6 or unix names, no buckets, the empty name, no memory for a query."
  },
  {
   "property": "C75",
   "status": "proved",
   "theorems": [
    "C75_pool_life",
    "C75_pool_full",
    "C75_rearm",
    "C75_refresh_refuted",
    "C75_stale_id_refuted",
    "C75_outside_refuted",
    "C75_owned",
    "C75_nodes",
    "C75_tidy",
    "C75_left_behind_refuted"
   ],
   "note": "Refuted without the preconditions: a handler that re-arms itself when the pool is exhausted is never called again; a stale id deletes the timer of another; a deletion with the error value reads outside the array; a timer left behind by a former owner blocks the timers of its connection for good. nginx own timer tree is not modelled."
  },
  {
   "property": "C76",
   "status": "proved",
   "theorems": [
    "C76_last_file_in_force",
    "C76_reload_keeps",
    "C76_refused_changes_nothing",
    "C76_connects_by_current_line",
    "C76_ended_is_replaced",
    "C76_one_worker",
    "C76_same_stream_same_worker",
    "C76_after_duplicate_refuted",
    "C76_free_ring_refuted",
    "C76_late_refusal_refuted",
    "C76_no_block_refuted",
    "C76_two_blocks_refuted",
    "C76_no_session_refuted",
    "C76_lost_on_close_refuted",
    "C76_dropped_reconnect_refuted",
    "C76_serverid_refuted",
    "C76_workers_disagree_refuted"
   ],
   "note": "for files with one block whose streams are distinct, refused only before the block is taken; each missing precondition has a refutation"
  },
  {
   "property": "C77",
   "status": "proved",
   "theorems": [
    "C77_addresses_in_turn",
    "C77_addresses_in_turn_again",
    "C77_tries_apart",
    "C77_backoff",
    "C77_no_stall",
    "C77_up_stays",
    "C77_hammers_refuted",
    "C77_first_at_once_refuted",
    "C77_capped_refuted",
    "C77_second_publisher_refuted",
    "C77_second_publisher_again_refuted",
    "C77_zero_refuted"
   ],
   "note": "Holds for chains of vain tries. Refuted without that: an upstream that accepts and closes is retried at once any number of times; the first reconnect with one address is not immediate; the first pause may exceed relay_reconnect; a pull that succeeds beside another publisher is torn down as timed out, again and again; failed_reconnect 0 does not pause."
  },
  {
   "property": "C78",
   "status": "proved",
   "theorems": [
    "C78_selection",
    "C78_each_once",
    "C78_application",
    "C78_orders",
    "C78_refused",
    "C78_paused",
    "C78_name_alone_refuted",
    "C78_application_refuted",
    "C78_addr_refuted",
    "C78_redirect_name_refuted",
    "C78_redirect_refuted",
    "C78_pause_player_refuted",
    "C78_pause_dash_refuted",
    "C78_live_off_refuted"
   ],
   "note": "Selection, drop, pause, resume and the pause gate hold. Refuted: a name without an application selects every stream of the server; an application also selects those below it; addr is compared with the server address; a redirect ignores the new name and only takes the session out of its stream; pausing a player does nothing; DASH and the index recorder ignore a pause; with live off nothing resumes. The section record is not modelled."
  },
  {
   "property": "C79",
   "status": "proved",
   "theorems": [
    "C79_reads",
    "C79_only",
    "C79_refused",
    "C79_any_words",
    "C79_layout",
    "C79_comment_refuted",
    "C79_blank_refuted",
    "C79_variable_refuted"
   ],
   "note": "Comments and blanks as long as the read buffer, and a variable in braces at the beginning of an unquoted word, are refuted. Handlers of single directives are arbitrary verdicts."
  },
  {
   "property": "C80",
   "status": "proved",
   "theorems": [
    "C80_stream",
    "C80_delay",
    "C80_buffers",
    "C80_h264",
    "C80_h264_small",
    "C80_tail_refuted",
    "C80_backwards_refuted",
    "C80_header_change_refuted",
    "C80_bad_header_refuted",
    "C80_leak_refuted",
    "C80_long_frame_refuted",
    "C80_split_header_refuted",
    "C80_audio_only_refuted"
   ],
   "note": "Every history of messages, any conversion of H.265, any settings with 2*sync <= delay: continuity, pictures, clocks, ADTS groups, stamps, delay and buffers. Fails, each with a universal theorem: the last sounds are never sent, nothing is sent while times go back, new sequence headers are ignored, unsupported audio configurations send raw messages behind five uninitialised bytes, sounds over 8184 bytes are unreadable, a split sequence header is sent as sound, no video no stream."
  },
  {
   "property": "C81",
   "status": "proved",
   "theorems": [
    "C81_units",
    "C81_lossless",
    "C81_safe",
    "C81_stream",
    "C81_picture",
    "C81_delimiter_overflow_refuted",
    "C81_wrap_overflow_refuted",
    "C81_start_code_refuted",
    "C81_split_refuted",
    "C81_twice_refuted",
    "C81_delimiter_refuted"
   ],
   "note": "Units, safety for small messages and the link to the stream of C80; overflows, lost and damaged units and doubled parameter sets as refutations."
  },
  {
   "property": "C82",
   "status": "proved",
   "theorems": [
    "C82_cache",
    "C82_keeps",
    "C82_player",
    "C82_dense",
    "C82_stays",
    "C82_flows",
    "C82_join",
    "C82_released",
    "C82_closed_refuted",
    "C82_frozen_refuted",
    "C82_replay_refuted",
    "C82_sound_twice_refuted",
    "C82_restart_refuted",
    "C82_place_refuted",
    "C82_off_refuted"
   ],
   "note": "HTTP-TS and HLS players of the transport stream GOP cache. The positive theorems assume that the cache takes every frame once it holds something (C82_dense gives a condition on the stream); the refutations show what happens otherwise."
  },
  {
   "property": "C83",
   "status": "proved",
   "theorems": [
    "C83_rtmp",
    "C83_address",
    "C83_one_place",
    "C83_one_place_refuted",
    "C83_second_name_refuted",
    "C83_play2_refuted",
    "C83_connect_first",
    "C83_connect_first_refuted",
    "C83_array",
    "C83_array_refuted",
    "C83_distinct",
    "C83_distinct_refuted",
    "C83_slash_args_refuted",
    "C83_question_mark_refuted",
    "C83_http",
    "C83_same",
    "C83_same_address_refuted",
    "C83_same_case_refuted",
    "C83_http_256_refuted",
    "C83_hls",
    "C83_hls_refuted",
    "C83_hls_long_refuted",
    "C83_virtual_refuted",
    "C83_relay",
    "C83_relay_reload_refuted"
   ],
   "note": "RTMP naming, HTTP naming and relays proved for hosts and applications as users write them, one connect and one configuration; refuted for a second connect, play2, play behind publish, commands before connect (NULL pointer), long applications at an address (array overrun), long HLS names (array overrun), URLs ending in a question mark, virtual and dynamic serverids with HLS and relays, capitals, names of 256 bytes, applications of two levels."
  },
  {
   "property": "C84",
   "status": "proved",
   "theorems": [
    "C84_owner",
    "C84_release",
    "C84_crash",
    "C84_relays",
    "C84_viewer",
    "C84_publisher",
    "C84_reach",
    "C84_connects",
    "C84_viewers_first_refuted",
    "C84_publisher_left_refuted"
   ],
   "note": "one stream, any number of workers; refuted where a worker has both viewers and publishers"
  },
  {
   "property": "C85",
   "status": "proved",
   "theorems": [
    "C85_safe",
    "C85_own",
    "C85_reuse",
    "C85_new",
    "C85_once",
    "C85_closed",
    "C85_counts",
    "C85_max_idle_refuted",
    "C85_full_refuted",
    "C85_resolve_refuted",
    "C85_idle_write_refuted",
    "C85_connected_after_close_refuted",
    "C85_stale_timeout_refuted",
    "C85_send_timeout_refuted",
    "C85_create",
    "C85_create_overflow_refuted",
    "C85_create_ipv6_refuted"
   ],
   "note": "holds for careful users; eight ways it fails are proved with witnesses; histories with write data are not modelled"
  },
  {
   "property": "C86",
   "status": "proved",
   "theorems": [
    "C86_slots",
    "C86_reach",
    "C86_distinct",
    "C86_missing_worker_refuted",
    "C86_subrequest_refuted",
    "C86_end_again_refuted",
    "C86_prefix",
    "C86_prefix_length_refuted",
    "C86_inherit_refuted",
    "C86_failed_answer_refuted",
    "C86_proxy"
   ],
   "note": "holds when every worker runs and prefix and replacement have one length; seven ways it fails are proved"
  },
  {
   "property": "C87",
   "status": "proved",
   "theorems": [
    "C87_safe",
    "C87_closed_first_refuted",
    "C87_closed_first_pull_refuted",
    "C87_owned",
    "C87_single",
    "C87_none_left",
    "C87_players",
    "C87_push_up",
    "C87_pull_up",
    "C87_comes_back",
    "C87_fork_refuted",
    "C87_detach_refuted",
    "C87_signal_refuted",
    "C87_names",
    "C87_names_refuted",
    "C87_publish_done",
    "C87_done_name_refuted",
    "C87_interprocess"
   ],
   "note": "One worker, one application. Static commands and exec_record_done (never run by the code) are left out; pipe, fcntl and fork fail or succeed together."
  },
  {
   "property": "C88",
   "status": "proved",
   "theorems": [
    "C88_safe",
    "C88_current",
    "C88_follows",
    "C88_nothing",
    "C88_leak_refuted",
    "C88_start_race_refuted",
    "C88_check_race_refuted",
    "C88_start_fails",
    "C88_exact",
    "C88_regex",
    "C88_default",
    "C88_case_refuted",
    "C88_no_server_refuted",
    "C88_some_server",
    "C88_app",
    "C88_app_star",
    "C88_app_refused",
    "C88_serverid_refuted",
    "C88_no_block_refuted"
   ],
   "note": "Refuted parts: temporary pools left, two races on reading, capital letters, no server, serverid."
  },
  {
   "property": "C89",
   "status": "proved",
   "theorems": [
    "C89_sound",
    "C89_buffered",
    "C89_starts_with_sound",
    "C89_delay",
    "C89_memory",
    "C89_tail_refuted",
    "C89_header_refuted",
    "C89_long_refuted",
    "C89_mp3",
    "C89_mp3_refuted",
    "C89_closed_refuted"
   ],
   "note": "Sound is complete, in order and timed for every fine history with an end message; memory safety for any message; the loss at an abrupt leave, unsayable headers, long frames, full MP3 buffers and closed segments are refuted."
  },
  {
   "property": "C90",
   "status": "proved",
   "theorems": [
    "C90_ordered",
    "C90_set",
    "C90_remove",
    "C90_last",
    "C90_modules",
    "C90_empty_refuted",
    "C90_server_refuted",
    "C90_type",
    "C90_names"
   ],
   "note": "Set, remove and last-value theorems for every ordered response; ordered holds of every response made from a fresh one; empty settings and Server/Date are refuted."
  },
  {
   "property": "C91",
   "status": "proved",
   "theorems": [
    "C91_follow",
    "C91_unique",
    "C91_workers",
    "C91_before",
    "C91_host_refuted",
    "C91_line_refuted",
    "C91_question_refuted",
    "C91_scheme_refuted",
    "C91_location_refuted"
   ],
   "note": "Follow, uniqueness over any run and over workers, independence of the byte before the path; missing Host, line feeds, question marks, scheme and location arguments refuted."
  },
  {
   "property": "C92",
   "status": "proved",
   "theorems": [
    "C92_sent",
    "C92_page",
    "C92_nested",
    "C92_text",
    "C92_text_same",
    "C92_name",
    "C92_name_refuted",
    "C92_serverid_refuted",
    "C92_unreadable_refuted",
    "C92_timestamp",
    "C92_timestamp_refuted"
   ],
   "note": "The page is read back exactly by an XML reader when the ids of servers contain neither < nor &; refuted: ids are written unescaped (C92_serverid_refuted, C92_unreadable_refuted), names are not always distinguishable (C92_name_refuted), times from 2^31 ms on are negative (C92_timestamp_refuted)."
  },
  {
   "property": "C93",
   "status": "proved",
   "theorems": [
    "C93_size",
    "C93_request",
    "C93_header",
    "C93_once",
    "C93_host_refuted",
    "C93_callback",
    "C93_domain_refuted",
    "C93_name_refuted",
    "C93_escape_refuted",
    "C93_smuggle_refuted",
    "C93_long_refuted",
    "C93_slash_refuted",
    "C93_kinds",
    "C93_room"
   ],
   "note": "Requests and callbacks are read back exactly under conditions on the texts; refuted without them: C93_domain_refuted, C93_name_refuted, C93_escape_refuted, C93_smuggle_refuted (unescaped texts), C93_long_refuted (address cut at 2048 bytes), C93_slash_refuted, C93_host_refuted."
  },
  {
   "property": "C94",
   "status": "proved",
   "theorems": [
    "C94_print",
    "C94_prints",
    "C94_distinct",
    "C94_page",
    "C94_once",
    "C94_memory_refuted",
    "C94_leak_refuted",
    "C94_avsync",
    "C94_avsync_refuted",
    "C94_cut_refuted",
    "C94_utf8",
    "C94_utf8_refuted"
   ],
   "note": "Printer with whole numbers below 10^15; the tree itself is built without failing memory. Refuted: surviving a failed allocation, giving back the tree, avsync with video behind, texts over 1023 bytes, UTF-8 with odd stream names."
  },
  {
   "property": "C95",
   "status": "proved",
   "theorems": [
    "C95_safe",
    "C95_backlog",
    "C95_first",
    "C95_smooth_refuted",
    "C95_norate_refuted",
    "C95_again_refuted"
   ],
   "note": "counter of frames, stalls and first data of the monitor; three claims refuted as stated: smooth streams, unknown rate, later streams"
  },
  {
   "property": "C96",
   "status": "proved",
   "theorems": [
    "C96_accepted",
    "C96_one_reading",
    "C96_line",
    "C96_parg_refuted",
    "C96_names",
    "C96_stream_refuted",
    "C96_stream_long_refuted",
    "C96_bitrate",
    "C96_bitrate_refuted",
    "C96_bitrate_publisher_refuted",
    "C96_bitrate_twice_refuted",
    "C96_room",
    "C96_room_refuted",
    "C96_time",
    "C96_seconds",
    "C96_interval",
    "C96_timers",
    "C96_timers_refuted"
   ],
   "note": "compiler of formats against a grammar, the line and its room, names in the context, timers, session time, bitrate; refuted as stated: parg_ alone, stream names of 256 bytes and more (also beyond the line), timers of a session both published and played, bitrates of large readings, of publishers at the restart of their counter and in a second log"
  }
 ]
}