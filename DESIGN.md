# Formal model of pingostack/pingos in Rocq (Coq 8.16.1)

## 1. Method

* The model is written function by function in Gallina, in `rocq/theories/<Area>Model.v`.
  Every definition cites the file and lines of `/repo` it models and states its simplifications.
* Independent specifications live in `<Area>Spec.v`; they do not mention the model.
* Lemmas and proofs live in `<Area>Proofs.v`.
* The final theorems, with an `Example` showing that their hypotheses are met by a
  concrete non-trivial case and with `Print Assumptions`, live in `<Area>Props.v`.
* Bytes and machine integers are `Z` with explicit wrap-around (`mod 2^k`) wherever the
  C code can wrap; lengths of lists are `nat` or `Z`.
* A behaviour that is undefined in C (NULL dereference, out-of-bounds access) is a distinct
  outcome of the model, so that "safe" is a statement and not an assumption.
* A property that is false of the faithful model is recorded as a theorem `..._refuted`
  with a concrete witness, and the part that does hold is proved under the missing precondition
  (`..._partial` or a theorem with the precondition in its hypotheses).
* External functions (HMAC, AES, malloc, recv, write, clock) are function arguments
  or lists of results quantified over in the theorems, never axioms.

## 2. Plan, property by property

| id | what is modelled | how it is proved |
|----|------------------|------------------|
| C01 | `ngx_rtmp_amf_write` and `ngx_rtmp_amf_read` with all readers/writers they call | mutual induction on values, reader in continuation of writer |
| C02 | `ngx_rtmp_amf_get` over chains, reader parametrised by a byte source | simulation between chain source and flat source |
| C03 | string case of `ngx_rtmp_amf_read` | invariant on destination buffer |
| C04 | same model, null description is an outcome `AmfCrash` | refuted by witness; crash characterised |
| C05 | `ngx_rtmp_amf_put` | invariant on chain |
| C06 | `ngx_rtmp_prepare_out_chain` + `ngx_rtmp_recv` | parser/printer induction on fragments |
| C07 | byte level recv machine fed by arbitrary slices | machine is a fold over bytes |
| C08 | recv machine with several chunk streams | frame lemma per csid + induction on interleaving |
| C09 | recv machine | refuted by witness; invariant under no-shrink precondition |
| C10 | `ngx_rtmp_set_chunk_size` | refuted; positive bound |
| C11 | counters of `ngx_rtmp_recv` | invariant over histories |
| C12 | `ngx_rtmp_send_message`, consumption side of `ngx_rtmp_prepare_out_chain` | ring refinement to a list queue |
| C13 | frame allocator | invariant over traces |
| C14 | `ngx_rtmp_shared_append_chain` | invariant on chain |
| C15 | `ngx_rtmp_append_amf` + AMF writer over chains | refuted; partial for one buffer |
| C16 | `ngx_rbuf.c` | invariant over traces |
| C17 | `ngx_map.c` (red-black tree abstracted to the search-tree operations) | refinement to sorted association list |
| C18 | publisher map of live module | refuted; positive for priorities >= 0 |
| C19 | `ngx_live.c` buckets and free lists as linked heap | refuted; positive for histories without reuse of a stale link |
| C20 | all of `ngx_rtmp_handshake.c`: digests, challenge, response, server and client stages, over a schedule of socket calls | phases with a decreasing measure; pair of peers joined by byte streams |
| C21-C22 | `ngx_rtmp_mpegts_write_frame`, pts, pcr | induction on remaining payload; bit arithmetic |
| C23 | `ngx_rtmp_mpegts_write_file` with CBC over any block cipher | invariant: emitted ++ pending |
| C24 | `ngx_ts_read` | fold over bytes |
| C25 | `ngx_ts_write_pes`/`ngx_ts_packetize`, `ngx_ts_read_pes` | composition |
| C26 | `ngx_ts_read_pat`, `ngx_ts_read_pmt` | bounds as outcomes |
| C27 | both crc32 functions and their tables | table = bitwise division, by computation on 256 entries and induction on data |
| C28-C29 | bit readers | refinement to lists of bits |
| C30 | AAC header parser | refinement to bit-list grammar |
| C31 | AVC header parser with step counter | refuted by witness, bound under precondition |
| C32 | nal_to_rbsp | refuted; inverse of escaping |
| C33 | aggregate handler | induction on sub-messages |
| C34 | control message constructors and handlers | byte arithmetic |
| C35 | proxy protocol | refuted; positive |
| C36 | bandwidth | invariant |
| C37 | access rules | induction on rules |
| C38 | limit | invariant over traces |
| C39 | eval | induction on template |
| C40 | URL parser | induction on components |
| C41 | multiport addresses | decimal printing injective |
| C42-C43 | stream zone, with per-operation locks and crash/clear | invariants over interleavings |
| C44-C45 | `dash/ngx_rtmp_mp4.c` in full (box writers of init and media segments) and its callers' buffer sizes | an independent box parser and an independent demuxer invert the writer, for every codec context and sample list |
| C46 | write buffer and session of `ngx_live_record.c` over any results of `write`, crash points between any two calls | invariant: file ++ buffer = what was passed in; whole sessions from messages to files |
| C47 | slice decision, index line and index file of `ngx_live_record.c` | printer/parser of the line; invariant: entries tile the file; refuted variants |
| C48 | `ngx_netcall.c` over the callbacks of `ngx_http_client.c`, answer functions as a parameter | trace invariant (created, answered, destroyed); refuted variants for nested and failed starts |
| C49 | header, tag and chain construction of `ngx_http_flv_live_module.c`, frames and partial sends | an independent FLV reader inverts the printer; prefix at every moment |
| C50 | `ngx_rtmp_record_module.c`: the whole recorder (open, append, headers, frames, limits, close) over files and a log of disk writes | refinement to a library of tag lists; crash relation on the log; files read back by the FLV reader of C49; faults refuted by witnesses |
| C51 | fragment state, window and playlist text of `hls/ngx_rtmp_hls_module.c` | refinement of the ring of fragments to a packager over unbounded lists; independent m3u8 reader |
| C52 | playlist restore over the 4096-byte reader, every crash point of the playlist write | printer/parser; crash points enumerated by the write sequence |
| C53 | ring, links and headers of `ngx_rtmp_gop_module.c` | refinement of the ring to the list of the most recent frames |
| C54 | finalization of sessions, fake sessions and HTTP players | trace invariant over events |
| C55 | `ngx_rtmp_hls_video` and its NAL loops for H.264 and H.265 over any chain of buffers | an independent Annex B reader inverts the conversion; undefined behaviour as outcome |
| C56 | ping timer of `ngx_rtmp_handler.c` | trace invariant over timer and traffic events; progress theorem |
| C57 | program tables of `hls/ngx_rtmp_mpegts.c` | parser of ISO 13818-1 sections as specification |
| C58 | picture size of the AVC and HEVC header parsers | equality with the formula of the standard under its conditions; refuted elsewhere |
| C59 | loop of `ngx_ts_write_pes` | exact condition of termination |
| C60-C62 | sections, PES lengths and continuity counters of `ngx_ts_stream.c` | fold over packets; refuted where fields are not looked at |
| C63 | publisher and player lists over the registry of `ngx_live.c`, with `ngx_rtmp_cmd_module.c` and relays | invariant over orderly histories; the disorderly ones refuted after every orderly prefix |
| C64 | parser of `ngx_live_relay_httpflv.c` | equal to the FLV reader for every input and split; composed with C49 |
| C65-C66 | fragments, timeline and playlist window of `dash/ngx_rtmp_dash_module.c` | refinement to a packager over unbounded lists |
| C67 | player side of `ngx_rtmp_gop_module.c` | invariant relating the position of the player to the frames of the publisher |
| C68 | linked lists of publishers and players of a stream as a heap | heap invariant over orderly histories, progress theorems |
| C69 | notification contexts, calls, timers and answers of `ngx_rtmp_notify_module.c` | refinement to a machine of five phases |
| C70 | the loop of `ngx_rtmp_live_av` over the players, their queues and tracks, shared header frames, publishers by priority (`CastModel.v`) | simulation between a run and the run without the other players; invariants over operation lists: queue contents, configuration in force, one step with room delivers |
| C71 | reading an HTTP response: header, body by length, chunked or until close, chain of buffers (`HcModel.v`); the header parsers of nginx are a parameter, its chunk parser is transcribed | the loops refine a byte-at-a-time decoder, which is invariant under concatenation; the decoder inverts the grammar of chunked bodies |
| C72 | the fragments of an HLS session in memory as a ring of slots over a heap with reference counts, its window, its queue of frames, and its HTTP requests; use of a released fragment is a crash | invariant relating the state to the list of fragments a small specification cuts from the frames; induction on runs; witnesses and universal refutations |
| C73 | the variants of a TS upload (open segment, ring of finished ones, bandwidth) and the sequence of file operations it makes, each of which may fail; the disk is computed from any prefix of that sequence | an upload with failures is a prefix of one without; invariant relating the variant and the disk to a small specification that cuts the PES into segments; induction on the PES; universal refutations |
| C74 | The dynamic resolver's table as a heap of recycled entries (8 address records of 24 bytes each, as bytes), the callers waiting, the queries on their way (each remembers its entry by address), the event resolver's outcomes | Conservation of callers by a permutation invariant over operations; the memory records as blocks; invariant relating every entry to the latest answer for its name, under the precondition that no name is deleted while a query for it is on its way; refutations without the preconditions |
| C75 | The pool of worker timers as an array whose free list is linked through the data fields; the owned timers as a map from events to nodes with footprints; a handler is the list of operations it makes; any set timer may expire next | The free list as a separation of the array, preserved by every operation inside and outside handlers; the life of each timer as a small automaton that accepts every history; invariants for connections that change hands only without timers; refutations: full pool, stale id, timers left behind |
| C76 | The static pulls of a worker: entries with their free list and links, the old and the new map, sessions, the memory pool of each reading of the file; the loop over the lines, the swap, the stop and the start, function by function | Invariant over good histories (entries, free list and sessions partition what was allocated; one session per line), by a separate invariant for each of the four loops; refutations: a file with a duplicate, late refusals, no or two blocks, a line without session, a reconnect in the wrong moment |
| C77 | One relay (a push line, or the pull of a stream) as a chain of sessions: posted event, timer, place in the list of addresses, delay; time, failures, timeouts, successes and closes in any order | Invariant over the tries made so far (address of each, distance over a round's end, what the pending timer is due), then the closed form of the delays by induction; a separate invariant for progress |
| C78 | The control interface: path and arguments of a request, the walk over server, streams and sessions, drop, pause, resume and redirect, and the gate a paused publisher's frames pass | Selection characterised against a specification on stream names (lemmas on C strings, prefixes and buckets); orders by induction over the selected list; the pause flag by an invariant relating it to the history of pauses, resumes and key frames |
| C79 | the reader of the dynamic configuration: token automaton with its buffer refills, directive table look-up, argument counts, nested blocks (ngx_dynamic_conf.c) | automaton lemma per written atom, buffered reader simulated by the pure one, soundness and completeness of the parser by induction on fuel and on the size of the directive tree, uniqueness of the reading |
| C80 | the live transport stream of `mpegts/ngx_mpegts_live_module.c`: packet writer into 1316-byte buffers, ADTS headers, audio buffer and its stamps, order of flushes, H.264 conversion (shared with C55); the H.265 conversion is a parameter | a relation of output and counters that composes over frames, proved for one message (invariant: the buffer is the ADTS of the sounds held) and by induction for every history; ISO readers for packets, PES and ADTS as specification |
| C81 | `LhvModel.v`: the H.265 handler of the live transport stream, from the message to the bytes of the picture, with explicit writes past the 1 MiB buffer | induction over the units with the Annex B stream as invariant; a potential argument (five bytes out per byte in) for safety; witnesses for the overflows, lost units, damaged units and doubled sets |
| C82 | `TgopModel.v`: the GOP cache of transport stream frames (ring of slots, list of key frames, what leaves it, what a player is sent, HTTP-TS and HLS), with reads of released frames and of slots outside the array as crashes | refinement of the ring to a list; an invariant on the place of the player over any history; counting of key frames for streams that are never refused; universal witnesses for the failures |
| C83 | `IdentModel.v`: the way from the strings of connect, publish, play, play2, closeStream and of HTTP requests to the serverid, the application and the name of a stream, with the arrays of 256 bytes, virtual servers and the dynamic serverid as arguments | string lemmas for each step and their composition for every way of writing a name; an invariant over command sequences (one place, ready after connect, no write behind an array); witnesses for each false reading |
| C84 | inner relay: publishers, players and pslot of one stream in each worker, the entry in the shared zone, joins, leaving with the sessions finalized by it, delays, arrival of a relay at another worker, crash and restart of workers | invariant of one worker (who is in the stream: clients only, or one relay that fetches for players, or one that sends for publishers; slot and zone agree), kept by every event of the worker and by the zone changes of the others; induction over all histories; refutations by an invariant of the state after a short history, for every continuation |
| C85 | Client sessions (`ngx_client.c`): sessions with their phase, connections with the session or pool they point to, the pool of idle connections by server, posted close events and pending resolver callbacks; the user's calls, resolver answers, socket events, timers as steps, a use of freed memory as failure; the parsing of the peer | An invariant of states (sessions and connections match, idle connections once in the pool at their server, counters exact, posted = closed) kept by each step under the user's care; a second relation (sessions do not come back, callbacks only of live ones) for all histories; the failing cases by histories, for all sizes, and for all reachable states |
| C86 | Requests for all workers (`ngx_http_broadcast_module.c`, `ngx_process_slot_module.c`, the request of `ngx_http_inner_proxy_module.c`): the table of slots under starts, exits and crashes of workers, the body filter for the request and for answers, merging of the configuration | Agreement of the table with the processes by induction over histories; the requests sent by induction over calls up to the first worker without address; prefix replacement by cases on the first answer that has it; failing cases for all sizes |
| C87 | `ngx_rtmp_exec_module.c`: filter, run, kill, child-dead, respawn, publish, play with the pull entries, close, behind the session filters of `ngx_rtmp_cmd_module.c` | invariants over all histories: busy commands belong to open sessions or played names, counters are the numbers of players, live processes are those of the busy commands; six refutations |
| C88 | `ngx_dynamic_conf.c` 671-963 (load, check, fetch; content and key of the file as numbers, two readings per check) and `ngx_rtmp_dynamic.c` (names, regular expressions, default server, applications, serverid) | invariant over all histories: one live configuration of accepted content; refinement to "last accepted content" when readings agree and keys differ; the lookup against "first with the name, else first that matches, else first"; races, leak and lookups that fail as refutations |
| C89 | `ngx_rtmp_hls_audio`, `flush_audio`, the sound part of `update_fragment`, opening, closing, end of stream, publishing (HlaModel.v); reuses AAC header, ADTS and chain copying of LtsModel.v | invariant: the buffer holds the ADTS frames of the messages not yet written, its time that of the first; relation between states, held messages and events, composed over the run; damage refuted for every such state |
| C90 | all of `http/ngx_http_set_header.c` (HdrModel.v), with nginx's own sending of headers as a function of the list, the links and the type | invariant `ordered` on the header list and its links, kept by every setting; what is found under a name after one setting, then by induction over sequences; two refutations |
| C91 | `ngx_hls_http_handler` and `ngx_hls_http_master_m3u8_handler` (MstModel.v), with nginx's `ngx_http_arg`; a client's reading of playlists and addresses (MstSpec.v) | exact text of the address (no truncation), read back by the client functions; injectivity of the session text; induction over the requests of a worker; refutations for every such path, host and argument |
| C92 | all of the page made by `ngx_rtmp_stat_module.c` (StatModel.v): the sequence of texts written, the chain of buffers they go to, escaping, lengths of number buffers; a reader of XML as a sequence of events and the expected events (StatSpec.v) | invariant of the chain (contents, sizes, length); a relation "text s reads as events es wherever it stands between elements", composed over the pieces of the page; nesting by induction over the expected events |
| C93 | building of requests in `ngx_http_client.c` and of the address of a callback in `ngx_rtmp_notify_common_url` (HreqModel.v), with the URL parser of UrlModel.v between them; how a server reads requests and arguments (HreqSpec.v) | size and text of the buffer; reading back by lemmas on lines, cuts and splits composed over the parts; the address in the room of 2048 bytes; universally quantified counterexamples for texts that are not escaped |
| C94 | cJSON_Print with format (buffer, growth, strings, arrays, objects; whole numbers below 10^15), the tree of ngx_live_stat and the handler of ngx_rtmp_sys_stat | refinement of the buffer machine to a text, for any outcome of the allocations; a strict JSON reader (separate specification) reads the text back, by induction over values; field relations for the page; refutations for failing memory, the leak, avsync, cut texts and UTF-8 |
| C95 | the frame counter of `ngx_rtmp_monitor_module.c` (first data, counting, the one-second timer, closing; MonModel.v); the backlog of a player as largest surplus of the last seconds (MonSpec.v) | invariant over any list of frames and seconds; refutations by induction on histories (a stream at its rate, an unknown rate, a second stream) |
| C96 | `ngx_rtmp_log_compile_format`, the line made from it and the names kept in the context of `ngx_rtmp_log_module.c` (AlogModel.v); its timers, known by their places in memory (AlogTimers.v); the room for a line (AlogRoom.v); the time of a session (AlogTime.v); the bitrate (AlogRate.v); a grammar of formats and what its parts stand for (AlogSpec.v) | the compiler is sound and complete for the grammar, by induction; the grammar is unambiguous; names by reasoning on the bytes of the context; refutations for an empty argument name and for long stream names |
<!-- more rows -->

Nothing in the list is left out as not expressible; what could only be proved in part is
marked `partial` in MANIFEST.json with what is missing.

## 3. Trusted base

* The kernel of Coq 8.16.1 (and `coqc`, the OCaml compiler and runtime that built it). `vm_compute` is
  used for concrete runs and finite tables (the 256 entries of a CRC table); its
  virtual machine is part of the kernel. No kernel check is switched off.
* No axiom, `Parameter`, section-less `Variable` or `Hypothesis`, `Admitted` or open
  obligation is used, and no module type, functor or plugin.
* `Print Assumptions` stands behind each theorem in its `...Props.v`; for every theorem listed below
  it prints `Closed under the global context`: no theorem rests on any axiom, of the standard library or of
  another library.
* The checker that lists the axioms of all loaded library modules (`coqchk`-style) finds seven declared
  in the standard library file `Coq.ssr.ssrunder` (`Under_rel` and
  its fields: `Coq.ssr.ssrunder.Under_rel.Under_rel`, `Under_rel_from_rel`, `Under_relE`,
  `over_rel`, `over_rel_done`, `under_rel_done`, `Over_rel`), pulled in by the `ssreflect`
  tactic files of the standard library. They are fields of an opaque module of the standard distribution, and no theorem of this
  development depends on them.
* What is not checked by the kernel: that the definitions of `...Model.v` say what the cited lines of C say. This
  was done by reading. Each definition names the file and lines it models and its
  simplifications, so that it can be checked line by line.
* The environment is quantified over, not trusted: allocators, sockets, files, clocks, `rand`, HMAC, block
  ciphers, red-black rebalancing and answer callbacks are arguments or lists of results in the
  theorems, with only the stated properties (for example: a digest has 32 bytes).

### Modelled

`ngx_rtmp_amf.c`, `ngx_rtmp_handler.c` (receive, send, ping, chunk size), `ngx_rtmp_handshake.c`,
`ngx_rtmp_receive.c` (control messages, aggregate, AMF dispatch of the first buffer), `ngx_rtmp_send.c` (constructors),
`ngx_rtmp_shared_module.c`, `ngx_rtmp_bitop.c`, `ngx_rtmp_bandwidth.c`, `ngx_rtmp_codec_module.c` (AAC, AVC and
HEVC headers), `ngx_rtmp_eval.c`, `ngx_rtmp_access_module.c` and `ngx_rtmp_limit_module.c` (handlers),
`ngx_rtmp_exec_module.c` (commands of streams), `ngx_rtmp_dynamic.c` (lookup of servers and applications, without wildcard names), `ngx_rtmp_proxy_protocol.c`, `ngx_rtmp_init.c` (finalization, the session of a relay), `ngx_rtmp_gop_module.c`,
`ngx_rtmp_live_module.c` and `ngx_rtmp_cmd_module.c` (naming, joining and leaving; the broadcast without GOP cache), `ngx_live.c`, `ngx_rtmp_control_module.c` (except the section record), `ngx_live_record.c`,
`ngx_rtmp_monitor_module.c` (without the text of its log), `ngx_rtmp_log_module.c` (formats, the line from given values and its room, names in the context, timers), `ngx_live_relay_httpflv.c` (parser), `ngx_live_relay_static.c` (reading the file, reconnecting), `ngx_live_relay_inner.c` (without other relays), `ngx_live_relay.c` and `ngx_live_relay_simple.c` (reconnecting), `ngx_netcall.c`, `ngx_rtmp_notify_module.c` (admission, the address of callbacks), `ngx_rtmp_stat_module.c`, `ngx_live_stat.c`, `ngx_rtmp_sys_stat_module.c` (the page of the state), `json/cJSON.c` (cJSON_Print), `ngx_rtmp_record_module.c`,
`hls/ngx_rtmp_mpegts.c`, `hls/ngx_rtmp_hls_module.c` (window, playlist, restore, video, sound), `mpegts/ngx_hls_live_module.c` and `mpegts/ngx_hls_http_module.c` (one session; the first answer), `mpegts/ngx_mpegts_live_module.c`, `mpegts/ngx_mpegts_gop_module.c`, `dash/ngx_rtmp_mp4.c`,
`dash/ngx_rtmp_dash_module.c` (fragments, timeline), `http/ngx_http_flv_live_module.c` (naming, stream to the player), `mpegts/ngx_mpegts_http_module.c` (naming), `http/ngx_http_set_header.c`;
`ngx_map.c`, `ngx_rbuf.c`, `ngx_toolkit_misc.c` (URLs), `ngx_event_timer_module.c`, `ngx_timerd.c`, `ngx_dynamic_conf.c` (reading a file, loading, checking for changes), `ngx_dynamic_resolver.c` and `ngx_event_resolver.c` (without callbacks that call the resolver again) of the toolkit module; `ngx_stream_zone_module.c`,
`ngx_multiport_misc.c`; `ngx_ts_stream.c`, `ngx_ts_avc.c`, `ngx_ts_aac.c`, `ngx_ts_hls.c` (without the text of the playlists); `ngx_client.c` (sessions, connections and pool, not the data); `ngx_http_broadcast_module.c`, `ngx_process_slot_module.c` and `ngx_http_inner_proxy_module.c` (without filters); the callbacks of `ngx_http_client.c`, its requests (without bodies) and its reading of responses (with `ngx_client_read`).

### Not modelled

nginx itself (event loop, pools, timers as such, red-black trees, `ngx_snprintf`), configuration
parsing and directive merging (`create_*_conf`, `merge_*_conf`), `ngx_rtmp_variables.c`, most values of `ngx_rtmp_log_module.c`,
the debug pages of `ngx_rtmp_sys_stat_module.c`, the static commands of `ngx_rtmp_exec_module.c`,
the RTMP relay except where it joins or leaves a stream and what it shares with the simple relay, the inner relay together with other relays, the parser and the other printers of `json/` (nothing in the server calls them),
the data `ngx_client.c` writes and reads, `ngx_http_dynamic.c`, nginx's own resolver, `ngx_ts_dash.c` and
`ngx_ts_dash_mp4.c`, logging, and the text of error messages.

### Theorems

<!-- theorems -->
| id | file | theorems (prefix with the id) |
|----|------|------|
| C01 | AmfProps.v | `write_is_encoding`, `read_decodes`, `round_trip` |
| C02 | AmfProps.v | `split_independence` |
| C03 | AmfProps.v | `stores_fit`, `string_truncated` |
| C04 | AmfProps.v | `always_ends`, `crash_only_at_end`, `survives_refuted` |
| C05 | AmfProps.v | `packed`, `fails_only_without_memory` |
| C06 | ChunkProps.v | `chunk_round_trip`, `frames_are_sent`, `time_fix_mismatch_refuted` |
| C07 | ChunkProps.v | `segmentation_independence`, `buffer_has_room`, `every_stream_runs`, `no_livelock` |
| C08 | ChunkProps.v | `interleaved_delivery` |
| C09 | ChunkProps.v | `delivered_within_limit`, `collected_within_limit`, `max_message_refuted` |
| C10 | ChunkProps.v | `no_overflow_when_growing`, `size_in_force`, `collected_data_kept`, `set_chunk_size_refuted`, `growing_loses_data_refuted` |
| C11 | AckProps.v | `acks_when_due`, `unacked_below_window`, `unbounded_traffic`, `contract_refuted_at_reset` |
| C12 | SessProps.v | `outcomes`, `fifo`, `in_bounds` |
| C13 | SessProps.v | `alloc_unheld`, `recycled_exactly`, `no_leak` |
| C14 | MsgProps.v | `copy_exact`, `no_empty_buffer` |
| C15 | MsgProps.v | `complete_body_refuted`, `carries_last_buffer`, `complete_iff_one_buffer` |
| C16 | RbufProps.v | `never_twice`, `available_once`, `report_exact`, `double_return_refuted`, `out_of_memory_refuted` |
| C17 | MapProps.v | `lookup`, `traversal`, `key_types` |
| C18 | MapProps.v | `largest_priority_refuted`, `source`, `rules`, `largest_without_relay`, `priority` |
| C19 | LiveProps.v | `registry`, `no_deletion`, `reuse_refuted`, `two_names_refuted`, `long_name_refuted`, `nul_name_refuted` |
| C20 | HsProps.v, HsPairProps.v | `pair`, `client_echo_refuted`, `response_unchecked`, `server`, `server_any`, `client` |
| C21 | MtsProps.v | `frame`, `short_write_refuted`, `fragment` |
| C22 | MtsProps.v | `stamp`, `pcr`, `stamp_injective` |
| C23 | MtsCbcProps.v | `granularity`, `decrypt`, `same_file`, `iv`, `fragment` |
| C24 | TsProps.v | `segmentation`, `packets`, `buffer`, `all_bytes` |
| C25 | TsProps.v | `roundtrip`, `known_lengths`, `per_stream`, `tables`, `late_clock_refuted` |
| C26 | TsProps.v | `defined`, `pat`, `pat_once`, `pmt` |
| C27 | CrcProps.v | `mpegts_crc`, `ts_crc`, `residue`, `bursts` |
| C28 | BitProps.v | `rtmp_reader`, `ts_reader` |
| C29 | BitProps.v | `golomb`, `golomb_ts`, `undefined_iff`, `undefined_ts_iff`, `total_refuted` |
| C30 | CodecProps.v | `aac`, `adts`, `stale_refuted` |
| C31 | CodecProps.v | `bound`, `wellformed`, `refuted`, `ts_refuted` |
| C32 | CodecProps.v | `unescape`, `safe`, `overread_refuted`, `overflow_refuted` |
| C33 | MsgProps.v | `delivers`, `split_independent`, `terminates`, `back_pointer_needed` |
| C34 | MsgProps.v | `encoding`, `abort_refuted`, `handled`, `round_trip`, `short_ignored` |
| C35 | AdmProps.v | `proxy_line_removed`, `proxy_accepted_exactly`, `proxy_signature_refuted`, `proxy_split_refuted`, `proxy_access_refuted` |
| C36 | AdmProps.v | `counters_exact`, `steady_rate_refuted` |
| C37 | AdmProps.v | `access_ipv4`, `access_ipv6_rules`, `access_ipv6_clients_refuted`, `access_ipv6_networks` |
| C38 | AdmProps.v | `limit_not_enforced_refuted`, `limit_handlers_partial` |
| C39 | UrlProps.v | `every_template`, `eval`, `value`, `incomplete_refuted`, `alloc_refuted` |
| C40 | UrlProps.v | `parse`, `parse_no_slash`, `lossless`, `fragment_refuted`, `args_refuted`, `host_refuted`, `port` |
| C41 | UrlProps.v | `address`, `distinct`, `no_overflow`, `high_ports_refuted`, `sum_overflow_refuted` |
| C42 | ZoneProps.v | `one_owner`, `one_entry`, `told_the_owner`, `owner_decides`, `cleanup_and_delete`, `nul_names_refuted` |
| C43 | ZoneProps.v | `partition`, `nothing_lost`, `counted`, `no_deadlock`, `insert_alone`, `crash_blocks_bucket`, `crash_refuted` |
| C44 | Mp4Props.v | `init`, `video`, `audio`, `long_config_refuted`, `split_config_refuted`, `audio_only_refuted`, `segment`, `bounds` |
| C45 | Mp4Props.v | `offset`, `samples`, `index`, `first_offset_refuted` |
| C46 | RecProps.v | `exact`, `flushed`, `crash`, `packet_refuted`, `errors`, `any`, `short_refuted`, `zero_refuted`, `session`, `frames` |
| C47 | RecProps.v | `line`, `index`, `duration`, `minimum`, `duration_refuted`, `long_name_refuted`, `name_refuted`, `interval_refuted`, `index_refuted` |
| C48 | CallProps.v | `order`, `once`, `answer`, `start`, `update`, `failed_refuted`, `series_refuted`, `nested_refuted`, `swapped_refuted`, `freed_refuted`, `memory_refuted` |
| C49 | FlvProps.v | `prefix`, `complete`, `reads`, `blocked_header_refuted`, `metadata_only_refuted` |
| C50 | FrecProps.v | `files`, `append`, `time`, `everything`, `crash`, `append_crash_refuted`, `append_crash_overwrites`, `write_error_refuted`, `body_error_refuted`, `mask_refuted`, `long_refuted`, `long_file_refuted`, `max_size_refuted`, `full_refuted`, `tiny_refuted` |
| C51 | HlsProps.v | `window`, `finish`, `numbering`, `advances`, `durations`, `keys`, `backwards_refuted`, `event_refuted`, `name_refuted`, `key_refuted` |
| C52 | HlsProps.v | `restore`, `same`, `crash`, `sequence_refuted`, `long_refuted` |
| C53 | GopProps.v | `cache`, `covers`, `not_refused`, `released`, `headers_refuted`, `frozen_refuted` |
| C54 | FinProps.v | `at_most_once`, `exactly_once`, `no_use_after_free`, `player_refuted`, `player_log_refuted`, `player_quiet`, `handlers` |
| C55 | NalProps.v | `h264`, `lossless`, `hevc`, `hevc_one_buffer`, `split`, `safe`, `cut_refuted`, `hevc_split_refuted`, `hevc_overflow_refuted`, `pts`, `pts_refuted` |
| C56 | AckProps.v | `closes_only_silent`, `busy_closes_only_silent`, `silent_peer_closed` |
| C57 | MtsProps.v | `program_map`, `association`, `clock_pid`, `audio_only_refuted` |
| C58 | CodecProps.v | `avc`, `ts_avc`, `avc_refuted`, `hevc`, `hevc_window_refuted` |
| C59 | TsProps.v | `exact`, `refuted` |
| C60 | TsProps.v | `ignored`, `refuted` |
| C61 | TsProps.v | `exact_length`, `waiting`, `refuted` |
| C62 | TsProps.v | `streams`, `tables_refuted` |
| C63 | RegProps.v | `lists`, `no_gone`, `close_first_refuted`, `rejoin_refuted`, `both_refuted`, `long_name_refuted`, `redirect_refuted` |
| C64 | FlvProps.v | `reads`, `split`, `pull` |
| C65 | DashProps.v | `segments`, `no_crash`, `playback`, `crowded_refuted`, `audio_only_refuted` |
| C66 | DashProps.v | `window`, `timeline`, `single_refuted`, `jump_back_refuted` |
| C67 | GopPlayProps.v | `player`, `player_dense`, `flows`, `pause_refuted`, `replay_refuted`, `low_latency_refuted`, `republish_refuted` |
| C68 | JoinProps.v | `lists`, `leaves`, `stays`, `close_first_refuted`, `play2_refuted`, `two_roles_refuted` |
| C69 | NfyProps.v | `machine`, `only_approved`, `once`, `done`, `answered`, `two_roles_refuted`, `two_roles_released_refuted`, `close_first_refuted`, `header_first_refuted`, `meta_twice_refuted`, `meta_headers_refuted`, `message_refuted`, `redirect_refuted` |
| C70 | CastProps.v | `isolated`, `order`, `headers`, `delivery`, `delivery_audio`, `header_time_refuted`, `takeover_refuted`, `hold_refuted`, `hevc_refuted`, `no_header_refuted` |
| C71 | HcProps.v | `chunked`, `length`, `until_close`, `segmentation`, `header_alone_refuted`, `wakeup_refuted`, `large_header_refuted`, `close_refuted`, `empty_refuted`, `excess_refuted`, `rest_refuted` |
| C72 | MemProps.v | `playlist`, `fetch`, `wait`, `target`, `numbers`, `names`, `end`, `begin_refuted`, `sound_refuted`, `window_refuted`, `stale_refuted`, `close_refuted`, `dash_refuted`, `long_refuted`, `open_refuted`, `time_refuted`, `jump_refuted`, `header_refuted`, `waiters_refuted` |
| C73 | ThlProps.v | `playlist_never_lies`, `survives`, `everything_published`, `end_of_upload`, `durations`, `key_pictures`, `master`, `cleaner`, `untimed_segment_refuted`, `clock_back_refuted`, `negative_duration_refuted`, `target_duration_refuted`, `same_name_refuted`, `failure_listed_refuted`, `empty_upload_refuted`, `single_pes_refuted`, `dies_refuted`, `foreign_files_refuted`, `master_before_playlist_refuted` |
| C74 | DresProps.v | `once`, `refresh`, `addresses`, `known_latest`, `single`, `first_callers_refuted`, `delete_refuted`, `ipv6_refuted`, `ipv6_overflow_refuted`, `literal_refuted`, `buckets_refuted`, `empty_refuted`, `no_context_refuted` |
| C75 | TmrProps.v | `pool_life`, `pool_full`, `rearm`, `refresh_refuted`, `stale_id_refuted`, `outside_refuted`, `owned`, `nodes`, `tidy`, `left_behind_refuted` |
| C76 | SpullProps.v | `last_file_in_force`, `reload_keeps`, `refused_changes_nothing`, `connects_by_current_line`, `ended_is_replaced`, `one_worker`, `same_stream_same_worker`, `after_duplicate_refuted`, `free_ring_refuted`, `late_refusal_refuted`, `no_block_refuted`, `two_blocks_refuted`, `no_session_refuted`, `lost_on_close_refuted`, `dropped_reconnect_refuted`, `serverid_refuted`, `workers_disagree_refuted` |
| C77 | RelayProps.v | `addresses_in_turn`, `addresses_in_turn_again`, `tries_apart`, `backoff`, `no_stall`, `up_stays`, `hammers_refuted`, `first_at_once_refuted`, `capped_refuted`, `second_publisher_refuted`, `second_publisher_again_refuted`, `zero_refuted` |
| C78 | CtlProps.v | `selection`, `each_once`, `application`, `orders`, `refused`, `paused`, `name_alone_refuted`, `application_refuted`, `addr_refuted`, `redirect_name_refuted`, `redirect_refuted`, `pause_player_refuted`, `pause_dash_refuted`, `live_off_refuted` |
| C79 | DconfProps.v | `reads`, `only`, `refused`, `any_words`, `layout`, `comment_refuted`, `blank_refuted`, `variable_refuted` |
| C80 | LtsProps.v | `stream`, `delay`, `buffers`, `h264`, `h264_small`, `tail_refuted`, `backwards_refuted`, `header_change_refuted`, `bad_header_refuted`, `leak_refuted`, `long_frame_refuted`, `split_header_refuted`, `audio_only_refuted` |
| C81 | LhvProps.v | `units`, `lossless`, `safe`, `stream`, `picture`, `delimiter_overflow_refuted`, `wrap_overflow_refuted`, `start_code_refuted`, `split_refuted`, `twice_refuted`, `delimiter_refuted` |
| C82 | TgopProps.v | `cache`, `keeps`, `player`, `dense`, `stays`, `flows`, `join`, `released`, `closed_refuted`, `frozen_refuted`, `replay_refuted`, `sound_twice_refuted`, `restart_refuted`, `place_refuted`, `off_refuted` |
| C83 | IdentProps.v | `rtmp`, `address`, `one_place`, `one_place_refuted`, `second_name_refuted`, `play2_refuted`, `connect_first`, `connect_first_refuted`, `array`, `array_refuted`, `distinct`, `distinct_refuted`, `slash_args_refuted`, `question_mark_refuted`, `http`, `same`, `same_address_refuted`, `same_case_refuted`, `http_256_refuted`, `hls`, `hls_refuted`, `hls_long_refuted`, `virtual_refuted`, `relay`, `relay_reload_refuted` |
| C84 | InnerProps.v | `owner`, `release`, `crash`, `relays`, `viewer`, `publisher`, `reach`, `connects`, `viewers_first_refuted`, `publisher_left_refuted` |
| C85 | CliProps.v | `safe`, `own`, `reuse`, `new`, `once`, `closed`, `counts`, `max_idle_refuted`, `full_refuted`, `resolve_refuted`, `idle_write_refuted`, `connected_after_close_refuted`, `stale_timeout_refuted`, `send_timeout_refuted`, `create`, `create_overflow_refuted`, `create_ipv6_refuted` |
| C86 | BcProps.v | `slots`, `reach`, `distinct`, `missing_worker_refuted`, `subrequest_refuted`, `end_again_refuted`, `prefix`, `prefix_length_refuted`, `inherit_refuted`, `failed_answer_refuted`, `proxy` |
| C87 | ExecProps.v | `safe`, `closed_first_refuted`, `closed_first_pull_refuted`, `owned`, `single`, `none_left`, `players`, `push_up`, `pull_up`, `comes_back`, `fork_refuted`, `detach_refuted`, `signal_refuted`, `names`, `names_refuted`, `publish_done`, `done_name_refuted`, `interprocess` |
| C88 | RldProps.v | `safe`, `current`, `follows`, `nothing`, `leak_refuted`, `start_race_refuted`, `check_race_refuted`, `start_fails`, `exact`, `regex`, `default`, `case_refuted`, `no_server_refuted`, `some_server`, `app`, `app_star`, `app_refused`, `serverid_refuted`, `no_block_refuted` |
| C89 | HlaProps.v | `sound`, `buffered`, `starts_with_sound`, `delay`, `memory`, `tail_refuted`, `header_refuted`, `long_refuted`, `mp3`, `mp3_refuted`, `closed_refuted` |
| C90 | HdrProps.v | `ordered`, `set`, `remove`, `last`, `modules`, `empty_refuted`, `server_refuted`, `type`, `names` |
| C91 | MstProps.v | `follow`, `unique`, `workers`, `before`, `host_refuted`, `line_refuted`, `question_refuted`, `scheme_refuted`, `location_refuted` |
| C92 | StatProps.v | `sent`, `page`, `nested`, `text`, `text_same`, `name`, `name_refuted`, `serverid_refuted`, `unreadable_refuted`, `timestamp`, `timestamp_refuted` |
| C93 | HreqProps.v | `size`, `request`, `header`, `once`, `host_refuted`, `callback`, `domain_refuted`, `name_refuted`, `escape_refuted`, `smuggle_refuted`, `long_refuted`, `slash_refuted`, `kinds`, `room` |
| C94 | JsnProps.v | `print`, `prints`, `distinct`, `page`, `once`, `memory_refuted`, `leak_refuted`, `avsync`, `avsync_refuted`, `cut_refuted`, `utf8`, `utf8_refuted` |
| C95 | MonProps.v | `safe`, `backlog`, `first`, `smooth_refuted`, `norate_refuted`, `again_refuted` |
| C96 | AlogProps.v, AlogRateProps.v, AlogRoomProps.v, AlogTimeProps.v, AlogTimersProps.v | `accepted`, `one_reading`, `line`, `parg_refuted`, `names`, `stream_refuted`, `stream_long_refuted`, `bitrate`, `bitrate_refuted`, `bitrate_publisher_refuted`, `bitrate_twice_refuted`, `room`, `room_refuted`, `time`, `seconds`, `interval`, `timers`, `timers_refuted` |
<!-- end theorems -->
