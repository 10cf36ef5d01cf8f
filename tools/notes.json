{
"C06": {
"note": "Holds when both ends agree on repeating extended timestamps (play_time_fix / publish_time_fix); refuted otherwise."
},
"C07": {
"note": "Any two segmentations of the same bytes; plus: recv always has room, every stream has an execution, the loop terminates."
},
"C08": {
"note": "All interleavings and header formats of a conforming sender, formalised as a transition system in ChunkSpec.v."
},
"C09": {
"note": "Announced length is limited; collected bytes are limited for conforming senders and unlimited for a peer that shrinks the length in mid-message (refuted)."
},
"C10": {
"note": "Safe when announced sizes never decrease; a decrease can overflow the buffer and a change can lose data collected for other streams (both refuted)."
},
"C01": {
"note": "Writer output is the AMF0 encoding of the values it was given, reader stores what its description asks for, and the composition; any buffer sizes, any split. Descriptions with the CONTEXT flag are outside C01 (C02-C04 cover them)."
},
"C02": {
"note": "Any two splits of the same bytes, any description, including failing reads."
},
"C03": {
"note": "All stores of any read stay inside the cells; truncated strings are terminated and skipped in full."
},
"C04": {
"note": "Reader always ends. The full survival claim is refuted: an object cut behind an unknown key dereferences NULL. With type-correct descriptions undefined behaviour is possible only when the data is exhausted."
},
"C05": {
"note": "From any partly filled chain; success exactly when the allocator supplies enough room."
},
"C11": {
"note": "Acks go out exactly when a window of bytes is unacknowledged, and fewer than a window stay unacknowledged, for any traffic volume. The literal contract is refuted at the point where the 32-bit byte counter is reset."
},
"C12": {
"note": "Histories of any length over any number of sessions; frames are queued exactly when there is room for their priority, handed to the socket in order and once, indices stay in bounds. merge_frame 0..64 as validated by the configuration."
},
"C13": {
"note": "Reference counts equal the number of holders in every legal history; a frame is in the free list once, exactly when it has no holder. The GOP module's low-latency path, which leaves the queue without releasing (finding), is not a legal release and is outside the op set."
},
"C56": {
"note": "Timer model of the ping exchange: close only after a silent period, silent peers are closed."
},
"C14": {
"note": "Any sequence of chains appended to a new frame, any buffer size >= 1; includes termination."
},
"C15": {
"note": "Refuted for encodings longer than one buffer; the exact payload (the last buffer) is proved for all arguments, and completeness is proved equivalent to fitting one buffer. Memory allocation assumed to succeed."
},
"C33": {
"note": "All lists of parts, all splits, any receiver; plus split independence and termination on arbitrary bytes. The back pointer of the last part is required by the code."
},
"C34": {
"note": "All constructors but abort (refuted) produce the specified message and every conforming message has its effect; handlers read the first buffer only, which is where the chunk layer puts messages of this size when the chunk size is at least 10."
},
"C17": {
"note": "ngx_map.c in full over an arbitrary binary search tree; nginx red-black rebalancing and deletion are arguments assumed only to keep the in-order sequence / remove one node. Keys are compared by contents and assumed unchanged while linked."
},
"C18": {
"note": "The claim is false of the code (pull relay priority -1 sorts above all, theorem _refuted); the exact rule of the code is proved for all histories, and the claim itself for histories without pull relays."
},
"C16": {
"note": "ngx_rbuf.c in full; the allocator is an oracle. Holds for callers that return only what they hold while buffer memory lasts; two refuted theorems show both preconditions are needed."
},
"C19": {
"note": "Registry of ngx_live.c as a linked heap. Right for every history without server deletion (how the modules use it) and for every history with deletion as long as at most one removed server waits for reuse when a server is created; refuted otherwise (stale link of a reused server), for over-long stream names followed by deletion, and for names with a NUL byte. Memory is taken to be available."
},
"C20": {
"note": "HMAC-SHA256 is any function with 32-byte results, rand() any sequence. C20_client_echo_refuted: without digests the client echoes S2 where the protocol asks for S1. C20_response_unchecked: neither response is ever verified."
},
"C27": {
"note": "Both table-driven routines equal the bitwise CRC-32/MPEG-2 for every byte string; a section with its checksum has residue 0 and no other four bytes do; every corruption within 32 consecutive bits is detected."
},
"C21": {
"note": "Every frame and every list of frames; receiver-side parser is the specification. Short writes are not detected by the code: C21_short_write_refuted."
},
"C22": {
"note": "All 64-bit stamps."
},
"C23": {
"note": "For every 16-byte block cipher; AES itself is not modelled."
},
"C57": {
"note": "The announced PCR PID is wrong for audio-only streams: C57_audio_only_refuted."
},
"C28": {
"note": "Both readers (RTMP and TS), any sequence of reads."
},
"C29": {
"note": "Both decoders, every number below 2^64-1; undefined exactly on 64 leading zeros (C29_total_refuted)."
},
"C30": {
"note": "RTMP: every AudioSpecificConfig (plain, SBR, PS, escaped object types, explicit rates) gives the rate, object type and channels of the standard; TS: every ADTS header. Refuted: SBR/PS flags of an earlier header are never cleared."
},
"C31": {
"note": "False of the code: C31_refuted and C31_ts_refuted exhibit 36 byte headers with 2^62 loop turns. Positive: bound linear in size plus the announced count, and linear for well-formed headers. The HEVC loops (at most 255*65535 turns) are not bounded by a theorem."
},
"C32": {
"note": "Exact: unescaping inverts escaping (plus two extra bytes that follow) iff the unescaped unit fits 4094 bytes and two bytes follow; refuted at both boundaries; safe for any content with 4096 byte units and three bytes after."
},
"C58": {
"note": "AVC (RTMP and TS): equal to the standard when there is no cropping or the crop units are 2; refuted for 1080i. HEVC: equal without a window; with a window always one less, proved for all. Scaling lists that are present and AVC emulation bytes are outside the theorems; profiles 128, 134, 135, 138, 139 are excluded (the code does not know their high part)."
},
"C24": {
"note": "reader result is a function of the byte string"
},
"C25": {
"note": "tables and frames read back for all programs, frames, buffer chains and segmentations; late clock of frames without a length shown"
},
"C26": {
"note": "no read without data for any input, limits on tables, PAT and PMT contents exact"
},
"C59": {
"note": "refuted with a stream a sender can produce; exact condition proved"
},
"C60": {
"note": "refuted: neither checksum nor table id is looked at"
},
"C61": {
"note": "exact for non-empty payloads whose header has room for its stamps; refuted for empty payloads"
},
"C62": {
"note": "proved for streams; refuted for repeated tables"
},
"C35": {
"note": "Exact acceptance set; refuted: signature not checked, split lines close the connection, the announced address does not reach the access rules."
},
"C36": {
"note": "Byte total and interval rate exact; refuted: a steady stream is over-reported because an interval spans eleven seconds."
},
"C37": {
"note": "First matching rule decides, for IPv4 clients and for IPv6 networks up to /64; refuted for whole IPv6 addresses and for IPv4-mapped clients because the session keeps 16 bytes of the socket address."
},
"C38": {
"note": "Refuted: NGX_RTMP_CONNECT is never fired, so the limit is never enforced and the counter only decreases. The handlers themselves are proved correct for histories in which they are called."
},
"C39": {
"note": "Full for templates when memory lasts; refuted for incomplete ends and failing allocations, which are silent."
},
"C40": {
"note": "Refuted as stated: fragment without arguments, arguments without a path, bracketed IPv6 hosts. Exact positive theorems for all other URLs and a lossless converse."
},
"C41": {
"note": "Exact characterisation; refuted for ports above 65408 and for the largest number."
},
"C42": {
"note": "Every interleaving of single memory accesses of any number of processes, with crashes and respawns at every point. Refuted for names that contain a NUL byte (the stored C string never compares equal)."
},
"C43": {
"note": "Partition in every state; nothing lost, counter exact and no deadlock as long as no process dies inside the table. A crash inside a bucket is proved to block the bucket and every later worker start for ever (the memory is not a zone of the cycle, so nginx does not unlock it)."
},
"C54": {
"note": "One session at a time; what the handlers of the disconnect event do is left out except that the access log may finalize the session again. Refuted for HTTP players, with the exact precondition under which they are safe."
},
"C63": {
"note": "The streams table is taken as a finite map (C19 shows ngx_live.c implements one); static relays are not modelled. The refutations hold after every orderly history."
},
"C49": {
"note": "FLV stream sent to a player: prefix at any time, complete when the socket takes it, tags read back. Two refutations: frames merged behind a partly sent FLV header are dropped (write_handler calls the filter without the chain while the connection is buffered); a stream with metadata only is cut off."
},
"C64": {
"note": "The relay parser equals a reader of the FLV format for all inputs and all divisions into buffers; composed with the player side."
},
"C44": {
"note": "Init and media segments are properly nested box files carrying the configuration, for every codec context and sample list that fits; nothing is written past the buffer. Refuted: no AVC configuration (NULL dereference), configuration split over buffers, AAC configuration of 105 bytes or more."
},
"C45": {
"note": "Data offset, sizes, durations, flags read back by an independent demuxer for every sample list and mask; index size reaches the end of file. Refuted: the first_offset field of sidx is the duration instead of 0."
},
"C65": {
"note": "Files and raw data are taken to be written in full; the audio-only crash and the loss beyond 1024 frames a fragment are refuted variants."
},
"C66": {
"note": "Single-frame durations and clocks that jump back are refuted variants. The XML around the timeline is not modelled."
},
"C53": {
"note": "The ring of ngx_rtmp_gop_module.c refines a list of the most recent frames for every stream that shows a key frame before the ring is full (or sound with single repeated headers); head is a key frame once one was dropped; at most Q-1 frames; headers kept apart are the right ones; all references returned once at the end. Refuted: Q codec headers in a row crash the server; a group of pictures of Q-1 frames freezes the cache for good."
},
"C67": {
"note": "Proved for players that are offered every frame (not paused), unchanged metadata, at most two leading codec headers and no refused frame; refuted for pause, refusal, low_latency and a replaced publisher."
},
"C51": {
"note": "Histories of publishes, frames with arbitrary timestamps, failures and partial playlist writes are related to a packager over unbounded lists; the published text is read by an independent m3u8 reader. Refuted: durations when time steps back by less than a second, event playlists, newlines in names, keys after a failed key write. Doubles are kept as exact ticks; variant playlists are not modelled."
},
"C52": {
"note": "Round trip through the 4096-byte line reader for any window, key and id; every crash point of the playlist write. Sequence numbers from 2^53 on and entries longer than the 1024-byte buffer are refuted."
},
"C55": {
"note": "Reader of ISO 14496-10 Annex B over every access unit and buffer split, H.264 and H.265 (ngx_rtmp_hls_video). Refuted: messages cut inside a unit or ending in a one-byte unit crash when errors are logged; H.265 units starting with a zero byte across buffers; three bytes past the output buffer; negative composition times. The same loop in mpegts/ngx_mpegts_live_module.c and ngx_live_record.c is not modelled."
},
"C46": {
"note": "Exact content for any calls, crash prefix, failing writes; whole sessions from messages to files. Short writes, a buffer of size 0 and crashes in mid-packet refuted."
},
"C47": {
"note": "Index lines read back, tile the file over any number of sessions; slice durations. Long names, the name in the line, intervals under a second, a failing index and audio after video stops refuted."
},
"C48": {
"note": "Proved for answer functions that do not themselves start a call (none does today) and requests that do not run out of memory half way; nested starts, failed starts and memory failures are refuted separately."
},
"C68": {
"note": "Proved for sessions that take one role and do not close before they start; refuted, for every prior history, for closeStream before publish/play, for play2 as first command and for a session that both publishes and plays (use of a released session by the next reader)."
},
"C69": {
"note": "One role per session: refinement to the machine of NfySpec.v for every configuration and history, with corollaries (only approved, once, done, answered). The refuted theorems give the orders that admit by the wrong approval, use a released session or follow a null stream. HTTP transport and the text of the call are not part of this model."
},
"C50": {
"note": "Refinement of the whole recorder to a specification of tag lists; crash safety at every point of the write log; time and completeness. Refuted: append after a crash behind a tag header overwrites; write errors use a closed descriptor or spoil the file; flags of an appended file; files of 2^31 ms; max_size truncation and loss."
},
"C70": {
"note": "All operation sequences. Isolation and order hold for any publishers and codecs; headers and delivery for one publisher of AVC/AAC not held by the control interface. GOP cache off (see C67 for the cache). Five refutations name the cases where frames reach players under a wrong or missing header."
},
"C71": {
"note": "parse stands for the status line and header parsers of nginx; the chunk parser of nginx is transcribed. Failing cases are proved as refutations."
},
"C72": {
"note": "One session; the publisher cache that feeds it and the HTTP framing by nginx are outside the model. The positive theorems assume a run whose frames begin at a boundary, without small steps back in time, with fragments that fit the queue; each assumption has a refutation that drops it."
},
"C73": {
"note": "Proved for every upload, failing file operation and crash point; eleven ways in which the output is wrong are proved as refutations."
},
"C74": {
"note": "Callers that call the resolver again from their callback, and allocation failures, are not modelled. Refuted without the preconditions: answers of two or more addresses (the first callers may be told there is none), deletion while a query is on its way, IPv6 addresses, literal IPv6 or unix names, no buckets, the empty name, no memory for a query."
},
"C75": {
"note": "Refuted without the preconditions: a handler that re-arms itself when the pool is exhausted is never called again; a stale id deletes the timer of another; a deletion with the error value reads outside the array; a timer left behind by a former owner blocks the timers of its connection for good. nginx own timer tree is not modelled."
},
"C76": {
"note": "for files with one block whose streams are distinct, refused only before the block is taken; each missing precondition has a refutation"
},
"C77": {
"note": "Holds for chains of vain tries. Refuted without that: an upstream that accepts and closes is retried at once any number of times; the first reconnect with one address is not immediate; the first pause may exceed relay_reconnect; a pull that succeeds beside another publisher is torn down as timed out, again and again; failed_reconnect 0 does not pause."
},
"C78": {
"note": "Selection, drop, pause, resume and the pause gate hold. Refuted: a name without an application selects every stream of the server; an application also selects those below it; addr is compared with the server address; a redirect ignores the new name and only takes the session out of its stream; pausing a player does nothing; DASH and the index recorder ignore a pause; with live off nothing resumes. The section record is not modelled."
},
"C79": {
"note": "Comments and blanks as long as the read buffer, and a variable in braces at the beginning of an unquoted word, are refuted. Handlers of single directives are arbitrary verdicts."
},
"C80": {
"note": "Every history of messages, any conversion of H.265, any settings with 2*sync <= delay: continuity, pictures, clocks, ADTS groups, stamps, delay and buffers. Fails, each with a universal theorem: the last sounds are never sent, nothing is sent while times go back, new sequence headers are ignored, unsupported audio configurations send raw messages behind five uninitialised bytes, sounds over 8184 bytes are unreadable, a split sequence header is sent as sound, no video no stream."
},
"C81": {
"note": "Units, safety for small messages and the link to the stream of C80; overflows, lost and damaged units and doubled parameter sets as refutations."
},
"C82": {
"note": "HTTP-TS and HLS players of the transport stream GOP cache. The positive theorems assume that the cache takes every frame once it holds something (C82_dense gives a condition on the stream); the refutations show what happens otherwise."
},
"C83": {
"note": "RTMP naming, HTTP naming and relays proved for hosts and applications as users write them, one connect and one configuration; refuted for a second connect, play2, play behind publish, commands before connect (NULL pointer), long applications at an address (array overrun), long HLS names (array overrun), URLs ending in a question mark, virtual and dynamic serverids with HLS and relays, capitals, names of 256 bytes, applications of two levels."
},
"C84": {
"note": "one stream, any number of workers; refuted where a worker has both viewers and publishers"
},
"C85": {
"note": "holds for careful users; eight ways it fails are proved with witnesses; histories with write data are not modelled"
},
"C86": {
"note": "holds when every worker runs and prefix and replacement have one length; seven ways it fails are proved"
},
"C87": {
"note": "One worker, one application. Static commands and exec_record_done (never run by the code) are left out; pipe, fcntl and fork fail or succeed together."
},
"C88": {
"note": "Refuted parts: temporary pools left, two races on reading, capital letters, no server, serverid."
},
"C89": {
"note": "Sound is complete, in order and timed for every fine history with an end message; memory safety for any message; the loss at an abrupt leave, unsayable headers, long frames, full MP3 buffers and closed segments are refuted."
},
"C90": {
"note": "Set, remove and last-value theorems for every ordered response; ordered holds of every response made from a fresh one; empty settings and Server/Date are refuted."
},
"C91": {
"note": "Follow, uniqueness over any run and over workers, independence of the byte before the path; missing Host, line feeds, question marks, scheme and location arguments refuted."
},
"C92": {
"note": "The page is read back exactly by an XML reader when the ids of servers contain neither < nor &; refuted: ids are written unescaped (C92_serverid_refuted, C92_unreadable_refuted), names are not always distinguishable (C92_name_refuted), times from 2^31 ms on are negative (C92_timestamp_refuted)."
},
"C93": {
"note": "Requests and callbacks are read back exactly under conditions on the texts; refuted without them: C93_domain_refuted, C93_name_refuted, C93_escape_refuted, C93_smuggle_refuted (unescaped texts), C93_long_refuted (address cut at 2048 bytes), C93_slash_refuted, C93_host_refuted."
},
"C94": {
"note": "Printer with whole numbers below 10^15; the tree itself is built without failing memory. Refuted: surviving a failed allocation, giving back the tree, avsync with video behind, texts over 1023 bytes, UTF-8 with odd stream names."
},
"C95": {
"note": "counter of frames, stalls and first data of the monitor; three claims refuted as stated: smooth streams, unknown rate, later streams"
},
"C96": {
"note": "compiler of formats against a grammar, the line and its room, names in the context, timers, session time, bitrate; refuted as stated: parg_ alone, stream names of 256 bytes and more (also beyond the line), timers of a session both published and played, bitrates of large readings, of publishers at the restart of their counter and in a second log"
}
}