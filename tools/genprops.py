#!/usr/bin/env python3
"""Regenerates /verif/properties.jsonl from the table below (plain data, no logic)."""
import json, os
M = "modules/nginx-rtmp-module/"
T = "modules/nginx-toolkit-module/"
S = "modules/nginx-ts-module/src/"
P = "modules/nginx-multiport-module/"
rows = []
def p(title, statement, quantifier, why, anchors):
    rows.append(dict(id="C%02d" % (len(rows) + 1), title=title, statement=statement,
                     quantifier=quantifier, why_tests_cant=why, anchors=anchors))

# --- AMF0 -------------------------------------------------------------
p("AMF0 encode/decode round trip",
  "Writing a list of AMF0 values (numbers, booleans, strings shorter than 65536 bytes, nulls, objects and arrays of such values, nested to any depth) and reading the bytes back with a matching element description yields exactly the values written and consumes exactly the bytes written.",
  "every list of AMF0 values and every nesting depth",
  "values, string contents, key sets and nesting are unbounded; tests cover a handful of messages",
  [M+"ngx_rtmp_amf.c:ngx_rtmp_amf_write", M+"ngx_rtmp_amf.c:ngx_rtmp_amf_read"])
p("AMF0 reading does not depend on how the message is split over buffers",
  "Reading an AMF0 message gives the same result and the same values whatever way its bytes are cut into the buffers of the input chain (including empty buffers).",
  "every byte string, every element description and every split of the bytes into buffers",
  "the splits of an n byte message are exponential in n and are chosen by the peer's chunk size",
  [M+"ngx_rtmp_amf.c:ngx_rtmp_amf_get", M+"ngx_rtmp_amf.c:ngx_rtmp_amf_read"])
p("AMF0 string reads never overrun the caller's field",
  "Whatever bytes the peer sends, a string field of declared capacity n >= 1 receives at most n bytes, the last of them a NUL terminator, and the value stored is the prefix of the peer's string that fits; the reader stays aligned on the next value.",
  "every peer message and every field capacity >= 1",
  "safety against every hostile message is a universal statement over byte strings",
  [M+"ngx_rtmp_amf.c:ngx_rtmp_amf_read"])
p("The AMF0 reader survives every message",
  "Reading any byte string with any element description ends with a result code and never dereferences a null element description. (False of the code: a message that ends right after an object key, or after the type marker of a skipped variant, makes the reader dereference NULL.)",
  "every byte string and element description",
  "crash freedom ranges over all hostile inputs",
  [M+"ngx_rtmp_amf.c:ngx_rtmp_amf_read"])
p("AMF0 output is packed into buffers without loss",
  "Encoding values into freshly allocated buffers of any size yields a chain whose contents concatenate to the encoding of the values, with every buffer except the last one full.",
  "every list of values, every buffer size >= 1 and every initial fill of the first buffer",
  "buffer boundaries can fall inside any field of any value",
  [M+"ngx_rtmp_amf.c:ngx_rtmp_amf_put", M+"ngx_rtmp_amf.c:ngx_rtmp_amf_write"])
# --- chunk layer -------------------------------------------------------
p("RTMP chunk stream round trip",
  "Every sequence of messages the server sends is reconstructed by a receiver running the same chunk parser: same type, chunk stream id, message stream id, timestamp, length and payload, in the same order, for every chunk size.",
  "every list of messages (any payload, any timestamp incl. extended, any csid) and every chunk size >= 1",
  "payload length x chunk size x timestamp x csid combinations are unbounded; errors appear at boundaries (0xffffff, 63/64, 319/320, multiples of the chunk size)",
  [M+"ngx_rtmp_handler.c:ngx_rtmp_prepare_out_chain", M+"ngx_rtmp_handler.c:ngx_rtmp_recv"])
p("RTMP receive does not depend on TCP segmentation",
  "The sequence of messages delivered to the handlers depends only on the bytes the peer sent, not on how recv() returned them.",
  "every byte stream and every way of cutting it into recv() results",
  "the segmentation is chosen by the network; the cuts of an n byte stream are exponential in n",
  [M+"ngx_rtmp_handler.c:ngx_rtmp_recv"])
p("Interleaved chunk streams do not mix",
  "If the chunks of messages on different chunk streams are interleaved in any order, every message is delivered with exactly its own payload.",
  "every set of messages on distinct chunk streams and every interleaving of their chunks",
  "the number of interleavings is exponential",
  [M+"ngx_rtmp_handler.c:ngx_rtmp_recv"])
p("An incoming message never occupies more than max_message bytes",
  "Whatever chunks the peer sends, the payload buffered for one message never exceeds the configured max_message. (False of the code: a new message header in the middle of a message may announce a smaller length than already received, after which the length check wraps.)",
  "every byte stream",
  "universal over hostile byte streams",
  [M+"ngx_rtmp_handler.c:ngx_rtmp_recv"])
p("Changing the incoming chunk size keeps buffered bytes inside their buffer",
  "When the peer announces a new chunk size, the unread bytes moved to the new buffer fit in it. (False of the code when the new size is smaller than the bytes left over.)",
  "every old size, new size and number of unread bytes",
  "a memory safety claim over every peer-chosen triple",
  [M+"ngx_rtmp_handler.c:ngx_rtmp_set_chunk_size", M+"ngx_rtmp_handler.c:ngx_rtmp_recv"])
p("Acknowledgements are sent once per window",
  "The number of acknowledgements sent grows by one each time the bytes received since the last one reach the peer's window, and the unacknowledged byte count is below the window plus one read after every read.",
  "every sequence of read sizes and every window",
  "ranges over unbounded histories of reads, including counter reset",
  [M+"ngx_rtmp_handler.c:ngx_rtmp_recv"])
p("The per-session output queue is a bounded FIFO",
  "Frames leave the queue in the order they were accepted, an accepted frame is never lost or overwritten before it is taken, the number of queued frames stays below the queue size, and a frame is refused only when the occupancy for its priority is reached.",
  "every queue size >= 1 and every sequence of sends and takes with any priorities",
  "ranges over unbounded schedules of producers and the socket becoming writable; ring wrap-around",
  [M+"ngx_rtmp_handler.c:ngx_rtmp_send_message", M+"ngx_rtmp_handler.c:ngx_rtmp_send", M+"ngx_rtmp_handler.c:ngx_rtmp_prepare_out_chain"])
p("A shared frame is recycled exactly when its last holder releases it",
  "A frame acquired n times is recycled at its n-th release and not before; a frame never sits twice in the recycle list, and no live frame is handed out again.",
  "every sequence of allocations, acquisitions and releases that pairs them",
  "ranges over all interleavings of players and publishers holding the frame",
  [M+"ngx_rtmp_shared_module.c:ngx_rtmp_shared_alloc_frame", M+"ngx_rtmp_shared_module.c:ngx_rtmp_shared_free_frame", M+"ngx_rtmp.h:ngx_rtmp_shared_acquire_frame"])
p("Copying a payload into shared buffers preserves it",
  "Appending a chain to a shared frame produces buffers of the configured size whose concatenation is the concatenation of what was appended, and every buffer but the last is full.",
  "every sequence of appended chains and every buffer size >= 1",
  "segmentations are unbounded and the chunker relies on the fullness of every inner buffer",
  [M+"ngx_rtmp_shared_module.c:ngx_rtmp_shared_append_chain"])
p("A command message carries its complete AMF body",
  "The payload of a command message built by the server is the AMF0 encoding of its arguments. (False of the code once the encoding exceeds one buffer: only the last buffer is kept.)",
  "every argument list and buffer size",
  "fails only beyond a size threshold that depends on configuration and argument lengths",
  [M+"ngx_rtmp_send.c:ngx_rtmp_append_amf", M+"ngx_rtmp_send.c:ngx_rtmp_create_amf"])
p("Pooled buffers are never handed out twice",
  "At any time the buffers handed out by the buffer pool and not returned are pairwise distinct, of the requested size class, and returning a buffer once makes it available exactly once.",
  "every sequence of get and put operations in which every put returns a held buffer",
  "ranges over all allocation histories",
  [T+"ngx_rbuf.c:ngx_get_chainbuf", T+"ngx_rbuf.c:ngx_put_chainbuf"])
p("The ordered map implements a finite map with sorted traversal",
  "After any sequence of insertions and deletions lookup returns the value of the last insertion not deleted, and traversal from begin to end visits every key once in ascending order of (hash, key).",
  "every operation sequence and every key set",
  "unbounded histories and tree shapes",
  [T+"ngx_map.c:ngx_map_insert", T+"ngx_map.c:ngx_map_find", T+"ngx_map.c:ngx_map_delete", T+"ngx_map.c:ngx_map_begin", T+"ngx_map.c:ngx_map_next"])
p("The publisher with the highest priority feeds the players",
  "When several publishers push the same stream, the one selected as source is the one with the numerically largest priority. (False of the code for the pull relay, whose priority -1 is ordered above every other.)",
  "every set of publishers and priorities",
  "depends on the joint ordering of all priorities",
  [M+"ngx_rtmp_live_module.c:ngx_rtmp_live_join", T+"ngx_map.c:ngx_map_rbegin"])
p("The stream registry finds exactly the registered servers and streams",
  "After any history of creating and deleting servers and streams, looking up a name yields the entry created for that name if it was not deleted, and nothing otherwise. (False of the code once a deleted server entry is reused: its stale link puts a freed entry back into a bucket.)",
  "every sequence of create, lookup and delete operations and every name",
  "unbounded histories and hash collisions",
  [M+"ngx_live.c:ngx_live_create_server", M+"ngx_live.c:ngx_live_create_stream", M+"ngx_live.c:ngx_live_delete_stream", M+"ngx_live.c:ngx_live_fetch_stream"])
p("RTMP handshake completes and digests verify",
  "However the sockets cut the two byte streams, the server answers a client's challenge with version byte 3, a challenge signed with a digest the peer's check accepts, and a response signed with a key made from the client's digest (or the client's own challenge when it has no digest); it completes exactly when 3073 bytes were read and everything was sent, refuses another version byte without sending anything, and never touches memory outside its buffer. The client side does the same towards the server, and two peers running this code always complete.",
  "every challenge block, random numbers, digest function with 32-byte results, buffer content, input length and schedule of partial reads and writes",
  "offsets are sums of random bytes; partial reads and writes can split the 6146 bytes anywhere",
  [M+"ngx_rtmp_handshake.c:ngx_rtmp_find_digest", M+"ngx_rtmp_handshake.c:ngx_rtmp_write_digest"])
# --- mpegts ------------------------------------------------------------
p("MPEG-TS fragments are well formed and lossless",
  "Every media frame written to a TS fragment becomes a whole number of 188 byte packets starting with 0x47 on the frame's PID with consecutive continuity counters, and concatenating their payloads gives the PES header followed by the frame's bytes.",
  "every frame size, pid, timestamps and initial counter",
  "stuffing cases depend on size mod 184 and on flags; counters wrap mod 16",
  [M+"hls/ngx_rtmp_mpegts.c:ngx_rtmp_mpegts_write_frame"])
p("Timestamps in TS streams survive encoding",
  "The PTS/DTS/PCR fields written decode to the timestamp modulo 2^33.",
  "every 64-bit timestamp",
  "bit packing over 2^33 values with marker bits",
  [M+"hls/ngx_rtmp_mpegts.c:ngx_rtmp_mpegts_write_pts", M+"hls/ngx_rtmp_mpegts.c:ngx_rtmp_mpegts_write_pcr"])
p("HLS encryption does not depend on write granularity",
  "The encrypted fragment is the CBC encryption of the padded concatenation of everything written, whatever the sizes of the individual writes, and decrypts to it, for every block cipher.",
  "every block cipher, key, and sequence of writes",
  "the buffering logic has to be right for every split into writes",
  [M+"hls/ngx_rtmp_mpegts.c:ngx_rtmp_mpegts_write_file", M+"hls/ngx_rtmp_mpegts.c:ngx_rtmp_mpegts_close_file"])
p("TS ingest does not depend on HTTP segmentation",
  "The TS demultiplexer processes the same sequence of 188 byte packets however the body is split into buffers and calls.",
  "every byte stream and every segmentation",
  "exponentially many segmentations chosen by the network",
  [S+"ngx_ts_stream.c:ngx_ts_read"])
p("TS mux then demux returns the elementary stream",
  "An access unit written by the TS packetizer and parsed by the TS demultiplexer comes back with the same payload, PTS and DTS.",
  "every payload, pid, stream id, and timestamps below 2^33",
  "stuffing and adaptation field cases depend on the payload length",
  [S+"ngx_ts_stream.c:ngx_ts_write_pes", S+"ngx_ts_stream.c:ngx_ts_packetize", S+"ngx_ts_stream.c:ngx_ts_read_pes"])
p("TS section parsing stays inside the packet data",
  "Parsing a PAT or PMT never reads outside the bytes collected for the section, and program count times entry size never exceeds the section length.",
  "every byte content of the section",
  "hostile input",
  [S+"ngx_ts_stream.c:ngx_ts_read_pat", S+"ngx_ts_stream.c:ngx_ts_read_pmt"])
p("Section checksums are the MPEG CRC-32",
  "The table-driven checksum over any byte string equals the bitwise CRC-32/MPEG-2, so a section followed by its checksum has residue zero.",
  "every byte string",
  "unbounded inputs",
  [S+"ngx_ts_stream.c:ngx_ts_crc32", M+"hls/ngx_rtmp_mpegts.c:ngx_rtmp_mpegts_crc32"])
# --- bit level ---------------------------------------------------------
p("The bit reader never reads past its buffer and returns the requested bits",
  "Reading any number of bits returns the big-endian value of these bits when they exist; otherwise the reader raises its sticky error flag and never touches memory outside the buffer.",
  "every buffer and every sequence of reads",
  "bit positions and buffer lengths are unbounded",
  [M+"ngx_rtmp_bitop.c:ngx_rtmp_bit_read"])
p("Exp-Golomb decoding inverts Exp-Golomb encoding",
  "Decoding the Exp-Golomb code of any number below 2^32 gives that number and consumes exactly its code.",
  "every number and every following bits",
  "2^32 values at every bit offset",
  [M+"ngx_rtmp_bitop.c:ngx_rtmp_bit_read_golomb", S+"ngx_ts_avc.c"])
p("AAC configuration is understood as specified",
  "For every AudioSpecificConfig the sample rate, profile and channel configuration derived are those of the MPEG-4 standard.",
  "every header",
  "escape values and table indices must all be right",
  [M+"ngx_rtmp_codec_module.c:ngx_rtmp_codec_parse_aac_header"])
p("Parsing a video header takes time proportional to its size",
  "Processing a sequence header performs a number of steps bounded by its length. (False of the code: counts read from the header drive loops that are not stopped by the end of data.)",
  "every header",
  "worst case over all headers",
  [M+"ngx_rtmp_codec_module.c:ngx_rtmp_codec_parse_avc_header", S+"ngx_ts_avc.c:ngx_ts_avc_decode_params"])
p("HEVC parameter sets are unescaped within bounds",
  "Emulation prevention removal inverts insertion and never writes outside its destination. (False of the code for parameter sets longer than the 4096 byte stack buffer.)",
  "every NAL unit",
  "hostile lengths",
  [M+"ngx_rtmp_codec_module.c:ngx_rtmp_codec_parse_hevc_nal_to_rbsp"])
p("Aggregate messages are split into their parts",
  "An aggregate message delivers its sub-messages in order, each with its own type, payload and timestamp rebased on the aggregate's timestamp.",
  "every list of sub-messages and every buffer split",
  "unbounded lists, buffer boundaries inside tag headers",
  [M+"ngx_rtmp_receive.c:ngx_rtmp_aggregate_message_handler"])
p("Protocol control messages say what their API says",
  "Every control message constructor produces a message whose type and payload are those of the RTMP specification, so that the receiving handler recovers the arguments. (False of the code for abort, which is sent with the type of Set Chunk Size.)",
  "every argument value",
  "2^32 argument values, byte order",
  [M+"ngx_rtmp_send.c", M+"ngx_rtmp_receive.c:ngx_rtmp_protocol_message_handler", M+"ngx_rtmp_receive.c:ngx_rtmp_user_message_handler"])
p("The PROXY protocol prefix is stripped exactly",
  "A connection that starts with a well-formed PROXY v1 line has exactly this line removed from the input and the client address replaced. (The signature test of the code accepts lines that are not PROXY lines.)",
  "every input",
  "hostile input",
  [M+"ngx_rtmp_proxy_protocol.c:ngx_rtmp_proxy_protocol_recv"])
p("Byte counters are exact",
  "The total number of bytes reported by a traffic counter equals the sum of the updates, and the reported rate is the number of bytes of the last completed interval divided by its length.",
  "every sequence of updates at non-decreasing times",
  "unbounded histories",
  [M+"ngx_rtmp_bandwidth.c:ngx_rtmp_update_bandwidth"])
p("The first matching access rule decides",
  "A publish or play request is allowed iff the first rule for that direction and address family whose network contains the client address is an allow rule, or no rule matches.",
  "every rule list, address and direction",
  "rule lists and addresses are unbounded",
  [M+"ngx_rtmp_access_module.c:ngx_rtmp_access"])
p("The connection limit counts live connections",
  "The shared counter equals the number of connections that were accepted and not yet closed, and an accepted connection never makes it exceed the maximum.",
  "every schedule of connects and disconnects over all workers",
  "unbounded schedules",
  [M+"ngx_rtmp_limit_module.c"])
p("Template evaluation substitutes exactly the variables",
  "Expanding a template yields its literal text with every ${name} or $name replaced by the variable's value and every escaped character kept literally.",
  "every template and every variable environment",
  "unbounded templates and buffer growth",
  [M+"ngx_rtmp_eval.c:ngx_rtmp_eval"])
p("URLs are split into their components",
  "Parsing scheme://user@host:port/path?args#fragment returns exactly these components; re-assembling them gives the URL. (False of the code for a fragment without arguments.)",
  "every URL",
  "unbounded strings with optional parts",
  [T+"ngx_toolkit_misc.c:ngx_parse_request_url", T+"ngx_toolkit_misc.c:ngx_request_port"])
p("Each worker process listens on its own port",
  "The listening address derived for worker k keeps host and adds k to the port; two different workers never share an address and no derived port exceeds 65535.",
  "every address and worker slot",
  "all ports and slots; string buffer sizes",
  [P+"ngx_multiport_misc.c:ngx_multiport_get_port"])
p("At most one worker owns a stream",
  "In the shared stream table, at any time and whatever the interleaving of the workers and whichever workers crash and are cleaned up, a stream name is owned by at most one worker; every worker asking for it is told that owner.",
  "every interleaving of workers, every crash point followed by its cleanup",
  "concurrent schedules and crash points",
  [P+"ngx_stream_zone_module.c:ngx_stream_zone_insert_stream", P+"ngx_stream_zone_module.c:ngx_stream_zone_delete_stream"])
p("Stream table slots are conserved",
  "The entries of the shared stream table are always partitioned into free entries and entries linked in exactly one bucket, so that deleting streams always makes room for as many new ones.",
  "every sequence of inserts, deletes and worker cleanups",
  "unbounded histories",
  [P+"ngx_stream_zone_module.c"])
p("DASH fragments are well-formed box trees",
  "Every init segment and media fragment header is a sequence of boxes in which each size field equals the length of the box and children tile their parent exactly.",
  "every track configuration and sample list that fits in the buffer",
  "sizes depend on all contents",
  [M+"dash/ngx_rtmp_mp4.c:ngx_rtmp_mp4_write_moov", M+"dash/ngx_rtmp_mp4.c:ngx_rtmp_mp4_write_moof"])
p("Sample data offsets in DASH fragments point at the data",
  "The data offset of a fragment's run points at the first byte after the mdat header, and sample sizes sum to the mdat payload.",
  "every sample list and sample mask",
  "depends on the number of samples and fields",
  [M+"dash/ngx_rtmp_mp4.c:ngx_rtmp_mp4_write_trun"])
p("Recorded files contain exactly what was written",
  "The buffered recorder writes the concatenation of all data in order, whatever the buffer size and write sizes.",
  "every sequence of writes and flushes and every buffer size >= 1",
  "unbounded sequences of write sizes",
  [M+"ngx_live_record.c:ngx_live_record_write_buf", M+"ngx_live_record.c:ngx_live_record_flush"])
p("Record index entries tile the file",
  "The byte ranges written in the record index are contiguous, non overlapping and cover the recorded file.",
  "every sequence of slices",
  "unbounded histories",
  [M+"ngx_live_record.c:ngx_live_record_write_index"])
p("A control-plane HTTP call is answered at most once",
  "For every call created, the callback is invoked at most once, never after the call was detached or destroyed, and a timeout and a response never both reach the caller.",
  "every interleaving of responses, timeouts, detaches and connection cleanups",
  "schedules",
  [M+"ngx_netcall.c"])
p("HTTP-FLV output is a valid FLV stream carrying every frame",
  "The bytes sent to an HTTP-FLV player parse as an FLV header followed by tags; the tags carry exactly the audio, video and metadata frames queued, in order, with 32-bit timestamps, and each previous-tag-size field equals the size of the tag before it.",
  "every sequence of queued frames with payload below 2^24 bytes",
  "unbounded sequences, byte order of extended timestamp",
  [M+"http/ngx_http_flv_live_module.c:ngx_http_flv_live_prepare_out_chain"])
p("Recorded FLV files are complete, and appending continues them",
  "For any sequence of publish, unpublish, manual start and stop and frames, with a working disk, every file the recorder leaves is empty or a well-formed FLV file whose tags are exactly the codec headers and the wanted frames, in order; appending finds the end and the last timestamp of what is there, keeps all of it in front and lets time continue; after a crash at any moment a recording still reads back with everything written before the event.",
  "every configuration, every previous contents of the files, every sequence of events and frames, every crash point including the middle of a write",
  "every previous contents, event order and crash point",
  [M+"ngx_rtmp_record_module.c:ngx_rtmp_record_node_open", M+"ngx_rtmp_record_module.c:ngx_rtmp_record_write_frame", M+"ngx_rtmp_record_module.c:ngx_rtmp_record_node_av", M+"ngx_rtmp_record_module.c:ngx_rtmp_record_node_close"])
p("The HLS playlist is a sliding window of the last fragments",
  "The playlist lists at most the configured number of fragments, they are the most recently completed ones in order, and the media sequence number advances by one for every fragment that leaves the window.",
  "every sequence of completed fragments and every window size >= 1",
  "unbounded histories, circular buffer wrap-around",
  [M+"hls/ngx_rtmp_hls_module.c:ngx_rtmp_hls_next_frag", M+"hls/ngx_rtmp_hls_module.c:ngx_rtmp_hls_get_frag", M+"hls/ngx_rtmp_hls_module.c:ngx_rtmp_hls_write_playlist"])
p("The HLS playlist survives a restart",
  "Restoring a playlist written earlier yields the same fragments (ids, discontinuity marks, key ids) and the same media sequence number.",
  "every fragment window and every crash point between playlist updates",
  "unbounded windows, number formatting for every 64-bit id",
  [M+"hls/ngx_rtmp_hls_module.c:ngx_rtmp_hls_restore_stream", M+"hls/ngx_rtmp_hls_module.c:ngx_rtmp_hls_write_playlist"])
p("The GOP cache always starts at a key frame and is bounded",
  "After any sequence of frames the GOP cache is empty or starts with a key frame (or is audio only), holds the most recent frames in order, and does not exceed its configured limits.",
  "every frame sequence",
  "unbounded histories",
  [M+"ngx_rtmp_gop_module.c"])
p("Session shutdown fires the disconnect event exactly once",
  "However many times and from wherever a session is finalized, its disconnect event is fired exactly once and its memory is released exactly once. Nothing in the server's queues touches it afterwards. (The last part is false for HTTP-FLV and MPEG-TS players whose request ends while a finalization is waiting for the event loop.)",
  "every interleaving of finalize requests, posted events and HTTP cleanups",
  "schedules",
  [M+"ngx_rtmp_init.c:ngx_rtmp_finalize_session", M+"ngx_rtmp_init.c:ngx_rtmp_finalize_fake_session"])
p("AVC access units are converted to Annex B without loss",
  "Every length-prefixed NAL unit other than parameter sets and delimiters appears exactly once, in order and unmodified in the Annex B output, preceded by a start code.",
  "every access unit and every buffer split",
  "unbounded NAL lists and splits",
  [M+"hls/ngx_rtmp_hls_module.c:ngx_rtmp_hls_video", M+"hls/ngx_rtmp_hls_module.c:ngx_rtmp_hls_copy"])

p("An idle peer is pinged and a silent one is disconnected",
  "A session is closed by the ping timer only if the peer sent nothing at all for the whole waiting period after a ping request; a peer that stays silent is pinged and then closed, and one that keeps answering is never closed.",
  "every schedule of received data, ping responses and timer ticks",
  "unbounded schedules",
  [M+"ngx_rtmp_handler.c:ngx_rtmp_ping", M+"ngx_rtmp_handler.c:ngx_rtmp_reset_ping"])

p("The program tables of a TS fragment announce the streams it carries",
  "The PAT names one program whose map is on PID 0x1001, and the PMT written for a pair of codecs is a valid section announcing exactly the known streams among them, with a correct checksum; the PCR PID it names carries clock references. (The last part is false for audio-only streams: the table always names the video PID, and no packet carries a clock.)",
  "every pair of codec numbers, every configured HEVC codec number, every list of frames",
  "codec numbers come from the publisher and the configuration; the checksum must be right for each combination",
  [M+"hls/ngx_rtmp_mpegts.c:ngx_rtmp_mpegts_gen_pmt", M+"hls/ngx_rtmp_mpegts.c:ngx_rtmp_mpegts_write_header"])

p("The picture size reported is that of the stream",
  "For every well-formed AVC or HEVC sequence header the width and height that the server reports are those the video standard defines, including cropping. (False of the code for interlaced or 4:4:4 AVC with cropping and for every HEVC stream with a conformance window.)",
  "every parameter set, whatever precedes and follows it in the message",
  "parameter sets are bit streams of unbounded Exp-Golomb codes",
  [M+"ngx_rtmp_codec_module.c:ngx_rtmp_codec_parse_avc_header", M+"ngx_rtmp_codec_module.c:ngx_rtmp_codec_parse_hevc_sps", T+"ngx_ts_avc.c:ngx_ts_avc_decode_params"])

p("Writing a frame to the transport stream always ends","The TS packetizer returns after finitely many packets for every frame the demultiplexer delivers.","every chain of buffers delivered to a handler","a chain ending in an empty buffer arises only from particular packet sequences",[T+"ngx_ts_stream.c:ngx_ts_packetize",T+"ngx_ts_hls.c:ngx_ts_hls_pes_handler"])
p("Transport stream tables are checked","A PAT or PMT section with a wrong table id or checksum is not used.","every section content","needs corrupted or hostile sections with every content",[T+"ngx_ts_stream.c:ngx_ts_read_pat",T+"ngx_ts_stream.c:ngx_ts_read_pmt"])
p("A PES payload has the announced length","When a PES header announces a length, the payload delivered has exactly that length, however the packet was spread over transport packets.","every PES header and every distribution over packets","lengths, stamps and packet boundaries combine without bound",[T+"ngx_ts_stream.c:ngx_ts_read_pes"])
p("Continuity counters of written streams","On each PID the continuity counters of the packets written increase by one modulo 16 over all frames written.","every sequence of frames on any set of streams","depends on the whole history of written frames",[T+"ngx_ts_stream.c:ngx_ts_packetize",T+"ngx_ts_stream.c:ngx_ts_write_pes"])

p("The publisher and player lists of a stream never refer to a session that is gone",
  "After every history of connections, publish, play, close and relay commands, the list of publishers and the list of players of a stream are exactly the sessions that joined it in that role and have not left, last come first, and the stream exists exactly while one of them is not empty. (False when a client closes its stream before it publishes or plays, asks for both roles, or names a stream of more than 511 bytes: the first two leave a pointer to freed memory in the list, the last is a NULL dereference.)",
  "every history of commands of any number of sessions and streams",
  "unbounded command histories; the lists are linked through memory owned by the sessions",
  [M+"ngx_live.c:ngx_live_create_ctx", M+"ngx_live.c:ngx_live_delete_ctx", M+"ngx_rtmp_cmd_module.c:ngx_rtmp_close_stream_filter", M+"ngx_rtmp_cmd_module.c:ngx_rtmp_cmd_stream_init"])

p("The HTTP-FLV relay publishes exactly the tags of the upstream stream","Pulling from an HTTP-FLV server publishes, in order, exactly the audio, video and metadata tags that the FLV format defines for the bytes received, with their types, timestamps and payloads, up to the first byte that violates the format, at which the relay gives up. How the body is cut into buffers makes no difference.","every byte stream, every division into buffers, every chunk size >= 1","arbitrary upstream bytes and arbitrary divisions into network buffers",[M+"ngx_live_relay_httpflv.c:ngx_live_relay_httpflv_parse",M+"ngx_live_relay_httpflv.c:ngx_live_relay_httpflv_recv_body"])

p("DASH segments carry every frame","Whatever audio and video messages a publisher sends, in whatever order and with whatever timestamps, each finished DASH fragment is written as two well-formed segment files that hold exactly its frames (at most 1024 a track) with their times, data, key flags and delays; read one after the other the files of a track give back the whole stream, and packaging never crashes as long as both tracks have a description (an audio-only stream does crash it).","all fragment lengths, window sizes, message histories, splits of messages into buffers and earlier contents of the fragment ring","the cut points, the sample tables and the ring depend on the whole history; tests play a few minutes of one file",[M+"dash/ngx_rtmp_dash_module.c:ngx_rtmp_dash_append",M+"dash/ngx_rtmp_dash_module.c:ngx_rtmp_dash_update_fragments",M+"dash/ngx_rtmp_dash_module.c:ngx_rtmp_dash_close_fragments",M+"dash/ngx_rtmp_dash_module.c:ngx_rtmp_dash_audio",M+"dash/ngx_rtmp_dash_module.c:ngx_rtmp_dash_video"])
p("DASH playlist window and timeline","Every DASH playlist lists exactly the last dash_playlist_length fragments, oldest first, and both files of each are already written; for a stream whose clock runs forward the published timeline has no gaps or overlaps, also across the wrap of the 32-bit timestamp (but a one-frame fragment gets a stale duration, and a clock that jumps back makes a listed segment's name be used again).","all window sizes, histories and clocks","the ring index arithmetic goes wrong only after many fragments, at particular window sizes or after 49 days of uptime",[M+"dash/ngx_rtmp_dash_module.c:ngx_rtmp_dash_write_playlist",M+"dash/ngx_rtmp_dash_module.c:ngx_rtmp_dash_get_frag",M+"dash/ngx_rtmp_dash_module.c:ngx_rtmp_dash_next_frag"])

p("A player gets a decodable stream from the GOP cache","When a live stream is played through the GOP cache, the player first gets metadata and the latest codec headers and then frames in the order they were published, each at most once. It starts with a key frame (or with sound before any key frame), and whenever frames are left out it continues with such a frame. No frame that the server has released is sent. Nothing that was queued is forgotten. A player with room in its queue keeps getting frames.","all publish, join and send histories of one publisher and one player, all queue sizes, cache times, timestamps and timestamp corrections","the ring positions of player and cache move independently; only an invariant over all histories shows that they never cross",[M+"ngx_rtmp_gop_module.c:ngx_rtmp_gop_send",M+"ngx_rtmp_gop_module.c:ngx_rtmp_gop_send_gop",M+"ngx_rtmp_gop_module.c:ngx_rtmp_gop_link_frame",M+"ngx_rtmp_live_module.c:ngx_rtmp_live_av"])

p("The publishers and players recorded for a stream are the sessions in it",
  "Whatever sessions come and go on whatever streams, reading the list of publishers or players of a stream yields exactly the sessions that have started publishing (playing) it, or were made to relay it, and have not left since; a session is in one list of one stream only; a session that has closed its stream or whose connection has ended is in none, so that no reader touches the memory of a released session.",
  "all interleavings of publish, play, play2, closeStream, deleteStream, relay-session creation and disconnect of any number of sessions on any number of streams",
  "the lists are intrusive and shared by all sessions; an error shows only when a particular order of commands of one session is followed by another session's walk",
  [M+"ngx_live.c:ngx_live_create_ctx", M+"ngx_live.c:ngx_live_delete_ctx", M+"ngx_rtmp_cmd_module.c:ngx_rtmp_publish_filter", M+"ngx_rtmp_cmd_module.c:ngx_rtmp_close_stream_filter", M+"ngx_rtmp_cmd_module.c:ngx_rtmp_cmd_play2_init", M+"ngx_rtmp_control_module.c:ngx_rtmp_control_walk_stream"])

p("Admission by notification",
  "With on_publish or on_play notifications configured, a client of one role is let in exactly when the call made for its own command is answered with approval; it is announced at most once, admitted at most once and signed off exactly once when it leaves (if the done stage is configured); no answer or timer ever reaches a session that was released. A client that uses both roles, starts after a close or sends a codec header first breaks this.",
  "every configuration of the three notification stages and every history of commands, codec headers, answers (any status, any order), update timers, closes and the end of the connection",
  "the answers come from another server at any time, also after the client has left, so the orders of commands, answers, timers and release are unbounded",
  [M+"ngx_rtmp_notify_module.c:ngx_rtmp_notify_pnotify_start", M+"ngx_rtmp_notify_module.c:ngx_rtmp_notify_pnotify_start_handle", M+"ngx_rtmp_notify_module.c:ngx_rtmp_notify_common_done", M+"ngx_rtmp_notify_module.c:ngx_rtmp_notify_av", M+"ngx_rtmp_cmd_module.c:ngx_rtmp_publish_filter"])

p("A live stream reaches every player whole, in order, and independently of the others",
  "What a player of a live stream is sent is what it would be sent if it were the only player, up to the timestamps of codec headers. The media it gets are the published frames in their order, each at most once. With one publisher of AVC and AAC, every frame reaches a player after the codec header it was encoded under. A player whose queue has room gets every frame from the first startable one on; with wait_video audio follows once video has begun. This fails for: header timestamps (shared frames are stamped again while queued), falling back to a publisher of lower priority, a header changed while the publisher is held, HEVC headers (dropped like other frames), and codecs without header under wait_key (only key frames are sent).",
  "every sequence of publishers and players joining and leaving, metadata, frames, pauses, control holds and queue drains; every configuration of interleave, wait_key, wait_video, sync and out_queue",
  "the broadcast interleaves with joins, pauses and arbitrarily slow readers; the wrong header shows only after particular orders of takeover, hold or congestion",
  [M+"ngx_rtmp_live_module.c:ngx_rtmp_live_av", M+"ngx_rtmp_live_module.c:ngx_rtmp_live_set_status", M+"ngx_rtmp_codec_module.c:ngx_rtmp_codec_av", M+"ngx_rtmp_handler.c:ngx_rtmp_send_message"])

p("An HTTP response is delivered whole however it arrives","For a response whose header fits in the header buffer and does not end exactly at the end of a read event, the HTTP client hands its caller exactly the bytes of the body: decoded if the transfer coding is chunked (with extensions and trailers), the announced number of bytes if there is a length, everything received so far otherwise; the call that brings the last byte reports completion and no earlier one does. For any bytes, well formed or not, the outcome does not depend on how they are cut into segments and events nor on the buffer sizes, and the client neither crashes nor hangs. Without these conditions this fails: a chunked header arriving alone, or a wake-up without data, crashes the process; a header too large makes it spin; data that arrives with the end of the connection is discarded; an empty body is never complete; bytes past the announced length are handed over; a buffer not consumed entirely is lost.","every response, cut into segments and read events in every way, every buffer size, every chunk structure","the number of ways to cut a response, and of chunked encodings of a body, is unbounded; tests use a handful of segmentations, usually the one where everything arrives at once",["modules/nginx-client-module/ngx_http_client.c:ngx_http_client_read_body","modules/nginx-client-module/ngx_http_client.c:ngx_http_client_body_chunked","modules/nginx-client-module/ngx_http_client.c:ngx_http_client_body_length","modules/nginx-client-module/ngx_http_client.c:ngx_http_client_process_header","modules/nginx-client-module/ngx_client.c:ngx_client_read"])

p("HLS from memory: the playlist and the fragments are those of the stream, for every client",
"In HLS served from memory, whatever the order of frames, playlist requests, fragment requests, partial reads and disconnections, the server never uses a fragment that was released; a playlist request is answered with exactly the last complete fragments (consecutive numbers, their durations, a target duration that covers them) or kept until there are enough; a request for a fragment still kept announces its exact length and delivers exactly the tables and frames of that fragment, even if it leaves the window meanwhile, and ends if the client reads on; the names in the playlist lead back to the stream and fragment; at the end of the session everything is released. It fails for: sessions not beginning at a key frame, aligned slicing, pictures with AAC sound, fragments longer than the queue, small steps back in time, a fragment just expired or still open, a header that cannot be sent, several waiting or reading clients, and stream names with a dash.",
"every configuration, sequence of frames with every timing, and interleaving of the operations of any number of clients",
"the interplay of a ring of fragments, a window, reference counts and clients at different positions depends on the whole history; a test sees a few schedules",
[M+"mpegts/ngx_hls_live_module.c:ngx_hls_live_update_fragment", M+"mpegts/ngx_hls_live_module.c:ngx_hls_live_write_playlist", M+"mpegts/ngx_hls_http_module.c:ngx_hls_http_ts_handler", M+"mpegts/ngx_hls_http_module.c:ngx_hls_http_cleanup"])

p("HLS from an MPEG-TS upload: the playlists on disk list only complete segments, at every crash point and under every failure",
  "While a client uploads an MPEG-TS stream to the TS module, each program's playlist on disk is at every moment (a crash, a client's read) and whatever file operation fails either absent or the exact list of the last N of its first finished segments, and every listed segment file is complete: tables, then its PES in order. Without failures every finished segment gets listed, no time-stamped PES is lost or reordered, segments last between the configured minimum and maximum (plus one gap), begin with key pictures when these come often enough, are numbered without holes, the master playlist names every program, and at the end the playlist lists the last segment and says it is the last. The cleaner keeps the segments of a playlist it keeps. Where this does not hold (segments ended by the size limit with no time passed, clocks that go back, durations over the target, a second upload of the same name, failures while the first segment is opened, uploads of one PES or less, settings that divide by zero, a master playlist before the playlists, foreign files), that is proved too.",
  "every configuration, every list of programs, every sequence of PES with any time stamps and contents, every pattern of failing file operations, every prefix of the resulting sequence of file operations",
  "a test sees one upload and the final directory; the claim is about every intermediate state of the disk and every failing call",
  ["modules/nginx-ts-module/src/ngx_ts_hls.c:ngx_ts_hls_pes_handler", "modules/nginx-ts-module/src/ngx_ts_hls.c:ngx_ts_hls_close_segment", "modules/nginx-ts-module/src/ngx_ts_hls.c:ngx_ts_hls_update_playlist", "modules/nginx-ts-module/src/ngx_ts_hls.c:ngx_ts_hls_write_file", "modules/nginx-ts-module/src/ngx_ts_hls.c:ngx_ts_hls_cleanup", "modules/nginx-ts-module/src/ngx_ts_hls.c:ngx_ts_hls_manage_file"])

T="modules/nginx-toolkit-module/"
p("The dynamic resolver calls every caller once, with an address of the name it asked for",
"Whoever asks the dynamic resolver for a name is called exactly once, at once or when an answer or a failure arrives or the name is deleted; nobody is called twice and nobody who did not ask. A refresh whose queries end at once leaves nobody waiting. Once a name has been answered, every later request for it, in any case of letters, is served from the table with one of the (first eight) addresses of the latest answer that had any, and an answer with one address is given to everyone who was waiting for it. No sequence of requests, answers, failures, refreshes and deletions makes the resolver touch memory outside its records.",
"every sequence of additions, deletions, requests, refreshes and answers in any order, every list of names, every random draw",
"the failures need particular interleavings of a query on its way with a deletion and a reuse, or particular random draws and answer sizes; a test fixes one order",
[T+"ngx_dynamic_resolver.c:ngx_dynamic_resolver_on_result",T+"ngx_dynamic_resolver.c:ngx_dynamic_resolver_start_resolver",T+"ngx_dynamic_resolver.c:ngx_dynamic_resolver_del_domain",T+"ngx_dynamic_resolver.c:ngx_dynamic_resolver_on_timer",T+"ngx_dynamic_resolver.c:ngx_dynamic_resolver_gethostbyname",T+"ngx_event_resolver.c:ngx_event_resolver_start_resolver"])

T="modules/nginx-toolkit-module/"
p("A timer that is armed is called exactly once, for the one that armed it, or removed",
"Of the pool of worker timers: every timer handed out is afterwards either called exactly once, with the data it was handed out with, or removed, before it is handed out again; a request is refused only when all timers are out; the free count is exact; this holds also for handlers that add and delete timers while they run. Of the owned timers that the client uses for its timeouts: a handler is called only for the owner that armed the timer, once, and, if a connection changes hands only when its timers are gone, every request to arm is honoured and the flag timer_set tells the truth.",
"every pool size, every sequence of additions, deletions, expiries in any order, with every sequence of operations made by the handlers, and every sequence of owners",
"a timer's fate depends on the order of expiries, reuse and deletions, and the failures need a full pool, a stale id or a connection slot reused at a particular time",
[T+"ngx_event_timer_module.c:ngx_event_timer_add_timer",T+"ngx_event_timer_module.c:ngx_event_timer_del_timer",T+"ngx_event_timer_module.c:ngx_event_timer_event_handler",T+"ngx_timerd.c:ngx_add_timer_debug",T+"ngx_timerd.c:ngx_del_timer_debug",T+"ngx_timerd.c:ngx_timerd_wrap"])

T="modules/nginx-toolkit-module/"
p("Static pulls follow the last accepted dynamic configuration","Whatever files are read and whatever the sessions do in between, each stream that the last accepted file gives this worker is pulled by exactly one session, each other pull session is on its way out and will not come back, a session connects by the current line of its own stream, reading a file again leaves the sessions of unchanged streams alone, a refused file changes nothing, and the worker touches no freed memory.","every sequence of file readings (accepted, refused), session ends, closes and reconnects, in every order, for every split of the streams among workers","A test reads a few files in a calm server; the order of readings against ends, closes and timers is unbounded, and the failures need a refused file followed by an accepted one.",[M+"ngx_live_relay_static.c:ngx_live_relay_static_init_main_dconf",M+"ngx_live_relay_static.c:ngx_live_relay_static_relay",M+"ngx_live_relay_static.c:ngx_live_relay_static_handler",T+"ngx_dynamic_conf.c:ngx_dynamic_conf_load_conf"])

p("A relay that cannot connect tries its addresses in turn, with growing pauses, and never stops",
"As long as a relay (push or pull) is wanted and no connection succeeds, its j-th try goes to address j mod n of its list, two tries of one address are at least min(failed_reconnect, relay_reconnect) apart, the pauses between rounds double from failed_reconnect up to relay_reconnect when the tries fail before their time is up, and a relay that is not carrying the stream always tries again (or gives a try up) within max(failed_reconnect, relay_reconnect); one that carries the stream is not torn down by its own timer.",
"all numbers of addresses, all pairs of delays below 2^62 ms, all interleavings of time, failures, timeouts, successes and closes",
"the pauses depend on the whole history of failures, timeouts and successes of a chain of sessions; tests fix one history",
[M+"ngx_live_relay_simple.c:ngx_live_relay_simple_relay",M+"ngx_live_relay_static.c:ngx_live_relay_static_relay",M+"ngx_live_relay.c:ngx_live_relay_create",M+"ngx_live_relay.c:ngx_live_relay_publish",M+"ngx_live_relay.h:ngx_live_relay_ctx_t"])

p("A control request acts on exactly the sessions it names, and says how many",
"A drop, pause or resume request acts on exactly the sessions of the given server whose stream has the given application and name, whose kind (publisher, subscriber, client), address and client id are the given ones, on each once, changes nothing else, and answers their number; a request without server, of an unknown kind or not allowed changes nothing; a redirect moves the sessions to the stream of the new name; frames of a paused publisher reach nobody until it is resumed and a key frame comes.",
"all registries of servers, streams and sessions, all requests, and all histories of pauses, resumes and frames",
"which sessions match depends on every stream and session in the tables; a test sees a few",
[M+"ngx_rtmp_control_module.c:ngx_rtmp_control_walk_server",M+"ngx_rtmp_control_module.c:ngx_rtmp_control_walk_session",M+"ngx_rtmp_control_module.c:ngx_rtmp_control_redirect_handler",M+"ngx_rtmp_control_module.c:ngx_rtmp_control_handler",M+"ngx_rtmp_live_module.c:ngx_rtmp_live_av"])

T="modules/nginx-toolkit-module/"
p("The dynamic configuration is read as it is written","A dynamic configuration file is accepted exactly if it is well written (words, quoted words with escapes, comments, blanks, semicolons and blocks) and every directive in it is known, stands where it may, has or has not a block as it must, has an allowed number of words and is accepted by its own handler; the directives, words and nesting that take effect are then exactly those written, wherever the pieces in which the file is read end, and one bad directive anywhere refuses the whole file. Any words at all can be written by quoting them. Comments and blanks have no effect (false: a comment, or a run of blanks, as long as the 4096-byte buffer refuses the file); a variable in braces is read as it stands (false at the beginning of an unquoted word).","every file, every table of directives, every handler verdict and every size of the read buffer","the reader is a byte-by-byte automaton with seven flags whose state crosses buffer refills at any position; tests try a few files below one buffer",[T+"ngx_dynamic_conf.c:ngx_dynamic_conf_read_token",T+"ngx_dynamic_conf.c:ngx_dynamic_conf_handler",T+"ngx_dynamic_conf.c:ngx_dynamic_conf_parse"])

p("The live transport stream carries every frame of the publisher",
"What HTTP-TS players and the HLS fragments in memory are given for a publisher of H.264 or H.265 and AAC is a transport stream of two PIDs with no gap in the continuity counters: every picture is one PES packet with its decoding and presentation time, key frames carry the clock, and the audio PES packets carry all sounds in order, each readable as ADTS with the configuration of the publisher, stamped within the sync setting of the time of their first sound and held back no longer than the audio delay.",
"every history of audio and video messages of a publisher, however cut into buffers, every setting of audio buffer, sync and delay, every result of the H.265 conversion",
"The stream depends on the whole interleaving of audio and video, the buffer fill and the time stamps; tests see a few recordings, not every order, size and time.",
[M+"mpegts/ngx_mpegts_live_module.c:ngx_mpegts_live_av",M+"mpegts/ngx_mpegts_live_module.c:ngx_mpegts_live_aac_handler",M+"mpegts/ngx_mpegts_live_module.c:ngx_mpegts_live_h264_handler",M+"mpegts/ngx_mpegts_live_module.c:ngx_mpegts_live_shared_append_chain",M+"mpegts/ngx_mpegts_live_module.c:ngx_mpegts_live_flush_audio"])

p("H.265 pictures of the live transport stream",
"For every H.265 message of a publisher the picture sent on the live transport stream reads back (Annex B) as the units of the message, all and in order, with nothing put in but delimiters and the parameter sets of the sequence header, and the sets stand before each slice of a random access picture; no message, however malformed, makes the server read or write outside its buffers or loop. The second part holds only for messages and headers well below 1 MiB in one buffer: a VPS that nearly fills the buffer, or a length of 2^32-1, is written past its end; a unit that carries a start code ends the picture; a unit of type 0 split over two buffers is damaged; pictures that start with a random access slice get the sets twice and no delimiter.",
"every list of units, every length size, every split into buffers, every sequence header; every byte string for the safety part",
"the state of the loop depends on the order of the unit types and the overflows need lengths at the limit; a test tries a few orders and sizes",
[M+"mpegts/ngx_mpegts_live_module.c:ngx_mpegts_live_h265_handler",M+"mpegts/ngx_mpegts_live_module.c:ngx_mpegts_live_append_hevc_vps_sps_pps",M+"mpegts/ngx_mpegts_live_module.c:ngx_mpegts_live_append_hevc_aud"])

p("Transport stream GOP cache: what players get","A player of a live transport stream (HTTP-TS, or HLS from memory) gets the publisher's frames in order, starting at a key frame (or at sound before any picture); a gap is always followed by such a frame; with room in its queue it gets something with every frame of the publisher; a new player starts where mpegts_cache_time, the play length and its queue say. The cache keeps mpegts_cache_time of the stream, refuses nothing when key frames are frequent enough, touches no frame it has released, and releases each frame exactly once. It fails when the publisher goes on after closeStream (a released key frame is read), when one group of pictures fills the cache (every later frame is refused and players get old frames again and again), when pictures precede the first key frame, when an HLS queue is shorter than the cache, when a player comes from a stream with a longer cache, and with the default mpegts_cache_time of 0 (nobody gets anything).","every history of frames (kind, key flag, time stamp), joins, sends and closes; every cache and queue size, cache time, play length","the place of the player in the ring, the eviction of whole groups of pictures and wrap-around interact; tests use short streams with frequent key frames",[M+"mpegts/ngx_mpegts_gop_module.c:ngx_mpegts_gop_cache",M+"mpegts/ngx_mpegts_gop_module.c:ngx_mpegts_gop_link",M+"mpegts/ngx_mpegts_gop_module.c:ngx_mpegts_gop_reset_gop",M+"mpegts/ngx_mpegts_gop_module.c:ngx_mpegts_gop_send",M+"mpegts/ngx_mpegts_gop_module.c:ngx_mpegts_gop_close_stream"])

p("The stream a client is in is the one it names","A client that connects over RTMP to a host and an application, written with or without a port, arguments, a closing slash or the instance _definst_, and then publishes or plays a name, with or without arguments, is put in exactly one stream: serverid of the host, application and name; viewers over HTTP-FLV, transport stream over HTTP and HLS that name the same host, application and name get the same stream; a session that fetches or pushes the stream on behalf of the client is in it too; two different triples are different streams; the stream that a client leaves is the one it joined; no sequence of commands makes the server follow a missing configuration or write behind an array.","every configuration of servers, applications and serverids, every host, application, name and argument, every sequence of commands of a client, every HTTP request","names come from clients: which ones collide, or are cut, or leave the array they are copied into, depends on lengths and bytes that a list of examples does not cover, and the order of commands is the client's choice",[M+"ngx_rtmp_cmd_module.c:ngx_rtmp_cmd_connect_init",M+"ngx_rtmp_cmd_module.c:ngx_rtmp_cmd_middleware_init",M+"ngx_rtmp_cmd_module.c:ngx_rtmp_cmd_stream_init",M+"ngx_rtmp_cmd_module.c:ngx_rtmp_cmd_reset_vhost",M+"http/ngx_http_flv_live_module.c:ngx_http_flv_live_parse",M+"mpegts/ngx_mpegts_http_module.c:ngx_mpegts_http_parse",M+"mpegts/ngx_hls_http_module.c:ngx_hls_http_parse",M+"ngx_rtmp_init.c:ngx_rtmp_create_relay_session"])

p("One stream over several workers","With inner_relay, a stream whose clients are spread over several worker processes is one stream: at every time at most one running worker owns it (the one whose entry is in the shared zone), an entry is released with the last session of its worker and never overwritten, and the entry of a worker that crashed stays until a worker starts in its slot; a worker never connects to itself and has at most one relay per stream, which exists only while somebody here plays (fetching) or publishes (sending); a worker with only viewers owns the stream or fetches it, a worker with only publishers owns it or sends it, so once the relays have arrived, what is published at such a worker reaches every such viewer. It fails for workers that have both: when viewers were there first, or when a publisher left while viewers stayed.","every number of workers and clients, every order of publishing, playing, leaving, relays that arrive, fail or wait, crashes and restarts of workers","which worker a client lands on and the order of events between processes is up to the kernel; a test cannot run all interleavings of joins, failures and crashes of several processes",[M+"ngx_live_relay_inner.c:ngx_live_relay_inner_relay",M+"ngx_live_relay_inner.c:ngx_live_relay_inner_push",M+"ngx_live_relay_inner.c:ngx_live_relay_inner_pull",M+"ngx_live_relay_inner.c:ngx_live_relay_inner_pull_close",M+"ngx_live_relay.c:ngx_live_relay_publish",M+"ngx_live_relay.c:ngx_live_relay_close_stream"])

p("Client sessions, their connections and the pool of idle connections","A program that opens client sessions, and is careful, never uses a session or connection that is gone: every open connection belongs to exactly one live session or is idle and belongs to none; when a server's name is resolved and a connection to that server is idle the session gets an idle one and is connected at once, otherwise a new one; the closed callback of a session is its last callback; when the posted events have run no closed session is left, its connection is closed and its user was told, and the other sessions are unchanged; the counters of idle connections and of servers are exact. A name with or without a port is parsed into that name and port. It fails when: the pool is full (the connection stays open with a freed session; the limit is the keepalive time, not the configured maximum), a session is closed while its name is resolved, an idle connection becomes writable, a session closed while connecting still calls its connected callback, a write timeout marks a connection for its next user, a write that never ends is never given up, a port is written behind the end of a block, and an IPv6 address without port is refused.","every history of creating, connecting, writing to, closing and giving back sessions, with every answer of the resolver and every event of the sockets and timers, for every size limit","which connection a session holds depends on the interleaving of resolver answers, socket events, timers and posted close events of all sessions sharing the pool; tests follow one session",["modules/nginx-client-module/ngx_client.c:ngx_client_create","modules/nginx-client-module/ngx_client.c:ngx_client_connect","modules/nginx-client-module/ngx_client.c:ngx_client_get_connection","modules/nginx-client-module/ngx_client.c:ngx_client_reusable_connection","modules/nginx-client-module/ngx_client.c:ngx_client_keepalive_handler","modules/nginx-client-module/ngx_client.c:ngx_client_close_handler"])

p("A request for all workers reaches each of them once","When every worker runs, a broadcast control request is sent to each worker exactly once, in order, at pairwise different addresses made of the configured address and the worker's slot, and then the answer ends; the first answer that starts with the configured prefix has it replaced; a request for one worker is sent at most once, never to the worker itself, with the whole address and uri. The table of slots has the slot of each running worker. It fails when one worker is not running (the request fails there and the workers behind it get nothing), when a worker has died (its old slot is used), when a subrequest is refused (a pointer without value), for a prefix of another length than its replacement, for a location that inherits the prefix (its replacement is not inherited), when the filter is called behind the end (the end is sent again), and an error of a worker is hidden from the client.","every number of workers, every configured address, prefix and suffix, every history of workers starting, leaving and dying, and every interleaving of calls for the request with answers of workers","depends on how many workers run and in which slots, and on the interleaving of subrequests and answers",["modules/nginx-multiport-module/ngx_http_broadcast_module.c:ngx_http_broadcast_body_filter","modules/nginx-multiport-module/ngx_http_broadcast_module.c:ngx_http_broadcast_send_subrequest","modules/nginx-multiport-module/ngx_http_broadcast_module.c:ngx_http_broadcast_merge_conf","modules/nginx-multiport-module/ngx_process_slot_module.c:ngx_multiport_get_slot","modules/nginx-multiport-module/ngx_http_inner_proxy_module.c:ngx_http_inner_proxy_request"])

p("Commands run for streams","The commands configured to run while a stream is published (exec_push) or played (exec_pull) are started when the publishing starts or the first session plays the name, never twice at the same time for the same session or name, are started again when they end, and are stopped with the session or with the last session playing the name: when every session has closed its stream no such process is left, and the server never uses memory of a session that is gone. The commands for the events (publish, publish done) run once each, for the configured names only, with the name of the stream. This needs: the client closes its stream last, the command holds its pipe, the kill signal is not 0, starting a process does not fail, and at most one name= word per command; without each of these the claim is refuted.","all histories of sessions opening, publishing, playing, closing and disconnecting, of processes ending or closing their pipe, of noticed ends and respawn timers, all results of starting processes, all configurations","the histories mix client commands, process ends, timers and failing forks; leaks and uses of freed memory show only in particular orders",[M+"ngx_rtmp_exec_module.c:ngx_rtmp_exec_publish",M+"ngx_rtmp_exec_module.c:ngx_rtmp_exec_play",M+"ngx_rtmp_exec_module.c:ngx_rtmp_exec_close_stream",M+"ngx_rtmp_exec_module.c:ngx_rtmp_exec_run",M+"ngx_rtmp_exec_module.c:ngx_rtmp_exec_kill",M+"ngx_rtmp_exec_module.c:ngx_rtmp_exec_child_dead",M+"ngx_rtmp_exec_module.c:ngx_rtmp_exec_filter",M+"ngx_rtmp_cmd_module.c:ngx_rtmp_close_stream_filter"])

p("The dynamic configuration follows its file","With dynamic_conf, after a worker has started every question for a configuration is answered with a content of the file that was accepted, never with a destroyed one; there is always one configuration and the next check is pending. While the file does not change within a check, the answer is the last content that could be read and was accepted; an unchanged, unreadable or refused file changes nothing. A session gets the first server with its domain as a name, else the first with a matching regular expression, else the first server; an application gets the first block of its name, else that of *. Each accepted content leaves a temporary pool behind; a file changed between the two readings of it can stay unloaded for ever; a domain with a capital letter finds no name; an rtmp block without servers leaves an uninitialised default; the serverid of a server is not used to translate a domain, and without an rtmp block that request reads a null pointer.","every history of checks, contents, failures to open or read, and questions; every list of servers, names, regular expressions and applications; every domain and application name","The histories and files are unbounded, and the races need a write between two reads of the same check.",["modules/nginx-toolkit-module/ngx_dynamic_conf.c:ngx_dynamic_conf_load_conf","modules/nginx-toolkit-module/ngx_dynamic_conf.c:ngx_dynamic_conf_check_conf","modules/nginx-toolkit-module/ngx_dynamic_conf.c:ngx_dynamic_conf_process_init","modules/nginx-toolkit-module/ngx_dynamic_conf.c:ngx_get_dconf",M+"ngx_rtmp_dynamic.c:ngx_rtmp_dynamic_core_find_virtual_server",M+"ngx_rtmp_dynamic.c:ngx_rtmp_dynamic_core_init_virtual_servers",M+"ngx_rtmp_dynamic.c:ngx_rtmp_dynamic_core_application",M+"ngx_rtmp_dynamic.c:ngx_rtmp_dynamic_core_find_application",M+"ngx_rtmp_dynamic.c:ngx_rtmp_get_module_srv_dconf",M+"ngx_rtmp_dynamic.c:ngx_rmtp_get_serverid_by_domain"])

p("Sound in HLS segments is complete and in its place",
"From the first segment on until the publisher announces the end of the stream, the AAC frames written into the segments, read by their ADTS headers, are exactly the frames that were published, in order, including those that came before the first segment and fit the buffer; each piece bears the time of its first frame within hls_sync; a new segment begins with the sound that was waiting; none waits longer than hls_max_audio_delay past the video; no message, whatever its size or splitting, is copied beyond the buffer. False: when the publisher leaves without the end message the waiting sound is dropped; with a header ADTS cannot express old memory is written; frames of 8185 bytes or more and MP3 messages that fill the buffer are damaged; with no segment open frames are cut off.",
"every sequence of sound and video messages, every cut of segments, every splitting into buffers, every buffer size, delay and sync setting",
"The buffer's contents depend on the whole history of flushes, cuts and delays; tests see a few interleavings and sizes.",
[M+"hls/ngx_rtmp_hls_module.c:ngx_rtmp_hls_audio", M+"hls/ngx_rtmp_hls_module.c:ngx_rtmp_hls_flush_audio", M+"hls/ngx_rtmp_hls_module.c:ngx_rtmp_hls_update_fragment", M+"hls/ngx_rtmp_hls_module.c:ngx_rtmp_hls_open_fragment", M+"hls/ngx_rtmp_hls_module.c:ngx_rtmp_hls_close_stream", M+"hls/ngx_rtmp_hls_module.c:ngx_rtmp_hls_stream_eof", M+"hls/ngx_rtmp_hls_module.c:ngx_rtmp_hls_parse_aac_header"])

p("A response header that is set is sent once, with its value",
"Setting a response header, whatever the case of its name and whatever was set before, makes the response carry that name exactly once, with the last value given, and changes no other header; setting a header that is there to nothing removes it; so FLV, HLS and MPEG-TS responses carry each of their headers once. False: setting a header that is not there to nothing sends it empty, and Server and Date are sent besides nginx's own.",
"every response in order, every name and value, every sequence of settings",
"The outcome depends on the whole history of the header list, its links and its cleared entries; tests try a few sequences.",
[M+"http/ngx_http_set_header.c:ngx_http_set_header_out", M+"http/ngx_http_set_header.c:ngx_http_set_header_out_helper", M+"http/ngx_http_set_header.c:ngx_http_set_header_out_builtin", M+"http/ngx_http_set_header.c:ngx_http_set_header_out_builtin_multi", M+"http/ngx_http_set_header.c:ngx_http_set_header_out_content_type", M+"http/ngx_http_flv_live_module.c:ngx_http_flv_live_headers"])

p("A player without a session is sent to its own, once",
"A request for an HLS playlist without a session is answered with a playlist of one address: the same scheme, host and path, with a new session before the request's own arguments; asking there gives the playlist of that session and no further redirection. No two requests in 2^32 of a worker, nor two of different workers, are told the same session. False: a request without Host header ends the process; a path with an encoded line feed adds addresses to the playlist; one with an encoded question mark sends the player round for ever; the arguments scheme and location send it to another host.",
"every request, time, worker and connection; every sequence of requests of a worker",
"Sessions must differ over any history, and the address must be read back as meant for every path, host and query; tests try a few.",
[M+"mpegts/ngx_hls_http_module.c:ngx_hls_http_master_m3u8_handler", M+"mpegts/ngx_hls_http_module.c:ngx_hls_http_handler"])

p("The statistics page can be read and says what is so","For any set of servers, streams and clients, with any names, addresses and texts sent by clients, the statistics page is one well-formed XML document in which a reader finds every server, every stream and (if asked for) every client with its values, and the numbers of clients, per stream and in total; a text sent by a client cannot add or close elements; the announced length is that of what is sent, and nothing is cut off or written past a buffer. The exception is the id of a server, which is written as it is: where it comes from the host name of a client, that client can put elements of their own into the page or make it unreadable.","all lists of servers, streams and clients and all contents of the texts and counters in them","the texts come from clients and are arbitrary, and how they fall into the 256-byte buffers depends on everything written before; tests see a few pages",[M+"ngx_rtmp_stat_module.c:ngx_rtmp_stat_output",M+"ngx_rtmp_stat_module.c:ngx_rtmp_stat_escape",M+"ngx_rtmp_stat_module.c:ngx_rtmp_stat_live",M+"ngx_rtmp_stat_module.c:ngx_rtmp_stat_handler"])

p("A callback tells the server called what happened","Whatever the stream, client and event, the server called reads exactly one request, with the method, path and arguments of the configured address, each header once with the value set last, and the kind of event, domain, application, name and client number as arguments with their exact values, followed by what the configuration adds; the buffer of the request is exactly filled. This holds if the texts sent by the client have no character with a meaning in addresses and the address has at most 2048 bytes. Otherwise it does not: texts are not escaped, so a client can give another application or name, have parts of the address left out, or make the server read a second request of its own choice.","all addresses in the configuration, all headers, and all texts a client sends as domain, application and name","the texts are chosen by clients; tests use tame names and short addresses",["modules/nginx-client-module/ngx_http_client.c:ngx_http_client_create_request_buf","modules/nginx-client-module/ngx_http_client.c:ngx_http_client_add_header",M+"ngx_rtmp_notify_module.c:ngx_rtmp_notify_common_url",M+"ngx_netcall.c:ngx_netcall_create"])

p("State page in JSON","The JSON page of the server's state is well-formed JSON that a strict reader reads back as the state: every server, stream and client once and in order, with names, addresses and counters, each protocol's count being the number of its players (no publisher, relay or session between workers) and a server's counts those of its streams together. Whatever names clients send and whichever allocation fails, printing never touches memory outside its buffer. It is false that the worker survives a failed allocation, that a request gives its tree back, that the audio/video distance is right when video is behind, that long client texts are shown whole, and that the page stays UTF-8 when a stream name is not.","all trees of values (any depth, size and bytes), all states of the server, all failures of allocation, all sequences of requests","text, buffer growth and escapes depend on every byte of every name and on the size at each step; tests see a few pages",[M+"json/cJSON.c:print_value",M+"json/cJSON.c:print_string_ptr",M+"json/cJSON.c:print_array",M+"json/cJSON.c:print_object",M+"json/cJSON.c:ensure",M+"ngx_live_stat.c:ngx_live_stat",M+"ngx_rtmp_sys_stat_module.c:ngx_rtmp_sys_stat_handler"])

p("The log of stalls says what a player would have seen",
"With monitoring on, from the first video frame of a stream the server compares, once a second, the frames that came with the stream's frame rate. For every history of video frames, headers, sound, metadata and seconds, as long as the stream is open and its frame rate is known, the frames counted as left are those a player has left that shows frames at the rate and waits when it has none; a second is logged as a stall exactly when it leaves none; the line names the length of the running stall in seconds and the number of stalls so far; the frames of each of the last 60 seconds can be read; and no history makes the counter leave its arrays. The times of the first video, sound, metadata and data are those at which they came. False as the code stands: that a stream that comes exactly at its frame rate is not a stall (each of its seconds is logged as one, in one endless stall); that a stream is watched as long as it goes on (if its rate is unknown when the first second ends, nothing is ever logged); that the next stream of the same connection is watched too (after the first is closed no second of a later one is looked at).",
"all histories of frames of any kind, seconds with any frame rate and closings, of any length",
"The result depends on the whole history of seconds, and the ring of 61 slots wraps; tests see a few seconds of a few streams.",
[M+"ngx_rtmp_monitor_module.c:ngx_rtmp_monitor_consume",M+"ngx_rtmp_monitor_module.c:ngx_rtmp_monitor_frame",M+"ngx_rtmp_monitor_module.c:ngx_rtmp_monitor_close_stream",M+"ngx_rtmp_monitor_module.c:ngx_rtmp_monitor_meta_data"])

p("Access log formats mean what they say",
"A log_format is accepted exactly when it is a sequence of texts without a dollar sign and of names that are known, each written $name or ${name}, where a name runs over all letters, digits and underscores that follow; it has one reading only; and each line of the log is, over all arguments of the directive and without anything between them, the texts and the values of the names, in order, where $parg_x stands for argument x of the stream, or for its own name when there is no such argument. The log shows the stream of the session and the last name and arguments that were published or played, as long as the name of the stream (server id, application and name) has less than 256 bytes. False as the code stands: that a line can be written in every accepted format ($parg_ alone is accepted, and for the line an argument of negative length is looked for, whatever the session); that the log shows every stream's name (of one with 256 to 512 bytes it shows the first 256 followed at once by the arguments; a longer one is written over the list of timers that follows); that no timer of the log outlives its session. With an interval a line is written whenever the clock is a multiple of it, and a session that is only published or only played, however often that is asked for, leaves no timer behind; but one that is both, with an interval for each log, takes away timers at its end that were never set, when their array had to move. As long as each value fits the room kept for it, a line of at most 4096 bytes of room is written within its buffer, and for a longer one the session is ended; false for every session: a stream name that comes out longer than its room is written beyond the buffer when the format names it often enough. The time of a session is shown in whole seconds, or as days, hours, minutes and seconds without leading units that are zero, and fits its room. The bitrate shown for a player is the bits sent since the last reading, as long as these are less than 256 MB; false beyond that (a negative number from 256 to 512 MB), for a publisher when the counter of bytes starts again, and for a second log of the same session (zero).",
"all formats, sessions, values, arguments and sequences of names set in a session",
"Formats are texts of any length; how names end, braces and prefixes interact for each of them, and the stream name is a sum of three parts that are each in bounds.",
[M+"ngx_rtmp_log_module.c:ngx_rtmp_log_compile_format",M+"ngx_rtmp_log_module.c:ngx_rtmp_log_pre_write",M+"ngx_rtmp_log_module.c:ngx_rtmp_log_var_parg_getdata",M+"ngx_rtmp_log_module.c:ngx_rtmp_log_set_names",M+"ngx_rtmp_log_module.c:ngx_rtmp_log_var_context_cstring_getdata",M+"ngx_rtmp_cmd_module.c:ngx_rtmp_cmd_stream_init"])

out = os.path.join(os.path.dirname(os.path.dirname(os.path.abspath(__file__))), "properties.jsonl")
with open(out, "w") as f:
    for r in rows:
        f.write(json.dumps(r) + "\n")
print(len(rows))
