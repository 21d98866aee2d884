#!/usr/bin/env python3
"""Writes /verif/properties.jsonl from the table below (one JSON object per line)."""
import json, os
P = []
def p(id, title, statement, quantifier, why, *anchors):
    P.append(dict(id=id, title=title, statement=statement, quantifier=quantifier,
                  why_tests_cant=why, anchors=list(anchors)))
BR="bitstream/src/byteread.rs"; BW="bitstream/src/bytewrite.rs"; BI="bitstream/src/bitread.rs"; CB="bitstream/src/codebook.rs"
AC="format/src/buffer/accreader.rs"; DM="format/src/demuxer.rs"; MX="format/src/muxer.rs"; CO="format/src/common.rs"; ST="format/src/stream.rs"
DE="codec/src/decoder.rs"; EN="codec/src/encoder.rs"; CC="codec/src/common.rs"
AU="data/src/audiosample.rs"; PX="data/src/pixel.rs"; FR="data/src/frame.rs"; PK="data/src/packet.rs"; IO="src/io/byteread.rs"; VA="data/src/value.rs"

# ---- bytes
p("C01","Fixed-width put/get round trip",
  "For every width (8/16/32/64 bits), both byte orders and every value of the type (unsigned, signed or float bit pattern), writing the value at the start of a large enough buffer and reading it back with the getter of the same width and order returns the same value, and every byte of the buffer after the written ones is unchanged and the length is unchanged.",
  "all values of each type, all buffers at least as long as the width, all 18 put/get pairs",
  "2^64 values times all buffers; tests sample 1, 2 and 255",
  BR+":get_*", BW+":put_*")
p("C02","Byte placement of multi-byte getters",
  "The value returned by a little-endian (big-endian) getter of k bytes has, for each of the first k bytes i and bit j, bit 8*i+j (8*(k-1-i)+j) equal to bit j of byte i, and no other bits set; it does not depend on any later byte of the buffer.",
  "all buffers of at least k bytes, k in 1,2,4,8",
  "quantifies over all byte strings", BR+":get_u16l..get_u64b")
p("C03","Too-short buffers always panic, long enough ones never do",
  "Every getter and putter panics exactly when the buffer is shorter than the width of the type, so it never touches memory outside the slice.",
  "all buffers, all widths", "all lengths including 0", BR+":get_*", BW+":put_*")
p("C04","Signed getters are two's complement",
  "A signed getter returns the unique value of the signed type congruent to the unsigned getter's result modulo 2^width.",
  "all buffers", "2^64 bit patterns", BR+":get_i8,get_i16l,...,get_i64b")
# ---- bit reader
p("C05","Bit reads return exactly the stream's bits",
  "For both endiannesses, for every buffer and every sequence of get_bit / get_bits_32(n<=32) / get_bits_64(n<=64) / peek / skip_bits / align_bits calls that stays at least 64 bits (the documented 8 padding bytes) before the end of the buffer, each call returns the number spelled by the next n bits of the buffer in that bit order, and the reader advances by exactly n bits, whatever mixture of calls came before.",
  "all buffers, all call sequences, both endiannesses", "the internal 64-bit cache can be in any fill state depending on the history; histories are unbounded",
  BI+":BitRead::get_bit,get_bits_32,get_bits_64,skip_bits,align_bits")
p("C06","Peeking never changes the reader and predicts the next read",
  "peek_bit, peek_bits_32(n) and peek_bits_64(n) leave the reader untouched and return exactly what the next get_bit, get_bits_32(n), get_bits_64(n) would return, including panicking exactly when it would.",
  "every reader state and every n", "all states", BI+":peek_bit,peek_bits_32,peek_bits_64")
p("C07","consumed + available is constant",
  "Along every sequence of calls whose skips stay inside the buffer, consumed() + available() equals 8 times the buffer length, consumed() never decreases, and a fresh reader has consumed() = 0.",
  "all buffers and call sequences", "unbounded histories", BI+":consumed,available")
p("C08","Skipping equals reading and discarding",
  "skip_bits(n) leaves the reader observably in the same position as reading n bits with any split into get_bits calls: every later read returns the same value.",
  "all buffers, positions, n and splits", "all cache states", BI+":skip_bits")
p("C09","align_bits moves to the next byte boundary and nowhere else",
  "align_bits discards fewer than 8 bits, lands on a multiple of 8 consumed bits, is idempotent and does nothing on an aligned reader.",
  "all reachable reader states", "unbounded histories", BI+":align_bits")
p("C10","Overreading yields zero bits and never panics",
  "Reads with get_bit, get_bits_32(n<=32) and get_bits_64(n<=64) past the end of the buffer never panic and return the remaining readable bits followed by zero bits; once exhausted the reader stays exhausted and only returns zero.",
  "all buffers (any length, even empty) and all read sequences", "unbounded histories", BI+":get_bits_64,get_bits_32,get_bit")
p("C11","Splitting a read does not change the bits",
  "Reading a+b bits at once equals reading a bits and then b bits and combining them in stream order (first part most significant for big-endian, least significant for little-endian).",
  "all buffers, positions, a+b<=64", "all cache fill states", BI+":get_bits_64,merge_val")
p("C12","64-bit-path reads are exact up to the very last bit",
  "On a buffer whose length is a multiple of 8 bytes, any sequence of get_bit and get_bits_64 calls returns the exact stream bits up to the very last bit of the buffer, with no padding needed.",
  "all such buffers, all sequences", "unbounded histories", BI+":get_bits_64,get_bit,refill64")
p("C13","Every bit reported by available() can be read",
  "If available() >= n then reading n bits returns the actual next n bits of the buffer.",
  "all buffers and histories", "depends on the mixture of 32-bit and 64-bit refills near the end of the buffer", BI+":available,refill32,can_refill")
p("C14","Skipping past the end exhausts the reader",
  "skip_bits(n) with n >= available() leaves nothing to read: available() is 0 afterwards (no panic) and later reads return 0.",
  "all buffers and histories", "all end-of-buffer states", BI+":skip_bits,available")
# ---- codebook
p("C15","Codebook decoding returns the symbol whose codeword comes next",
  "For every prefix-free codebook description (codewords of 32 bits or less in a length of 1..41, in LSB mode 1..255, arbitrary symbols, unused zero-length entries allowed), in MSB mode with the big-endian reader and in LSB mode with the little-endian reader, if the next bits of the stream are the codeword of entry i then read_cb returns that entry's symbol and consumes exactly its length. Buffers are shorter than 2^29 bytes (beyond that `available() as u32` wraps and the claim is false) and at least 8 bytes follow the codeword; at most 2^24 symbols and 2^24 table entries (C149).",
  "all prefix-free codebooks, all buffers, all histories of reads and other calls", "infinitely many codebooks; multi-level escape tables only appear for long codes",
  CB+":Codebook::new,read_cb,build_esc_lut,fill_lut")
p("C16","Unknown codewords are rejected",
  "If no codeword of the codebook is a prefix of the remaining stream, read_cb returns InvalidCode (and never panics or returns a symbol).",
  "all prefix-free codebooks, all streams (at least 8 bytes beyond the longest codeword remain), all earlier histories", "needs every unfilled table slot at every level", CB+":read_cb,TABLE_FILL_VALUE")
p("C17","Encode/decode round trip over whole messages",
  "For every prefix-free codebook and every message (sequence of used entries), packing the codewords one after the other and decoding with read_cb repeatedly returns the message, symbol by symbol, in order.",
  "all codebooks, all messages", "unbounded messages, words crossing refill boundaries", CB+":read_cb")
p("C18","Codebook construction succeeds exactly on non-empty codebooks",
  "Codebook::new never panics on a description whose codes fit their lengths (<=32) and are prefix-free; it returns InvalidCodebook iff every entry has length 0.",
  "all descriptions", "all table sizes and escape nestings", CB+":Codebook::new")
p("C19","Decoding does not depend on HashMap iteration order",
  "The decoder behaves identically for every iteration order of the hash maps used during construction: same symbols, same errors, same bits consumed.",
  "all iteration orders of every escape map", "HashMap order is randomised per process; a test sees one order", CB+":build_esc_lut,EscapeCodes")
p("C20","reverse_bits reverses all 32 bits",
  "Bit i of reverse_bits(x) is bit 31-i of x for all 32 bits; applying it twice gives x back.",
  "all 2^32 inputs", "2^32 inputs", CB+":reverse_bits")
p("C21","A truncated codeword never decodes to a symbol",
  "When fewer bits remain available than the codeword being read needs, read_cb returns InvalidCode rather than a symbol.",
  "all codebooks and truncation points", "all end-of-buffer cache states", CB+":read_cb", BI+":skip_bits")
p("C22","A failed read_cb leaves the reader where it was",
  "If read_cb returns InvalidCode the reader's position is unchanged.",
  "all codebooks, all streams", "failure can happen at any escape level", CB+":read_cb")
# ---- AccReader
p("C23","AccReader delivers the source bytes in order, none lost or duplicated",
  "For every source, every capacity, every short-read behaviour of the source and every sequence of read / fill_buf / consume / grow / reset calls, the bytes handed to the caller are exactly the bytes of the source at the current stream position, and the position advances by the number of bytes delivered or consumed.",
  "all sources, capacities, short-read schedules and call sequences", "schedules of short reads and histories are unbounded", AC+":Read::read,fill_buf,consume,grow,reset_buffer_position")
p("C24","AccReader::seek lands where asked",
  "seek(Start(n)), seek(End(d)) and seek(Current(d>=0)) return the absolute position requested and the next byte read is the source byte at that position, whether or not the target lies in the internal buffer.",
  "all sources, capacities, schedules and histories", "unbounded histories", AC+":Seek::seek")
p("C25","stream_position reports the position of the next byte",
  "seek(Current(0)) never touches the source and returns the offset in the source of the next byte that read would deliver.",
  "all histories", "unbounded histories", AC+":Seek::seek,index")
p("C26","Backward relative seeks land where asked",
  "seek(Current(d)) with d<0 moves the stream position back by |d| bytes.",
  "all histories and d<0", "depends on how much is buffered", AC+":Seek::seek")
p("C27","Growing or resetting the buffer never changes visible data",
  "grow(n) and reset_buffer_position() leave data()/current_slice() and the stream position unchanged, and grow(n>0) makes the next fill_buf able to bring in more data.",
  "all states", "all buffer layouts", AC+":grow,reset_buffer_position")
p("C28","read_exact fills the whole buffer or reports UnexpectedEof",
  "read_exact(n) through AccReader returns the next n source bytes iff the source has at least n bytes left from the stream position; otherwise UnexpectedEof.",
  "all sources, capacities, schedules (without I/O errors)", "all schedules of short reads", AC+":Read::read")
p("C29","AccReader never panics and never exceeds its buffer",
  "In every reachable state the start of the window is at most its end, which is at most the buffer capacity; no slicing operation panics for any history of contract-respecting calls.",
  "all histories", "unbounded histories", AC+":AccReader")
p("C30","I/O errors of the source lose no data",
  "If a read or fill_buf call fails because the source failed, the stream position and the bytes still to be delivered are unchanged, so a retry continues with the same byte; a failed seek of the source changes nothing.",
  "all histories with source errors at any point", "errors can strike at any call", AC+":Read::read,fill_buf,seek")
# ---- demuxer
p("C31","Events do not depend on how the source is chunked",
  "For a demuxer that is a deterministic incremental parser (decisions stable under more data, reports the total number of bytes it needs), the sequence of events returned by read_event depends only on the bytes of the source, not on the reader's capacity nor on how the source splits its reads.",
  "all such demuxers, sources, capacities, short-read schedules, numbers of calls", "unbounded schedules", DM+":Context::read_event", AC+":fill_buf,grow")
p("C32","read_event reports end of file only at the end of the source",
  "If the context synthesises Eof because no more data arrived, then the source was exhausted: there is no undelivered byte beyond the buffered ones.",
  "all demuxers, sources, schedules", "all schedules", DM+":Context::read_event")
p("C33","Packets without a timebase get their stream's timebase",
  "A packet event whose timebase is unset is delivered with the timebase of the first registered stream whose index equals the packet's stream index (unset if there is none); a packet with a timebase keeps it; no other field of the packet changes.",
  "all demuxers, stream lists and packets", "all stream tables", DM+":read_event_internal")
p("C34","Every NewStream event registers its stream exactly once",
  "info.streams after any sequence of read_event calls is the initial list followed by the streams of the delivered NewStream events in delivery order; no other event changes it.",
  "all demuxers and call sequences", "unbounded histories", DM+":read_event_internal")
p("C35","Demuxer errors reach the caller unchanged",
  "Any demuxer error other than MoreDataNeeded, and any seek or fill error of the reader, is returned by read_event as is and nothing is retried; read_headers likewise propagates demuxer and fill errors.",
  "all demuxers, readers and histories", "errors at any iteration of the retry loop", DM+":read_event,read_headers")
p("C36","read_event makes progress when more data is requested and available",
  "If the demuxer reports that n more bytes are needed and the source has them, read_event obtains more data and eventually returns.",
  "all requested amounts and buffer fill levels", "a livelock cannot be observed by a finite test", DM+":Context::read_event")
p("C37","read_headers terminates on truncated input",
  "If the source ends before the headers are complete, read_headers returns (with an error) instead of looping.",
  "all truncated sources", "non-termination cannot be observed by a finite test", DM+":Context::read_headers")
p("C38","read_headers success means the reader is positioned after the headers",
  "If read_headers returns Ok, the reader's seek to the position requested by the demuxer succeeded.",
  "all demuxers and readers", "seek failures", DM+":read_headers_internal")
p("C39","Probe returns the first best-scoring format above the threshold",
  "probe(data) returns a registered descriptor iff some descriptor scores above PROBE_SCORE_EXTENSION; the returned one has the maximal score and is the first with that score.",
  "all descriptor lists, all data", "all score assignments", DM+":Probe::probe")
p("C40","A score equal to PROBE_SCORE_EXTENSION is accepted",
  "As documented on the constant, data whose score is equal to or greater than PROBE_SCORE_EXTENSION is associated to the format, so probe returns a descriptor.",
  "all descriptor lists", "boundary of the threshold", DM+":PROBE_SCORE_EXTENSION,probe")
# ---- format misc
p("C41","add_stream numbers streams consecutively",
  "add_stream returns the position of the new stream, stores it at that position with index equal to that position, and leaves the previous streams unchanged; so after any sequence of add_stream calls on an empty list stream k has index k.",
  "all sequences of streams", "unbounded", CO+":GlobalInfo::add_stream")
p("C42","Streams with automatic ids get unique ids",
  "Adding several streams whose id is negative (automatic) yields streams with pairwise different ids, as required by Stream::id.",
  "all sequences", "all sequences", CO+":add_stream", ST+":Stream::id,from_params")
p("C43","Muxer lookup by name returns the first match",
  "by_name(name) returns the first registered descriptor with that exact name, None iff there is none.",
  "all lists and names", "all lists", MX+":Lookup::by_name")
p("C44","Writer::position is the position in the underlying output",
  "For a Writer created on an output positioned at 0, after any sequence of writes (possibly short or failing) and seeks, position() equals the position of the underlying output, and equals the total number of accepted bytes when there was no seek.",
  "all sequences, all short-write schedules", "unbounded histories", MX+":Writer::write,seek,position")
p("C45","Muxer output is header, packets and trailer in call order",
  "The context passes each call to the muxer exactly once and in order on the same writer; for muxers that append bytes, the output is the concatenation of what header, each packet and the trailer produced; the output is flushed only after the trailer was written successfully.",
  "all muxers, all packet sequences", "unbounded histories", MX+":Context::write_header,write_packet,write_trailer")
# ---- codec
p("C46","Codec lookup returns the first registered codec of that name",
  "Codecs::by_name(name) on a list built by from_list/append returns the first appended descriptor whose codec name is name, None iff none was appended, and never panics.",
  "all registration sequences and names, decoders and encoders", "all lists", DE+":Codecs::by_name,append", EN+":Codecs::by_name,append", CC+":from_list")
p("C47","Registering more codecs never changes an existing lookup",
  "Appending a codec never changes the result of a lookup that already succeeded, and appending two codecs with different names in either order gives the same lookups.",
  "all registration sequences", "all lists", DE+":append", EN+":append")
# ---- data
p("C48","Audio size is the smallest aligned size that holds the samples",
  "For a power-of-two alignment, get_audio_size(length, alignment) is the smallest multiple of the alignment that is at least ceil(length*bits/8) for packed formats and length*ceil(bits/8) otherwise.",
  "all lengths, bit depths, power-of-two alignments (results below 2^64)", "all values", AU+":Soniton::get_audio_size,align,round_to_byte")
p("C49","Component dimensions are rounded-up divisions",
  "get_width(w) = ceil(w / 2^h_ss) and get_height(h) = ceil(h / 2^v_ss).",
  "all widths, heights, shifts below 64 (no overflow)", "all values", PX+":Chromaton::get_width,get_height")
p("C50","The stride of a component can hold a full line",
  "get_linesize(w, a) with a a power of two is a multiple of a and holds at least get_width(w)*depth bits; get_data_size is the stride times the component height.",
  "all widths, depths, subsamplings, alignments", "all values", PX+":get_linesize,get_data_size")
p("C51","Predefined 10-bit formats have 10-bit components",
  "Every component of the predefined YUV*_10 formats has depth 10 and component offset equal to its index.",
  "all predefined 10-bit formats and their components", "tests only print formats", PX+":formats::YUV444_10..YUV410_10,yuvhb")
p("C52","A default video frame has one zeroed plane per component, exactly sized",
  "new_default_frame for video creates as many planes as components, plane k having stride get_linesize and length stride*height of component k, all zero, never panicking in the split, and using up the whole allocation.",
  "all formats and dimensions (sizes below 2^64)", "all formats", FR+":DefaultFrameBuffer::new,VideoInfo::size")
p("C53","A default audio frame has the right planes",
  "Planar audio yields one plane per channel each of the aligned size of the samples; interleaved audio yields a single plane of size (aligned size) * channels; all zero; never panics.",
  "all formats, maps, sample counts", "all values", FR+":DefaultFrameBuffer::new,AudioInfo::size")
p("C54","copy_from_slice then copy_frame_to_buffer returns the picture",
  "For 8-bit planar video frames, copying a picture in from source planes with any strides and copying it out to destination planes with any strides reproduces every visible sample of every plane and leaves every destination byte outside the visible area unchanged.",
  "all dimensions, subsamplings, strides at least the component width and large enough buffers", "all sizes and strides", FR+":copy_from_slice,copy_frame_to_buffer,copy_plane")
p("C55","copy_plane stays inside its buffers and copies exactly the rectangle",
  "When both strides are at least the width and each used row is complete, the plane copy never accesses memory outside the slices, copies exactly the width x min(height, rows) rectangle and changes nothing else.",
  "all buffers, strides, widths, heights", "memory safety of an unsafe block", FR+":copy_plane")
p("C56","copy_plane_to_buffer is memory safe for every plane",
  "copy_plane_to_buffer(i, dst, stride) on a default frame with a sufficiently large destination never accesses memory outside the plane or the destination, for every plane index.",
  "all formats, planes, sizes", "undefined behaviour may go unnoticed", FR+":copy_plane_to_buffer")
p("C57","Channel lookup returns the first position of the channel",
  "find_channel_id(t) returns the position of the first channel equal to t, None iff absent; adding channels appends in order.",
  "all channel maps", "maps longer than 255 channels", AU+":ChannelMap::find_channel_id,add_channels")
p("C58","Every channel is exactly one of centre, left, right",
  "For every channel type exactly one of is_center, is_left, is_right is true.",
  "all channel types", "exhaustive over the enumeration", AU+":ChannelType::is_center,is_left,is_right")
p("C59","Colour enumerations parse exactly their published code points",
  "from_u32(v) returns the variant whose discriminant is v and None for every other v; to_u32 then from_u32 is the identity.",
  "all 2^32 inputs for the three enumerations", "2^32 inputs", PX+":MatrixCoefficients,ColorPrimaries,TransferCharacteristic")
p("C60","Formaton setters take effect",
  "After set_primaries / set_xfer / set_matrix (and the _from_u32 variants) on a format, the corresponding getter returns the new value.",
  "all formats and values", "-", PX+":Formaton::set_primaries,set_xfer,set_matrix")
p("C61","Stream-information equality is an equivalence that ignores per-frame data",
  "VideoInfo == compares exactly width, height and format, AudioInfo == exactly rate, channel map and format; MediaKind equality is reflexive, symmetric and transitive and never equates video with audio.",
  "all values", "all triples", FR+":PartialEq for VideoInfo,AudioInfo,MediaKind")
p("C62","Packet write/read round trip",
  "put_packet followed by get_packet(len) at the same place returns a packet with the same data for every short-read/short-write behaviour; get_packet fails with UnexpectedEof iff fewer than len bytes remain.",
  "all packets, schedules", "all schedules", PK+":get_packet,put_packet")
p("C63","Stream byte readers return consecutive values",
  "The ByteRead getters on any reader return the value of the next k bytes regardless of short reads, consume exactly k bytes, and fail with UnexpectedEof if fewer remain.",
  "all readers and schedules", "all schedules", IO+":get_buffer,ByteRead")
p("C64","Stream byte peeking does not consume",
  "The BytePeek peekers return the value of the next k buffered bytes without changing the stream position.",
  "all buffered readers", "all schedules", IO+":BytePeek")
p("C65","Display of audio formats labels its flags correctly",
  "The text printed for a Soniton shows the planar flag after 'planar:' and the packed flag after 'packed:'.",
  "all formats", "-", AU+":Display for Soniton")
p("C66","Format construction keeps every component",
  "Formaton::new(model, components, ...) with at most 5 components stores component i at index i, reports their number, get_chromaton returns None beyond, total depth is the sum of the depths (below 256); more than 5 components panics.",
  "all component lists", "all lists", PX+":Formaton::new,get_chromaton,get_total_depth,get_num_comp")
p("C67","A codeword read never panics, wherever the reader stands",
  "After any history of legal calls and codeword reads, with either reader, read_cb on a codebook built from a valid description returns a symbol of that description or an error; it never panics, never moves backwards and never past the end of the buffer.",
  "all codebooks, buffers of any size, histories, both readers", "every end-of-buffer cache state", CB+":read_cb", BI+":skip_bits,available")
p("C68","Stream byte readers survive interruptions",
  "A getter of ByteRead behaves as Read::read_exact does when the reader reports Interrupted: it goes on reading, and no byte is lost.",
  "all readers and schedules", "interruptions cannot be provoked reliably", IO+":get_buffer")
p("C69","A peek fails with UnexpectedEof only at the end",
  "A peeker of k bytes on a buffered reader with room for k bytes fails with UnexpectedEof only when fewer than k bytes remain in the stream.",
  "all sources and schedules", "all schedules", IO+":BytePeek", AC+":fill_buf")
p("C70","Copying into and out of default frames of predefined formats is memory safe",
  "For every predefined format with planar components and every picture size, copy_from_slice and copy_frame_to_buffer on a default frame, given buffers with room for the picture, stay inside the planes.",
  "all formats, sizes, buffers", "the copy goes through raw pointers: an out-of-bounds access does not fail", FR+":copy_from_slice,copy_frame_to_buffer,copy_plane", PX+":formats")
p("C71","Copying keeps samples of more than 8 bits",
  "A picture whose samples have more than 8 bits, copied into a default frame and out again, is returned whole.",
  "all formats, sizes, pictures", "all sizes and contents", FR+":copy_from_slice,copy_frame_to_buffer")
p("C72","Predefined YUV formats have the subsampling of their names",
  "4:4:4 has no subsampling; 4:2:2 halves the width only; 4:2:0 halves both; 4:1:1 divides the width by four; 4:1:0 divides the width by four and the height by two; the luma component is never subsampled.",
  "all predefined YUV formats", "-", PX+":formats")
p("C73","Components of predefined packed formats do not overlap",
  "In every predefined packed RGB format the bit ranges of any two components are disjoint and inside the element.",
  "all predefined packed formats", "-", PX+":formats")
p("C74","The stride is the smallest aligned one",
  "get_linesize returns the least multiple of the alignment that can hold the bits of one line.",
  "all components, widths, alignments", "all widths", PX+":Chromaton::get_linesize")
p("C75","Displaying a component never panics",
  "The Display implementation of Chromaton returns for every component.",
  "all components", "all depths and shifts", PX+":Display for Chromaton")
p("C76","Enumeration members are displayed with distinct names",
  "The Display implementations give different members of the same enumeration (channels, matrix, primaries, transfer, chroma location, colour model, frame type) different names.",
  "all members", "-", PX+":Display")
p("C77","Typed views of a default frame",
  "as_slice of every plane of a default frame, for elements of 1, 2 or 4 bytes and an aligned allocation, succeeds and covers the plane exactly. In general a view fails with InvalidIndex exactly if there is no such plane and with InvalidConversion exactly if its address or length is not a multiple of the size of an element.",
  "all frames, planes, element sizes", "all sizes", FR+":as_slice")
p("C78","The bit reader is a queue topped up from the stream",
  "For every buffer and every sequence of calls with arguments in the documented ranges (reads, peeks, skips of any length, alignment, consumed, available; before, at and after the end of the buffer) the outputs, the number of cached bits and the position are those of a queue of bits that is replaced by the next 64 bits or extended by the next 32 bits whenever 64 more bits exist; the only panic is available() after the position of the loaded bytes has been moved beyond the buffer.",
  "all buffers, all endiannesses, all call sequences", "all end-of-buffer states and stale caches", BI+":BitReadLE,BitReadBE")
p("C79","64-bit reads deliver exactly the whole 8-byte blocks",
  "With get_bit, get_bits_64, their peeks, align_bits and consumed only, on a buffer of any length, the reader delivers exactly the bits of the first 8*(len/8) bytes, then zeros, and the position stops at the end of the last whole block.",
  "all buffers and call sequences", "all end-of-buffer states", BI+":get_bits_64,refill64")
p("C80","Codebooks can be built from any description",
  "A codebook built through any implementation of CodebookDescReader whose methods describe a list of (length, code, symbol) entries is the one built from that list; with a description without symbols (ShortCodebookDesc) decoding yields the position of the entry in the description, unused entries included.",
  "all description objects, all valid descriptions, all messages, all map iteration orders", "unbounded descriptions and implementations", CB+":CodebookDescReader,FullCodebookDesc,ShortCodebookDesc,Codebook::new")
p("C81","Table descriptions decode to positions",
  "A codebook built from separate tables of lengths and codewords (TableCodebookDescReader) decodes every encoded message to the positions of its entries, for every symbol type.",
  "all tables, symbol types, messages, map iteration orders", "tests use tables of a few entries", CB+":TableCodebookDescReader")
p("C82","Codec contexts are transparent",
  "In every sequence of calls a decoder or encoder context made by name returns what the object created by the first descriptor of that name returns (panics included), and decoder()/encoder() is that object; unknown names give no context.",
  "all decoders, encoders, registries, names, call sequences", "all implementations and call sequences", DE+":Context", EN+":Context")
p("C83","Option values keep key, type and value",
  "Two set_option calls hand the encoder the same pair only if key, argument type and argument are the same.",
  "all option arguments", "all values", VA+":From", EN+":Context::set_option")
p("C84","Error texts identify the error",
  "The text of a codec error determines the error; the text of a format error determines its kind and its number of bytes; an I/O error converted to a format error is its source, and no other error has a source.",
  "all errors", "all feature names and byte counts", "codec/src/error.rs:Display", "format/src/error.rs:Display,source,From<io::Error>")
p("C85","read_cb is decoding from a bit queue, in every state",
  "In any history of bit reader calls and codeword reads on any buffer, with either bit order, past the end too, read_cb returns what ten-bit-wise decoding of the set of codewords from a bit queue returns, leaves the reader there, and panics exactly when the queue does.",
  "all descriptions, buffers, histories, map iteration orders", "states near and past the end depend on the refill history", CB+":read_cb,Codebook::new", BI+":peek_bits_32,skip_bits,available")
p("C86","Codewords are exact to the last bit of 8-byte blocks",
  "On a buffer whose length is a multiple of 8 bytes, codeword reads mixed with calls of the 64-bit path are exact up to the last bit, a read at the end fails without moving, and messages packed into whole blocks are read back.",
  "all descriptions, messages, buffers below 2^32 bits, histories", "all end alignments", CB+":read_cb", BI+":peek_bits_32,skip_bits,available")
p("C87","What a muxer wrote is what a demuxer reads",
  "For a muxer and an incremental parser that agree about a format: packets written through Writer and the muxer context to any output that makes no call fail come back from the demuxer context and AccReader over any source of the bytes written, in order, followed by the end; refused packets leave no trace.",
  "all formats, packet lists, outputs, sources, chunkings, capacities", "the tests of muxer.rs and demuxer.rs use different formats and never connect the two", MX+":Writer,Context", DM+":Context", AC+":AccReader")
p("C88","An I/O error returned while demuxing loses nothing",
  "After read_event or read_headers returned an I/O error, calling again continues as if the error had not happened: the results that are not I/O errors are the events (the headers) of the bytes of the source.",
  "all parsers, sources, positions and numbers of failures", "no test makes a reader fail; the failing seek of a large skip needs a failure at one particular read", DM+":Context", AC+":AccReader")
p("C89","The buffer stays within a constant factor of its capacity plus the largest request",
  "While events are read the length of the buffer of AccReader is at most a constant times the initial capacity plus the largest number of bytes the demuxer ever asked for.",
  "all parsers, sources, chunkings, capacities, numbers of calls", "the tests read from memory, where each request is answered at once", DM+":Context::read_event", AC+":AccReader::grow")
p("C90","Copying an empty picture does nothing",
  "copy_from_slice and copy_frame_to_buffer on a default frame of a picture without columns or without rows leave the frame and the destinations as they are.",
  "all formats, sizes with a zero, buffers", "no test uses an empty picture", FR+":copy_from_slice,copy_frame_to_buffer,copy_plane", PX+":get_linesize")
p("C91","A default packet is a new packet",
  "Packet::default() and Packet::new() are equal in every field.",
  "-", "no test compares the two", PK+":Packet")
p("C92","Accessors return what the constructor was given",
  "Every accessor of Chromaton, Formaton, VideoInfo, AudioInfo and MediaKind returns the argument of the constructor; indexing a Formaton agrees with get_chromaton below 5 and panics from 5 on.",
  "all arguments", "all values", PX+":Chromaton,Formaton", FR+":VideoInfo,AudioInfo,MediaKind")
p("C93","Predefined formats have the components of their colour model",
  "The number of components of every predefined format is the number of its components that are present, and that of its colour model plus one if it has alpha; only PAL8 is paletted.",
  "all predefined formats", "-", PX+":formats,get_default_components")
p("C94","Default channel maps are the documented ones",
  "default_map(1) is a centre channel, default_map(2) a right and a left channel, and every other count panics.",
  "all counts", "all counts", AU+":default_map")
p("C95","Bit counts fit machine words",
  "With index and left as checked 64-bit words every history of calls gives the results and the panics it gives with unbounded counters, as long as the bits of the buffer and the bits skipped are fewer than 2^64 together; beyond that the words can overflow.",
  "all buffers, all endiannesses, all histories within the bound", "the bound is about sizes no test can allocate and about sums over whole histories", BI+":BitReadEndian")
p("C96","AccReader positions fit machine words",
  "With pos, end and index as checked 64-bit words every legal history gives the results it gives with unbounded counters, for seeks to any 64-bit position, as long as source and buffer are each shorter than 2^63 bytes; grow panics exactly when the buffer would reach 2^63 bytes.",
  "all sources, capacities and legal histories within the bound", "positions near 2^64 are reached by seeking only, and every order of calls matters", AC+":AccReader,grow,consume,seek")
p("C97","Builds without overflow checks agree where checked builds do not panic",
  "With arithmetic that wraps around instead of panicking, default frames are the same and the copy functions have the same effect wherever the checked build does not panic.",
  "all frames, buffers and sizes", "tests run in one profile only, and sizes near 2^64 cannot be allocated", FR+":DefaultFrameBuffer,new_default_frame,copy_from_slice,copy_frame_to_buffer", PX+":get_linesize,get_data_size", AU+":get_audio_size")
p("C98","Default frames have room for their picture without overflow checks",
  "In a build without overflow checks a default frame that is created has planes of stride times rows bytes, so that copying a picture into it stays within them.",
  "all picture sizes and formats", "needs sizes whose product wraps around to a small number, in a release build", FR+":new_default_frame,copy_from_slice", PX+":get_data_size")
p("C99","Default frames are created exactly when their sizes fit",
  "Component sizes, sizes of sample runs and default frames are computed if and only if every number on the way fits a 64-bit word and the total is below 2^63; otherwise the call panics.",
  "all formats, sizes, channel counts", "the boundary lies at sizes no test can allocate", PX+":get_width,get_height,get_linesize,get_data_size", AU+":get_audio_size", FR+":new_default_frame")
p("C100","Every sequence of calls on AccReader is that of a three-number machine",
  "Over a reader that behaves like a file, at any position, every sequence of calls with any arguments, including backward seeks and consuming more than is buffered, returns without panicking what a machine of true position, number of buffered bytes and reported position returns; the unwrapped reader is ahead by the buffered bytes.",
  "all sources, starting positions, chunkings, failures, histories", "the state depends on the whole history and on every short read", AC+":AccReader,get_ref,into_inner")
p("C101","AccReader may wrap a reader at any position",
  "An absolute seek on an AccReader goes to that position of the source, wherever the source was when it was wrapped.",
  "all sources, starting positions, histories", "the tests wrap fresh cursors only", AC+":AccReader::new,seek")
p("C102","Writer changes a file exactly as the calls say",
  "Over any file, whatever pieces it accepts and whenever it fails, every sequence of writes, seeks and flushes changes the contents by exactly the bytes of the calls at the positions reached; a failed write_all has written an initial part.",
  "all files, failure scripts, call sequences", "the tests write to vectors that never fail", MX+":Writer::write,seek,flush")
p("C103","A failed write may be repeated",
  "Repeating a write_all that failed leaves the file as one successful write_all would.",
  "all files, buffers, failures", "the tests write to vectors that never fail", MX+":Writer::write")
p("C104","Buffered bytes can be read while the source fails",
  "A read that asks for no more bytes than AccReader has buffered succeeds without calling the source.",
  "all sources, histories, slices", "the tests have no failing source", AC+":Read::read,fill_buf")
p("C105","read_to_end through AccReader returns the rest of the source",
  "After any history, Read::read_to_end, whatever chunk sizes it asks for, collects an initial part of the remaining bytes, all of them when it reports success; it does report success over a source that does not fail.",
  "all sources, capacities, schedules, histories, chunk sizes", "schedules of short reads are unbounded", AC+":Read::read")
p("C106","read_until through AccReader returns the next line",
  "After any history, BufRead::read_until returns the bytes through the next delimiter, or all remaining bytes, and leaves the position behind them.",
  "all sources, capacities, schedules, histories, delimiters", "schedules of short reads are unbounded", AC+":BufRead::fill_buf,consume")
p("C107","The byte count of Writer on machine words",
  "Writer with a 64-bit count behaves as if it were unbounded as long as the position stays below 2^64 after every call, and panics otherwise.",
  "all outputs, call sequences", "positions near 2^64 are not reached in tests", MX+":Writer::write,seek")
p("C108","The byte count of get_buffer on machine words",
  "Over a reader that keeps the contract of Read::read, the count of get_buffer never overflows.",
  "all readers, buffers", "chunkings are unbounded", IO+":get_buffer")
p("C109","The bit reader without overflow checks agrees where the checked one does not panic",
  "Whatever a sequence of calls on the bit reader delivers in a build with overflow checks, it delivers in a build without them, also for arguments outside the documented ranges.",
  "all buffers, call sequences, usize arguments", "tests run in one profile only", BI+":BitRead,get_bits_32,get_bits_64,skip_bits,available,consumed")
p("C110","The bit reader without overflow checks is a bit queue",
  "With arguments in the documented ranges, as long as buffer and skips together are fewer than 2^64 bits, the unchecked reader never panics and every call does what the bit queue does, with available counted modulo 2^64.",
  "all buffers, call sequences", "histories are unbounded, and tests run in one profile only", BI+":BitRead,refill32,refill64,skip_bits,available")
p("C111","available never reports more bits than the buffer has",
  "In a build without overflow checks, available never exceeds the number of bits in the buffer.",
  "all buffers, call sequences", "needs skips past the end in a release build", BI+":available,skip_bits")
p("C112","AccReader without overflow checks agrees where the checked one does not panic",
  "Whatever a history of calls on AccReader delivers in a build with overflow checks, over any source, it delivers in a build without them.",
  "all sources, capacities, histories", "tests run in one profile only", AC+":AccReader,grow,consume,read,seek")
p("C113","AccReader without overflow checks never panics",
  "Over any source that keeps the contract of Read::read, no sequence of calls panics in a build without overflow checks, whatever is consumed and wherever one seeks, as long as the buffer stays below 2^63 bytes.",
  "all sources, capacities, histories", "positions near 2^64 and every order of calls matter", AC+":AccReader,consume,read,fill_buf,seek")
p("C114","Growing keeps the buffered bytes without overflow checks",
  "In a build without overflow checks, grow keeps the buffered bytes or panics.",
  "all buffers and requests", "needs requests near 2^64 in a release build", AC+":grow,data")
p("C115","Displayed numbers are the numbers",
  "What Display prints for components, pixel formats, sample formats, informations and errors consists of the fixed words and of the decimal (for masks hexadecimal) numerals of the fields, without leading zeros; a format lists exactly the components that are present, in order; it panics exactly when a mask does not fit an i32.",
  "all components, formats, informations and errors", "numerals of arbitrary numbers; the crate's tests print and do not compare", PX+":Display for Chromaton, Formaton", AU+":Display for Soniton", FR+":Display", "codec/src/error.rs:Display", "format/src/error.rs:Display")
p("C116","Displayed names are those of the codes",
  "The name printed for a matrix, set of primaries, transfer characteristic, channel, chroma location, frame type or colour model is the one in the table by code.",
  "all values", "the crate's tests print and do not compare", PX+":Display", AU+":Display for ChannelType", FR+":Display for FrameType")
p("C117","The predefined formats in full",
  "Every predefined planar format has limited range YCbCr, a full luma plane and two chroma planes, no alpha, no palette and one byte or word per step; every predefined packed format has RGB components without subsampling within one element; sample formats have the width, sign and kind of their names, interleaved and little endian.",
  "all predefined formats", "no test looks at the fields", PX+":formats", AU+":formats")
p("C118","Copying with more or fewer buffers than planes",
  "copy_from_slice panics when sources, strides or components run out before the planes do, and ignores further sources; copy_frame_to_buffer copies as many planes as there are destinations, strides and components for and leaves further destinations alone.",
  "all frames, planes, sources, destinations", "every combination of counts; the existing test for a missing plane already has undefined behaviour before it", FR+":copy_from_slice,copy_frame_to_buffer")
p("C119","Demuxing on machine words",
  "With the counters of the reader as checked 64-bit words, a session of read_headers and read_event calls of a demuxer that decides from the buffered bytes has exactly the results and the final state it has with unbounded counters, unless the buffer reaches 2^63 bytes, in which case it panics.",
  "all sources, demuxers, capacities, sessions", "buffers of 2^63 bytes cannot be allocated; every order of calls matters", DM+":read_headers,read_event", AC+":grow,fill_buf,seek")
p("C120","A request for more data cannot crash the context",
  "Whatever number of bytes a demuxer asks for with MoreDataNeeded, read_event and read_headers return a result instead of panicking.",
  "all demuxers, requests, sources, with and without overflow checks", "the request is usually a length field of the input and takes any 64-bit value", DM+":read_headers,read_event", AC+":grow")
p("C121","Truncated headers end in a panic",
  "On a source that ends within the headers, read_headers enlarges the buffer in every round and panics when it reaches 2^63 bytes.",
  "all sources, incremental header parsers, capacities", "takes 2^63 rounds or gigantic requests", DM+":read_headers", AC+":grow")
p("C122","Demuxing without overflow checks agrees where the checked build does not panic",
  "Whatever a session of read_headers and read_event calls delivers in a build with overflow checks, over any source, it delivers in a build without them.",
  "all sources, demuxers, capacities, sessions", "tests run in one profile only", DM+":read_headers,read_event", AC+":grow,fill_buf,seek")
p("C123","Codebooks without overflow checks agree where the checked build does not panic",
  "Whatever codebook or error construction yields from a description in a build with overflow checks, and whatever a history of reader calls and codeword reads delivers there, a build without overflow checks yields and delivers.",
  "all descriptions, orders, modes, tables, buffers, histories", "tests run in one profile only", CB+":new,read_cb", BR)
p("C124","Without overflow checks every codeword of a description is decoded",
  "In a build without overflow checks a codebook that construction has accepted decodes each codeword of its description to the symbol of that codeword.",
  "all descriptions, messages, codeword lengths up to 255", "codewords longer than 41 bits panic in the profile tests run in", CB+":new,read_cb")
p("C125","Without overflow checks a codeword read behind the end fails",
  "In a build without overflow checks a codeword read at or behind the end of the buffer returns InvalidCode.",
  "all descriptions, buffers, histories with skips past the end", "the profile tests run in panics there", CB+":read_cb", BI+":available")
p("C126","Without overflow checks components are printed with their masks",
  "In a build without overflow checks the text of a component has its numbers and, if it is packed, its mask, and where the build with overflow checks prints a text it is the same.",
  "all components and formats", "depths and shifts up to 255 in either profile", PX+":Display for Chromaton,Formaton")
p("C127","Without overflow checks the total depth is reduced modulo 256",
  "In a build without overflow checks get_total_depth returns the sum of the depths modulo 256.",
  "all formats", "tests run in one profile only", PX+":get_total_depth")
p("C128","Without overflow checks the counters wrap around and nothing else changes",
  "In a build without overflow checks Writer does what it does with an unbounded position, reduced modulo 2^64, and get_buffer is the loop with an unbounded count.",
  "all outputs whose seek returns a u64, call sequences; all readers that keep the contract of Read::read", "positions near 2^64", MX+":Writer", "src/io/byteread.rs:get_buffer")
p("C129","At 64 bits the buffered reader for any width is the one on 64-bit words",
  "AccReader modelled for any width of usize is, at 64 bits, the AccReader on checked words, and without overflow checks the one on wrapping words.",
  "all sources that keep the contract of read and report u64 positions, call histories, capacities below 2^63", "equality of two models", AC+":AccReader")
p("C130","The buffered reader works the same for any width of usize",
  "For every width of usize up to 64 bits (wasm32 is a tested target), with and without overflow checks, AccReader does what it does with unbounded counters as long as source and buffer are shorter than half the address space and positions fit usize.",
  "all widths, file-like sources, legal call histories", "needs 32-bit machines and sources of gigabytes", AC+":AccReader")
p("C131","Reading on past the last usize position",
  "While only reading, AccReader delivers the bytes of a source of any length; without overflow checks its position is kept modulo 2^bits, with them the history panics exactly if it gets as far as position 2^bits.",
  "all widths, file-like sources of any length, histories without seeks", "needs more than 4 GiB of data on a 32-bit machine", AC+":consume", AC+":read")
p("C132","A seek goes where it is told to, whatever the width of usize",
  "seek goes to the position asked for and reports it, also if the position does not fit usize.",
  "all widths, positions, states of the buffer", "needs 32-bit machines and positions above 4 GiB", AC+":seek")
p("C133","The position of Writer for any width of usize",
  "Whatever the width of usize, Writer::position is the position in the output.",
  "all widths, outputs, call histories", "needs 32-bit machines and outputs of more than 4 GiB", MX+":Writer")
p("C134","The byte count of get_buffer for any width of usize",
  "Over a reader that keeps the contract of Read::read, get_buffer fills a slice of any length the machine has without overflow, whatever the width of usize.",
  "all widths, readers, slices", "needs 32-bit machines and slices of gigabytes", IO+":get_buffer")
p("C135","Frames and copies are the same for any width of usize",
  "What a machine with overflow checks makes of a default frame or a copy, every machine at least as wide makes of it, with and without overflow checks.",
  "all widths, formats, dimensions, contents", "needs the same inputs on machines of different widths", FR+":new_default_frame,copy_frame_to_buffer,copy_from_slice")
p("C136","When a default frame can be created, for any width of usize",
  "With overflow checks a default frame is created exactly if no number on the way takes more than a word and the whole takes less than half of the address space.",
  "all widths from 9 bits on, formats, dimensions", "needs frames at the limits of 32-bit address spaces", FR+":new_default_frame", PX+":get_data_size", AU+":get_audio_size")
p("C137","Copies stay within default frames, whatever the width of usize",
  "Copying into a default frame does not write outside its planes, whatever the width of usize and with and without overflow checks.",
  "all widths, formats, dimensions", "the sizes that wrap around are rare", FR+":new_default_frame,copy_from_slice")
p("C138","The bit reader is the same for any width of usize",
  "With overflow checks every history of calls on the bit reader does on any width of usize what it does with unlimited counters, and without them what it does on 64 bits, for all buffers and arguments that leave 64 bytes of the address space; counts are taken modulo the width.",
  "all widths, buffers, calls", "needs machines of different widths and buffers of gigabytes", BI+":refill32,refill64,skip_bits,get_bits_64,get_bits_32")
p("C139","consumed and available count the bits, whatever the width of usize",
  "consumed and available return the number of bits read and left for every buffer that fits into the address space.",
  "all widths, buffers, histories", "needs a buffer of half a gigabyte on a 32-bit machine", BI+":consumed,available")
p("C140","Codeword reads are the same for any width of usize",
  "Histories of calls and codeword reads do on any width of usize from 32 bits on what they do with unlimited counters, or without overflow checks what they do on 64 bits.",
  "all widths, codebooks, buffers, histories", "needs a buffer of half a gigabyte on a 32-bit machine", CB+":read_cb")
p("C141","A loop over available ends",
  "The loop of benches/bitstream.rs (while available() > 0, reading and skipping 64 bits per pass) never panics; it ends exactly for buffers of whole 8-byte blocks, after one pass per block, each of which reads the bits of its block.",
  "all buffers, byte orders, numbers of passes", "the benchmark has one buffer of 16 bytes; endless loops cannot be tested", BI+":available,skip_bits,get_bits_32", "benches/bitstream.rs:bitread")
p("C142","The last bytes are never consumed",
  "Whatever is read or skipped by at most 64 bits at a time, the last length mod 4 bytes of a buffer stay available, so no loop over available around such calls ends if the length is not a multiple of 4.",
  "all buffers, byte orders, calls", "needs all sequences of calls", BI+":available,can_refill")
p("C143","The benchmarks run through and read what they should",
  "The loops of bitstream/benches/bitread.rs never panic on any buffer and, while the buffer has 64 bits to spare, read its bits; the loop of benches/format.rs reads the bytes of its source one by one.",
  "all buffers, numbers of passes, sources, capacities", "the benchmarks do not look at what they read", BI+":get_bits_32,get_bits_64,get_bit", AC+":read", "benches/format.rs:bench_accreader")
p("C144","Demuxing for any width of usize",
  "On machines of any width up to 64 bits, with and without overflow checks, a session of read_headers and read_event calls has exactly the results and the final state it has with unbounded counters, unless the buffer reaches half the address space, in which case it panics.",
  "all widths, sources, demuxers, capacities, sessions", "tests run on one width with small sources", DM+":read_headers,read_event", AC+":grow,fill_buf,seek")
p("C145","A request for more data cannot crash the context, whatever the width of usize",
  "Whatever number of bytes a demuxer asks for with MoreDataNeeded, read_event and read_headers return a result instead of panicking, on any width of usize.",
  "all widths, sources, demuxers, capacities, sessions", "the tests ask for a few bytes only", DM+":read_headers,read_event", AC+":grow")
p("C146","Truncated headers end in a panic, whatever the width of usize",
  "On a source that ends within the headers, read_headers enlarges the buffer in every round and panics when it reaches half the address space.",
  "all widths, sources, incremental header parsers, capacities", "takes up to 2^31 rounds even on a 32-bit machine", DM+":read_headers", AC+":grow")
p("C147","Demuxing for any width of usize includes that on 64 bits",
  "With 64 bits, sessions on the machine are the sessions on 64-bit words, with overflow checks always and without them wherever the former do not panic.",
  "all sources, demuxers, capacities, sessions", "relates two models", DM+":read_headers,read_event")
p("C148","Overflow checks change no result, whatever the width of usize",
  "Whatever AccReader, the demuxing Context, Writer, get_buffer, the bit reader with codeword reads, frames and copies return on a machine with overflow checks, they return on one of the same width without them.",
  "all widths, sources, sinks, states, histories, formats", "tests run in one profile and on one width", AC+":read,fill_buf,seek,grow,consume", DM+":read_headers,read_event", MX+":write,seek", BI+":get_bits_32,get_bits_64,skip_bits", FR+":copy_from_slice,copy_frame_to_buffer")
p("C149","Size of the lookup tables and the limit of 2^24 entries",
  "For a prefix-free description the table has exactly one block for the empty word and one for every 10, 20, ... bits after which some codeword continues, each of 2^k entries where k <= 10 is the longest remainder. Up to 2^24 entries everything is decoded (C15); 5461 codewords of at most 32 bits always fit; one block beyond it a codeword is decoded as another symbol, and symbols beyond the first 2^24 are never returned.",
  "all descriptions, orders of hash maps, streams", "tables of 2^24 entries take 64 MiB and thousands of long codewords", CB+":Codebook::new,build_esc_lut,resize_table,fill_lut,read_cb")
p("C150","When AccReader panics, for any width of usize",
  "Without overflow checks no history of calls panics whatever is read, consumed and sought, as long as the buffer stays shorter than half the address space; with them a history panics exactly if a call takes a counter to 2^bits, and answers the same otherwise.",
  "all widths, sources keeping the contract of read, call histories", "needs positions near the end of the address space and sources that misbehave", AC+":read", AC+":consume", AC+":seek", AC+":fill_buf")
p("C151","When AccReader::grow fails or loses data, for any width of usize",
  "With checks grow fails exactly if the buffer would reach half the address space; without them exactly if in addition the sum of the lengths fits usize, and if it does not the buffer is cut, so that buffered bytes can be lost.",
  "all widths, states, lengths", "needs requests of the order of the address space", AC+":grow")
p("C152","Construction of codebooks that are not prefix-free",
  "Codebook::new succeeds for every description with a used entry whose codewords fit their lengths (41 bits at most in MSB mode), prefix-free or not and however large, and allocates at most 1024 entries for every started 10 bits of a codeword.",
  "all descriptions whose codes fit, orders of hash maps", "codewords may repeat, contain or overwrite one another in every combination", CB+":Codebook::new,build_esc_lut,fill_lut,resize_table,add_esc_code")
p("C153","Codebooks that are not prefix-free are safe to read with",
  "With a codebook of a description that need not be prefix-free (at most 2^24 used entries and 2^24 table entries) no history of legal calls and codeword reads panics, on any buffer with either bit order; a codeword read ends, returns the symbol of a used entry or InvalidCode and neither goes back nor beyond the end.",
  "all descriptions whose codes fit, orders of hash maps, buffers, histories", "overwritten tables might form cycles or lead out of the table for some description and stream", CB+":read_cb", CB+":Codebook::new,build_esc_lut")
p("C154","When several codewords match the last entry wins",
  "When more than one codeword of a description matches the coming bits, read_cb returns the symbol of the entry that comes last in the description and moves by the length of its codeword; when exactly one matches it is that one; the order of hash maps does not matter.",
  "all descriptions whose codes fit, orders of hash maps, streams", "depends on how codewords overlap and on the random order of a hash map", CB+":Codebook::new,build_esc_lut,fill_lut,read_cb")
p("C155","Codewords that do not fit their length",
  "For codewords of at most 10 bits in length Codebook::new panics exactly if the value of one of them does not fit: its length in LSB mode, the table after the shift in MSB mode; it never reports InvalidCodebook for it.",
  "all descriptions of short codewords", "values up to 2^32 in lengths up to 10", CB+":fill_lut_msb,fill_lut_lsb,Codebook::new")
p("C156","AccReader whose inner reader is touched",
  "Whatever is done to the inner reader between calls through get_mut, no call panics and the bytes delivered are the buffered ones, then those of the source as it is now, from wherever the inner reader is.",
  "all readers, sources, capacities, sequences of calls and of moves and changes of the inner reader", "the tests never use get_mut", AC+":AccReader::get_mut,get_ref,into_inner,read,fill_buf,consume,seek")
p("C157","Seeks after the inner reader was moved",
  "An absolute seek on an AccReader goes to that position of the source, also if the inner reader was moved through get_mut.",
  "all readers, sources, capacities, sequences of calls and of moves and changes of the inner reader", "the tests never use get_mut", AC+":AccReader::get_mut,seek")
p("C158","Construction of codebooks for any width of usize",
  "Where usize has 32 bits or more Codebook::new gives, for any description, the same codebook, error or panic as with unlimited counters, with and without overflow checks, unless the table or the symbols of that codebook cannot be allocated; then it panics.",
  "all widths from 32 bits, descriptions, orders of hash maps, allocators", "tests run on one width and never out of memory", CB+":Codebook::new,resize_table,fill_lut_msb,fill_lut_lsb,build_esc_lut,extract_lut_part,extract_esc_part")
p("C159","Codebooks are built and decode on any width of usize",
  "Where usize has 32 bits or more and the memory for its table and symbols is available a valid codebook is built and decodes every legal history over a buffer of less than 2^32 - 6912 bits.",
  "all widths from 32 bits, valid descriptions, orders of hash maps, buffers, histories", "tests run on one width and a few codebooks", CB+":Codebook::new,read_cb")
p("C160","Packets when memory cannot be had",
  "Packet::zeroed and with_capacity succeed exactly if the bytes can be allocated (none, or at most isize::MAX and granted by the allocator). get_packet fails with an error when the source has fewer bytes than requested.",
  "all widths, allocators, sources, requested lengths", "tests never request more than there is", PK+":zeroed,with_capacity,get_packet")
p("C161","AccReader when memory cannot be had",
  "A reader whose buffer, with all it is asked to grow by, can be allocated behaves as if memory were unlimited; with less it does the same or panics; a buffer that cannot be allocated panics at construction.",
  "all widths, allocators, sources, histories", "tests never run out of memory", AC+":with_capacity,grow")
p("C162","Default frames when memory cannot be had",
  "With overflow checks a default frame is created exactly if no number on the way takes more than a word and the memory for its bytes and the list of its planes can be allocated; it is then the frame that unlimited memory gives.",
  "all widths, allocators, formats, sizes", "tests never run out of memory", FR+":new,new_default_frame")
p("C163","Construction of codebooks from any description",
  "Whatever the description, prefix-free or not, with codewords that fit their lengths or do not, Codebook::new ends, has no undefined behaviour, recurses at most 26 levels deep and returns an error exactly if no entry is used, namely InvalidCodebook.",
  "all descriptions, modes, orders of hash maps", "nothing restricts what a description may hold", CB+":Codebook::new,build_esc_lut")
p("C164","Reading with codebooks from any description",
  "With any codebook that Codebook::new returned (at most 2^24 used entries and 2^24 table entries) no history of legal calls and codeword reads panics, on any buffer with either bit order; a codeword read ends, after at most as many rounds as the table has entries, returns the symbol of a used entry or InvalidCode and neither goes back nor beyond the end.",
  "all descriptions, orders of hash maps, buffers, histories", "tables written over one another might form cycles for some description", CB+":read_cb", CB+":Codebook::new,build_esc_lut")
p("C165","A codeword read uses no more bits than the longest codeword has",
  "read_cb moves the reader by at most the length of the longest codeword of the description, wherever the reader is and whatever bits follow.",
  "all descriptions, orders of hash maps, buffers, histories", "depends on the contents of the tables and on the state of the reader", CB+":read_cb", BI+":skip_bits")
p("C166","A codeword read ends, whatever the size of the table",
  "With any codebook that was built, however large its table, no round of read_cb panics, the symbol is that of some used entry, and the loop ends after at most about as many rounds as there are bits left.",
  "all descriptions, orders of hash maps, buffers, histories, numbers of rounds", "tables of more than 2^24 entries are too large for tests, and a loop that does not end is not observed in finite time", CB+":read_cb", BI+":skip_bits", BI+":available")
p("C167","An AccReader may wrap an AccReader",
  "AccReaders on top of each other, any number of them and of any capacities, answer every legal history of calls as one AccReader over the source does, and none of them panics.",
  "all sources, numbers of readers, capacities, histories", "the tests use one AccReader over a Cursor", AC+":AccReader::read,fill_buf,consume,seek,reset_buffer_position,with_capacity")
p("C168","Readers that report too many bytes",
  "If an inner reader reports more bytes than the slice it was given has, AccReader and the getters of ByteRead panic rather than take bytes for read that were not.",
  "all inner readers, whatever they report, capacities, histories", "the readers of the tests keep to the contract of Read", AC+":AccReader::read,fill_buf,seek", IO+":get_buffer")
p("C169","Copies with any implementation of FrameBuffer",
  "Copies into and out of a frame whose buffer is any implementation of FrameBuffer, which may also change its state when asked, never touch bytes outside the slices, and give the same bytes as with the default buffer if the implementation keeps to the documentation of the trait.",
  "all implementations, pictures, sources, destinations, strides", "the crate has one implementation; others are written by its users", FR+":FrameBuffer,copy_plane_to_buffer,copy_frame_to_buffer,copy_from_slice,copy_plane,as_slice")
p("C170","Further inherited methods of AccReader and Writer",
  "read_vectored, bytes, take, skip_until, stream_position, rewind and seek_relative of AccReader, after any history, deliver the bytes of the source at the position and move it by as much; write_vectored and stream_position of Writer keep position() right.",
  "all sources, capacities, schedules, histories, buffers, limits, outputs", "schedules of short reads are unbounded; the tests use none of these methods but stream_position", AC+":AccReader::read,fill_buf,consume,seek", MX+":Writer::write,seek")
p("C171","Clashing codewords that end in the same ten bits",
  "If a codeword of a description is a prefix of, or equal to, another one only where both end in the same ten bits, then each read_cb returns the symbol of the last entry of the description whose codeword comes next and moves by its length, reports InvalidCode if none does, and does not depend on the order of hash maps.",
  "all such descriptions whose codes fit and tables have at most 2^24 entries, orders of hash maps, buffers, histories of calls, both bit orders", "depends on how codewords of several lengths overlap and on the random order of a hash map", CB+":Codebook::new,build_esc_lut,fill_lut_msb,fill_lut_lsb,read_cb")
p("C172","Codewords that are prefixes of any others",
  "Let codewords be prefixes of others, but where one of at most ten bits is a prefix of longer ones, a longer one with the same first ten bits must come before it. Then the codebook is constructed, and each read_cb, wherever it is in the buffer, does what a search through the pending codewords does: in the first ten bits the last complete codeword counts, after that longer ones count before complete ones; it does not depend on the order of hash maps.",
  "all such descriptions whose codes fit and tables have at most 2^24 entries, orders of hash maps, buffers, histories of calls, both bit orders", "depends on how codewords of several lengths overlap and on the random order of a hash map", CB+":Codebook::new,build_esc_lut,fill_lut_msb,fill_lut_lsb,read_cb")
p("C173","Codebooks of any codewords at all",
  "Whichever codewords of a description are prefixes of others, Codebook::new constructs a codebook, and each read_cb, wherever it is in the buffer, does what a search through the pending codewords does, except that the rest of the codewords that begin with ten bits which a codeword of at most ten bits is the first one to match is looked for in the wrong place: where the next ten bits, as a number, are these bits as a number. If several are found there, one of them is, by the order of a hash map, and every order of them can occur.",
  "all descriptions whose codes fit and tables have at most 2^24 entries, orders of hash maps, buffers, histories of calls, both bit orders", "depends on how codewords of several lengths overlap and on the random order of a hash map", CB+":Codebook::new,build_esc_lut,fill_lut_msb,fill_lut_lsb,read_cb")
p("C174","Codebooks of any codewords without overflow checks",
  "Also in a build without overflow checks Codebook::new constructs a codebook whichever codewords are prefixes of others, and no history of calls and codeword reads panics, behind the end of the buffer included. Codewords are read as in C173, with the count of available bits wrapping around.",
  "all descriptions whose codes fit and tables have at most 2^24 entries, orders of hash maps, buffers, histories of calls with documented arguments, both bit orders", "depends on how codewords of several lengths overlap, on the random order of a hash map and on arithmetic that wraps around behind the end", CB+":Codebook::new,build_esc_lut,fill_lut_msb,fill_lut_lsb,read_cb")
p("C175","Codebooks of any codewords for any width of usize",
  "On every width of usize from 32 bits on a codebook is constructed from any description of fitting codewords, whichever are prefixes of others, given the memory for it. It decodes as in C173 with overflow checks, as long as the bits can be counted, and as in C174 without them, with counts modulo the width.",
  "all machines of at least 32 bits (of at most 64 without overflow checks), allocators, descriptions whose codes fit and tables have at most 2^24 entries, orders of hash maps, buffers, histories of calls with documented arguments, both bit orders", "tests run on one width of usize, with one order of a hash map and enough memory", CB+":Codebook::new,build_esc_lut,resize_table,read_cb")
p("C176","Copies with any implementation of FrameBuffer for any width of usize",
  "Whatever the width of usize, copies with an implementation of FrameBuffer that keeps to the documentation end as with the default buffer and give the same bytes; with any implementation, what a build with overflow checks does without panicking every build that is at least as wide does too, and nothing outside the slices is touched if the line sizes reported go with them.",
  "all implementations, widths of usize, builds with and without overflow checks, pictures, sources, destinations, strides", "needs 32-bit targets and implementations that only users of the crate write", FR+":FrameBuffer,copy_frame_to_buffer,copy_from_slice,copy_plane", PX+":get_width,get_height")
p("C177","Which calls of its source AccReader makes",
  "Each call of AccReader makes at most one read of the inner reader and never asks it for zero bytes; only seek seeks it, at most once and only to positions that are not buffered; consume, grow, reset_buffer_position, data and capacity do not call it. How many bytes are asked for is determined by the buffer and the call. Watching the calls changes nothing.",
  "all inner readers (also lying ones), capacities, states, histories", "the tests do not count the calls of the source", AC+":Read::read,fill_buf,Seek::seek,consume,grow,reset_buffer_position")
p("C178","Reading byte by byte calls the source once per buffer less one byte",
  "Over a source that fills what it is given, reading k bytes of it one at a time through a buffer of c >= 2 bytes calls the source k/(c-1) times, rounded up, as long as bytes remain; the last byte always takes a call; with c <= 1 every byte takes a call.",
  "all sources that fill slices, contents, capacities, numbers of bytes", "the tests do not count the calls of the source", AC+":Read::read,fill_buf,consume")
p("C179","The output of a transcoder is determined by the file it reads",
  "A program that reads headers and events, hands the packets to a decoder and the frames to an encoder through their contexts, and writes the packets with a muxer, working on each event before reading the next, writes the bytes that the parser, the codecs and the muxer give on the file as a whole: neither the way reads and writes are cut nor the capacity of the buffer changes the output or any result.",
  "all sources and outputs that do not fail, incremental parsers, appending muxers, codecs (also panicking ones), programs between demuxer and muxer, numbers of events", "the tests have no program that uses all parts together", DM+":read_headers,read_event", MX+":write_header,write_packet,write_trailer", DE+":send_packet,receive_frame,flush", EN+":send_frame,receive_packet,flush")
p("C180","fill_buf calls the source only when nothing is buffered",
  "While AccReader holds bytes that were not consumed, fill_buf returns them without calling the source, as the documentation of BufRead says.",
  "all sources, capacities, states", "the tests do not count the calls of the source", AC+":fill_buf")
p("C181","Demuxing reads its source once per unmet request",
  "Over any sequence of read_event calls with a demuxer that decides from the buffered bytes and moves within them, the source is read exactly once for each request that exceeds what is buffered, asking for all free room of the enlarged buffer, and is never sought. With a source that fills what it is given, reading events up to its end takes at most length / (capacity + 1) + 1 reads. read_headers reads the source at most once per call of the demuxer and once more, and seeks it at most once, only when it succeeds.",
  "all parsers, sources, capacities, numbers of calls", "the tests do not count the calls of the source", DM+":read_event", DM+":read_headers", AC+":fill_buf")
p("C182","The buffer stays bounded when the source is fast",
  "When every read of the source fills the slice it is given, demuxing keeps the buffer of AccReader within a constant factor of its capacity plus the largest request, however long the source is.",
  "all parsers, sources that fill what they are given, capacities, numbers of calls", "the tests do not look at the size of the buffer after many events", DM+":read_event", AC+":grow")
p("C183","Accessors report what was read and written",
  "After any legal calls current_slice and data of AccReader are the same bytes of the source, capacity() many, from the position of the reader to that of the inner reader; AccReader::new asks for 4096 bytes at first; after any calls on a muxing Context, failed ones included, the number in as_ref of its writer is the number of bytes that reached the output.",
  "all sources, histories of calls, muxers that append, outputs and their failures", "the tests read position and buffer after a few fixed calls that succeed", AC+":current_slice", AC+":capacity", MX+":as_ref", MX+":into_writer")
p("C184","Writer adds a position and nothing else",
  "Over any output, however it fails, calls of write, write_all, flush and seek on Writer return what the same calls on the output return and leave it as they do; each call reaches the output once, unchanged and in order, with no call in between; the position is where the last successful seek led plus the bytes accepted since.",
  "all outputs and their failures, histories of calls", "the tests write to a cursor, which neither fails nor counts its calls", MX+":write", MX+":flush", MX+":seek", MX+":position")
p("C185","A muxing Context adds a flush and nothing else",
  "For any muxer, whatever it writes, seeks and asks of its writer, over any output and any calls on the Context: results, output, position of the writer and state of the muxer are those of the methods of the muxer run on the output itself, with one flush after each trailer that succeeded, whose error becomes the result; panics included.",
  "all muxers, outputs and their failures, histories of calls", "the tests use one muxer that only appends to a cursor", MX+":write_header", MX+":write_packet", MX+":write_trailer", MX+":configure", MX+":set_option")
p("C186","Demuxers may read for themselves",
  "With a demuxer that reads its input itself (read_exact, absolute seeks, stream_position) and never asks for more data, read_headers and any number of read_event calls return exactly what the demuxer makes of the bytes of the source, with one call of the demuxer each, however the source cuts its reads and whatever the capacity; afterwards the reader is where the demuxer told the context to go on.",
  "all such demuxers, sources, capacities, numbers of calls", "the tests use one demuxer that only looks at the buffered bytes", DM+":read_headers", DM+":read_event", AC+":read", AC+":seek")
p("C187","Coded messages survive a file",
  "Messages encoded with a prefix code, written as packet data by any muxer through the muxing Context and Writer to any output, read back through AccReader and the demuxing Context from any source of those bytes, and decoded packet by packet with BitReader and Codebook are the messages that were sent, in order.",
  "all prefix codes, messages, pairs of muxer and parser, outputs, sources, capacities, hash orders", "the tests of the crates never meet", CB+":read_cb", BI+":new", MX+":write_packet", DM+":read_event")
p("C188","Complete codes never reject a bit string",
  "If the lengths of the codewords of a prefix-free description satisfy the Kraft equality (the sum of 2^-bits over the used entries is 1), read_cb succeeds on any bytes whatever as long as the longest codeword would fit in front of the last 8 bytes, and the decoded codewords, one after the other, are the bits of the buffer; if the sum is less than 1 there is a buffer on which the first read fails with InvalidCode; it is never more than 1.",
  "all prefix-free descriptions, both modes, all buffers below 2^32 bits, hash orders, histories of calls", "the tests decode encoded messages, not arbitrary bytes", CB+":read_cb", CB+":new")
p("C189","What becomes of long codewords without overflow checks",
  "Built without overflow checks, a codebook for MSB codewords of any length up to 255 bits is constructed without a panic and decodes, in every history of calls, exactly the words that result from shifting by amounts modulo 32 ten bits at a time, provided these are prefix-free and each code is small enough; up to 41 bits they are the codewords, from 42 to 73 bits the 32 leading zeros of the codeword have moved behind the last full group of ten of its other bits. A code that is too large panics if it is the first of more than ten bits.",
  "all descriptions with codes that fit, hash orders, buffers, histories of calls", "the tests have no codeword above 16 bits and run with overflow checks", CB+":new", CB+":read_cb", CB+":extract_lut_part", CB+":extract_esc_part")
p("C190","Exact reads over sources that fail",
  "read_exact on an AccReader over a source that may fail, after any history, returns the next n bytes and stands behind them; or UnexpectedEof if the source has fewer; or an error other than Interrupted that the source reported. It makes no more than n calls unless the source was interrupted, and returns nothing else.",
  "all sources, failures, capacities, histories of calls, lengths", "the tests use in-memory sources that never fail", AC+":read", AC+":fill_buf")
p("C191","Code lengths are enough to build a codebook",
  "A list of code lengths of at most 32 bits has a prefix code if and only if its Kraft sum (2^-l over the lengths that are not 0) is at most 1; the canonical codewords of RFC 1951, computed from the lengths alone, are then a description from which new() builds a codebook in either mode, and every message of symbols that have a codeword is read back by read_cb in exactly as many bits as were written; if the sum is 1 the code is complete.",
  "all lists of lengths up to 32 with few enough symbols, both modes, hash orders, messages below 2^32 bits", "the tests build codebooks from hand-written codewords only", CB+":new", CB+":read_cb")
p("C192","Table decoding is bit-by-bit decoding",
  "With a codebook made from code lengths (canonical codewords), read_cb on any bytes and after any history of calls gives the symbol that the usual bit-by-bit decoder finds (puff.c: keep the first code of each length, compare), uses as many bits, and fails with InvalidCode exactly when that decoder finds nothing, as long as the longest codeword would fit in front of the last 8 bytes.",
  "all lists of lengths up to 32 with a Kraft sum of at most 1 and few enough symbols, both modes, hash orders, buffers below 2^32 bits, histories of calls", "the tests compare with expected symbols for a few inputs, not with another decoder on arbitrary bytes", CB+":new", CB+":read_cb")
p("C193","The two bit orders mirror each other",
  "If the bits of every byte of a buffer are turned around, BitReadLE on it behaves as BitReadBE on the original (and conversely) in every sequence of calls with documented arguments, reads past the end and far skips included: same panics, same positions, and every number read has its bits in the opposite order. If the codewords of a description are turned around too, the codebook of the other mode can be built and decodes the same symbols with the same errors in every history.",
  "all buffers, all sequences of calls, both directions, all valid prefix-free descriptions, hash orders", "the tests of the two readers are separate and use unrelated buffers", BI+":get_bits_32", BI+":skip_bits", CB+":new", CB+":read_cb")
p("C194","Only the words of a description matter",
  "Two descriptions that have the same codewords, in any order, with any unused entries and with symbols renamed by a function (symbols may coincide and be of another type), give codebooks that behave the same in every history of calls: same errors and panics, same positions, and symbols renamed by that function.",
  "all valid descriptions, both modes and readers, all buffers, hash orders, histories of calls", "the tests use each description in one order", CB+":new", CB+":read_cb")
p("C195","Bit readers and byte getters agree",
  "A bit reader that stands at the start of a byte, after whatever calls brought it there, reads with get_bits_32 or get_bits_64 the same 8, 16, 32 or 64 bit number as the byte getter of its byte order at that offset; a record of such fields written with the byte putters is read back field by field, and the bytes behind it do not change.",
  "both byte orders, all buffers, histories of calls, field sizes and values, up to 8 bytes before the end", "byte getters, putters and bit readers are tested separately", BI+":get_bits_32", BI+":get_bits_64", BR+":get_u32l", BW+":put_u32l")
p("C196","Reading on is like starting later",
  "A bit reader that has come to a byte boundary, by whatever calls and codewords, gives from there on the same answers as a new reader of the remaining bytes: same bits, symbols and available(), while consumed() differs by the bits in front.",
  "both modes, all valid descriptions, hash orders, buffers below 2^32 bits, histories of calls before and after, up to 8 bytes before the end", "the tests start every reader at the start of its buffer", BI+":new", BI+":align_bits", BI+":consumed", CB+":read_cb")
p("C197","A loop over codewords ends",
  "A loop that reads codewords until read_cb fails ends, after at most as many symbols as available() counted bits.",
  "all valid descriptions, both modes and readers, hash orders, buffers, histories of calls before the loop", "the tests read a known number of codewords", CB+":read_cb", BI+":available", BI+":skip_bits")
p("C198","Counting equal bits ends",
  "A loop that reads bits while they equal a given one, as for a unary code, ends and has counted the run of such bits at the position of the reader, which then stands behind the bit that ended it.",
  "both byte orders, both bits, all buffers, histories of calls before the loop", "the tests read a known number of bits", BI+":get_bit", BI+":available", BI+":consumed")
open(os.path.join(os.path.dirname(__file__),"..","properties.jsonl"),"w").write("".join(json.dumps(x)+"\n" for x in P))
print(len(P))
