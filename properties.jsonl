{"id": "C01", "title": "Fixed-width put/get round trip", "statement": "For every width (8/16/32/64 bits), both byte orders and every value of the type (unsigned, signed or float bit pattern), writing the value at the start of a large enough buffer and reading it back with the getter of the same width and order returns the same value, and every byte of the buffer after the written ones is unchanged and the length is unchanged.", "quantifier": "all values of each type, all buffers at least as long as the width, all 18 put/get pairs", "why_tests_cant": "2^64 values times all buffers; tests sample 1, 2 and 255", "anchors": ["bitstream/src/byteread.rs:get_*", "bitstream/src/bytewrite.rs:put_*"]}
{"id": "C02", "title": "Byte placement of multi-byte getters", "statement": "The value returned by a little-endian (big-endian) getter of k bytes has, for each of the first k bytes i and bit j, bit 8*i+j (8*(k-1-i)+j) equal to bit j of byte i, and no other bits set; it does not depend on any later byte of the buffer.", "quantifier": "all buffers of at least k bytes, k in 1,2,4,8", "why_tests_cant": "quantifies over all byte strings", "anchors": ["bitstream/src/byteread.rs:get_u16l..get_u64b"]}
{"id": "C03", "title": "Too-short buffers always panic, long enough ones never do", "statement": "Every getter and putter panics exactly when the buffer is shorter than the width of the type, so it never touches memory outside the slice.", "quantifier": "all buffers, all widths", "why_tests_cant": "all lengths including 0", "anchors": ["bitstream/src/byteread.rs:get_*", "bitstream/src/bytewrite.rs:put_*"]}
{"id": "C04", "title": "Signed getters are two's complement", "statement": "A signed getter returns the unique value of the signed type congruent to the unsigned getter's result modulo 2^width.", "quantifier": "all buffers", "why_tests_cant": "2^64 bit patterns", "anchors": ["bitstream/src/byteread.rs:get_i8,get_i16l,...,get_i64b"]}
{"id": "C05", "title": "Bit reads return exactly the stream's bits", "statement": "For both endiannesses, for every buffer and every sequence of get_bit / get_bits_32(n<=32) / get_bits_64(n<=64) / peek / skip_bits / align_bits calls that stays at least 64 bits (the documented 8 padding bytes) before the end of the buffer, each call returns the number spelled by the next n bits of the buffer in that bit order, and the reader advances by exactly n bits, whatever mixture of calls came before.", "quantifier": "all buffers, all call sequences, both endiannesses", "why_tests_cant": "the internal 64-bit cache can be in any fill state depending on the history; histories are unbounded", "anchors": ["bitstream/src/bitread.rs:BitRead::get_bit,get_bits_32,get_bits_64,skip_bits,align_bits"]}
{"id": "C06", "title": "Peeking never changes the reader and predicts the next read", "statement": "peek_bit, peek_bits_32(n) and peek_bits_64(n) leave the reader untouched and return exactly what the next get_bit, get_bits_32(n), get_bits_64(n) would return, including panicking exactly when it would.", "quantifier": "every reader state and every n", "why_tests_cant": "all states", "anchors": ["bitstream/src/bitread.rs:peek_bit,peek_bits_32,peek_bits_64"]}
{"id": "C07", "title": "consumed + available is constant", "statement": "Along every sequence of calls whose skips stay inside the buffer, consumed() + available() equals 8 times the buffer length, consumed() never decreases, and a fresh reader has consumed() = 0.", "quantifier": "all buffers and call sequences", "why_tests_cant": "unbounded histories", "anchors": ["bitstream/src/bitread.rs:consumed,available"]}
{"id": "C08", "title": "Skipping equals reading and discarding", "statement": "skip_bits(n) leaves the reader observably in the same position as reading n bits with any split into get_bits calls: every later read returns the same value.", "quantifier": "all buffers, positions, n and splits", "why_tests_cant": "all cache states", "anchors": ["bitstream/src/bitread.rs:skip_bits"]}
{"id": "C09", "title": "align_bits moves to the next byte boundary and nowhere else", "statement": "align_bits discards fewer than 8 bits, lands on a multiple of 8 consumed bits, is idempotent and does nothing on an aligned reader.", "quantifier": "all reachable reader states", "why_tests_cant": "unbounded histories", "anchors": ["bitstream/src/bitread.rs:align_bits"]}
{"id": "C10", "title": "Overreading yields zero bits and never panics", "statement": "Reads with get_bit, get_bits_32(n<=32) and get_bits_64(n<=64) past the end of the buffer never panic and return the remaining readable bits followed by zero bits; once exhausted the reader stays exhausted and only returns zero.", "quantifier": "all buffers (any length, even empty) and all read sequences", "why_tests_cant": "unbounded histories", "anchors": ["bitstream/src/bitread.rs:get_bits_64,get_bits_32,get_bit"]}
{"id": "C11", "title": "Splitting a read does not change the bits", "statement": "Reading a+b bits at once equals reading a bits and then b bits and combining them in stream order (first part most significant for big-endian, least significant for little-endian).", "quantifier": "all buffers, positions, a+b<=64", "why_tests_cant": "all cache fill states", "anchors": ["bitstream/src/bitread.rs:get_bits_64,merge_val"]}
{"id": "C12", "title": "64-bit-path reads are exact up to the very last bit", "statement": "On a buffer whose length is a multiple of 8 bytes, any sequence of get_bit and get_bits_64 calls returns the exact stream bits up to the very last bit of the buffer, with no padding needed.", "quantifier": "all such buffers, all sequences", "why_tests_cant": "unbounded histories", "anchors": ["bitstream/src/bitread.rs:get_bits_64,get_bit,refill64"]}
{"id": "C13", "title": "Every bit reported by available() can be read", "statement": "If available() >= n then reading n bits returns the actual next n bits of the buffer.", "quantifier": "all buffers and histories", "why_tests_cant": "depends on the mixture of 32-bit and 64-bit refills near the end of the buffer", "anchors": ["bitstream/src/bitread.rs:available,refill32,can_refill"]}
{"id": "C14", "title": "Skipping past the end exhausts the reader", "statement": "skip_bits(n) with n >= available() leaves nothing to read: available() is 0 afterwards (no panic) and later reads return 0.", "quantifier": "all buffers and histories", "why_tests_cant": "all end-of-buffer states", "anchors": ["bitstream/src/bitread.rs:skip_bits,available"]}
{"id": "C15", "title": "Codebook decoding returns the symbol whose codeword comes next", "statement": "For every prefix-free codebook description (codewords of 32 bits or less in a length of 1..41, in LSB mode 1..255, arbitrary symbols, unused zero-length entries allowed), in MSB mode with the big-endian reader and in LSB mode with the little-endian reader, if the next bits of the stream are the codeword of entry i then read_cb returns that entry's symbol and consumes exactly its length. Buffers are shorter than 2^29 bytes (beyond that `available() as u32` wraps and the claim is false) and at least 8 bytes follow the codeword; at most 2^24 symbols and 2^24 table entries (C149).", "quantifier": "all prefix-free codebooks, all buffers, all histories of reads and other calls", "why_tests_cant": "infinitely many codebooks; multi-level escape tables only appear for long codes", "anchors": ["bitstream/src/codebook.rs:Codebook::new,read_cb,build_esc_lut,fill_lut"]}
{"id": "C16", "title": "Unknown codewords are rejected", "statement": "If no codeword of the codebook is a prefix of the remaining stream, read_cb returns InvalidCode (and never panics or returns a symbol).", "quantifier": "all prefix-free codebooks, all streams (at least 8 bytes beyond the longest codeword remain), all earlier histories", "why_tests_cant": "needs every unfilled table slot at every level", "anchors": ["bitstream/src/codebook.rs:read_cb,TABLE_FILL_VALUE"]}
{"id": "C17", "title": "Encode/decode round trip over whole messages", "statement": "For every prefix-free codebook and every message (sequence of used entries), packing the codewords one after the other and decoding with read_cb repeatedly returns the message, symbol by symbol, in order.", "quantifier": "all codebooks, all messages", "why_tests_cant": "unbounded messages, words crossing refill boundaries", "anchors": ["bitstream/src/codebook.rs:read_cb"]}
{"id": "C18", "title": "Codebook construction succeeds exactly on non-empty codebooks", "statement": "Codebook::new never panics on a description whose codes fit their lengths (<=32) and are prefix-free; it returns InvalidCodebook iff every entry has length 0.", "quantifier": "all descriptions", "why_tests_cant": "all table sizes and escape nestings", "anchors": ["bitstream/src/codebook.rs:Codebook::new"]}
{"id": "C19", "title": "Decoding does not depend on HashMap iteration order", "statement": "The decoder behaves identically for every iteration order of the hash maps used during construction: same symbols, same errors, same bits consumed.", "quantifier": "all iteration orders of every escape map", "why_tests_cant": "HashMap order is randomised per process; a test sees one order", "anchors": ["bitstream/src/codebook.rs:build_esc_lut,EscapeCodes"]}
{"id": "C20", "title": "reverse_bits reverses all 32 bits", "statement": "Bit i of reverse_bits(x) is bit 31-i of x for all 32 bits; applying it twice gives x back.", "quantifier": "all 2^32 inputs", "why_tests_cant": "2^32 inputs", "anchors": ["bitstream/src/codebook.rs:reverse_bits"]}
{"id": "C21", "title": "A truncated codeword never decodes to a symbol", "statement": "When fewer bits remain available than the codeword being read needs, read_cb returns InvalidCode rather than a symbol.", "quantifier": "all codebooks and truncation points", "why_tests_cant": "all end-of-buffer cache states", "anchors": ["bitstream/src/codebook.rs:read_cb", "bitstream/src/bitread.rs:skip_bits"]}
{"id": "C22", "title": "A failed read_cb leaves the reader where it was", "statement": "If read_cb returns InvalidCode the reader's position is unchanged.", "quantifier": "all codebooks, all streams", "why_tests_cant": "failure can happen at any escape level", "anchors": ["bitstream/src/codebook.rs:read_cb"]}
{"id": "C23", "title": "AccReader delivers the source bytes in order, none lost or duplicated", "statement": "For every source, every capacity, every short-read behaviour of the source and every sequence of read / fill_buf / consume / grow / reset calls, the bytes handed to the caller are exactly the bytes of the source at the current stream position, and the position advances by the number of bytes delivered or consumed.", "quantifier": "all sources, capacities, short-read schedules and call sequences", "why_tests_cant": "schedules of short reads and histories are unbounded", "anchors": ["format/src/buffer/accreader.rs:Read::read,fill_buf,consume,grow,reset_buffer_position"]}
{"id": "C24", "title": "AccReader::seek lands where asked", "statement": "seek(Start(n)), seek(End(d)) and seek(Current(d>=0)) return the absolute position requested and the next byte read is the source byte at that position, whether or not the target lies in the internal buffer.", "quantifier": "all sources, capacities, schedules and histories", "why_tests_cant": "unbounded histories", "anchors": ["format/src/buffer/accreader.rs:Seek::seek"]}
{"id": "C25", "title": "stream_position reports the position of the next byte", "statement": "seek(Current(0)) never touches the source and returns the offset in the source of the next byte that read would deliver.", "quantifier": "all histories", "why_tests_cant": "unbounded histories", "anchors": ["format/src/buffer/accreader.rs:Seek::seek,index"]}
{"id": "C26", "title": "Backward relative seeks land where asked", "statement": "seek(Current(d)) with d<0 moves the stream position back by |d| bytes.", "quantifier": "all histories and d<0", "why_tests_cant": "depends on how much is buffered", "anchors": ["format/src/buffer/accreader.rs:Seek::seek"]}
{"id": "C27", "title": "Growing or resetting the buffer never changes visible data", "statement": "grow(n) and reset_buffer_position() leave data()/current_slice() and the stream position unchanged, and grow(n>0) makes the next fill_buf able to bring in more data.", "quantifier": "all states", "why_tests_cant": "all buffer layouts", "anchors": ["format/src/buffer/accreader.rs:grow,reset_buffer_position"]}
{"id": "C28", "title": "read_exact fills the whole buffer or reports UnexpectedEof", "statement": "read_exact(n) through AccReader returns the next n source bytes iff the source has at least n bytes left from the stream position; otherwise UnexpectedEof.", "quantifier": "all sources, capacities, schedules (without I/O errors)", "why_tests_cant": "all schedules of short reads", "anchors": ["format/src/buffer/accreader.rs:Read::read"]}
{"id": "C29", "title": "AccReader never panics and never exceeds its buffer", "statement": "In every reachable state the start of the window is at most its end, which is at most the buffer capacity; no slicing operation panics for any history of contract-respecting calls.", "quantifier": "all histories", "why_tests_cant": "unbounded histories", "anchors": ["format/src/buffer/accreader.rs:AccReader"]}
{"id": "C30", "title": "I/O errors of the source lose no data", "statement": "If a read or fill_buf call fails because the source failed, the stream position and the bytes still to be delivered are unchanged, so a retry continues with the same byte; a failed seek of the source changes nothing.", "quantifier": "all histories with source errors at any point", "why_tests_cant": "errors can strike at any call", "anchors": ["format/src/buffer/accreader.rs:Read::read,fill_buf,seek"]}
{"id": "C31", "title": "Events do not depend on how the source is chunked", "statement": "For a demuxer that is a deterministic incremental parser (decisions stable under more data, reports the total number of bytes it needs), the sequence of events returned by read_event depends only on the bytes of the source, not on the reader's capacity nor on how the source splits its reads.", "quantifier": "all such demuxers, sources, capacities, short-read schedules, numbers of calls", "why_tests_cant": "unbounded schedules", "anchors": ["format/src/demuxer.rs:Context::read_event", "format/src/buffer/accreader.rs:fill_buf,grow"]}
{"id": "C32", "title": "read_event reports end of file only at the end of the source", "statement": "If the context synthesises Eof because no more data arrived, then the source was exhausted: there is no undelivered byte beyond the buffered ones.", "quantifier": "all demuxers, sources, schedules", "why_tests_cant": "all schedules", "anchors": ["format/src/demuxer.rs:Context::read_event"]}
{"id": "C33", "title": "Packets without a timebase get their stream's timebase", "statement": "A packet event whose timebase is unset is delivered with the timebase of the first registered stream whose index equals the packet's stream index (unset if there is none); a packet with a timebase keeps it; no other field of the packet changes.", "quantifier": "all demuxers, stream lists and packets", "why_tests_cant": "all stream tables", "anchors": ["format/src/demuxer.rs:read_event_internal"]}
{"id": "C34", "title": "Every NewStream event registers its stream exactly once", "statement": "info.streams after any sequence of read_event calls is the initial list followed by the streams of the delivered NewStream events in delivery order; no other event changes it.", "quantifier": "all demuxers and call sequences", "why_tests_cant": "unbounded histories", "anchors": ["format/src/demuxer.rs:read_event_internal"]}
{"id": "C35", "title": "Demuxer errors reach the caller unchanged", "statement": "Any demuxer error other than MoreDataNeeded, and any seek or fill error of the reader, is returned by read_event as is and nothing is retried; read_headers likewise propagates demuxer and fill errors.", "quantifier": "all demuxers, readers and histories", "why_tests_cant": "errors at any iteration of the retry loop", "anchors": ["format/src/demuxer.rs:read_event,read_headers"]}
{"id": "C36", "title": "read_event makes progress when more data is requested and available", "statement": "If the demuxer reports that n more bytes are needed and the source has them, read_event obtains more data and eventually returns.", "quantifier": "all requested amounts and buffer fill levels", "why_tests_cant": "a livelock cannot be observed by a finite test", "anchors": ["format/src/demuxer.rs:Context::read_event"]}
{"id": "C37", "title": "read_headers terminates on truncated input", "statement": "If the source ends before the headers are complete, read_headers returns (with an error) instead of looping.", "quantifier": "all truncated sources", "why_tests_cant": "non-termination cannot be observed by a finite test", "anchors": ["format/src/demuxer.rs:Context::read_headers"]}
{"id": "C38", "title": "read_headers success means the reader is positioned after the headers", "statement": "If read_headers returns Ok, the reader's seek to the position requested by the demuxer succeeded.", "quantifier": "all demuxers and readers", "why_tests_cant": "seek failures", "anchors": ["format/src/demuxer.rs:read_headers_internal"]}
{"id": "C39", "title": "Probe returns the first best-scoring format above the threshold", "statement": "probe(data) returns a registered descriptor iff some descriptor scores above PROBE_SCORE_EXTENSION; the returned one has the maximal score and is the first with that score.", "quantifier": "all descriptor lists, all data", "why_tests_cant": "all score assignments", "anchors": ["format/src/demuxer.rs:Probe::probe"]}
{"id": "C40", "title": "A score equal to PROBE_SCORE_EXTENSION is accepted", "statement": "As documented on the constant, data whose score is equal to or greater than PROBE_SCORE_EXTENSION is associated to the format, so probe returns a descriptor.", "quantifier": "all descriptor lists", "why_tests_cant": "boundary of the threshold", "anchors": ["format/src/demuxer.rs:PROBE_SCORE_EXTENSION,probe"]}
{"id": "C41", "title": "add_stream numbers streams consecutively", "statement": "add_stream returns the position of the new stream, stores it at that position with index equal to that position, and leaves the previous streams unchanged; so after any sequence of add_stream calls on an empty list stream k has index k.", "quantifier": "all sequences of streams", "why_tests_cant": "unbounded", "anchors": ["format/src/common.rs:GlobalInfo::add_stream"]}
{"id": "C42", "title": "Streams with automatic ids get unique ids", "statement": "Adding several streams whose id is negative (automatic) yields streams with pairwise different ids, as required by Stream::id.", "quantifier": "all sequences", "why_tests_cant": "all sequences", "anchors": ["format/src/common.rs:add_stream", "format/src/stream.rs:Stream::id,from_params"]}
{"id": "C43", "title": "Muxer lookup by name returns the first match", "statement": "by_name(name) returns the first registered descriptor with that exact name, None iff there is none.", "quantifier": "all lists and names", "why_tests_cant": "all lists", "anchors": ["format/src/muxer.rs:Lookup::by_name"]}
{"id": "C44", "title": "Writer::position is the position in the underlying output", "statement": "For a Writer created on an output positioned at 0, after any sequence of writes (possibly short or failing) and seeks, position() equals the position of the underlying output, and equals the total number of accepted bytes when there was no seek.", "quantifier": "all sequences, all short-write schedules", "why_tests_cant": "unbounded histories", "anchors": ["format/src/muxer.rs:Writer::write,seek,position"]}
{"id": "C45", "title": "Muxer output is header, packets and trailer in call order", "statement": "The context passes each call to the muxer exactly once and in order on the same writer; for muxers that append bytes, the output is the concatenation of what header, each packet and the trailer produced; the output is flushed only after the trailer was written successfully.", "quantifier": "all muxers, all packet sequences", "why_tests_cant": "unbounded histories", "anchors": ["format/src/muxer.rs:Context::write_header,write_packet,write_trailer"]}
{"id": "C46", "title": "Codec lookup returns the first registered codec of that name", "statement": "Codecs::by_name(name) on a list built by from_list/append returns the first appended descriptor whose codec name is name, None iff none was appended, and never panics.", "quantifier": "all registration sequences and names, decoders and encoders", "why_tests_cant": "all lists", "anchors": ["codec/src/decoder.rs:Codecs::by_name,append", "codec/src/encoder.rs:Codecs::by_name,append", "codec/src/common.rs:from_list"]}
{"id": "C47", "title": "Registering more codecs never changes an existing lookup", "statement": "Appending a codec never changes the result of a lookup that already succeeded, and appending two codecs with different names in either order gives the same lookups.", "quantifier": "all registration sequences", "why_tests_cant": "all lists", "anchors": ["codec/src/decoder.rs:append", "codec/src/encoder.rs:append"]}
{"id": "C48", "title": "Audio size is the smallest aligned size that holds the samples", "statement": "For a power-of-two alignment, get_audio_size(length, alignment) is the smallest multiple of the alignment that is at least ceil(length*bits/8) for packed formats and length*ceil(bits/8) otherwise.", "quantifier": "all lengths, bit depths, power-of-two alignments (results below 2^64)", "why_tests_cant": "all values", "anchors": ["data/src/audiosample.rs:Soniton::get_audio_size,align,round_to_byte"]}
{"id": "C49", "title": "Component dimensions are rounded-up divisions", "statement": "get_width(w) = ceil(w / 2^h_ss) and get_height(h) = ceil(h / 2^v_ss).", "quantifier": "all widths, heights, shifts below 64 (no overflow)", "why_tests_cant": "all values", "anchors": ["data/src/pixel.rs:Chromaton::get_width,get_height"]}
{"id": "C50", "title": "The stride of a component can hold a full line", "statement": "get_linesize(w, a) with a a power of two is a multiple of a and holds at least get_width(w)*depth bits; get_data_size is the stride times the component height.", "quantifier": "all widths, depths, subsamplings, alignments", "why_tests_cant": "all values", "anchors": ["data/src/pixel.rs:get_linesize,get_data_size"]}
{"id": "C51", "title": "Predefined 10-bit formats have 10-bit components", "statement": "Every component of the predefined YUV*_10 formats has depth 10 and component offset equal to its index.", "quantifier": "all predefined 10-bit formats and their components", "why_tests_cant": "tests only print formats", "anchors": ["data/src/pixel.rs:formats::YUV444_10..YUV410_10,yuvhb"]}
{"id": "C52", "title": "A default video frame has one zeroed plane per component, exactly sized", "statement": "new_default_frame for video creates as many planes as components, plane k having stride get_linesize and length stride*height of component k, all zero, never panicking in the split, and using up the whole allocation.", "quantifier": "all formats and dimensions (sizes below 2^64)", "why_tests_cant": "all formats", "anchors": ["data/src/frame.rs:DefaultFrameBuffer::new,VideoInfo::size"]}
{"id": "C53", "title": "A default audio frame has the right planes", "statement": "Planar audio yields one plane per channel each of the aligned size of the samples; interleaved audio yields a single plane of size (aligned size) * channels; all zero; never panics.", "quantifier": "all formats, maps, sample counts", "why_tests_cant": "all values", "anchors": ["data/src/frame.rs:DefaultFrameBuffer::new,AudioInfo::size"]}
{"id": "C54", "title": "copy_from_slice then copy_frame_to_buffer returns the picture", "statement": "For 8-bit planar video frames, copying a picture in from source planes with any strides and copying it out to destination planes with any strides reproduces every visible sample of every plane and leaves every destination byte outside the visible area unchanged.", "quantifier": "all dimensions, subsamplings, strides at least the component width and large enough buffers", "why_tests_cant": "all sizes and strides", "anchors": ["data/src/frame.rs:copy_from_slice,copy_frame_to_buffer,copy_plane"]}
{"id": "C55", "title": "copy_plane stays inside its buffers and copies exactly the rectangle", "statement": "When both strides are at least the width and each used row is complete, the plane copy never accesses memory outside the slices, copies exactly the width x min(height, rows) rectangle and changes nothing else.", "quantifier": "all buffers, strides, widths, heights", "why_tests_cant": "memory safety of an unsafe block", "anchors": ["data/src/frame.rs:copy_plane"]}
{"id": "C56", "title": "copy_plane_to_buffer is memory safe for every plane", "statement": "copy_plane_to_buffer(i, dst, stride) on a default frame with a sufficiently large destination never accesses memory outside the plane or the destination, for every plane index.", "quantifier": "all formats, planes, sizes", "why_tests_cant": "undefined behaviour may go unnoticed", "anchors": ["data/src/frame.rs:copy_plane_to_buffer"]}
{"id": "C57", "title": "Channel lookup returns the first position of the channel", "statement": "find_channel_id(t) returns the position of the first channel equal to t, None iff absent; adding channels appends in order.", "quantifier": "all channel maps", "why_tests_cant": "maps longer than 255 channels", "anchors": ["data/src/audiosample.rs:ChannelMap::find_channel_id,add_channels"]}
{"id": "C58", "title": "Every channel is exactly one of centre, left, right", "statement": "For every channel type exactly one of is_center, is_left, is_right is true.", "quantifier": "all channel types", "why_tests_cant": "exhaustive over the enumeration", "anchors": ["data/src/audiosample.rs:ChannelType::is_center,is_left,is_right"]}
{"id": "C59", "title": "Colour enumerations parse exactly their published code points", "statement": "from_u32(v) returns the variant whose discriminant is v and None for every other v; to_u32 then from_u32 is the identity.", "quantifier": "all 2^32 inputs for the three enumerations", "why_tests_cant": "2^32 inputs", "anchors": ["data/src/pixel.rs:MatrixCoefficients,ColorPrimaries,TransferCharacteristic"]}
{"id": "C60", "title": "Formaton setters take effect", "statement": "After set_primaries / set_xfer / set_matrix (and the _from_u32 variants) on a format, the corresponding getter returns the new value.", "quantifier": "all formats and values", "why_tests_cant": "-", "anchors": ["data/src/pixel.rs:Formaton::set_primaries,set_xfer,set_matrix"]}
{"id": "C61", "title": "Stream-information equality is an equivalence that ignores per-frame data", "statement": "VideoInfo == compares exactly width, height and format, AudioInfo == exactly rate, channel map and format; MediaKind equality is reflexive, symmetric and transitive and never equates video with audio.", "quantifier": "all values", "why_tests_cant": "all triples", "anchors": ["data/src/frame.rs:PartialEq for VideoInfo,AudioInfo,MediaKind"]}
{"id": "C62", "title": "Packet write/read round trip", "statement": "put_packet followed by get_packet(len) at the same place returns a packet with the same data for every short-read/short-write behaviour; get_packet fails with UnexpectedEof iff fewer than len bytes remain.", "quantifier": "all packets, schedules", "why_tests_cant": "all schedules", "anchors": ["data/src/packet.rs:get_packet,put_packet"]}
{"id": "C63", "title": "Stream byte readers return consecutive values", "statement": "The ByteRead getters on any reader return the value of the next k bytes regardless of short reads, consume exactly k bytes, and fail with UnexpectedEof if fewer remain.", "quantifier": "all readers and schedules", "why_tests_cant": "all schedules", "anchors": ["src/io/byteread.rs:get_buffer,ByteRead"]}
{"id": "C64", "title": "Stream byte peeking does not consume", "statement": "The BytePeek peekers return the value of the next k buffered bytes without changing the stream position.", "quantifier": "all buffered readers", "why_tests_cant": "all schedules", "anchors": ["src/io/byteread.rs:BytePeek"]}
{"id": "C65", "title": "Display of audio formats labels its flags correctly", "statement": "The text printed for a Soniton shows the planar flag after 'planar:' and the packed flag after 'packed:'.", "quantifier": "all formats", "why_tests_cant": "-", "anchors": ["data/src/audiosample.rs:Display for Soniton"]}
{"id": "C66", "title": "Format construction keeps every component", "statement": "Formaton::new(model, components, ...) with at most 5 components stores component i at index i, reports their number, get_chromaton returns None beyond, total depth is the sum of the depths (below 256); more than 5 components panics.", "quantifier": "all component lists", "why_tests_cant": "all lists", "anchors": ["data/src/pixel.rs:Formaton::new,get_chromaton,get_total_depth,get_num_comp"]}
{"id": "C67", "title": "A codeword read never panics, wherever the reader stands", "statement": "After any history of legal calls and codeword reads, with either reader, read_cb on a codebook built from a valid description returns a symbol of that description or an error; it never panics, never moves backwards and never past the end of the buffer.", "quantifier": "all codebooks, buffers of any size, histories, both readers", "why_tests_cant": "every end-of-buffer cache state", "anchors": ["bitstream/src/codebook.rs:read_cb", "bitstream/src/bitread.rs:skip_bits,available"]}
{"id": "C68", "title": "Stream byte readers survive interruptions", "statement": "A getter of ByteRead behaves as Read::read_exact does when the reader reports Interrupted: it goes on reading, and no byte is lost.", "quantifier": "all readers and schedules", "why_tests_cant": "interruptions cannot be provoked reliably", "anchors": ["src/io/byteread.rs:get_buffer"]}
{"id": "C69", "title": "A peek fails with UnexpectedEof only at the end", "statement": "A peeker of k bytes on a buffered reader with room for k bytes fails with UnexpectedEof only when fewer than k bytes remain in the stream.", "quantifier": "all sources and schedules", "why_tests_cant": "all schedules", "anchors": ["src/io/byteread.rs:BytePeek", "format/src/buffer/accreader.rs:fill_buf"]}
{"id": "C70", "title": "Copying into and out of default frames of predefined formats is memory safe", "statement": "For every predefined format with planar components and every picture size, copy_from_slice and copy_frame_to_buffer on a default frame, given buffers with room for the picture, stay inside the planes.", "quantifier": "all formats, sizes, buffers", "why_tests_cant": "the copy goes through raw pointers: an out-of-bounds access does not fail", "anchors": ["data/src/frame.rs:copy_from_slice,copy_frame_to_buffer,copy_plane", "data/src/pixel.rs:formats"]}
{"id": "C71", "title": "Copying keeps samples of more than 8 bits", "statement": "A picture whose samples have more than 8 bits, copied into a default frame and out again, is returned whole.", "quantifier": "all formats, sizes, pictures", "why_tests_cant": "all sizes and contents", "anchors": ["data/src/frame.rs:copy_from_slice,copy_frame_to_buffer"]}
{"id": "C72", "title": "Predefined YUV formats have the subsampling of their names", "statement": "4:4:4 has no subsampling; 4:2:2 halves the width only; 4:2:0 halves both; 4:1:1 divides the width by four; 4:1:0 divides the width by four and the height by two; the luma component is never subsampled.", "quantifier": "all predefined YUV formats", "why_tests_cant": "-", "anchors": ["data/src/pixel.rs:formats"]}
{"id": "C73", "title": "Components of predefined packed formats do not overlap", "statement": "In every predefined packed RGB format the bit ranges of any two components are disjoint and inside the element.", "quantifier": "all predefined packed formats", "why_tests_cant": "-", "anchors": ["data/src/pixel.rs:formats"]}
{"id": "C74", "title": "The stride is the smallest aligned one", "statement": "get_linesize returns the least multiple of the alignment that can hold the bits of one line.", "quantifier": "all components, widths, alignments", "why_tests_cant": "all widths", "anchors": ["data/src/pixel.rs:Chromaton::get_linesize"]}
{"id": "C75", "title": "Displaying a component never panics", "statement": "The Display implementation of Chromaton returns for every component.", "quantifier": "all components", "why_tests_cant": "all depths and shifts", "anchors": ["data/src/pixel.rs:Display for Chromaton"]}
{"id": "C76", "title": "Enumeration members are displayed with distinct names", "statement": "The Display implementations give different members of the same enumeration (channels, matrix, primaries, transfer, chroma location, colour model, frame type) different names.", "quantifier": "all members", "why_tests_cant": "-", "anchors": ["data/src/pixel.rs:Display"]}
{"id": "C77", "title": "Typed views of a default frame", "statement": "as_slice of every plane of a default frame, for elements of 1, 2 or 4 bytes and an aligned allocation, succeeds and covers the plane exactly. In general a view fails with InvalidIndex exactly if there is no such plane and with InvalidConversion exactly if its address or length is not a multiple of the size of an element.", "quantifier": "all frames, planes, element sizes", "why_tests_cant": "all sizes", "anchors": ["data/src/frame.rs:as_slice"]}
{"id": "C78", "title": "The bit reader is a queue topped up from the stream", "statement": "For every buffer and every sequence of calls with arguments in the documented ranges (reads, peeks, skips of any length, alignment, consumed, available; before, at and after the end of the buffer) the outputs, the number of cached bits and the position are those of a queue of bits that is replaced by the next 64 bits or extended by the next 32 bits whenever 64 more bits exist; the only panic is available() after the position of the loaded bytes has been moved beyond the buffer.", "quantifier": "all buffers, all endiannesses, all call sequences", "why_tests_cant": "all end-of-buffer states and stale caches", "anchors": ["bitstream/src/bitread.rs:BitReadLE,BitReadBE"]}
{"id": "C79", "title": "64-bit reads deliver exactly the whole 8-byte blocks", "statement": "With get_bit, get_bits_64, their peeks, align_bits and consumed only, on a buffer of any length, the reader delivers exactly the bits of the first 8*(len/8) bytes, then zeros, and the position stops at the end of the last whole block.", "quantifier": "all buffers and call sequences", "why_tests_cant": "all end-of-buffer states", "anchors": ["bitstream/src/bitread.rs:get_bits_64,refill64"]}
{"id": "C80", "title": "Codebooks can be built from any description", "statement": "A codebook built through any implementation of CodebookDescReader whose methods describe a list of (length, code, symbol) entries is the one built from that list; with a description without symbols (ShortCodebookDesc) decoding yields the position of the entry in the description, unused entries included.", "quantifier": "all description objects, all valid descriptions, all messages, all map iteration orders", "why_tests_cant": "unbounded descriptions and implementations", "anchors": ["bitstream/src/codebook.rs:CodebookDescReader,FullCodebookDesc,ShortCodebookDesc,Codebook::new"]}
{"id": "C81", "title": "Table descriptions decode to positions", "statement": "A codebook built from separate tables of lengths and codewords (TableCodebookDescReader) decodes every encoded message to the positions of its entries, for every symbol type.", "quantifier": "all tables, symbol types, messages, map iteration orders", "why_tests_cant": "tests use tables of a few entries", "anchors": ["bitstream/src/codebook.rs:TableCodebookDescReader"]}
{"id": "C82", "title": "Codec contexts are transparent", "statement": "In every sequence of calls a decoder or encoder context made by name returns what the object created by the first descriptor of that name returns (panics included), and decoder()/encoder() is that object; unknown names give no context.", "quantifier": "all decoders, encoders, registries, names, call sequences", "why_tests_cant": "all implementations and call sequences", "anchors": ["codec/src/decoder.rs:Context", "codec/src/encoder.rs:Context"]}
{"id": "C83", "title": "Option values keep key, type and value", "statement": "Two set_option calls hand the encoder the same pair only if key, argument type and argument are the same.", "quantifier": "all option arguments", "why_tests_cant": "all values", "anchors": ["data/src/value.rs:From", "codec/src/encoder.rs:Context::set_option"]}
{"id": "C84", "title": "Error texts identify the error", "statement": "The text of a codec error determines the error; the text of a format error determines its kind and its number of bytes; an I/O error converted to a format error is its source, and no other error has a source.", "quantifier": "all errors", "why_tests_cant": "all feature names and byte counts", "anchors": ["codec/src/error.rs:Display", "format/src/error.rs:Display,source,From<io::Error>"]}
{"id": "C85", "title": "read_cb is decoding from a bit queue, in every state", "statement": "In any history of bit reader calls and codeword reads on any buffer, with either bit order, past the end too, read_cb returns what ten-bit-wise decoding of the set of codewords from a bit queue returns, leaves the reader there, and panics exactly when the queue does.", "quantifier": "all descriptions, buffers, histories, map iteration orders", "why_tests_cant": "states near and past the end depend on the refill history", "anchors": ["bitstream/src/codebook.rs:read_cb,Codebook::new", "bitstream/src/bitread.rs:peek_bits_32,skip_bits,available"]}
{"id": "C86", "title": "Codewords are exact to the last bit of 8-byte blocks", "statement": "On a buffer whose length is a multiple of 8 bytes, codeword reads mixed with calls of the 64-bit path are exact up to the last bit, a read at the end fails without moving, and messages packed into whole blocks are read back.", "quantifier": "all descriptions, messages, buffers below 2^32 bits, histories", "why_tests_cant": "all end alignments", "anchors": ["bitstream/src/codebook.rs:read_cb", "bitstream/src/bitread.rs:peek_bits_32,skip_bits,available"]}
{"id": "C87", "title": "What a muxer wrote is what a demuxer reads", "statement": "For a muxer and an incremental parser that agree about a format: packets written through Writer and the muxer context to any output that makes no call fail come back from the demuxer context and AccReader over any source of the bytes written, in order, followed by the end; refused packets leave no trace.", "quantifier": "all formats, packet lists, outputs, sources, chunkings, capacities", "why_tests_cant": "the tests of muxer.rs and demuxer.rs use different formats and never connect the two", "anchors": ["format/src/muxer.rs:Writer,Context", "format/src/demuxer.rs:Context", "format/src/buffer/accreader.rs:AccReader"]}
{"id": "C88", "title": "An I/O error returned while demuxing loses nothing", "statement": "After read_event or read_headers returned an I/O error, calling again continues as if the error had not happened: the results that are not I/O errors are the events (the headers) of the bytes of the source.", "quantifier": "all parsers, sources, positions and numbers of failures", "why_tests_cant": "no test makes a reader fail; the failing seek of a large skip needs a failure at one particular read", "anchors": ["format/src/demuxer.rs:Context", "format/src/buffer/accreader.rs:AccReader"]}
{"id": "C89", "title": "The buffer stays within a constant factor of its capacity plus the largest request", "statement": "While events are read the length of the buffer of AccReader is at most a constant times the initial capacity plus the largest number of bytes the demuxer ever asked for.", "quantifier": "all parsers, sources, chunkings, capacities, numbers of calls", "why_tests_cant": "the tests read from memory, where each request is answered at once", "anchors": ["format/src/demuxer.rs:Context::read_event", "format/src/buffer/accreader.rs:AccReader::grow"]}
{"id": "C90", "title": "Copying an empty picture does nothing", "statement": "copy_from_slice and copy_frame_to_buffer on a default frame of a picture without columns or without rows leave the frame and the destinations as they are.", "quantifier": "all formats, sizes with a zero, buffers", "why_tests_cant": "no test uses an empty picture", "anchors": ["data/src/frame.rs:copy_from_slice,copy_frame_to_buffer,copy_plane", "data/src/pixel.rs:get_linesize"]}
{"id": "C91", "title": "A default packet is a new packet", "statement": "Packet::default() and Packet::new() are equal in every field.", "quantifier": "-", "why_tests_cant": "no test compares the two", "anchors": ["data/src/packet.rs:Packet"]}
{"id": "C92", "title": "Accessors return what the constructor was given", "statement": "Every accessor of Chromaton, Formaton, VideoInfo, AudioInfo and MediaKind returns the argument of the constructor; indexing a Formaton agrees with get_chromaton below 5 and panics from 5 on.", "quantifier": "all arguments", "why_tests_cant": "all values", "anchors": ["data/src/pixel.rs:Chromaton,Formaton", "data/src/frame.rs:VideoInfo,AudioInfo,MediaKind"]}
{"id": "C93", "title": "Predefined formats have the components of their colour model", "statement": "The number of components of every predefined format is the number of its components that are present, and that of its colour model plus one if it has alpha; only PAL8 is paletted.", "quantifier": "all predefined formats", "why_tests_cant": "-", "anchors": ["data/src/pixel.rs:formats,get_default_components"]}
{"id": "C94", "title": "Default channel maps are the documented ones", "statement": "default_map(1) is a centre channel, default_map(2) a right and a left channel, and every other count panics.", "quantifier": "all counts", "why_tests_cant": "all counts", "anchors": ["data/src/audiosample.rs:default_map"]}
{"id": "C95", "title": "Bit counts fit machine words", "statement": "With index and left as checked 64-bit words every history of calls gives the results and the panics it gives with unbounded counters, as long as the bits of the buffer and the bits skipped are fewer than 2^64 together; beyond that the words can overflow.", "quantifier": "all buffers, all endiannesses, all histories within the bound", "why_tests_cant": "the bound is about sizes no test can allocate and about sums over whole histories", "anchors": ["bitstream/src/bitread.rs:BitReadEndian"]}
{"id": "C96", "title": "AccReader positions fit machine words", "statement": "With pos, end and index as checked 64-bit words every legal history gives the results it gives with unbounded counters, for seeks to any 64-bit position, as long as source and buffer are each shorter than 2^63 bytes; grow panics exactly when the buffer would reach 2^63 bytes.", "quantifier": "all sources, capacities and legal histories within the bound", "why_tests_cant": "positions near 2^64 are reached by seeking only, and every order of calls matters", "anchors": ["format/src/buffer/accreader.rs:AccReader,grow,consume,seek"]}
{"id": "C97", "title": "Builds without overflow checks agree where checked builds do not panic", "statement": "With arithmetic that wraps around instead of panicking, default frames are the same and the copy functions have the same effect wherever the checked build does not panic.", "quantifier": "all frames, buffers and sizes", "why_tests_cant": "tests run in one profile only, and sizes near 2^64 cannot be allocated", "anchors": ["data/src/frame.rs:DefaultFrameBuffer,new_default_frame,copy_from_slice,copy_frame_to_buffer", "data/src/pixel.rs:get_linesize,get_data_size", "data/src/audiosample.rs:get_audio_size"]}
{"id": "C98", "title": "Default frames have room for their picture without overflow checks", "statement": "In a build without overflow checks a default frame that is created has planes of stride times rows bytes, so that copying a picture into it stays within them.", "quantifier": "all picture sizes and formats", "why_tests_cant": "needs sizes whose product wraps around to a small number, in a release build", "anchors": ["data/src/frame.rs:new_default_frame,copy_from_slice", "data/src/pixel.rs:get_data_size"]}
{"id": "C99", "title": "Default frames are created exactly when their sizes fit", "statement": "Component sizes, sizes of sample runs and default frames are computed if and only if every number on the way fits a 64-bit word and the total is below 2^63; otherwise the call panics.", "quantifier": "all formats, sizes, channel counts", "why_tests_cant": "the boundary lies at sizes no test can allocate", "anchors": ["data/src/pixel.rs:get_width,get_height,get_linesize,get_data_size", "data/src/audiosample.rs:get_audio_size", "data/src/frame.rs:new_default_frame"]}
{"id": "C100", "title": "Every sequence of calls on AccReader is that of a three-number machine", "statement": "Over a reader that behaves like a file, at any position, every sequence of calls with any arguments, including backward seeks and consuming more than is buffered, returns without panicking what a machine of true position, number of buffered bytes and reported position returns; the unwrapped reader is ahead by the buffered bytes.", "quantifier": "all sources, starting positions, chunkings, failures, histories", "why_tests_cant": "the state depends on the whole history and on every short read", "anchors": ["format/src/buffer/accreader.rs:AccReader,get_ref,into_inner"]}
{"id": "C101", "title": "AccReader may wrap a reader at any position", "statement": "An absolute seek on an AccReader goes to that position of the source, wherever the source was when it was wrapped.", "quantifier": "all sources, starting positions, histories", "why_tests_cant": "the tests wrap fresh cursors only", "anchors": ["format/src/buffer/accreader.rs:AccReader::new,seek"]}
{"id": "C102", "title": "Writer changes a file exactly as the calls say", "statement": "Over any file, whatever pieces it accepts and whenever it fails, every sequence of writes, seeks and flushes changes the contents by exactly the bytes of the calls at the positions reached; a failed write_all has written an initial part.", "quantifier": "all files, failure scripts, call sequences", "why_tests_cant": "the tests write to vectors that never fail", "anchors": ["format/src/muxer.rs:Writer::write,seek,flush"]}
{"id": "C103", "title": "A failed write may be repeated", "statement": "Repeating a write_all that failed leaves the file as one successful write_all would.", "quantifier": "all files, buffers, failures", "why_tests_cant": "the tests write to vectors that never fail", "anchors": ["format/src/muxer.rs:Writer::write"]}
{"id": "C104", "title": "Buffered bytes can be read while the source fails", "statement": "A read that asks for no more bytes than AccReader has buffered succeeds without calling the source.", "quantifier": "all sources, histories, slices", "why_tests_cant": "the tests have no failing source", "anchors": ["format/src/buffer/accreader.rs:Read::read,fill_buf"]}
{"id": "C105", "title": "read_to_end through AccReader returns the rest of the source", "statement": "After any history, Read::read_to_end, whatever chunk sizes it asks for, collects an initial part of the remaining bytes, all of them when it reports success; it does report success over a source that does not fail.", "quantifier": "all sources, capacities, schedules, histories, chunk sizes", "why_tests_cant": "schedules of short reads are unbounded", "anchors": ["format/src/buffer/accreader.rs:Read::read"]}
{"id": "C106", "title": "read_until through AccReader returns the next line", "statement": "After any history, BufRead::read_until returns the bytes through the next delimiter, or all remaining bytes, and leaves the position behind them.", "quantifier": "all sources, capacities, schedules, histories, delimiters", "why_tests_cant": "schedules of short reads are unbounded", "anchors": ["format/src/buffer/accreader.rs:BufRead::fill_buf,consume"]}
{"id": "C107", "title": "The byte count of Writer on machine words", "statement": "Writer with a 64-bit count behaves as if it were unbounded as long as the position stays below 2^64 after every call, and panics otherwise.", "quantifier": "all outputs, call sequences", "why_tests_cant": "positions near 2^64 are not reached in tests", "anchors": ["format/src/muxer.rs:Writer::write,seek"]}
{"id": "C108", "title": "The byte count of get_buffer on machine words", "statement": "Over a reader that keeps the contract of Read::read, the count of get_buffer never overflows.", "quantifier": "all readers, buffers", "why_tests_cant": "chunkings are unbounded", "anchors": ["src/io/byteread.rs:get_buffer"]}
{"id": "C109", "title": "The bit reader without overflow checks agrees where the checked one does not panic", "statement": "Whatever a sequence of calls on the bit reader delivers in a build with overflow checks, it delivers in a build without them, also for arguments outside the documented ranges.", "quantifier": "all buffers, call sequences, usize arguments", "why_tests_cant": "tests run in one profile only", "anchors": ["bitstream/src/bitread.rs:BitRead,get_bits_32,get_bits_64,skip_bits,available,consumed"]}
{"id": "C110", "title": "The bit reader without overflow checks is a bit queue", "statement": "With arguments in the documented ranges, as long as buffer and skips together are fewer than 2^64 bits, the unchecked reader never panics and every call does what the bit queue does, with available counted modulo 2^64.", "quantifier": "all buffers, call sequences", "why_tests_cant": "histories are unbounded, and tests run in one profile only", "anchors": ["bitstream/src/bitread.rs:BitRead,refill32,refill64,skip_bits,available"]}
{"id": "C111", "title": "available never reports more bits than the buffer has", "statement": "In a build without overflow checks, available never exceeds the number of bits in the buffer.", "quantifier": "all buffers, call sequences", "why_tests_cant": "needs skips past the end in a release build", "anchors": ["bitstream/src/bitread.rs:available,skip_bits"]}
{"id": "C112", "title": "AccReader without overflow checks agrees where the checked one does not panic", "statement": "Whatever a history of calls on AccReader delivers in a build with overflow checks, over any source, it delivers in a build without them.", "quantifier": "all sources, capacities, histories", "why_tests_cant": "tests run in one profile only", "anchors": ["format/src/buffer/accreader.rs:AccReader,grow,consume,read,seek"]}
{"id": "C113", "title": "AccReader without overflow checks never panics", "statement": "Over any source that keeps the contract of Read::read, no sequence of calls panics in a build without overflow checks, whatever is consumed and wherever one seeks, as long as the buffer stays below 2^63 bytes.", "quantifier": "all sources, capacities, histories", "why_tests_cant": "positions near 2^64 and every order of calls matter", "anchors": ["format/src/buffer/accreader.rs:AccReader,consume,read,fill_buf,seek"]}
{"id": "C114", "title": "Growing keeps the buffered bytes without overflow checks", "statement": "In a build without overflow checks, grow keeps the buffered bytes or panics.", "quantifier": "all buffers and requests", "why_tests_cant": "needs requests near 2^64 in a release build", "anchors": ["format/src/buffer/accreader.rs:grow,data"]}
{"id": "C115", "title": "Displayed numbers are the numbers", "statement": "What Display prints for components, pixel formats, sample formats, informations and errors consists of the fixed words and of the decimal (for masks hexadecimal) numerals of the fields, without leading zeros; a format lists exactly the components that are present, in order; it panics exactly when a mask does not fit an i32.", "quantifier": "all components, formats, informations and errors", "why_tests_cant": "numerals of arbitrary numbers; the crate's tests print and do not compare", "anchors": ["data/src/pixel.rs:Display for Chromaton, Formaton", "data/src/audiosample.rs:Display for Soniton", "data/src/frame.rs:Display", "codec/src/error.rs:Display", "format/src/error.rs:Display"]}
{"id": "C116", "title": "Displayed names are those of the codes", "statement": "The name printed for a matrix, set of primaries, transfer characteristic, channel, chroma location, frame type or colour model is the one in the table by code.", "quantifier": "all values", "why_tests_cant": "the crate's tests print and do not compare", "anchors": ["data/src/pixel.rs:Display", "data/src/audiosample.rs:Display for ChannelType", "data/src/frame.rs:Display for FrameType"]}
{"id": "C117", "title": "The predefined formats in full", "statement": "Every predefined planar format has limited range YCbCr, a full luma plane and two chroma planes, no alpha, no palette and one byte or word per step; every predefined packed format has RGB components without subsampling within one element; sample formats have the width, sign and kind of their names, interleaved and little endian.", "quantifier": "all predefined formats", "why_tests_cant": "no test looks at the fields", "anchors": ["data/src/pixel.rs:formats", "data/src/audiosample.rs:formats"]}
{"id": "C118", "title": "Copying with more or fewer buffers than planes", "statement": "copy_from_slice panics when sources, strides or components run out before the planes do, and ignores further sources; copy_frame_to_buffer copies as many planes as there are destinations, strides and components for and leaves further destinations alone.", "quantifier": "all frames, planes, sources, destinations", "why_tests_cant": "every combination of counts; the existing test for a missing plane already has undefined behaviour before it", "anchors": ["data/src/frame.rs:copy_from_slice,copy_frame_to_buffer"]}
{"id": "C119", "title": "Demuxing on machine words", "statement": "With the counters of the reader as checked 64-bit words, a session of read_headers and read_event calls of a demuxer that decides from the buffered bytes has exactly the results and the final state it has with unbounded counters, unless the buffer reaches 2^63 bytes, in which case it panics.", "quantifier": "all sources, demuxers, capacities, sessions", "why_tests_cant": "buffers of 2^63 bytes cannot be allocated; every order of calls matters", "anchors": ["format/src/demuxer.rs:read_headers,read_event", "format/src/buffer/accreader.rs:grow,fill_buf,seek"]}
{"id": "C120", "title": "A request for more data cannot crash the context", "statement": "Whatever number of bytes a demuxer asks for with MoreDataNeeded, read_event and read_headers return a result instead of panicking.", "quantifier": "all demuxers, requests, sources, with and without overflow checks", "why_tests_cant": "the request is usually a length field of the input and takes any 64-bit value", "anchors": ["format/src/demuxer.rs:read_headers,read_event", "format/src/buffer/accreader.rs:grow"]}
{"id": "C121", "title": "Truncated headers end in a panic", "statement": "On a source that ends within the headers, read_headers enlarges the buffer in every round and panics when it reaches 2^63 bytes.", "quantifier": "all sources, incremental header parsers, capacities", "why_tests_cant": "takes 2^63 rounds or gigantic requests", "anchors": ["format/src/demuxer.rs:read_headers", "format/src/buffer/accreader.rs:grow"]}
{"id": "C122", "title": "Demuxing without overflow checks agrees where the checked build does not panic", "statement": "Whatever a session of read_headers and read_event calls delivers in a build with overflow checks, over any source, it delivers in a build without them.", "quantifier": "all sources, demuxers, capacities, sessions", "why_tests_cant": "tests run in one profile only", "anchors": ["format/src/demuxer.rs:read_headers,read_event", "format/src/buffer/accreader.rs:grow,fill_buf,seek"]}
{"id": "C123", "title": "Codebooks without overflow checks agree where the checked build does not panic", "statement": "Whatever codebook or error construction yields from a description in a build with overflow checks, and whatever a history of reader calls and codeword reads delivers there, a build without overflow checks yields and delivers.", "quantifier": "all descriptions, orders, modes, tables, buffers, histories", "why_tests_cant": "tests run in one profile only", "anchors": ["bitstream/src/codebook.rs:new,read_cb", "bitstream/src/byteread.rs"]}
{"id": "C124", "title": "Without overflow checks every codeword of a description is decoded", "statement": "In a build without overflow checks a codebook that construction has accepted decodes each codeword of its description to the symbol of that codeword.", "quantifier": "all descriptions, messages, codeword lengths up to 255", "why_tests_cant": "codewords longer than 41 bits panic in the profile tests run in", "anchors": ["bitstream/src/codebook.rs:new,read_cb"]}
{"id": "C125", "title": "Without overflow checks a codeword read behind the end fails", "statement": "In a build without overflow checks a codeword read at or behind the end of the buffer returns InvalidCode.", "quantifier": "all descriptions, buffers, histories with skips past the end", "why_tests_cant": "the profile tests run in panics there", "anchors": ["bitstream/src/codebook.rs:read_cb", "bitstream/src/bitread.rs:available"]}
{"id": "C126", "title": "Without overflow checks components are printed with their masks", "statement": "In a build without overflow checks the text of a component has its numbers and, if it is packed, its mask, and where the build with overflow checks prints a text it is the same.", "quantifier": "all components and formats", "why_tests_cant": "depths and shifts up to 255 in either profile", "anchors": ["data/src/pixel.rs:Display for Chromaton,Formaton"]}
{"id": "C127", "title": "Without overflow checks the total depth is reduced modulo 256", "statement": "In a build without overflow checks get_total_depth returns the sum of the depths modulo 256.", "quantifier": "all formats", "why_tests_cant": "tests run in one profile only", "anchors": ["data/src/pixel.rs:get_total_depth"]}
{"id": "C128", "title": "Without overflow checks the counters wrap around and nothing else changes", "statement": "In a build without overflow checks Writer does what it does with an unbounded position, reduced modulo 2^64, and get_buffer is the loop with an unbounded count.", "quantifier": "all outputs whose seek returns a u64, call sequences; all readers that keep the contract of Read::read", "why_tests_cant": "positions near 2^64", "anchors": ["format/src/muxer.rs:Writer", "src/io/byteread.rs:get_buffer"]}
{"id": "C129", "title": "At 64 bits the buffered reader for any width is the one on 64-bit words", "statement": "AccReader modelled for any width of usize is, at 64 bits, the AccReader on checked words, and without overflow checks the one on wrapping words.", "quantifier": "all sources that keep the contract of read and report u64 positions, call histories, capacities below 2^63", "why_tests_cant": "equality of two models", "anchors": ["format/src/buffer/accreader.rs:AccReader"]}
{"id": "C130", "title": "The buffered reader works the same for any width of usize", "statement": "For every width of usize up to 64 bits (wasm32 is a tested target), with and without overflow checks, AccReader does what it does with unbounded counters as long as source and buffer are shorter than half the address space and positions fit usize.", "quantifier": "all widths, file-like sources, legal call histories", "why_tests_cant": "needs 32-bit machines and sources of gigabytes", "anchors": ["format/src/buffer/accreader.rs:AccReader"]}
{"id": "C131", "title": "Reading on past the last usize position", "statement": "While only reading, AccReader delivers the bytes of a source of any length; without overflow checks its position is kept modulo 2^bits, with them the history panics exactly if it gets as far as position 2^bits.", "quantifier": "all widths, file-like sources of any length, histories without seeks", "why_tests_cant": "needs more than 4 GiB of data on a 32-bit machine", "anchors": ["format/src/buffer/accreader.rs:consume", "format/src/buffer/accreader.rs:read"]}
{"id": "C132", "title": "A seek goes where it is told to, whatever the width of usize", "statement": "seek goes to the position asked for and reports it, also if the position does not fit usize.", "quantifier": "all widths, positions, states of the buffer", "why_tests_cant": "needs 32-bit machines and positions above 4 GiB", "anchors": ["format/src/buffer/accreader.rs:seek"]}
{"id": "C133", "title": "The position of Writer for any width of usize", "statement": "Whatever the width of usize, Writer::position is the position in the output.", "quantifier": "all widths, outputs, call histories", "why_tests_cant": "needs 32-bit machines and outputs of more than 4 GiB", "anchors": ["format/src/muxer.rs:Writer"]}
{"id": "C134", "title": "The byte count of get_buffer for any width of usize", "statement": "Over a reader that keeps the contract of Read::read, get_buffer fills a slice of any length the machine has without overflow, whatever the width of usize.", "quantifier": "all widths, readers, slices", "why_tests_cant": "needs 32-bit machines and slices of gigabytes", "anchors": ["src/io/byteread.rs:get_buffer"]}
{"id": "C135", "title": "Frames and copies are the same for any width of usize", "statement": "What a machine with overflow checks makes of a default frame or a copy, every machine at least as wide makes of it, with and without overflow checks.", "quantifier": "all widths, formats, dimensions, contents", "why_tests_cant": "needs the same inputs on machines of different widths", "anchors": ["data/src/frame.rs:new_default_frame,copy_frame_to_buffer,copy_from_slice"]}
{"id": "C136", "title": "When a default frame can be created, for any width of usize", "statement": "With overflow checks a default frame is created exactly if no number on the way takes more than a word and the whole takes less than half of the address space.", "quantifier": "all widths from 9 bits on, formats, dimensions", "why_tests_cant": "needs frames at the limits of 32-bit address spaces", "anchors": ["data/src/frame.rs:new_default_frame", "data/src/pixel.rs:get_data_size", "data/src/audiosample.rs:get_audio_size"]}
{"id": "C137", "title": "Copies stay within default frames, whatever the width of usize", "statement": "Copying into a default frame does not write outside its planes, whatever the width of usize and with and without overflow checks.", "quantifier": "all widths, formats, dimensions", "why_tests_cant": "the sizes that wrap around are rare", "anchors": ["data/src/frame.rs:new_default_frame,copy_from_slice"]}
{"id": "C138", "title": "The bit reader is the same for any width of usize", "statement": "With overflow checks every history of calls on the bit reader does on any width of usize what it does with unlimited counters, and without them what it does on 64 bits, for all buffers and arguments that leave 64 bytes of the address space; counts are taken modulo the width.", "quantifier": "all widths, buffers, calls", "why_tests_cant": "needs machines of different widths and buffers of gigabytes", "anchors": ["bitstream/src/bitread.rs:refill32,refill64,skip_bits,get_bits_64,get_bits_32"]}
{"id": "C139", "title": "consumed and available count the bits, whatever the width of usize", "statement": "consumed and available return the number of bits read and left for every buffer that fits into the address space.", "quantifier": "all widths, buffers, histories", "why_tests_cant": "needs a buffer of half a gigabyte on a 32-bit machine", "anchors": ["bitstream/src/bitread.rs:consumed,available"]}
{"id": "C140", "title": "Codeword reads are the same for any width of usize", "statement": "Histories of calls and codeword reads do on any width of usize from 32 bits on what they do with unlimited counters, or without overflow checks what they do on 64 bits.", "quantifier": "all widths, codebooks, buffers, histories", "why_tests_cant": "needs a buffer of half a gigabyte on a 32-bit machine", "anchors": ["bitstream/src/codebook.rs:read_cb"]}
{"id": "C141", "title": "A loop over available ends", "statement": "The loop of benches/bitstream.rs (while available() > 0, reading and skipping 64 bits per pass) never panics; it ends exactly for buffers of whole 8-byte blocks, after one pass per block, each of which reads the bits of its block.", "quantifier": "all buffers, byte orders, numbers of passes", "why_tests_cant": "the benchmark has one buffer of 16 bytes; endless loops cannot be tested", "anchors": ["bitstream/src/bitread.rs:available,skip_bits,get_bits_32", "benches/bitstream.rs:bitread"]}
{"id": "C142", "title": "The last bytes are never consumed", "statement": "Whatever is read or skipped by at most 64 bits at a time, the last length mod 4 bytes of a buffer stay available, so no loop over available around such calls ends if the length is not a multiple of 4.", "quantifier": "all buffers, byte orders, calls", "why_tests_cant": "needs all sequences of calls", "anchors": ["bitstream/src/bitread.rs:available,can_refill"]}
{"id": "C143", "title": "The benchmarks run through and read what they should", "statement": "The loops of bitstream/benches/bitread.rs never panic on any buffer and, while the buffer has 64 bits to spare, read its bits; the loop of benches/format.rs reads the bytes of its source one by one.", "quantifier": "all buffers, numbers of passes, sources, capacities", "why_tests_cant": "the benchmarks do not look at what they read", "anchors": ["bitstream/src/bitread.rs:get_bits_32,get_bits_64,get_bit", "format/src/buffer/accreader.rs:read", "benches/format.rs:bench_accreader"]}
{"id": "C144", "title": "Demuxing for any width of usize", "statement": "On machines of any width up to 64 bits, with and without overflow checks, a session of read_headers and read_event calls has exactly the results and the final state it has with unbounded counters, unless the buffer reaches half the address space, in which case it panics.", "quantifier": "all widths, sources, demuxers, capacities, sessions", "why_tests_cant": "tests run on one width with small sources", "anchors": ["format/src/demuxer.rs:read_headers,read_event", "format/src/buffer/accreader.rs:grow,fill_buf,seek"]}
{"id": "C145", "title": "A request for more data cannot crash the context, whatever the width of usize", "statement": "Whatever number of bytes a demuxer asks for with MoreDataNeeded, read_event and read_headers return a result instead of panicking, on any width of usize.", "quantifier": "all widths, sources, demuxers, capacities, sessions", "why_tests_cant": "the tests ask for a few bytes only", "anchors": ["format/src/demuxer.rs:read_headers,read_event", "format/src/buffer/accreader.rs:grow"]}
{"id": "C146", "title": "Truncated headers end in a panic, whatever the width of usize", "statement": "On a source that ends within the headers, read_headers enlarges the buffer in every round and panics when it reaches half the address space.", "quantifier": "all widths, sources, incremental header parsers, capacities", "why_tests_cant": "takes up to 2^31 rounds even on a 32-bit machine", "anchors": ["format/src/demuxer.rs:read_headers", "format/src/buffer/accreader.rs:grow"]}
{"id": "C147", "title": "Demuxing for any width of usize includes that on 64 bits", "statement": "With 64 bits, sessions on the machine are the sessions on 64-bit words, with overflow checks always and without them wherever the former do not panic.", "quantifier": "all sources, demuxers, capacities, sessions", "why_tests_cant": "relates two models", "anchors": ["format/src/demuxer.rs:read_headers,read_event"]}
{"id": "C148", "title": "Overflow checks change no result, whatever the width of usize", "statement": "Whatever AccReader, the demuxing Context, Writer, get_buffer, the bit reader with codeword reads, frames and copies return on a machine with overflow checks, they return on one of the same width without them.", "quantifier": "all widths, sources, sinks, states, histories, formats", "why_tests_cant": "tests run in one profile and on one width", "anchors": ["format/src/buffer/accreader.rs:read,fill_buf,seek,grow,consume", "format/src/demuxer.rs:read_headers,read_event", "format/src/muxer.rs:write,seek", "bitstream/src/bitread.rs:get_bits_32,get_bits_64,skip_bits", "data/src/frame.rs:copy_from_slice,copy_frame_to_buffer"]}
{"id": "C149", "title": "Size of the lookup tables and the limit of 2^24 entries", "statement": "For a prefix-free description the table has exactly one block for the empty word and one for every 10, 20, ... bits after which some codeword continues, each of 2^k entries where k <= 10 is the longest remainder. Up to 2^24 entries everything is decoded (C15); 5461 codewords of at most 32 bits always fit; one block beyond it a codeword is decoded as another symbol, and symbols beyond the first 2^24 are never returned.", "quantifier": "all descriptions, orders of hash maps, streams", "why_tests_cant": "tables of 2^24 entries take 64 MiB and thousands of long codewords", "anchors": ["bitstream/src/codebook.rs:Codebook::new,build_esc_lut,resize_table,fill_lut,read_cb"]}
{"id": "C150", "title": "When AccReader panics, for any width of usize", "statement": "Without overflow checks no history of calls panics whatever is read, consumed and sought, as long as the buffer stays shorter than half the address space; with them a history panics exactly if a call takes a counter to 2^bits, and answers the same otherwise.", "quantifier": "all widths, sources keeping the contract of read, call histories", "why_tests_cant": "needs positions near the end of the address space and sources that misbehave", "anchors": ["format/src/buffer/accreader.rs:read", "format/src/buffer/accreader.rs:consume", "format/src/buffer/accreader.rs:seek", "format/src/buffer/accreader.rs:fill_buf"]}
{"id": "C151", "title": "When AccReader::grow fails or loses data, for any width of usize", "statement": "With checks grow fails exactly if the buffer would reach half the address space; without them exactly if in addition the sum of the lengths fits usize, and if it does not the buffer is cut, so that buffered bytes can be lost.", "quantifier": "all widths, states, lengths", "why_tests_cant": "needs requests of the order of the address space", "anchors": ["format/src/buffer/accreader.rs:grow"]}
{"id": "C152", "title": "Construction of codebooks that are not prefix-free", "statement": "Codebook::new succeeds for every description with a used entry whose codewords fit their lengths (41 bits at most in MSB mode), prefix-free or not and however large, and allocates at most 1024 entries for every started 10 bits of a codeword.", "quantifier": "all descriptions whose codes fit, orders of hash maps", "why_tests_cant": "codewords may repeat, contain or overwrite one another in every combination", "anchors": ["bitstream/src/codebook.rs:Codebook::new,build_esc_lut,fill_lut,resize_table,add_esc_code"]}
{"id": "C153", "title": "Codebooks that are not prefix-free are safe to read with", "statement": "With a codebook of a description that need not be prefix-free (at most 2^24 used entries and 2^24 table entries) no history of legal calls and codeword reads panics, on any buffer with either bit order; a codeword read ends, returns the symbol of a used entry or InvalidCode and neither goes back nor beyond the end.", "quantifier": "all descriptions whose codes fit, orders of hash maps, buffers, histories", "why_tests_cant": "overwritten tables might form cycles or lead out of the table for some description and stream", "anchors": ["bitstream/src/codebook.rs:read_cb", "bitstream/src/codebook.rs:Codebook::new,build_esc_lut"]}
{"id": "C154", "title": "When several codewords match the last entry wins", "statement": "When more than one codeword of a description matches the coming bits, read_cb returns the symbol of the entry that comes last in the description and moves by the length of its codeword; when exactly one matches it is that one; the order of hash maps does not matter.", "quantifier": "all descriptions whose codes fit, orders of hash maps, streams", "why_tests_cant": "depends on how codewords overlap and on the random order of a hash map", "anchors": ["bitstream/src/codebook.rs:Codebook::new,build_esc_lut,fill_lut,read_cb"]}
{"id": "C155", "title": "Codewords that do not fit their length", "statement": "For codewords of at most 10 bits in length Codebook::new panics exactly if the value of one of them does not fit: its length in LSB mode, the table after the shift in MSB mode; it never reports InvalidCodebook for it.", "quantifier": "all descriptions of short codewords", "why_tests_cant": "values up to 2^32 in lengths up to 10", "anchors": ["bitstream/src/codebook.rs:fill_lut_msb,fill_lut_lsb,Codebook::new"]}
{"id": "C156", "title": "AccReader whose inner reader is touched", "statement": "Whatever is done to the inner reader between calls through get_mut, no call panics and the bytes delivered are the buffered ones, then those of the source as it is now, from wherever the inner reader is.", "quantifier": "all readers, sources, capacities, sequences of calls and of moves and changes of the inner reader", "why_tests_cant": "the tests never use get_mut", "anchors": ["format/src/buffer/accreader.rs:AccReader::get_mut,get_ref,into_inner,read,fill_buf,consume,seek"]}
{"id": "C157", "title": "Seeks after the inner reader was moved", "statement": "An absolute seek on an AccReader goes to that position of the source, also if the inner reader was moved through get_mut.", "quantifier": "all readers, sources, capacities, sequences of calls and of moves and changes of the inner reader", "why_tests_cant": "the tests never use get_mut", "anchors": ["format/src/buffer/accreader.rs:AccReader::get_mut,seek"]}
{"id": "C158", "title": "Construction of codebooks for any width of usize", "statement": "Where usize has 32 bits or more Codebook::new gives, for any description, the same codebook, error or panic as with unlimited counters, with and without overflow checks, unless the table or the symbols of that codebook cannot be allocated; then it panics.", "quantifier": "all widths from 32 bits, descriptions, orders of hash maps, allocators", "why_tests_cant": "tests run on one width and never out of memory", "anchors": ["bitstream/src/codebook.rs:Codebook::new,resize_table,fill_lut_msb,fill_lut_lsb,build_esc_lut,extract_lut_part,extract_esc_part"]}
{"id": "C159", "title": "Codebooks are built and decode on any width of usize", "statement": "Where usize has 32 bits or more and the memory for its table and symbols is available a valid codebook is built and decodes every legal history over a buffer of less than 2^32 - 6912 bits.", "quantifier": "all widths from 32 bits, valid descriptions, orders of hash maps, buffers, histories", "why_tests_cant": "tests run on one width and a few codebooks", "anchors": ["bitstream/src/codebook.rs:Codebook::new,read_cb"]}
{"id": "C160", "title": "Packets when memory cannot be had", "statement": "Packet::zeroed and with_capacity succeed exactly if the bytes can be allocated (none, or at most isize::MAX and granted by the allocator). get_packet fails with an error when the source has fewer bytes than requested.", "quantifier": "all widths, allocators, sources, requested lengths", "why_tests_cant": "tests never request more than there is", "anchors": ["data/src/packet.rs:zeroed,with_capacity,get_packet"]}
{"id": "C161", "title": "AccReader when memory cannot be had", "statement": "A reader whose buffer, with all it is asked to grow by, can be allocated behaves as if memory were unlimited; with less it does the same or panics; a buffer that cannot be allocated panics at construction.", "quantifier": "all widths, allocators, sources, histories", "why_tests_cant": "tests never run out of memory", "anchors": ["format/src/buffer/accreader.rs:with_capacity,grow"]}
{"id": "C162", "title": "Default frames when memory cannot be had", "statement": "With overflow checks a default frame is created exactly if no number on the way takes more than a word and the memory for its bytes and the list of its planes can be allocated; it is then the frame that unlimited memory gives.", "quantifier": "all widths, allocators, formats, sizes", "why_tests_cant": "tests never run out of memory", "anchors": ["data/src/frame.rs:new,new_default_frame"]}
{"id": "C163", "title": "Construction of codebooks from any description", "statement": "Whatever the description, prefix-free or not, with codewords that fit their lengths or do not, Codebook::new ends, has no undefined behaviour, recurses at most 26 levels deep and returns an error exactly if no entry is used, namely InvalidCodebook.", "quantifier": "all descriptions, modes, orders of hash maps", "why_tests_cant": "nothing restricts what a description may hold", "anchors": ["bitstream/src/codebook.rs:Codebook::new,build_esc_lut"]}
{"id": "C164", "title": "Reading with codebooks from any description", "statement": "With any codebook that Codebook::new returned (at most 2^24 used entries and 2^24 table entries) no history of legal calls and codeword reads panics, on any buffer with either bit order; a codeword read ends, after at most as many rounds as the table has entries, returns the symbol of a used entry or InvalidCode and neither goes back nor beyond the end.", "quantifier": "all descriptions, orders of hash maps, buffers, histories", "why_tests_cant": "tables written over one another might form cycles for some description", "anchors": ["bitstream/src/codebook.rs:read_cb", "bitstream/src/codebook.rs:Codebook::new,build_esc_lut"]}
{"id": "C165", "title": "A codeword read uses no more bits than the longest codeword has", "statement": "read_cb moves the reader by at most the length of the longest codeword of the description, wherever the reader is and whatever bits follow.", "quantifier": "all descriptions, orders of hash maps, buffers, histories", "why_tests_cant": "depends on the contents of the tables and on the state of the reader", "anchors": ["bitstream/src/codebook.rs:read_cb", "bitstream/src/bitread.rs:skip_bits"]}
{"id": "C166", "title": "A codeword read ends, whatever the size of the table", "statement": "With any codebook that was built, however large its table, no round of read_cb panics, the symbol is that of some used entry, and the loop ends after at most about as many rounds as there are bits left.", "quantifier": "all descriptions, orders of hash maps, buffers, histories, numbers of rounds", "why_tests_cant": "tables of more than 2^24 entries are too large for tests, and a loop that does not end is not observed in finite time", "anchors": ["bitstream/src/codebook.rs:read_cb", "bitstream/src/bitread.rs:skip_bits", "bitstream/src/bitread.rs:available"]}
{"id": "C167", "title": "An AccReader may wrap an AccReader", "statement": "AccReaders on top of each other, any number of them and of any capacities, answer every legal history of calls as one AccReader over the source does, and none of them panics.", "quantifier": "all sources, numbers of readers, capacities, histories", "why_tests_cant": "the tests use one AccReader over a Cursor", "anchors": ["format/src/buffer/accreader.rs:AccReader::read,fill_buf,consume,seek,reset_buffer_position,with_capacity"]}
{"id": "C168", "title": "Readers that report too many bytes", "statement": "If an inner reader reports more bytes than the slice it was given has, AccReader and the getters of ByteRead panic rather than take bytes for read that were not.", "quantifier": "all inner readers, whatever they report, capacities, histories", "why_tests_cant": "the readers of the tests keep to the contract of Read", "anchors": ["format/src/buffer/accreader.rs:AccReader::read,fill_buf,seek", "src/io/byteread.rs:get_buffer"]}
{"id": "C169", "title": "Copies with any implementation of FrameBuffer", "statement": "Copies into and out of a frame whose buffer is any implementation of FrameBuffer, which may also change its state when asked, never touch bytes outside the slices, and give the same bytes as with the default buffer if the implementation keeps to the documentation of the trait.", "quantifier": "all implementations, pictures, sources, destinations, strides", "why_tests_cant": "the crate has one implementation; others are written by its users", "anchors": ["data/src/frame.rs:FrameBuffer,copy_plane_to_buffer,copy_frame_to_buffer,copy_from_slice,copy_plane,as_slice"]}
{"id": "C170", "title": "Further inherited methods of AccReader and Writer", "statement": "read_vectored, bytes, take, skip_until, stream_position, rewind and seek_relative of AccReader, after any history, deliver the bytes of the source at the position and move it by as much; write_vectored and stream_position of Writer keep position() right.", "quantifier": "all sources, capacities, schedules, histories, buffers, limits, outputs", "why_tests_cant": "schedules of short reads are unbounded; the tests use none of these methods but stream_position", "anchors": ["format/src/buffer/accreader.rs:AccReader::read,fill_buf,consume,seek", "format/src/muxer.rs:Writer::write,seek"]}
{"id": "C171", "title": "Clashing codewords that end in the same ten bits", "statement": "If a codeword of a description is a prefix of, or equal to, another one only where both end in the same ten bits, then each read_cb returns the symbol of the last entry of the description whose codeword comes next and moves by its length, reports InvalidCode if none does, and does not depend on the order of hash maps.", "quantifier": "all such descriptions whose codes fit and tables have at most 2^24 entries, orders of hash maps, buffers, histories of calls, both bit orders", "why_tests_cant": "depends on how codewords of several lengths overlap and on the random order of a hash map", "anchors": ["bitstream/src/codebook.rs:Codebook::new,build_esc_lut,fill_lut_msb,fill_lut_lsb,read_cb"]}
{"id": "C172", "title": "Codewords that are prefixes of any others", "statement": "Let codewords be prefixes of others, but where one of at most ten bits is a prefix of longer ones, a longer one with the same first ten bits must come before it. Then the codebook is constructed, and each read_cb, wherever it is in the buffer, does what a search through the pending codewords does: in the first ten bits the last complete codeword counts, after that longer ones count before complete ones; it does not depend on the order of hash maps.", "quantifier": "all such descriptions whose codes fit and tables have at most 2^24 entries, orders of hash maps, buffers, histories of calls, both bit orders", "why_tests_cant": "depends on how codewords of several lengths overlap and on the random order of a hash map", "anchors": ["bitstream/src/codebook.rs:Codebook::new,build_esc_lut,fill_lut_msb,fill_lut_lsb,read_cb"]}
{"id": "C173", "title": "Codebooks of any codewords at all", "statement": "Whichever codewords of a description are prefixes of others, Codebook::new constructs a codebook, and each read_cb, wherever it is in the buffer, does what a search through the pending codewords does, except that the rest of the codewords that begin with ten bits which a codeword of at most ten bits is the first one to match is looked for in the wrong place: where the next ten bits, as a number, are these bits as a number. If several are found there, one of them is, by the order of a hash map, and every order of them can occur.", "quantifier": "all descriptions whose codes fit and tables have at most 2^24 entries, orders of hash maps, buffers, histories of calls, both bit orders", "why_tests_cant": "depends on how codewords of several lengths overlap and on the random order of a hash map", "anchors": ["bitstream/src/codebook.rs:Codebook::new,build_esc_lut,fill_lut_msb,fill_lut_lsb,read_cb"]}
{"id": "C174", "title": "Codebooks of any codewords without overflow checks", "statement": "Also in a build without overflow checks Codebook::new constructs a codebook whichever codewords are prefixes of others, and no history of calls and codeword reads panics, behind the end of the buffer included. Codewords are read as in C173, with the count of available bits wrapping around.", "quantifier": "all descriptions whose codes fit and tables have at most 2^24 entries, orders of hash maps, buffers, histories of calls with documented arguments, both bit orders", "why_tests_cant": "depends on how codewords of several lengths overlap, on the random order of a hash map and on arithmetic that wraps around behind the end", "anchors": ["bitstream/src/codebook.rs:Codebook::new,build_esc_lut,fill_lut_msb,fill_lut_lsb,read_cb"]}
{"id": "C175", "title": "Codebooks of any codewords for any width of usize", "statement": "On every width of usize from 32 bits on a codebook is constructed from any description of fitting codewords, whichever are prefixes of others, given the memory for it. It decodes as in C173 with overflow checks, as long as the bits can be counted, and as in C174 without them, with counts modulo the width.", "quantifier": "all machines of at least 32 bits (of at most 64 without overflow checks), allocators, descriptions whose codes fit and tables have at most 2^24 entries, orders of hash maps, buffers, histories of calls with documented arguments, both bit orders", "why_tests_cant": "tests run on one width of usize, with one order of a hash map and enough memory", "anchors": ["bitstream/src/codebook.rs:Codebook::new,build_esc_lut,resize_table,read_cb"]}
{"id": "C176", "title": "Copies with any implementation of FrameBuffer for any width of usize", "statement": "Whatever the width of usize, copies with an implementation of FrameBuffer that keeps to the documentation end as with the default buffer and give the same bytes; with any implementation, what a build with overflow checks does without panicking every build that is at least as wide does too, and nothing outside the slices is touched if the line sizes reported go with them.", "quantifier": "all implementations, widths of usize, builds with and without overflow checks, pictures, sources, destinations, strides", "why_tests_cant": "needs 32-bit targets and implementations that only users of the crate write", "anchors": ["data/src/frame.rs:FrameBuffer,copy_frame_to_buffer,copy_from_slice,copy_plane", "data/src/pixel.rs:get_width,get_height"]}
{"id": "C177", "title": "Which calls of its source AccReader makes", "statement": "Each call of AccReader makes at most one read of the inner reader and never asks it for zero bytes; only seek seeks it, at most once and only to positions that are not buffered; consume, grow, reset_buffer_position, data and capacity do not call it. How many bytes are asked for is determined by the buffer and the call. Watching the calls changes nothing.", "quantifier": "all inner readers (also lying ones), capacities, states, histories", "why_tests_cant": "the tests do not count the calls of the source", "anchors": ["format/src/buffer/accreader.rs:Read::read,fill_buf,Seek::seek,consume,grow,reset_buffer_position"]}
{"id": "C178", "title": "Reading byte by byte calls the source once per buffer less one byte", "statement": "Over a source that fills what it is given, reading k bytes of it one at a time through a buffer of c >= 2 bytes calls the source k/(c-1) times, rounded up, as long as bytes remain; the last byte always takes a call; with c <= 1 every byte takes a call.", "quantifier": "all sources that fill slices, contents, capacities, numbers of bytes", "why_tests_cant": "the tests do not count the calls of the source", "anchors": ["format/src/buffer/accreader.rs:Read::read,fill_buf,consume"]}
{"id": "C179", "title": "The output of a transcoder is determined by the file it reads", "statement": "A program that reads headers and events, hands the packets to a decoder and the frames to an encoder through their contexts, and writes the packets with a muxer, working on each event before reading the next, writes the bytes that the parser, the codecs and the muxer give on the file as a whole: neither the way reads and writes are cut nor the capacity of the buffer changes the output or any result.", "quantifier": "all sources and outputs that do not fail, incremental parsers, appending muxers, codecs (also panicking ones), programs between demuxer and muxer, numbers of events", "why_tests_cant": "the tests have no program that uses all parts together", "anchors": ["format/src/demuxer.rs:read_headers,read_event", "format/src/muxer.rs:write_header,write_packet,write_trailer", "codec/src/decoder.rs:send_packet,receive_frame,flush", "codec/src/encoder.rs:send_frame,receive_packet,flush"]}
{"id": "C180", "title": "fill_buf calls the source only when nothing is buffered", "statement": "While AccReader holds bytes that were not consumed, fill_buf returns them without calling the source, as the documentation of BufRead says.", "quantifier": "all sources, capacities, states", "why_tests_cant": "the tests do not count the calls of the source", "anchors": ["format/src/buffer/accreader.rs:fill_buf"]}
{"id": "C181", "title": "Demuxing reads its source once per unmet request", "statement": "Over any sequence of read_event calls with a demuxer that decides from the buffered bytes and moves within them, the source is read exactly once for each request that exceeds what is buffered, asking for all free room of the enlarged buffer, and is never sought. With a source that fills what it is given, reading events up to its end takes at most length / (capacity + 1) + 1 reads. read_headers reads the source at most once per call of the demuxer and once more, and seeks it at most once, only when it succeeds.", "quantifier": "all parsers, sources, capacities, numbers of calls", "why_tests_cant": "the tests do not count the calls of the source", "anchors": ["format/src/demuxer.rs:read_event", "format/src/demuxer.rs:read_headers", "format/src/buffer/accreader.rs:fill_buf"]}
{"id": "C182", "title": "The buffer stays bounded when the source is fast", "statement": "When every read of the source fills the slice it is given, demuxing keeps the buffer of AccReader within a constant factor of its capacity plus the largest request, however long the source is.", "quantifier": "all parsers, sources that fill what they are given, capacities, numbers of calls", "why_tests_cant": "the tests do not look at the size of the buffer after many events", "anchors": ["format/src/demuxer.rs:read_event", "format/src/buffer/accreader.rs:grow"]}
{"id": "C183", "title": "Accessors report what was read and written", "statement": "After any legal calls current_slice and data of AccReader are the same bytes of the source, capacity() many, from the position of the reader to that of the inner reader; AccReader::new asks for 4096 bytes at first; after any calls on a muxing Context, failed ones included, the number in as_ref of its writer is the number of bytes that reached the output.", "quantifier": "all sources, histories of calls, muxers that append, outputs and their failures", "why_tests_cant": "the tests read position and buffer after a few fixed calls that succeed", "anchors": ["format/src/buffer/accreader.rs:current_slice", "format/src/buffer/accreader.rs:capacity", "format/src/muxer.rs:as_ref", "format/src/muxer.rs:into_writer"]}
{"id": "C184", "title": "Writer adds a position and nothing else", "statement": "Over any output, however it fails, calls of write, write_all, flush and seek on Writer return what the same calls on the output return and leave it as they do; each call reaches the output once, unchanged and in order, with no call in between; the position is where the last successful seek led plus the bytes accepted since.", "quantifier": "all outputs and their failures, histories of calls", "why_tests_cant": "the tests write to a cursor, which neither fails nor counts its calls", "anchors": ["format/src/muxer.rs:write", "format/src/muxer.rs:flush", "format/src/muxer.rs:seek", "format/src/muxer.rs:position"]}
{"id": "C185", "title": "A muxing Context adds a flush and nothing else", "statement": "For any muxer, whatever it writes, seeks and asks of its writer, over any output and any calls on the Context: results, output, position of the writer and state of the muxer are those of the methods of the muxer run on the output itself, with one flush after each trailer that succeeded, whose error becomes the result; panics included.", "quantifier": "all muxers, outputs and their failures, histories of calls", "why_tests_cant": "the tests use one muxer that only appends to a cursor", "anchors": ["format/src/muxer.rs:write_header", "format/src/muxer.rs:write_packet", "format/src/muxer.rs:write_trailer", "format/src/muxer.rs:configure", "format/src/muxer.rs:set_option"]}
{"id": "C186", "title": "Demuxers may read for themselves", "statement": "With a demuxer that reads its input itself (read_exact, absolute seeks, stream_position) and never asks for more data, read_headers and any number of read_event calls return exactly what the demuxer makes of the bytes of the source, with one call of the demuxer each, however the source cuts its reads and whatever the capacity; afterwards the reader is where the demuxer told the context to go on.", "quantifier": "all such demuxers, sources, capacities, numbers of calls", "why_tests_cant": "the tests use one demuxer that only looks at the buffered bytes", "anchors": ["format/src/demuxer.rs:read_headers", "format/src/demuxer.rs:read_event", "format/src/buffer/accreader.rs:read", "format/src/buffer/accreader.rs:seek"]}
{"id": "C187", "title": "Coded messages survive a file", "statement": "Messages encoded with a prefix code, written as packet data by any muxer through the muxing Context and Writer to any output, read back through AccReader and the demuxing Context from any source of those bytes, and decoded packet by packet with BitReader and Codebook are the messages that were sent, in order.", "quantifier": "all prefix codes, messages, pairs of muxer and parser, outputs, sources, capacities, hash orders", "why_tests_cant": "the tests of the crates never meet", "anchors": ["bitstream/src/codebook.rs:read_cb", "bitstream/src/bitread.rs:new", "format/src/muxer.rs:write_packet", "format/src/demuxer.rs:read_event"]}
{"id": "C188", "title": "Complete codes never reject a bit string", "statement": "If the lengths of the codewords of a prefix-free description satisfy the Kraft equality (the sum of 2^-bits over the used entries is 1), read_cb succeeds on any bytes whatever as long as the longest codeword would fit in front of the last 8 bytes, and the decoded codewords, one after the other, are the bits of the buffer; if the sum is less than 1 there is a buffer on which the first read fails with InvalidCode; it is never more than 1.", "quantifier": "all prefix-free descriptions, both modes, all buffers below 2^32 bits, hash orders, histories of calls", "why_tests_cant": "the tests decode encoded messages, not arbitrary bytes", "anchors": ["bitstream/src/codebook.rs:read_cb", "bitstream/src/codebook.rs:new"]}
{"id": "C189", "title": "What becomes of long codewords without overflow checks", "statement": "Built without overflow checks, a codebook for MSB codewords of any length up to 255 bits is constructed without a panic and decodes, in every history of calls, exactly the words that result from shifting by amounts modulo 32 ten bits at a time, provided these are prefix-free and each code is small enough; up to 41 bits they are the codewords, from 42 to 73 bits the 32 leading zeros of the codeword have moved behind the last full group of ten of its other bits. A code that is too large panics if it is the first of more than ten bits.", "quantifier": "all descriptions with codes that fit, hash orders, buffers, histories of calls", "why_tests_cant": "the tests have no codeword above 16 bits and run with overflow checks", "anchors": ["bitstream/src/codebook.rs:new", "bitstream/src/codebook.rs:read_cb", "bitstream/src/codebook.rs:extract_lut_part", "bitstream/src/codebook.rs:extract_esc_part"]}
{"id": "C190", "title": "Exact reads over sources that fail", "statement": "read_exact on an AccReader over a source that may fail, after any history, returns the next n bytes and stands behind them; or UnexpectedEof if the source has fewer; or an error other than Interrupted that the source reported. It makes no more than n calls unless the source was interrupted, and returns nothing else.", "quantifier": "all sources, failures, capacities, histories of calls, lengths", "why_tests_cant": "the tests use in-memory sources that never fail", "anchors": ["format/src/buffer/accreader.rs:read", "format/src/buffer/accreader.rs:fill_buf"]}
{"id": "C191", "title": "Code lengths are enough to build a codebook", "statement": "A list of code lengths of at most 32 bits has a prefix code if and only if its Kraft sum (2^-l over the lengths that are not 0) is at most 1; the canonical codewords of RFC 1951, computed from the lengths alone, are then a description from which new() builds a codebook in either mode, and every message of symbols that have a codeword is read back by read_cb in exactly as many bits as were written; if the sum is 1 the code is complete.", "quantifier": "all lists of lengths up to 32 with few enough symbols, both modes, hash orders, messages below 2^32 bits", "why_tests_cant": "the tests build codebooks from hand-written codewords only", "anchors": ["bitstream/src/codebook.rs:new", "bitstream/src/codebook.rs:read_cb"]}
{"id": "C192", "title": "Table decoding is bit-by-bit decoding", "statement": "With a codebook made from code lengths (canonical codewords), read_cb on any bytes and after any history of calls gives the symbol that the usual bit-by-bit decoder finds (puff.c: keep the first code of each length, compare), uses as many bits, and fails with InvalidCode exactly when that decoder finds nothing, as long as the longest codeword would fit in front of the last 8 bytes.", "quantifier": "all lists of lengths up to 32 with a Kraft sum of at most 1 and few enough symbols, both modes, hash orders, buffers below 2^32 bits, histories of calls", "why_tests_cant": "the tests compare with expected symbols for a few inputs, not with another decoder on arbitrary bytes", "anchors": ["bitstream/src/codebook.rs:new", "bitstream/src/codebook.rs:read_cb"]}
{"id": "C193", "title": "The two bit orders mirror each other", "statement": "If the bits of every byte of a buffer are turned around, BitReadLE on it behaves as BitReadBE on the original (and conversely) in every sequence of calls with documented arguments, reads past the end and far skips included: same panics, same positions, and every number read has its bits in the opposite order. If the codewords of a description are turned around too, the codebook of the other mode can be built and decodes the same symbols with the same errors in every history.", "quantifier": "all buffers, all sequences of calls, both directions, all valid prefix-free descriptions, hash orders", "why_tests_cant": "the tests of the two readers are separate and use unrelated buffers", "anchors": ["bitstream/src/bitread.rs:get_bits_32", "bitstream/src/bitread.rs:skip_bits", "bitstream/src/codebook.rs:new", "bitstream/src/codebook.rs:read_cb"]}
{"id": "C194", "title": "Only the words of a description matter", "statement": "Two descriptions that have the same codewords, in any order, with any unused entries and with symbols renamed by a function (symbols may coincide and be of another type), give codebooks that behave the same in every history of calls: same errors and panics, same positions, and symbols renamed by that function.", "quantifier": "all valid descriptions, both modes and readers, all buffers, hash orders, histories of calls", "why_tests_cant": "the tests use each description in one order", "anchors": ["bitstream/src/codebook.rs:new", "bitstream/src/codebook.rs:read_cb"]}
{"id": "C195", "title": "Bit readers and byte getters agree", "statement": "A bit reader that stands at the start of a byte, after whatever calls brought it there, reads with get_bits_32 or get_bits_64 the same 8, 16, 32 or 64 bit number as the byte getter of its byte order at that offset; a record of such fields written with the byte putters is read back field by field, and the bytes behind it do not change.", "quantifier": "both byte orders, all buffers, histories of calls, field sizes and values, up to 8 bytes before the end", "why_tests_cant": "byte getters, putters and bit readers are tested separately", "anchors": ["bitstream/src/bitread.rs:get_bits_32", "bitstream/src/bitread.rs:get_bits_64", "bitstream/src/byteread.rs:get_u32l", "bitstream/src/bytewrite.rs:put_u32l"]}
{"id": "C196", "title": "Reading on is like starting later", "statement": "A bit reader that has come to a byte boundary, by whatever calls and codewords, gives from there on the same answers as a new reader of the remaining bytes: same bits, symbols and available(), while consumed() differs by the bits in front.", "quantifier": "both modes, all valid descriptions, hash orders, buffers below 2^32 bits, histories of calls before and after, up to 8 bytes before the end", "why_tests_cant": "the tests start every reader at the start of its buffer", "anchors": ["bitstream/src/bitread.rs:new", "bitstream/src/bitread.rs:align_bits", "bitstream/src/bitread.rs:consumed", "bitstream/src/codebook.rs:read_cb"]}
{"id": "C197", "title": "A loop over codewords ends", "statement": "A loop that reads codewords until read_cb fails ends, after at most as many symbols as available() counted bits.", "quantifier": "all valid descriptions, both modes and readers, hash orders, buffers, histories of calls before the loop", "why_tests_cant": "the tests read a known number of codewords", "anchors": ["bitstream/src/codebook.rs:read_cb", "bitstream/src/bitread.rs:available", "bitstream/src/bitread.rs:skip_bits"]}
{"id": "C198", "title": "Counting equal bits ends", "statement": "A loop that reads bits while they equal a given one, as for a unary code, ends and has counted the run of such bits at the position of the reader, which then stands behind the bit that ended it.", "quantifier": "both byte orders, both bits, all buffers, histories of calls before the loop", "why_tests_cant": "the tests read a known number of bits", "anchors": ["bitstream/src/bitread.rs:get_bit", "bitstream/src/bitread.rs:available", "bitstream/src/bitread.rs:consumed"]}
