{"id": "C01", "title": "Unsigned bit fields round-trip", "statement": "Writing an unsigned value with bitio::write_uint in a field of n bits appends exactly the n-bit big-endian binary representation of value mod 2^n to the bit stream, reports n bits, and read_uint of n bits at the same place returns value mod 2^n (the value itself when it fits) and consumes exactly n bits.", "quantifier": "every value of every unsigned width 8/16/32/64, every field width 1..width, every alignment of the bit cursor and every surrounding stream content", "why_tests_cant": "2^64 values x 64 widths x 8 alignments x arbitrary preceding and following bits cannot be enumerated", "anchors": ["include/shiguredo/mp4/bitio/bitio.hpp:write_uint", "include/shiguredo/mp4/bitio/bitio.hpp:read_uint", "src/bitio/writer.cpp:writeBits", "src/bitio/reader.cpp:readBits"]}
{"id": "C02", "title": "Signed bit fields round-trip", "statement": "Writing a signed value that fits in n bits with write_int and reading it back with read_int of n bits yields the same value including its sign, and both report n bits; the bits written are the two's-complement representation.", "quantifier": "every signed value in [-2^(n-1), 2^(n-1)) for every n in 1..width, every alignment, every surrounding content", "why_tests_cant": "sign extension and the special handling of the first octet have corner cases at every width; the value space is 2^64", "anchors": ["include/shiguredo/mp4/bitio/bitio.hpp:write_int", "include/shiguredo/mp4/bitio/bitio.hpp:read_int"]}
{"id": "C03", "title": "The bit writer is append-only and packs MSB first", "statement": "Whatever sequence of bit writes is performed, the octets emitted to the output stream together with the pending partial octet are exactly the concatenation, most significant bit first, of all bits written so far; nothing already emitted is altered.", "quantifier": "every finite sequence of writeBit/writeBits operations and every initial stream", "why_tests_cant": "holds for histories of arbitrary length", "anchors": ["src/bitio/writer.cpp:Writer::writeBit", "src/bitio/writer.cpp:Writer::writeBits"]}
{"id": "C04", "title": "The bit reader never fabricates data and fails at end of input", "statement": "Reading n bits succeeds only if at least n bits remain and then returns precisely the next n bits; if fewer remain the read raises an error (never returns a short or invented value).", "quantifier": "every input, every cursor position, every n", "why_tests_cant": "all truncation points of all inputs", "anchors": ["src/bitio/reader.cpp:Reader::readBit", "src/bitio/reader.cpp:Reader::readBits"]}
{"id": "C05", "title": "Whole-octet access needs octet alignment", "statement": "Reader::read, Writer::write and a relative seek are refused with an invalid_argument error whenever the bit cursor is not on an octet boundary, and otherwise transfer exactly the requested octets.", "quantifier": "every reader/writer state and every requested length", "why_tests_cant": "all partial-octet states", "anchors": ["src/bitio/reader.cpp:Reader::read", "src/bitio/reader.cpp:Reader::seek", "src/bitio/writer.cpp:Writer::write"]}
{"id": "C06", "title": "Variable-length descriptor sizes round-trip below 2^28", "statement": "write_uvarint of a 32-bit length emits exactly 4 octets of seven bits each, most significant first, all but the last marked with 0x80, and read_uvarint returns the same length, for every length below 2^28; lengths of 2^28 or more do not survive. A length written in any number of octets is read modulo 2^32; an input that ends before an unmarked octet raises runtime_error.", "quantifier": "all 32-bit lengths", "why_tests_cant": "2^32 values; the failing boundary is what matters", "anchors": ["include/shiguredo/mp4/bitio/bitio.hpp:write_uvarint", "include/shiguredo/mp4/bitio/bitio.hpp:read_uvarint"]}
{"id": "C07", "title": "Strings round-trip", "statement": "A NUL-free string written with write_string is read back exactly by read_string with any bound that covers it, consuming the terminator and nothing after; a string of at most 255 octets written as a Pascal string is read back when the bound is exactly its encoding, and write_pascal_string refuses longer ones.", "quantifier": "every byte string, every bound, every following content", "why_tests_cant": "arbitrary contents and lengths; ambiguity between C and Pascal strings depends on content", "anchors": ["src/bitio/bitio.cpp:write_string", "src/bitio/bitio.cpp:read_string", "src/bitio/bitio.cpp:write_pascal_string", "src/bitio/bitio.cpp:read_pascal_string"]}
{"id": "C08", "title": "Big-endian conversion is a bijection", "statement": "uint32_to_be/uint64_to_be followed by be_to_uint32/be_to_uint64 is the identity, and conversely on octet arrays; the most significant octet comes first.", "quantifier": "all 2^32 and 2^64 values", "why_tests_cant": "value space too large", "anchors": ["src/endian/endian.cpp"]}
{"id": "C09", "title": "Box payload round-trip", "statement": "For every supported box type and every representable field assignment, serialising the box payload and parsing the produced octets with a freshly constructed box of the same type yields the same field values.", "quantifier": "every box type in the registry and every field assignment that fits the on-disk widths, including every table length and version/flag variant", "why_tests_cant": "unbounded tables, 60 box types, all flag/version combinations", "anchors": ["src/box/*.cpp:writeData", "src/box/*.cpp:readData"]}
{"id": "C10", "title": "Announced payload size equals octets written", "statement": "For every box, getDataSize() equals the number of octets writeData emits, i.e. the returned bit count is 8*getDataSize() and is a whole number of octets; parents therefore compute correct child offsets.", "quantifier": "every box type and every field assignment", "why_tests_cant": "a size formula per box, version and flag combination; one wrong formula corrupts the whole file", "anchors": ["src/box/*.cpp:getDataSize", "src/box/*.cpp:writeData"]}
{"id": "C11", "title": "Reported bits read equal bits consumed", "statement": "For every box payload produced by the library, the count returned by readData equals the number of bits actually taken from the payload, so the reader resumes at the right octet to look for children.", "quantifier": "every box type, every field assignment", "why_tests_cant": "the file reader seeks using this number; all contents", "anchors": ["src/box/*.cpp:readData", "src/reader/reader.cpp:SimpleReader::readBox"]}
{"id": "C12", "title": "Out-of-range counts and values are silently truncated only where the format forces it", "statement": "The set of boxes that survive writeData followed by readData is known exactly: a box comes back unchanged with the same bit count if and only if its members are representable (the listed truncations, refusals and misreadings - more than 31 SPS, composition offsets beyond 32 bits, hdlr padding, a fixed sample size, ... - are the only failures).", "quantifier": "all field assignments outside the round-trip domain", "why_tests_cant": "needs the boundary, not samples", "anchors": ["src/box/avc.cpp", "src/box/ctts.cpp", "src/box/elst.cpp", "src/box/stsz.cpp", "src/box/hdlr.cpp", "src/box/iods.cpp", "src/box/esds.cpp"]}
{"id": "C13", "title": "Full-box flags behave as a 24-bit set", "statement": "setFlags/getFlags agree modulo 2^24; after addFlag(f) every bit of f is set and others unchanged; removeFlag(f) toggles the bits of f and leaves others unchanged, hence it clears f exactly when all bits of f were set; version is independent of flags.", "quantifier": "all 24-bit flag words and masks", "why_tests_cant": "2^48 combinations", "anchors": ["src/box.cpp:FullBox::addFlag", "src/box.cpp:FullBox::removeFlag", "src/box.cpp:FullBox::checkFlag"]}
{"id": "C14", "title": "Box header round-trip", "statement": "A header written for any payload size is read back with the same type, total size and header length; the 16-octet form is used exactly when the total size does not fit in 32 bits.", "quantifier": "all 64-bit sizes and all types", "why_tests_cant": "sizes above 4 GiB cannot be exercised by ordinary tests", "anchors": ["src/box_header.cpp:BoxHeader::write", "src/box_header.cpp:read_box_header", "src/box_header.cpp:BoxHeader::setOffsetAndDataSize"]}
{"id": "C15", "title": "Malformed headers are rejected", "statement": "read_box_header raises invalid_argument when fewer than 8 octets remain, or fewer than 16 when the 64-bit size is announced, and otherwise never reads beyond the end of input.", "quantifier": "every input and offset", "why_tests_cant": "every truncation", "anchors": ["src/box_header.cpp:read_box_header"]}
{"id": "C16", "title": "Layout of a box tree", "statement": "After adjustOffsetAndSize on any tree, the size of each box equals its header plus payload plus the sizes of its children, the children are contiguous and start right after the payload, and nothing overlaps.", "quantifier": "every tree of boxes of any shape, depth and payload sizes, every start offset", "why_tests_cant": "arbitrary trees; the header of a parent may widen to 16 octets as the children grow", "anchors": ["src/box_info.cpp:BoxInfo::adjustOffsetAndSize"]}
{"id": "C17", "title": "Tree serialisation writes exactly the announced region", "statement": "Writing a laid-out tree puts, at the tree's offset, exactly the concatenation of headers, payloads and children in pre-order, its length equals the announced size, and no octet outside that region changes.", "quantifier": "every tree, every offset and every prior content of the output", "why_tests_cant": "arbitrary trees and prior file contents", "anchors": ["src/box_info.cpp:BoxInfo::write", "src/box.cpp:Box::write"]}
{"id": "C18", "title": "Reading back a written file yields the same tree", "statement": "SimpleReader applied to the serialisation of any forest of well-formed boxes yields the same forest: same types, nesting, field values and sizes.", "quantifier": "every forest of well-formed boxes", "why_tests_cant": "unbounded nesting and tables", "anchors": ["src/reader/reader.cpp:SimpleReader::read", "src/reader/reader.cpp:SimpleReader::readBox", "src/box_map.cpp"]}
{"id": "C19", "title": "The file reader terminates on every input", "statement": "For every octet sequence SimpleReader::read returns or raises an error after boundedly many steps; it never loops forever.", "quantifier": "every input file, including hostile ones", "why_tests_cant": "non-termination cannot be observed by testing; zero-size and 64-bit-wrapping headers", "anchors": ["src/reader/reader.cpp"]}
{"id": "C20", "title": "Boxes larger than the input are rejected", "statement": "If a box announces more data than remains in the file the reader raises runtime_error before allocating or reading it.", "quantifier": "every input and announced size", "why_tests_cant": "2^64 sizes", "anchors": ["src/reader/reader.cpp:SimpleReader::readBox"]}
{"id": "C21", "title": "Unknown boxes are preserved", "statement": "A box whose type is not registered is kept as an opaque payload and is re-serialised to the identical octets.", "quantifier": "every unregistered type and payload", "why_tests_cant": "all 2^32 types", "anchors": ["src/box_map.cpp", "src/box/unsupported.cpp"]}
{"id": "C22", "title": "Box type matching and version support", "statement": "BoxType from a string accepts exactly 4-character strings; matching treats only 0x00000000 as wildcard; the registry finds a box exactly for registered types and isSupportedVersion accepts exactly the listed versions (any if the list is empty).", "quantifier": "all strings, types and versions", "why_tests_cant": "all 2^32 types", "anchors": ["src/box_type.cpp", "src/box_map.cpp", "src/box_types.cpp"]}
{"id": "C23", "title": "Run-length encoded durations expand to the recorded durations", "statement": "Expanding the time-to-sample table of a track gives exactly the per-sample durations in order; the sum of counts is the number of samples; adjacent entries differ.", "quantifier": "every sequence of sample durations", "why_tests_cant": "arbitrary sequences", "anchors": ["src/track/track.cpp:make_stts_entries"]}
{"id": "C24", "title": "Sample-to-chunk table expands to the recorded chunks", "statement": "Expanding the sample-to-chunk table with the number of chunks gives exactly the samples-per-chunk of every chunk in order, chunk numbers start at 1 and strictly increase.", "quantifier": "every sequence of chunks", "why_tests_cant": "arbitrary sequences", "anchors": ["src/track/track.cpp:make_stsc_entries"]}
{"id": "C25", "title": "Chunk offset table keeps full offsets", "statement": "The chunk offset table of a finished track contains every chunk offset unchanged; 64-bit entries are used exactly when needed.", "quantifier": "every list of non-decreasing chunk offsets", "why_tests_cant": "offsets above 4 GiB", "anchors": ["src/track/track.cpp:make_offset_box"]}
{"id": "C26", "title": "Sync sample table", "statement": "For a video track the sync sample table lists exactly the 1-based numbers of the samples added as key frames, strictly increasing; audio tracks have none.", "quantifier": "every sequence of added samples", "why_tests_cant": "arbitrary sequences", "anchors": ["src/track/track.cpp:addMdatData"]}
{"id": "C27", "title": "Sample durations sum up to the track duration", "statement": "After finalisation the sample durations sum to the track duration in its timescale minus the first timestamp (mod 2^32), each being the difference of successive timestamps.", "quantifier": "every sequence of timestamps", "why_tests_cant": "arbitrary sequences; wrap-around when the announced duration is shorter than the last timestamp", "anchors": ["src/track/track.cpp:addMdatData", "src/track/track.cpp:finalize"]}
{"id": "C28", "title": "Every sample can be found again (SimpleWriter)", "statement": "In the file produced by SimpleWriter from any sequence of samples of any tracks (ending the chunk on every track switch), resolving any sample of any track through the stsc/stsz/stco(co64) tables gives an offset and size at which the output contains exactly the octets of that sample.", "quantifier": "every number of tracks, every interleaving, every sample size and content", "why_tests_cant": "arbitrary histories", "anchors": ["src/writer/simple_writer.cpp", "src/track/track.cpp"]}
{"id": "C29", "title": "Every sample can be found again (FaststartWriter)", "statement": "Same for FaststartWriter, where the moov box precedes the media data and all chunk offsets are shifted.", "quantifier": "every number of tracks, every interleaving, every sample size and content", "why_tests_cant": "arbitrary histories; fixpoint of moov size and offsets", "anchors": ["src/writer/faststart_writer.cpp"]}
{"id": "C30", "title": "The faststart layout loop terminates", "statement": "The loop that recomputes moov until its size is stable ends and does not report a shrink for any track contents; at exit the offsets used equal the actual start of the media data.", "quantifier": "every track contents", "why_tests_cant": "stco/co64 switch near 4 GiB cannot be tested", "anchors": ["src/writer/faststart_writer.cpp:appendTrakAndUdtaBoxInfo"]}
{"id": "C31", "title": "Finished files are tiled by boxes", "statement": "The file produced by either writer, from any history, is exactly ftyp, (free,) mdat and moov laid end to end with no gap or overlap, mdat's payload being exactly the sample octets in order of insertion.", "quantifier": "every history", "why_tests_cant": "sizes above 4 GiB, arbitrary histories", "anchors": ["src/writer/simple_writer.cpp:writeFreeBoxAndMdatHeader", "src/writer/faststart_writer.cpp:writeMdatHeader"]}
{"id": "C32", "title": "mdat header switches to 64-bit sizes exactly when required", "statement": "The reserved 16 octets before the media data hold free+mdat 8-octet headers if the media data fits a 32-bit box and one 16-octet mdat header otherwise; in both cases the media data starts at the same offset.", "quantifier": "every media data size", "why_tests_cant": "4 GiB boundary", "anchors": ["src/writer/simple_writer.cpp:writeFreeBoxAndMdatHeader", "src/writer/faststart_writer.cpp"]}
{"id": "C33", "title": "Media data is copied verbatim", "statement": "copyMdatData appends the whole intermediate file to the output unchanged regardless of its length relative to the copy buffer.", "quantifier": "every media data length and content", "why_tests_cant": "all lengths relative to 1 MiB buffer", "anchors": ["src/writer/faststart_writer.cpp:copyMdatData"]}
{"id": "C34", "title": "Track identifiers are unique and non-zero", "statement": "Track IDs handed out by a writer are 1,2,3,... pairwise distinct, never 0 until 2^32-1 have been issued, and mvhd's next_track_ID exceeds them all.", "quantifier": "every number of requests", "why_tests_cant": "wrap at 2^32", "anchors": ["src/writer/writer.cpp:getAndUpdateNextTrackID"]}
{"id": "C35", "title": "H.264 Annex-B splitting", "statement": "Feeding any access unit made of NAL units separated by 3- or 4-octet start codes to the H.264 track stores each slice NAL as a 4-octet length-prefixed sample with identical octets, records SPS/PPS octets exactly, and ignores SEI.", "quantifier": "every list of NAL units without embedded start codes, any mix of start codes", "why_tests_cant": "arbitrary bytes; the scanner's look-ahead window creates content-dependent corner cases", "anchors": ["src/track/h264.cpp:addData", "src/track/h264.cpp:find_next_nal_unit"]}
{"id": "C36", "title": "H.264 scanning is memory-safe and terminates", "statement": "On every input octet sequence and length the scanner reads only inside the buffer and terminates (returning or raising).", "quantifier": "every octet sequence", "why_tests_cant": "all malformed inputs", "anchors": ["src/track/h264.cpp"]}
{"id": "C37", "title": "ISO-639 language codes round-trip", "statement": "decode of encode is the identity for every three-letter code of octets 0x60..0x7f and the packed value fits in 15 bits; conversely encode of decode for each 15-bit value.", "quantifier": "all language codes / all 15-bit values", "why_tests_cant": "finite but the boundary outside the range matters", "anchors": ["src/box/mdhd.cpp"]}
{"id": "C38", "title": "Epoch conversion", "statement": "convert_to_epoch_19040101 adds exactly 2082844800 seconds to a Unix time and is injective; the formatted form of any such time of a 32-bit Unix second is that calendar second.", "quantifier": "all 64-bit times", "why_tests_cant": "64-bit range; sentinel boundary", "anchors": ["src/time/time.cpp"]}
{"id": "C39", "title": "Descriptor nesting sizes in esds", "statement": "For any ES descriptor with any sub-descriptors the length written in every descriptor header equals the number of octets of its body including nested descriptors, and the reader recovers the same descriptors.", "quantifier": "every descriptor list and every payload below the 2^28 limit", "why_tests_cant": "nested sizes of arbitrary payloads", "anchors": ["src/box/esds.cpp"]}
{"id": "C40", "title": "A track writes all samples it was given, in order", "statement": "The number and sizes in the sample size table equal the samples added, in order, and the media data is their concatenation when only one track writes.", "quantifier": "every history", "why_tests_cant": "arbitrary histories", "anchors": ["src/track/track.cpp:addMdatData", "src/box/stsz.cpp"]}
{"id": "C41", "title": "trak tree announces what was recorded", "statement": "The tree appended for a track contains exactly one stsd, stts, stsc, stsz and one of stco/co64 in its sample table, with the entries of the recorded track, the track's ID in tkhd, and stss exactly for video; track ID 0 is refused.", "quantifier": "every track state of every codec", "why_tests_cant": "all states", "anchors": ["src/track/aac.cpp", "src/track/opus.cpp", "src/track/mp3.cpp", "src/track/h264.cpp", "src/track/vpx.cpp", "src/track/av1.cpp", "src/track/track.cpp"]}
{"id": "C42", "title": "Reading arbitrary payloads never reads out of bounds", "statement": "For every octet sequence given as the payload of any box type, parsing returns or raises; it never accesses memory outside the payload nor depends on uninitialised memory.", "quantifier": "every box type and every octet sequence", "why_tests_cant": "all malformed inputs", "anchors": ["src/box/*.cpp:readData"]}
{"id": "C43", "title": "Printed box types are unambiguous", "statement": "BoxType::toString shows a type of printable ASCII characters and copyright signs as these characters (in UTF-8), and any other as 0x and its eight hexadecimal digits; different 4-octet types give different strings.", "quantifier": "every pair of 4-octet box types", "why_tests_cant": "2^64 pairs", "anchors": ["src/box_type.cpp:BoxType::toString"]}
{"id": "C44", "title": "The reader only reports what is in the file", "statement": "Whenever SimpleReader::read succeeds on an octet sequence, every box it reports (type, offset, sizes, nesting) corresponds to a box header at that offset of the input and its fields are those parsed from the octets there; at most length/8 boxes are reported.", "quantifier": "every octet sequence", "why_tests_cant": "all inputs, including malformed ones", "anchors": ["src/reader/reader.cpp", "src/box_header.cpp:read_box_header"]}
{"id": "C45", "title": "Codec configuration in finished files", "statement": "In the file of either writer, the only sample entry of every track announces its codec and carries its complete configuration: for AAC/MP3 object type, buffer size and bit rates, AudioSpecificConfig and SLConfig, for Opus the pre-skip and 48 kHz stereo, for VP8/VP9/AV1/H.264 the picture size, for VP8/VP9 the vpcC fields, for AV1 the sequence header fields and configOBUs, for H.264 exactly the parameter sets received by addData in order, 4-octet NAL lengths and profile/level of the first SPS.", "quantifier": "every session of calls, codec and choice of tracks", "why_tests_cant": "all histories", "anchors": ["src/track/*.cpp:makeStsdBoxInfo", "src/track/h264.cpp"]}
{"id": "C46", "title": "Track headers in finished files", "statement": "In the file of either writer tkhd, elst, mdhd and hdlr of every track carry the identifier, times, durations, timescale and handler of the constructor call, the unity matrix, one edit at normal speed covering the whole track and starting at the last media time set.", "quantifier": "every session of calls, codec and choice of tracks", "why_tests_cant": "all histories", "anchors": ["src/track/vide.cpp:VideTrack::makeTkhdBoxInfo", "src/track/track.cpp:makeEdtsBoxInfo", "src/track/track.cpp:makeMdhdBoxInfo"]}
{"id": "C47", "title": "A finished file reads back", "statement": "Whatever session of calls produced it, the file finished by SimpleWriter or FaststartWriter is accepted by the library's own reader; the reader returns exactly the boxes the writer wrote, laid out one after the other and covering the whole file; resolving the sample tables of the boxes read yields, for every chosen track, every added sample with its octets, duration and sync flag; and the codec configuration read is the one the tracks were given.", "quantifier": "every session of calls (any number of tracks, codecs, samples, order), every ftyp, timescale, duration and time stamp that fits its field, both writers, both stream kinds", "why_tests_cant": "it composes writer, serialiser, header layout, parser and sample tables over every history of calls", "anchors": ["src/writer/simple_writer.cpp", "src/writer/faststart_writer.cpp", "src/reader/reader.cpp", "src/track/*.cpp"]}
{"id": "C48", "title": "A file read successfully is tiled exactly by its boxes", "statement": "When reading a file (or stream) succeeds, the boxes reported tile it exactly: top-level boxes follow each other from the first octet to the last; in every box, header, parsed payload and children are contiguous and fill the announced size. Hence a file with a child reaching beyond its parent, trailing bytes, or unparsed payload bytes is refused. With the file-stream reader, files containing an iods/esds/avcC box or an unversioned 'alst' sgpd (whose reported read sizes are wrong) are excluded.", "quantifier": "every byte string shorter than 2^63", "why_tests_cant": "all inputs, any nesting depth", "anchors": ["src/reader/reader.cpp:SimpleReader::readBox", "src/box_info.cpp:BoxInfo::addLeaf", "src/box_info.cpp:BoxInfo::getSize"]}
{"id": "C49", "title": "Parse then write is the identity", "statement": "Whatever octets a box payload or a whole file consists of, if they are read successfully then writing the unmodified objects produces the same octets, except for the enumerated lossy boxes (descriptors of iods/esds, meta flags, fixed-size stsz, Pascal handler names, unterminated strings, audio entries under wave).", "quantifier": "all payload octets of every box class; all files of any length and nesting, for both stream kinds", "why_tests_cant": "the canonical form has to hold for every accepted input, including headers of every form (32-bit, 64-bit, to end of file) at any nesting depth", "anchors": ["src/reader/reader.cpp", "src/box_info.cpp", "src/box_header.cpp", "src/box/*.cpp"]}
{"id": "C50", "title": "Media information of finished files", "statement": "In the file of either writer every track has the media header of its handler (vmhd with flags 1 for video, smhd for audio), a single data reference saying that the media data are in the same file, exactly one sample description, and, for AAC (-1) and Opus (the given distance) only, one roll group that contains all samples of the track.", "quantifier": "every session of calls, codec and choice of tracks", "why_tests_cant": "the number of samples in the group follows the whole history of calls", "anchors": ["src/track/soun.cpp:makeSmhdBoxInfo", "src/track/vide.cpp:makeVmhdBoxInfo", "src/track/track.cpp:makeDinfBoxInfo", "src/track/aac.cpp:makeSbgpBoxInfo", "src/track/opus.cpp:makeSgpdBoxInfo"]}
{"id": "C51", "title": "Printing and times without a date", "statement": "A box can be printed exactly when its creation and modification times have dates; a tree of writable boxes can be written, and a parsed file read, exactly when that holds for every box in it (writing prints to the trace log, reading prints the boxes); every reading of the system clock has a date.", "quantifier": "every box with 64-bit times, every laid-out tree and stream, every file, every 64-bit clock reading", "why_tests_cant": "the boundary lies at times of 2^63 and at the year limits of struct tm, in any box at any depth", "anchors": ["src/time/time.cpp:format_epoch_19040101", "src/box.cpp:Box::toString", "src/box_info.cpp:BoxInfo::write", "src/reader/reader.cpp:SimpleReader::read", "src/writer/simple_writer.cpp:SimpleWriter"]}
{"id": "C52", "title": "The dump lists every box once, in file order", "statement": "The text printed by SimpleReader::read is one line per box of the file, a box before the boxes it contains, in file order, indented by two spaces per enclosing box, each line with the type, offset, size and members of the box.", "quantifier": "all files of any length and nesting, both stream kinds", "why_tests_cant": "must hold for every tree shape and depth", "anchors": ["src/reader/reader.cpp:SimpleReader::read", "src/box_info.cpp:BoxInfo::toString", "src/box.cpp:Box::toString", "src/box_header.cpp:BoxHeader::toString"]}
{"id": "C53", "title": "The dump tells boxes apart", "statement": "Two well-formed boxes of the same class that print the same text are equal, up to the enumerated members the text leaves out (reserved fields) and except for the enumerated classes with rounded numbers or free strings; two lines of the same type agree only when offset and size agree.", "quantifier": "all pairs of well-formed boxes of 38 classes, all headers", "why_tests_cant": "injectivity ranges over all pairs of values, including all list lengths and conditional members", "anchors": ["src/box/*.cpp:toStringOnlyData", "src/box.cpp:FullBox::getVersionAndFlagsString", "src/box_header.cpp:BoxHeader::toString"]}
{"id": "C54", "title": "Durations in seconds are announced in ticks", "statement": "The movie, track and media headers of a finished file announce the durations passed to the constructors as float seconds, in their timescales, within a relative error of 2^-22 and one tick of truncation; whole numbers of ticks of up to 24 significant bits exactly; a longer duration never as a shorter one; and the durations of the samples of a track add up to it. The conversion is undefined behaviour exactly (up to that tolerance) for NaN, infinities, negative and too long durations.", "quantifier": "all float durations, all 32-bit timescales, every session of calls and codec", "why_tests_cant": "rounding errors depend on all 2^32 floats and 2^32 timescales; the bound has to hold for each", "anchors": ["src/track/track.cpp:Track::getDurationInTimescale", "src/track/track.cpp:Track::getDurationInMvhdTimescale", "src/writer/simple_writer.cpp:SimpleWriter::SimpleWriter", "src/writer/faststart_writer.cpp:FaststartWriter::FaststartWriter"]}
{"id": "C55", "title": "Fixed point members", "statement": "The getters of fixed point members (track width and height, movie and edit rate, sound balance) return exactly the number the member stands for, and the text of the box shows the decimal closest to it.", "quantifier": "all values of the 32-bit and 16-bit members, all boxes", "why_tests_cant": "2^32 values per member", "anchors": ["src/box/tkhd.cpp:Tkhd::getWidth", "src/box/tkhd.cpp:Tkhd::getHeight", "src/box/mvhd.cpp:Mvhd::getRate", "src/box/elst.cpp:ElstEntry::getMediaRate", "src/box/smhd.cpp:Smhd::getBalance"]}
{"id": "C56", "title": "Files cut short are detected", "statement": "A file of well-formed boxes cut anywhere before its end is either cut exactly between two top-level boxes, and SimpleReader reports exactly the boxes before the cut, or SimpleReader raises an exception. Hence a finished file that lost its end is never taken for a finished one: a SimpleWriter file is refused or shows no moov, a FaststartWriter file is refused or shows no mdat.", "quantifier": "all files, all cut points, every session of calls", "why_tests_cant": "every prefix of every possible file", "anchors": ["src/reader/reader.cpp:SimpleReader::read", "src/box_header.cpp:read_box_header", "src/bitio/reader.cpp:Reader::read", "src/box_map.cpp:BoxMap::getBoxInstance"]}
{"id": "C57", "title": "A killed program loses nothing it had stored", "statement": "If the program is killed at any octet it writes, a SimpleWriter output has the whole ftyp box and, 16 octets after it, all the media data of the calls that had returned followed by a beginning of those of the interrupted call; a FaststartWriter output is a beginning of the finished file and the intermediate file holds the media data until copyMdatData returns. What is left is not taken for a finished file: killed while recording, SimpleReader reads the SimpleWriter output and shows the media data in one box that extends to the end of the file; killed elsewhere (except within the 16 octets of writeFreeBoxAndMdatHeader) it raises an exception or shows no moov; for FaststartWriter it raises an exception or shows no mdat.", "quantifier": "every session of calls, every octet at which the program can die", "why_tests_cant": "every crash point of every history", "anchors": ["src/writer/simple_writer.cpp:SimpleWriter::addMdatData", "src/writer/simple_writer.cpp:SimpleWriter::writeFreeBoxAndMdatHeader", "src/writer/simple_writer.cpp:SimpleWriter::writeMoovBox", "src/writer/faststart_writer.cpp:FaststartWriter::addMdatData", "src/writer/faststart_writer.cpp:FaststartWriter::copyMdatData", "src/bitio/writer.cpp:Writer::write"]}
{"id": "C58", "title": "A last box of size 0 extends to the end of the file", "statement": "A file whose last top-level box gives its size as 0 is read exactly like the file in which that box gives its real size: every box of any kind, with all its contents and children.", "quantifier": "all files of well-formed boxes, all kinds of last box", "why_tests_cant": "all files", "anchors": ["src/box_header.cpp:read_box_header", "src/reader/reader.cpp:SimpleReader::read", "src/box_info.cpp:BoxInfo"]}
{"id": "C59", "title": "A full disk is not overlooked", "statement": "If the output stops taking octets at some point and stays so (a full disk), then whenever the last call of a SimpleWriter session, writeMoovBox, returns, the file is exactly that of an undisturbed session; otherwise an exception was raised. When all calls of a FaststartWriter session return, the file is that of an undisturbed session or lacks an end part of its last box (the media data and their header), in which case SimpleReader raises an exception or shows no mdat: moov is always complete. However a FaststartWriter session ends, its output is a beginning of the file of an undisturbed session, and unless it is all of it, SimpleReader raises an exception or shows no mdat. Whatever the outcome, the media data for which there was room are kept: a SimpleWriter file has the ftyp box and, 16 octets later, the media data of the calls that returned, up to the place where output was refused; when a FaststartWriter session ends with an exception, the intermediate file is still there with the media data of the calls that returned.", "quantifier": "every session of calls, every point at which output is refused from then on", "why_tests_cant": "every failure point of every history", "anchors": ["src/writer/simple_writer.cpp:SimpleWriter::addMdatData", "src/writer/simple_writer.cpp:SimpleWriter::writeMoovBox", "src/writer/faststart_writer.cpp:FaststartWriter::addMdatData", "src/writer/faststart_writer.cpp:FaststartWriter::copyMdatData", "src/bitio/writer.cpp:Writer::write", "src/box_header.cpp:BoxHeader::write"]}
{"id": "C60", "title": "SimpleReader deletes what it allocates", "statement": "For every file, whether read() returns or raises an exception half-way, destroying the SimpleReader deletes every box, header and tree node it allocated exactly once and follows no dangling pointer; only the header of the box that made read() raise std::runtime_error (announced size too large, or a failed seek) can be left behind. After a successful read() nothing is left.", "quantifier": "all files", "why_tests_cant": "all files, all points at which an exception can be raised", "anchors": ["src/reader/reader.cpp:SimpleReader::~SimpleReader", "src/reader/reader.cpp:SimpleReader::readBox", "src/box_info.cpp:BoxInfo::BoxInfo", "src/box_info.cpp:BoxInfo::~BoxInfo", "src/box.cpp:Box::~Box", "src/box_map.cpp:BoxMap::getBoxInstance", "src/box_header.cpp:read_box_header"]}
{"id": "C61", "title": "FaststartWriter only appends; SimpleWriter needs a seekable file", "statement": "Every seek of a FaststartWriter session goes to the end of what it has written, so on every output on which that succeeds (a std::stringstream, a stream that can only append) every call has the result and the output has the octets it would have on a file. A SimpleWriter on an output that refuses to seek beyond its end raises std::runtime_error in writeFtypBox, before any media data are accepted.", "quantifier": "every session of calls, every output stream", "why_tests_cant": "all histories; the library's own users write to std::ofstream only", "anchors": ["src/writer/faststart_writer.cpp:FaststartWriter::writeFtypBox", "src/writer/faststart_writer.cpp:FaststartWriter::writeMoovBox", "src/writer/faststart_writer.cpp:FaststartWriter::writeMdatHeader", "src/writer/faststart_writer.cpp:FaststartWriter::copyMdatData", "src/writer/simple_writer.cpp:SimpleWriter::writeFtypBox", "src/box_header.cpp:BoxHeader::write"]}
{"id": "C62", "title": "How every call of a session ends", "statement": "In a recording session no call fails unexpectedly: addData of every codec but H.264, terminateCurrentChunk, setMediaTime, addMdatData and getAndUpdateNextTrackID always return; constructing a track raises std::runtime_error exactly when its identifier is 0; addData of an H.264 track either returns or raises std::runtime_error, and for an access unit in Annex B format it returns exactly when every NAL unit is of types 1 to 8; an exception does not disturb the later calls, and the calls that finish the file all return.", "quantifier": "every sequence of calls of a recording session, every codec, all data", "why_tests_cant": "all histories and all data, including those with calls that raise in between", "anchors": ["src/track/h264.cpp:H264Track::addData", "src/track/track.cpp:Track::Track", "src/writer/simple_writer.cpp:SimpleWriter::writeMoovBox", "src/writer/faststart_writer.cpp:FaststartWriter::copyMdatData"]}
{"id": "C63", "title": "mp4-muxer loses nothing", "statement": "For each of the nine subcommands of the example program mp4-muxer and any resources (at least as many as the subcommand reads, any octets and timestamps; for H.264 access units in Annex B format), the program ends without an exception or undefined behaviour, SimpleReader reads the file without error, and a player following the tables finds exactly the resources used, octet by octet and in order, in tracks 1 and 2, with the durations given by the timestamps, the last sample lasting until 16, 4 or 15.36 seconds, and the key frames of the video marked. The media data are, turn by turn (each second, or 0.96 seconds), the samples of the first track of that turn, then those of the second. The boxes of the file are those of the subcommand: its brands, free and mdat before moov or, for faststart, moov before mdat, a movie header in milliseconds with the clock reading and the next free track id, and for each track a sample entry announcing the codec, the picture size and the configuration (for H.264, the parameter sets found in the access units). Every octet of the file is determined by the resources and the clock reading: it is the file C81 describes for the calls made.", "quantifier": "every list of resources, every clock reading", "why_tests_cant": "the integration test runs each subcommand on one list of resources and compares one checksum", "anchors": ["example/mp4-muxer.cpp:main", "example/resource/resource.hpp:Resource"]}
{"id": "C64", "title": "Objects and intermediate file of the writers", "statement": "Whatever calls are made on a SimpleWriter or FaststartWriter, in any order and whichever of them are refused half-way by a stream or the file system, unless a call is undefined behaviour in itself: no call follows a pointer to an object that has been deleted; the destructor deletes every remaining BoxInfo, Box and BoxHeader exactly once, except at most three objects for each call of writeFtypBox or writeFreeBoxAndMdatHeader that raised; replacing the moov tree in the layout loop of FaststartWriter leaks nothing and leaves no dangling pointer to its mvhd box. The intermediate file of FaststartWriter exists until copyMdatData returns, is closed from the fclose of copyMdatData on even if that or the removal fails, and after a complete session it is closed and removed and no object is left.", "quantifier": "every sequence of calls, every point at which a stream refuses", "why_tests_cant": "all histories and all points of failure; leaks and dangling pointers do not show in the output", "anchors": ["src/writer/writer.cpp:Writer::~Writer", "src/writer/faststart_writer.cpp:FaststartWriter::recreateMoovBoxInfo", "src/writer/faststart_writer.cpp:FaststartWriter::copyMdatData", "src/writer/faststart_writer.cpp:FaststartWriter::deleteIntermediateFile", "src/writer/simple_writer.cpp:SimpleWriter::writeFreeBoxAndMdatHeader", "src/box_info.cpp:BoxInfo::~BoxInfo"]}
{"id": "C65", "title": "Resources of mp4-muxer are loaded exactly", "statement": "For every list of resources, loading lines that give the timestamp, the number of octets, the octets in hexadecimal (either case) and the key frame mark gives exactly these resources, a line with a wrong number of octets is refused, and the file the program then writes contains them (C63). Exactly: a file is loaded if and only if the number of octets of every line is half (rounded down) the number of its characters and no cell is missing; two characters that are not two digits give the octet std::istringstream makes of them (a lone digit its value, a sign or a space is skipped, a minus sign negates modulo 256, anything else 0).", "quantifier": "every list of resources, every spelling", "why_tests_cant": "all data; the integration test loads seven files", "anchors": ["example/resource/resource.cpp:hex2bin", "example/resource/resource.cpp:load_resources_from_csv"]}
{"id": "C66", "title": "The order of the finishing calls does not matter", "statement": "After any recording, the calls that finish the file may be made in other orders and repeated without effect on the output: with SimpleWriter, writeFreeBoxAndMdatHeader before or after appendTrakAndUdtaBoxInfo and before or after writeMoovBox, each any number of times (at least once); with FaststartWriter, writeMoovBox and writeMdatHeader in any order and number, as long as copyMdatData follows a writeMdatHeader directly. Every such call returns, and the output is octet for octet that of the usual order.", "quantifier": "every recording, every selection of tracks, every list of finishing calls of this form", "why_tests_cant": "unboundedly many orders and repetitions over all recordings; the tests and examples use one order", "anchors": ["src/writer/simple_writer.cpp:SimpleWriter::writeFreeBoxAndMdatHeader", "src/writer/simple_writer.cpp:SimpleWriter::writeMoovBox", "src/writer/faststart_writer.cpp:FaststartWriter::writeMoovBox", "src/writer/faststart_writer.cpp:FaststartWriter::writeMdatHeader", "src/box_info.cpp:BoxInfo::adjustOffsetAndSize"]}
{"id": "C67", "title": "Both writers make the same movie", "statement": "Whatever session is recorded, the same calls on a SimpleWriter and on a FaststartWriter end in the same way, and the two finished files contain the same ftyp box, the same media data, and moov boxes that are equal box for box and member for member except for the chunk offsets; these all differ by one constant, the distance between the places where the media data start in the two files (and may therefore need 64-bit entries in one file only).", "quantifier": "every recording, every selection of tracks", "why_tests_cant": "relates two programs on all histories; a test compares single files", "anchors": ["src/writer/simple_writer.cpp:SimpleWriter", "src/writer/faststart_writer.cpp:FaststartWriter::appendTrakAndUdtaBoxInfo", "src/track/track.cpp:Track::resetChunkOffsets", "src/track/track.cpp:Track::addMdatData"]}
{"id": "C68", "title": "Tracks do not influence one another", "statement": "What a finished file says about a track depends only on the calls made on that track (its constructor, addData, setMediaTime, terminateCurrentChunk, with their arguments): take two recordings, with either writer class, whatever other tracks, raw data, brands and movie headers; if a track of the first got the same calls in the same order as a track of the second, their trak boxes are equal box for box and member for member except for the chunk offsets (of which there are as many). If the terminateCurrentChunk calls differ, only the division into chunks differs as well.", "quantifier": "every pair of recordings, every pair of tracks, both writer classes", "why_tests_cant": "a relation between all pairs of histories (non-interference); tests look at single files", "anchors": ["src/track/track.cpp:Track::addMdatData", "src/track/track.cpp:Track::terminateCurrentChunk", "src/track/aac.cpp:AACTrack::appendTrakBoxInfo", "src/writer/writer.cpp:Writer::addMdatData", "src/writer/simple_writer.cpp:SimpleWriter::appendTrakAndUdtaBoxInfo", "src/writer/faststart_writer.cpp:FaststartWriter::appendTrakAndUdtaBoxInfo"]}
{"id": "C69", "title": "The chunks are those the program made", "statement": "In the finished file of either writer, the chunks of a track are exactly the non-empty groups of samples between its terminateCurrentChunk calls: there is one chunk offset per group, at which the file has the octets of the group's samples one after the other, and the sample-to-chunk table gives the number of samples of each group. The sample-to-chunk and time-to-sample tables have no two neighbouring entries that could be merged and no empty runs, and the 64-bit offset table is used if and only if some chunk starts at or beyond 2^32.", "quantifier": "every recording (any interleaving of tracks and any calls of terminateCurrentChunk), every selection of tracks, both writer classes", "why_tests_cant": "depends on all histories of calls on all tracks; tests look at a few fixed sessions", "anchors": ["src/track/track.cpp:Track::terminateCurrentChunk", "src/track/track.cpp:Track::addMdatData", "src/track/track.cpp:Track::finalize", "src/track/track.cpp:Track::makeStscBoxInfo", "src/track/track.cpp:Track::makeOffsetBoxInfo"]}
{"id": "C70", "title": "What was parsed is no larger than the file", "statement": "A box read from any payload holds, in all its vectors and strings together, at most as many elements as the payload has octets; and the boxes found in any file that SimpleReader reads, at eight octets per box plus one per element held, are together no larger than the file, whatever counts and sizes the file announces. The one exception, the entries of a trun box whose flags announce no per-sample field, are fewer than 2^32 per box (and a 16-octet file can announce any such number).", "quantifier": "every payload and every class of box; every file, file stream and memory stream", "why_tests_cant": "counts and sizes in a file are independent of its length, so the bound must hold for every hostile combination", "anchors": ["src/reader/reader.cpp:SimpleReader::readBox", "src/box/trun.cpp:Trun::readData", "src/box/sgpd.cpp:AlternativeStartupEntry::readData", "src/box/esds.cpp:Esds::readData", "src/box/avc.cpp:AVCDecoderConfiguration::readData"]}
{"id": "C71", "title": "Files can be concatenated", "statement": "If a file is read successfully and contains no box that extends to the end of the file (size 0), then for whatever octets are appended to it, reading the whole finds the boxes of the first file unchanged followed by exactly the boxes found in the appended octets alone, with their offsets larger by the length of the first file, and prints the text of the first file first; and if the appended octets alone are refused, the whole is refused with the same exception.", "quantifier": "every first file that is read (files with a box that misreports what it read excluded for file streams), every appended octets, file streams and memory streams", "why_tests_cant": "the reader keeps absolute positions and a running count of sizes at each depth; that neither depends on what precedes or follows must hold for every pair of files", "anchors": ["src/reader/reader.cpp:SimpleReader::read", "src/reader/reader.cpp:SimpleReader::readBox", "src/box_header.cpp:read_box_header"]}
{"id": "C72", "title": "Nothing of an H.264 buffer is lost or invented", "statement": "Whatever buffer is given to the H.264 track (with no zero octet right after a start code), the track handles a sequence of NAL units that lie one after the other from the first octet of the buffer on, each after a start code and each extending to the next start code or the end: slices are stored length-prefixed, parameter sets recorded. The call returns if and only if these units make up the whole buffer; it raises runtime_error when what remains does not start with a unit it knows. The sequence of units is determined by the buffer. Without the restriction the stored octets still are consecutive parts of the buffer, each preceded by three or four octets.", "quantifier": "every buffer of octets", "why_tests_cant": "the scanner has content-dependent look-ahead and end-of-buffer behaviour; the claim is about every sequence of octets", "anchors": ["src/track/h264.cpp:H264Track::addData", "src/track/h264.cpp:find_next_nal_unit"]}
{"id": "C73", "title": "What the output stream held before", "statement": "A writer may be given a stream that is not empty and stands anywhere (a file opened for update, a stream used before). Every call of a session then returns what it returns on an empty stream, the tracks get the same tables, and after the finishing calls the output is exactly the complete file, followed by whatever the stream had beyond that length: nothing of the old contents is left inside the file, not even in the 16 octets SimpleWriter first skips and fills later, and nothing is cut off. So the output is the file if and only if the old contents were not longer. For arbitrary calls after writeFtypBox, every octet of the output is the one of the run on the empty stream or an old one.", "quantifier": "every old contents and position of the stream, both writers, every recording session and selection of tracks that fit (for the first part), every sequence of calls (for the last)", "why_tests_cant": "tests write to new files; whether some octet of the old contents survives depends on every length and on the order of the writes", "anchors": ["src/writer/simple_writer.cpp: SimpleWriter::writeFtypBox, writeFreeBoxAndMdatHeader, addMdatData, writeMoovBox", "src/writer/faststart_writer.cpp: FaststartWriter::writeFtypBox, writeMoovBox, writeMdatHeader, copyMdatData", "src/box_header.cpp: BoxHeader::write"]}
{"id": "C74", "title": "A stream is read once", "statement": "read() may be called again on the same reader. The first call does what the properties about reading say. On a stream that is not empty no later call ever returns, whether the first one returned, raised while it read boxes or raised while it printed them, and wherever it left the stream: each raises and prints nothing, so boxes are neither printed twice nor printed partly. If the first call read the boxes, the exception is invalid_argument each time. An empty stream can be read any number of times, and nothing is printed.", "quantifier": "every file contents, either kind of stream, any number of calls, every position or failure that an exception leaves behind", "why_tests_cant": "tests call read() once; what a second call does depends on where the loop over the boxes leaves the stream, for every tree of boxes", "anchors": ["src/reader/reader.cpp: SimpleReader::SimpleReader, SimpleReader::read", "src/reader/reader.cpp: SimpleReader::readBox", "src/box_header.cpp: read_box_header"]}
{"id": "C75", "title": "What reading a file costs", "statement": "While read() works on a file of n octets, whatever they are and whether it returns or raises, it reads at most n/8 + 1 box headers, has at most as many calls nested in each other, and the copies it makes of box contents have at most (n-8) + (n-16) + ... octets (less than n*n/16), alive at the same time or all together. If it found boxes, it read exactly one header for each box, nested as many calls as boxes are inside each other, and copied each box once; when the boxes fill the file the copies are at most the size of the file times the nesting. For every file finished by SimpleWriter or FaststartWriter the nesting is at most 8, so at most 8 times the file is copied. The bounds for arbitrary files are reached for every n divisible by 8: there is no fixed nesting or multiple of n that suffices for all files.", "quantifier": "every file contents and kind of stream; every recording session that fits (for the files of the writers)", "why_tests_cant": "the worst case depends on the length and nesting of hostile files, which are unbounded", "anchors": ["src/reader/reader.cpp: SimpleReader::read, SimpleReader::readBox", "src/box_header.cpp: read_box_header"]}
{"id": "C76", "title": "Structure of finished files", "statement": "The file of either writer consists of exactly the boxes a player expects, inside each other and in a fixed order: ftyp, mdat (SimpleWriter: after a free box if mdat needs only 8 octets of header) and moov with mvhd, one trak per chosen track in order and udta; each trak has tkhd, edts/elst and mdia with mdhd, hdlr and minf, the media header of its kind, dinf/dref/url, and stbl with stsd (the sample entry of the codec with its configuration boxes), stts, stss for video only, stsc, stsz, stco or co64, and sgpd/sbgp for AAC and Opus only. Every full box has version 0 and no flags, except tkhd (flags 3), vmhd and url (flags 1), vpcC and sgpd (version 1).", "quantifier": "every session of calls, codec and choice of tracks, both writers", "why_tests_cant": "all codecs, numbers and orders of tracks and histories of calls", "anchors": ["src/track/aac.cpp: AACTrack::appendTrakBoxInfo, makeStsdBoxInfo", "src/track/mp3.cpp", "src/track/opus.cpp", "src/track/vpx.cpp", "src/track/av1.cpp", "src/track/h264.cpp", "src/track/track.cpp", "src/writer/writer.cpp"]}
{"id": "C77", "title": "Files that cannot be read", "statement": "If any octet of a file cannot be read (an error of the device; read(2) fails), wherever it is and whatever the file contains, SimpleReader::read does not report boxes: it raises std::runtime_error, unless it ends with the exception or undefined behaviour with which it ends for that file when all octets can be read; a file that would be read with boxes is always answered with std::runtime_error. If all octets can be read nothing changes. mp4-tool dump, given a file that cannot be opened or not be read completely, prints nothing and does not end normally; otherwise it prints the boxes and returns 0 exactly when the reader reports them.", "quantifier": "every file contents, kind of stream and set of unreadable positions", "why_tests_cant": "tests cannot make every octet of every file fail", "anchors": ["src/reader/reader.cpp: SimpleReader::SimpleReader, SimpleReader::read, SimpleReader::readBox", "src/box_header.cpp: read_box_header", "src/cli/mp4-tool.cpp: main"]}
{"id": "C78", "title": "Saving boxes", "statement": "A program that saves any list of well-formed box trees, one after the other (adjustOffsetAndSize at the current offset, write, continue at offset + size), at any place inside or at the end of a stream, replaces exactly the octets there by the wire format of the boxes in order and touches nothing else; afterwards every header says where its box is and how large it is. The file made of freshly built boxes is read back by SimpleReader as the very same boxes, headers included, and saving the saved boxes again in the same place changes nothing. The boxes found in a file finished by either writer, written back unmodified, laid out and written to an empty stream, or saved over the file itself, give the very octets of the file.", "quantifier": "every list of box trees and every stream contents and place; every recording session of either writer", "why_tests_cant": "tests save a few trees at a few offsets; trees, offsets and sessions are unbounded", "anchors": ["src/box_info.cpp: BoxInfo::adjustOffsetAndSize, BoxInfo::write", "src/box_header.cpp: BoxHeader::setOffsetAndDataSize, BoxHeader::write", "src/reader/reader.cpp: SimpleReader::read"]}
{"id": "C79", "title": "Storage asked for before the data are seen", "statement": "readData sizes vectors to counts taken from the file before it reads their elements. For every payload of every box class: a call that returns has asked for exactly the elements the box then holds, together no more than the payload has octets (except the entries of a 'trun' box without per-sample fields, fewer than 2^32, asked for at once); a call that fails has asked for fewer than 2^33 elements besides eight for each octet of the payload. For every file: readData is called for at most one box per eight octets; only the last call can fail; the calls that return are, when read() returns, for the boxes of the tree in order, and have together asked for no more elements than the file has octets (without such 'trun' boxes).", "quantifier": "every payload of every box class; every file contents", "why_tests_cant": "counts announced in a file and the octets that follow are unbounded and independent", "anchors": ["include/shiguredo/mp4/bitio/bitio.hpp: read_vector_uint", "src/box/*.cpp: readData", "src/reader/reader.cpp: SimpleReader::readBox, SimpleReader::read"]}
{"id": "C80", "title": "Seeking in finished files", "statement": "A player that has read a finished file can jump to every moment of every track whose timestamps were given in non-decreasing order and not after its end: the sample that the time-to-sample table shows at a moment is the one recorded last at that moment or before, the chunk tables lead to its octets, and, for a video track, the sync sample table leads to the last key frame up to it (for audio every sample can be decoded by itself). Before the first sample and from the end of the track on there is nothing to show.", "quantifier": "every recording session of either writer, every chosen track and every moment", "why_tests_cant": "sessions, timestamps, key frames and moments are unbounded; a wrong run length or number shows only at some moments", "anchors": ["src/track/track.cpp: Track::makeStblBoxInfo", "src/track/vide.cpp: VideTrack", "src/box/stts.cpp", "src/box/stss.cpp", "src/box/stsc.cpp"]}
{"id": "C81", "title": "Complete contents of finished files", "statement": "Every octet of a finished file is determined by the program's calls as a small specification says: the boxes of each writer's layout in order; in them every header field, the sample entry of every codec, the edit, the time-to-sample, sync, sample-to-chunk, size, offset and roll-group tables (runs as long as possible, chunks as the program made them, 64-bit offsets only when one is needed) computed from the samples, timestamps, key flags, parameter sets, media times and constructor arguments. For the faststart writer the media data start where the tables say, and of the layouts for which that is so the shortest is written.", "quantifier": "every recording session of either writer and every choice of tracks (hypotheses of C47)", "why_tests_cant": "a test compares one file; that no other field, order, entry or state ever has an influence needs all sessions", "anchors": ["src/writer/simple_writer.cpp: SimpleWriter", "src/writer/faststart_writer.cpp: FaststartWriter::appendTrakAndUdtaBoxInfo", "src/track/track.cpp: Track", "src/track/aac.cpp, mp3.cpp, opus.cpp, vpx.cpp, av1.cpp, h264.cpp"]}
{"id": "C82", "title": "Every octet of the media data belongs to one sample", "statement": "In a finished file of either writer the ranges that the tables give for the samples of all the tracks lie in the media data; no two of them share an octet, whether of one track or of different ones; and an octet of the media data is in a sample of a track exactly when it was stored by a call for that track. So if no raw data were stored and all tracks are in the movie, each octet is in one sample and in one only, and is the octet stored.", "quantifier": "every recording session of either writer, every choice of tracks, every octet of the media data (hypotheses of C28)", "why_tests_cant": "a test looks at samples it expects; that no octet is claimed twice or lost needs every session, interleaving and size", "anchors": ["src/track/track.cpp: Track::addMdatData", "src/writer/writer.cpp: Writer::addMdatData", "src/writer/simple_writer.cpp: SimpleWriter", "src/writer/faststart_writer.cpp: FaststartWriter"]}
{"id": "C83", "title": "Copying from an intermediate file that reads badly", "statement": "While writeMdatData of FaststartWriter copies the intermediate file, the output is always the output before and a beginning of the media data, however reads divide the data and whichever of them fail. If the call returns, all the media data were copied, in order and once, and the intermediate file is closed and removed; if it raises, that is std::runtime_error, either because rewinding failed (nothing copied, file open) or because closing or removing did, after everything was copied. The call ends once more reads have succeeded than there are octets; it retries a failing read for ever. At the end of any recording session the output is then the same finished file as without failures. The constructor returns only if the file was made and opened.", "quantifier": "every division of the data into reads, every pattern of failing reads, every outcome of fseek, fclose and remove, every recording session (hypotheses of C28), every outcome of mkstemp and fdopen", "why_tests_cant": "a test reads a healthy file from the cache of the system; short reads and errors at every place of the file are patterns without bound, and not returning cannot be tested", "anchors": ["src/writer/faststart_writer.cpp: FaststartWriter::FaststartWriter, copyMdatData, deleteIntermediateFile"]}
{"id": "C84", "title": "The text of a box shows each field under its name with its value", "statement": "The text of a box (toString of Box, and what SimpleReader::read prints) names its type, offset and size and then every field the box has, in a fixed order, as name=value: counts and numbers in decimal, codes, offsets and octets in hexadecimal, both without leading zeros and with a minus sign if negative; fixed-point numbers rounded to the nearest with four (volume balance: two) places; times as date and time; strings in double quotes; lists in brackets; entries in braces with their own names. Fields that the version, the flags or the type of the box excludes are not shown. Nothing else is a text of those fields, provided octets are octets and times have dates. From the text of a number alone one can tell the number and whether it was decimal or hexadecimal.", "quantifier": "every box of every class with any member values, every header, every file that can be read", "why_tests_cant": "a test shows the text of some boxes with some values; optional fields, signs, rounding and lists have unboundedly many combinations", "anchors": ["src/box/*.cpp: toStringOnlyData, toString", "src/box.cpp: Box::toString, FullBox::getVersionAndFlagsString", "src/box_header.cpp: BoxHeader::toString", "src/reader/reader.cpp: read"]}
