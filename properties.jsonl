{"id": "C01", "title": "buint128 round trip, length and self-delimitation", "statement": "Writing any uint64 with buint128::Write emits between 1 and 9 bytes, and buint128::Read on a stream that starts with those bytes returns the same value and leaves the stream exactly after them, whatever bytes follow; the number of bytes is the least number of 7-bit groups (9 for anything needing more than 8).", "quantifier": "every value in [0,2^64) and every suffix of the stream", "why_tests_cant": "2^64 values times arbitrary following bytes; the interesting boundaries (2^7k, 2^56, 2^63) are exactly the ones tests sample sparsely", "anchors": ["datas/base_128.hpp: buint128::Read, buint128::Write"]}
{"id": "C02", "title": "bint128 round trip", "statement": "For every int64 in [-2^55, 2^63) Read(Write(v)) = v, consuming exactly the bytes written, with any bytes following. Outside this range the code breaks the claim: for every v in [-2^56, -2^55) the value read back is ~v + 2^62 (wrong), and for every v < -2^56 ten bytes are written of which Read consumes nine (the value is right but the next field starts one byte early).", "quantifier": "every value in [-2^63,2^63) and every suffix of the stream", "why_tests_cant": "2^64 values; the shipped test checks single values on both sides of the faulty interval and never a following field", "anchors": ["datas/base_128.hpp: bint128::Read, bint128::Write"]}
{"id": "C03", "title": "Byte swapping is byte reversal and an involution", "statement": "Swapping the endianness of a 2-, 4- or 8-byte value reverses its little-endian byte sequence, so swapping twice is the identity, and it is a bijection; swapping an array swaps every element independently and keeps the length.", "quantifier": "every 16/32/64-bit value, every array", "why_tests_cant": "2^64 values and arrays of any length", "anchors": ["datas/endian.hpp: _fbswap, FByteswapper, FArraySwapper"]}
{"id": "C04", "title": "Bit-field members are disjoint and independent", "statement": "For any list of member widths of total at most the storage width (each width at least 1), Get after Set of the same member returns the input truncated to the member's width, and Set leaves every other member and every bit outside all members unchanged; member i sits at the sum of the previous widths.", "quantifier": "every layout, every stored value, every input, every pair of members", "why_tests_cant": "layouts and values are unbounded combinations; truncation of an over-wide input and disturbance of a neighbour only show for specific values", "anchors": ["datas/bitfield.hpp: BitMember::GetMask, BitField::Get, BitField::Get_, BitFieldType::Get, BitFieldType::Set"]}
{"id": "C05", "title": "Bit-field endian conversion round trip", "statement": "For 8/16/32/64-bit storage, converting in after converting out restores every member of the bit field and clears bits that belong to no member; for a layout that covers the storage completely the whole value is restored, in both orders.", "quantifier": "every layout, every stored value, every storage width", "why_tests_cant": "layout-dependent bit permutation composed with a byte swap: all layouts and values have to agree", "anchors": ["datas/internal/bitfield.inl: SwapBitField", "datas/bitfield.hpp: BitMember::GetMirrorMask, BitFieldType::SwapEndian"]}
{"id": "C06", "title": "Flag sets behave as sets of bits", "statement": "For a flag set over an unsigned store, after any sequence of set/clear operations on flag indices below the store width, querying an index answers true exactly when the last operation on it set it (or it was set initially); a flag set built from a list of flags contains exactly those.", "quantifier": "every sequence of operations, every initial value, every index below the width", "why_tests_cant": "arbitrary histories of operations", "anchors": ["datas/flags.hpp: es::Flags"]}
{"id": "C07", "title": "Alignment padding", "statement": "For a power-of-two alignment, GetPadding(value, alignment) is the least non-negative amount that makes value + padding a multiple of the alignment, for every 64-bit value; IsPow2 accepts exactly 0 and the powers of two. A non-power-of-two alignment is not honoured.", "quantifier": "every value in [0,2^64), every power-of-two alignment up to 2^63", "why_tests_cant": "2^64 values for each of 64 alignments", "anchors": ["datas/supercore.hpp: GetPadding, IsPow2"]}
{"id": "C08", "title": "Whitespace trimming", "statement": "SkipStartWhitespace/SkipEndWhitespace/TrimWhitespace return the text without its maximal leading/trailing/both run of whitespace, and the result is a contiguous part of the input; this holds for every text that is not all blank, and for all-blank (also empty) text when the character just outside the view is readable; the code reads that character exactly for all-blank text.", "quantifier": "every character sequence", "why_tests_cant": "unbounded strings; the empty and the all-blank string are the corner cases", "anchors": ["datas/supercore.hpp: es::SkipStartWhitespace, es::SkipEndWhitespace, es::TrimWhitespace"]}
{"id": "C09", "title": "FourCC compile/decompile round trip", "statement": "CompileFourCC of four ASCII characters (the last may be any byte) has those characters as its bytes in order, different ASCII tags give different values, the error-message rendering shows an alphanumeric tag verbatim and distinguishes every pair of NUL-free ASCII tags. A first character of 0x80 or more destroys the other three.", "quantifier": "every four-character tag", "why_tests_cant": "2^32 tags", "anchors": ["datas/supercore.hpp: CompileFourCC", "datas/except.hpp: DecompileFourCC"]}
{"id": "C10", "title": "Path decomposition", "statement": "After loading any non-empty path, the full path is the input with every backslash turned into a slash, folder ++ file-name-with-extension = full path, full-path-without-extension ++ extension = full path; the folder is empty or ends in a slash, the file name with extension contains no slash.", "quantifier": "every non-empty path without embedded NUL", "why_tests_cant": "unbounded strings with separators and dots anywhere", "anchors": ["datas/fileinfo.hpp: AFileInfo::Load, GetFolder, GetFilenameExt, GetFullPathNoExt, GetExtension"]}
{"id": "C11", "title": "File name without extension", "statement": "GetFilename ++ GetExtension = GetFilenameExt for every path whose last dot lies after its last slash or which has no dot; the code is wrong for other paths (a dotted directory and an undotted file name), where GetFilename builds a string from a reversed range.", "quantifier": "every path", "why_tests_cant": "dotted directory names combined with extension-less files", "anchors": ["datas/fileinfo.hpp: AFileInfo::GetFilename, AFileInfo::Load"]}
{"id": "C12", "title": "Path explosion", "statement": "Explode returns the components of the normalised path between slashes, in order, after dropping one leading slash; a trailing slash adds no component; joining the components with slashes determines and reproduces the rest.", "quantifier": "every path", "why_tests_cant": "unbounded number of components", "anchors": ["datas/fileinfo.hpp: AFileInfo::Explode"]}
{"id": "C13", "title": "Hybrid allocator never frees the borrowed buffer and never loses or double-frees a heap block", "statement": "In any history of a container using the hybrid allocator linked to an external buffer in which only live blocks are returned: the first allocation is the external buffer; every heap block is freed exactly as often as it is returned, at most once, and none is lost once everything is returned; a container that never holds two blocks at once never has the external buffer passed to the heap's free. A container that grows (allocates before returning) is handed the external buffer twice and frees it; a copied allocator hands the same buffer to both containers.", "quantifier": "every sequence of allocate/deallocate calls in which the container frees only live blocks", "why_tests_cant": "arbitrary histories of allocations and releases", "anchors": ["datas/allocator_hybrid.hpp: es::allocator_hybrid, allocator_hybrid_base"]}
{"id": "C14", "title": "Hybrid deleter: exactly once for owners, never for observers", "statement": "An Element created from an owning pointer destroys its object exactly once whatever sequence of moves and resets it goes through; an Element created as non-owning never destroys its object.", "quantifier": "every sequence of moves, resets, releases over any number of elements", "why_tests_cant": "arbitrary ownership histories", "anchors": ["datas/deleter_hybrid.hpp: es::deleter_hybrid", "uni/common.hpp: uni::Element, uni::ToElement"]}
{"id": "C15", "title": "XOR cipher", "statement": "For every non-empty key, decoding an encoded buffer restores it, the length never changes, and each byte depends only on the byte at the same index and key[index mod keylength]; an empty key on a non-empty buffer divides by zero.", "quantifier": "every buffer, every key", "why_tests_cant": "unbounded buffers and keys", "anchors": ["datas/encrypt/xorenc.hpp: XOREncoder"]}
{"id": "C16", "title": "Blowfish block cipher is invertible under every key schedule", "statement": "DecodeBlock undoes EncodeBlock and vice versa on every 64-bit block for any contents of the P and S boxes, in both byte-order variants; hence encryption is a permutation of blocks.", "quantifier": "every block, every key schedule, both variants", "why_tests_cant": "2^64 blocks times 2^33000 key schedules", "anchors": ["datas/encrypt/blowfish.cpp: BlowfishEncoder::EncodeBlock, DecodeBlock, BlowfishEncoder2"]}
{"id": "C17", "title": "Blowfish modes round trip and leave the tail alone", "statement": "For ECB, CBC, PCBC, CFB and OFB, Decode(Encode(buffer)) = Encode(Decode(buffer)) = buffer whenever the call completes, every whole block satisfies the textbook equation of the mode, the length never changes, the last (length mod 8) bytes are never modified, and OFB encoding equals OFB decoding. Calls complete for all buffers below 2^31 bytes; from 2^31+8 to 2^34 bytes the block offset overflows a signed int.", "quantifier": "every buffer of every length, every key schedule, every initialisation vector, every mode", "why_tests_cant": "unbounded buffers; block chaining means an error shows only in the second and later blocks", "anchors": ["datas/encrypt/blowfish.cpp: BlowfishEncoder::Encode, Decode"]}
{"id": "C18", "title": "Jenkins name hash depends only on the text", "statement": "The compile-time hash of a literal and the run-time hash of an equal string view agree; the 32-bit variant is Jenkins's one-at-a-time function and no two single characters collide; the 64-bit variant is the same mixing in 64 bits without truncation and does collide on single characters; hash objects compare by value, except that the ordering operator is reversed.", "quantifier": "every string", "why_tests_cant": "unbounded strings", "anchors": ["datas/jenkinshash.hpp: JenkinsHash_, JenHash"]}
{"id": "C19", "title": "Jenkins-3 hash covers the whole input", "statement": "The hash is Jenkins's lookup3 hashword on the bytes of the text for every length other than 24, 36, 48, ...; for those the last twelve bytes are ignored, so texts differing only there collide, and appending a NUL can leave the hash unchanged.", "quantifier": "every string of every length", "why_tests_cant": "the fault is invisible at the lengths the static asserts cover (4, 6, 10, 17)", "anchors": ["datas/jenkinshash3.hpp: JenkinsHash3_, JenHash3"]}
{"id": "C20", "title": "string_view comparison is a total order consistent with equality", "statement": "compare is the lexicographic order on unsigned character codes with a proper prefix smaller; ==, !=, <, <=, >, >= agree with it; equality holds exactly for equal contents.", "quantifier": "every pair and triple of strings", "why_tests_cant": "unbounded strings; total-order laws range over triples", "anchors": ["datas/internal/string_view.inl: compare", "datas/string_view.hpp: operators"]}
{"id": "C21", "title": "string_view character search", "statement": "find_first_of/find_last_of return the least/greatest index at or after/before the given position whose character is in the set, or npos. find(char)/rfind(char) do the same with the last character of the text left out; find_first_not_of/find_last_not_of use only the first character of the set; the backward searches on an empty view read outside it unless the position is npos.", "quantifier": "every string, position and character set", "why_tests_cant": "unbounded strings and positions (including npos)", "anchors": ["datas/internal/string_view.inl: find, rfind, find_first_of, find_last_of"]}
{"id": "C22", "title": "string_view substring search", "statement": "find(view) should return the least index where the needle occurs. For needles of two or more characters it returns the least index, excluding the last possible one, at which every character but the first agrees: a real occurrence that does not end the text is never skipped, but the answer may be no occurrence and an occurrence at the end is missed. rfind(view) misses occurrences, reports reversed ones and can read before the text.", "quantifier": "every haystack, needle and position", "why_tests_cant": "wrong answers need a near-miss in the text", "anchors": ["datas/internal/string_view.inl: find(basic_string_view, size_type)"]}
{"id": "C23", "title": "string_view element access stays inside the view", "statement": "at(i) returns the i-th character for i < size and throws otherwise; substr(pos,n) returns the characters [pos, min(pos+n,size)) for pos < size and throws otherwise; no character outside the view is read by either.", "quantifier": "every view, index and count (including counts near 2^64)", "why_tests_cant": "wrap-around of pos+n is only visible at the top of the range", "anchors": ["datas/internal/string_view.inl: at, substr"]}
{"id": "C24", "title": "Threaded queue runs every task exactly once", "statement": "RunThreadedQueue(n, f) with at least one hardware thread calls f(i) exactly once for every i < n, never has more than the number of hardware threads running at once, and returns only when all calls have finished, under every completion schedule in which started calls finish; when the runtime reports zero hardware threads and n > 0, it never returns and calls nothing.", "quantifier": "every task count, thread count and completion schedule", "why_tests_cant": "all interleavings of completions and polls", "anchors": ["datas/multi_thread.hpp: RunThreadedQueue"]}
{"id": "C25", "title": "Log messages reach every registered sink once, whole, and in order", "statement": "With any number of threads writing messages through the printer, every sink registered throughout receives each message exactly once, not interleaved with another message, all such sinks see the same order, each thread's messages in its order, no schedule deadlocks, and registering the same sink twice does not duplicate output. Colour escapes go to every colour-capable sink whichever message they belong to, and a bare flush sends an unterminated buffer.", "quantifier": "every interleaving of writers, every registration history", "why_tests_cant": "all schedules", "anchors": ["datas/master_printer.cpp: MasterPrinterThread", "datas/master_printer.hpp"]}
{"id": "C26", "title": "Typed stream writes are read back", "statement": "A 1-, 2-, 4- or 8-byte integer written with either byte order puts exactly its bytes in that order at the position and changes nothing else; read at the same place with the same byte order it is recovered, with the other byte order its byte-swapped value is read, and the position advances by its size; any sequence of such fields with any mixture of byte orders is recovered. Reading past the end leaves the stream failed for good: no later seek, read or write moves it or changes any data.", "quantifier": "every value, every byte order, every stream content", "why_tests_cant": "all values and prior stream contents", "anchors": ["datas/binreader_ref.hpp", "datas/binwritter_ref.hpp", "datas/internal/bincore_endian.hpp"]}
{"id": "C27", "title": "Containers with counts are read back", "statement": "WriteContainerWCount followed by ReadContainer from the same place restores the container exactly when its size fits the count type, whatever follows in the stream; otherwise exactly (size mod range of the count) elements come back. Containers written and read through element callbacks are restored whenever the callbacks are inverse.", "quantifier": "every container length and content, every count width", "why_tests_cant": "container lengths at the edge of the count type", "anchors": ["datas/binwritter_stream.hpp", "datas/binreader_stream.hpp", "datas/binreader_ref.hpp: ReadContainer"]}
{"id": "C28", "title": "Zero-terminated strings are read back", "statement": "WriteT/ReadString: a string (narrow or wide, either byte order) without NUL written with its terminator is read back exactly, appended to what the destination held, and the reader stops just after the terminator; unterminated text is delivered to the end of the stream and leaves the reader failed. On a reader that failed earlier and was seeked since, ReadString need not terminate.", "quantifier": "every string and suffix", "why_tests_cant": "unbounded strings", "anchors": ["datas/binreader_ref.hpp: ReadString", "datas/binwritter_ref.hpp: WriteT"]}
{"id": "C29", "title": "Relative origins, Tell and Push/Pop", "statement": "Tell is the absolute position minus the origin; Seek(Tell()) is the identity; Seek(p) then Tell gives p; Push … Pop restores the absolute position after any history of reads, writes, seeks and origin changes without another Push that leaves the stream usable (a nested Push overwrites the only slot), and GetSize leaves everything unchanged and counts from the origin. Refuted for a stream that read past its end: Tell and GetSize give -1 minus the origin as unsigned numbers, Push -1, and the stream fails for good.", "quantifier": "every sequence of navigation operations", "why_tests_cant": "arbitrary navigation histories", "anchors": ["datas/internal/bincore_navi.hpp"]}
{"id": "C30", "title": "Writer Skip and padding", "statement": "Writer Skip(n) for n > 0 puts exactly n zero bytes (overwriting what is there), for n <= 0 it moves back; reader Skip moves without reading; ApplyPadding(a) for a power of two moves the relative position by the least amount to a multiple of a, the writer putting only zero bytes.", "quantifier": "every position and amount", "why_tests_cant": "all positions; remainder handling of the 32-byte blocks", "anchors": ["datas/binwritter_stream.hpp: Skip", "datas/binreader_stream.hpp: Skip", "datas/internal/bincore_navi.hpp: ApplyPadding"]}
{"id": "C31", "title": "Directory scan returns exactly the matching files", "statement": "Scanning a finite directory tree with ordinary names returns the path of every non-directory entry, at every depth, whose name contains one of the filters (all of them when no filter is set), each once, and nothing else, and always finishes. A directory whose name ends with a quote is scanned as the name without the quote, one whose name ends with a backslash is not scanned.", "quantifier": "every finite tree and filter list", "why_tests_cant": "unbounded trees", "anchors": ["datas/directory_scanner.cpp: DirectoryScanner::Scan"]}
{"id": "C32", "title": "mkdirs creates ancestors before descendants", "statement": "mkdirs on a list of paths issues mkdir for every ancestor of every path (the part before each slash, backslashes counting as slashes), each once, every ancestor before its descendants, so that all of them exist afterwards when the base exists; likewise for a single path. The last component is created only if a slash follows it.", "quantifier": "every list of paths", "why_tests_cant": "ordering depends on the string order used by the set", "anchors": ["datas/stat.hpp: es::mkdirs"]}
{"id": "C33", "title": "ZIP virtual file system returns stored bytes", "statement": "Opening a ZIP archive that consists, in any order, of stored unencrypted files with non-empty name and content (content and extra data blocks below 2^31 bytes), entries without content, central directory records, end-of-central-directory records, ZIP64 records, signatures and extra data blocks succeeds. The names listed are exactly the names of the entries with content, each once; entries without content are not listed. Every sequence of Get calls, in any order, delivers for a listed name exactly the bytes stored first under that name and throws for any other name. An entry with content that is encrypted, compressed or nameless makes the constructor throw the matching error wherever it stands, and so does any block that starts with none of the seven known signatures. Refuted for arbitrary size fields: there are 30 bytes for which the constructor never returns.", "quantifier": "every list of entries", "why_tests_cant": "unbounded archives", "anchors": ["datas/zip_vfs.hpp", "formats/ZIP.hpp", "formats/ZIP_istream.inl"]}
{"id": "C34", "title": "Reflected integers: set from text", "statement": "Setting a reflected integer member (1, 2, 4 or 8 bytes) from text that starts, after blanks, with a decimal or 0x-prefixed number stores the number clamped to the member's range and reports out-of-range exactly when it was clamped; for unsigned members a minus sign stores the number modulo the range and reports a sign mismatch; text without a number is refused and changes nothing; no byte outside the member changes. Bit-field members of at most 30 bits in an object of at least 8 bytes take non-negative numbers likewise, all other bits unchanged. Not so: a negative number fills a bit field with ones, text without a number clears it, bit fields of 31 bits or more are undefined behaviour, and a newline before the number makes a negative overflow clamp to the maximum.", "quantifier": "every text, every integer width and signedness", "why_tests_cant": "unbounded text; clamping boundaries for 8 types", "anchors": ["datas/reflector.cpp: SetNumber and callers"]}
{"id": "C35", "title": "Reflected integers: get/set round trip", "statement": "Formatting a member as text and setting it back from that text restores the same bytes and reports no error: integers of every width, unsigned bit fields of at most 30 bits, booleans holding 0 or 1, arrays and vectors of integers of any length, arrays of integer vectors. The text of an integer, and of a bit field of at most 30 bits (in two's complement if it is signed), is its exact decimal value. Negative signed bit fields do not survive. A boolean member prints as true exactly when it is not zero, and setting it from text accepts true and false in any letter case; any other text clears it and is reported.", "quantifier": "every value of every integer width", "why_tests_cant": "2^64 values", "anchors": ["datas/reflector.cpp: GetReflectedValue, SetReflectedValue"]}
{"id": "C36", "title": "Reflected enums and enum flags round trip", "statement": "For a registered enum, setting from a member name (blanks around it allowed) stores the value of the first entry with that name, formatting gives the first name with the stored value or nothing, set-then-get gives the first name with the same value when the value fits the member; unknown names, blank text and unregistered enums are rejected without changing anything. Enum-flag text (names separated by bars) sets exactly the listed bits, and get-then-set restores flags when names are distinct, well formed and every set bit is named. Not so: negative enumerators print nothing, unnamed bits are lost with an error, flags numbered 64 or more are undefined behaviour.", "quantifier": "every enum table and every name", "why_tests_cant": "arbitrary enum tables", "anchors": ["datas/reflector.cpp", "datas/internal/reflector_enum.hpp"]}
{"id": "C37", "title": "Enum registration assigns C enumerator values", "statement": "The values computed from the enumerator list text follow the C rule (explicit initialiser, otherwise previous plus one, starting from 0) for all lists whose initialisers are decimal or 0x numbers with an optional integer suffix and whose values fit 64 bits; the names are always right. Octal initialisers, expressions and references to earlier enumerators get wrong values.", "quantifier": "every enumerator list", "why_tests_cant": "arbitrary lists", "anchors": ["datas/internal/reflector_enum_reg.hpp: _REnumInitializer", "datas/internal/reflector_enum.hpp"]}
{"id": "C38", "title": "Reflected sub-element access stays inside its member", "statement": "Setting a reflected array or vector of integers from comma-separated numbers in its brackets stores the i-th number in element i and changes nothing else; whatever the text, setting an array of integers or enums never writes outside the member; setting element i inside the range changes only that element's bytes; reading an element past the end gives the empty string, inside the range its exact value. Not so: setting an element does not check the index and writes outside the member, the component index of a vector array is compared with the component's byte size, the number setters refuse element 0, a boolean array is written one past its end, element errors and missing elements are not reported, setting a flag by index does nothing.", "quantifier": "every member layout and index", "why_tests_cant": "index/size combinations", "anchors": ["datas/reflector.cpp: SetReflectedValue overloads with subID/element"]}
{"id": "C39", "title": "Reflected binary dump round trip", "statement": "Saving a reflected object to the binary dump and loading it into any object of the same class restores every value of every member (integers, enums, flags, booleans, floats, strings, vectors and arrays nested to any depth, objects of flat classes and arrays of them), changes nothing else and leaves the stream exactly after the dump, whatever follows it. The exception is a signed or enum value below -2^55: every int64 in [-2^56,-2^55) comes back as another number. A dump of a different class is refused with object and stream position unchanged; one with another number of members is refused with the object unchanged and the stream after the dump; members whose names the loading class does not know are skipped. Objects nested two deep break the claim (saving recurses without end), and a member that failed to load is not reported when a later one succeeds.", "quantifier": "every class layout of the supported kinds, every object content, every suffix", "why_tests_cant": "unbounded layouts", "anchors": ["datas/reflector_io.cpp: ReflectorBinUtil::Save, Load"]}
{"id": "C40", "title": "PS3 Morton addressing is a bijection", "statement": "For every wide or square texture of power-of-two sides 2^a x 2^b with 4 <= b <= a and b <= 13 (or a = b = 14) the pixel address is the Morton (Z-order) interleaving of the coordinates: a bijection from the pixels onto the addresses below width*height. For taller than wide textures addresses are still pairwise distinct, but the middle row is sent to width*height and beyond, outside the texture; unequal sides below 16 or above 2^14 write outside the mask arrays.", "quantifier": "every size pair and every coordinate pair", "why_tests_cant": "2^28 coordinates times 121 sizes", "anchors": ["formats/addr_ps3.hpp: MortonSettings, MortonAddr"]}
{"id": "C41", "title": "Block texture alpha decoding", "statement": "BC2 alpha: each texel's alpha is its 4-bit value times 17; BC3/BC4/BC5 channels: each texel's 3-bit index selects from the 8-entry palette built from the block's two end points, values between the end points rounded down (plus 0 and 255 when the first is not greater); each of the 16 texels of the block gets its own entry in its own byte, and no other byte of the image is written.", "quantifier": "every 64-bit block, every texel", "why_tests_cant": "2^64 blocks", "anchors": ["formats/BlockDecoder.inl"]}
{"id": "C42", "title": "DDS buffer layout", "statement": "For a texture header with at most 15 mip levels ComputeBufferSize stores consecutive offsets (each the sum of the sizes before it) and returns the sum; more levels write outside its arrays. A level of a plain format has the true size (texels times bits, rounded up to bytes, dimensions halved but not below one) exactly while neither dimension was halved below one; a level of a block format has the true size exactly if it is a whole number of blocks both ways, or at most one block of fewer than sixteen texels (so every level of a square power-of-two texture). Bits per texel follow the channel sizes in the format's name. A stated bit count is kept; the legacy codes get the bits of their texels except UYVY, which stays unsized. NumMipmaps sets the mip-map flags exactly when there is more than one level. Not so: 8x2 block textures, long thin textures, textures of 2^32 texels, typeless block formats (not padded), packed two-texel formats (bits doubled), and the video formats, of which only AYUV, Y410, Y416, NV12 and Y210 have their bits (P010, 420_OPAQUE and YUY2 get 32, P016 and Y216 64, those after Y216 none).", "quantifier": "every texture header with at most 15 mips", "why_tests_cant": "all dimension/format/mip combinations; integer overflow and dimension underflow", "anchors": ["formats/DDS.hpp: ComputeBufferSize, ComputeBPP"]}
{"id": "C43", "title": "DDS legacy format mapping", "statement": "A format that ToLegacy accepts is recovered by FromLegacy in any header, with the same bits per texel, including premultiplied alpha; with incompatibilities forced the recovered format describes the same data (sRGB variants and depth lose only that). A legacy description FromLegacy accepts is given back by ToLegacy up to synonyms unless the header already claimed premultiplied alpha. Unknown formats leave the header untouched, and no other field changes. The constants are what their names say: the masks, bits and kind of the channels named, or the four characters of the code (A2B10G10R10 lacks its alpha mask). Not so: the masks exchange red and blue for the 8:8:8:8 and 4:4:4:4 formats, the 10:10:10:2 mask loses alpha, and DXT3 read into a header claiming premultiplied alpha is written as DXT2.", "quantifier": "every DXGI format", "why_tests_cant": "table with about 120 entries and several many-to-one cases", "anchors": ["formats/DDS.hpp: FromLegacy, ToLegacy"]}
{"id": "C44", "title": "Half-float conversion round trip", "statement": "Half to float: the scalar decoder gives every half its IEEE value, infinity or NaN except minus zero and the negative subnormals, which come out at -1 or below; the vector decoder gives every half its value, but a NaN becomes an infinity. Float to half: floats from 1.5 (vector: 0.5) up to 65536, from -2.5 (-1.5) down to -65536, and in (-1, -2^-14] become the neighbouring half toward zero; non-negative floats below 1023.5 * 2^-24 become the nearest half; the other floats from 2^-14 up in magnitude lose their value (1.0f becomes 0). Round trips hold for exactly the halves in those ranges. Lanes are independent. The 5/6-bit packed floats are exact except subnormals (16 or 32 times too small) and NaN; VectorR11G11B10_UFLOAT misreads every component other than zero.", "quantifier": "every 16-bit pattern", "why_tests_cant": "exhaustive in principle but spread over denormals, infinities and NaNs in two implementations", "anchors": ["datas/float.hpp: esFloat::ToFloat, FromFloat, ToVector4, FromVector4"]}
{"id": "C45", "title": "4x4 matrix algebra", "statement": "In exact real arithmetic: every entry of a product is row times column, the product is associative and the identity a unit (a unit in single precision too for finite entries); TransposeFull and, up to last lanes, Transpose are involutions; RotatePoint of a product applies the factors in order for matrices whose first three rows end in 0; the matrix of a unit quaternion is a rotation, quaternion products become matrix products, ToQuat gives the quaternion back up to sign and every rotation matrix is rebuilt from its quaternion; Compose and Decompose undo each other for scales of one sign. operator-() undoes the matrix when rows are read as equations, but is the inverse for operator* only when the translation is turned alike by the rotation and its transpose, and not for rows shorter than 1/1000.", "quantifier": "every matrix and vector", "why_tests_cant": "uncountable domain", "anchors": ["datas/matrix44.cpp", "datas/matrix44.hpp"]}
{"id": "C46", "title": "Vector compound operators agree with their names", "statement": "For the 2-, 3- and 4-component integer vectors and the SSE vectors, a op= b stores the component-wise a op b (exact when signed and defined, modulo 2^32 otherwise) for every operator except |= of the 4-component scalar class, which stores the and; equality holds exactly for equal vectors, Sign is -1 exactly when a component is negative, shifts, complement and conversions do what their names say lane by lane (unsigned lanes of 2^31 and more convert to negative floats); float comparison is within epsilon per lane in exact arithmetic but not symmetric in single precision, IsSymetrical of the SSE float vector ignores the fourth lane, Cross, Normalized and QComputeElement have their algebraic meaning. A component that no 32-bit integer can hold converts to 0x80000000, and the bitwise not of a float vector flips all 32 bits of every component.", "quantifier": "every vector value", "why_tests_cant": "a wrong operator only shows for operands where & and | differ", "anchors": ["datas/vectors.hpp"]}
{"id": "C47", "title": "Vertex format codecs decode every field", "statement": "GetValue: UINT returns each packed field zero-extended, INT sign-extended, missing components 0; UNORM gives field/(2^n-1) and NORM signed field/(2^(n-1)-1) to a relative error of 2^-22, 0 and the full-scale values exactly, monotonically, in all lanes but three (32-bit UNORM drops the lowest bit first; NORM is not clamped, the most negative value of up to 16 bits is below -1). FLOAT: single-precision bits verbatim, halves with their value (NaN becomes infinity); UFLOAT/FLOAT 11:11:10 red and green exact for zero, normals, infinity. Not so: red and blue of R5G6B5 and blue of R11G11B10 are read one bit too wide, blue taking green's top bit, and are right only at 0 with that bit clear or at full scale with it set; the one-component half gets -0 and negative subnormals wrong.", "quantifier": "every format, every input word", "why_tests_cant": "2^128 input patterns; neighbour contamination shows only for particular bits", "anchors": ["uni/internal/format_full.hpp"]}
{"id": "C48", "title": "Vertex format sampling", "statement": "Sample produces exactly count (or, for 0, the output's size) vectors, vector i being the value at input + i*stride (packed for stride 0), whenever the last one's bytes are readable; a positive stride below the element size throws; a value depends on its own bytes only. A buffer of exactly the packed elements suffices for every format except R32 and R32G32 INT/UINT, R32G32, R16G16B16 and R8G8B8 UNORM/NORM and R16G16B16 FLOAT, which read past its end.", "quantifier": "every count, stride, format", "why_tests_cant": "unbounded counts; over-reads are invisible without guard pages", "anchors": ["uni/internal/format_full.hpp: _fmtSampler", "uni/format.hpp"]}
{"id": "C49", "title": "Codec registry", "statement": "Get returns the codec of the requested format for exactly the documented pairs and throws for every other pair of 16-bit numbers; integer calls on a non-integer codec (or the reverse) throw; descriptors are equal exactly when both fields are, the order is strict and total, and the hash tells all descriptors apart.", "quantifier": "every descriptor pair", "why_tests_cant": "7 x 18 pairs and both call kinds", "anchors": ["uni/uni_format.cpp: registry, FormatCodec::Get"]}
{"id": "C50", "title": "List iteration visits every element once in order", "statement": "A range-for over a uni list hands out At(0), At(1), ..., At(Size-1), each once and in order, and then stops, for every list of fewer than 2^64 elements, also when the body appends elements (which are not visited); a body that shortens the list makes the next access throw and no element outside it is touched; At beyond the size throws. An iterator made for position 2^32-1 or above stands at the end, iterators of different lists are equal when their positions are. Iterating a skeleton or motion directly works when it lends its list and reads a destroyed list when it hands out one made for the call.", "quantifier": "every list", "why_tests_cant": "unbounded lists", "anchors": ["uni/virtual_iterator.hpp: VirtualIterator", "uni/list.hpp", "uni/list_vector.hpp"]}
{"id": "C51", "title": "Blowfish key schedule", "statement": "SetKey on any non-empty key produces a usable encoder (18 + 1024 words, same mode and variant) so the block and mode laws apply; for keys of 7-bit characters the encoder is the published one: its constants are the first 33344 bits of pi behind the point, combined with the repeated big-endian key words (little-endian in the second variant) and replaced two at a time by the 521 successive ciphertexts of the zero block. The published schedule uses every key byte: the code does not when a byte is 0x80 or more (it is sign-extended over the bytes above it, so different four-byte keys give identical encoders), and SetKey discards an initialisation vector set before it in every chaining mode. Keyed through the encryptor interface the second variant takes the key's words the other way round, as if it had been given the key written four times with every four bytes backwards; refuted: that this is the same as keying it directly.", "quantifier": "every key, every mode, every previous encoder state", "why_tests_cant": "keys are unbounded and the collision needs particular high bytes", "anchors": ["datas/encrypt/blowfish.cpp: BlowfishEncoder::SetKey, BlowfishEncoder2::SetKey, BF_PBOXES, BF_SBOXES", "datas/encrypt/blowfish.h", "datas/encrypt/blowfish2.h", "datas/encrypt/encryptor.hpp: IEncryptor"]}
{"id": "C52", "title": "Block texture colour decoding", "statement": "BC1, BC2 and BC3 colours: each texel of the block gets the palette entry its 2-bit index selects (end points, one third, two thirds), each channel at most one below the exact value on the scale 0..255 and never above, end points and the 6-bit channel exactly rounded down; nothing else is written. BC1 with alpha: blocks whose first word is not greater than the second have the mean of the end points for indices 2 and 3 and alpha 0 exactly for index 3. Not so: blocks in the other order leave the alpha byte as it was, and the mean of two whites is not white.", "quantifier": "every 64-bit colour block, image size and block position", "why_tests_cant": "2^64 blocks; float rounding over all end points", "anchors": ["formats/BlockDecoder.inl", "formats/BlockDecoder.h: DecodeRGB565Block"]}
{"id": "C53", "title": "Restored blue channel", "statement": "ComputeBC5Blue sets byte 0 of every three-byte pixel to exactly floor(127(1+z)) with z = sqrt(max(0, 1-x^2-y^2)) of the components in its other two bytes and changes nothing else, where char is unsigned. Where char is signed the conversion is undefined as soon as z >= 1/127.", "quantifier": "every image, every pixel value", "why_tests_cant": "float rounding over all pixel values and any image size", "anchors": ["formats/BlockDecoder.h: ComputeBC5Blue"]}
{"id": "C54", "title": "Pointer fixup", "statement": "After any sequence of checked Fixup calls with one root - any order, any repetitions, any number of threads as long as each slot is fixed by one thread - every visited pointer slot reads as root + stored offset, exactly once; null slots stay null, unvisited slots are untouched, and Fixup returns true exactly on the first visit of a non-null slot. A 32-bit slot resolves correctly exactly when the target lies within 2 GB of the slot and is not the slot itself (Fixup still returns true otherwise). Refuted: assigning nullptr to a 32-bit slot makes it null; a second Fixup with noCheck, after ClearESPointers or from another thread is harmless (it adds the root again); a slot of a file loaded later at the same address is fixed (it is skipped until ClearESPointers).", "quantifier": "All histories of Fixup/assign/clear/load events over all slots, threads, roots and offsets", "why_tests_cant": "The interleavings, revisit orders and addresses (ASLR, block reuse) are unbounded and differ per run", "anchors": ["datas/pointer.hpp: Pointer_t, PointerX86, ClearESPointers"]}
{"id": "C55", "title": "RIFF WAVE headers", "statement": "IsValidWaveChunk accepts exactly the chunks whose tag bytes spell fmt , data, fact or smpl; RIFFHeader(n) announces n-8 bytes for every n from 8 up; a data chunk announces its payload and GetData points right behind the header; a fmt header for PCM, A-law or mu-law with CalcData is byte for byte the 24-byte WAVE fmt chunk with the right byte rate and frame size while these fit. Refuted: Next reaches the following chunk (it lands 8 bytes short, for every chunk sequence whose size field counts the payload); CalcData fills in the 4-bit ADPCM formats (it stores 0); RIFFHeader below 8 bytes. Element k of the array GetSampleLoops gives is, byte for byte, the k-th loop stored behind the smpl header.", "quantifier": "All header contents, sizes, channel counts, sample rates and chunk sequences", "why_tests_cant": "Sizes and rates range over 2^32 values and chunk sequences are unbounded", "anchors": ["formats/WAVE.hpp: WAVEGenericHeader::Next, RIFFHeader, WAVE_fmt, CalcData, WAVE_data, IsValidWaveChunk"]}
{"id": "C56", "title": "Unicode conversions", "statement": "ToUTF8 turns every non-empty UTF-32 or UTF-16 text into exactly its UTF-8 form and ToUTF1632 every UTF-8 text into its UTF-16 units; anything else throws (overlong forms, stray bytes, surrogates, values above 0x10FFFF), except a sequence cut short at the end, which is dropped silently; pointer overloads stop at the terminator. to_wstring and to_string are inverse for every non-empty text where wchar_t has 2 bytes, and where it has 4 bytes for exactly the texts without characters from 0x10000 on. Refuted: the round trip with such a character on a 4-byte wchar_t; ToUTF8 of an empty string (undefined).", "quantifier": "All texts over all Unicode scalar values, all byte and unit sequences, both wchar_t sizes, strict and lax standard libraries", "why_tests_cant": "1.1 million characters in unbounded sequences; malformed inputs are unbounded too", "anchors": ["datas/unicode.hpp: ToUTF8, ToUTF1632", "datas/tchar.hpp: to_string, to_wstring"]}
{"id": "C57", "title": "Unpacking vertices, comparing transforms", "statement": "Resample changes neither the number nor the order of the vectors and applies the descriptor's rule (add the minimum, multiply by the minimum, multiply by the minimum and add the maximum, or nothing) to every component, with single rounding per operation; in exact arithmetic it undoes the matching packing when no scale is zero. A fresh transform is the identity and two transforms are equal exactly when every component of translation, rotation and scale is within epsilon.", "quantifier": "every unpack rule, box, list of vectors and component; every pair of transforms and epsilon", "why_tests_cant": "the inputs are unbounded arrays of floats; tests sample a few", "anchors": ["uni/internal/model.inl: PrimitiveDescriptor::Resample", "uni/rts.hpp: RTSValue"]}
{"id": "C58", "title": "Calls a class does not implement", "statement": "A caller of an unimplemented GetTM/GetValue overload gets, whatever type the object reports, an exception that only handlers for std::exception and catch-all handlers take and that carries neither message of the code (claim that logic/runtime handlers work is refuted); setting the frame rate of a motion that does not allow it throws an object handlers for std::exception do not take; its message glues the property's name to the next word for every name.", "quantifier": "every overload, every reported type, every handler type, every property name", "why_tests_cant": "needs all overload/type/handler combinations and all names", "anchors": ["uni/internal/motion.inl", "uni/internal/skeleton.inl", "uni/internal/exception.hpp"]}
{"id": "C59", "title": "SIMD colour blocks", "statement": "The SSE colour-block decoder writes exactly the sixteen three-byte texels of its block, texels with equal indices get equal bytes that depend only on the end points and the index; bytes of end-point texels, and of all texels when channel by channel both end points lie in the same half of the range, are within 9 of the exact value; when they do not, every mixed texel is wrong by more than 76 in that channel. With texels that are not three bytes it writes elsewhere.", "quantifier": "every 8-byte block, image size and block position, texel and channel", "why_tests_cant": "2^64 blocks and every position; the bad blocks are those whose end points straddle the middle", "anchors": ["formats/BlockDecoderSimd.hpp: _SDecodeBC1Block, DecodeRGB565Blocks"]}
{"id": "C60", "title": "Objects inside objects", "statement": "GetReflectedSubClass(id, n) gives an object exactly when member id is an object of a registered class or an array of them and n is 0 or a valid element number; it lies at the member's or element's address, inside the outer object, and different elements never overlap. An array without elements still hands out an element 0. IsReflectedSubClass says yes exactly for members that are objects or arrays of objects, IsArray exactly for arrays.", "quantifier": "every class table, member number, element number and base address", "why_tests_cant": "every class a program may reflect and every index; an off-by-one hands out a neighbour's memory", "anchors": ["datas/reflector.cpp: Reflector::GetReflectedSubClass"]}
{"id": "C61", "title": "Finding members by name; name/value pairs", "statement": "A hash finds the first member of that name, or if there is none the first with that alias, and nothing otherwise; when the descriptions carry their own positions every call taking a name does what the call taking the position does, and an unknown name changes nothing. Bit fields reflected in an order different from their declaration break this for reading (setting works); in a class with aliases the hash 0 finds the first member without one. GetReflectedPair returns the alias when asked for and present, and the value between the two halves of the description split at the percent sign; asking for alias or description of a class reflected without them dereferences null, and a description that starts with the percent sign is dropped.", "quantifier": "every class table, alias table, hash, description text and option", "why_tests_cant": "hash collisions and alias tables of all classes cannot be enumerated", "anchors": ["datas/reflector.cpp: Reflector::GetReflectedType", "datas/internal/reflector.inl", "datas/internal/reflector_class.hpp: _GetReflDescPart"]}
{"id": "C62", "title": "Member descriptions", "statement": "The description built for a member gives its kind, name and position, and its offset, element count and element size exactly when these are below 65536, 65536 and 256; element i of an array of objects is found at its true address for all i exactly under these limits. Objects whose size is a multiple of 256 all resolve to the first element; arrays of arrays lose the inner dimensions. An array of vectors keeps component kind, size and count.", "quantifier": "every C++ member type (arrays and vectors nested to any depth), offset, index and element", "why_tests_cant": "sizes and offsets are unbounded; truncation shows only beyond 8 and 16 bits", "anchors": ["datas/internal/reflector_type.hpp: BuildReflType, _getType", "datas/vectors.hpp: CompileVectorHash_", "datas/refl_array.hpp", "datas/flags.hpp"]}
{"id": "C63", "title": "Setting numbers directly", "statement": "SetReflectedValueInt/UInt/Float store the number in the member or in element 1, 2, ... of an array or vector and touch nothing else; a missing member, an element number out of range, an element of a scalar or another kind of member is refused with the object unchanged. A number that does not fit is truncated and reported as success; element 0 of an array cannot be set.", "quantifier": "every class, member, element number, value and object contents", "why_tests_cant": "all 2^64 values on all members", "anchors": ["datas/reflector.cpp: Reflector::SetReflectedValueInt, SetReflectedValueUInt, SetReflectedValueFloat"]}
{"id": "C64", "title": "Reflected member lists", "statement": "The preprocessor loops behind REFLECTOR_CREATE count one to 86 or 89 arguments correctly, process each exactly once in order and number them from 0; more than 89 stop the build. 88 arguments are counted as 87 and the last is silently left out; 87 are counted as 88 with an empty one appended.", "quantifier": "every list of macro arguments", "why_tests_cant": "each length is a different macro; tests use short lists", "anchors": ["datas/macroLoop.hpp: VA_NARGS, StaticFor, StaticForArgID"]}
{"id": "C65", "title": "Reflection databases", "statement": "Whatever classes and enumerations a database object holds, Save writes a file that Load accepts, and the loaded object - followed through its pointers, wherever the buffer lies - has the same class hashes, member types, names, class names, aliases (absent ones included), descriptions and enumerations, as long as the whole takes less than 2 GB. Not so for the alias hashes: they are written but never referenced, so they are always lost, and a file that does reference them has the alias names replaced by them. Load refuses exactly files that do not start with RFDB (1) and files of a newer version (2); the counts in the header are believed, so a file announcing more records than fit makes it read and write outside its buffer. Refuted: that Load leaves alone what the object already holds - a held class without aliases, alias hashes and descriptions keeps its hash and number of types but loses its names and its class name, and its types become the bytes at the start of the buffer; a held enumeration takes the names of the one in the file. Refuted: that Save can put a database behind something else in a stream - the header is written over the start of the stream, and what is behind cannot be loaded; at the start of a stream Save is right.", "quantifier": "every list of classes and enumerations with texts of any length, every buffer address, every file, everything an object may hold before, everything a stream may hold before", "why_tests_cant": "databases are unbounded and the in-place conversion of offsets to pointers overlaps differently for every shape", "anchors": ["datas/reflector_io.cpp: ReflectorIO::Save, ReflectorIO::Load, Fixups"]}
{"id": "C66", "title": "Joining a path to its branch", "statement": "CatchBranch of a file \"/name/...\" with a place \"root/name...\" (something following the name, nothing in the place looking like the name before it) gives \"root/name/...\", and with a place that has nothing like the name in it, the place followed by the file name. Otherwise not: without the leading slash the separator before the name is lost; a place that ends with the name gets the file name glued to it; a place that starts with the name throws; a file that is only a slash is undefined. The search ignores the first character of the name, so a place holding a look-alike is cut there.", "quantifier": "every file path and every place", "why_tests_cant": "all texts; one example is tested", "anchors": ["datas/fileinfo.hpp: FileInfo::CatchBranch"]}
{"id": "C67", "title": "An object saved to XML loads into any other object of the class", "statement": "ReflectorXMLUtil::Save of an object whose members all have a text (integers, unsigned bit fields, booleans 0 or 1, named enum values and flags, floats and doubles that are zero, infinite or nearest to a decimal number of at most 6 or 13 digits, arrays and vectors of these, nested objects and arrays of objects to any depth) followed by Load into any object of the same class copies every bit of every member and changes nothing else, whatever that object held before; with class nodes the object is found among nodes of other classes, and only the first node of its class is read; elements may come in any order, repeated or missing, and exactly the members present are copied; children that name no member, or a missing class node, change nothing. Signed bit fields, floats that need more digits, enum values without a name and booleans other than 0 and 1 do not survive.", "quantifier": "all class descriptions with distinct name hashes, all nesting depths, all memory contents of source and target, all documents built from the saved elements", "why_tests_cant": "the claim ranges over all classes, nestings and object contents, and over the previous contents of the target", "anchors": ["datas/reflector_xml.cpp: ReflectorXMLUtil::Save, ReflectorXMLUtil::Load, MakeHash, GetName, MakeNode", "datas/reflector.cpp: Reflector::GetReflectedSubClass"]}
{"id": "C68", "title": "An object saved as XML attributes and elements loads into any other object of the class", "statement": "ReflectorXMLUtil::SaveV2 (numbers, booleans, enum values and bit fields as attributes, one per array element; vectors and flag sets as elements with one attribute per component or flag; objects as elements, name-index for each in an array) followed by LoadV2 into any object of the same class copies every bit of every member and changes nothing else, to any nesting depth; with a class node it is found among nodes of other classes; attributes and elements may come in any order, and missing or repeated ones copy only bits of the members present; attributes, and elements without attributes, that name no member are skipped. Refuted: an unknown element with an attribute (dereferences null); arrays in classes without names (every index is lost); arrays of vectors with more components than a component has bytes; vectors and flags in array classes (written, never read); vectors of more than four components and flags numbered 31 or more (undefined); component names other than x, y, z, w or beyond the vector's size (write outside the vector).", "quantifier": "all class descriptions with distinct name hashes, all nesting depths, all memory contents of source and target, all permutations and parts of the saved document", "why_tests_cant": "the claim ranges over all classes, nestings and object contents, and over the previous contents of the target", "anchors": ["datas/reflector_xml.cpp: ReflectorXMLUtil::SaveV2, ReflectorXMLUtil::SaveV2a, ReflectorXMLUtil::LoadV2", "datas/reflector.cpp: Reflector::GetReflectedValue, Reflector::SetReflectedValue"]}
{"id": "C69", "title": "ZIP headers", "statement": "Writing any of the six ZIP header structures puts exactly the bytes of the format - every member in little endian, in order, without the structure's padding (local file header 30 bytes, central entry 46, signature 6, end record 22, 64-bit end record 56, locator 20) - whatever the stream's byte order; reading any bytes of that size fills every member with the field at its place, leaves every other byte of the structure alone and stops after the header; so writing and reading back restores every member except the padding member of the local header. An archive written this way, with names, extra fields and contents after the headers, opens in the virtual file system and delivers every content. Refuted: the 64-bit end record on a byte-swapping stream has two of its ten members reversed and the others not.", "quantifier": "all member values, all padding contents, all previous contents of the structure read into, all positions in the stream, all lists of entries", "why_tests_cant": "all values of ten or more members, and archives of any length", "anchors": ["formats/ZIP_ostream.inl: ZIPLocalFile::Write, ZIPFile::Write, ZIPSignature::Write, ZIPCentralDir::Write, ZIP64CentralDir::Write, ZIP64CentralDirLocator::Write", "formats/ZIP_istream.inl: ZIPLocalFile::Read, ZIPFile::Read, ZIPSignature::Read, ZIPCentralDir::Read, ZIP64CentralDir::Read, ZIP64CentralDirLocator::Read"]}
{"id": "C70", "title": "A string view shows a part of its text", "statement": "A view made from a string shows all its characters, from a C string those before the first NUL, from two pointers those between; iterating, indexing, front, back and conversion to a string deliver them. Any history of remove_prefix, remove_suffix and resize, none taking more than there is, leaves the view showing exactly the part kept; swap exchanges two views. All six compare functions order the texts or the parts asked for, and throw exactly when a position is not inside its view - so comparing the empty part at the end throws. Taking more than there is wraps the size, and the checked access then lets indices outside the text through.", "quantifier": "every memory contents, every view into it, every history of modifiers, all positions and counts", "why_tests_cant": "histories and texts are unbounded; size wrap-around is only visible at the top of the range", "anchors": ["datas/internal/string_view.inl: basic_string_view, remove_prefix, remove_suffix, resize, swap, compare, substr, begin, end, to_string"]}
{"id": "C71", "title": "Python lists and enumerations", "statement": "After any history of calls on a list object that is alive, len returns the number of elements, indexing inside returns that element, and next returns the elements one by one since iteration was last started, then stops; an index below 0 or past the end leaves the container's exception to the interpreter, which terminates. A for statement visits every element once, in order. Refuted: that it leaves the list as it was - the iterator is the list itself, handed out without counting the reference, so every for statement takes one reference away: after as many loops as there are holders the elements are released under all of them, a for statement over a list nobody else holds crashes before its first element, and two nested loops over one list end the outer loop after its first element. Likewise every question for the parent of a root bone takes a reference from None. Enumerations: number to name and name to number, IndexError outside, and in the module's three enumerations the two are inverse; reflected enumerations read outside their table for numbers outside it. Bones compare equal exactly when they are the same object or agree in number and name.", "quantifier": "every list, every history of calls, every number of holders, every loop body that does not touch the list, every enumeration table", "why_tests_cant": "histories of calls and loops are unbounded, and the lost references only show after as many loops as there are holders", "anchors": ["uni/python/pylist.hpp: UniPy::List::Len, Subscript, Iter, IterNext, Dealloc", "uni/python/pyenum.hpp: UniPy::Enum", "uni/python/pyskeleton.inl: Bone::GetParent, Bone::Compare", "uni/python/pymotion.inl: enumeration tables", "datas/python/reflected_enum.hpp: ReflectedEnumPy"]}
{"id": "C72", "title": "Error messages", "statement": "The message of an invalid-header error made from a tag in an unsigned value of less than 8 bytes names the first characters of the tag (at most the given number, up to a NUL): themselves when all are letters or digits, otherwise each as 0x and its hexadecimal number; so two ASCII tags of up to seven characters have the same message only if they are the same. A message exists exactly when the value widened to 8 bytes contains a zero byte and the first shown character that is neither letter nor digit is one isalnum may be asked about. Refuted: that every tag has a message - a negative value without a zero byte and any 8 byte value without one make the search for the end leave the object, whatever number of characters was asked for. Versions are written in decimal, file names as they are.", "quantifier": "every value of every integer type, every requested number of characters, every version and file name", "why_tests_cant": "2^64 values; the undefined cases may appear to work", "anchors": ["datas/except.hpp: InvalidHeaderError, DecompileFourCC, InvalidVersionError, FileNotFoundError, FileInvalidAccessError"]}
{"id": "C73", "title": "Help text of a settings class", "statement": "The help of a settings class is, in order, one line for every member at its depth, its description (the part before the value) one deeper, then the members of the member's class (also through arrays) one deeper again, or the names of its enumeration's values. It exists, and is unique, whenever every class reached has names and descriptions, everything reached is registered and no class contains itself; then every member of every class reached is listed at its depth. Refuted: that every reflected class has help - a class reflected without descriptions crashes at its first member, and an unregistered class or enumeration ends the help with an exception after the member's own lines. The log file starts with time, thread count and one line 'alias-or-name: value' for every member, in order; for a class reflected with plain names only, it crashes.", "quantifier": "every class hierarchy, every registry, every text of names and descriptions, every member value", "why_tests_cant": "class hierarchies of any depth and shape", "anchors": ["datas/settings_manager.hpp: SettingsManager::GetHelp, SettingsManager::CreateLog", "datas/internal/reflector.inl: Reflector::GetReflectedPair", "datas/internal/reflector_class_reg.hpp: reflectorStatic_data"]}
{"id": "C74", "title": "Registered types are found", "statement": "After any history of registrations of reflected classes and enumerations, a member of a type finds the type registered last among those of its kind with the same key; so when no two registered types of a kind share a key, every registered type is found by its members, whatever the order and however often types are registered, and an enumeration and a class of one name do not disturb each other. Refuted: that a registered class is found - classes reflected without a name share one key, so a member of one is taken for whichever was registered last, and so are two classes whose names have the same hash (two such names are given).", "quantifier": "every history of registrations, every type", "why_tests_cant": "histories of registrations are unbounded; collisions depend on 2^32 hash values", "anchors": ["datas/internal/reflector_reg.hpp: RegisterReflectedType, RegisterReflectedTypes", "datas/internal/reflector_type.hpp: _getType::Hash", "datas/internal/reflector_class_reg.hpp: ReflectorTypeBase::Hash", "datas/reflector.cpp: Reflector::GetReflectedSubClass"]}
{"id": "C75", "title": "Kinds of files", "statement": "The kind of a path is Directory for directories, File for regular files and Invalid for character devices and pipes, whatever the permissions, and Error exactly when the path cannot be examined. Refuted: that only directories are called Directory - every socket and every block device is. On Windows a failure is Invalid, a path with the directory attribute a Directory and any other a File. A request for help is one of -h, -?, /? and --help.", "quantifier": "every kind of file, all permission bits, all attribute words, every argument text", "why_tests_cant": "2^16 modes and 2^32 attribute words, and kinds of files a test machine does not have", "anchors": ["datas/internal/stat_ix.inl: FileType", "datas/internal/stat_win.inl: FileType", "datas/stat.hpp: FileType", "datas/tchar.hpp: IsHelp"]}
{"id": "C76", "title": "Node suffixes and correction matrices", "statement": "After any history of calls on a node suffixer, with the suffix generated at any time in between, the suffix lists the channel numbers added (a 0 with the first color, a -2 with every full color) in ascending order after a U and one letter for each of normals, skin and morph used; so it does not depend on the order of the calls. Refuted: that the suffix determines the channels - the numbers are not separated. The text of a correction matrix determines the matrix among those that send axes to axes; refuted for other matrices.", "quantifier": "every history of calls, every class name, every matrix", "why_tests_cant": "histories are unbounded", "anchors": ["MAXex/NodeSuffix.h: INodeSuffixer", "MAXex/hk_preset.hpp: GetCorrectionMatrix"]}
{"id": "C77", "title": "Test macros check what they are given", "statement": "A test function whose check arguments are written as one operand (truth checks) or with operators binding tighter than the comparison (comparison checks) returns 0 and prints nothing exactly when all checks hold; otherwise it stops at the first that does not, returns 1 and prints exactly one error line naming the place, the texts of the arguments and their values with the relation found. A list of up to 86 cases calls every one; its result is the number of failures and, as an exit status, 0 exactly when all succeeded. Refuted: that TEST_CHECK(a == b) checks a == b (the negation falls on the first operand, any two different non-zero numbers are accepted), that TEST_EQUAL(a & b, c) compares a & b, that an 88th case is run, and that failures cannot cancel out when a function returns other numbers.", "quantifier": "every argument expression of one- and two-operand operators, all values, every sequence of checks, every list of cases", "why_tests_cant": "the macros are what unit tests are made of; a test using them cannot judge them, and argument expressions are unbounded", "anchors": ["datas/unit_testing.hpp: TEST_CHECK, TEST_NOT_CHECK, TEST_EQUAL, TEST_NOT_EQUAL, TEST_GT, TEST_LT, TEST_GT_EQ, TEST_LE_EQ, TEST_THROW, TEST_FUNC, TEST_CASES, PrintCheckFailed"]}
{"id": "C78", "title": "3ds Max map and material accessors, composite layers", "statement": "For each of the map and material wrappers, setting a named parameter and getting it back gives the value, and changes no other named parameter and no other layer; the constructors taking maps leave what the accessors then give; map number k of the physical material is parameter 100 + k and its switch 150 + k. Resizing a composite map to n >= 1 layers leaves exactly n, the first ones as they were and the rest new, and to less than 1 changes nothing; adding returns the index of the layer added; deleting removes exactly the layer named, never the only one, and ignores an index past the end. Refuted: that a negative index is ignored - with two or more layers it is passed on to the host.", "quantifier": "every class and parameter, all values and layer indices, every layer list and size", "why_tests_cant": "values, layer lists and sizes are unbounded and the host program is not available to tests", "anchors": ["MAXex/MapsCore.h: MapBase_t, ACCFUNC", "MAXex/CompositeTex.h: CompositeTex, Layer", "MAXex/Mix.h: Mix", "MAXex/NormalBump.h", "MAXex/RGBMultiply.h", "MAXex/VertexColor.h", "MAXex/PhysicalMaterial.h: Params_e, Maps_e"]}
{"id": "C79", "title": "Vectors as text", "statement": "The text of a vector of integers splits at its spaces into exactly one decimal number for each component, its value; so different vectors have different texts. A stream receives the same text for components of 16 bits and more. The text of a vector of finite floats splits into one number with six decimals for each component, with its sign and within half a millionth of it. Refuted: that a stream receives numbers for a vector of bytes (it receives characters), and that the text determines a float vector.", "quantifier": "all component values, vectors of 2, 3 and 4 components, all finite floats", "why_tests_cant": "2^32 to 2^256 vectors", "anchors": ["datas/vectors_string.hpp: to_string", "datas/vectors_stream.hpp: operator<<"]}
{"id": "C80", "title": "XML helpers", "statement": "Every set of parse or format flags reaches the XML library as exactly the options of those names, the defaults as its defaults and every encoding as the encoding of that name. Collecting children gives all of them without a name and exactly those of that name otherwise, in document order. Loading returns the document when the library reports no error; a missing file, a text without an element and any other failure are three different exceptions, with the file, failure and offset in the text; a failed save names the file. Messages about a node give its name, an offset and the reason. Refuted: that the offset is the place of the node - it assumes 25 characters before the first element's name.", "quantifier": "all sets of flags, all trees, names, statuses and offsets", "why_tests_cant": "sets of flags and trees are unbounded; failures such as out of memory cannot be provoked in a test", "anchors": ["datas/pugiex.hpp: XMLParseFlag, XMLFormatFlag, XMLEncoding, XMLError, XMLCollectChildren, XMLFromFile, XMLToFile, XMLBaseException"]}
{"id": "C81", "title": "File readers and writers", "statement": "As long as readers and writers are not moved, a use of one reaches a file exactly if it was opened with that file, by the constructor or by Open, and since then it was neither asked to open again nor destroyed. Opening succeeds exactly if the system can open the file and the object never had one; otherwise it throws, a constructor leaves no object, and after a failed first attempt another can succeed. Readers change no file; a writer changes only the file it opens, which it makes or empties. Refuted: that Open on an open object goes over to the other file (it throws, and the object reaches no file any more), and that a moved reader or writer still reaches its file (it goes through the object it was made from: nowhere, through a dangling pointer once that is destroyed, or to that one's next file).", "quantifier": "all histories of constructing, opening, moving and destroying, all file systems and names", "why_tests_cant": "histories are unbounded; a dangling pointer need not show in a test", "anchors": ["datas/binreader.hpp: BinReader", "datas/binwritter.hpp: BinWritter", "datas/internal/bincore_file.hpp: BinStreamFile"]}
{"id": "C82", "title": "Console colours", "statement": "On a terminal, setting a text colour sends each colour printer the escape sequence with the three numbers in decimal, so that different colours are different sequences; this is safe exactly as long as the numbers have no more than 21 characters together, which all colours from 0 to 255 do. On the Windows console the colour becomes one of sixteen: intense if one component is above 128 or one is 128 and another between 1 and 127, each primary present if its component is above 127 of an intense and above 0 of another colour; warnings are bright yellow and errors bright red whatever was set before. Refuted: that restoring brings back the attributes the console had - it always sets plain grey on black - and that a colour with a component present keeps it. On a terminal that follows ECMA-48, text printed between setting a colour and restoring appears in exactly that colour, whatever was set before, nothing else appears, and afterwards the colour is the standard one; numbers that are no colour (below 0 or above 255) change nothing on it. Whatever other printers are registered and however the messages of threads interleave, each printer that is such a terminal ends up showing every message once and whole, in one order common to all printers: warnings in yellow and errors in red where the printer takes colours, everything else, thread numbers included, in the standard colour.", "quantifier": "all component values, console attributes and histories of calls", "why_tests_cant": "2^96 colours, and console attributes a test does not meet", "anchors": ["datas/internal/master_printer_ix.inl: SetConsoleTextColor", "datas/internal/master_printer_win.inl: SetConsoleTextColor, RestoreConsoleTextColor", "datas/master_printer.cpp: MSVC_Console_Flags"]}
{"id": "C83", "title": "Audio headers", "statement": "The headers of VAG, FWSE, XVAG and MSF files lie over the bytes of the file as documented, without gaps: reading a member gives the little-endian number of its documented bytes, assigning it changes only them, and after swapping the words of a header every 32-bit member is the big-endian number of the file's bytes, swapping twice brings back the first. The signature is the right one exactly if the file starts with its four characters. In any structure of integers and arrays every member is at a multiple of the size of its elements, after the ones before it. Refuted: that swapping the words of an XVAG header keeps its byte-sized members.", "quantifier": "all bytes of a header, all members, all values; every structure of integers and arrays", "why_tests_cant": "2^512 and more headers; the layout is a rule over all structures", "anchors": ["formats/VAG.hpp: VAG", "formats/FWSE.hpp: FWSE", "formats/XVAG.hpp: XVAGChunk, XVAGHeader, XVAGfmat", "formats/MSF.hpp: MSF", "datas/endian.hpp: FArraySwapper", "datas/supercore.hpp: CompileFourCC"]}
{"id": "C84", "title": "Floating point members as text", "statement": "Setting a float or double member from a decimal number - blanks before it, sign, point, exponent, anything after it that does not continue the number - stores the nearest value, of two equally near ones the even one, whenever the number is within the normal range; zero keeps its sign; a number that would round beyond the largest value is reported and gives the largest value of that sign; one below the smallest normal value gives the smallest normal value and is reported unless it would round up to it with one more bit; a text without a number is refused and changes nothing. No other byte changes. A member prints as a decimal number without zeros at the end of the fraction, plain from 0.0001 to below a million (double: 10^13) and with an exponent otherwise, and none of at most 6 (double: 13) digits is nearer to its value; such a number set from text prints as the same number again; for every normal value printing, reading and printing again gives the same text; a member that holds a zero, an infinity, a value nearer than any other to a decimal number of at most 6 (13) digits, or anything set from such a number, is restored bit for bit by its text in any object; every other normal value changes at most once; a nan stays a nan. Refuted: that every value is restored by its text, that subnormal values are, that reading the text of the smallest normal value is free of errors, that a positive number stays positive (below 2^-1075 it becomes negative), that text after the number is refused. Two finite nonzero values that print the same have the same sign and differ by at most one part in 10^5 (10^12 for doubles) of either, so printing a normal value and setting the text changes it by no more than that.", "quantifier": "all texts with a decimal number, all bit patterns of float and double, all objects and members", "why_tests_cant": "2^64 patterns and unboundedly long numerals; rounding ties and the limits of the range are met by no random test", "anchors": ["datas/reflector.cpp: SetNumber, SetReflectedMember, GetReflectedPrimitive", "datas/reflector.hpp: Reflector::SetReflectedValue, GetReflectedValue"]}
{"id": "C85", "title": "Vectors with narrow components, length and normalisation", "statement": "For vectors of 8- and 16-bit integers every operator stores the exact result modulo the width of the component and is undefined exactly for division by zero, 16-bit unsigned products of 2^31 and more, and shifts out of range; unary minus stores the negative modulo the width (undefined for the smallest int32, and for unsigned 16-bit components above 32768). Length is the whole part of the real length for 8- and 16-bit components and for 32-bit ones with a sum of squares below 2^52 (undefined if that number does not fit the component type), and within one of it always. Normalize of an integer vector gives only -1, 0 and 1: a component keeps its sign if the squares of the others add up to at most twice its size, else it is 0. Convert reduces to the new type, conversions between classes keep the leading components and append zero, SwapEndian reverses the bytes of every component and is its own inverse. For real components Length is the root of the sum of squares, Normalize gives length one in the same direction and leaves the zero vector, and == means that no component differs by more than epsilon. Refuted: that the length of 32-bit vectors is always the whole part, that every int8 vector has a length, that normalised integer vectors have length one, that unsigned 16-bit vectors can be negated.", "quantifier": "all component types and class sizes, all component values", "why_tests_cant": "the claims range over all component values, and the failures need particular large values", "anchors": ["datas/vectors.hpp: t_Vector2, t_Vector, V4ScalarType, fltcmp", "datas/vectors_fwd.hpp"]}
{"id": "C86", "title": "Havok presets", "statement": "Saving a preset adds one element behind everything in the document and leaves the rest as it was: it has the preset's name, an empty element for each extension in the order given, the text of the correction matrix (for each element not zero, row by row, the letter of its column, with a minus below zero), and the scale as the text a reflected float member holding it would have, never cut off; a scale that is zero, infinite or nearest to a decimal number of at most six digits is found bit for bit by reading that text. Two presets that look the same have the same name, the same extensions and - if each row of the matrices has exactly one element that is not zero - the same axes and directions. Refuted: that for other matrices.", "quantifier": "all scales (every single precision pattern), matrices, names, extension lists and documents", "why_tests_cant": "the length of the text and its value depend on the scale; the claims range over all patterns and documents", "anchors": ["MAXex/hk_preset.hpp: SaveHKPreset, GetCorrectionMatrix"]}
{"id": "C87", "title": "Saving what was loaded gives the same document", "statement": "If an object was saved to XML and loaded into any memory, saving it from there gives the same document. This needs no exactness of the floats: whatever normal numbers, zeros and infinities the floats and doubles of the object (members, elements of arrays and vectors, in objects at any depth) hold, loading leaves values in their place that print the same (and so are as near as C84 says), every other value is as it was saved, what is loaded does not depend on the memory loaded into, and the second document equals the first. For subnormal floats this fails: 1.4013e-45 becomes 1.17549e-38.", "quantifier": "all objects of every class description and nesting depth, all values, all memories loaded into", "why_tests_cant": "the values not exactly representable in six or thirteen digits are almost all of them; the claim ranges over all class descriptions and values", "anchors": ["datas/reflector_xml.cpp: ReflectorXMLUtil::Save, ReflectorXMLUtil::Load", "datas/reflector.cpp: GetReflectedPrimitive, Reflector::SetReflectedValue"]}
{"id": "C88", "title": "Saving what was loaded gives the same document (attributes)", "statement": "If an object was saved with ReflectorXMLUtil::SaveV2 (values as attributes, vectors and flags as elements) and loaded with LoadV2 into any memory, saving it from there gives the same document. Floats need not be exact: whatever normal numbers, zeros and infinities the floats and doubles of the object hold (members, components of vectors, elements of arrays, in objects at any depth), loading leaves values in their place that print the same, every other value is as it was saved, what is loaded does not depend on the memory loaded into, and the second document equals the first. For subnormal floats this fails: 1.4013e-45 becomes 1.17549e-38.", "quantifier": "all objects of every class description and nesting depth, all values, all memories loaded into", "why_tests_cant": "the values not exactly representable in six or thirteen digits are almost all of them; the claim ranges over all class descriptions and values", "anchors": ["datas/reflector_xml.cpp: ReflectorXMLUtil::SaveV2, ReflectorXMLUtil::LoadV2", "datas/reflector.cpp: GetReflectedPrimitive, Reflector::SetReflectedValue"]}
{"id": "C89", "title": "Python values and their lifetimes", "statement": "get_values on a track that assigns every component returns one value per time, in order, each of the shape of the track's type (four floats; three rows of four for translation, rotation, scale; four rows for a matrix; one float) and made from what the track gives for that time. A track that leaves components alone: they keep what was last assigned for an earlier time of the same call, else zero, the unit rotation, scale one or the identity - refuted: that a value depends on its own time only. Elements that are not numbers count as -1.0 with an error left behind a list that is returned all the same; anything but one list is a TypeError; a missing override ends the interpreter unless there are no times. transform likewise gives the bone's rows or the identity's. framerate stores any integer below 2^32, larger or negative ones modulo 2^32, and 4294967295 for anything else and for del, reporting success. Every object a script gets points into what exactly one object deletes, and using it is well defined exactly while Python still holds that owner - refuted: that a bone one holds can be used. A script that keeps every owner never touches deleted memory. The memory of the Python objects themselves is never given back.", "quantifier": "every track, bone, list of times, value assigned, every script of creating, holding, dropping and using objects", "why_tests_cant": "tracks, times and scripts are unbounded, and a dangling bone usually still reads its old name", "anchors": ["uni/python/pymotion.inl: MotionTrack::GetValues, Motion::SetFrameRate, Dealloc", "uni/python/pyskeleton.inl: Bone::GetTM, GetParent, Dealloc", "uni/python/pylist.hpp: SubscriptRaw, Dealloc", "uni/python/pyrts.hpp", "datas/python/vectors.hpp", "datas/python/matrix44.hpp", "datas/deleter_hybrid.hpp", "uni/rts.hpp"]}
