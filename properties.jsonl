{"id": "C01", "title": "readBits returns exactly the addressed bits", "statement": "InputStream.readBits(address, nbits, endian) on a stream holding a byte string returns the integer whose binary digits are the nbits stream bits starting at bit `address`: in BIG_ENDIAN bit k of a byte is its (7-k)-th power and the first bit read is the most significant; in LITTLE_ENDIAN bit k of a byte is its k-th power and the first bit read is the least significant; in MIDDLE_ENDIAN it is the BIG_ENDIAN result on the stream with the two bytes of every 16-bit word exchanged. It raises ReadStreamError exactly when the addressed bytes are not all inside the stream.", "quantifier": "every byte string, every bit address, every bit count, every endianness", "why_tests_cant": "the result depends on the byte contents, the shift within the byte and the length jointly; tests sample aligned addresses and small sizes", "anchors": ["hachoir/stream/input.py:InputStream.readBits", "hachoir/stream/input.py:StringInputStream.read", "hachoir/core/bits.py:str2long"]}
{"id": "C02", "title": "adjacent reads compose", "statement": "Reading n+m bits at an address gives the same information as reading n bits and then m bits at the following address: big endian joins them as high*2^m+low, little endian as first+second*2^n.", "quantifier": "every stream, address and pair of sizes, both endiannesses", "why_tests_cant": "an off-by-one in shift handling only shows for particular alignments and lengths", "anchors": ["hachoir/stream/input.py:InputStream.readBits"]}
{"id": "C03", "title": "readInteger is two's complement", "statement": "readInteger(address, signed=True, nbits, endian) is the unique v with -2^(nbits-1) <= v < 2^(nbits-1) congruent to readBits modulo 2^nbits; with signed=False it equals readBits.", "quantifier": "every stream, address, nbits>=1, endianness", "why_tests_cant": "there are 2^nbits values per width and arbitrarily many widths", "anchors": ["hachoir/stream/input.py:InputStream.readInteger"]}
{"id": "C04", "title": "writeBits then readBits gives the values back", "statement": "Writing any sequence of (count, value) pairs with OutputStream.writeBits in one endianness produces bytes in which readBits with the same endianness, at the running bit offsets, returns exactly the values written (the unfinished last byte being held back until complete).", "quantifier": "every sequence of writes, every count, every value in range, both endiannesses", "why_tests_cant": "alignment of each write depends on the whole history of earlier writes", "anchors": ["hachoir/stream/output.py:OutputStream.writeBits", "hachoir/stream/input.py:InputStream.readBits"]}
{"id": "C05", "title": "writeInteger then readInteger gives the value back", "statement": "OutputStream.writeInteger(value, signed, size, endian) writes exactly `size` bytes that readInteger(signed, 8*size, endian) reads back as `value`, for every value representable in that width.", "quantifier": "every width, endianness, signedness and representable value", "why_tests_cant": "a test cannot range over all values of all widths", "anchors": ["hachoir/stream/output.py:OutputStream.writeInteger", "hachoir/core/bits.py:long2raw"]}
{"id": "C06", "title": "copying from a stream is exact", "statement": "copyBytesFrom(input, address, n) appends exactly the n bytes at `address` of the input whatever n is relative to the internal buffer, and copyBitsFrom appends exactly the addressed bits; on a short input an error is raised.", "quantifier": "every input, address, length and output alignment", "why_tests_cant": "the chunked loop has a case per remainder; a wrong last chunk only shows for particular lengths", "anchors": ["hachoir/stream/output.py:OutputStream.copyBytesFrom", "hachoir/stream/output.py:OutputStream.copyBitsFrom"]}
{"id": "C07", "title": "searchBytes finds the first occurrence", "statement": "searchBytes(needle, start, end) returns the bit address of the first occurrence of the needle that lies entirely in [start, min(end, size)[, and None exactly when there is none, including occurrences straddling the internal chunk boundaries.", "quantifier": "every stream content, needle, start, end", "why_tests_cant": "the chunk overlap must be right for every relative position of the needle and chunk boundary", "anchors": ["hachoir/stream/input.py:InputStream.searchBytes"]}
{"id": "C08", "title": "a sub-stream shows exactly a window of its parent", "statement": "InputSubStream(stream, offset, size): reads at address a inside the window return what the parent returns at offset+a, and reads that leave the window [0,size[ fail.", "quantifier": "every parent, offset, size, read address and length", "why_tests_cant": "confinement must hold for every read", "anchors": ["hachoir/stream/input.py:InputSubStream"]}
{"id": "C09", "title": "a fragmented stream is the concatenation of its fragments", "statement": "Reading through FragmentedStream returns the bytes of the concatenation of the fragments' data, independent of the number and sizes of the fragments, of how many were discovered earlier, and of the order of earlier reads; its final size is the sum of the sizes.", "quantifier": "every list of fragments, every history of reads", "why_tests_cant": "fragment discovery is lazy: the state depends on the whole read history", "anchors": ["hachoir/stream/input.py:FragmentedStream"]}
{"id": "C10", "title": "ConcatStream is the concatenation of its two streams", "statement": "ConcatStream([s0,s1]).read/readBits/readBytes agree with a single stream holding the bytes of s0 followed by those of s1.", "quantifier": "every pair of streams, address and length", "why_tests_cant": "reads straddling the join for every split and size", "anchors": ["hachoir/stream/input.py:ConcatStream"]}
{"id": "C11", "title": "a non-seekable input read through InputPipe is a random access file", "statement": "For every history of seek/read calls on InputPipe over a source that delivers full blocks until its end, each read returns exactly data[address:address+size] of the source or raises the documented 'Can't seek backward' error; it never returns wrong data. Once the end has been seen the announced size is the true length.", "quantifier": "every source content, every block size, every sequence of seeks and reads", "why_tests_cant": "the LRU list and the discarded prefix depend on the entire access history", "anchors": ["hachoir/stream/input.py:InputPipe"]}
{"id": "C12", "title": "the pipe's LRU list stays well formed", "statement": "After any history the non-discarded buffers of InputPipe form exactly one circular doubly linked list in access order, discarded buffers are a prefix, and a buffer is only discarded when more than buffer_nb_min later buffers exist and it is the least recently used.", "quantifier": "every sequence of seeks and reads", "why_tests_cant": "pointer structure invariants are only violated by particular histories", "anchors": ["hachoir/stream/input.py:InputPipe._append", "hachoir/stream/input.py:InputPipe._get", "hachoir/stream/input.py:InputPipe._flush"]}
{"id": "C13", "title": "file view of a stream", "statement": "FileFromInputStream over a stream of known size behaves like a Python binary file: any history of seek(0/1/2)/tell/read returns what a file with the same contents returns.", "quantifier": "every content and every sequence of calls", "why_tests_cant": "position state depends on the history", "anchors": ["hachoir/stream/input.py:FileFromInputStream"]}
{"id": "C14", "title": "integer <-> raw bytes conversions are inverse", "statement": "str2long(long2raw(v, endian, size), endian) == v, with length exactly max(size, bytes needed); and long2raw(str2long(data, endian), endian, len(data)) == data.", "quantifier": "every integer, byte string, size and endianness", "why_tests_cant": "unbounded integers", "anchors": ["hachoir/core/bits.py:long2raw", "hachoir/core/bits.py:str2long"]}
{"id": "C15", "title": "textual bit/hex dumps are faithful", "statement": "bin2long(long2bin(n,v,endian), dual reading) == v mod 2^n; byte2bin/str2bin spell the bits of each byte; str2hex is injective and decodes back; countBits(v) is the least b>=1 with v < 2^b.", "quantifier": "every integer, size, byte string", "why_tests_cant": "unbounded integers", "anchors": ["hachoir/core/bits.py:long2bin", "hachoir/core/bits.py:bin2long", "hachoir/core/bits.py:byte2bin", "hachoir/core/bits.py:str2hex", "hachoir/core/bits.py:countBits"]}
{"id": "C16", "title": "middle-endian swaps are involutions", "statement": "strswapmid exchanges the bytes of each 16-bit word, is its own inverse and preserves length; swap16/swap32 reverse the bytes of 16/32-bit integers and are involutions on them.", "quantifier": "every even-length byte string, every 16/32-bit integer", "why_tests_cant": "2^32 inputs and unbounded strings", "anchors": ["hachoir/core/bits.py:arrswapmid", "hachoir/core/bits.py:swap16", "hachoir/core/bits.py:swap32"]}
{"id": "C17", "title": "alignment arithmetic", "statement": "paddingSize(v,a) is the least p>=0 with (v+p) divisible by a, and alignValue(v,a) = v+paddingSize(v,a) is the least multiple of a that is >= v.", "quantifier": "every value and every alignment >= 1", "why_tests_cant": "unbounded integers", "anchors": ["hachoir/core/tools.py:paddingSize", "hachoir/core/tools.py:alignValue"]}
{"id": "C18", "title": "binary searches are correct", "statement": "binarySearch on a list sorted by the comparison returns an index of a matching element iff one exists, else None; lowerBound returns the number of leading elements satisfying a downward-closed predicate.", "quantifier": "every sorted list, every predicate monotone on it", "why_tests_cant": "all list lengths and key positions", "anchors": ["hachoir/core/tools.py:binarySearch", "hachoir/core/tools.py:lowerBound"]}
{"id": "C19", "title": "the ordered dictionary behaves like an ordered map", "statement": "Any sequence of Dict operations (append, insert, replace, __setitem__, __delitem__, index, lookup, iteration) behaves like the same sequence on an association list with unique keys: key order, positions, values and errors agree.", "quantifier": "every sequence of operations and arguments", "why_tests_cant": "the key->index map must be kept in step over all histories", "anchors": ["hachoir/core/dict.py:Dict"]}
{"id": "C20", "title": "fields of a field set tile it without gap or overlap", "statement": "After any sequence of feeding operations the fields of a field set have address 0 for the first, each next address is the previous address plus the previous size, the sum of the sizes is the current size, and names are pairwise distinct.", "quantifier": "every parser (every sequence of yielded fields with any names and sizes), every sequence of accesses, with and without autofix", "why_tests_cant": "every malformed file can drive the parser through a different history", "anchors": ["hachoir/field/generic_field_set.py:GenericFieldSet._addField", "hachoir/field/generic_field_set.py:GenericFieldSet._fixLastField", "hachoir/field/generic_field_set.py:GenericFieldSet._truncate"]}
{"id": "C21", "title": "lazy parsing is independent of the access order", "statement": "Whatever sequence of by-name, by-index, len, size, iteration accesses a user makes, the fields obtained (names, addresses, sizes, order) are a prefix of the fields obtained by parsing everything at once, and after full feeding they are the same.", "quantifier": "every parser and every sequence of accesses", "why_tests_cant": "exponentially many access orders", "anchors": ["hachoir/field/generic_field_set.py:GenericFieldSet._feedUntil", "hachoir/field/generic_field_set.py:GenericFieldSet.readMoreFields", "hachoir/field/generic_field_set.py:GenericFieldSet._feedAll", "hachoir/field/generic_field_set.py:GenericFieldSet.__iter__"]}
{"id": "C22", "title": "with autofix a sized field set is always completely covered", "statement": "When a field set has a known size and autofix is on, whatever the field generator yields or raises, full feeding ends with fields covering exactly [0,size[ (the tail being filled with a raw field or the last fields deleted).", "quantifier": "every generator behaviour, including exceptions at any point", "why_tests_cant": "error points are arbitrary", "anchors": ["hachoir/field/generic_field_set.py:GenericFieldSet._stopFeeding", "hachoir/field/generic_field_set.py:GenericFieldSet._fixFeedError", "hachoir/field/generic_field_set.py:GenericFieldSet._fixLastField"]}
{"id": "C23", "title": "automatic array names are consecutive", "statement": "Fields yielded with a name ending in '[]' get the names key[0], key[1], ... in order of appearance, per key.", "quantifier": "every sequence of names", "why_tests_cant": "unbounded sequences", "anchors": ["hachoir/field/basic_field_set.py:setUniqueFieldName"]}
{"id": "C24", "title": "lookup by address finds the field containing it", "statement": "getFieldByAddress(a) returns the field f with f.address <= a < f.address+f.size when a < current size, None otherwise.", "quantifier": "every field layout and address", "why_tests_cant": "all layouts including zero-size fields", "anchors": ["hachoir/field/generic_field_set.py:GenericFieldSet.getFieldByAddress", "hachoir/core/tools.py:lowerBound"]}
{"id": "C25", "title": "replaceField / writeFieldsIn keep the layout", "statement": "A successful replaceField or writeFieldsIn keeps all other fields unchanged, puts the new fields in the old field's extent in order, and keeps the tiling; a rejected call leaves the field set as it was.", "quantifier": "every field set, target and replacement list", "why_tests_cant": "all combinations of sizes and names, failure in the middle", "anchors": ["hachoir/field/generic_field_set.py:GenericFieldSet.replaceField", "hachoir/field/generic_field_set.py:GenericFieldSet.writeFieldsIn"]}
{"id": "C26", "title": "paths identify fields", "statement": "For every field f of a tree, root[f.path] is f, f['.'] is f, f['..'] is its parent, and absolute_address is the sum of the addresses along the path; for a field inside its parent, the absolute extent is inside the parent's.", "quantifier": "every field tree and field whose name is a legal path component", "why_tests_cant": "unbounded depth", "anchors": ["hachoir/field/field.py:Field.getField", "hachoir/field/field.py:Field.path", "hachoir/field/field.py:Field.absolute_address"]}
{"id": "C27", "title": "gaps of a seekable field set", "statement": "getgaps(blocks, start, length) yields exactly the maximal sub-intervals of [start,start+length[ not covered by the blocks, in order.", "quantifier": "every list of (possibly overlapping) blocks and window", "why_tests_cant": "all interval configurations", "anchors": ["hachoir/field/seekable_field_set.py:getgaps"]}
{"id": "C28", "title": "static field sets have the size of their format", "statement": "The static_size computed for a StaticFieldSet class equals the sum of the sizes of the fields it creates, for every nested format.", "quantifier": "every format tuple, every nesting", "why_tests_cant": "unbounded formats", "anchors": ["hachoir/field/static_field_set.py"]}
{"id": "C29", "title": "array view", "statement": "fieldset.array(key)[i] is the field key[i], out-of-range indexes raise, and len(array) is the number of fields named key[0..].", "quantifier": "every field set, key, index and call history", "why_tests_cant": "history dependent caching of the length", "anchors": ["hachoir/field/fake_array.py:FakeArray"]}
{"id": "C30", "title": "C strings end at their first terminator", "statement": "A CString field covers exactly the bytes up to and including the first character equal to the terminator (aligned to the character width), and its value is the text before it.", "quantifier": "every stream content, start address and charset width", "why_tests_cant": "terminator position and alignment are arbitrary", "anchors": ["hachoir/field/string_field.py:GenericString"]}
{"id": "C31", "title": "an unmodified editor writes the original bytes", "statement": "createEditor(parser).writeInto(output) without edits writes exactly the original bytes; with edits, every unedited field is copied unchanged and in order.", "quantifier": "every field tree, every set of deletions/replacements/insertions", "why_tests_cant": "all trees and all edit sets", "anchors": ["hachoir/editor/fieldset.py:EditableFieldSet.writeInto", "hachoir/editor/field.py"]}
{"id": "C32", "title": "editor sizes and addresses agree with what is written", "statement": "After any edit sequence, editor.size equals the number of bits written, len(editor) the number of fields iterated, and each field's address the number of bits written before it.", "quantifier": "every edit history", "why_tests_cant": "history dependent caches", "anchors": ["hachoir/editor/fieldset.py:EditableFieldSet"]}
{"id": "C33", "title": "regex simplifications preserve the matched language", "statement": "Every regex object built with &, |, RegexRepeat, createString, createRange, and join matches exactly the strings its construction denotes (concatenation, union, bounded repetition).", "quantifier": "every pair of regexes and every string", "why_tests_cant": "infinitely many strings and regexes", "anchors": ["hachoir/regex/regex.py"]}
{"id": "C34", "title": "regex length bounds", "statement": "r.minLength() <= len(s) <= r.maxLength() for every string s matched by r.", "quantifier": "every regex and matched string", "why_tests_cant": "infinite languages", "anchors": ["hachoir/regex/regex.py:Regex.minLength"]}
{"id": "C35", "title": "canonical Huffman tables", "statement": "build_tree(lengths) gives each symbol with a non-zero length a code of that length, codes are pairwise prefix-free when the lengths satisfy Kraft's inequality, are assigned in the canonical (RFC 1951) order, and decoding the code of a symbol bit by bit returns that symbol.", "quantifier": "every list of code lengths", "why_tests_cant": "exponentially many length vectors", "anchors": ["hachoir/parser/archive/zlib.py:build_tree", "hachoir/parser/archive/zlib.py:HuffmanCode"]}
{"id": "C36", "title": "LZ77 copies", "statement": "extend_data(data, length, offset) appends `length` bytes, each equal to the byte `offset` positions earlier, for overlapping copies too.", "quantifier": "every buffer, length, offset", "why_tests_cant": "overlap behaviour for every ratio length/offset", "anchors": ["hachoir/parser/archive/zlib.py:extend_data"]}
{"id": "C37", "title": "DEFLATE base tables", "statement": "The (base, extra bits) tables used for lengths and distances cover 3..258 and 1..32768 without gap or overlap.", "quantifier": "every length/distance and every code/extra value", "why_tests_cant": "finite but the whole table must agree with the RFC", "anchors": ["hachoir/parser/archive/zlib.py:DeflateBlock"]}
{"id": "C38", "title": "metadata values are minimal", "statement": "After any sequence of insertions the values stored for a metadata key contain no duplicates and no text that is a prefix of another; insertion never drops information: every accepted text is a prefix of some stored text.", "quantifier": "every sequence of insertions", "why_tests_cant": "history dependent", "anchors": ["hachoir/metadata/metadata_item.py:Data.add"]}
{"id": "C39", "title": "metadata export order", "statement": "exportPlaintext lists the data with priority <= the given priority in priority order, each value once.", "quantifier": "every metadata content and priority", "why_tests_cant": "all contents", "anchors": ["hachoir/metadata/metadata.py:Metadata"]}
{"id": "C40", "title": "searching sub-files finds every embedded magic", "statement": "SearchSubfile reports every position where a magic of the selected parsers occurs (and the parser validates), for files of any size.", "quantifier": "every file content and magic position", "why_tests_cant": "slice boundaries", "anchors": ["hachoir/subfile/search.py:SearchSubfile"]}
{"id": "C41", "title": "variable length integers decode their standard encoding", "statement": "The MIDI, ASN.1 length, ASN.1 OID, EBML (Matroska), 7-zip, Xiph, git size and bzip2 unary integers decode the encoding of every value in range to that value and report the number of bytes (bits) it occupies; over-long encodings are refused with ParserError, and on any data the readers stop, with ReadStreamError if the data ends first.", "quantifier": "every value in range", "why_tests_cant": "64-bit ranges", "anchors": ["hachoir/parser/audio/midi.py:Integer", "hachoir/parser/container/asn1.py:ASNInteger", "hachoir/parser/container/asn1.py:OID_Integer", "hachoir/parser/container/mkv.py:Unsigned", "hachoir/parser/archive/sevenzip.py:SZUInt64", "hachoir/parser/misc/git_pack.py:VarLengthInt"]}
{"id": "C42", "title": "human readable sizes and durations", "statement": "humanFilesize/humanBitSize/humanDuration decompose their argument correctly: the printed number and unit recombine to the value up to half of the last printed digit (sizes) or to less than the smallest printed unit (durations), and the unit is the largest one that does not exceed the value.", "quantifier": "every non-negative integer", "why_tests_cant": "unbounded integers", "anchors": ["hachoir/core/tools.py:humanFilesize", "hachoir/core/tools.py:humanDuration"]}
{"id": "C43", "title": "timestamps", "statement": "timestampUNIX, timestampMac32, timestampWin64 and timestampUUID60 accept exactly the documented range, denote epoch + value (to the microsecond) and keep the order of timestamps.", "quantifier": "every 32/64-bit timestamp", "why_tests_cant": "2^64 inputs", "anchors": ["hachoir/core/tools.py:timestampUNIX", "hachoir/core/tools.py:timestampMac32", "hachoir/core/tools.py:timestampWin64"]}
{"id": "C44", "title": "Unix mode strings", "statement": "humanUnixAttributes(mode) renders the type letter and nine permission letters including setuid/setgid/sticky of every mode, injectively on the 12 permission bits.", "quantifier": "all modes", "why_tests_cant": "65536 modes times interactions", "anchors": ["hachoir/core/tools.py:humanUnixAttributes"]}
{"id": "C45", "title": "newline normalisation", "statement": "normalizeNewline replaces every maximal run of CR and LF characters by one LF and changes nothing else: the result has no CR and no two consecutive LF, and the function is idempotent.", "quantifier": "every string", "why_tests_cant": "unbounded strings", "anchors": ["hachoir/core/tools.py:normalizeNewline"]}
{"id": "C46", "title": "limits are restored", "statement": "limitedTime and limitedMemory restore the previous alarm/limit on every exit path of the wrapped function.", "quantifier": "every previous limit and every outcome of the function", "why_tests_cant": "every crash point", "anchors": ["hachoir/core/timeout.py:limitedTime", "hachoir/core/memory.py:limitedMemory"]}
{"id": "C47", "title": "compressed sub-streams", "statement": "Reading a CompressedStream at increasing or repeated offsets with any sizes returns slices of the decompressed data.", "quantifier": "every decompressor output chunking and every history of reads", "why_tests_cant": "buffering depends on chunk sizes and history", "anchors": ["hachoir/field/sub_file.py:CompressedStream"]}
{"id": "C48", "title": "LZW code widths and dictionary (GIF)", "statement": "The GIF LZW decoder reproduces the chains of the standard LZW dictionary: decoding the output of a standard LZW encoder yields the original pixels.", "quantifier": "every pixel sequence", "why_tests_cant": "dictionary state depends on the whole prefix", "anchors": ["hachoir/parser/image/gif.py:GifImageBlock"]}
{"id": "C49", "title": "move-to-front", "statement": "move_to_front(seq, i) moves the i-th element to the front and keeps the others in order; decoding an MTF encoding yields the original sequence, and the literals and runs shown for the codes of a bzip2 block tell the text that was encoded.", "quantifier": "every sequence and index list", "why_tests_cant": "history dependent table", "anchors": ["hachoir/parser/archive/bzip2_parser.py:move_to_front"]}
{"id": "C50", "title": "parser choice", "statement": "QueryParser tries every parser of the database at most once, those matching the tags first and in tag order, and returns the first one that validates, or None if none does.", "quantifier": "every parser database, tag list and validation outcome", "why_tests_cant": "all databases and tag lists", "anchors": ["hachoir/parser/guess.py:QueryParser"]}
{"id": "C51", "title": "inflate", "statement": "Parsing a DEFLATE stream with the zlib parser reconstructs the data that the stream denotes (RFC 1951) for any sequence of stored, fixed and dynamic blocks, and stops at the byte boundary after the last block; parsing ends on every input.", "quantifier": "every DEFLATE stream: block choice, codes, literals, copies and run-length choices of the writer", "why_tests_cant": "the decoder's state is the whole output so far and two code tables; inputs are unbounded", "anchors": ["hachoir/parser/archive/zlib.py:DeflateBlock", "hachoir/parser/archive/zlib.py:DeflateData"]}
{"id": "C52", "title": "printable texts", "statement": "makePrintable and makeUnicode return texts without control characters, made of characters of the charset only, and the result read as a string literal denotes the original text.", "quantifier": "every text or bytes object, charset, quote and smart flag", "why_tests_cant": "escapes of neighbouring characters interact (octal digits after a short escape, quotes)", "anchors": ["hachoir/core/tools.py:makePrintable", "hachoir/core/tools.py:makeUnicode"]}
{"id": "C53", "title": "regex text", "statement": "Parsing the text of a regex object (str(r), with or without python=True) gives a regex that matches the same strings; parse(escapeRegex(t)) matches exactly t; parsing ends on every text.", "quantifier": "every regex object and every text", "why_tests_cant": "unbounded nesting; every combination of characters that need escaping", "anchors": ["hachoir/regex/parser.py:parse", "hachoir/regex/regex.py:escapeRegex", "hachoir/regex/regex.py:Regex.__str__"]}
{"id": "C54", "title": "searching many patterns at once", "statement": "After any sequence of addString and addRegex, the regex PatternMatching compiles matches a part of a text exactly when one of the patterns matches it, no match is longer than max_length, and each match is given to one of the patterns (no KeyError); a regex without longest match is refused.", "quantifier": "every sequence of patterns and every text", "why_tests_cant": "the merged regex depends on all patterns and their order", "anchors": ["hachoir/regex/pattern.py:PatternMatching"]}
{"id": "C55", "title": "git delta offsets and copies", "statement": "The offset shown for an OBJ_OFS_DELTA object and the offset and size shown for a copy instruction of a delta are the ones git wrote.", "quantifier": "every offset and size", "why_tests_cant": "32-bit offsets with optional bytes", "anchors": ["hachoir/parser/misc/git_pack.py:DeltaInstruction", "hachoir/parser/misc/git_pack.py:ObjectEntry", "hachoir/parser/misc/git_pack.py:VarLengthInt"]}
{"id": "C56", "title": "parser database", "statement": "After registering any parsers, looking for a tag value finds exactly the accepted parsers that declare it, in registration order; identifiers are unique and well formed; a refused parser changes nothing; a derived parser inherits the tags it does not set.", "quantifier": "every sequence of registrations and every tag dictionary", "why_tests_cant": "history dependent", "anchors": ["hachoir/parser/parser_list.py:ParserList.add", "hachoir/parser/parser.py:HachoirParser.getParserTags"]}
{"id": "C57", "title": "chains shown by rle_repr", "statement": "The run-length text shown for a chain of pixels is a list expression whose value is that chain; different chains have different texts.", "quantifier": "every list of non-negative integers", "why_tests_cant": "the text depends on where runs start and on what was written before", "anchors": ["hachoir/parser/image/gif.py:rle_repr"]}
{"id": "C58", "title": "streams of OLE2 files", "statement": "Following the block chain of a property of an OLE2 (Office) file always ends, without visiting a block twice; a chain that leads to the end mark is followed entirely; the fragments shown for it are the maximal runs of consecutive blocks in order, and the sub-stream made of them is the concatenation of the blocks of the chain.", "quantifier": "every allocation table (also damaged or looping ones), every start block and every file content", "why_tests_cant": "tables of any size with any links, fragmentation in any order", "anchors": ["hachoir/parser/misc/ole2.py:OLE2_File.getChain", "hachoir/parser/misc/ole2.py:OLE2_File.parseProperty", "hachoir/field/fragment.py:FragmentGroup.createInputStream"]}
{"id": "C59", "title": "entries of FAT file systems", "statement": "The text shown for an entry of a FAT12, FAT16 or FAT32 table says whether the cluster is free, reserved, bad, the end of a chain, or gives its successor, as in the specification; the clusters of a file are those of its chain.", "quantifier": "every entry of 12, 16 or 32 bits", "why_tests_cant": "2^32 values in three widths; chains of any length", "anchors": ["hachoir/parser/file_system/fat.py:FAT", "hachoir/parser/file_system/fat.py:FAT_FS.clusters"]}
{"id": "C60", "title": "charset guessing", "statement": "guessBytesCharset answers ASCII exactly for pure ASCII data, UTF-8 for every non-ASCII text encoded in UTF-8, the UTF-16 announced by a byte-order mark, and otherwise a charset whose list has all the non-ASCII bytes of the data.", "quantifier": "every byte string and every Unicode text", "why_tests_cant": "any bytes in any order; the lists of two charsets and UTF-8 sequences overlap", "anchors": ["hachoir/core/i18n.py:guessBytesCharset"]}
{"id": "C61", "title": "padding", "statement": "A padding field is shown as its repeated pattern exactly when its content is that pattern again and again; otherwise its content is shown and a warning gives the place where the pattern stops. A padding of bits is shown as null exactly when all bits are null.", "quantifier": "every content, every non-empty pattern, every position and size", "why_tests_cant": "any content of any length; alignment of the pattern with the end of the field", "anchors": ["hachoir/field/padding.py:PaddingBytes.checkPattern", "hachoir/field/padding.py:PaddingBits.checkPattern"]}
{"id": "C62", "title": "MS-DOS dates", "statement": "Each date and time of 1980 to 2107 is read back from its MS-DOS words (in an archive or in a FAT directory, with hundredths of seconds for creations); any other bytes give an existing date or an error, never a date that does not exist.", "quantifier": "every date, every time, every bytes", "why_tests_cant": "2^32 encodings with invalid months, days, hours and seconds", "anchors": ["hachoir/field/timestamp.py:TimeDateMSDOS32", "hachoir/field/timestamp.py:DateTimeMSDOS32", "hachoir/parser/file_system/fat.py:Date"]}
{"id": "C63", "title": "network addresses and identifiers", "statement": "IPv4, IPv6 and MAC addresses and GUIDs are shown in their usual text form, digit for digit, whatever the byte order of the file; the version and variant shown for a GUID are those of its text.", "quantifier": "every address, every identifier, both byte orders", "why_tests_cant": "2^128 values", "anchors": ["hachoir/parser/network/common.py:IPv4_Address", "hachoir/parser/network/common.py:IPv6_Address", "hachoir/parser/network/common.py:MAC48_Address", "hachoir/parser/common/win32.py:GUID"]}
{"id": "C64", "title": "NTFS runs", "statement": "The run list of an NTFS attribute gives the lengths and first clusters of the runs that were encoded, whatever the widths used, with negative steps; reading any bytes as a run list ends.", "quantifier": "every list of runs, every encoding of it, every bytes", "why_tests_cant": "runs of any number, widths of 1 to 15 bytes and signs combine freely", "anchors": ["hachoir/parser/file_system/ntfs.py:RunListEntry", "hachoir/parser/file_system/ntfs.py:RunList"]}
{"id": "C65", "title": "cylinder and sector of a partition", "statement": "The sector and the cylinder of a partition are those packed in its two bytes.", "quantifier": "every sector below 64 and cylinder below 1024", "why_tests_cant": "bits are not in order", "anchors": ["hachoir/parser/file_system/mbr.py:CylinderNumber", "hachoir/parser/file_system/mbr.py:PartitionHeader"]}
{"id": "C66", "title": "hachoir-strip", "statement": "hachoir-strip writes the file without its metadata (and useless padding, and index, according to the level), all other bytes unchanged and in order, with the sizes and offsets that depend on what was removed corrected at every level; it writes no file when there is nothing to remove.", "quantifier": "every file that was parsed into whole bytes, every level, every number, depth and order of the fields removed", "why_tests_cant": "the sizes to correct depend on the whole tree of chunks and on everything removed below", "anchors": ["hachoir/strip.py:CheckStripper", "hachoir/strip.py:AuStripper", "hachoir/strip.py:RiffStripper", "hachoir/strip.py:TarStripper", "hachoir/strip.py:stripEditor"]}
{"id": "C67", "title": "torrent documents", "statement": "The torrent parser shows all the integers, strings, lists and dictionaries of a bencoded document, nested at any depth, at their addresses, and its fields are exactly the bytes of the file; it stops on every file.", "quantifier": "every bencoded document, any bytes around it, every file", "why_tests_cant": "documents nest without bound and lengths are part of the text", "anchors": ["hachoir/parser/misc/torrent.py:Entry", "hachoir/parser/misc/torrent.py:Integer", "hachoir/parser/misc/torrent.py:TorrentString", "hachoir/parser/misc/torrent.py:List", "hachoir/parser/misc/torrent.py:Dictionary"]}
{"id": "C68", "title": "tar archives", "statement": "The tar parser shows all the files of an archive, in order, with their names, numbers and contents at the right addresses, finds the end of the archive whatever is after it and accepts it; it stops on every file, with entries that follow one another.", "quantifier": "every list of files, names, sizes and number formats of the ustar format; every file", "why_tests_cant": "any number of files of any size, numbers padded in several ways", "anchors": ["hachoir/parser/archive/tar.py:FileEntry", "hachoir/parser/archive/tar.py:TarFile"]}
{"id": "C69", "title": "ASN.1 values", "statement": "The ASN.1 parser shows the values of a file, nested at any depth, with their types, numbers, strings and object identifiers, at their addresses; it accepts a file that is one value and refuses one with something behind; it stops on every file, with objects inside their parents that follow one another.", "quantifier": "every value and every definite-length encoding of it, any bytes around it, every file", "why_tests_cant": "values nest without bound and every length is part of the data", "anchors": ["hachoir/parser/container/asn1.py:Object", "hachoir/parser/container/asn1.py:ASNInteger", "hachoir/parser/container/asn1.py:OID_Integer", "hachoir/parser/container/asn1.py:ASN1File"]}
{"id": "C70", "title": "RIFF chunks", "statement": "The RIFF parser shows all the chunks of a file, in lists nested at any depth, with their names, tags, sizes and contents at the right addresses, and what is after them as padding; it stops on every file, with chunks that follow one another inside their parents.", "quantifier": "every tree of chunks, contents and sizes, any bytes after them, every file", "why_tests_cant": "lists nest without bound and each size depends on everything inside", "anchors": ["hachoir/parser/container/riff.py:Chunk", "hachoir/parser/container/riff.py:RiffFile"]}
{"id": "C71", "title": "Matroska elements", "statement": "The Matroska parser shows all the elements of a file, nested as its tables say, with identifiers and sizes written on any number of bytes, at the right addresses with their names, sizes and values (numbers, texts, bytes); it accepts the file according to its document type, and its content ends with the first segment. It stops on every file, with elements that follow one another inside their parents.", "quantifier": "every tree of elements, identifiers, sizes and values, every file", "why_tests_cant": "elements nest, and sizes have variable-length encodings that place everything after them", "anchors": ["hachoir/parser/container/mkv.py:EBML", "hachoir/parser/container/mkv.py:MkvFile", "hachoir/parser/container/mkv.py:segment"]}
{"id": "C72", "title": "Frames of Matroska blocks", "statement": "A block of a Matroska file shows its track, time and flags, and all its frames with exactly their bytes, for blocks without lacing and with the Xiph, fixed-size and EBML lacings, with any number of frames of any sizes but empty; on every content it stops, with frames that follow one another inside the block.", "quantifier": "every track, time, flags, list of frames and widths of the EBML numbers, every content", "why_tests_cant": "the sizes of frames are written in three variable-length ways, one of them as differences, and each places all the frames after it", "anchors": ["hachoir/parser/container/mkv.py:Block", "hachoir/parser/container/mkv.py:Lace", "hachoir/parser/container/ogg.py:XiphInt"]}
{"id": "C73", "title": "Atoms of MP4 files", "statement": "Every atom of an MP4 file, with a size of 32 or 64 bits, a four-character or a user tag, and nested as its tag says (lists, and metadata with or without version and flags), is shown at its address with its size, its tag and its content; the last atom may have the size 0 and goes up to the end of the file. Whatever the bytes, the parser ends and atoms follow one another inside their parents. A file is accepted exactly when its first atom has a size of at least 8 bytes and the tag ftyp, moov, free or skip; its MIME type is video/mp4 exactly when its brand or one of its compatible brands is one of five.", "quantifier": "all lists of atoms at any depth, all contents, tags and sizes; all byte strings of any length; any input stream over them", "why_tests_cant": "The number, the nesting and the sizes of atoms are not bounded, and each of them decides where the next one is read.", "anchors": ["hachoir/parser/container/mp4.py:Atom", "hachoir/parser/container/mp4.py:AtomList", "hachoir/parser/container/mp4.py:META", "hachoir/parser/container/mp4.py:MP4File"]}
{"id": "C74", "title": "Tables of samples of MP4 files", "statement": "The tables of sample times, chunks, sizes and offsets of an MP4 file (stts, ctts, stsc, stsz, stz2, stco, co64, stss) show exactly the numbers that were written, in order, with the number of bits the table has; whatever the number of entries a table claims, it shows those that are there and no other.", "quantifier": "all lists of numbers of any length and width, all bytes, all places in a file", "why_tests_cant": "The number of entries, and for compact sizes their width in bits, is read from the file.", "anchors": ["hachoir/parser/container/mp4.py:SampleDecodeTimeTable", "hachoir/parser/container/mp4.py:SampleCompositionTimeTable", "hachoir/parser/container/mp4.py:SampleToChunkTable", "hachoir/parser/container/mp4.py:SampleSizeTable", "hachoir/parser/container/mp4.py:CompactSampleSizeTable", "hachoir/parser/container/mp4.py:ChunkOffsetTable", "hachoir/parser/container/mp4.py:ChunkOffsetTable64", "hachoir/parser/container/mp4.py:SyncSampleTable"]}
{"id": "C75", "title": "Members of gzip files", "statement": "A gzip file of one member is shown as it was written: the flags, time and system of the header, the optional extra field, name, comment and checksum, the compressed bytes, the checksum and the size, each at its place and with its value. A file is accepted exactly when its method is deflate and its reserved bits are zero. Whatever the bytes, the fields follow each other inside the file.", "quantifier": "all gzip members with any choice of optional parts, of any length; all pairs of members; all bytes", "why_tests_cant": "The place of every part depends on which of the parts before it are there and on where their ends are found.", "anchors": ["hachoir/parser/archive/gzip_parser.py:GzipParser.createFields", "hachoir/parser/archive/gzip_parser.py:GzipParser.validate"]}
{"id": "C76", "title": "Chunks of PNG files", "statement": "Every list of PNG chunks (headers, palettes, texts, dates, sizes, transparency, image data, and chunks of any other type) is shown in order, each with its size, its type, its contents field by field and its checksum, at its place. Files are accepted exactly when they start with the signature and a header. The size of the contents is that of the file up to its last chunk, whatever bytes follow. Whatever the bytes, the fields follow each other inside the file and the parser ends.", "quantifier": "all lists of chunks of any number, types and lengths; all bytes after the last chunk; all files", "why_tests_cant": "How a chunk is read depends on the size and the type read before, and every chunk's place depends on all those before it.", "anchors": ["hachoir/parser/image/png.py:Chunk", "hachoir/parser/image/png.py:PngFile", "hachoir/parser/image/png.py:ImageData", "hachoir/parser/image/common.py:RGB"]}
{"id": "C77", "title": "Records of ZIP archives", "statement": "Every ZIP archive made of file entries of known lengths, central directories, their end, locators, signatures and spanning markers, with any bytes without 'PK' between them, is shown in order: each record with its header and every field at its place, the contents of files as one field, the bytes between records as unparsed. Archives are accepted when they start with a file entry of a known compression method. The MIME type is the contents of a first stored file named mimetype. The size of the contents is that of the archive. Whatever the bytes, the fields follow each other inside the file and the parser ends.", "quantifier": "all lists of records of any number, kinds, flags, names, extra fields and contents, with any bytes between them; all bytes after the records; all files", "why_tests_cant": "The layout of a record depends on the flags, method and lengths read before, and the parser searches the next record in the file.", "anchors": ["hachoir/parser/archive/zip.py:ZipFile", "hachoir/parser/archive/zip.py:FileEntry", "hachoir/parser/archive/zip.py:ZipCentralDirectory", "hachoir/parser/archive/zip.py:ZipGeneralFlags", "hachoir/field/timestamp.py:TimeDateMSDOS32"]}
{"id": "C78", "title": "Ogg files: pages, packets, logical streams and the size of the contents", "statement": "For every file made of Ogg pages (RFC 3533), the parser shows the pages one after the other, each with its version, flags, granule position, serial number, page number and checksum, the sizes of the packet parts that its lacing values tell (a value of 255 goes on with the next), and the parts themselves, with the fields of the Vorbis, Theora and video headers and of comments; pages at the start of a file are shown whatever follows. For every file, whatever its bytes, the fields tile the part that is shown, end inside the file, and no loop runs without end. The file is accepted exactly when its first three pages are of version 0. The data of a logical stream are read as the data of all its pages, in order. The size of the contents is up to the end of the page that is found as the last one. The type of the file is that of the headers of its first page. Not true of the code: the description, which never tells the format, the size of the contents of chained files, pages with one empty packet, data after a page without data, and lists of packets, which always end with an error after the first page.", "quantifier": "all lists of pages with all values of their fields, all lacing values and all packet parts; all files; all streams", "why_tests_cant": "Tests have one Ogg file; the claims are about every list of pages, every interleaving of streams and every damaged file.", "anchors": ["hachoir/parser/container/ogg.py:XiphInt", "hachoir/parser/container/ogg.py:Lacing", "hachoir/parser/container/ogg.py:Chunk", "hachoir/parser/container/ogg.py:Segments", "hachoir/parser/container/ogg.py:OggPage", "hachoir/parser/container/ogg.py:OggFile", "hachoir/parser/container/ogg.py:Packets", "hachoir/parser/container/ogg.py:OggStream"]}
{"id": "C79", "title": "Members of Unix archives", "statement": "For every Unix archive (ar(5)) whose members are smaller than 1000000000 bytes, the parser shows the identifier and then every member in order, with its header and exactly its contents, and the byte that follows contents of odd size; members at the start of a file are shown whatever follows. For every file, whatever its bytes, the fields tile the part that is shown, end inside the file, and no loop runs without end. A file is accepted exactly when it starts with the eight bytes of archives. The description of a member has the first word of its header. Not true of the code: the contents of a member of 1000000000 bytes or more, where the mode is read as the size.", "quantifier": "all lists of members with all headers and contents; all files", "why_tests_cant": "The test files have no such archive, and any would be one case; the claims are about every archive and every damaged file, and about sizes no test file has.", "anchors": ["hachoir/parser/archive/ar.py:ArchiveFileEntry", "hachoir/parser/archive/ar.py:ArchiveFile"]}
{"id": "C80", "title": "BMP pictures: every field, the lines of pixels, and the metadata", "statement": "For every BMP picture of Windows 3 or 4 (headers of 40 and 108 bytes), whatever follows it in the file, the parser shows its header with every field, its palette, the bytes skipped before the pixels, and the pixels: line by line from the last one to the first with their padding when they are not compressed, as one block otherwise; it accepts the picture exactly when it has one plane, names its version, gives the size written in the file; and the metadata give its width, height, depth, number of colors and resolution, each when it is in the limits of the metadata. For every file the fields follow each other and the loops end. Refuted: the colors of pixels and palettes are shown with red and blue swapped, pixels of four bits are shown with the second one first, pictures stored from the top get wrong line numbers, an error and no height, headers of OS/2 are misread, headers of other sizes make the validation raise, and the resolution is given in pixels per metre as dots per inch.", "quantifier": "All pictures (any size, depth of 4, 8, 24 or 32 bits or any other as a block, any palette, any header fields), all bytes after them; all files for the second part.", "why_tests_cant": "The numbers of lines, of pixels and of colors and the paddings are free: tests look at a few pictures of one depth.", "anchors": ["hachoir/parser/image/bmp.py: BmpFile, BmpHeader, ImageLine, ImagePixels, parseImageData", "hachoir/parser/image/common.py: RGB, RGBA, PaletteRGBA", "hachoir/metadata/image.py: BmpMetadata, computeComprRate", "hachoir/field/helper.py: createPaddingField", "hachoir/field/generic_field_set.py: seekByte"]}
{"id": "C81", "title": "GIF pictures: screen, colors, images, extensions, the size of the content and the metadata", "statement": "For every GIF picture, whatever follows it in the file, the parser shows its screen, its map of colors (as many colors as the screen says), and each of its extensions (graphic control, comments, application with the loops of NETSCAPE2.0, plain text, others) and images with their maps and blocks, up to the final separator; it accepts the picture exactly when its version is 87a or 89a and its sides are from 1 to 6000; the data of an image are its blocks one after the other; the size of the content ends with the first null byte followed by a semicolon after the first image, and is never too long when something follows this image; the metadata give width, height, depth, number of colors and compression. For every file the fields follow each other and the loops end. Refuted: the size of the content of a picture that ends with its first image is not found; a picture with a transparent color is not said to have one; the delay, in hundredths of a second, is shown in milliseconds; an extension with another code has no description; all the blocks of an application use the code of the first.", "quantifier": "All pictures (any number of images and extensions in any order, any blocks, any maps of colors), all bytes after them; all files for the second part.", "why_tests_cant": "The number of blocks, their order and their sizes are free, and each size drives the reading of the next field: tests look at one or two pictures.", "anchors": ["hachoir/parser/image/gif.py: GifFile, ScreenDescriptor, Image, Extension, parseApplicationExtension, parseGraphicControl, parseComments, parseTextExtension, defaultExtensionParser", "hachoir/field/fragment.py: CustomFragment", "hachoir/metadata/image.py: GifMetadata"]}
{"id": "C82", "title": "MIDI files: events, running status, numbers of variable length, size of the content", "statement": "For every Standard MIDI File made of channel messages and meta events, in any number of tracks, the parser shows the header, each track and each event with its time, its status when it is written, and its data; a message without a status is read with the one of the message before. Numbers of variable length have the value of their groups of seven bits, and those of more than four bytes are refused. The file is accepted and described by its format and number of tracks, whatever follows it. The size of its content is where the first end of track after the start of the last track ends: at most the size of the file. Refuted: a track with a system exclusive event is not shown after it; asking for the size fails when the header counts no track or too many; the notes A, A# and B are shown with the name of the note below.", "quantifier": "all MIDI files (any number of tracks, events and data), and for the safety claim all files", "why_tests_cant": "The events have no size of their own: each depends on the bytes of all those before (times of one to four bytes, running status), so a test covers one sequence of events", "anchors": ["hachoir/parser/audio/midi.py: MidiFile, Header, Track, Command, Integer, parseNote ... parseTimeSignature", "hachoir/parser/common/tracker.py: NOTE_NAME"]}
{"id": "C83", "title": "JPEG pictures: segments, tables, frames, scans, coded data, quality and metadata", "statement": "For every JPEG picture made of JFIF, Adobe, Ducky, Exif, Photoshop, comment and other segments, quantization and Huffman tables, restart intervals, frames and scans with coded data, the parser shows each part with all its numbers, the coefficients of tables under the index of their place in the block, and the coded data up to the next marker, to the end of the picture, whatever follows it. The picture is accepted when its first two segments are of known types, and is described by the size of its first frame. For a picture of one scan the size of its content is exact whatever follows; in general it is at most the size of the picture. The quality computed from tables made by libjpeg is the one they were made with, for each quality from 1 to 100, in color and in gray; for any other tables it is the first quality whose tables of libjpeg are not heavier by both of the two sums compared, and it is called approximate unless the sums are those of libjpeg or less. The metadata has the size, the bits per pixel, the kind of frame, the format of pixels, the quality, and the version and densities of the JFIF segment. On every file the fields follow each other and the loops end. Refuted: pictures that start with an APP3 to APP11 segment are refused; a segment with FF D9 after the first scan makes the size too small; thumbnails of JFIF, as only those with a palette are shown; densities in dots per centimeter are told as dots per inch; scans of one component that is not the first; fill bytes before markers; the marker TEM.", "quantifier": "all JPEG pictures (any number of segments, tables, scans and bytes of coded data, up to 100 MB), all qualities from 1 to 100, and for the safety claim all files", "why_tests_cant": "The end of coded data depends on each pair of bytes in it, and the state (frame seen, restart interval) on all the segments before; tests have a few pictures", "anchors": ["hachoir/parser/image/jpeg.py: JpegFile, JpegChunk, JpegChunkApp0, Ducky, StartOfFrame, StartOfScan, QuantizationTable, HuffmanTable, JpegImageData, AdobeChunk", "hachoir/metadata/jpeg.py: JpegMetadata.extract, startOfFrame, computeQuality, extractAPP0"]}
{"id": "C85", "title": "MPEG audio files: frames, tags, the size of the content, the description and the metadata", "statement": "For every file made of an ID3v2 tag or none, MPEG audio frames (version 1, 2 or 2.5, layer I, II or III, any bit rate and sampling rate, padded or not) and an ID3v1 tag or none, the parser shows the tags and each frame with its header and its data, whose size follows from the standard. Files whose frames agree are accepted, and described by the version, layer, bit rate, sampling rate and channel mode of the first frame. The size of the content is up to the end of the last frame or the ID3v1 tag, whatever follows, for at most 200 MB. The metadata has the channels, format, sampling rate, bits per sample, the bit rate (constant, or the mean from the fourth frame on) and the duration, which is exact to a microsecond for this bit rate, whatever the tags. On every file the fields follow each other and the loops end. Refuted: the duration of files whose bit rate changes after the eleventh frame; the size of the content when bytes come before the first frame.", "quantifier": "all MPEG audio files (any number of frames), all configurations of the metadata, and for the safety claim all files", "why_tests_cant": "The size of each frame depends on a table of 5 columns, 14 bit rates and 9 sampling rates, and errors of it add up over the frames; tests have a few files", "anchors": ["hachoir/parser/audio/mpeg_audio.py: Frame, Frames, findSynchronizeBits, MpegAudioFile.createFields, validate, createDescription, createContentSize", "hachoir/metadata/audio.py: MpegAudioMetadata.extract, looksConstantBitRate, computeBitrate, computeVariableBitrate"]}
{"id": "C84", "title": "ID3 tags: versions 1, 1.1, 2.2, 2.3 and 2.4, and their metadata", "statement": "For every ID3v2 tag of version 2, 3 or 4 without unsynchronisation or extended header, whatever follows it, the parser shows its header, each frame with its tag, size (four bytes, three bytes, or four groups of seven bits), flags and content (texts in four charsets, comments, titled texts, links, objects, pictures, private data, others as bytes) and the padding. For every ID3v1 tag at the end of a file, whatever comes before, the texts, the comment, the track number and the genre. The metadata has the title, author, album and comment of an ID3v1 tag without the blanks around them and the track number when the tag has one; of an ID3v2 tag, for each of title, author, album, encoder, genre, copyright, comment and link, the decoded text of the only frame that says it, after its title, whatever the other frames. Refuted: genre 32, comments of 30 characters, pictures with an UTF-16 description, the flags of version 2.4, UTF-16 titles with zeros of two characters side by side, short paddings.", "quantifier": "all ID3v2 tags (any number and size of frames and padding below 256 MB), all ID3v1 tags the parser understands, all files around them, all codecs and all configurations of the metadata", "why_tests_cant": "The frames, their order and their charsets are unbounded, and the metadata of one frame depends on those before it; tests have a few tags", "anchors": ["hachoir/parser/audio/id3.py: ID3v1, ID3v2, ID3_Chunk, ID3_Size, ID3_StringCharset, ID3_Comment, ID3_StringTitle, ID3_GEOB, ID3_Picture23, ID3_Picture24, ID3_Private", "hachoir/metadata/audio.py: MpegAudioMetadata.processID3v2, readID3v2, extract"]}
{"id": "C86", "title": "TGA and PCX pictures and Windows icons: fields, acceptance, description, the size of the content and the metadata", "statement": "For every Targa picture (any identification, map of one color per value of a pixel, any following bytes), every picture of PC Paintbrush (with 256 colors at its end when pixels have 8 bits) and every file of icons or cursors (any number, each with its header, its bitmap header, colors and pixels, whatever follows), the parser shows each field with its place and value. The files accepted are exactly those of the known kinds, depths, versions and reserved bytes. The description of icons lists the sizes in their order, and the size of their content is where the last image ends. The metadata has the size, depth, number of colors, resolution, compression and version, each when it is in the limits of its key, and one group for each icon. On every file the fields follow each other, end inside the file and the loops end. Refuted: pixels of TGA shown by lines; maps of colors of the number told; the width of PCX pictures that do not start at column 0; the marker before the 256 colors of PCX; icons of two colors, of 256 pixels, and stored as PNG.", "quantifier": "all pictures of these formats, all lists of icons, all configurations of the metadata, and for the safety claims all files", "why_tests_cant": "The places of the palette, the pixels and each icon depend on the numbers of colors, the depths and the sizes of all icons before; tests have one or two files of each format", "anchors": ["hachoir/parser/image/tga.py: TargaFile.createFields, validate", "hachoir/parser/image/pcx.py: PcxFile.createFields, validate", "hachoir/parser/image/ico.py: IcoFile.createFields, validate, createDescription, createContentSize, IconHeader.isValid, IconData.createFields", "hachoir/metadata/image.py: TargaMetadata, PcxMetadata, IcoMetadata"]}
{"id": "C87", "title": "Sun and NeXT sounds (AU): fields, acceptance, the size of the content and the metadata", "statement": "For every AU sound (any encoding, rate, number of channels, text of at most 65535 bytes, any sound), whatever follows it, the parser shows the header, the text and the sound; when the size told is more than the file has, the sound is up to the end of the file. Sounds of one or two channels are accepted and no other. The size of the content is the one of the header, text and sound. The metadata has the rate, channels, bits per sample, encoding and text, the bit rate, and the duration, exact to a microsecond. On every file the fields follow each other, end inside the file. Refuted: the size of the content when the size of the sound is unknown (2^32 - 1).", "quantifier": "all AU sounds, all bytes that follow them, all configurations of the metadata, and for the safety claim all files", "why_tests_cant": "The sound starts where the header tells and its size is a minimum of two numbers; tests have one file, with one encoding", "anchors": ["hachoir/parser/audio/au.py: AuFile.createFields, validate, getBitsPerSample, createContentSize", "hachoir/metadata/audio.py: AuMetadata.extract, computeBitRate, computeComprRate"]}
{"id": "C88", "title": "AIFF and AIFC sounds: chunks, their fields, acceptance and metadata", "statement": "For every AIFF or AIFC file made of any number of chunks in any order (description with or without a compression, comments, name, author, version, sound, ID3 tag, unknown chunks; contents of any size, even or odd), the parser shows each chunk at its place, with the byte that makes its size even, and the numbers, texts and bytes it has. Files are accepted exactly when they have the two marks of the format. The metadata has the channels, the bits of a sample, the rate and the bit rate (exactly, for whole rates), the duration to a microsecond, and the compression of AIFC files. On every file, valid or not, the fields follow each other, end inside the file, and the parser ends. Refuted: the size of the content is eight bytes short for every file; the padding byte of a sound of odd size is shown as sound; comments with a marker are not shown.", "quantifier": "all lists of well-formed chunks, and for the acceptance and safety claims all files", "why_tests_cant": "The place of each chunk depends on the sizes of all chunks before it, each rounded to an even number; tests have one file", "anchors": ["hachoir/parser/audio/aiff.py: AiffFile.createFields, validate, createContentSize, Chunk, parseCommon, parseComment, parseText, parseSound, parseVersion, parseID3", "hachoir/field/float.py: Float80", "hachoir/metadata/audio.py: AiffMetadata, computeBitRate"]}
{"id": "C89", "title": "RealAudio sounds: header, texts and sound of both versions, acceptance", "statement": "For every RealAudio sound of the versions 3 and 4, with texts, codec names and a sound of any size and whatever follows it, the parser shows the numbers of the header, the four texts and all of the sound, and ends where the sound ends. Both versions are accepted; every file of at least six bytes with another signature or another version is refused. On every non-empty file, valid or not, the fields follow each other, end inside the file, and the parser ends. The metadata has the four texts, the codec and the version, the rate and the channels when they are in the limits of the metadata, and, exactly for the codecs of a known bit rate, that rate and the duration to a microsecond.", "quantifier": "all sounds of the two versions with texts below 256 bytes and a sound below 2^31 bytes, all bytes after them; for the refusal and safety claims all files", "why_tests_cant": "The place of the sound depends on the sizes of up to six texts, and its size on numbers of the header that may be anything; the test files have no RealAudio sound", "anchors": ["hachoir/parser/audio/real_audio.py: RealAudioFile.createFields, validate, Metadata", "hachoir/metadata/audio.py: RealAudioMetadata"]}
{"id": "C90", "title": "Starfighter archives: every file, its name and its content", "statement": "For every Starfighter archive (.pak) of any number of non-empty files, the parser shows each file at its place with its size and its content, and its name is what precedes the first null byte of its place. Such an archive is accepted exactly when its first file has a name; files with other first bytes are refused. On every non-empty file, valid or not, the fields follow each other, end inside the file, and the parser ends. Refuted: after an empty file, neither it nor any file that follows is shown.", "quantifier": "all lists of files with names of up to 56 bytes and contents below 2^32 bytes; for the refusal and safety claims all files", "why_tests_cant": "The place of each file depends on the sizes of all files before it, and archives have any number of files; the test reads one archive", "anchors": ["hachoir/parser/archive/prs_pak.py: PRSPakFile.createFields, validate, FileEntry.createFields", "hachoir/field/sub_file.py: SubFile", "hachoir/field/byte_field.py: RawBytes"]}
