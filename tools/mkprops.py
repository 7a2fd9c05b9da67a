import json
P=[]
def p(title,statement,quant,why,anchors):
    P.append(dict(id="C%02d"%(len(P)+1),title=title,statement=statement,quantifier=quant,why_tests_cant=why,anchors=anchors))
L="lib/loop_unicode.h:unicode_loop_convert"; R="lib/loop_unicode.h:unicode_loop_reset"; I="lib/iconv.c:"
p("Conversion is memory safe and never aborts",
  "reiconv_iconv called with input never reads outside the inbytesleft input bytes or a conversion table, never writes outside the outbytesleft output bytes, and never calls abort().",
  "every ordered pair of supported encodings, every flag, every descriptor state reachable by any history of calls, every input byte string, every output buffer size",
  "an out-of-bounds access or abort may need one particular byte string, one particular remaining output size and one particular shift state out of infinitely many",
  [L,I+"reiconv_iconv","lib/converters/*.h"])
p("Byte accounting of reiconv_iconv",
  "On return *inbuf has advanced by exactly the amount *inbytesleft decreased, *outbuf by exactly the amount *outbytesleft decreased, both remain inside the buffers, and the bytes between the old and new *outbuf are exactly the bytes produced.",
  "all encodings, states, inputs, output sizes, success and every error return",
  "there are five different exits from the loop, each reachable at any position of an arbitrarily long input",
  [L])
p("Every call terminates",
  "reiconv_iconv, reiconv_result_size, reiconv_convert_static_size and reiconv_convert return after finitely many steps.",
  "all encodings, states, inputs and buffer sizes",
  "some decoders return a character while consuming zero input bytes, and the size estimation restarts after each E2BIG; a test cannot show absence of an infinite loop",
  [L,I+"reiconv_result_size",I+"reiconv_convert_static_size"])
p("Input may be cut anywhere",
  "Feeding an input in any number of pieces (carrying over the bytes a call reports as not consumed) produces the same total output, the same final descriptor state and the same final result as feeding it in one call.",
  "all encodings, all inputs, all ways of splitting the input, all initial reachable states",
  "the number of splittings is exponential in the length and every split point of every multi-byte or escape sequence matters",
  [L,"lib/converters/iso2022_jp2.h:iso2022_jp2_mbtowc","lib/converters/utf7.h:utf7_mbtowc","lib/converters/cp1255.h:cp1255_mbtowc"])
p("Running out of output space loses nothing",
  "When reiconv_iconv fails with E2BIG, continuing with the reported input position and a fresh output buffer yields, concatenated, exactly the output of one call with an unlimited buffer, and the same descriptor state.",
  "all encodings, inputs, all sequences of output buffer sizes that let the conversion finish",
  "each of the infinitely many sequences of buffer sizes interrupts the conversion at different characters and shift states",
  [L,"lib/converters/*.h:*_wctomb"])
p("E2BIG only when the next character really does not fit",
  "reiconv_iconv reports E2BIG only if output space is exhausted or the complete encoding of the next character (with its shift sequence) is longer than the remaining space; a fixed number of free output bytes always suffices to make progress.",
  "all encodings, states, inputs, output sizes",
  "needs all encoder states and all output sizes; a wrong size test only shows up at one exact remaining size",
  [L,"lib/converters/*.h:*_wctomb"])
p("EINVAL means an incomplete tail",
  "When reiconv_iconv fails with EINVAL, everything before the reported input position has been converted, the remaining input is non-empty and is not rejected: appending the missing bytes and calling again behaves as if the input had been complete from the start.",
  "all encodings, inputs, continuations",
  "quantifies over all possible continuations of the input",
  [L,"lib/converters/*.h:*_mbtowc"])
p("EILSEQ stops exactly at the offending sequence",
  "When reiconv_iconv fails with EILSEQ without the discard flag, the output is exactly the conversion of the input before the reported position (plus shift sequences), and a further call at that position fails again without producing output.",
  "all encodings, inputs, output sizes",
  "error position depends on all preceding shift state and on every malformed sequence",
  [L])
p("Discard mode never reports EILSEQ and drops only the bad parts",
  "With REICONV_DISCARD_ILSEQ reiconv_iconv never fails with EILSEQ; the output is the conversion of the sequence of well-formed encodable characters in order.",
  "all encodings, inputs, states",
  "all malformed inputs",
  [L,I+"reiconv_open_from_index"])
p("Return value counts the lossy characters",
  "On success the value returned by reiconv_iconv is the number of characters that were replaced by U+FFFD or dropped because the target cannot represent them (tag characters excepted), and it is 0 when all characters are representable.",
  "all encodings, inputs",
  "counts over arbitrarily long inputs",
  [L])
p("Reset returns to the initial state",
  "After reiconv_iconv with NULL input succeeds, every later conversion behaves like on a freshly opened descriptor.",
  "all histories of calls before the reset, all later inputs",
  "quantifies over all histories",
  [R,I+"reiconv_iconv"])
p("Byte order does not survive a reset",
  "For the encodings with a byte order mark (UCS-2, UCS-4, UTF-16, UTF-32) a reset also forgets the byte order detected in the previous text.",
  "all histories ending in a reset",
  "needs two texts with different byte order on the same descriptor",
  [R,"lib/converters/utf16.h:utf16_mbtowc","lib/converters/ucs2.h:ucs2_mbtowc"])
p("Flushing completes the text",
  "After feeding a whole text and flushing, the output ends in the initial shift state and contains every buffered character: the output followed by the output of a second text (started fresh) decodes as the concatenation.",
  "all encodings, inputs",
  "depends on every reachable end state",
  [R,"lib/converters/*.h:*_reset","lib/converters/flushwc.h"])
p("Flushing is memory safe for any output size",
  "reiconv_iconv with NULL input and an output buffer never writes outside that buffer and never aborts, also when no output space is left.",
  "all encodings, all reachable states, all remaining output sizes including zero",
  "the flush path calls the encoder with sizes the conversion loop never uses",
  [R])
p("Flush may be retried after E2BIG",
  "If flushing fails with E2BIG nothing is lost: flushing again with a big enough buffer gives, concatenated, the output of one flush with an unlimited buffer.",
  "all encodings, reachable states, buffer sizes",
  "two-stage flush can fail between the stages",
  [R])
p("reiconv_result_size is exact",
  "If reiconv_result_size succeeds, its value is the number of bytes produced by converting the input completely (with an unlimited output buffer) and flushing.",
  "all encodings, inputs of any length (beyond the 4096 byte scratch buffer), states",
  "the scratch buffer is refilled an unbounded number of times with E2BIG at arbitrary characters",
  [I+"reiconv_result_size"])
p("reiconv_result_size leaves the descriptor reusable",
  "After reiconv_result_size, whether it succeeds or fails, the descriptor is back in its initial shift state.",
  "all encodings, inputs, states",
  "depends on error at any point of any input",
  [I+"reiconv_result_size"])
p("reiconv_convert_static_size writes the converted text and nothing else",
  "If reiconv_convert_static_size returns 0 the output buffer starts with the conversion of the input (flushed) and the rest of the buffer is unchanged.",
  "all encodings, inputs, buffer sizes and buffer contents",
  "the unchanged-tail promise is about every byte of every larger buffer",
  [I+"reiconv_convert_static_size","include/cppp/reiconv.h.in"])
p("Too small an output buffer is reported by -1",
  "If the output buffer passed to reiconv_convert_static_size is smaller than the converted text, -1 is returned and no byte outside the buffer is written.",
  "all encodings, inputs, buffer sizes",
  "the dangerous sizes are those that are exhausted exactly before a pending character is flushed",
  [I+"reiconv_convert_static_size",R])
p("A truncated last character is reported",
  "reiconv_convert_static_size reports an error when the input ends in the middle of a character.",
  "all encodings, inputs",
  "quantifies over all truncation points",
  [I+"reiconv_convert_static_size"])
p("reiconv_convert succeeds whenever the size computation succeeds",
  "If memory is available and reiconv_result_size succeeds on the input, reiconv_convert on the same descriptor returns 0, stores that size, and the buffer holds exactly the converted text.",
  "all encodings, flags, inputs",
  "the buffer is sized exactly, so any character needing space it does not use breaks it",
  [I+"reiconv_convert"])
p("reiconv_convert on an unrepresentable or malformed input fails cleanly",
  "If reiconv_convert fails because of the input, the caller's output pointer is left untouched or set to NULL, never dangling.",
  "all encodings, inputs, both malloc and realloc modes",
  "all error points",
  [I+"reiconv_convert"])
p("C++ convert agrees with the C API and throws only system_error",
  "reiconv::convert returns the same bytes as reiconv_convert, throws std::system_error on conversion errors, and always releases the descriptor.",
  "all encodings, inputs, flags",
  "all error paths",
  ["lib/reiconv.cpp:reiconv::convert"])
p("Encoding names are matched ignoring case, '-' and '_'",
  "Two names that differ only in ASCII letter case and in occurrences of '-' and '_' are looked up to the same encoding index.",
  "all pairs of names",
  "infinitely many spellings",
  [I+"reiconv_name_canonicalize",I+"reiconv_lookup_from_name"])
p("Name lookup finds exactly the documented names",
  "reiconv_lookup_from_name returns index i exactly when the canonical spelling of the name is one of the names declared for encoding number i in encodings.h.snippet, and -1 for every other name.",
  "all names (byte strings) that the lookup can process safely",
  "the perfect-hash lookup must reject infinitely many non-names",
  [I+"reiconv_lookup_from_name","lib/generated/aliases.h:aliases_lookup","lib/encodings.h.snippet"])
p("Name lookup is memory safe for every name",
  "reiconv_lookup_from_name and reiconv_open never read or write out of bounds, whatever the length and bytes of the name.",
  "all NUL-terminated byte strings",
  "lengths and bytes are unbounded",
  [I+"reiconv_lookup_from_name",I+"reiconv_open","lib/generated/aliases.h:aliases_hash"])
p("Codepage lookup",
  "reiconv_lookup_from_codepage returns the encoding declared for the codepage by DEFCODEPAGE and -1 for all other integers, without reading out of bounds.",
  "all ints",
  "2^32 codepages",
  [I+"reiconv_lookup_from_codepage","lib/codepage_to_ei.h"])
p("Opening a descriptor",
  "reiconv_open_from_name / _from_codepage / reiconv_open fail with EINVAL exactly when one of the encodings is unknown, otherwise give a descriptor in the initial state for exactly the two requested encodings, in the requested direction.",
  "all names / codepages / flags",
  "all name pairs",
  [I+"reiconv_open_from_name",I+"reiconv_open_from_codepage",I+"reiconv_open"])
p("//IGNORE suffix",
  "reiconv_open sets the discard flag exactly when tocode (or fromcode) carries the //IGNORE suffix, and the text from the first '/' on does not influence which encoding is selected.",
  "all names",
  "all suffix strings",
  [I+"reiconv_open"])
p("UTF-8 decoding accepts exactly well-formed UTF-8",
  "Converting from UTF-8 accepts exactly the byte sequences that are UTF-8 encodings of Unicode scalar values, and yields these scalar values; overlong forms, surrogates and values above U+10FFFF are rejected, truncated sequences are reported as incomplete.",
  "all byte strings",
  "all byte strings of all lengths",
  ["lib/converters/utf8.h:utf8_mbtowc"])
p("UTF-8 encoding",
  "Converting to UTF-8 writes the unique UTF-8 encoding of every scalar value, rejects surrogates and values above U+10FFFF, and decoding the output gives the characters back.",
  "all 32-bit code values and all strings of them",
  "all strings",
  ["lib/converters/utf8.h:utf8_wctomb"])
p("UTF-16 and UTF-32 forms",
  "UTF-16BE/LE and UTF-32BE/LE decode exactly the standard encodings of scalar values and encode to them; lone surrogates are rejected; UTF-16/UTF-32 with byte order marks honour the mark.",
  "all code values, all byte strings",
  "all strings, both byte orders, mark at any position",
  ["lib/converters/utf16.h","lib/converters/utf16be.h","lib/converters/utf16le.h","lib/converters/utf32.h","lib/converters/utf32be.h","lib/converters/utf32le.h"])
p("UCS-2 and UCS-4 forms",
  "The UCS-2 and UCS-4 families decode fixed-width units in the stated byte order and round-trip every value they accept.",
  "all code values, all byte strings",
  "all strings",
  ["lib/converters/ucs2.h","lib/converters/ucs4.h","lib/converters/ucs2be.h","lib/converters/ucs4be.h"])
p("UTF-7 round trip",
  "Converting any sequence of scalar values to UTF-7, flushing, and converting back gives the same sequence.",
  "all sequences of scalar values",
  "base64 state carries across characters; all alignments and sequences",
  ["lib/converters/utf7.h"])
p("C99 and JAVA escapes round trip",
  "Converting scalar values to C99 or JAVA escapes and back gives the same values; the output is pure ASCII.",
  "all code values",
  "all code values and contexts",
  ["lib/converters/c99.h","lib/converters/java.h"])
p("Single-byte encodings are consistent",
  "In every single-byte encoding each byte either is rejected or decodes to one character, and encoding a character back yields a byte that decodes to that character.",
  "all single-byte encodings, all bytes, all 32-bit code values",
  "every code value must be checked in the encoder including those far outside the tables",
  ["lib/converters/iso8859_*.h","lib/converters/cp*.h","lib/converters/mac_*.h","lib/converters/ebcdic*.h","lib/converters/koi8_*.h"])
p("CJK encodings are consistent",
  "In every stateless multi-byte encoding, whatever bytes the encoder produces for a character decode back to that character (apart from documented compatibility mappings).",
  "all stateless CJK encodings, all 32-bit code values",
  "tables have tens of thousands of entries and interact through fallback chains",
  ["lib/converters/euc_*.h","lib/converters/sjis.h","lib/converters/cp932.h","lib/converters/ces_big5.h","lib/converters/gb18030_2022.h"])
p("Stateful encodings round trip",
  "In the ISO-2022 encodings, HZ, the Vietnamese/Hebrew combining encodings and the JISX0213/HKSCS encodings, converting any text of encodable characters, flushing, and converting back gives the text.",
  "all texts",
  "the escape state depends on the whole preceding text",
  ["lib/converters/iso2022_*.h","lib/converters/hz.h","lib/converters/cp1255.h","lib/converters/euc_jisx0213.h"])
p("Decoders deliver Unicode scalar values",
  "Every character delivered by a conversion from a supported encoding is a Unicode scalar value (0..10FFFF, no surrogates).",
  "all encodings, all inputs",
  "all inputs",
  ["lib/converters/*.h:*_mbtowc"])
p("UTF-8 as pivot",
  "Converting from A to UTF-8 and from UTF-8 to B gives the same bytes as converting directly from A to B.",
  "all encodings A, B whose decoder delivers scalar values, all inputs",
  "all inputs and pairs",
  [L,"lib/converters/utf8.h"])
p("Concatenation",
  "For encodings without shift state, converting x followed by y gives the conversion of x followed by the conversion of y, for every well-formed x.",
  "all stateless encodings, all x, y",
  "all inputs",
  [L])
p("ASCII is preserved by ASCII supersets",
  "In every encoding that extends ASCII, a text of bytes below 0x80 converts to the same bytes in every other such encoding.",
  "all ASCII supersets, all ASCII texts",
  "all texts and pairs",
  ["lib/converters/*.h"])
p("A failed write attempt does not disturb the shift state",
  "When a character cannot be written (E2BIG or unrepresentable), the descriptor state is the same as before the attempt, so retrying is idempotent.",
  "all encodings, states, characters, sizes",
  "all states and sizes",
  [L,"lib/converters/*.h:*_wctomb"])
p("Index tables agree",
  "The public ENCODING_xxx constants, the internal encoding order, the alias table and the function table all refer to the same encoding for the same number.",
  "all encodings",
  "tests exercise one encoding at a time; agreement must hold for every entry of four independent lists",
  ["lib/generated/indexes.h.shippet","lib/encodings.h.snippet","lib/encoding_indexes.h","lib/all_encodings.h"])
open('/verif/properties.jsonl','w').write(''.join(json.dumps(x)+'\n' for x in P))
print(len(P))
