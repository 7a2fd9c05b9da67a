{"id": "C01", "title": "Conversion is memory safe and never aborts", "statement": "reiconv_iconv called with input never reads outside the inbytesleft input bytes or a conversion table, never writes outside the outbytesleft output bytes, and never calls abort().", "quantifier": "every ordered pair of supported encodings, every flag, every descriptor state reachable by any history of calls, every input byte string, every output buffer size", "why_tests_cant": "an out-of-bounds access or abort may need one particular byte string, one particular remaining output size and one particular shift state out of infinitely many", "anchors": ["lib/loop_unicode.h:unicode_loop_convert", "lib/iconv.c:reiconv_iconv", "lib/converters/*.h"]}
{"id": "C02", "title": "Byte accounting of reiconv_iconv", "statement": "On return *inbuf has advanced by exactly the amount *inbytesleft decreased, *outbuf by exactly the amount *outbytesleft decreased, both remain inside the buffers, and the bytes between the old and new *outbuf are exactly the bytes produced.", "quantifier": "all encodings, except the target GB18030:2005 (its encoder overruns the buffer, C01), states, inputs of at most 2^30-16 bytes per call, output sizes, success and every error return", "why_tests_cant": "there are five different exits from the loop, each reachable at any position of an arbitrarily long input", "anchors": ["lib/loop_unicode.h:unicode_loop_convert"]}
{"id": "C03", "title": "Every call terminates", "statement": "reiconv_iconv, reiconv_result_size, reiconv_convert_static_size and reiconv_convert return after finitely many steps.", "quantifier": "all encodings, except the target GB18030:2005 (C01), states, inputs and buffer sizes; for the flush at the end of a call with a completely full buffer see C14", "why_tests_cant": "some decoders return a character while consuming zero input bytes, and the size estimation restarts after each E2BIG; a test cannot show absence of an infinite loop", "anchors": ["lib/loop_unicode.h:unicode_loop_convert", "lib/iconv.c:reiconv_result_size", "lib/iconv.c:reiconv_convert_static_size"]}
{"id": "C04", "title": "Input may be cut anywhere", "statement": "Feeding an input in any number of pieces (carrying over the bytes a call reports as not consumed) produces the same total output, the same final descriptor state and the same final result as feeding it in one call; on failure both report positions from which the same text follows.", "quantifier": "all encodings, except the target GB18030:2005 (C01), all inputs, all ways of splitting the input, all initial reachable states", "why_tests_cant": "the number of splittings is exponential in the length and every split point of every multi-byte or escape sequence matters", "anchors": ["lib/loop_unicode.h:unicode_loop_convert", "lib/converters/iso2022_jp2.h:iso2022_jp2_mbtowc", "lib/converters/utf7.h:utf7_mbtowc", "lib/converters/cp1255.h:cp1255_mbtowc"]}
{"id": "C05", "title": "Running out of output space loses nothing", "statement": "When reiconv_iconv fails with E2BIG, continuing with the reported input position and a fresh output buffer yields, concatenated, exactly the output of one call with an unlimited buffer, and the same descriptor state.", "quantifier": "all encodings, except the target GB18030:2005 (C01), inputs, all sequences of output buffer sizes that let the conversion finish", "why_tests_cant": "each of the infinitely many sequences of buffer sizes interrupts the conversion at different characters and shift states", "anchors": ["lib/loop_unicode.h:unicode_loop_convert", "lib/converters/*.h:*_wctomb"]}
{"id": "C06", "title": "E2BIG only when the next character really does not fit", "statement": "reiconv_iconv reports E2BIG only if output space is exhausted or the complete encoding of the next character (with its shift sequence) is longer than the remaining space; a fixed number of free output bytes always suffices to make progress.", "quantifier": "all encodings, except the target GB18030:2005 (C01), states, inputs, output sizes", "why_tests_cant": "needs all encoder states and all output sizes; a wrong size test only shows up at one exact remaining size", "anchors": ["lib/loop_unicode.h:unicode_loop_convert", "lib/converters/*.h:*_wctomb"]}
{"id": "C07", "title": "EINVAL means an incomplete tail", "statement": "When reiconv_iconv fails with EINVAL, everything before the reported input position has been converted, the remaining input is non-empty and is not rejected: appending the missing bytes and calling again behaves as if the input had been complete from the start.", "quantifier": "all encodings, except the target GB18030:2005 (C01), inputs, continuations", "why_tests_cant": "quantifies over all possible continuations of the input", "anchors": ["lib/loop_unicode.h:unicode_loop_convert", "lib/converters/*.h:*_mbtowc"]}
{"id": "C08", "title": "EILSEQ stops exactly at the offending sequence", "statement": "When reiconv_iconv fails with EILSEQ without the discard flag, the output is exactly the conversion of the input before the reported position (plus shift sequences), and a further call at that position fails again (with EILSEQ, or E2BIG if the buffer has less than 16 bytes) without producing output.", "quantifier": "all encodings, except the target GB18030:2005 (C01), inputs, output sizes", "why_tests_cant": "error position depends on all preceding shift state and on every malformed sequence", "anchors": ["lib/loop_unicode.h:unicode_loop_convert"]}
{"id": "C09", "title": "Discard mode never reports EILSEQ and drops only the bad parts", "statement": "With REICONV_DISCARD_ILSEQ reiconv_iconv never fails with EILSEQ; the output is the conversion of the sequence of well-formed encodable characters in order.", "quantifier": "all encodings, except the target GB18030:2005 (C01), inputs, states", "why_tests_cant": "all malformed inputs", "anchors": ["lib/loop_unicode.h:unicode_loop_convert", "lib/iconv.c:reiconv_open_from_index"]}
{"id": "C10", "title": "Return value counts the lossy characters", "statement": "On success the value returned by reiconv_iconv is the number of characters that were replaced by U+FFFD or dropped because the target cannot represent them (tag characters excepted), and it is 0 when all characters are representable.", "quantifier": "all encodings, except the target GB18030:2005 (C01), inputs", "why_tests_cant": "counts over arbitrarily long inputs", "anchors": ["lib/loop_unicode.h:unicode_loop_convert"]}
{"id": "C11", "title": "Reset returns to the initial state", "statement": "After reiconv_iconv with NULL input succeeds, every later conversion behaves like on a freshly opened descriptor.", "quantifier": "all histories of calls before the reset, all later inputs", "why_tests_cant": "quantifies over all histories", "anchors": ["lib/loop_unicode.h:unicode_loop_reset", "lib/iconv.c:reiconv_iconv"]}
{"id": "C12", "title": "Byte order does not survive a reset", "statement": "For the encodings with a byte order mark (UCS-2, UCS-4, UTF-16, UTF-32) a reset also forgets the byte order detected in the previous text.", "quantifier": "all histories ending in a reset", "why_tests_cant": "needs two texts with different byte order on the same descriptor", "anchors": ["lib/loop_unicode.h:unicode_loop_reset", "lib/converters/utf16.h:utf16_mbtowc", "lib/converters/ucs2.h:ucs2_mbtowc"]}
{"id": "C13", "title": "Flushing completes the text", "statement": "After feeding a whole text and flushing, the output ends in the initial shift state and contains every buffered character: the output followed by the output of a second text (started fresh) decodes as the concatenation.", "quantifier": "all encodings, inputs", "why_tests_cant": "depends on every reachable end state", "anchors": ["lib/loop_unicode.h:unicode_loop_reset", "lib/converters/*.h:*_reset", "lib/converters/flushwc.h"]}
{"id": "C14", "title": "Flushing is memory safe for any output size", "statement": "reiconv_iconv with NULL input and an output buffer never writes outside that buffer and never aborts, also when no output space is left.", "quantifier": "all encodings, all reachable states, all remaining output sizes including zero", "why_tests_cant": "the flush path calls the encoder with sizes the conversion loop never uses", "anchors": ["lib/loop_unicode.h:unicode_loop_reset"]}
{"id": "C15", "title": "Flush may be retried after E2BIG", "statement": "If flushing fails with E2BIG nothing is lost: flushing again with a big enough buffer gives, concatenated, the output of one flush with an unlimited buffer.", "quantifier": "all encodings, except the target GB18030:2005 (C01), reachable states, buffer sizes other than the one of C14", "why_tests_cant": "two-stage flush can fail between the stages", "anchors": ["lib/loop_unicode.h:unicode_loop_reset"]}
{"id": "C16", "title": "reiconv_result_size is exact", "statement": "If reiconv_result_size succeeds, its value is the number of bytes produced by converting the input completely (with an unlimited output buffer) and flushing.", "quantifier": "all encodings, except the target GB18030:2005 (C01), inputs of any length (beyond the 4096 byte scratch buffer), states", "why_tests_cant": "the scratch buffer is refilled an unbounded number of times with E2BIG at arbitrary characters", "anchors": ["lib/iconv.c:reiconv_result_size"]}
{"id": "C17", "title": "reiconv_result_size leaves the descriptor reusable", "statement": "After reiconv_result_size, whether it succeeds or fails, the descriptor is back in its initial shift state.", "quantifier": "all encodings, inputs, states", "why_tests_cant": "depends on error at any point of any input", "anchors": ["lib/iconv.c:reiconv_result_size"]}
{"id": "C18", "title": "reiconv_convert_static_size writes the converted text and nothing else", "statement": "If reiconv_convert_static_size returns 0 the output buffer starts with the conversion of the input (flushed) and the rest of the buffer is unchanged.", "quantifier": "all encodings, inputs, buffer sizes and buffer contents", "why_tests_cant": "the unchanged-tail promise is about every byte of every larger buffer", "anchors": ["lib/iconv.c:reiconv_convert_static_size", "include/cppp/reiconv.h.in"]}
{"id": "C19", "title": "Too small an output buffer is reported by -1", "statement": "If the output buffer passed to reiconv_convert_static_size is smaller than the converted text, -1 is returned and no byte outside the buffer is written.", "quantifier": "all encodings, inputs, buffer sizes", "why_tests_cant": "the dangerous sizes are those that are exhausted exactly before a pending character is flushed", "anchors": ["lib/iconv.c:reiconv_convert_static_size", "lib/loop_unicode.h:unicode_loop_reset"]}
{"id": "C20", "title": "A truncated last character is reported", "statement": "reiconv_convert_static_size reports an error when the input ends in the middle of a character.", "quantifier": "all encodings, inputs", "why_tests_cant": "quantifies over all truncation points", "anchors": ["lib/iconv.c:reiconv_convert_static_size"]}
{"id": "C21", "title": "reiconv_convert succeeds whenever the size computation succeeds", "statement": "If memory is available and reiconv_result_size succeeds on the input, reiconv_convert on the same descriptor returns 0, stores that size, and the buffer holds exactly the converted text.", "quantifier": "all encodings, flags, inputs", "why_tests_cant": "the buffer is sized exactly, so any character needing space it does not use breaks it", "anchors": ["lib/iconv.c:reiconv_convert"]}
{"id": "C22", "title": "reiconv_convert on an unrepresentable or malformed input fails cleanly", "statement": "If reiconv_convert fails because of the input, the caller's output pointer is left untouched or set to NULL, never dangling.", "quantifier": "all encodings, inputs, both malloc and realloc modes", "why_tests_cant": "all error points", "anchors": ["lib/iconv.c:reiconv_convert"]}
{"id": "C23", "title": "C++ convert agrees with the C API and throws only system_error", "statement": "reiconv::convert returns the same bytes as reiconv_convert, throws std::system_error on conversion errors, and always releases the descriptor.", "quantifier": "all encodings, inputs, flags", "why_tests_cant": "all error paths", "anchors": ["lib/reiconv.cpp:reiconv::convert"]}
{"id": "C24", "title": "Encoding names are matched ignoring case, '-' and '_'", "statement": "Two names that differ only in ASCII letter case and in occurrences of '-' and '_' are looked up to the same encoding index.", "quantifier": "all pairs of names", "why_tests_cant": "infinitely many spellings", "anchors": ["lib/iconv.c:reiconv_name_canonicalize", "lib/iconv.c:reiconv_lookup_from_name"]}
{"id": "C25", "title": "Name lookup finds exactly the documented names", "statement": "reiconv_lookup_from_name returns index i exactly when the canonical spelling of the name is one of the names declared for encoding number i in encodings.h.snippet, and -1 for every other name.", "quantifier": "all names (byte strings) that the lookup can process safely", "why_tests_cant": "the perfect-hash lookup must reject infinitely many non-names", "anchors": ["lib/iconv.c:reiconv_lookup_from_name", "lib/generated/aliases.h:aliases_lookup", "lib/encodings.h.snippet"]}
{"id": "C26", "title": "Name lookup is memory safe for every name", "statement": "reiconv_lookup_from_name and reiconv_open never read or write out of bounds, whatever the length and bytes of the name.", "quantifier": "all NUL-terminated byte strings", "why_tests_cant": "lengths and bytes are unbounded", "anchors": ["lib/iconv.c:reiconv_lookup_from_name", "lib/iconv.c:reiconv_open", "lib/generated/aliases.h:aliases_hash"]}
{"id": "C27", "title": "Codepage lookup", "statement": "reiconv_lookup_from_codepage returns the encoding declared for the codepage by DEFCODEPAGE and -1 for all other integers, without reading out of bounds.", "quantifier": "all ints", "why_tests_cant": "2^32 codepages", "anchors": ["lib/iconv.c:reiconv_lookup_from_codepage", "lib/codepage_to_ei.h"]}
{"id": "C28", "title": "Opening a descriptor", "statement": "reiconv_open_from_name / _from_codepage / reiconv_open fail with EINVAL exactly when one of the encodings is unknown, otherwise give a descriptor in the initial state for exactly the two requested encodings, in the requested direction.", "quantifier": "all names / codepages / flags", "why_tests_cant": "all name pairs", "anchors": ["lib/iconv.c:reiconv_open_from_name", "lib/iconv.c:reiconv_open_from_codepage", "lib/iconv.c:reiconv_open"]}
{"id": "C29", "title": "//IGNORE suffix", "statement": "reiconv_open sets the discard flag exactly when tocode (or fromcode) carries the //IGNORE suffix, and the text from the first '/' on does not influence which encoding is selected.", "quantifier": "all names", "why_tests_cant": "all suffix strings", "anchors": ["lib/iconv.c:reiconv_open"]}
{"id": "C30", "title": "UTF-8 decoding accepts exactly well-formed UTF-8", "statement": "Converting from UTF-8 accepts exactly the byte sequences that are UTF-8 encodings of Unicode scalar values, and yields these scalar values; overlong forms, surrogates and values above U+10FFFF are rejected, truncated sequences are reported as incomplete.", "quantifier": "all byte strings", "why_tests_cant": "all byte strings of all lengths", "anchors": ["lib/converters/utf8.h:utf8_mbtowc"]}
{"id": "C31", "title": "UTF-8 encoding", "statement": "Converting to UTF-8 writes the unique UTF-8 encoding of every scalar value, rejects surrogates and values above U+10FFFF, and decoding the output gives the characters back.", "quantifier": "all 32-bit code values and all strings of them", "why_tests_cant": "all strings", "anchors": ["lib/converters/utf8.h:utf8_wctomb"]}
{"id": "C32", "title": "UTF-16 and UTF-32 forms", "statement": "UTF-16BE/LE and UTF-32BE/LE decode exactly the standard encodings of scalar values and encode to them; lone surrogates are rejected; UTF-16/UTF-32 with byte order marks honour the mark.", "quantifier": "all code values, all byte strings", "why_tests_cant": "all strings, both byte orders, mark at any position", "anchors": ["lib/converters/utf16.h", "lib/converters/utf16be.h", "lib/converters/utf16le.h", "lib/converters/utf32.h", "lib/converters/utf32be.h", "lib/converters/utf32le.h"]}
{"id": "C33", "title": "UCS-2 and UCS-4 forms", "statement": "The UCS-2 and UCS-4 families decode fixed-width units in the stated byte order and round-trip every value they accept.", "quantifier": "all code values, all byte strings", "why_tests_cant": "all strings", "anchors": ["lib/converters/ucs2.h", "lib/converters/ucs4.h", "lib/converters/ucs2be.h", "lib/converters/ucs4be.h"]}
{"id": "C34", "title": "UTF-7 round trip", "statement": "Converting any sequence of scalar values to UTF-7, flushing, and converting back gives the same sequence.", "quantifier": "all sequences of scalar values", "why_tests_cant": "base64 state carries across characters; all alignments and sequences", "anchors": ["lib/converters/utf7.h"]}
{"id": "C35", "title": "C99 and JAVA escapes round trip", "statement": "Converting scalar values to C99 or JAVA escapes and back gives the same values; the output is pure ASCII.", "quantifier": "all code values", "why_tests_cant": "all code values and contexts", "anchors": ["lib/converters/c99.h", "lib/converters/java.h"]}
{"id": "C36", "title": "Single-byte encodings are consistent", "statement": "In every single-byte encoding each byte either is rejected or decodes to one character, and encoding a character back yields a byte that decodes to that character.", "quantifier": "all single-byte encodings, all bytes, all 32-bit code values", "why_tests_cant": "every code value must be checked in the encoder including those far outside the tables", "anchors": ["lib/converters/iso8859_*.h", "lib/converters/cp*.h", "lib/converters/mac_*.h", "lib/converters/ebcdic*.h", "lib/converters/koi8_*.h"]}
{"id": "C37", "title": "CJK encodings are consistent", "statement": "In every stateless multi-byte encoding, whatever bytes the encoder produces for a character decode back to that character (apart from documented compatibility mappings).", "quantifier": "all stateless CJK encodings, all 32-bit code values", "why_tests_cant": "tables have tens of thousands of entries and interact through fallback chains", "anchors": ["lib/converters/euc_*.h", "lib/converters/sjis.h", "lib/converters/cp932.h", "lib/converters/ces_big5.h", "lib/converters/gb18030_2022.h"]}
{"id": "C38", "title": "Stateful encodings round trip", "statement": "In the ISO-2022 encodings, HZ, the Vietnamese/Hebrew combining encodings and the JISX0213/HKSCS encodings, converting any text of encodable characters, flushing, and converting back gives the text.", "quantifier": "all texts", "why_tests_cant": "the escape state depends on the whole preceding text", "anchors": ["lib/converters/iso2022_*.h", "lib/converters/hz.h", "lib/converters/cp1255.h", "lib/converters/euc_jisx0213.h"]}
{"id": "C39", "title": "Decoders deliver Unicode scalar values", "statement": "Every character delivered by a conversion from a supported encoding is a Unicode scalar value (0..10FFFF, no surrogates).", "quantifier": "all encodings, all inputs", "why_tests_cant": "all inputs", "anchors": ["lib/converters/*.h:*_mbtowc"]}
{"id": "C40", "title": "UTF-8 as pivot", "statement": "Converting from A to UTF-8 and from UTF-8 to B gives the same bytes as converting directly from A to B.", "quantifier": "all encodings A, B whose decoder delivers scalar values, all inputs", "why_tests_cant": "all inputs and pairs", "anchors": ["lib/loop_unicode.h:unicode_loop_convert", "lib/converters/utf8.h"]}
{"id": "C41", "title": "Concatenation", "statement": "For encodings without shift state, converting x followed by y gives the conversion of x followed by the conversion of y, for every well-formed x.", "quantifier": "all stateless encodings, all x, y", "why_tests_cant": "all inputs", "anchors": ["lib/loop_unicode.h:unicode_loop_convert"]}
{"id": "C42", "title": "ASCII is preserved by ASCII supersets", "statement": "In every encoding that extends ASCII, a text of bytes below 0x80 converts to the same bytes in every other such encoding.", "quantifier": "all ASCII supersets, all ASCII texts", "why_tests_cant": "all texts and pairs", "anchors": ["lib/converters/*.h"]}
{"id": "C43", "title": "A failed write attempt does not disturb the shift state", "statement": "When a character cannot be written (E2BIG or unrepresentable), the descriptor state is the same as before the attempt, so retrying is idempotent.", "quantifier": "all encodings, except the target GB18030:2005 (C01), states, characters, sizes", "why_tests_cant": "all states and sizes", "anchors": ["lib/loop_unicode.h:unicode_loop_convert", "lib/converters/*.h:*_wctomb"]}
{"id": "C44", "title": "Index tables agree", "statement": "The public ENCODING_xxx constants, the internal encoding order, the alias table and the function table all refer to the same encoding for the same number.", "quantifier": "all encodings", "why_tests_cant": "tests exercise one encoding at a time; agreement must hold for every entry of four independent lists", "anchors": ["lib/generated/indexes.h.shippet", "lib/encodings.h.snippet", "lib/encoding_indexes.h", "lib/all_encodings.h"]}
{"id": "C45", "title": "The charset of the locale in force is reported", "statement": "On a platform without nl_langinfo, locale_charset() reports the charset of the locale in force (LC_ALL before LC_CTYPE before LANG before setlocale, empty variables ignored): the one the platform's table gives for exactly that locale name; for a locale that is not in the table the text behind its first dot; UTF-8 if it has no dot. The call always returns and reads nothing outside the table.", "quantifier": "all environments, all locale names, with and without a platform table", "why_tests_cant": "the table is found by binary search over a hand-sorted list; one entry out of order hides others for some locale names only, and tests run in one environment", "anchors": ["lib/locale_charset.c:locale_charset", "lib/localecharset/lc_utils.h:GET_LOCALE", "lib/localecharset/locale_table.h:locale_table"]}
{"id": "C46", "title": "On Windows the reported charset is the encoding of the code page", "statement": "If the library supports the active code page (reiconv_lookup_from_codepage finds it), the name locale_charset() reports on Windows is looked up by name to the same encoding.", "quantifier": "all code pages", "why_tests_cant": "a test machine has one active code page; the switch, the alias table and the code page table are three independent lists", "anchors": ["lib/localecharset/windows_getcp.h:windows_getcp", "lib/iconv.c:reiconv_lookup_from_codepage", "lib/iconv.c:reiconv_lookup_from_name"]}
{"id": "C47", "title": "The reported charset can be opened", "statement": "The name locale_charset() reports is accepted by reiconv_open_from_name(), except for the code pages that are documented as not supported.", "quantifier": "all environments, locale names and code pages", "why_tests_cant": "depends on the environment of the process and on the whole of two tables", "anchors": ["lib/locale_charset.c:locale_charset", "lib/localecharset/windows_getcp.h", "docs/c-api.md", "lib/iconv.c:reiconv_open_from_name"]}
{"id": "C48", "title": "What the output memory held before does not matter", "statement": "Return value, errno, consumed input, number of bytes written, the bytes delivered and the state of the descriptor are the same whatever the output buffer (or the buffer the library allocates, or its temporary buffer) contained before the call.", "quantifier": "all encodings and descriptors, all inputs, all buffer sizes, all two initial contents of the same size", "why_tests_cant": "tests run with one, usually zeroed, initial content; a dependence on stale or uninitialised bytes shows only for some contents", "anchors": ["lib/iconv.c:reiconv_iconv", "lib/iconv.c:reiconv_result_size", "lib/iconv.c:reiconv_convert_static_size", "lib/iconv.c:reiconv_convert", "lib/loop_unicode.h"]}
