# Formal model of cppp-reiconv in Rocq (Coq 8.16.1)

## Layout of rocq/theories

Model of the code (every definition cites the file and lines it models):

| file | what it models |
|------|----------------|
| `Base.v` | outcomes of C code (`Ok`, `UB`, `Abort`, `NoFuel`), machine integers, reads, write logs, tables |
| `Tab_*.v` | conversion tables, copied number by number from `lib/converters/*.h` |
| `Conv_*.v` | the converter functions of `lib/converters/*.h`, translated by `tools/c2coq.py` (198 encodings) |
| `Indexes.v`, `Encodings.v` | `lib/encoding_indexes.h`, `all_encodings[]` of `lib/all_encodings.h` |
| `Loop.v` | `lib/loop_unicode.h`: `unicode_loop_convert`, `unicode_loop_reset` |
| `Api.v` | `lib/iconv.c`: open from index, `reiconv_iconv`, `reiconv_result_size`, `reiconv_convert_static_size`, `reiconv_convert` |
| `AliasTab.v`, `PubIdx.v`, `Names.v` | name canonicalisation, generated perfect hash, codepage table, `reiconv_open*` with `//IGNORE`, the public constants |
| `Cpp.v` | `lib/reiconv.cpp`: `reiconv::convert` |

Specifications, independent of the code:

| file | what it specifies |
|------|-------------------|
| `Spec.v` | the meaning of a conversion: characters read from a byte string, bytes written for a character string |
| `UniSpec.v` | ASCII, Latin-1, UTF-8, UTF-16, UTF-32, UCS-2, UCS-4 encoding forms, from the standard |
| `Charmap.v`, `Maps_*.v` | charmaps; the maps are the files `tests/data/*.TXT` and `*.IRREVERSIBLE.TXT`, one entry per line of those files |

Proofs:

| file | what it proves |
|------|----------------|
| `Contract.v` | what a decoder and an encoder must satisfy (interface only) |
| `LoopLib.v`, `LoopProps.v`, `SpecProps.v` | for every pair of converters that satisfy the contract the loop implements `Spec.v` |
| `Sx.v`, `Rng.v`, `EncLib.v`, `TabLib.v`, `TabIn_*.v`, `Leaf.v`, `DLeaf.v`, `JLeaf.v`, `CjkLib.v`, `DCjk.v`, `DecLib.v`, `SbLib.v`, `Unroll.v`, `Reflect.v` | tactics and lemmas for the converters (symbolic execution of generated code) |
| `Ok_*.v`, `AllOk.v` | the contract of the converters; `AllOk.v` collects them by encoding index and names the exceptions |
| `Public.v` | reachable descriptors and the main facts about them |
| `UniProps.v`, `CharLib.v`, `Chk_*.v`, `Tables.v` | converters agree with encoding forms and charmaps |
| `C_*.v` | the property theorems `Cnn_*`, each with examples that meet its hypotheses |
| `Round.v`, `Rt_utf7.v`, `Bom.v` | an encoding carries a text: what is written in it is read back (shift states, byte order marks) |
| `RtLib.v`, `Rt_sets.v`, `Rt_cns.v` | characters of the 94x94 sets that the decoding table gives back, by enumeration |
| `Rt_kr.v`, `Rt_jp*.v`, `Rt_cn*.v` | ISO-2022 and HZ: encoder and decoder stay in step through every escape sequence |
| `RtHold.v`, `Rt_jisx.v`, `Rt_hkscs*.v`, `Rt_comb.v` | encodings in which the writer or the reader holds a character back: the reader is behind by what is held |
| `Rt_euctw.v`, `Rt_raw.v` | EUC-TW, the 94x94 sets without escape sequences |
| `LocaleTab.v` (generated), `Locale.v` | `locale_charset`: the locale in force, the table lookup, the Windows code page names |
| `Demo.v`, `Whole.v` | concrete descriptors for examples; conversion of a whole text (call and flush) |

Undefined behaviour is an explicit outcome: reading outside the input or a table, reading a variable that was
not stored to, writing outside the output buffer, signed overflow, over-wide shifts, `size_t` underflow give
`UB`; `abort()` gives `Abort`.  Theorems of the form "is safe" say that the outcome is `Ok`.

A *reachable* descriptor (`Public.v`) is one obtained by opening any source and target (other than those listed
in `not_sources`/`not_targets`) with any flags, followed by any sequence of `reiconv_iconv` calls of any form:
conversions with any input and output buffers, flushes, resets without buffer.

## How each property is proved

| id | method |
|----|--------|
| C01 | `iconv_meets_spec`: the loop of any contract-satisfying pair ends in `Ok`; refuted for the target GB18030:2005 |
| C02 | same; accounting on all exits |
| C03 | the model's fuel is proved sufficient (measure: input left, character held back) |
| C04 | loop against `Spec.v`; decoder stability under extension of the input |
| C05 | E2BIG exit: the characters not written are those read from the reported position |
| C06 | encoder contract: success iff the room is at least the need; need at most 16 |
| C07 | decoder contract: incomplete results are stable under extension |
| C08 | `Spec.v`: error position; idempotent retry |
| C09 | discard flag: no EILSEQ exit; filtered meaning |
| C10 | `Spec.v` carries the counter |
| C11 | reset lemma, all sources that do not remember a byte order |
| C12 | refuted (`ibyteorder` is never reset) |
| C13 | `Spec.v`: text, held character and closing sequence; decoding half by round-trip properties |
| C14 | refuted for zero output space; proved otherwise |
| C15 | two-stage flush lemma |
| C16 | induction over the refills of the 4096-byte buffer |
| C17 | success case proved; failure case refuted |
| C18 | proved: buffer starts with the text, nothing behind it is touched; refuted: rest inside the buffer |
| C19 | refuted for flush with zero space; proved otherwise |
| C20 | refuted (`static_size` ignores EINVAL); what happens instead is proved |
| C21 | refuted (trailing character without output needs one spare byte); proved when every character has output |
| C22 | proved for failures due to the input; refuted when memory runs out |
| C23 | refuted for bad text (length_error, leak); proved for good text |
| C24 | induction over names |
| C25 | symbolic evaluation of the hash over all names up to 40 characters, exhaustive comparison with the declared names |
| C26 | refuted for long names and non-ASCII bytes; proved otherwise |
| C27 | case analysis over the table; refuted outside 0..65001 |
| C28, C29 | model of the open functions |
| C30–C33 | forms of `UniSpec.v`; arithmetic proofs and induction over strings |
| C32, C33 marks | `Bom.v`: the decoder with a mark is the one of the byte order in force; induction over segments |
| C34 | abstract base64 state (`Rt_utf7.v`), encoder and decoder in step |
| C35 | encoder and decoder in step on texts without backslash; refuted with one |
| C38 | relation between the encoder's and the decoder's shift state, kept by every character; set tables by enumeration; held characters as a lag between writer and reader |
| C39 | per decoder: the set of values it delivers (charmap, arithmetic, or one rule per construct of the decoder with all table entries checked, ScLib); induction over the turns of the decoder's loop and over the reading of a text |
| C36, C37 | exhaustive enumeration over byte strings and over intervals of code values that contain the tables; symbolic outside of them; induction over texts |
| C40 | from C30/C31 and `Spec.v` |
| C41 | `Spec.v` |
| C42 | per-encoding enumeration, induction over text |
| C43 | encoder contract |
| C44 | decision over the lists |
| C45 | loop invariant of the binary search over the table, which is proved ascending; case analysis of the environment |
| C48 | simulation: two runs on memories of the same size, related where they agree |
| C46, C47 | decision over the code page tables; C25 and C26 for names from the environment |

The findings of the `_refuted` theorems are properties of the code as it is; the witnesses are concrete calls.

## Trusted base

* Coq's kernel, including its virtual machine (`vm_compute`); `coqchk` re-checks all modules without the VM.
* `Print Assumptions` of every property theorem: *Closed under the global context* (see `Properties.v`).
  `coqchk -o` lists seven axioms of the library module `Coq.ssr.ssrunder` (`Under_rel.*`), which the standard
  library loads for its own `ssreflect` plugin; no theorem uses them.
* The translation of C to Gallina.  `tools/c2coq.py` (with `tools/cfront.py`, `tools/gen.py`, `tools/gennames.py`,
  `tools/genlocale.py`)
  reads the C text of the converters, the tables and the encoding lists; its output is committed and cites the lines.
  `Loop.v`, `Api.v`, `Names.v`, `Cpp.v`, `Locale.v` are transcribed by hand.
* The specifications: `Spec.v`, `UniSpec.v`, `Charmap.v` and the maps in `Maps_*.v`, which
  `tools/gencharmap.py` copies from `tests/data`.
* Reading of the C standard: `int` 32 bits, `ucs4_t` 32 bits unsigned, `state_t` 32 bits unsigned, `size_t` unbounded (object
  sizes do not overflow it), little-endian host with 8-bit bytes (matters for the `INTERNAL`/`SWAPPED` encodings only),
  byte accesses go through `unsigned char` as in the code.

The other generators (`genall.py`, `genok*.py`, `genisodec.py`, `gendcjk.py`, `gentabin.py`, `genunroll.py`)
write proof scripts only; Coq checks what they write, so they are not trusted.

## Bounds and exclusions

* Inputs of at most `LIM` = 0x3ffffff0 bytes per call.  Beyond that decoders that skip shift sequences return
  `2 * count` in an `int` (`RET_TOOFEW`, `reiconv_defines.h:81`), which can overflow.  Sizes below are arbitrary.
* `not_sources`, `not_targets` in `AllOk.v` list the converters whose contract is not proved: no source, and one
  target, GB18030:2005, for which it is false (C01_refuted).
* Names: bytes 1..255, any length.

## Not modelled

* What the platform answers to `locale_charset`: `getenv`, `setlocale`, `nl_langinfo`, `GetACP` are parameters of `Locale.v`.
* The command line program, build-time tools (`genaliases`, CMake), and `tests/`.
* `malloc`'s internals: an oracle decides whether an allocation succeeds.
* Threads: the library has no mutable state besides the descriptor; two calls on one descriptor at the same time are
  a data race of the caller.
* `errno` is modelled as part of the result, not as a global variable.
