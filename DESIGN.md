# A Rocq model of jeromelesaux/lha

## What is modelled, and how

The model is a set of total, computable Gallina functions in `rocq/theories`,
one per Go function, each with a comment citing the file and lines it models.
Files named `M_*.v` are the model, `S_*.v` hold the specifications the
properties are stated against (no model helper is used there), `P_*.v` hold
proofs and `Properties_*.v` state the theorems listed in `MANIFEST.json`
together with concrete cases meeting their hypotheses and `Print Assumptions`.

Conventions:

* Go integers are `Z`. Every operation on a fixed-width type that can wrap is
  wrapped explicitly (`u8`, `u16`, ...). `int`/`uint` (64 bit) are wrapped where
  a subtraction can go below zero; other 64-bit overflow is not reachable for
  in-memory sizes and is not modelled (each place says so).
* A Go slice is an `arr`: a length and a finite map with a default. Reading or
  writing out of range gives the outcome `Panic`.
* Functions return `res A := Ok a | Panic | NoFuel`. Loops without an evident
  bound run on explicit fuel and return `NoFuel` when it is used up, so a
  theorem that concludes `Ok` also shows that the loop terminates.
* Package-level variables are record fields passed in and returned, so results
  that depend on earlier calls in the same process show up as such.
* `io.Reader` is the list of bytes still to be read, `io.Writer` the list of
  bytes written; devices never fail (no I/O error injection) except where a
  property speaks about it.

## Plan per property

| id | model | proof |
|----|-------|-------|
| C01-C03, C41 | `M_Crc` (MakeCrcTable, updateCrc, calcCrc) | bit-serial division spec; xor-linearity; injectivity of the shift register step; parity |
| C04-C06 | `M_Bitio` (fillbuf, getbits, putcode, putbits) | refinement to lists of bits; invariant on sizes |
| C07-C08 | `M_Maketree` | forest invariant over the heap, Kraft sums, induction on the repair loop |
| C09-C10, C42 | `M_Maketbl` | ghost map from trie nodes to prefixes; aligned intervals |
| C11-C12 | `M_Huf` | serialisation round trip on bit lists; block invariant |
| C13 | `M_Slide` encode | invariant over hash chains, window and remaining input |
| C14-C17 | encode+decode | composition of the above; refutations by execution or general argument |
| C18-C19 | `M_Lzhuf` (copyfile, encodeStoredCrc, DecodeLzhuf), `M_Archive` | exact behaviour of copyfile; refutation |
| C20-C23, C43-C48 | `M_Header` | round trip on byte lists against the layout in `S_Header`, checksum argument, execution for refutations |
| C24, C56, C57 | `M_Header`, `M_Archive` (list and header loops) | induction on the rest of the archive |
| C25-C29, C49-C55 | `M_Archive` (extractOne, extractOneStream, Decompress, CommandExtract), `M_Os` | path functions by induction on strings; invariants over the trace of file operations |
| C30-C32 | decode on arbitrary input | loop invariants; witnesses for panics |
| C33-C37, C58, C59 | `M_Archive` (CommandAdd, appendIt, appendBytes, Compress, CompressBytes), `M_Os` | trace induction, crash prefix argument |
| C38 | `M_Pm2hist` | doubly linked ring invariant refined to a list |
| C39 | `M_Header` wintimeToUnixStamp | byte-wise subtraction and division arithmetic |
| C40, C51, C58, C60 | all | composition |
| C61-C63 | `M_Larc`, `M_Decode` | the window as a turned ring buffer, against `S_Larc`; composition with the archive loops |
| C64-C66 | `M_Dhuf`, `M_Shuf`, `M_Decode` | the arrays of the adaptive code represent the specified tree (`S_Lh1`), for every sequence of symbols; weights of equal size form blocks; the walk follows the code of a symbol; composition with the archive loops |
| C67, C68 | `M_Huf`, `M_Maketbl`, `M_Slide` | the blocks the decoder lemmas accept and the encoder lemmas produce are exactly those of `S_Lh5` (both directions), hence decoding of any conforming stream and conformance of the output |
| C69-C73 | `M_Archive` (Headers, CommandExtract, extractOne, adjustInfo) | induction over the entries in front of the entry in question; the operations done on the file system are listed |
| C74-C79 | `M_Cli`, `M_Archive`, `M_Os` | the flags decide which library call is made; composition with the theorems about that call; an effect argument for C74 |
| C80-C86 | `M_Cli`, `M_Archive`, `M_Header` (writing) | as above; the written level 2 header is shown to make every reader panic; effect argument for C82 |
| C87-C90 | `M_Header` (level 0 in general), `M_Archive`, `M_Cli` | exact result of reading any header of `S_Level0`; the inductions of C56, C60, C66 over such headers; a bound on calendar times for C87 |
| C91, C92 | `M_Cli`, `M_Header` (writing in the generic format), `M_Archive` | the written header is one of `S_Level0`, then C89 and C90; the mode read back is computed |
| C93-C96 | `M_List` (the text of listings), `M_Archive`, `M_Cli` | text assembled entry by entry along the headers of C88; the ratio is computed with SpecFloat of Coq's standard library and bounded with Flocq |
| C97-C98 | `M_Huf`, `M_Shuf`, `M_Larc`, `M_Decode`, `M_Lzhuf` | the decoders of LArc data by induction over the bytes still to be produced; a cycle in the trees of `M_Huf`, `M_Shuf` and `M_Pm2`, shown to keep the walk going for every number of steps |
| C99 | `M_Conc` (two goroutines in slide.go `decode` that share the package variables, interleaved between iterations of its loop) | schedules as lists of turns; refinement of the sequential decoder for schedules without overlap |
| C100 | `M_Shuf`, `M_Decode` against `S_Lh3` (blocks, codes, items as lists of bits) | the tables of each head find the words of the codes; induction over items and blocks; counterexamples by computation |
| C101 | `M_Archive` (SeekLhaHeader, archiveIsMsdosSfx1, CommandExtract), `M_Cli` | induction over the positions the search looks at; composition with C76 |
| C102 | `M_Pm2hist`, `M_Pm2`, `M_Decode` against `S_Pm2`, `S_Mtf` (codes, renewals and items as lists of bits) | induction over items with an invariant that ties the history to the bytes since the last call (C38) and the trees to the codes; counterexample by computation |
| C103 | `M_Header`, `M_Archive`, `M_Cli` against `S_Levels` (layouts of the levels 1, 2 and 3) | the loops of the commands split at the first header of that level; `GetHeader` on the layout panics, refuses or drops the last byte of the name; induction over level 1 entries |
| C104 | `M_Archive` (Headers, CompressBytes, Compress, DecompresBytes, needFile) | the round trip of C40 with the object left by CompressBytes; the header loop on a name that is not selected |
| C105 | `M_Cli` (main), `M_Archive` (appendIt, extractOne), `M_Lzhuf` (EncodeLzhuf) | the bytes of the archive written for contents that do not shrink; its first entry extracted, and what is there kept by the rest of the run (C84) |
| C106 | `M_Archive` (appendIt, add_command), `M_Cli` (main) | running the command up to appendIt, which does not return; the effects of appendIt on the temporary file only |
| C107 | `M_Cli` (parseOption, main), `M_Archive` (add_command) | equality of the two runs; symbolic execution of the run without names |
| C108 | `M_Archive` (appendIt, add_command), `M_Cli` (main) | symbolic execution of the run |
| C109 | `M_Lzhuf` (EncodeLzhuf, DecodeLzhuf), `M_Cli` (main) | symbolic execution of both runs, with the coder and the decoder evaluated on one file |
| C110 | `M_Dhuf` (startPDyn, makeNewNode, updateP, decodePDyn), `M_Shuf` (decodeStartDyn), `M_Decode` | refinement to the two trees of `S_Lh2`; both trees share the pool of blocks (`P_Pool`, `P_Dhuf2`), each is a frame for the other |
| C111 | `M_Writer` (fwriteCrc, decode, copyfile, DecodeLzhuf over any io.Writer, whose errors the callers drop) | simulation by the model without failures: the writer gets the same chunks; `disk` of `S_Writer` |
| C112 | `M_ConcEnc` (two goroutines in slide.go `encode` that share the package variables, interleaved between iterations of its loop) | schedules as lists of turns; refinement of the sequential encoder for schedules without overlap; the block sent when the buffers have been cleared by the other goroutine |
| C113 | `M_Full` (putcode and its callers, `encode`, EncodeLzhuf over a file whose writes can fail) | simulation of the run on the disk by the run without failures: equal up to the first failed write, afterwards the file stays as it is and no flag is set; `disk` of `S_Writer` |
| C114 | `M_Header` (GetHeader, convertFilename) | the lemma on level 0 headers of C87, before the conversion of the name; `from_mac` of `S_Systems` |
| C115 | `M_Header` (writeHeaderLevel0), `M_Archive` (addOne), `M_Cli` | a header with a long name is the header with the name cut off, so that adding is adding under that name (`addOne_cut`); then C76. Names that fit: C20 |
| C116 | `M_Archive` (CommandAdd, removeFiles), `M_Os` | the operations of a call are those on the temporary file, then the rename, then removals of named files (`add_command_strict`, `P_Move`); the runs of C35, C36 and C108 with the option on |
| C117 | `M_List` (listOne and the verbs of fmt.Printf), `M_Header` (GetHeader) | induction over the characters of the names, encoded in UTF-8 by an independent specification (`S_Owner`); the line of a link from C73's header |
| C118 | `M_Archive` (all commands), `M_Os` | an invariant of the options and of the files through every function (`dry`, `P_Dry`); the counterexamples by running the commands step by step, one on a literal archive |
| C119 | `M_Archive` (buildBackupFile, CommandAdd), `M_Os` (names with a NUL byte are refused) | from the order of the operations (`add_command_strict`, C116) and `backup_run` |
| C120 | `M_Archive` (name_start, extractOne, CommandExtract), `M_Header`, `M_Lzhuf` | as C55, under the name that `name_start` gives (`P_Ignore`) |
| C121 | `M_Archive` (extractOne, CommandExtract) | induction on the entries (`force_decodable`, `P_Force`), as C60 |
| C122 | `M_String` (LzHeader.String) | injectivity of the numerals and of lines ended by a line break (`P_String`) |
| C123 | `M_String`, `M_Archive` (Headers) | C66 for the headers, then the text line by line |
| C124 | `M_Decode`, `M_Dhuf`, `M_Shuf`, `M_Archive` | an invariant of all -lh2- decoding (`n1` and the tables of huf.go are kept), then every -lh3- block runs past the table |
| C125 | `M_Archive` (CommandAdd) | no step of adding a file reads the names; then induction over the names, comparing the two runs |
| C126 | `M_Decode`, `M_Lzhuf` | what -lh2- decoding leaves behind, then a simulation between the two later runs |
| C127 | `M_Archive` (CompressBytes) | the run of the whole call for the name of the archive; C40 for other names |
| C128 | `M_Cli` | splitting at the commas undoes joining with commas, by induction on the list; the run of main up to CommandAdd |
| C56, C60, C76-C78 with longer names | `M_Header` (a header read into a shorter name), `M_Archive`, `M_Cli` | `S_Grow`, `P_Grow`: exact result of reading a header of which only part of the name is kept; induction over the entries |

Where the Go code does not have the property a user expects, the full property
stays in `properties.jsonl`, a theorem with suffix `_refuted` shows the failing
case on the model (usually for every input of a described kind, sometimes by one
execution), and the strongest true conditional statement found is proved with the
suffix `_partial`. In `MANIFEST.json` such properties have the status `partial`
and a note that starts with or contains `REFUTED`.

## Which parts of the code are modelled

| Go file | model | not modelled |
|---------|-------|--------------|
| crcio.go | `M_Crc` | the Shift-JIS text cache (`initCodeCache`) is never read |
| bitio.go, macro.go (peekbits) | `M_Bitio` | |
| maketree.go, maketbl.go, huf.go | `M_Maketree`, `M_Maketbl`, `M_Huf` | |
| slide.go | `M_Slide` (encoder, decoder of -lh4- .. -lh7-), `M_Decode` (decoder of the other methods), `M_Conc` (two decoders at the same time), `M_ConcEnc` (two encoders) | |
| dhuf.go, shuf.go | `M_Dhuf`, `M_Shuf` (decoding) | `encodeCDyn`, `encodeEndDyn`, `outputDyn`, `encodePSt0`, `encodeStartFix`: not reachable through the API |
| larc.go, pm.go, pmtree.go, pm2hist.go | `M_Larc`, `M_Pm2`, `M_Pm2hist` | |
| append.go, extract.go, util.go | `M_Lzhuf` | the progress indicators, which only print |
| header.go | `M_Header` (levels 0 to 3 read, levels 0 to 2 written), `M_String` (`String`) | `canonPath`, `removeLeadingDots`, `copyPathElement` (unused); the printing of `dump*` |
| lha.go, lhext.go | `M_Archive` over `M_Os`; `M_List` (the text of listings) | the other text that is printed |
| cmd/lharc.go | `M_Cli` (from the values of the flags on) | the parsing of the command line by package flag, -v and -version, the usage message |

The file system (`M_Os`) maps paths to files, directories and links; operations
are atomic and recorded in a trace, and crashes are prefixes of the trace.
Opening succeeds or fails as the environment says; reads and writes on open
files never fail, disks are never full, but in `M_Writer` (C111), where
DecodeLzhuf writes to any `io.Writer`, and in `M_Full` (C113), where EncodeLzhuf does. There is no concurrency but in
`M_Conc` and `M_ConcEnc`: the package keeps its state in package variables without locks and the
model is a single thread of calls, whose history is arbitrary (`S_History.v`).
`M_Conc` (C99) interleaves two calls of slide.go `decode`, `M_ConcEnc` (C112) two
calls of `encode`, between iterations of their loops.

## Trusted base

* The kernel of Coq 8.16.1 (`coqc`, re-checked by `coqchk`). `vm_compute` is used
  for concrete cases and for finite tables (for example all 256 entries of the
  CRC table).
* `Print Assumptions` is printed for every theorem of `MANIFEST.json` in the
  `Properties_*.v` files. For all of them but one the answer is
  `Closed under the global context`: no axiom is used. The exception is
  `C93_list_text_partial`, which bounds a floating point ratio with Flocq and so
  depends on the axioms of the standard library's real numbers:
  `ClassicalDedekindReals.sig_not_dec`, `ClassicalDedekindReals.sig_forall_dec`,
  `FunctionalExtensionality.functional_extensionality_dep`,
  `Classical_Prop.classic`.
* No axioms are declared. Loading mathcomp's and Coq's ssreflect libraries
  brings seven constants of the standard library that `coqchk` lists as axioms
  of the context, none of which any theorem here depends on:
  `Coq.ssr.ssrunder.Under_rel.{Under_rel, Under_rel_from_rel, Under_relE,
  under_rel_done, Over_rel, over_rel, over_rel_done}` (a sealed module).
* That the model agrees with the Go code: by reading. Every definition cites the
  lines it models; the deviations listed in the comments are trusted.
* The semantics of Go assumed by the model: panics on out-of-range indices,
  wrap-around of fixed width integers, 64-bit `int`.
