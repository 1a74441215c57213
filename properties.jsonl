{"id": "C01", "title": "Archive checksum is CRC-16/ARC", "statement": "The checksum stored in a header and compared on extraction is, for every byte string, the CRC-16/ARC of that string: the remainder modulo x^16+x^15+x^2+1 of the bit-reflected message, independent of how the library tabulates it.", "quantifier": "every byte string of every length", "why_tests_cant": "A test compares the table-driven routine with a few known checksums; agreement on all 2^(8n) inputs of every length n needs the algebraic argument about the table.", "anchors": ["crcio.go:MakeCrcTable", "crcio.go:calcCrc", "macro.go:updateCrc"]}
{"id": "C02", "title": "Checksum does not depend on chunking", "statement": "Feeding a byte string to the checksum in any number of consecutive pieces of any sizes gives the checksum of the whole string, so window-sized flushes and buffer-sized reads never change the CRC that is stored or checked.", "quantifier": "every byte string and every way of cutting it into pieces", "why_tests_cant": "The number of ways of cutting an input is unbounded; tests exercise one buffer size.", "anchors": ["crcio.go:calcCrc", "crcio.go:freadCrc", "crcio.go:fwriteCrc"]}
{"id": "C03", "title": "Checksum detects every short burst error", "statement": "If two byte strings of equal length differ only inside one window of at most 16 consecutive bits (least significant bit first), their checksums differ, so such corruption of extracted data can never be accepted by the CRC comparison.", "quantifier": "every pair of byte strings of equal length that differ in a burst of 1 to 16 bits at any position", "why_tests_cant": "Needs all positions, all lengths and all burst patterns.", "anchors": ["crcio.go:MakeCrcTable", "crcio.go:calcCrc", "lhext.go:extractOneStream"]}
{"id": "C04", "title": "Bit stream round trip", "statement": "Whatever sequence of (width, value) fields with widths 0..16 is written to an archive by the bit writer and flushed, the bit reader reads back exactly the same values in the same order from the bytes produced.", "quantifier": "every finite sequence of fields, every starting state of the bit buffers after initialisation", "why_tests_cant": "Field sequences are unbounded and alignment cases multiply; a test covers a few alignments.", "anchors": ["bitio.go:putcode", "bitio.go:putbits", "bitio.go:getbits", "bitio.go:fillbuf", "bitio.go:initGetbits", "bitio.go:initPutbits"]}
{"id": "C05", "title": "Compressed output never exceeds the original", "statement": "During compression the number of bytes emitted by the bit writer never exceeds the size of the original data, the recorded packed size is exactly the number of bytes emitted, and the attempt to exceed it is always reported as 'unpackable'.", "quantifier": "every original size and every sequence of emitted fields", "why_tests_cant": "The boundary has to hold at every prefix of every output stream.", "anchors": ["bitio.go:putcode", "append.go:EncodeLzhuf"]}
{"id": "C06", "title": "Decoder never reads past the packed data", "statement": "While decompressing an entry the bit reader consumes at most the declared packed size in bytes from the archive, whatever the bytes are, and afterwards delivers zero bits; hence following entries are never consumed by the bit reader.", "quantifier": "every byte stream, every declared packed size, every sequence of reads", "why_tests_cant": "Holds for adversarial streams of unbounded length.", "anchors": ["bitio.go:fillbuf", "bitio.go:getbits", "extract.go:DecodeLzhuf"]}
{"id": "C07", "title": "Huffman code lengths form a complete prefix code", "statement": "For every frequency table with at least two used symbols, the code built for a block gives every used symbol a length between 1 and 16, no code to unused symbols, and the lengths satisfy Kraft's equality exactly, including when the unrestricted tree would be deeper than 16.", "quantifier": "every frequency table over alphabets of 1..510 symbols with 16-bit counts", "why_tests_cant": "The depth-limit repair only triggers for rare skewed tables; all tables cannot be enumerated.", "anchors": ["maketree.go:makeTree", "maketree.go:makeLen", "maketree.go:countLeaf", "maketree.go:downheap"]}
{"id": "C08", "title": "Assigned codewords are prefix free", "statement": "For every complete set of code lengths the canonical codewords assigned by the compressor are pairwise prefix free: no codeword is a prefix of the codeword of another used symbol.", "quantifier": "every length table with lengths 0..16 meeting Kraft's equality", "why_tests_cant": "Quantifies over all length tables and all pairs of symbols.", "anchors": ["maketree.go:makeCode"]}
{"id": "C09", "title": "Decoding table inverts the code assignment", "statement": "For every complete set of code lengths, the decoder's table plus overflow tree built from those lengths maps every bit string starting with a symbol's codeword back to that symbol, consuming exactly the codeword; building never runs out of tree nodes.", "quantifier": "every complete length table, every symbol, every continuation of the bit stream, every earlier content of the shared tables", "why_tests_cant": "Long codes use a mutable shared trie whose shape depends on the whole table; tests reach only few shapes.", "anchors": ["maketbl.go:makeTable", "huf.go:decodeCSt1", "huf.go:decodePSt1"]}
{"id": "C10", "title": "Inconsistent code length tables are rejected", "statement": "A set of code lengths with a length above 16, or whose Kraft sum is not a whole multiple of the code space, is always reported as bad and leaves the decoding table unchanged; a complete set of code lengths is always accepted.", "quantifier": "every length table", "why_tests_cant": "All malformed tables must be covered.", "anchors": ["maketbl.go:makeTable"]}
{"id": "C11", "title": "Code length tables survive serialisation", "statement": "The code length tables the compressor writes at the head of a block (position/length code and character code, including runs of zeros and the skip field) are read back by the decompressor as exactly the same lengths.", "quantifier": "every length table the compressor can produce", "why_tests_cant": "Run length escape cases (1-2, 3-18, 19, 20+ zeros) combine in unboundedly many ways.", "anchors": ["huf.go:writePtLen", "huf.go:writeCLen", "huf.go:countTFreq", "huf.go:readPtLen", "huf.go:readCLen"]}
{"id": "C12", "title": "Block round trip", "statement": "Any sequence of literals and (length, offset) references handed to the block coder is delivered by the block decoder in the same order with the same values, across any number of blocks, whenever the stream was packable.", "quantifier": "every sequence of tokens of every length, any number of blocks, every previous state of the coder's tables", "why_tests_cant": "Block boundaries depend on buffer fill levels; sequences are unbounded.", "anchors": ["huf.go:outputSt1", "huf.go:sendBlock", "huf.go:encodeEndSt1", "huf.go:decodeCSt1", "huf.go:decodePSt1"]}
{"id": "C13", "title": "Every emitted match is a real match", "statement": "Every back reference chosen by the compressor points at an earlier position less than one dictionary size behind (or into the blank-filled window before the start) whose bytes equal the bytes being replaced, and the literals and matches together cover the input exactly once.", "quantifier": "every input byte string, every dictionary size, every previous content of the hash chains", "why_tests_cant": "Hash chains, lazy matching and window shifting interact over the whole input history.", "anchors": ["slide.go:encode", "slide.go:searchDict", "slide.go:searchDict1", "slide.go:insertHash", "slide.go:nextToken", "slide.go:updateDict"]}
{"id": "C14", "title": "Compression round trip for -lh5- and -lh6-", "statement": "For every non-empty byte string that compresses below its own size and whose first byte has bit 5 clear, decompressing the data produced for methods 5 and 6 returns exactly the original bytes, the same CRC, and consumes exactly the packed bytes.", "quantifier": "every such byte string of any length, any previous state of the process-wide tables", "why_tests_cant": "Round trip tests use a handful of files; the claim is for all contents, across window and block boundaries.", "anchors": ["append.go:EncodeLzhuf", "extract.go:DecodeLzhuf", "slide.go:encode", "slide.go:decode", "huf.go"]}
{"id": "C15", "title": "Compression round trip for -lh7-", "statement": "For every byte string that compresses below its own size, decompressing the data produced for method 7 returns exactly the original bytes.", "quantifier": "every byte string", "why_tests_cant": "Wrong only beyond the 64 KiB window, where few tests go.", "anchors": ["slide.go:decode", "extract.go:DecodeLzhuf", "macro.go:lzhuff7Dicbit"]}
{"id": "C16", "title": "Compression never panics", "statement": "Compressing any byte string with any supported method either succeeds or returns an error; it never panics.", "quantifier": "every byte string and method", "why_tests_cant": "A panic on some first bytes cannot be excluded by any finite set of inputs.", "anchors": ["slide.go:initHash", "slide.go:encode", "append.go:EncodeLzhuf"]}
{"id": "C17", "title": "Compression does not depend on what the process did before", "statement": "Compressing a byte string with a given method gives the same result whatever files and methods the same process compressed or extracted before.", "quantifier": "every history of calls", "why_tests_cant": "Package-level tables carry state across calls; histories are unbounded.", "anchors": ["append.go:encodeAlloc", "slide.go:encode", "huf.go:encodeStartSt1"]}
{"id": "C18", "title": "Incompressible data is preserved", "statement": "If a byte string does not compress below its own size, adding it to an archive stores it unchanged and extraction returns it.", "quantifier": "every incompressible byte string", "why_tests_cant": "Which inputs are incompressible is only known by running the coder on all of them.", "anchors": ["lhext.go:addOne", "util.go:copyfile"]}
{"id": "C19", "title": "Stored entries extract verbatim", "statement": "Extracting an entry with a stored method (-lh0-, -lz4-, -pm0-) yields exactly the first 'original size' bytes that follow its header.", "quantifier": "every archive content and size", "why_tests_cant": "All sizes relative to the copy buffer and to what follows in the archive matter.", "anchors": ["extract.go:DecodeLzhuf", "util.go:copyfile"]}
{"id": "C20", "title": "Level 0 header round trip", "statement": "Writing a level 0 header and reading it back yields the same method, sizes, time stamp, CRC, name, mode and owner for every legal value, and reports exactly the number of bytes written.", "quantifier": "every name of up to 221 bytes without NUL or backslash (the format's separator), every size, stamp and CRC in range, every mode that is not a symbolic link", "why_tests_cant": "Names, sizes and stamps range over astronomically many values.", "anchors": ["header.go:writeHeaderLevel0", "header.go:getHeaderLevel0", "header.go:GetHeader"]}
{"id": "C21", "title": "Level 0 and 1 header corruption is detected", "statement": "Changing any single byte covered by the header checksum of a level 0 header makes reading that header fail.", "quantifier": "every valid header, every covered position, every replacement byte", "why_tests_cant": "All headers times all positions times 255 values.", "anchors": ["header.go:getHeaderLevel0", "header.go:calcSum"]}
{"id": "C22", "title": "Level 1 headers can be written", "statement": "Adding a file with header level 1 produces an archive entry for every file name.", "quantifier": "every header value", "why_tests_cant": "Fails for every name but a test might never select level 1.", "anchors": ["header.go:writeHeaderLevel1"]}
{"id": "C23", "title": "Level 2 and 3 headers can be read", "statement": "Listing or extracting an archive with level 2 (or 3) headers succeeds or returns an error for every input; it never panics.", "quantifier": "every byte string presented as an archive", "why_tests_cant": "All archives.", "anchors": ["header.go:getHeaderLevel2", "header.go:getHeaderLevel3"]}
{"id": "C24", "title": "Truncated archives never loop or panic while listing", "statement": "For every byte string presented as an archive whose headers are level 0, listing terminates with the entries or an error.", "quantifier": "every byte string", "why_tests_cant": "Adversarial and truncated inputs are unbounded.", "anchors": ["header.go:GetHeader", "lha.go:Headers"]}
{"id": "C25", "title": "Extraction stays inside the working directory", "statement": "The file name opened for writing during extraction never contains a path separator, for every entry name in every archive, so extraction without an explicit target directory cannot write outside the current directory.", "quantifier": "every entry name of every archive", "why_tests_cant": "Every possible name must be covered, not just '../x'.", "anchors": ["lhext.go:extractOne", "lhext.go:makeNameWithPathcheck", "lhext.go:isDirectoryTraversal"]}
{"id": "C26", "title": "Directory traversal detector", "statement": "The traversal check reports a path if and only if one of its '/'-separated components is exactly '..'.", "quantifier": "every path string", "why_tests_cant": "All strings; the missed cases involve empty components.", "anchors": ["lhext.go:isDirectoryTraversal"]}
{"id": "C27", "title": "Extraction to a chosen directory", "statement": "With an extraction directory configured, every entry is extracted below that directory.", "quantifier": "every directory name and entry name", "why_tests_cant": "Wrong for all ordinary names, but only when the option is used.", "anchors": ["lhext.go:makeNameWithPathcheck"]}
{"id": "C28", "title": "In-memory extraction is CRC checked", "statement": "Whenever DecompresBytes returns data without error for an entry with a CRC and a compressing method, the CRC-16 of the returned bytes equals the CRC in the header.", "quantifier": "every archive and every requested header", "why_tests_cant": "Corrupted streams are unbounded.", "anchors": ["lha.go:DecompresBytes", "lhext.go:extractOneStream", "lhext.go:extractBytesWithHeader"]}
{"id": "C29", "title": "File extraction is CRC checked", "statement": "Whenever Decompress writes a file and returns no error, the CRC-16 of the written bytes equals the CRC in the header.", "quantifier": "every archive", "why_tests_cant": "Corrupted streams are unbounded.", "anchors": ["lha.go:Decompress", "lhext.go:extractOne"]}
{"id": "C30", "title": "Decompressed size", "statement": "A decompression that returns normally produces at least the declared original size and exceeds it by less than one maximum match length; for methods with windows below 64 KiB.", "quantifier": "every compressed byte stream and declared size", "why_tests_cant": "Adversarial streams.", "anchors": ["slide.go:decode"]}
{"id": "C31", "title": "Malformed compressed data never panics", "statement": "Decompressing any byte stream with any method terminates and either returns data or an error; it never panics.", "quantifier": "every byte stream", "why_tests_cant": "Adversarial inputs are unbounded.", "anchors": ["huf.go:readCLen", "huf.go:decodeCSt1", "slide.go:decode"]}
{"id": "C32", "title": "Decompression of method -lh4-", "statement": "Decompressing a given -lh4- entry gives the same result whatever the process did before.", "quantifier": "every history of calls", "why_tests_cant": "Process-wide variables carry state between calls.", "anchors": ["huf.go:decodeStartSt1"]}
{"id": "C33", "title": "Compressing into an existing archive", "statement": "Calling Compress or CompressBytes with an archive that already exists either updates it or reports an error.", "quantifier": "every file system state in which the archive exists", "why_tests_cant": "All prior archive contents.", "anchors": ["lha.go:Compress", "lha.go:CompressBytes"]}
{"id": "C34", "title": "Failed or interrupted updates keep the old archive", "statement": "While files are being added, the archive under its own name keeps its old content at every crash point until the single final rename.", "quantifier": "every crash point of every add operation", "why_tests_cant": "Crash points between all file system operations cannot be enumerated by unit tests.", "anchors": ["lhext.go:CommandAdd", "lhext.go:addOne", "lhext.go:appendIt"]}
{"id": "C35", "title": "Adding several files", "statement": "An archive created from several files contains one intact entry per file, in the order given.", "quantifier": "every list of at least two files", "why_tests_cant": "All lists of files.", "anchors": ["lhext.go:addOne", "lhext.go:CommandAdd"]}
{"id": "C36", "title": "Excluded files are not added", "statement": "With exclusion patterns configured, a file is added exactly once if no pattern equals its name and not at all otherwise.", "quantifier": "every list of files and patterns", "why_tests_cant": "All combinations of lists.", "anchors": ["lhext.go:CommandAdd"]}
{"id": "C37", "title": "Selecting entries by name", "statement": "When names are given, exactly the entries whose stored name equals one of them are processed; with no names all are.", "quantifier": "every list of requested names and every stored name", "why_tests_cant": "All names.", "anchors": ["lhext.go:needFile"]}
{"id": "C38", "title": "History list of the -pm2- decoder", "statement": "The move-to-front list used to decode -pm2- literals is at all times a permutation of the 256 byte values: every position yields a distinct byte, and moving a byte to the front puts it first and keeps the relative order of all others.", "quantifier": "every sequence of list operations", "why_tests_cant": "Unbounded operation sequences over a mutable doubly linked ring.", "anchors": ["pm2hist.go"]}
{"id": "C39", "title": "Windows time stamps are converted exactly", "statement": "The conversion of a 64-bit Windows FILETIME to Unix seconds equals floor((t - 116444736000000000)/10^7) for every t not before the Unix epoch.", "quantifier": "every 64-bit FILETIME not before the epoch", "why_tests_cant": "2^64 values; the code does byte-wise subtraction and long division.", "anchors": ["header.go:wintimeToUnixStamp"]}
{"id": "C40", "title": "End-to-end archive round trip", "statement": "For methods 5 and 6 with level 0 headers, creating a new archive from a name and a packable byte string and then asking DecompresBytes for the listed header returns the byte string.", "quantifier": "every admissible name and byte string", "why_tests_cant": "All contents and names.", "anchors": ["lha.go:CompressBytes", "lha.go:Headers", "lha.go:DecompresBytes"]}
{"id": "C41", "title": "Checksum detects every odd number of bit errors", "statement": "If two byte strings of equal length differ in an odd number of bits, at whatever positions, their checksums differ.", "quantifier": "every pair of byte strings of equal length at odd Hamming distance", "why_tests_cant": "Needs all positions and all lengths.", "anchors": ["crcio.go:MakeCrcTable", "crcio.go:calcCrc"]}
{"id": "C42", "title": "Oversubscribed code length tables are rejected", "statement": "A set of code lengths that claims more than the whole code space (Kraft sum above one) is reported as bad instead of being used.", "quantifier": "every set of code lengths 0..16 with a Kraft sum above one", "why_tests_cant": "All oversubscribed tables, including those whose sum wraps around in 16-bit arithmetic.", "anchors": ["maketbl.go:makeTable"]}
{"id": "C43", "title": "Names with a backslash survive", "statement": "A file whose name contains a backslash, which is an ordinary character on Unix, comes back from the archive under the same name.", "quantifier": "every file name", "why_tests_cant": "All names.", "anchors": ["header.go:WriteHeader", "header.go:GetHeader", "header.go:convertFilename"]}
{"id": "C44", "title": "Level 1 archives of other tools are read", "statement": "A level 1 header laid out as the format prescribes, with or without extended headers, is read as the entry it describes, with its whole name.", "quantifier": "every level 1 header of the documented layout", "why_tests_cant": "All names and all sequences of extended headers.", "anchors": ["header.go:getHeaderLevel1", "header.go:getExtendedHeader"]}
{"id": "C45", "title": "Level 2 archives written by the library can be read by it", "statement": "A header the library writes with level 2 is read back by the library as the entry that was written.", "quantifier": "every header with level 2", "why_tests_cant": "All names and field values.", "anchors": ["header.go:writeHeaderLevel2", "header.go:getHeaderLevel2"]}
{"id": "C46", "title": "An entry header reads the same whatever entry was read before", "statement": "The entry obtained from given header bytes does not depend on which entries the same call read earlier.", "quantifier": "every two headers read in sequence", "why_tests_cant": "All pairs of headers.", "anchors": ["header.go:getHeaderLevel0", "header.go:getBytes", "lhext.go:extractBytesWithHeader"]}
{"id": "C47", "title": "Level 0 headers follow the documented layout", "statement": "Every level 0 header written has exactly the documented byte layout (sizes, checksum, little-endian fields, name with backslashes, Unix extension), and every byte string of that layout is read as the entry it describes.", "quantifier": "every entry with fields in range and a name of up to 221 bytes", "why_tests_cant": "All names, sizes, stamps; interoperability is a statement about all of them.", "anchors": ["header.go:writeHeaderLevel0", "header.go:getHeaderLevel0"]}
{"id": "C48", "title": "The MS-DOS time stamp denotes the modification time", "statement": "The MS-DOS date and time written in an entry header is the modification time of the file.", "quantifier": "every date from 1980 to 2107", "why_tests_cant": "All dates.", "anchors": ["header.go:unixToGenericStamp", "header.go:writeHeaderLevel0"]}
{"id": "C49", "title": "Existing files are not overwritten silently", "statement": "Without Force and without the answer Y, extraction leaves everything that exists in the file system as it is, whatever the archive holds and however the call ends.", "quantifier": "every archive, every state of the file system, every selection and setting without Force, every other answer", "why_tests_cant": "All archives and all states of the file system.", "anchors": ["lhext.go:inquireExtract", "lhext.go:extractOne", "lhext.go:symlinkWithMakePath"]}
{"id": "C50", "title": "Listing and in-memory extraction change no file", "statement": "Headers, CommandList and DecompresBytes perform no operation that changes the file system, whether they return or panic.", "quantifier": "every archive and every state of the file system", "why_tests_cant": "All archives, including malformed ones.", "anchors": ["lha.go:Headers", "lhext.go:CommandList", "lha.go:DecompresBytes"]}
{"id": "C51", "title": "What is archived is written back when extracted to a file", "statement": "After CompressBytes of a byte string that the chosen method shrinks, Decompress in any later process creates a file of the same base name with the same bytes and changes no other path.", "quantifier": "every byte string up to 4 GB, every name without separators, methods -lh5- and -lh6-, every process history", "why_tests_cant": "All contents, names and histories.", "anchors": ["lha.go:CompressBytes", "lha.go:Decompress"]}
{"id": "C52", "title": "Extraction does not write through symbolic links", "statement": "A file is created at the path of the entry itself, never at the target of a symbolic link that stands there.", "quantifier": "every archive, every state of the file system, every setting", "why_tests_cant": "All archives and all states of the file system.", "anchors": ["lhext.go:extractOne", "lhext.go:openWithMakePath"]}
{"id": "C53", "title": "Entries with a component .. are refused", "statement": "An entry whose stored name has a component .. makes extraction report an error and writes nothing.", "quantifier": "every entry name", "why_tests_cant": "All names.", "anchors": ["lhext.go:isDirectoryTraversal", "lhext.go:extractOne"]}
{"id": "C54", "title": "Entries are extracted to the path they are stored under", "statement": "An entry stored under a name with directories is extracted to that path.", "quantifier": "every entry name", "why_tests_cant": "All names.", "anchors": ["lhext.go:extractOne"]}
{"id": "C55", "title": "With Force an existing file is replaced", "statement": "With Force, extracting an entry over an existing file leaves exactly the bytes of the entry in it, whatever it held before, and changes no other path.", "quantifier": "every archive with one compressed entry, every previous content", "why_tests_cant": "All contents old and new, in particular old ones longer than the new.", "anchors": ["lhext.go:inquireExtract", "lhext.go:extractOne"]}
{"id": "C56", "title": "CommandList shows every entry", "statement": "CommandList prints one line for each entry of an archive, with its own name, sizes, CRC, time and owner.", "quantifier": "every archive of level 0 entries", "why_tests_cant": "Which names break it depends on the lengths of neighbouring names; the number of archives is unbounded.", "anchors": ["lhext.go:CommandList", "header.go:GetHeader"]}
{"id": "C57", "title": "Headers returns every entry", "statement": "Headers returns, in order, one header for each entry of an archive of compressed files, with its own name, method, sizes, CRC, time and owner, whatever the process did before.", "quantifier": "every archive of -lh5- and -lh6- entries, every process history", "why_tests_cant": "The number of archives and histories is unbounded.", "anchors": ["lha.go:Headers", "lhext.go:extractOne", "header.go:GetHeader"]}
{"id": "C58", "title": "Compressing a file and decompressing it gives it back", "statement": "After Compress of a file that the chosen method shrinks, Decompress in any later process creates a file of the same base name with the same bytes.", "quantifier": "every file content up to 4 GB, every name, methods -lh5- and -lh6-, every process history", "why_tests_cant": "All contents, names and histories.", "anchors": ["lha.go:Compress", "lhext.go:CommandAdd", "lha.go:Decompress"]}
{"id": "C59", "title": "Permissions are recorded", "statement": "An entry made from a file records the permission bits of that file.", "quantifier": "every file mode", "why_tests_cant": "All modes.", "anchors": ["lhext.go:appendIt", "header.go:initHeader"]}
{"id": "C60", "title": "CommandExtract extracts every entry", "statement": "CommandExtract of an archive of compressed files creates one file for each entry, under the base name of the entry and with its contents, and changes nothing else; if it cannot it reports an error.", "quantifier": "every archive of -lh5- and -lh6- entries with different base names, every process history", "why_tests_cant": "Which names break it depends on the lengths of neighbouring names; the number of archives is unbounded.", "anchors": ["lhext.go:CommandExtract", "lhext.go:extractOne", "header.go:GetHeader"]}
{"id": "C61", "title": "-lzs- entries extract correctly", "statement": "DecompresBytes of an entry packed by LArc in the format -lzs- returns exactly the bytes its items stand for.", "quantifier": "every sequence of literals and copies, every entry header, every process history", "why_tests_cant": "Every window position and overlap; the number of item sequences is unbounded.", "anchors": ["larc.go:decodeCLzs", "larc.go:decodePLzs", "slide.go:decode"]}
{"id": "C62", "title": "-lz5- entries extract correctly", "statement": "DecompresBytes of an entry packed by LArc in the format -lz5- returns exactly the bytes its items stand for, including copies from the initial contents of the window.", "quantifier": "every sequence of literals and copies, every grouping under flag bytes, every process history", "why_tests_cant": "Every window position and overlap; the number of item sequences is unbounded.", "anchors": ["larc.go:decodeCLz5", "larc.go:decodePLz5", "larc.go:decodeStartLz5"]}
{"id": "C63", "title": "Entries behind a LArc entry are listed and extracted", "statement": "In an archive that contains LArc entries, Headers returns and CommandExtract extracts all the entries, also those behind a LArc entry.", "quantifier": "every archive of level 0 entries", "why_tests_cant": "Depends on the number of bytes each decoder reports, for every archive.", "anchors": ["larc.go:decodeCLz5", "extract.go:DecodeLzhuf", "lha.go:Headers", "lhext.go:CommandExtract"]}
{"id": "C64", "title": "-lh1- entries extract correctly", "statement": "DecompresBytes of an entry packed in the format -lh1- (adaptive Huffman code, window of 4096 bytes, copies of 3 to 60 bytes) returns exactly the bytes its items stand for.", "quantifier": "every sequence of literals and copies, of any length, so through any number of rebuilds of the adaptive tree; every entry header, every process history", "why_tests_cant": "The code changes after every symbol and is rebuilt after 32768; the number of item sequences is unbounded.", "anchors": ["dhuf.go:startCDyn", "dhuf.go:reconst", "dhuf.go:swapInc", "dhuf.go:updateC", "dhuf.go:decodeCDyn", "shuf.go:decodePSt0", "slide.go:decode"]}
{"id": "C65", "title": "Malformed -lh1- data never panics", "statement": "Decompression of any bytes as -lh1- data returns, with at least the announced number of bytes and fewer than 315 more, and never reads behind the packed data.", "quantifier": "every byte string, every announced size, every process history", "why_tests_cant": "All byte strings; the tree has to stay well formed after any sequence of symbols.", "anchors": ["dhuf.go:decodeCDyn", "dhuf.go:swapInc", "shuf.go:decodePSt0", "slide.go:decode"]}
{"id": "C66", "title": "Entries of different methods do not disturb each other", "statement": "In an archive of -lh1-, -lzs-, -lh5- and -lh6- entries in any order, Headers returns, CommandExtract extracts and DecompresBytes returns every entry as if it were alone.", "quantifier": "every number and order of entries, every process history", "why_tests_cant": "The decoders share global tables; all orders and contents.", "anchors": ["extract.go:DecodeLzhuf", "slide.go:decode", "lhext.go:CommandExtract", "lha.go:DecompresBytes", "lha.go:Headers"]}
{"id": "C67", "title": "Archives of other archivers extract correctly", "statement": "DecompresBytes of an entry packed by any program in the format -lh5-, -lh6- or -lh7- returns exactly the data: whatever blocks, Huffman codes, descriptions of the codes, matches and final padding that program has chosen.", "quantifier": "every stream that conforms to the written-down format, every entry header, every process history", "why_tests_cant": "The library's own output exercises only the choices its own encoder makes; conforming streams are unbounded in number and shape.", "anchors": ["huf.go:readPtLen", "huf.go:readCLen", "huf.go:decodeCSt1", "huf.go:decodePSt1", "maketbl.go:makeTable", "slide.go:decode"]}
{"id": "C68", "title": "Compressed output conforms to the format", "statement": "Whatever EncodeLzhuf writes for -lh5-, -lh6- or -lh7- (when it saves space) is a sequence of blocks of the written-down format whose items expand to the input, followed by fewer than 8 zero bits, so any conforming archiver recovers the data.", "quantifier": "every input, every process history", "why_tests_cant": "A round trip through the library's own decoder cannot show it: both could share a deviation. All inputs.", "anchors": ["huf.go:sendBlock", "huf.go:writePtLen", "huf.go:writeCLen", "huf.go:outputSt1", "maketree.go:makeTree", "slide.go:encode"]}
{"id": "C69", "title": "Damage is reported when an archive is opened", "statement": "Headers reports an error when the data of an entry does not match the checksum in its header, and returns the headers up to and including the damaged entry.", "quantifier": "every position of the damaged entry, every contents and method of the entries before and after it, every process history", "why_tests_cant": "The damage can be anywhere in archives of any length.", "anchors": ["lha.go:Headers", "lhext.go:extractOne", "extract.go:DecodeLzhuf"]}
{"id": "C70", "title": "Unknown methods are reported", "statement": "An entry whose compression method is not one of the known ones makes Headers, CommandExtract and DecompresBytes report an error; no file is created for it, and the entries before it are listed and extracted.", "quantifier": "every method string, every position of the entry, every process history", "why_tests_cant": "2^40 method strings, archives of any length.", "anchors": ["lhext.go:extractOne", "lhext.go:CommandExtract", "lha.go:Headers", "lha.go:DecompresBytes"]}
{"id": "C71", "title": "Extraction restores times and permissions", "statement": "CommandExtract gives every extracted file the modification time and the permissions recorded in its header.", "quantifier": "every archive of compressed files, every process history", "why_tests_cant": "All headers; an absence over all histories.", "anchors": ["lhext.go:adjustInfo", "lhext.go:extractOne"]}
{"id": "C72", "title": "Extraction creates directories", "statement": "CommandExtract of an archive with a directory entry creates that directory, or leaves it if it exists.", "quantifier": "every directory name, every state of the file system", "why_tests_cant": "All names and file systems.", "anchors": ["lhext.go:extractOne", "lhext.go:makeParentPath", "lhext.go:addDirinfo"]}
{"id": "C73", "title": "Extraction restores symbolic links", "statement": "CommandExtract of an archive with a symbolic link creates that link.", "quantifier": "every link name and target, every state of the file system", "why_tests_cant": "All names, targets and file systems.", "anchors": ["header.go:GetHeader", "lhext.go:symlinkWithMakePath", "lhext.go:extractOne"]}
{"id": "C74", "title": "The reading commands of lharc change nothing", "statement": "lharc -l, -p and -t leave every file as it is, whatever the archive holds and however the program ends.", "quantifier": "every command line with one of these commands, every archive content, every state of the file system and of the process", "why_tests_cant": "Every archive, including damaged ones, and every way the program can end.", "anchors": ["cmd/lharc.go:main", "cmd/lharc.go:parseOption", "lhext.go:CommandExtract", "lhext.go:CommandList"]}
{"id": "C75", "title": "lharc -l lists the entries", "statement": "lharc -archive a -l lists exactly the entries of the archive, in order (the headers given to the formatting of the list carry their names, sizes, methods and times), and exits with status 0.", "quantifier": "every archive of level 0 file entries, every other option", "why_tests_cant": "All archives.", "anchors": ["cmd/lharc.go:main", "lhext.go:CommandList"]}
{"id": "C76", "title": "lharc -e extracts the entries", "statement": "lharc -archive a -e creates every file of the archive with its contents, changes nothing else and exits with status 0.", "quantifier": "every archive of intact compressed entries, every other option, every file system without the files", "why_tests_cant": "All archives and histories.", "anchors": ["cmd/lharc.go:main", "lhext.go:CommandExtract"]}
{"id": "C77", "title": "lharc -p prints the contents", "statement": "lharc -archive a -p writes the contents of the entries, in order, to standard output and creates no file.", "quantifier": "every archive of intact compressed entries, every other option", "why_tests_cant": "All archives.", "anchors": ["cmd/lharc.go:main", "lhext.go:CommandExtract", "lhext.go:extractOne"]}
{"id": "C78", "title": "lharc -t tells intact archives from damaged ones", "statement": "lharc -archive a -t exits with status 0 if every entry decodes to data with the recorded CRC, and with another status otherwise; it writes no entry data to standard output.", "quantifier": "every archive of entries with one damaged entry at any place, or none", "why_tests_cant": "All archives, all places of the damage.", "anchors": ["cmd/lharc.go:main", "lhext.go:CommandExtract", "lhext.go:extractOne"]}
{"id": "C79", "title": "lharc reports an archive it cannot open", "statement": "With -l, -e, -p or -t and an archive that does not exist or cannot be read, lharc exits with a status other than 0 and changes nothing.", "quantifier": "every command line, every file system", "why_tests_cant": "All command lines.", "anchors": ["cmd/lharc.go:main", "lhext.go:CommandExtract", "lhext.go:CommandList"]}
{"id": "C80", "title": "What lharc -c or -a puts into a new archive, lharc -e takes out", "statement": "After lharc -archive a -c file (or -a file) has made the archive, lharc -archive a -e in any later process creates a file of the same base name with the same contents.", "quantifier": "every file, every choice of -g, -o and -h, every process history", "why_tests_cant": "All contents, names, options and histories.", "anchors": ["cmd/lharc.go:main", "cmd/lharc.go:parseSubOption", "lhext.go:CommandAdd", "header.go:WriteHeader"]}
{"id": "C81", "title": "lharc -d removes entries", "statement": "lharc -archive a -d deletes entries from the archive or reports an error.", "quantifier": "every archive, every command line with -d", "why_tests_cant": "All archives.", "anchors": ["cmd/lharc.go:main", "lhext.go:CommadDelete"]}
{"id": "C82", "title": "Making or extending an archive leaves other files alone", "statement": "lharc -c or -a changes no file other than the archive and its temporary file, however the program ends.", "quantifier": "every file system, every command line with -c or -a, archives not named .com or .exe", "why_tests_cant": "All file systems, all ways the program can end, including panics.", "anchors": ["cmd/lharc.go:main", "lhext.go:CommandAdd"]}
{"id": "C83", "title": "lharc -m moves files into the archive", "statement": "With -m the file that has been added to the archive is deleted afterwards.", "quantifier": "every file and archive", "why_tests_cant": "All files.", "anchors": ["cmd/lharc.go:parseOption", "lhext.go:CommandAdd", "lhext.go:removeFiles"]}
{"id": "C84", "title": "lharc -e asks before it overwrites, and with -f it does not ask", "statement": "Without the answer Y, lharc -e keeps every file that exists; with -f it overwrites files without asking.", "quantifier": "every archive, every file system, every sequence of answers", "why_tests_cant": "All archives and answers.", "anchors": ["cmd/lharc.go:parseOption", "lhext.go:openWithMakePath", "lhext.go:inquireExtract"]}
{"id": "C85", "title": "With -n lharc writes nothing", "statement": "lharc -e -n reports what it would extract and creates no file.", "quantifier": "every archive", "why_tests_cant": "All archives.", "anchors": ["cmd/lharc.go:parseOption", "lhext.go:extractOne"]}
{"id": "C86", "title": "lharc -a keeps the entries that are in the archive", "statement": "lharc -archive a -a file, for an archive that exists, makes an archive that holds the old entries and the new one.", "quantifier": "every archive, every file", "why_tests_cant": "All archives.", "anchors": ["cmd/lharc.go:parseOption", "lhext.go:CommandAdd", "lhext.go:appendIt", "lhext.go:copyOldOne"]}
{"id": "C87", "title": "Headers of every system are read correctly", "statement": "GetHeader reads a level 0 header made by a program for MS-DOS, OS/2, Unix or any other system but the Macintosh, the Amiga and OS-9: name, method, sizes, CRC, attribute, mode and modification time.", "quantifier": "every header without an area after the CRC or with any area, every name of up to 233 bytes, every date between 1980 and 2107", "why_tests_cant": "All names, areas and dates.", "anchors": ["header.go:GetHeader", "header.go:getHeaderLevel0", "header.go:genericToUnixStamp"]}
{"id": "C88", "title": "Archives of every system are listed", "statement": "CommandList and lharc -l list exactly the entries of an archive of level 0 entries made on MS-DOS, OS/2, Unix and so on, in any mixture.", "quantifier": "every archive of such entries, every other option", "why_tests_cant": "All archives and mixtures of systems; the header object is reused from entry to entry.", "anchors": ["lhext.go:CommandList", "header.go:getHeaderLevel0", "cmd/lharc.go:main"]}
{"id": "C89", "title": "Archives of every system are extracted", "statement": "lharc -e of an archive of intact level 0 entries made on MS-DOS, OS/2, Unix and so on creates every file with its contents and changes nothing else.", "quantifier": "every archive of such entries with different base names, every process history", "why_tests_cant": "All archives and mixtures of systems and methods.", "anchors": ["lhext.go:CommandExtract", "lhext.go:extractOne", "header.go:getHeaderLevel0"]}
{"id": "C90", "title": "Archives of every system are printed and tested", "statement": "lharc -p prints the contents of an archive of intact level 0 entries of any system, and lharc -t finds nothing wrong with it.", "quantifier": "every archive of such entries, every process history", "why_tests_cant": "All archives and mixtures of systems and methods.", "anchors": ["lhext.go:CommandExtract", "lhext.go:extractOne", "header.go:getHeaderLevel0"]}
{"id": "C91", "title": "What lharc -c -o 5 or -o 6 puts into a new archive, -e takes out and -t accepts", "statement": "After lharc -archive a -c file -o 5 (or -o 6), which makes headers in the generic format, lharc -archive a -e in any later process creates a file of the same base name with the same contents, and lharc -t finds nothing wrong.", "quantifier": "every file that gets shorter, every name, every process history, the other values of -g that lead to headers of level 0", "why_tests_cant": "All contents, names, options and histories.", "anchors": ["cmd/lharc.go:main", "cmd/lharc.go:parseSubOption", "lhext.go:CommandAdd", "header.go:WriteHeader", "header.go:writeHeaderLevel0"]}
{"id": "C92", "title": "Archives made with a method given record the permissions", "statement": "An archive made by lharc -c -o 5 or -o 6 records the permission bits of the file, and lharc -l shows them.", "quantifier": "every file and file mode", "why_tests_cant": "All modes.", "anchors": ["header.go:writeHeaderLevel0", "header.go:getHeaderLevel0", "header.go:initHeader"]}
{"id": "C93", "title": "The listing shows what the archive holds", "statement": "lharc -l and lharc -lv print a title, one line for each entry with its permissions or its system, its owner, its sizes, its ratio rounded to a tenth of a percent, (with -lv) its method and CRC, and its name, in the order of the archive, and a last line with the number of files and the sums of the sizes.", "quantifier": "every archive of level 0 entries for regular files made on MS-DOS, OS/2, Unix and so on", "why_tests_cant": "All archives, names, modes and sizes; the ratio is computed in floating point.", "anchors": ["lhext.go:CommandList", "lhext.go:listOne", "lhext.go:printSize", "lhext.go:listTailer", "cmd/lharc.go:main"]}
{"id": "C94", "title": "The listing shows the times", "statement": "lharc -l shows the modification time of each entry.", "quantifier": "every archive of level 0 entries", "why_tests_cant": "All archives and times.", "anchors": ["lhext.go:printStamp", "lhext.go:listOne"]}
{"id": "C95", "title": "The listing has one line of plain text for each entry", "statement": "The text lharc -l prints for an entry is a single line without control characters, so that no entry can add lines to the listing.", "quantifier": "every archive of level 0 entries, every name", "why_tests_cant": "All names.", "anchors": ["lhext.go:listOne", "header.go:getHeaderLevel0"]}
{"id": "C96", "title": "The listing shows the system of each entry", "statement": "lharc -l marks an entry with the system its own header names, [generic] if it names none.", "quantifier": "every archive of level 0 entries, in any mixture of systems", "why_tests_cant": "All mixtures; the header object is reused from entry to entry.", "anchors": ["lhext.go:listOne", "lhext.go:CommandList", "header.go:getHeaderLevel0"]}
{"id": "C97", "title": "Decompression ends", "statement": "Decompression of any bytes, as the data of an entry of any method, ends: it returns data, returns an error, or stops the program.", "quantifier": "every byte string, every announced size, every method", "why_tests_cant": "A property of all inputs: whether a loop ends cannot be observed by running it, and the looping inputs are rare (two consistent blocks of descriptions of codes are needed).", "anchors": ["extract.go:DecodeLzhuf", "huf.go:decodePSt1", "huf.go:decodeCSt1", "huf.go:readPtLen", "maketbl.go:makeTable", "slide.go:decode"]}
{"id": "C98", "title": "Malformed LArc data", "statement": "Decompression of any bytes as -lzs- or -lz5- data returns, with at least the announced number of bytes and only a few more, and reads nothing behind the packed data.", "quantifier": "every byte string, every announced size", "why_tests_cant": "All byte strings, also those no archiver writes and those that end too early.", "anchors": ["larc.go:decodeCLzs", "larc.go:decodeCLz5", "slide.go:decode", "extract.go:DecodeLzhuf"]}
{"id": "C99", "title": "Two objects can be used at the same time", "statement": "Two goroutines that decompress entries, each with an Lha of its own, both get what they would get alone, however the scheduler interleaves them.", "quantifier": "every pair of entries and every schedule", "why_tests_cant": "A property of all interleavings; a test runs only the few the scheduler happens to choose.", "anchors": ["slide.go:decode", "macro.go:dtext", "slide.go:decodeCount", "huf.go:decodeStartSt1"]}
{"id": "C100", "title": "-lh3- entries are extracted", "statement": "DecompresBytes of an entry in the -lh3- format returns the data the format says, without an error.", "quantifier": "every sequence of blocks, codes and items of the format, every process history", "why_tests_cant": "All streams and histories; the decoder's tables and counters are package variables.", "anchors": ["shuf.go:decodeCSt0", "shuf.go:decodePSt0", "shuf.go:readTreeC", "shuf.go:readTreeP", "shuf.go:readyMade", "slide.go:decode"]}
{"id": "C101", "title": "Self-extracting archives", "statement": "When the name of an archive ends in .exe or .com, lharc -e extracts the entries that follow the program in it, -p prints them, -t checks them, and DecompresBytes returns their data.", "quantifier": "all files with such names, all their contents and sizes, all programs in front of the entries, all options", "why_tests_cant": "The position of the entries and the bytes of the program are arbitrary; a test uses one file.", "anchors": ["util.go:archiveIsMsdosSfx1", "header.go:SeekLhaHeader", "lhext.go:CommandExtract", "lhext.go:extractBytesWithHeader"]}
{"id": "C102", "title": "-pm2- entries are extracted", "statement": "DecompresBytes of an entry in the -pm2- format of PMarc returns the data the format says, without an error.", "quantifier": "every sequence of items and codes of the format (literals by their place in the move-to-front list, copies, renewals of the codes), every process history", "why_tests_cant": "All streams and histories; the history, the trees and the counters are package variables.", "anchors": ["pm.go:decodeCPm2", "pm.go:decodePPm2", "pmtree.go:maketree1", "pmtree.go:maketree2", "pmtree.go:treeGet", "pm2hist.go:histUpdate", "slide.go:decode"]}
{"id": "C103", "title": "Archives with headers of levels 1, 2 and 3", "statement": "lharc -l, -e, -p and -t list, extract, print and test the entries of an archive whose headers have level 1, 2 or 3 (which LHA for UNIX writes by default) as they do those of level 0.", "quantifier": "every archive of such entries, also behind entries of level 0, every command line, every process history", "why_tests_cant": "All archives and headers, extended headers included.", "anchors": ["header.go:GetHeader", "header.go:getHeaderLevel1", "header.go:getHeaderLevel2", "header.go:getHeaderLevel3", "header.go:getExtendedHeader", "lhext.go:CommandExtract", "lhext.go:CommandList"]}
{"id": "C104", "title": "One Lha object serves several calls", "statement": "An Lha object can be used for one call after another: after CompressBytes or Compress it lists and decompresses the archive it has written, and a later Compress adds only the file it is given.", "quantifier": "every name, every contents the method shrinks, every later state of the process in which the archive is unchanged", "why_tests_cant": "All names, contents and histories; the object keeps the names it has been given.", "anchors": ["lha.go:Headers", "lha.go:CompressBytes", "lha.go:Compress", "lha.go:DecompresBytes", "lhext.go:needFile"]}
{"id": "C105", "title": "Incompressible files survive -c and -a", "statement": "A file that does not get shorter by compression, added to a new archive with -c or -a, is there with its contents when the archive is extracted.", "quantifier": "every file name, contents, -g and -o option, every history of the process", "why_tests_cant": "All contents and histories; the data are read twice, once by the coder and once to be stored.", "anchors": ["lhext.go:appendIt", "append.go:EncodeLzhuf", "util.go:copyfile", "cmd/lharc.go:main"]}
{"id": "C106", "title": "Directories and links can be added", "statement": "Given the name of a directory or of a symbolic link, lharc -c or -a archives it.", "quantifier": "every name, archive, file system and option", "why_tests_cant": "All file systems and options; the code path for directories is not reached by the tests.", "anchors": ["lhext.go:appendIt", "lhext.go:CommandAdd", "cmd/lharc.go:main"]}
{"id": "C107", "title": "-u replaces only older entries", "statement": "With -u, lharc adds a file only if it is newer than the entry of its name, and without names it updates the entries of the archive.", "quantifier": "every file, archive, time stamp and option", "why_tests_cant": "All archives and time stamps; no test runs the program with -u.", "anchors": ["cmd/lharc.go:parseOption", "cmd/lharc.go:initVariable", "lhext.go:CommandAdd"]}
{"id": "C108", "title": "Files that cannot be read are reported", "statement": "If a file given to lharc -c or -a does not exist or cannot be opened, the program reports it in its exit status.", "quantifier": "every name, archive, file system and option", "why_tests_cant": "All file systems; the result of the function that reports it is dropped by its caller.", "anchors": ["lhext.go:appendIt", "lhext.go:CommandAdd", "cmd/lharc.go:main"]}
{"id": "C109", "title": "Files packed with -o 1 to -o 4 come back", "statement": "What lharc -c or -a puts into an archive with the option -o 1, 2, 3 or 4 is what lharc -e takes out of it.", "quantifier": "every file and every value of -o", "why_tests_cant": "All contents of files; the coder and the decoder of a method are different programs.", "anchors": ["cmd/lharc.go:main", "append.go:EncodeLzhuf", "append.go:encodeAlloc", "huf.go:outputSt1", "slide.go:encode"]}
{"id": "C110", "title": "-lh2- entries are extracted", "statement": "DecompresBytes on an entry packed in the format -lh2- (bytes and lengths in an adaptive code of 286 symbols, distances in a second adaptive code that grows with the data) returns the packed bytes.", "quantifier": "every sequence of bytes and copies that the format allows, every name and every earlier use of the package in the process", "why_tests_cant": "Infinitely many packed streams; both codes change with every symbol, share one pool of block numbers, and depend on all that was decoded before.", "anchors": ["dhuf.go:startCDyn", "dhuf.go:startPDyn", "dhuf.go:decodeCDyn", "dhuf.go:decodePDyn", "dhuf.go:makeNewNode", "dhuf.go:updateC", "dhuf.go:updateP", "dhuf.go:swapInc", "slide.go:decode", "extract.go:DecodeLzhuf"]}
{"id": "C111", "title": "A full disk is noticed", "statement": "When the writer given to DecodeLzhuf fails because only part of the data fits, the CRC it returns is not the CRC the entry announces, so that a comparison tells that the data have not been written; what has been written is the beginning of the data.", "quantifier": "every entry, every amount of room on the disk and every earlier use of the package in the process", "why_tests_cant": "A test fails one write of one entry; the property ranges over all data and every point where the disk fills up.", "anchors": ["crcio.go:fwriteCrc", "slide.go:decode", "util.go:copyfile", "extract.go:DecodeLzhuf", "append.go:EncodeLzhuf"]}
{"id": "C112", "title": "Two compressions at the same time do not disturb each other", "statement": "Two goroutines, each with an Lha of its own, that compress at the same time get the compressed data, sizes and CRC they get one at a time, whatever the schedule.", "quantifier": "every pair of files, every method of the library and every interleaving of the two calls", "why_tests_cant": "A test runs a few schedules, mostly the same ones; the property ranges over all interleavings and all pairs of files.", "anchors": ["slide.go:encode", "huf.go:encodeStartSt1", "huf.go:outputSt1", "huf.go:sendBlock", "append.go:EncodeLzhuf", "append.go:encodeAlloc"]}
{"id": "C113", "title": "A full disk is noticed while compressing", "statement": "If the disk fills up while a file is compressed, EncodeLzhuf reports it: it does not return the sizes and the CRC of a complete entry.", "quantifier": "every file, every compressing method, every amount of room on the disk and every earlier use of the package", "why_tests_cant": "A test fills one disk at one point; the property ranges over all files and all points at which the disk fills up.", "anchors": ["bitio.go:putcode", "huf.go:sendBlock", "huf.go:writePtLen", "huf.go:writeCLen", "slide.go:encode", "append.go:EncodeLzhuf"]}
{"id": "C114", "title": "Headers of the Macintosh, the Amiga and OS-9 are read correctly", "statement": "GetHeader reads a level 0 header made on a Macintosh with the separators of its path turned into those of Unix, a directory made on an Amiga as a directory, and files of an Amiga or OS-9 like those of other systems.", "quantifier": "every level 0 header of these systems: every name of up to 233 bytes, every area, sizes, CRC and method", "why_tests_cant": "All names and areas; a test reads a few headers.", "anchors": ["header.go:GetHeader", "header.go:getHeaderLevel0", "header.go:convertFilename"]}
{"id": "C115", "title": "Long names are kept or refused", "statement": "A file whose name is too long for an entry header is either refused with an error or stored so that extraction gives it back under its own name; files with different names never get the same header.", "quantifier": "every name of 222 to 1023 bytes without NUL, slash and backslash, every file that compression makes shorter, every header, every process history on both sides", "why_tests_cant": "All long names and all contents; a test tries one name.", "anchors": ["header.go:WriteHeader", "header.go:writeHeaderLevel0", "lhext.go:addOne", "cmd/lharc.go:main"]}
{"id": "C116", "title": "Files that are removed are in the archive", "statement": "With DeleteAfterAppend, CommandAdd removes a named file only after the new archive is in its place, and only if the archive holds its contents; a crash at any point leaves each file on the disk or in the archive.", "quantifier": "every archive, list of files, exclusion list, set of options and state of the disk; every point at which the program may be interrupted", "why_tests_cant": "Crash points, and the combinations of options and unreadable or excluded files, cannot be enumerated.", "anchors": ["lhext.go:CommandAdd", "lhext.go:removeFiles", "lhext.go:appendIt"]}
{"id": "C117", "title": "The listing shows owners, links and the permissions of OS-9", "statement": "A listing shows the first five characters of the user and group names an entry carries in columns of five, a symbolic link as its name, an arrow and its target, and the permissions of OS-9 entries as letters.", "quantifier": "every header, every name in UTF-8, every mode, every symbolic link of the documented format, both listing formats", "why_tests_cant": "All names, in all alphabets, and all modes; a test shows one line.", "anchors": ["lhext.go:listOne", "header.go:GetHeader", "macro.go:oskDirectoryPerm"]}
{"id": "C118", "title": "A dry run changes nothing", "statement": "With Noexec on, listing, extracting and adding only show what would be done: no file is made, changed or removed, times and permissions included, and the call returns.", "quantifier": "every archive, file, header, list of files, state of the disk and combination of the other options", "why_tests_cant": "Noexec is tested in seventeen places; that no path around them reaches an operation holds for all archives and options or not at all.", "anchors": ["lhext.go:extractOne", "lhext.go:appendIt", "lhext.go:addOne", "lhext.go:CommandAdd", "lhext.go:compressBytes", "lhext.go:removeFiles"]}
{"id": "C119", "title": "A backup that was asked for is made", "statement": "With BackupOldArchive on, adding to an archive that exists keeps the old archive under another name.", "quantifier": "every archive, list of files, state of the disk and combination of the other options", "why_tests_cant": "That the old contents are in no file at all is a statement about all files and all calls.", "anchors": ["lhext.go:buildBackupFile", "lhext.go:CommandAdd", "lha.go:NewLha"]}
{"id": "C120", "title": "Without directories a file is extracted under the last part of its name", "statement": "With IgnoreDirectory on, every file of an archive is extracted to the last component of its name, whatever directory it was stored with, and nothing else changes.", "quantifier": "every name, contents, method of compression and state of the disk", "why_tests_cant": "Every name, with and without a directory, has to be right; a test tries a few names.", "anchors": ["lhext.go:extractOne", "lhext.go:CommandExtract", "lha.go:Lha"]}
{"id": "C121", "title": "Files of different directories are kept apart", "statement": "Files that are stored under different names are extracted to different files; none replaces another one of the same archive.", "quantifier": "every archive, every pair of names, every contents and every state of the disk", "why_tests_cant": "Every combination of names has to be right, and nothing may be lost in any archive.", "anchors": ["lhext.go:extractOne", "lhext.go:CommandExtract"]}
{"id": "C122", "title": "The description of a header tells its fields apart", "statement": "The text that String() gives for a header determines the name, the link, the level, the method, the checksum and both sizes of the header: headers that differ in one of them have different descriptions.", "quantifier": "every pair of headers", "why_tests_cant": "Two descriptions that coincide by accident can only be excluded for all pairs of headers.", "anchors": ["header.go:String"]}
{"id": "C123", "title": "The descriptions of the headers of an archive are plain text and right", "statement": "For every header that Headers returns, String() gives eight lines of text with the name, the level, the method, the checksum and the sizes of the entry.", "quantifier": "every archive of intact entries with level 0 headers, every history of the process", "why_tests_cant": "The text depends on buffers that are filled and cut when headers are read; it has to be right for every name and every size.", "anchors": ["header.go:String", "header.go:NewLzHeader", "lha.go:Headers"]}
{"id": "C124", "title": "-lh3- entries are extracted after -lh2- entries", "statement": "A process that has extracted an -lh2- entry extracts the -lh3- entries of the same or of other archives as a new process does.", "quantifier": "every -lh2- data decoded before, every -lh3- data", "why_tests_cant": "The decoders share package variables, so what one entry leaves behind has to suit every later entry.", "anchors": ["dhuf.go:startCDyn", "dhuf.go:decodeStartDyn", "shuf.go:readTreeC", "shuf.go:decodeCSt0", "slide.go:decode", "lha.go:DecompresBytes", "lha.go:Headers"]}
{"id": "C125", "title": "An archive is not put into itself", "statement": "When the name of the archive is among the names of the files to add, CommandAdd does what it does without that name: the result, the archive and all other files are the same.", "quantifier": "every list of names with at least one other name, every place and number of the name of the archive in it, every state of the file system, every option", "why_tests_cant": "The list is shortened while the loop runs over it; every position and repetition has to work, in combination with every option.", "anchors": ["lhext.go:CommandAdd", "lhext.go:appendIt", "lhext.go:removeFiles"]}
{"id": "C126", "title": "An -lh2- entry does not change how later entries are decoded", "statement": "After -lh2- data were decoded, DecodeLzhuf returns for data of any other method what it would have returned without them.", "quantifier": "every -lh2- data, every process history, every method and every data after it, malformed data included", "why_tests_cant": "The decoders share package variables; two runs have to agree for all data.", "anchors": ["extract.go:DecodeLzhuf", "slide.go:decode", "dhuf.go:decodeCDyn", "dhuf.go:decodePDyn", "dhuf.go:startCDyn"]}
{"id": "C127", "title": "CompressBytes keeps the bytes under every name", "statement": "When CompressBytes returns no error for a new archive, the archive holds an entry with the bytes, whatever name was given for them.", "quantifier": "every name, every bytes, every method and level", "why_tests_cant": "All names, including that of the archive itself, which the loop over the names leaves out.", "anchors": ["lha.go:CompressBytes", "lhext.go:compressBytes", "lhext.go:appendBytes"]}
{"id": "C128", "title": "lharc -x excludes the files it lists", "statement": "When lharc adds a file with -x n1,n2,..., the files excluded are exactly n1, n2, ... in that order, whatever the other options.", "quantifier": "every list of names without commas, every combination of the other options, every archive and file", "why_tests_cant": "All strings and all combinations of options.", "anchors": ["cmd/lharc.go:parseSubOption", "cmd/lharc.go:parseOption", "cmd/lharc.go:main"]}
