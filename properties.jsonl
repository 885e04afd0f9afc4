{"id": "C01", "title": "Unsigned field extraction is exact", "statement": "Bits.getbitu(buf,pos,len) returns the big-endian unsigned value of bits pos..pos+len-1 of buf whenever 1<=len<=128, pos>=0 and the field lies inside buf; in every other case it raises ExceptionBitsError. It never reads outside buf and never returns a partial value.", "quantifier": "every byte string, every position, every length", "why_tests_cant": "positions, lengths and buffers are unbounded; tests sample a few alignments", "anchors": ["utilities/bits.py:Bits.getbitu"]}
{"id": "C02", "title": "Signed and sign-magnitude extraction is exact", "statement": "Bits.getbits returns the two's-complement value of the same bits (range -2^(len-1)..2^(len-1)-1) and EphemerisDecoder.getbitS the sign-magnitude value; both raise exactly when getbitu raises.", "quantifier": "every byte string, position and length", "why_tests_cant": "as C01", "anchors": ["utilities/bits.py:Bits.getbits", "sub_decoders/RTCM_EPH.py:EphemerisDecoder.getbitS"]}
{"id": "C03", "title": "Bit reversal", "statement": "Bits.revbitu(a,len,ofs) returns the len bits of a starting at bit ofs in reversed order (bit i of the result is bit ofs+len-1-i of a); reversing twice gives the original len bits; revbits gives the two's-complement reading of the same pattern.", "quantifier": "every integer a, every len/ofs with len+ofs<=128", "why_tests_cant": "integers are unbounded", "anchors": ["utilities/bits.py:Bits.revbitu", "utilities/bits.py:Bits.revbits"]}
{"id": "C04", "title": "CRC24Q.calc is the CRC-24Q polynomial remainder", "statement": "For every byte string d, CRC24Q.calc(d) is the unique r < 2^24 such that d(x)*x^24 + r is a multiple of the CRC-24Q generator 0x1864CFB over GF(2).", "quantifier": "every byte string", "why_tests_cant": "a 256-entry table and unbounded data length; one wrong table entry is hit by few inputs", "anchors": ["utilities/CRC24Q.py:CRC24Q.calc"]}
{"id": "C05", "title": "Transmission errors are detected", "statement": "If a buffer holds a valid frame and a second buffer of the same length and with the same 3-byte header differs from it by one bit, two bits, any odd number of bits, or a burst spanning at most 24 bits, then DecoderTop.mcrc rejects the second.", "quantifier": "every valid frame of up to 1029 bytes and every error pattern of those classes", "why_tests_cant": "2^8232 frames times every error pattern", "anchors": ["decoder_top.py:DecoderTop.mcrc", "utilities/CRC24Q.py:CRC24Q.calc"]}
{"id": "C06", "title": "Framing soundness", "statement": "Every message returned by catch_message starts with 0xD3, has 6 zero bits, is exactly 6+length bytes long and carries a correct CRC; the messages returned over a history of calls are disjoint substrings of the bytes fed so far, in stream order.", "quantifier": "every history of catch_message calls with any chunks", "why_tests_cant": "chunk histories are unbounded", "anchors": ["decoder_top.py:DecoderTop.catch_message", "decoder_top.py:DecoderTop.__rebase_to_D3"]}
{"id": "C07", "title": "Chunking does not matter", "statement": "The concatenated list of messages returned, and the parse_errors counter, depend only on the concatenation of the bytes fed, not on how they were split into chunks (including empty chunks).", "quantifier": "every byte stream and every way of cutting it into chunks", "why_tests_cant": "exponentially many splits per stream", "anchors": ["decoder_top.py:DecoderTop.catch_message", "run_conversion.py:FILE_CHUNCK_LEN"]}
{"id": "C08", "title": "No frame lost on clean or padded streams", "statement": "If the stream is a sequence of valid frames separated, preceded and followed by arbitrary bytes that contain no 0xD3, catch_message returns exactly those frames in order.", "quantifier": "every sequence of valid frames and 0xD3-free gaps", "why_tests_cant": "unbounded sequences", "anchors": ["decoder_top.py:DecoderTop.catch_message"]}
{"id": "C09", "title": "Resynchronisation after corruption", "statement": "A valid frame that is preceded by arbitrary garbage and is not overlapped by another accepted frame is returned once enough bytes follow it; at end of file every complete valid frame of the input has been returned.", "quantifier": "every garbage prefix, frame and suffix", "why_tests_cant": "garbage can imitate headers in unboundedly many ways", "anchors": ["decoder_top.py:DecoderTop.catch_message", "run_conversion.py:decode_rtcm_file"]}
{"id": "C10", "title": "Framer totality and bounded memory", "statement": "catch_message terminates without raising for every chunk in every reachable state, and afterwards retains at most 1028 bytes.", "quantifier": "every reachable framer state and every chunk", "why_tests_cant": "loops whose progress depends on data", "anchors": ["decoder_top.py:DecoderTop.catch_message"]}
{"id": "C11", "title": "parse_errors is exact", "statement": "parse_errors equals the number of accepted messages, other than the first, that were separated from the previous accepted message by at least one discarded byte.", "quantifier": "every history of catch_message calls", "why_tests_cant": "unbounded histories", "anchors": ["decoder_top.py:DecoderTop.parse_errors"]}
{"id": "C12", "title": "Decoder dispatch and statistics", "statement": "decode(msg) never raises; it returns None or an object of the class announced for the message number by the registered sub-decoder; dec_attempts counts messages with a registered sub-decoder, dec_errors those of them for which None was returned, so 0 <= dec_errors <= dec_attempts always.", "quantifier": "every history of register/decode calls, every message", "why_tests_cant": "unbounded histories", "anchors": ["decoder_top.py:DecoderTop.decode", "decoder_top.py:catch_decoder_exceptions"]}
{"id": "C13", "title": "MSM bare decoding inverts encoding", "statement": "For every MSM1..MSM7 message with at least one satellite, one signal and one cell, laid out as the RTCM MSM format prescribes and framed, bare decoding returns exactly the header fields, the satellite/signal/cell masks, and every satellite and cell field that was encoded.", "quantifier": "every message number 1071..1137 of MSM type, every set of satellites/signals/cells (<=64 cell-mask bits, <=1023 bytes), every field value", "why_tests_cant": "astronomically many messages", "anchors": ["sub_decoders/RTCM_MSM.py:BareObservablesMSM17Decoder"]}
{"id": "C14", "title": "MSM structural rejection", "statement": "Bare MSM decoding yields data only if the buffer length is exactly the one implied by the message type and the masks it carries; otherwise the result is None - a truncated or padded message never yields a partially filled object.", "quantifier": "every byte buffer", "why_tests_cant": "all malformed inputs", "anchors": ["sub_decoders/RTCM_MSM.py:BareObservablesMSM17Decoder.decode", "sub_decoders/RTCM_MSM.py:decode_msm17"]}
{"id": "C15", "title": "Header-only MSM messages are decoded", "statement": "A framed MSM message with an empty satellite mask (header only) is decoded into an object with no satellites and no observables.", "quantifier": "every header-only MSM message", "why_tests_cant": "all header values", "anchors": ["sub_decoders/RTCM_MSM.py:BareObservablesMSM17Decoder.__extract_hdr", "sub_decoders/RTCM_MSM.py:Bare2Scaled.convert"]}
{"id": "C16", "title": "Each observable lands on its own satellite and signal", "statement": "After scaled decoding of an MSM message, obs.X[signal][sat] exists exactly for the cells announced by the cell mask whose fields are not marked invalid, and its value is computed from that cell's (and that satellite's) fields and from no other.", "quantifier": "every bare MSM message and every cell", "why_tests_cant": "every mask combination", "anchors": ["sub_decoders/RTCM_MSM.py:Bare2Scaled.convert", "sub_decoders/RTCM_MSM.py:Bare2Scaled._convert_obs47", "sub_decoders/RTCM_MSM.py:Bare2Scaled._convert_obs13"]}
{"id": "C17", "title": "Range reconstruction accuracy", "statement": "The binary64 code and phase range reported for a cell differs from the exact value (rough + fine milliseconds times 299792.458 m) by less than 2e-8 m.", "quantifier": "every rough/fine range field value of MSM1..MSM7", "why_tests_cant": "2^40 field combinations and rounding", "anchors": ["sub_decoders/RTCM_MSM.py:Bare2Scaled._convert_obs47", "utilities/RTCM_utilities.py:MSMT.CRNG_1MS"]}
{"id": "C18", "title": "A valid MSM3 phase is never dropped", "statement": "In MSM3 a cell whose fine phase range is valid is reported in obs.phs, whatever the other cells contain.", "quantifier": "every MSM3 message", "why_tests_cant": "needs a particular combination of cells", "anchors": ["sub_decoders/RTCM_MSM.py:Bare2Scaled._convert_obs13"]}
{"id": "C19", "title": "Lock-time indicators are monotone", "statement": "unpack_tlock10 is strictly increasing on 0..704 and unpack_tlock4 on 0..15, so a larger indicator always means a longer lock time.", "quantifier": "every pair of indicator values", "why_tests_cant": "pairwise property over the domain", "anchors": ["utilities/RTCM_utilities.py:MSMT.unpack_tlock10", "utilities/RTCM_utilities.py:MSMT.unpack_tlock4"]}
{"id": "C20", "title": "Signal tables are consistent", "statement": "Within each GNSS the MSM signal number -> RINEX code map is injective and every code it produces has a carrier frequency; scaled decoding of an otherwise valid MSM message succeeds exactly when every signal number in its mask is known.", "quantifier": "every GNSS, every signal mask", "why_tests_cant": "every mask subset", "anchors": ["utilities/RTCM_utilities.py:MSMT.rnx_lit", "utilities/RTCM_utilities.py:MSMT.crr_frq"]}
{"id": "C21", "title": "Ephemeris decoding inverts encoding", "statement": "For messages 1019, 1020, 1041, 1042, 1045 and 1046, framing any in-range field values in the RTCM layout and decoding in bare mode gives back every field.", "quantifier": "every field assignment of the six layouts", "why_tests_cant": "500-bit messages", "anchors": ["sub_decoders/RTCM_EPH.py:EphemerisDecoder"]}
{"id": "C22", "title": "QZSS ephemeris are decoded", "statement": "Every well-formed message 1044 is decoded.", "quantifier": "every field assignment of message 1044", "why_tests_cant": "-", "anchors": ["sub_decoders/RTCM_EPH.py:EphemerisDecoder.__decode1044"]}
{"id": "C23", "title": "Ephemeris scaling is lossless", "statement": "Every scaled ephemeris parameter whose unit is a power of two equals exactly (no rounding) the transmitted integer times that unit, hence the integer is recoverable.", "quantifier": "every ephemeris message and field value", "why_tests_cant": "2^32 values per field times rounding behaviour", "anchors": ["sub_decoders/RTCM_EPH.py:EphemerisDecoder.scale"]}
{"id": "C24", "title": "Short ephemeris messages are rejected", "statement": "An ephemeris message whose payload is shorter than its layout yields None; no field is ever taken from the CRC bytes or beyond the buffer.", "quantifier": "every byte buffer", "why_tests_cant": "all truncated inputs", "anchors": ["sub_decoders/RTCM_EPH.py:EphemerisDecoder.__length_check"]}
{"id": "C25", "title": "Station position messages (1005/1006)", "statement": "Bare decoding of a framed 1005/1006 returns every encoded field; scaled decoding reports flags as booleans, and coordinates/height as the field times 1e-4 m within one rounding; wrong total length yields None.", "quantifier": "every field assignment", "why_tests_cant": "152..168 bit messages", "anchors": ["sub_decoders/RTCM_BASE.py:BaseStationDataDecoder.__decode10056", "sub_decoders/RTCM_BASE.py:BaseStationDataDecoder.__scale10056"]}
{"id": "C26", "title": "Descriptor and text messages (1007/1008/1033/1029) in bare mode", "statement": "For every list of string bytes of each field (0..255 long) the bare object lists exactly the transmitted bytes, and lengths.", "quantifier": "every string content and length", "why_tests_cant": "unbounded contents", "anchors": ["sub_decoders/RTCM_BASE.py:BaseStationDataDecoder.__decode10078_1033", "sub_decoders/RTCM_BASE.py:BaseStationDataDecoder.__decode1029"]}
{"id": "C27", "title": "Descriptor and text messages in scaled mode", "statement": "Scaled decoding of a well-formed 1007/1008/1033/1029 returns the text whose UTF-8 encoding was transmitted, for every valid UTF-8 text including the empty one.", "quantifier": "every Unicode text", "why_tests_cant": "unbounded contents", "anchors": ["sub_decoders/RTCM_BASE.py:BaseStationDataDecoder.__scale10078_1033", "sub_decoders/RTCM_BASE.py:BaseStationDataDecoder.__scale1029"]}
{"id": "C28", "title": "System parameters (1013)", "statement": "A well-formed 1013 with Nm announcements is decoded and its schedule maps every announced message id to its (sync, interval) pair; with Nm=0 the announcement count is derived from the message length.", "quantifier": "every announcement list", "why_tests_cant": "unbounded lists", "anchors": ["sub_decoders/RTCM_BASE.py:BaseStationDataDecoder.__decode1013"]}
{"id": "C29", "title": "GLONASS bias message (1230)", "statement": "For each of the 16 validity masks and all bias values, decoding returns exactly the biases present, 0 and validity 0 for those absent, and rejects any other length.", "quantifier": "every mask and value", "why_tests_cant": "2^64 combinations", "anchors": ["sub_decoders/RTCM_BASE.py:BaseStationDataDecoder.__decode1230"]}
{"id": "C30", "title": "MARGO time is GPS time of week", "statement": "For in-range header times the MARGO row time is the GPS time of week in [0,604800000): Moscow time minus 3 h plus leap seconds for GLONASS (mod one week), +14 s for BeiDou (mod one week), unchanged otherwise.", "quantifier": "every header time, day and leap-second setting", "why_tests_cant": "10^9 values around two wrap-arounds", "anchors": ["printers/margo_printer.py:MargoCore.conv_to_gps_time"]}
{"id": "C31", "title": "MARGO rows place each value in its satellite column", "statement": "Each row has one column per satellite slot of the GNSS; column k holds satellite k's value of that observable and signal, or NaN when absent; no observable of a satellite within the column range is lost, and phase with unresolved half-cycle ambiguity is NaN unless HCA output is enabled.", "quantifier": "every observables object and settings", "why_tests_cant": "all satellite sets", "anchors": ["printers/margo_printer.py:MargoCore.ObservablesMSMtoPrintBuffer"]}
{"id": "C32", "title": "MARGO files are headed and append-only", "statement": "Each MARGO file consists of its two header lines followed by one row per printed message contributing to it (from the first such message at which the file could be created), in printing order, each row with as many columns as the header; distinct (GNSS, parameter, signal, subset) go to distinct files; no other files are made.", "quantifier": "every sequence of printed objects, every pattern of file-creation failures", "why_tests_cant": "unbounded histories", "anchors": ["printers/margo_printer.py:PrintMARGO"]}
{"id": "C33", "title": "JSON files are valid JSON arrays after release", "statement": "After release() each JSON file written by a run is a syntactically valid JSON array whose first element names the source type and whose further elements are the printed objects of that message number in order.", "quantifier": "every sequence of printed objects and contents (including arbitrary Unicode text), pretty or compact", "why_tests_cant": "unbounded histories and string contents", "anchors": ["printers/json_printer.py:PrintJSON", "printers/json_printer.py:JSONCore"]}
{"id": "C34", "title": "JSON validity survives interruption", "statement": "If processing is interrupted between any two file operations and release() then runs, the JSON files are still valid arrays of a prefix of the printed objects.", "quantifier": "every history and every interruption point", "why_tests_cant": "crash points", "anchors": ["printers/json_printer.py:PrintJSON.__append", "run_conversion.py:decode_rtcm_file"]}
{"id": "C35", "title": "Message numbers and files correspond", "statement": "In JSON modes every object goes to the file of its own message number, and different message numbers never share a file.", "quantifier": "every printed object", "why_tests_cant": "pairs over table plus all histories", "anchors": ["printers/json_printer.py:JSON_SPEC"]}
{"id": "C36", "title": "Printer selection is deterministic", "statement": "For each converter mode and each object the decoder can return, exactly one registered printer accepts it, so the result does not depend on the iteration order of the printer set.", "quantifier": "every mode, object type and printer order", "why_tests_cant": "set order is not controllable in tests", "anchors": ["printer_top.py:PrinterTop.print", "converter_top.py:strategy_RTCM3_to_JARGO"]}
{"id": "C37", "title": "Printing statistics", "statement": "printing attempts count the objects for which a printer exists, printing errors those of them rejected by an assertion; 0 <= errors <= attempts; other exceptions propagate.", "quantifier": "every history of print calls", "why_tests_cant": "unbounded histories", "anchors": ["printer_top.py:PrinterTop.print"]}
{"id": "C38", "title": "File conversion equals conversion of the whole stream", "statement": "The output files of decode_rtcm_file are a function of the file's bytes only (not of the read size): they are those obtained by framing the whole content, decoding each frame and printing each object in order; the converter is released exactly once on every path, including exceptions and user interruption.", "quantifier": "every file content, read size and interruption point", "why_tests_cant": "read sizes and interruption points", "anchors": ["run_conversion.py:decode_rtcm_file"]}
{"id": "C39", "title": "'Finished without errors' is truthful", "statement": "The closing message 'Finished without errors.' is logged only when parsing, decoding and printing errors are all zero.", "quantifier": "every conversion", "why_tests_cant": "needs parse errors without others", "anchors": ["run_conversion.py:main"]}
{"id": "C40", "title": "Every decoded field reaches the JSON output", "statement": "Each field that an ephemeris or base-station message carries appears in the JSON object printed for it.", "quantifier": "every EPH/BASE message", "why_tests_cant": "field-by-field over all classes", "anchors": ["printers/json_printer.py:JSONCore.dataClassToPrintBuffer", "gnss_types/ephemeris.py"]}
{"id": "C41", "title": "Control updates are atomic", "statement": "update_from_file either replaces the MARGO (JSON) control set by a completely validated one or leaves the previous one in force; a published GLONASS channel table always covers satellites 1..24.", "quantifier": "every sequence of ini files", "why_tests_cant": "arbitrary ini contents and sequences", "anchors": ["controls.py:ConverterControls"]}
{"id": "C42", "title": "Batch runs keep each file's products", "statement": "Converting a list of files leaves, at the end, for each source file the products that converting it alone would leave.", "quantifier": "every list of source files", "why_tests_cant": "name collisions", "anchors": ["run_conversion.py:create_work_folder", "run_conversion.py:main"]}
{"id": "C43", "title": "compare() honours relative tolerance regardless of sign", "statement": "DataClassMethods.compare(ref,tol) on floats accepts exactly the pairs whose relative difference (absolute for tiny references) is below the tolerance, independent of the sign of the values.", "quantifier": "every pair of objects", "why_tests_cant": "all float pairs", "anchors": ["gnss_types/data_class_methods.py:DataClassMethods.compare"]}
{"id": "C44", "title": "Frames are decoded from their payload alone", "statement": "Two frames with the same payload are given the same message number and decode to the same object (or are both rejected), whatever their checksum bytes are.", "quantifier": "every frame", "why_tests_cant": "all payloads and checksum bytes", "anchors": ["decoder_top.py:DecoderTop.decode", "sub_decoders"]}
{"id": "C45", "title": "MARGO phase and Doppler are in cycles and Hz", "statement": "The MARGO phase column is the carrier phase range divided by the wave length of the satellite's own carrier (including the GLONASS frequency channel), to within a millionth of a cycle; the Doppler column is minus the phase range rate in Hz, to within 1e-9 Hz.", "quantifier": "every phase range below 2^27 m, rate below 2^14 m/s, signal, satellite and channel table", "why_tests_cant": "accuracy for all values; float rounding", "anchors": ["printers/margo_printer.py:MargoCore.make_lambdas", "printers/margo_printer.py:MargoCore.ObservablesMSMtoPrintBuffer"]}
{"id": "C46", "title": "A message counted as printed is in the files", "statement": "If printing an observables object in MARGO mode succeeds then each row it contributes is in its file.", "quantifier": "every object and every pattern of file-creation failures", "why_tests_cant": "file-system failures at every point", "anchors": ["printers/margo_printer.py:PrintMARGO"]}
{"id": "C47", "title": "Products are where the user looks for them", "statement": "After converting a source file its products are exactly at <dir>/<stem>-<format>/<system dir>/<file>: each file holds exactly the objects of its message number (JSON) or rows of its observable (MARGO) in stream order, and nothing else, in particular no stale product of an earlier conversion, is in the work folder.", "quantifier": "every source path, content, output format and previous state of the file system", "why_tests_cant": "previous contents of the work folder", "anchors": ["run_conversion.py:create_work_folder", "run_conversion.py:main", "printers"]}
{"id": "C48", "title": "Controls are determined by the INI files", "statement": "The MARGO and JSON controls in force are a function of the INI files that were loaded: they are published exactly when the files give every required option, and do not depend on the order in which Python walks a set.", "quantifier": "every sequence of INI files and every set iteration order", "why_tests_cant": "hash order of strings is randomised per process", "anchors": ["controls.py:ConverterControls._make_MARGO", "controls.py:ConverterControls._make_JSON"]}
{"id": "C49", "title": "Accepted controls can be used for printing", "statement": "If controls were accepted (published) then every decoded observables message can be printed with them.", "quantifier": "every INI file and every message", "why_tests_cant": "all channel numbers", "anchors": ["controls.py:ConverterControls", "printers/margo_printer.py:MargoCore.make_lambdas"]}
{"id": "C50", "title": "An object agrees with its copy", "statement": "Every object with a compare() method that the decoder returns (ephemerides and base station data, scaled or bare) compares equal with a copy of itself, with every positive tolerance.", "quantifier": "every object and tolerance", "why_tests_cant": "all values, including special floats", "anchors": ["gnss_types/data_class_methods.py:DataClassMethods.compare", "gnss_types/data_class_methods.py:DataClassMethods.deepcopy"]}
{"id": "C51", "title": "Each source has a log of its own", "statement": "When several sources are converted in one run, the log of each source contains the welcome header, all messages of severity INFO or more of its own conversion in order, and its closing line, and no message of any other source; a source that cannot be converted or logged never prevents the following sources from being converted.", "quantifier": "every list of sources, every outcome of each of them, every failure to create folders or logs", "why_tests_cant": "all sequences of outcomes of a shared singleton logger", "anchors": ["logger.py:LoggerConsFile", "run_conversion.py:init_logger", "run_conversion.py:main"]}
{"id": "C52", "title": "An aborted conversion costs nothing", "statement": "If the conversion of a source is not started because there are no valid controls, products of earlier conversions and all other files remain as they were.", "quantifier": "every state of the file system", "why_tests_cant": "previous contents of the work folder", "anchors": ["run_conversion.py:main", "run_conversion.py:create_work_folder"]}
{"id": "C53", "title": "Sources are what the user names", "statement": "Files named on the command line are converted if they exist, in the order given, each name resolved as the operating system would; in directory mode exactly the entries of the displayed list whose numbers were typed are converted, in the order typed, and an answer that is not a list of numbers selects nothing.", "quantifier": "every command line, working directory, disk content and answer", "why_tests_cant": "all path spellings and answers", "anchors": ["run_conversion.py:make_list_of_source_files"]}
{"id": "C54", "title": "A directory offers its RTCM files", "statement": "When a directory is named, the list that is displayed consists of exactly the (not hidden) files of that directory with the RTCM extension.", "quantifier": "every directory path, content and extension", "why_tests_cant": "characters with a meaning in patterns", "anchors": ["run_conversion.py:make_list_of_source_files"]}
{"id": "C55", "title": "Settings of the user's INI file take effect", "statement": "Settings in an INI file named with -i take precedence over defaults.ini, settings it does not contain keep their defaults, and a complete file is sufficient.", "quantifier": "every pair of INI files", "why_tests_cant": "all combinations of present, missing and incomplete files", "anchors": ["run_conversion.py:main", "controls.py:ConverterControls.update_from_file"]}
{"id": "C56", "title": "A run produces what the sources contain", "statement": "A run on any list of sources with separate work folders and usable controls converts every source; afterwards each JSON and observation file of each source holds exactly what the bytes of that source contain, under the settings of the INI files, and nothing outside the work folders has changed.", "quantifier": "every list of sources with any contents (valid or damaged), any order and repetition, any previous state of the file system", "why_tests_cant": "end-to-end behaviour over all inputs", "anchors": ["run_conversion.py:main", "run_conversion.py:decode_rtcm_file", "converter_top.py", "printers"]}
{"id": "C57", "title": "Comparisons of decoded objects give an answer", "statement": "Comparing any two decoded ephemeris or base station objects returns True or False and never raises; True is only returned for objects from messages of the same number.", "quantifier": "every two decoded objects, every positive tolerance", "why_tests_cant": "all pairs of objects, including classes that inherit from each other", "anchors": ["gnss_types/data_class_methods.py:DataClassMethods.compare"]}
{"id": "C58", "title": "The layout of an INI file does not matter, and a malformed one is refused", "statement": "Settings written as sections and options are read as what they say, whatever comments, empty lines, white space, '=' or ':' and letter case of option names are used; a file that says something twice, has an option before the first section, or a line that is no option, is refused; the shipped INI files give the documented controls.", "quantifier": "every set of settings, every way to write it down, every text around a malformed line, every iteration order of the options", "why_tests_cant": "the ways to lay out a file are infinite; tests read two fixed files", "anchors": ["controls.py:ConverterControls._read_ini", "controls.py:ConverterControls.init_from_file", "controls.py:ConverterControls.update_from_file", "defaults.ini", "addons.ini"]}
{"id": "C59", "title": "The command line means what it says", "statement": "A command line is accepted exactly when it consists of settings (format, INI file, extension, each in any of its spellings: separate value, '=', glued, abbreviated) and one contiguous list of sources, with formats among the four known ones; then the last value of each setting counts, defaults apply to the others, and the sources are taken in the order given. Everything else is refused or shows help.", "quantifier": "every command line (any number of arguments, any strings)", "why_tests_cant": "spellings, orders and malformed lines are unlimited", "anchors": ["run_conversion.py:create_argument_parser", "run_conversion.py:main"]}
{"id": "C60", "title": "The command does what its command line says", "statement": "Running the program with an accepted command line converts the named sources that exist (or the entries of the named directory that the user chooses), in the format, with the INI files and with the extension that were given; afterwards the products of each source are what its bytes call for and no other file has changed. A command line that is not accepted changes no file. A command given as one text with single spaces between its words means the same.", "quantifier": "every accepted command line, working directory, disk content, INI files and source contents", "why_tests_cant": "end-to-end behaviour over all command lines and contents", "anchors": ["run_conversion.py:main", "run_conversion.py:create_argument_parser", "run_conversion.py:make_list_of_source_files"]}
{"id": "C61", "title": "The log of a conversion tells what happened", "statement": "The log of an undisturbed conversion is: a greeting; after every read of the source one entry for each message that became complete (decoded with what, not decoded and why, or no decoder) together with the lines about failures to print it, and a progress line with the share of the bytes read and the statistics that converting only those bytes ends with; a farewell. The numbers of entries agree with the statistics and the last progress line says 100%. An interrupted conversion leaves a beginning of that log, the description of the exception and the farewell.", "quantifier": "every content, every way of reading it in pieces, every output format, every interruption, every text of exceptions and paths", "why_tests_cant": "the log depends on everything that may be in a file and on the moment of an interruption", "anchors": ["run_conversion.py:decode_rtcm_file", "decoder_top.py:DecoderTop.decode", "printer_top.py:PrinterTop.print", "printers/margo_printer.py", "sub_decoders/RTCM_MSM.py", "sub_decoders/RTCM_EPH.py", "sub_decoders/RTCM_BASE.py"]}
{"id": "C62", "title": "Missing measurements are announced in the log", "statement": "When an MSM message is decoded in a scaled format, the log names every missing (marked as invalid) coarse and fine value with satellite and signal, in the order of the cells, and nothing else; every range, phase or Doppler missing in the decoded object is announced.", "quantifier": "every MSM message with any pattern of invalid values", "why_tests_cant": "combinations of satellites, signals and invalid marks", "anchors": ["sub_decoders/RTCM_MSM.py"]}
{"id": "C63", "title": "The log file of each source describes its own conversion", "statement": "After a command that converts any number of sources, the work folder of each source holds a log file with the heading, then the log of the conversion of exactly this source (its name, its messages, a progress line after every piece that was read, with the statistics of those bytes), then the closing line; nothing about any other source. The work folders hold the log and the products and nothing else.", "quantifier": "every accepted command line, every list of sources with any contents, every previous state of the disk", "why_tests_cant": "lists of sources and contents are unlimited; the log of a later source could receive lines of an earlier one", "anchors": ["run_conversion.py:main", "run_conversion.py:decode_rtcm_file", "run_conversion.py:init_logger", "logger.py"]}
{"id": "C64", "title": "The console shows what is serious", "statement": "For each source, in order, the console shows that its decoding was started, what became of its work folder and log file, and then exactly the warnings, errors and progress lines of its log, in their order. Every source whose conversion did not end without errors is reported as such; named files that do not exist are named; the numbers shown beside the entries of a directory are those that select them.", "quantifier": "every command line, every list of sources with any contents, every failure to create folders or logs", "why_tests_cant": "the lines depend on all contents, failures and histories of the shared logger", "anchors": ["logger.py", "run_conversion.py:main", "run_conversion.py:make_list_of_source_files", "run_conversion.py:create_work_folder", "run_conversion.py:init_logger"]}
{"id": "C65", "title": "An INI file that cannot be used is reported", "statement": "If defaults.ini is missing or has no section, the first line on the console says so and no conversion is started. The same line appears for a file named with -i that is missing or has no section.", "quantifier": "every pair of INI files, every command line", "why_tests_cant": "combinations of files and what was loaded before", "anchors": ["controls.py:ConverterControls._read_ini", "run_conversion.py:main"]}
{"id": "C66", "title": "Products are where their names say", "statement": "The work folder of a source is beside it and is called after the source (without its extension, found as the operating system does) and the format; the log in it is called after the source. The objects of message number N are in one file, in a sub-folder for the kind of message, whose name has the satellite system or the kind of message, the MSM type and N; no two numbers share a file; the lookup function for products names this file, and a file in UNDEF for a number without products.", "quantifier": "every path of a source, every message number, every format", "why_tests_cant": "all spellings of file names and all numbers", "anchors": ["printers/json_printer.py:PrintJSON.make_opath", "printers/json_printer.py:JSON_SPEC", "run_conversion.py:create_work_folder", "run_conversion.py:make_log_file_name"]}
{"id": "C67", "title": "Observation files show the transmitted measurements", "statement": "For every source file: the observation file of a system, parameter, signal and message type exists exactly if a readable message of the source has such a value; it has two header lines (columns; carriers in MHz) and one line per such message, in the order of transmission, with the GPS time of the message; each field shows the number the message transmitted for that satellite (code range in metres, phase in cycles, Doppler in Hz, carrier-to-noise density in dBHz, lock time in seconds, half-cycle flag), wrong by at most half a unit of the last printed digit and two millionths, or nan if the message has no such value.", "quantifier": "every content of the source, every message of every system and MSM type, every satellite, signal and parameter, all valid controls", "why_tests_cant": "composition of framing, decoding, scaling, unit conversion, formatting and file handling, for all bit patterns", "anchors": ["run_conversion.py:main", "decoder_top.py:DecoderTop", "sub_decoders/RTCM_MSM.py", "printers/margo_printer.py:PrintMARGO"]}
{"id": "C68", "title": "JSON files show the transmitted messages", "statement": "For every source file: the JSON file of a message number exists exactly if the source contains a readable message of that number; it is a JSON document, a list with one element per such message in the order of transmission. Each element shows the message: every transmitted field in the bare formats (exact integers and bytes), and in the scaled formats the values in the units of the standard (for observations: each measurement under time, kind, signal and satellite, within 1e-7 of the real number given by the standard, and no member if not transmitted).", "quantifier": "every content of the source, every message of every supported number, bare and scaled JSON formats, all valid controls", "why_tests_cant": "composition of framing, dispatching, decoding, scaling, conversion to dictionaries, serialisation and file handling, for all bit patterns", "anchors": ["run_conversion.py:main", "decoder_top.py:DecoderTop", "sub_decoders/RTCM_MSM.py", "sub_decoders/RTCM_EPH.py", "sub_decoders/RTCM_BASE.py", "printers/json_printer.py:PrintJSON"]}
{"id": "C69", "title": "Captured test data are the transmitted messages", "statement": "With the capturing of messages switched on (modes EPH, BASE, MSM7, MSM5), the file msgN.rtcm3 of every captured number N holds, byte for byte and in order, the messages of that number the plan of the mode asks for (after passing over the first 0 or 10, the next 3, 1, 1 or 20), whatever the file held before; a file for which there is no message and all other files are left alone; the answers of the decoder and its statistics are those without capturing. Read back, a captured file gives exactly those messages without parsing errors. The four streams made from three messages give these three messages, with two parsing errors for the interleaved one and none for the others.", "quantifier": "every list of messages, every mode, every set of sub-decoders, every previous content of the folder, every division into pieces when reading back", "why_tests_cant": "the counters of the plan depend on the whole history of messages", "anchors": ["tests/test_utilities.py:TestDataGrabber.save", "tests/test_utilities.py:save_some_fancy_test_data", "decoder_top.py:DecoderTop.decode"]}
{"id": "C70", "title": "Killing the converter at any moment leaves initial parts of the products and touches nothing else", "statement": "If the program is killed at any moment (power cut, SIGKILL: no handler, no finally, no flushing), the sources processed before that moment have complete products; the sources not begun are as before; in the work folder of the source being processed are either products of earlier runs (perhaps not all) or files each of which is an initial part of the file that the undisturbed run would have left there (products and log), never a mixture; sources and all other files are unchanged. JSON files left that way can be read as JSON.", "quantifier": "every list of sources with separate work folders, every content, every moment between or inside operations, every amount of buffered text lost", "why_tests_cant": "the number of crash points grows with the input and with buffering; tests can kill at a few points only", "anchors": ["run_conversion.py:main", "run_conversion.py:decode_rtcm_file", "run_conversion.py:create_work_folder", "printers/margo_printer.py:PrintMARGO", "printers/json_printer.py:PrintJSON"]}
{"id": "C71", "title": "The products depend on the messages only; damage costs only the messages it touches", "statement": "Two files in which the same messages can be found in the same order give the same products, byte for byte, whatever lies between the messages. In particular noise between messages changes nothing; a message received with bit errors the CRC must detect (an odd number, two, or all within 24 bits; length field intact, no further preamble byte) costs that message and nothing else; and any damage at all, bytes changed, lost or inserted, costs only what it touches if at least 1028 bytes follow it and no message with a matching CRC arises by chance.", "quantifier": "every file content, every noise, every damage of the kinds named, every format, all valid controls", "why_tests_cant": "noise, damage and their positions are unlimited, and the reader keeps state from one message to the next", "anchors": ["decoder_top.py:DecoderTop.catch_message", "run_conversion.py:decode_rtcm_file", "printers/margo_printer.py:PrintMARGO", "printers/json_printer.py:PrintJSON"]}
{"id": "C72", "title": "A recording can be converted in parts", "statement": "If a recording is cut between two messages and both parts are converted, then every product of the whole recording is the product of the first part followed by that of the second: observation files are the common header and the lines of the first and of the second part, JSON files hold the elements of the first and then of the second part behind the common type element; a product only one part has is the product of the whole; there are no other products.", "quantifier": "every recording, every cut between messages, every format, all valid controls", "why_tests_cant": "histories of printing before the cut are unlimited and could influence what is written after it", "anchors": ["run_conversion.py:decode_rtcm_file", "decoder_top.py:DecoderTop", "printers/margo_printer.py:PrintMARGO", "printers/json_printer.py:PrintJSON"]}
{"id": "C73", "title": "Running the command again repairs and repeats", "statement": "Whatever earlier commands with the same format and sources did (ran to the end, with any INI files, were interrupted, met errors of the operating system, or were killed at any moment), the command ends with the same outcome for every source and leaves every file on the disk as if they had never been run. In particular a finished command can be repeated: the outcomes are the same and no file changes.", "quantifier": "every list of sources with separate work folders, every content, every number of earlier runs and every moment at which they ended", "why_tests_cant": "histories of earlier runs and the crash points in them are unlimited", "anchors": ["run_conversion.py:main", "run_conversion.py:create_work_folder", "run_conversion.py:init_logger", "run_conversion.py:decode_rtcm_file"]}
{"id": "C74", "title": "Each source of a command is converted as if it were alone, in any order", "statement": "For each source of a command, the command for this source only ends with the same outcome and leaves the same files (products and log) in its work folder, whatever happened to the sources before it: interruptions, folders or files that could not be created or deleted, errors in the data. The order in which the sources are given changes neither the outcomes nor any file.", "quantifier": "every list of different sources with separate work folders, every content, every failure of the operating system at every source, every order", "why_tests_cant": "lists of sources, failures and orders are unlimited; the logger object is shared by all of them", "anchors": ["run_conversion.py:main", "run_conversion.py:create_work_folder", "run_conversion.py:init_logger", "logger.py:LoggerConsFile"]}
{"id": "C75", "title": "The output formats agree with each other", "statement": "For one recording and one set of controls, MARGO and JARGO write byte for byte the same observation files; JARGO and JSON write files of ephemerides and base station data that hold the same JSON documents; JARGO writes exactly the observation files of MARGO and the ephemeris and base station files of JSON, nothing else and nothing less; and for every message number the JSON-B file exists and has at least as many elements as the JSON file, if there is one: no message is shown in physical units only.", "quantifier": "every recording, all valid controls, every observation file and every message number", "why_tests_cant": "the four formats use different sets of decoders and printers, and would have to be compared on every recording", "anchors": ["converter_top.py:ConverterFactory", "decoder_top.py:DecoderTop.decode", "printer_top.py:PrinterTop", "printers/margo_printer.py:PrintMARGO", "printers/json_printer.py:PrintJSON"]}
{"id": "C76", "title": "The bare output loses nothing", "statement": "If headers are enabled (enable_hdr_data) and the JSON-B files of a message number of two recordings are equal, then the messages of this number in the two recordings are the same one by one, field by field: every bit of observation messages but the reserved ones, every field of ephemerides (of 1041 without two flags that the decoder does not keep), reference points, texts, schedules (for repeated announcements of one number the last) and code-phase biases. Without headers this is false for observation messages: the numbers of the satellites are in the headers.", "quantifier": "every pair of recordings with any noise and other messages between, every message number, every choice of the other controls", "why_tests_cant": "injectivity relates all pairs of inputs; no finite set of pairs shows that different messages never have equal output", "anchors": ["sub_decoders/RTCM_MSM.py:BareObservablesMSM17Decoder", "sub_decoders/RTCM_EPH.py:EphemerisDecoder", "sub_decoders/RTCM_BASE.py:BaseStationDataDecoder", "printers/json_printer.py:PrintJSON"]}
{"id": "C77", "title": "Observation files tell different measurements apart", "statement": "If the MARGO (or JARGO) observation files of a system, parameter, signal and message type of two recordings are equal, then the messages with values for it correspond one by one: the GPS times are equal, the same satellites have values, and the values are the same measurements: exactly for phases of all types, pseudoranges of MSM1-5, carrier-to-noise ratios, lock times and half-cycle flags, and up to one unit of the last digit (and 4e-6) for Dopplers and for pseudoranges of MSM6 and MSM7, which are transmitted with finer steps than are printed.", "quantifier": "every pair of recordings with any noise and other messages between, every system, parameter, signal and message type, all valid controls with equal settings", "why_tests_cant": "injectivity relates all pairs of inputs; rounding in floating point and in the decimal output must be bounded for all of them", "anchors": ["printers/margo_printer.py:MargoCore", "sub_decoders/RTCM_MSM.py:Bare2Scaled", "printers/margo_printer.py:PrintMARGO"]}
{"id": "C78", "title": "Messages of one kind do not affect the products of another", "statement": "What is in the product of a message number depends on the messages with this number in the recording and on nothing else, byte for byte: other messages before, between and behind them, decodable or not, change nothing, and neither does their order among each other. In particular, a recording reduced to the messages with chosen numbers gives exactly those products of the whole recording that belong to these numbers.", "quantifier": "every pair of recordings with any noise, every output format, every message number and every selection of numbers", "why_tests_cant": "ranges over all recordings and all selections; sharing of state between the decoders or printers of two kinds shows only in particular sequences", "anchors": ["converter_top.py:Converter", "decoder_top.py:DecoderTop", "printer_top.py:PrinterTop", "printers/json_printer.py:PrintJSON", "printers/margo_printer.py:PrintMARGO"]}
{"id": "C79", "title": "Message numbers are classified as the standard says", "statement": "getSubset(num) returns the system letter and the group (LEG1-4, EPH, MSM1-7) that RTCM 10403 assigns to the number, and a pair of empty strings for every other number; the numbers called MSM and EPH are those which the decoders of observations and of ephemerides serve, and the legacy observations are served by no decoder.", "quantifier": "every integer", "why_tests_cant": "the exceptions are single numbers between the assigned ones; tests try a few", "anchors": ["utilities/RTCM_utilities.py:getSubset", "utilities/RTCM_utilities.py:LEGT", "utilities/RTCM_utilities.py:EPHT", "utilities/RTCM_utilities.py:MSMT.msm_subset"]}
{"id": "C80", "title": "A recording that has grown gives products that have grown", "statement": "If a recording is converted while it is still being written (cut anywhere, also within a message) and again later, each observation file of the first conversion is an initial part of that of the second, each JSON document of the first is continued by further messages in the second, and no product is missing in the second.", "quantifier": "every recording, every position where it is cut, every continuation, every output format", "why_tests_cant": "ranges over all cut positions of all recordings, including those inside messages and inside noise", "anchors": ["converter_top.py:Converter", "decoder_top.py:DecoderTop.catch_message", "run_conversion.py:decode_rtcm_file"]}
