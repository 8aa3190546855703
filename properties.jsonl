{"id": "C01", "title": "Intel HEX round trip", "statement": "If a memory image is written as a standard Intel HEX 32 file (data records preceded by extended linear address records, correct byte counts and checksums, terminated by an end-of-file record), ihex32.ParseFromFile returns no error and exactly that image: every byte of the image under its address, and no other address.", "quantifier": "every list of address blocks with nonzero upper address halves, every data record of up to 255 bytes that stays inside its 64 KiB block, every number of CPUs, every goroutine schedule, both letter cases, CRLF and LF", "why_tests_cant": "The image, the record cutting, the CPU count and the schedule are all unbounded; tests only try a few files on one machine.", "anchors": ["ihex32/hex.go:ParseFromFile", "ihex32/hex.go:parseHex", "ihex32/hex.go:parseRecordRoutine", "ihex32/record.go:parseRecord", "ihex32/record.go:addOffsets", "ihex32/record.go:calcDataEntries"]}
{"id": "C02", "title": "Upper address half comes from the nearest preceding extended linear address record", "statement": "For every sequence of records, after ihex32.ParseFromFile each data byte is filed under the upper address half given by the closest preceding extended linear address record (0000 when there is none), including the value 0000 itself.", "quantifier": "every sequence of records, every number of CPUs, every interleaving of the offset-applying goroutines", "why_tests_cant": "Depends on a race between goroutines that stop early when they meet work already done; tests see one interleaving and one CPU count.", "anchors": ["ihex32/record.go:addOffsets", "ihex32/hex.go:parseHex"]}
{"id": "C03", "title": "Intel HEX result does not depend on the goroutine schedule", "statement": "For a fixed file and a fixed CPU count, every interleaving of the worker goroutines yields the same map and the same error.", "quantifier": "every file content, every CPU count, every interleaving of offset workers, checksum workers and the main goroutine", "why_tests_cant": "Number of interleavings is exponential; the race detector and repeated runs only sample them.", "anchors": ["ihex32/hex.go:parseHex", "ihex32/record.go:addOffsets", "ihex32/record.go:validateChecksumsRoutine", "ihex32/record.go:calcDataRoutine"]}
{"id": "C04", "title": "Intel HEX result does not depend on the number of CPUs", "statement": "The same file gives the same result on machines with different CPU counts.", "quantifier": "every file, every two CPU counts", "why_tests_cant": "The CPU count is fixed on the test machine.", "anchors": ["ihex32/hex.go:ParseFromFile", "ihex32/hex.go:parseHex", "ihex32/hex.go:parseRecordRoutine", "ihex32/record.go:parseRecord", "ihex32/record.go:addOffsets"]}
{"id": "C05", "title": "Intel HEX checksum error iff a record is bad", "statement": "ihex32.ParseFromFile reports the checksum error exactly when some record it accepted as a line has a byte sum different from 0 modulo 256 or contains a pair that is not a hex byte.", "quantifier": "every list of records, every CPU count, every schedule", "why_tests_cant": "Universally quantified over file contents and worker partitions.", "anchors": ["ihex32/record.go:validateChecksum", "ihex32/record.go:validateChecksumsRoutine", "ihex32/hex.go:parseHex"]}
{"id": "C06", "title": "Intel HEX detects every single-byte corruption", "statement": "If one byte (two hex digits after the start code) of one record of a valid file is replaced by any other byte value, ihex32.ParseFromFile returns an error; no corrupted value is ever returned as data.", "quantifier": "every valid file whose records carry at least one data byte, every record, every byte position in it (count, address, type, data, checksum), every replacement value, every CPU count", "why_tests_cant": "All positions times all values times all files.", "anchors": ["ihex32/record.go:validateChecksum", "ihex32/record.go:parseRecord", "ihex32/hex.go:parseRecordRoutine"]}
{"id": "C07", "title": "Intel HEX detects a damaged line", "statement": "If a line of the file is not a well-formed record (start code destroyed, truncated, too short), ihex32.ParseFromFile returns an error instead of a map that lacks data.", "quantifier": "every file, every damaged line, every CPU count", "why_tests_cant": "The silent path returns success; a test has to guess which damage to try.", "anchors": ["ihex32/hex.go:parseRecordRoutine", "ihex32/record.go:parseRecord"]}
{"id": "C08", "title": "Intel HEX address collisions are errors", "statement": "With good checksums, ihex32.ParseFromFile returns the collision error exactly when two data bytes of the file have the same address; it never silently overwrites a byte.", "quantifier": "every list of records, every CPU count, every schedule", "why_tests_cant": "All pairs of overlapping records in all files.", "anchors": ["ihex32/hex.go:parseHex", "ihex32/record.go:calcDataEntries"]}
{"id": "C09", "title": "Intel HEX map contains only bytes of the file", "statement": "Whatever the file content, every (address, value) in the returned map is a data byte of some data record line of the file at an address computed from that record, also when an error is returned.", "quantifier": "every file content, every CPU count, every schedule", "why_tests_cant": "Universally quantified over arbitrary, also malformed, input.", "anchors": ["ihex32/hex.go:parseHex", "ihex32/record.go:calcDataEntries"]}
{"id": "C10", "title": "Line terminators and blank lines do not matter", "statement": "The same records separated by CRLF or by LF, with or without a final terminator and with any number of blank lines, give the same result.", "quantifier": "every list of record lines (free of CR and LF), both terminators, any number of blank lines at any place", "why_tests_cant": "All layouts of all files.", "anchors": ["ihex32/hex.go:ParseFromFile", "srec19/hex.go:ParseFromFile"]}
{"id": "C11", "title": "Data record crossing a 64 KiB border", "statement": "A data record whose bytes run past the end of its 64 KiB block is stored at consecutive linear 32-bit addresses, as Intel HEX linear addressing demands.", "quantifier": "every data record", "why_tests_cant": "Boundary appears only for records touching address xxxxFFFF.", "anchors": ["ihex32/record.go:calcDataEntries"]}
{"id": "C12", "title": "Records of unsupported or terminating type are not misread", "statement": "Extended segment address records (type 02) change the addresses of the following data or are reported as an error, and lines after the end-of-file record do not contribute data.", "quantifier": "every file", "why_tests_cant": "Needs files with these record types; the silent path returns success.", "anchors": ["ihex32/record.go:addOffsets", "ihex32/record.go:calcDataRoutine", "ihex32/tokens.go"]}
{"id": "C13", "title": "Byte count must match the data", "statement": "A record whose byte count differs from the number of data bytes on the line is rejected.", "quantifier": "every record line", "why_tests_cant": "Every count/length combination.", "anchors": ["ihex32/record.go:parseRecord", "ihex32/record.go:validateChecksum", "srec19/record.go:parseRecord"]}
{"id": "C14", "title": "Hex readers never panic and never deadlock", "statement": "For arbitrary file content the Intel HEX and S19 readers terminate under every schedule with a map or an error: no index out of range, no blocked channel, no goroutine holding up the caller.", "quantifier": "every byte sequence as file content, every CPU count >= 1, every interleaving of workers and collector", "why_tests_cant": "Arbitrary content and all interleavings.", "anchors": ["ihex32/hex.go:parseHex", "ihex32/record.go:calcDataRoutine", "srec19/hex.go:parseHex", "srec19/record.go:parseRecord"]}
{"id": "C15", "title": "S19 round trip", "statement": "If a memory image is written as S3 data records with correct counts and checksums (optionally closed by an S7 record), srec19.ParseFromFile returns no error and exactly that image.", "quantifier": "every list of records of up to 250 data bytes that do not overlap and do not pass 2^32, every CPU count, every schedule, CRLF and LF", "why_tests_cant": "Unbounded images, cuts and CPU counts.", "anchors": ["srec19/hex.go:ParseFromFile", "srec19/hex.go:parseHex", "srec19/hex.go:parseRecordRoutine", "srec19/record.go:parseRecord", "srec19/record.go:calcDataEntries"]}
{"id": "C16", "title": "S19 header record is tolerated", "statement": "A standard S-record file starting with an S0 header record is read like the same file without the header.", "quantifier": "every S19 file of S3 records with an S0 header, every CPU count", "why_tests_cant": "Loss depends on CPU count and header length; success is still reported.", "anchors": ["srec19/record.go:parseRecord", "srec19/hex.go:parseRecordRoutine"]}
{"id": "C17", "title": "S19 checksum error iff a record is bad", "statement": "srec19.ParseFromFile reports the checksum error exactly when some accepted S3 record has a byte sum different from 255 modulo 256 or contains a pair that is not a hex byte.", "quantifier": "every list of records, every CPU count, every schedule", "why_tests_cant": "Universally quantified over contents and partitions.", "anchors": ["srec19/record.go:validateChecksum", "srec19/record.go:validateChecksumsRoutine", "srec19/hex.go:parseHex"]}
{"id": "C18", "title": "S19 address collisions are errors", "statement": "With good checksums, srec19.ParseFromFile returns the collision error exactly when two data bytes have the same address.", "quantifier": "every list of records, every CPU count", "why_tests_cant": "All overlapping pairs in all files.", "anchors": ["srec19/hex.go:parseHex", "srec19/record.go:calcDataEntries"]}
{"id": "C19", "title": "S19 records with 16 and 24 bit addresses are not dropped silently", "statement": "S1 and S2 data records are either stored or reported as an error.", "quantifier": "every S-record file containing S1 or S2 records", "why_tests_cant": "Success is reported while data is missing; tests must think of the file kind.", "anchors": ["srec19/record.go:parseRecord", "srec19/hex.go:parseRecordRoutine"]}
{"id": "C20", "title": "S19 detects every single-byte corruption", "statement": "Replacing one byte (two hex digits) of count, address, data or checksum of an S3 record of a valid file by another value makes srec19.ParseFromFile return an error.", "quantifier": "every valid file, every record, every position, every value, every CPU count", "why_tests_cant": "All positions times values times files.", "anchors": ["srec19/record.go:validateChecksum"]}
{"id": "C21", "title": "Both hex formats agree", "statement": "The same memory image written as Intel HEX and as S19 gives the same map.", "quantifier": "every image representable in both formats", "why_tests_cant": "Equality of two parsers over all images.", "anchors": ["ihex32/hex.go:ParseFromFile", "srec19/hex.go:ParseFromFile"]}
{"id": "C22", "title": "ReadCalibration succeeds iff both files are readable", "statement": "ReadCalibration returns a nil error exactly when the A2L reader and the hex reader both succeed, and then it carries exactly their two results; otherwise it returns an error produced by one of the failing readers and no data.", "quantifier": "every pair of reader outcomes, every interleaving of the two reader goroutines and the caller", "why_tests_cant": "All interleavings with the channel operations.", "anchors": ["calib_data.go:ReadCalibration", "calib_data.go:readA2L", "calib_data.go:readHex"]}
{"id": "C23", "title": "ReadCalibration never blocks or leaks", "statement": "Under every schedule ReadCalibration returns, and both reader goroutines have finished when it does.", "quantifier": "every outcome of the two readers, every interleaving", "why_tests_cant": "Liveness over all interleavings.", "anchors": ["calib_data.go:ReadCalibration", "calib_data.go:readA2L", "calib_data.go:readHex"]}
{"id": "C24", "title": "ReadCalibration returns the first error deterministically", "statement": "When both files are unreadable the error returned does not depend on the schedule.", "quantifier": "every pair of failing readers, every interleaving", "why_tests_cant": "Depends on the schedule.", "anchors": ["calib_data.go:ReadCalibration"]}
{"id": "C25", "title": "Hex file format chosen by file extension", "statement": "The hex reader used by ReadCalibration is decided by the extension of the file name: .hex selects Intel HEX, .s19 selects S19, letter case ignored, everything else is an error.", "quantifier": "every path", "why_tests_cant": "All path strings, e.g. directories containing a dot.", "anchors": ["calib_data.go:readHex"]}
{"id": "C26", "title": "Reading memory bytes", "statement": "Reading n bytes at an address returns exactly the n consecutive bytes of the hex map when all are present and an error otherwise; it never panics.", "quantifier": "every hex map, address and length", "why_tests_cant": "All maps, addresses, lengths.", "anchors": ["calib_data.go:getBytes"]}
{"id": "C27", "title": "Next aligned address", "statement": "The aligned address is the smallest address not below the given one that is divisible by the alignment in force for the data type (record layout first, then MOD_COMMON, then the default).", "quantifier": "every address, data type, record layout, MOD_COMMON", "why_tests_cant": "2^32 addresses times alignments.", "anchors": ["calib_data.go:getNextAlignedAddress"]}
{"id": "C28", "title": "Alignment precedence", "statement": "For every data type the alignment of the record layout wins over MOD_COMMON, which wins over the ASAP2 default.", "quantifier": "every record layout, MOD_COMMON, data type", "why_tests_cant": "All combinations of set and unset alignments.", "anchors": ["calib_data.go:getNextAlignedAddress"]}
{"id": "C29", "title": "Byte order conversion of integers", "statement": "Encoding an integer of a data type into its ASAP2 size in the module byte order and converting it back with the reader yields the same number.", "quantifier": "every integer data type, every value, both byte orders", "why_tests_cant": "2^64 values.", "anchors": ["record_manager.go:convertByteSliceToDatatype", "a2l/enums.go:GetDatatypeLength"]}
{"id": "C30", "title": "Conversion never panics", "statement": "Converting a byte slice to a data type returns a value or an error for every slice, data type and byte order.", "quantifier": "every byte slice, data type, byte order", "why_tests_cant": "All slice lengths for all types.", "anchors": ["record_manager.go:convertByteSliceToDatatype"]}
{"id": "C31", "title": "Floating point memory values", "statement": "FLOAT16_IEEE, FLOAT32_IEEE and FLOAT64_IEEE memory content is converted to the number it encodes.", "quantifier": "every bit pattern, both byte orders", "why_tests_cant": "2^16, 2^32 and 2^64 patterns.", "anchors": ["record_manager.go:convertByteSliceToDatatype"]}
{"id": "C32", "title": "Characteristic address text", "statement": "The textual address of a characteristic is converted to the number it denotes, independent of the byte order of the ECU memory; malformed text is an error, never a panic.", "quantifier": "every address text, every byte order", "why_tests_cant": "All texts.", "anchors": ["record_manager.go:convertStringToUint32Address"]}
{"id": "C33", "title": "Linear conversion", "statement": "LINEAR compu methods yield A*dec+B in float64 arithmetic when both coefficients are present and an error otherwise; IDENTICAL yields the input.", "quantifier": "every float64 input and coefficient pair", "why_tests_cant": "All floats.", "anchors": ["compu_methods.go:convDecToPhy"]}
{"id": "C34", "title": "Rational function conversion inverts RAT_FUNC", "statement": "When RAT_FUNC conversion returns a value without error, applying (a x^2 + b x + c)/(d x^2 + e x + f) to it gives back the decimal value.", "quantifier": "every coefficient set and decimal value for which the inverse exists exactly", "why_tests_cant": "All coefficient sets.", "anchors": ["compu_methods.go:calcRatFunc"]}
{"id": "C35", "title": "Linear rational functions are supported", "statement": "RAT_FUNC with a=d=e=0, b and f nonzero (the common linear form) can be converted.", "quantifier": "every b,c,f and decimal value", "why_tests_cant": "All coefficients.", "anchors": ["compu_methods.go:calcRatFunc"]}
{"id": "C36", "title": "Table lookup without interpolation", "statement": "TAB_NOINTP conversion returns the output of the first pair whose input equals the value, the default value when no pair matches, and an error when neither exists.", "quantifier": "every table, every value", "why_tests_cant": "All tables.", "anchors": ["compu_methods.go:calcTabNoIntp"]}
{"id": "C37", "title": "Verbal table lookup", "statement": "A COMPU_VTAB lookup returns the text of the first pair whose input equals the value, else the default text, else an error.", "quantifier": "every table, every value", "why_tests_cant": "All tables.", "anchors": ["compu_methods.go:calcTabVerb"]}
{"id": "C38", "title": "Verbal range lookup", "statement": "A COMPU_VTAB_RANGE lookup returns the text of the first triple whose half-open range contains the value, else the default text, else an error.", "quantifier": "every table, every value", "why_tests_cant": "All tables and values.", "anchors": ["compu_methods.go:calcTabVerbRange"]}
{"id": "C39", "title": "Interpolated table lookup", "statement": "TAB_INTP conversion interpolates between the table points.", "quantifier": "every table, every value", "why_tests_cant": "All tables.", "anchors": ["compu_methods.go:convDecToPhy"]}
{"id": "C40", "title": "Lookup of objects by identifier", "statement": "GetObjectByIdent returns exactly the objects of the selected module that carry the identifier among the twelve searched object kinds, each once, in a fixed order.", "quantifier": "every module, every identifier", "why_tests_cant": "All modules.", "anchors": ["record_manager.go:GetObjectByIdent"]}
{"id": "C41", "title": "System constant values", "statement": "Looking up the value of an existing system constant returns its value.", "quantifier": "every module, every system constant", "why_tests_cant": "All constants.", "anchors": ["record_manager.go:getSystemConstantValue"]}
{"id": "C42", "title": "A2L tokens do not depend on layout or CPU count", "statement": "If no comment, quoted text or begin/end pair spans a line end, the token sequence of an A2L text is the concatenation of the tokens of its lines and does not depend on the number of CPUs.", "quantifier": "every text whose lines are self-contained, every CPU count", "why_tests_cant": "All texts and partitions.", "anchors": ["a2l/token_generator.go:buildTokenGeneratorFromString", "a2l/token_generator.go:buildTokenList"]}
{"id": "C43", "title": "A2L tokens of multi-line constructs", "statement": "Also when a comment, a quoted text or a begin/end pair spans lines, the token sequence does not depend on the number of CPUs.", "quantifier": "every text, every two CPU counts", "why_tests_cant": "CPU count is fixed in tests.", "anchors": ["a2l/token_generator.go:buildTokenGeneratorFromString", "a2l/token_generator.go:skipMultilineComment"]}
{"id": "C44", "title": "No A2L text is dropped silently", "statement": "Every word outside comments ends up in some token, or reading the file reports an error.", "quantifier": "every text", "why_tests_cant": "Silent truncation returns success.", "anchors": ["a2l/token_generator.go:buildNextValidToken", "a2l/token_generator.go:buildTokenList"]}
{"id": "C45", "title": "Quoted text is preserved", "statement": "A quoted string is delivered to the parser as one token with exactly its characters.", "quantifier": "every quoted string", "why_tests_cant": "All strings, e.g. with runs of blanks.", "anchors": ["a2l/token_generator.go:getTextInQuotationMarks"]}
{"id": "C46", "title": "Comments are transparent", "statement": "Removing a comment (a separate word group between // and line end, or between /* and */) from a text does not change the tokens.", "quantifier": "every text without quotes, every comment without words containing comment closers", "why_tests_cant": "All texts and positions.", "anchors": ["a2l/token_generator.go:skipLineComment", "a2l/token_generator.go:skipMultilineComment"]}
{"id": "C47", "title": "Token generation terminates without panic", "statement": "For every text token generation terminates and indexes no line or word out of range.", "quantifier": "every text, every CPU count", "why_tests_cant": "All texts.", "anchors": ["a2l/token_generator.go:buildNextValidToken", "a2l/token_generator.go:moveToNextRawValue"]}
{"id": "C48", "title": "Parallel module parsing finds every object", "statement": "Parsing a single-module file in parallel yields the same objects as parsing it sequentially, for every CPU count and schedule.", "quantifier": "every module token sequence, every CPU count, every schedule", "why_tests_cant": "Loss depends on token positions relative to chunk borders.", "anchors": ["a2l/module.go:parseModuleMultithreaded", "a2l/module.go:parseModuleMainLoop", "a2l/module.go:parseModule"]}
{"id": "C49", "title": "Record layout positions are a faithful map", "statement": "The position map of a record layout contains exactly the set components, each under its own position, when all positions differ, and an error is returned exactly when two set components share a position.", "quantifier": "every record layout", "why_tests_cant": "35 optional components with 2^16 positions each.", "anchors": ["a2l/record_layout.go:GetRecordLayoutRelativePositions"]}
{"id": "C50", "title": "Data type of a record layout component", "statement": "The data type lookup by component name returns the data type of that component when it is set and an error otherwise.", "quantifier": "every record layout, every name", "why_tests_cant": "All layouts and names.", "anchors": ["a2l/record_layout.go:GetDatatypeByFieldName"]}
{"id": "C51", "title": "MATRIX_DIM is read completely", "statement": "MATRIX_DIM followed by one to three numbers and a keyword sets exactly those dimensions, leaving the following keyword to be parsed next.", "quantifier": "every dimension triple", "why_tests_cant": "All dimension values; only a wrong flag distinguishes the cases.", "anchors": ["a2l/matrix_dim.go:parseMatrixDim"]}
{"id": "C52", "title": "COMPU_TAB round trip", "statement": "Parsing the tokens of a COMPU_TAB yields exactly its name, type, pairs and default value.", "quantifier": "every table with 1 to 65535 pairs", "why_tests_cant": "All tables.", "anchors": ["a2l/compu_tab.go:parseCompuTab"]}
{"id": "C53", "title": "COMPU_VTAB and COMPU_VTAB_RANGE round trip", "statement": "Parsing the tokens of a verbal table yields exactly its pairs or triples and default value.", "quantifier": "every table with at least one entry", "why_tests_cant": "All tables.", "anchors": ["a2l/compu_vtab.go:parseCompuVtab", "a2l/compu_vtab_range.go:parseCompuVtabRange"]}
{"id": "C54", "title": "Data type sizes", "statement": "The size reported for each data type is the ASAP2 size (8, 16, 32 or 64 bits).", "quantifier": "every data type", "why_tests_cant": "Finite, but every reader of memory depends on it.", "anchors": ["a2l/enums.go:GetDatatypeLength"]}
{"id": "C55", "title": "UNIT is read completely", "statement": "Parsing the tokens of a UNIT object yields its name, long identifier, display text and type.", "quantifier": "every unit", "why_tests_cant": "All units.", "anchors": ["a2l/unit.go:parseUnit"]}
{"id": "C56", "title": "IF_DATA is read verbatim up to its end", "statement": "Parsing an IF_DATA block stores exactly the tokens between its name and its end and leaves the cursor on the end token; a missing end is an error.", "quantifier": "every token list", "why_tests_cant": "All token lists.", "anchors": ["a2l/if_data.go:parseIfData"]}
{"id": "C57", "title": "Characteristic round trip", "statement": "Parsing the tokens of a CHARACTERISTIC yields exactly its mandatory fields and cursor position at its end.", "quantifier": "every characteristic made of mandatory fields whose texts are not keywords", "why_tests_cant": "All texts.", "anchors": ["a2l/characteristic.go:parseCharacteristic"]}
{"id": "C58", "title": "Enumeration texts round trip", "statement": "Every enumeration text defined by ASAP2 that the parser knows is parsed to the enumeration value with that text, different texts give different values, and other texts are errors.", "quantifier": "every string, every enumeration kind", "why_tests_cant": "All strings.", "anchors": ["a2l/enums.go"]}
{"id": "C59", "title": "Truncated objects are errors", "statement": "If the tokens of an object end before its end keyword, parsing it reports an error and never loops forever.", "quantifier": "every prefix of every token list", "why_tests_cant": "All prefixes.", "anchors": ["a2l/token_generator.go:next", "a2l/if_data.go:parseIfData", "a2l/compu_tab.go:parseCompuTab", "a2l/unit.go:parseUnit", "a2l/characteristic.go:parseCharacteristic"]}
{"id": "C60", "title": "Axis point reading positions", "statement": "After reading a component of n bytes the read position advances by n bytes.", "quantifier": "every component and data type", "why_tests_cant": "All layouts.", "anchors": ["axis_pts.go", "distOp.go", "no_axis_pts.go", "fnc_values.go", "reserved.go"]}
{"id": "C62", "title": "Cleaning the text of an A2L file keeps its content", "statement": "Before tokenizing, only unprintable characters (byte order marks, control characters) at the two ends of the file are removed; everything between, including texts with backslashes, reaches the tokenizer unchanged.", "quantifier": "every file content (arbitrary bytes, valid UTF-8 or not), every classification of the characters beyond ASCII by unicode.IsGraphic", "why_tests_cant": "All byte sequences and all positions of escapes and unprintable characters.", "anchors": ["a2l/a2l.go:cleanBytesString", "a2l/a2l.go:readFileToString"]}
{"id": "C63", "title": "No text makes the A2L parser loop or panic", "statement": "For every text, parsing the tokens delivered by the tokenizer returns, with an object tree or an error; it never loops forever and never panics.", "quantifier": "every text, every CPU count and schedule of the tokenizer, every result of ParseFloat", "why_tests_cant": "All texts.", "anchors": ["a2l/a2l.go:ParseFromFile", "a2l/a2l.go:parseA2l", "a2l/project.go:parseProject", "a2l/module.go:parseModule"]}
{"id": "C64", "title": "Every ASAP2 object is read as its declaration says", "statement": "For every object parser and all words that describe an object of the declared form (parameters, repetitions, sub-objects in any order), parsing them, wherever they stand in the token list, returns exactly that object without an error and leaves the cursor on its last word.", "quantifier": "all 191 object parsers, all objects of unbounded size and depth, all surrounding tokens, every result of ParseFloat", "why_tests_cant": "All objects and all combinations of optional parts; a flag that is not set is only visible with a later part.", "anchors": ["a2l/*.go:parse*"]}
{"id": "C65", "title": "An A2L file is read the same on every computer", "statement": "ParseFromFile returns on every file; without an error the result is the content of the file as the sequential parser reads it, independent of the number of CPUs and the schedule; a file that is not a complete A2L file is an error.", "quantifier": "every file content, every CPU count, every schedule of the tokenizer's and the module parser's goroutines, every result of ParseFloat", "why_tests_cant": "All files, CPU counts and schedules; whether an object is lost depends on its position relative to the number of CPUs.", "anchors": ["a2l/a2l.go:ParseFromFile", "a2l/a2l.go:parseA2l", "a2l/project.go:parseProject", "a2l/module.go:parseModuleMultithreaded"]}
{"id": "C66", "title": "ReadCalibration delivers the content of both files", "statement": "For every A2L file and every hex file, ReadCalibration returns; without an error its data are exactly the content of the A2L file and the bytes of the hex file; otherwise an error of one of the parsers is returned and no data.", "quantifier": "every pair of file contents and paths, every CPU count, every schedule of all goroutines", "why_tests_cant": "The composition of all parsers over all files and schedules.", "anchors": ["calib_data.go:ReadCalibration", "calib_data.go:readA2L", "calib_data.go:readHex"]}
{"id": "C61", "title": "All values of a characteristic are read from the image", "statement": "Reading a characteristic finds the record layout it names and delivers, for every component of the layout, the value stored at the component's place in the image; a missing record layout is reported.", "quantifier": "every parsed record layout, characteristic, module index and image, every iteration order of the position map", "why_tests_cant": "All layouts and images; the order in which Go iterates over a map differs from run to run.", "anchors": ["calib_data.go:getRecordLayout", "calib_data.go:getValuesFromHex", "characteristic_values.go:NewCharacteristicValues"]}
{"id": "C67", "title": "Function values are read with their own data type", "statement": "The function values of a characteristic are read from the image with the data type and address type of FNC_VALUES, as many as its dimensions say, and stored.", "quantifier": "every record layout, dimension, position and image", "why_tests_cant": "All layouts and images.", "anchors": ["calib_data.go:getFncValues", "fnc_values.go:getFncValues1D", "fnc_values.go:getFncValues2D"]}
{"id": "C68", "title": "Accepted A2L objects are properly nested", "statement": "When the parser of a begin/end object returns without an error, every object begun between its begin and its end keyword is ended there, the one begun last first, and no other object is ended: no begin or end keyword is taken for a name, text or number. The contents of IF_DATA and A2ML are not looked at.", "quantifier": "all 62 begin/end objects and whole files, every token list the tokenizer can deliver, every result of ParseFloat that rejects keywords", "why_tests_cant": "All token lists; tests contain well-formed files.", "anchors": ["a2l/*.go:parse* (209 functions)", "a2l/compu_vtab.go:parseCompuVtab", "a2l/bit_operation.go:parseBitOperation", "a2l/var_forbidden_comb.go:parseVarForbiddenComb"]}
{"id": "C69", "title": "Reading an A2L file gives back what was written", "statement": "If a list of tokens describes an A2L file in the sense of ASAP2 (versions, a project with header and modules, and in them any sequence of objects), and the tokens are written one per line, then ParseFromFile of that text returns exactly the described tree and no error.", "quantifier": "every list of tokens, every described tree, every CPU count, every schedule, every behaviour of strconv.ParseFloat", "why_tests_cant": "the descriptions are an infinite language of nested objects; a test compares a handful of files, on one CPU count and one schedule", "anchors": ["a2l/a2l.go:55-131", "a2l/project.go:18-68", "a2l/module.go", "a2l/token_generator.go:43-134", "a2l/a2l.go:134-171"]}
{"id": "C70", "title": "What stands in an A2L file is found under its name", "statement": "If a list of tokens describes an A2L file, then after reading the written file GetObjectByIdent, for every module and every name, delivers exactly the objects of that name that stand in the words of the module (axis points, characteristics, conversion methods and tables, functions, groups, measurements, record layouts, system constants, units), the last one if several of a kind have the name, each kind at most once and in a fixed order; and getSystemConstant delivers the system constant of that name, or an error if there is none.", "quantifier": "every described file, module, name, CPU count, schedule and behaviour of strconv.ParseFloat", "why_tests_cant": "all files and all names, including those defined twice and those of other modules; tests look up a few names in one file", "anchors": ["record_manager.go:17-41", "record_manager.go:45-101", "a2l/module.go:45-321", "a2l/mod_par.go:30-178", "a2l/a2l.go:55-131"]}
{"id": "C71", "title": "Conversions are those written in the A2L file", "statement": "For a conversion method or table that stands in the words of the chosen module, the conversion of a value is the one the words say: unchanged for IDENTICAL, a*x+b for LINEAR with COEFFS_LINEAR a b, the output of the first row of the table of that name with this input for TAB_NOINTP and verbal tables, the text of the range that contains the value for range tables, the written default otherwise, an error if there is none or the table or the coefficients are missing; and no conversion panics.", "quantifier": "every described module, every method and table in it, every value, every behaviour of strconv.ParseFloat", "why_tests_cant": "combines the parsers of all these objects, the maps of the module and the conversion over an infinite set of files and values", "anchors": ["compu_methods.go:11-193", "a2l/compu_method.go:28-117", "a2l/compu_tab.go:27-111", "a2l/compu_vtab.go:26-98", "a2l/compu_vtab_range.go:26-103", "a2l/module.go:45-321"]}
{"id": "C72", "title": "No error inside a parser is lost", "statement": "A parser of package a2l returns without an error exactly if nothing failed during its run: no word that cannot be read as the number or the constant expected, no unexpected keyword or end of file, no failing parser of a contained object; the object returned is the one of a run that stops at the first failure. Hence ParseFromFile on a file read sequentially delivers a tree without an error only if nothing in the whole file failed.", "quantifier": "every parser, token list, start index and behaviour of strconv.ParseFloat", "why_tests_cant": "errors are passed on by hand (err variables, break out of loops) in 209 functions; a single overwritten err shows only for one particular malformed object; all inputs are covered", "anchors": ["a2l/bit_operation.go", "a2l/module.go:45-321", "a2l/a2l.go:55-131", "a2l/compu_tab.go:27-111"]}
{"id": "C73", "title": "Integers in A2L files", "statement": "An integer parameter of k bits is read from a word exactly if the word is a decimal numeral (for signed ones with an optional sign) whose value fits into k bits, and the value stored is the one the numeral denotes. Hexadecimal integers, which ASAP2 allows for every integer, are read too.", "quantifier": "every word, bit size and parser with integer parameters", "why_tests_cant": "all words, including the limits of each size and words that are not numerals", "anchors": ["a2l/ecu_address_extension.go", "a2l/array_size.go", "a2l/fix_axis_par.go"]}
{"id": "C74", "title": "Missing mandatory parameters are reported", "statement": "If an object ends before all its mandatory parameters are given, the parser returns an error.", "quantifier": "every kind of object with mandatory parameters", "why_tests_cant": "over 150 kinds of objects with up to eight parameters each; test files contain complete objects only", "anchors": ["a2l/measurement.go", "a2l/characteristic.go", "a2l/axis_pts.go", "a2l/compu_method.go", "a2l/module.go:45-321"]}
{"id": "C75", "title": "Only well-formed objects are accepted", "statement": "If the parser of an object returns no error, the words it has read are an object of its form: the parameters of the right types and, for objects with an end keyword, only keywords that belong to this kind of object, each followed by an accepted object of its own form, up to the right end keyword, and no other words. A file that is read without an error consists of such objects.", "quantifier": "every parser, token list, start index and behaviour of strconv.ParseFloat", "why_tests_cant": "a test can only try single malformed files; this excludes all others", "anchors": ["a2l/module.go:45-321", "a2l/project.go", "a2l/a2l.go:90-131", "a2l/characteristic.go", "a2l/group.go"]}
{"id": "C76", "title": "S19 map contains only bytes of the file", "statement": "Every address and value in the map the S19 reader returns, with or without an error, is a data byte of an S3 line of the file at the address of that line plus its position.", "quantifier": "every file content, number of CPUs and schedule", "why_tests_cant": "arbitrary malformed files are covered, on every schedule", "anchors": ["srec19/hex.go:101-191", "srec19/record.go:27-43", "srec19/record.go:121-164"]}
{"id": "C77", "title": "S19 result does not depend on schedule, CPUs, line ends or blank lines", "statement": "Reading an S19 file gives the same result on every schedule and every number of CPUs, with either line terminator, and however many blank lines stand between the records.", "quantifier": "every file content, number of CPUs and schedule", "why_tests_cant": "a test runs on one machine with few schedules", "anchors": ["srec19/hex.go:101-191", "srec19/hex.go:205-245"]}
{"id": "C78", "title": "Record layouts are as written in the A2L file", "statement": "For a record layout as written in an A2L file, each of the 41 components has the position and the data type of the last words after its keyword in the file, components that do not occur have none, and computing the positions fails exactly if two components are written with the same position.", "quantifier": "every record layout that describes itself in the form the parser reads, every behaviour of strconv.ParseFloat", "why_tests_cant": "41 components in any combination, number and order of keywords", "anchors": ["a2l/record_layout.go:60-480", "a2l/record_layout.go:502-915", "a2l/record_layout.go:923-1100"]}
{"id": "C79", "title": "Values are read where and how the A2L file says", "statement": "For a characteristic written in an A2L file, the record layout used is the last one of the module with the name written in the characteristic; alignments come from that record layout, else from MOD_COMMON, else are the natural ones; the byte order is that of MOD_COMMON; and the integer components are read from the hex image at the written address with the written data type. A characteristic that names a missing record layout is reported.", "quantifier": "every module as read from a file, every characteristic and record layout in it, every hex image", "why_tests_cant": "combinations of module contents, alignments, byte orders and images are unbounded", "anchors": ["calib_data.go:178-192", "calib_data.go:503-707", "a2l/characteristic.go", "a2l/mod_common.go", "a2l/record_layout.go"]}
{"id": "C80", "title": "From both files to values, on every machine", "statement": "If the words of an A2L file and the records of an Intel hex or S19 file are written to disk and ReadCalibration is called, it returns under every schedule without an error; the map is the image of the hex file; for every module of the A2L file, lookups by name find exactly the objects written in it, conversions by a table give what the written table says, and the integer components of a characteristic are those the hex file contains at the address and in the form the A2L file says. Two calls on machines with different numbers of CPUs return data that no function of the package can tell apart.", "quantifier": "every A2L text (several modules, or one that can be shared out), every hex file of either format without repeated addresses, every number of CPUs and schedule", "why_tests_cant": "the property joins all parts of the program, for all files and schedules", "anchors": ["calib_data.go:45-176", "calib_data.go:178-192", "calib_data.go:482-707", "record_manager.go:45-101", "compu_methods.go:11-190", "a2l/a2l.go:28-131"]}
{"id": "C81", "title": "Exactly what is read from any Intel HEX file", "statement": "Whatever an Intel HEX file contains: its lines (ended by CR LF if that occurs, otherwise by LF) are divided among the CPUs, each reads its long lines up to the first that is no record; the read fails with a checksum error exactly if the bytes of some line read do not add up to 0; otherwise the map holds exactly the bytes the lines read say, at the addresses the last extended linear address record read by some CPU in front of them says, or there is a collision error at the first address repeated. No character of a record other than its bytes matters.", "quantifier": "every text, every number of CPUs, every schedule", "why_tests_cant": "the input is an arbitrary text; the reader has an exact meaning for every one", "anchors": ["ihex32/hex.go:20-278", "ihex32/record.go:20-207"]}
{"id": "C82", "title": "Exactly what is read from any S19 file", "statement": "Whatever an S-record file contains: the lines are divided among the CPUs, each reads its long lines up to the first that is no S3 line; the read fails with a checksum error exactly if the bytes of some line read do not add up to 255; otherwise the map holds exactly the data bytes of the lines read at their addresses modulo 2^32, or there is a collision error at the first address repeated. No character of a record other than its bytes matters.", "quantifier": "every text, every number of CPUs, every schedule", "why_tests_cant": "the input is an arbitrary text; the reader has an exact meaning for every one", "anchors": ["srec19/hex.go:20-267", "srec19/record.go:20-164"]}
{"id": "C83", "title": "The mutexes of the Intel HEX records work", "statement": "When the goroutines of addOffsets share the records of a file, and every access to a record is a step of its own (with writes that can be seen half done), no schedule has a data race, every Unlock is of a locked mutex, nothing deadlocks, main reads the records only after the last writer has ended, and the results of the whole reader are those of a reader whose loop iterations are atomic.", "quantifier": "every text, every list of records, every number of CPUs, every schedule of single accesses", "why_tests_cant": "races show up only under rare schedules; the race detector sees only the schedules that were run", "anchors": ["ihex32/record.go:56-81", "ihex32/hex.go:133-170"]}
{"id": "C84", "title": "Reading several A2L files in one program", "statement": "The tokens, the module count and the choice of the parser are package variables. Calls of ParseFromFile one after the other do not influence each other: whatever the variables hold before, each call can return exactly what it could return in a fresh program, and no call gets stuck. Calls at the same time should not influence each other either.", "quantifier": "every list of files (readable or not), every initial value of the package variables, every number of CPUs, every schedule of the calls and of the goroutines they start", "why_tests_cant": "leftovers of an earlier call show up only for particular pairs of files; overlapping calls fail only under some schedules", "anchors": ["a2l/token_generator.go:14-98", "a2l/a2l.go:18-85"]}
{"id": "C85", "title": "Exactly which tokens are read from any A2L file", "statement": "Whatever a file contains, the words of the lines of each goroutine are read in exactly one way, described by classes of words (ordinary words, texts, comments, line comments, two-word tokens, stray words) and by where each construct ends; the parser gets the tokens of all parts in order, an empty token at the end, and the information whether there is at most one module.", "quantifier": "every content of the file, every number of CPUs, every schedule", "why_tests_cant": "the input is an arbitrary text; the tokenizer has an exact meaning for every one, also for texts that follow no grammar", "anchors": ["a2l/token_generator.go:43-349", "a2l/a2l.go:133-170"]}
{"id": "C86", "title": "Nothing in the parsed tree is invented", "statement": "Whatever an A2L file contains, every text, number and flag in the returned tree comes from the file, also if reading ends with an error: texts are tokens of the file (or tokens joined by spaces, or empty, or the default DIRECT), numbers are what tokens denote, flags are only ever set, and objects are filed under their own names. What a parser returns comes only from the tokens between its first and its last one. Every object of a module stands in the file between its begin and its end keyword, whatever the order in which the goroutines deliver the objects.", "quantifier": "every content of the file, every number of CPUs, every schedule, each of the 209 parsers, with or without an error", "why_tests_cant": "values could be left over from other objects or made up only for particular inputs; the statement is about all inputs, also those that follow no grammar", "anchors": ["a2l/module.go:12-1005", "a2l/project.go:18-68", "a2l/a2l.go:55-131", "a2l/token_generator.go:21-41"]}
{"id": "C87", "title": "Numbers in an A2L file are read as the nearest float64", "statement": "A decimal number with sign, point and exponent in any combination (or a hexadecimal one with a binary exponent) is read as the float64 nearest to it, in a tie as the one with the even mantissa; integers below 2^53 and all numbers that are float64 are read exactly; numbers that would round to 2^1024 or more are errors. Nothing else is a number except the words inf, infinity and nan; no keyword is a number. Every float anywhere in the tree of a file that is read without an error is the float64 for a number in the file.", "quantifier": "every text of a number with any number of digits and an exponent below 100000, every content of a file, each of the 209 parsers", "why_tests_cant": "there are infinitely many numerals; wrong rounding shows only next to the middle of two float64, with hundreds of digits", "anchors": ["a2l/coeffs.go:25-103", "a2l/measurement.go:51-290", "a2l/characteristic.go:61-343", "a2l/axis_descr.go:86-262"]}
{"id": "C88", "title": "Exactly what an A2L object is read as", "statement": "An object is read without an error if and only if the tokens from its keyword on have its form, and then the object is determined by the tokens: objects without an end keyword have exactly their parameters; in objects with an end keyword the words that are no keywords are stored, in their order, as the parameters, further words are appended to the repeated parameter or skipped, keywords of this kind of object with their objects may stand anywhere between them, the last of several single objects counts, and the first end keyword ends the object. A file is read without an error if and only if it consists of version numbers, projects and words that are no keywords. With several goroutines, every object of the module is read in the same way, in whatever order they are delivered.", "quantifier": "every list of tokens, every start position, 182 of the 209 parsers, every number of goroutines and schedule", "why_tests_cant": "parameters and optional keywords can be mixed in infinitely many ways, also in ways the standard forbids; a test shows single well-written files", "anchors": ["a2l/measurement.go:51-290", "a2l/characteristic.go:61-343", "a2l/group.go:23-105", "a2l/record_layout.go:70-480", "a2l/module.go:12-1005", "a2l/a2l.go:87-131"]}
{"id": "C89", "title": "Exactly what tables and other irregular A2L objects are read as", "statement": "The nine kinds of objects that do not follow the common rules are read without an error if and only if the tokens have the form given for them, which determines the object: conversion tables are their parameters, the announced number of rows (0 meaning 65536) of which only the first word is checked, and words that are skipped; VAR_FORBIDDEN_COMB is any number of pairs; MEMORY_LAYOUT its parameters in turn; in OVERWRITE two keywords are stored themselves; in VARIANT_CODING the first word stands for VAR_SEPARATOR; in FRAME every word is the name, and the end of the file ends it; in BIT_OPERATION an object makes up for unexpected keywords before it. Hence every object, module and file is read exactly as the rules say, without reference to a parser. The columns of a conversion table are always equally long, never longer than announced, and flagged as set if and only if they are complete.", "quantifier": "every list of tokens, every start position, all 191 parsers of objects, every number of goroutines and schedule", "why_tests_cant": "infinitely many token lists, including truncated tables, keywords as cells and counts up to 65536", "anchors": ["a2l/compu_tab.go:27-111", "a2l/compu_vtab.go:26-98", "a2l/compu_vtab_range.go:26-103", "a2l/var_forbidden_comb.go:16-48", "a2l/memory_layout.go:22-78", "a2l/overwrite.go:24-100", "a2l/variant_coding.go:18-81", "a2l/frame.go:23-76", "a2l/bit_operation.go:22-63"]}
{"id": "C90", "title": "Conversions with any A2L file that is read without an error", "statement": "If a file is read without an error and the chosen module exists, then no numeric conversion (convDecToPhy) and no look-up in a COMPU_VTAB panics, whatever method, table name and value is asked for. A look-up in a table gives the output of the first row whose input equals the value, or the default, or an error; a table that has fewer rows than announced counts as empty. In a table of ranges the row that contains the value is found.", "quantifier": "every file content, number of goroutines and schedule, every module index in range, every method, table and value (NaN and infinities included)", "why_tests_cant": "infinitely many files, among them ones with truncated tables, and all float64 values", "anchors": ["compu_methods.go:11-114", "compu_methods.go:164-193", "a2l/compu_tab.go:27-111", "a2l/compu_vtab.go:26-98", "a2l/compu_vtab_range.go:26-103", "a2l/project.go:22-66"]}
{"id": "C91", "title": "What is found under a name, in any A2L file that is read without an error", "statement": "Module n of the tree is the n-th module of the last project of the file. In a file that is parsed by one goroutine, GetObjectByIdent finds under a name exactly the last object of each of the eleven kinds that is called so in the chosen module, and the last such system constant of the last MOD_PAR, each once and in a fixed order of the kinds; an object is called by the word after its keyword (unless this is a keyword, in which case the name is the first word of the object that is none, or empty). However many goroutines parse, whatever is found stands in the file and has this name. Every object is found under its name.", "quantifier": "every file content that is read without an error, every module, every name; C91_found: every number of goroutines and schedule", "why_tests_cant": "infinitely many files, including ones that do not follow the grammar: names given twice, missing names, keywords as names, several MOD_PARs or projects", "anchors": ["record_manager.go:45-101", "a2l/module.go:12-1005", "a2l/project.go:22-66", "a2l/a2l.go:87-131", "a2l/mod_par.go:1-178", "a2l/system_constant.go:9-42"]}
{"id": "C92", "title": "The values of a characteristic, with any two files", "statement": "If ReadCalibration returns without an error, then getValuesFromHex delivers the values of every characteristic of the chosen module whose record layout is in the module, and does not panic. The address and the name of the record layout are the fourth and the fifth word after the keyword of the characteristic (if the first five are no keywords).", "quantifier": "every content of both files, every number of goroutines and schedule, every module, characteristic and record layout", "why_tests_cant": "infinitely many files, also ones that do not follow the grammar", "anchors": ["calib_data.go:178-192", "calib_data.go:503-707", "record_manager.go:104-132", "characteristic_values.go:9-47", "a2l/record_layout.go:70-480", "a2l/characteristic.go:61-343"]}
{"id": "C93", "title": "Parsers return values of their declared types", "statement": "Whatever the tokens are, every parser that returns returns a value of the Go type declared for its result, with or without an error: only declared fields, each of the declared kind, and numbers within the range of the field's type, so that no conversion of a parsed number to a smaller type loses anything. No local variable is used before it has a value. The same holds for modules (parsed sequentially or by goroutines in any order) and for the A2L tree of any file.", "quantifier": "all 209 parsers, all token lists and positions, every way of reading numbers, every file, number of CPUs and schedule, every outcome", "why_tests_cant": "conversions such as uint16(buf) are silent when they lose bits; a test sees only the numbers it contains, and a missing range check shows only for numbers above a bound", "anchors": ["a2l/a2l.go:28-34", "a2l/module.go", "a2l/max_refresh.go", "a2l/token_generator.go"]}
{"id": "C94", "title": "The hash map of an A2L tree", "statement": "toHashMap makes a map of all structs and their values of the tree: it has an entry for every place of the tree with the value that is there, and nothing else, and it fails for no file that is read without an error.", "quantifier": "every file, every tree that is read from one, every place in it", "why_tests_cant": "there are infinitely many trees, and a lost or changed entry is not noticed by comparing a few of them", "anchors": ["a2l/a2l.go:36-52"]}
{"id": "C95", "title": "Goroutines, channels and wait groups of the parallel module parser", "statement": "While a module is parsed by several goroutines, no goroutine sends on a closed channel, closes one twice or lowers a wait group below zero, and no two goroutines touch the same field of the module at a time with one of them writing. Every call ends, after a number of steps that depends only on the number of values that are sent; when it returns, every goroutine that it has started has ended and every channel is closed and empty. It returns what the simpler machine of C48 returns, and can return whatever that machine can.", "quantifier": "all token lists, every number of goroutines, every schedule, every point of it", "why_tests_cant": "the order of the goroutines is chosen by the scheduler; a lost Done, a wrong count or a race shows only in some of the astronomically many orders", "anchors": ["a2l/module.go:401-450", "a2l/module.go:455-660", "a2l/module.go:666-706", "a2l/module.go:708-1005"]}
{"id": "C96", "title": "No goroutine of the readers stays behind", "statement": "Every goroutine that reading a hex file or tokenizing an A2L file starts ends by itself: when the reader returns, early because of an error or not, none of them waits for ever on a channel that nobody reads any more.", "quantifier": "all texts, every number of goroutines, every schedule", "why_tests_cant": "a goroutine that stays behind changes no result; it costs memory only, and whether it stays depends on how the lines are divided among the goroutines", "anchors": ["ihex32/hex.go:114-202", "ihex32/record.go:153-168", "srec19/hex.go:113-190", "srec19/record.go:121-136", "a2l/token_generator.go"]}
{"id": "C97", "title": "The same memory in other records", "statement": "What is read from a hex file depends only on the bytes that it puts at addresses: another cut into records, another order of the records or segments, another one of the two formats give the same map, or a collision error in all cases, and the calibration data of the whole call cannot be told apart.", "quantifier": "all pairs of well-formed files with the same bytes, every number of goroutines on each side, every schedule", "why_tests_cant": "the record layouts of one memory are exponentially many and interact with the shares of the goroutines; a test compares a few files", "anchors": ["ihex32/hex.go", "ihex32/record.go", "srec19/hex.go", "srec19/record.go", "calib_data.go"]}
{"id": "C98", "title": "The order of the objects in a module", "statement": "Two A2L files whose modules contain the same objects in another order, no two objects of one kind having the same name, give calibration data that no function of the package tells apart: lookups, constants, conversions, record layouts and values from the hex file are the same.", "quantifier": "all pairs of readable A2L files with permuted objects, all pairs of hex files of the same memory in either format, every number of CPUs on each side, every schedule", "why_tests_cant": "n objects have n! orders, and the shares of the goroutines begin at other objects in each; a test compares a few", "anchors": ["a2l/module.go", "a2l/a2l.go", "calib_data.go", "compu_methods.go", "characteristic_values.go"]}
{"id": "C99", "title": "The layout of an A2L file", "statement": "What the package returns for an A2L file does not depend on its layout: line breaks, line ends, white space, comments, a byte order mark and blank lines around the text change nothing; with C97 and C98, two pairs of files that say the same in different layout, order and records give calibration data that no function tells apart.", "quantifier": "all texts with the same tokens whose lines consist of complete constructs, every hex file, every number of CPUs, every schedule", "why_tests_cant": "the layouts of one file are unboundedly many and decide where the shares of the goroutines begin; a test fixes a few", "anchors": ["a2l/token_generator.go", "a2l/a2l.go", "calib_data.go"]}
{"id": "C100", "title": "A hex file that breaks off", "statement": "A hex file of valid records that breaks off at any character (an interrupted copy) is refused with an error; at least no byte of what is returned is wrong: it is a beginning of the file's memory image.", "quantifier": "every valid Intel HEX or S19 file, every place at which it breaks off, both line ends, every number of CPUs, every schedule", "why_tests_cant": "every character of every file is a place to break off; whether a rest of a record adds up depends on its bytes, which a test fixes", "anchors": ["ihex32/hex.go", "ihex32/record.go", "srec19/hex.go", "srec19/record.go"]}
{"id": "C101", "title": "An A2L file that breaks off", "statement": "An A2L file that breaks off (an interrupted copy) is never read as a complete one: it is refused with an error, by a2l.ParseFromFile and by ReadCalibration.", "quantifier": "every A2L text in any layout, every place at which it breaks off (between tokens, within a keyword, a text or a comment of the last line), every hex file beside it, every number of CPUs, every schedule", "why_tests_cant": "every character of every file is a place to break off; which goroutine meets the torn line, and what it makes of it, depends on the number of CPUs and the length of the file", "anchors": ["a2l/a2l.go:ParseFromFile", "a2l/a2l.go:parseA2l", "a2l/project.go:parseProject", "a2l/token_generator.go", "calib_data.go:ReadCalibration"]}
{"id": "C102", "title": "Hex files put together", "statement": "A hex file made by putting one hex file after another is read as the memory of both, or refused with an error if both have a byte for the same address; no byte of either is lost or moved.", "quantifier": "every two valid Intel HEX files or S19 files, both line ends, every number of CPUs for each of the three reads, every schedule", "why_tests_cant": "the bytes of two files at the same addresses, the upper half that the first one leaves behind and the part of the text that each goroutine gets depend on all records of both files", "anchors": ["ihex32/hex.go", "ihex32/record.go:addOffsets", "srec19/hex.go", "srec19/record.go:parseRecordRoutine"]}
{"id": "C103", "title": "Other bytes in one record", "statement": "If one data record of a valid hex file gets other bytes (as many, fewer or more, with the checksum for them), the memory that is read changes at the addresses of this record as written and nowhere else; it is refused only if one of the new addresses is in use.", "quantifier": "every valid Intel HEX or S19 file, every data record of it, all new bytes, both line ends, letter cases, every number of CPUs before and after, every schedule", "why_tests_cant": "that nothing else changes is a statement about all other addresses, in all files; a longer record moves the lines that each goroutine gets", "anchors": ["ihex32/hex.go", "ihex32/record.go:addOffsets", "ihex32/record.go:calcDataEntries", "srec19/hex.go", "srec19/record.go:calcDataEntries"]}
{"id": "C104", "title": "One record more or less", "statement": "If a data record is put into a valid hex file, its bytes come to the memory that was read without it and nothing else changes; it is refused exactly if one of its addresses is in use. If a data record is taken out, the memory is as before without its bytes, never an error.", "quantifier": "every valid Intel HEX or S19 file, every data record and place in it, both line ends, letter cases, every number of CPUs before and after, every schedule", "why_tests_cant": "that nothing else changes is a statement about all other addresses, in all files; one line more moves the lines that each goroutine gets", "anchors": ["ihex32/hex.go", "ihex32/record.go:addOffsets", "ihex32/record.go:calcDataEntries", "srec19/hex.go", "srec19/record.go:calcDataEntries"]}
{"id": "C105", "title": "Some objects of a module changed", "statement": "If some objects of a module are taken out of an A2L file, put in or replaced by others, every function of the package gives the result it gave before, except where one of these objects is asked for: by its name, by a conversion method or characteristic that refers to it, or, for MOD_PAR and MOD_COMMON, for system constants and values.", "quantifier": "every two A2L files, every module and place in it, any number of objects of any kinds, every number of CPUs, every schedule, the hex file in any records", "why_tests_cant": "that nothing else changes is a statement about all names, all conversions and all values, in all files; one object more moves the borders between the goroutines", "anchors": ["a2l/module.go:parseModule", "a2l/module.go:parseModuleMultithreaded", "record_manager.go:GetObjectByIdent", "compu_methods.go", "calib_data.go:getValuesFromHex"]}
