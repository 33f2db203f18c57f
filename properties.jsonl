{"id": "C01", "title": "Fixed-width integer decoding is exact", "statement": "byteconv.bytesToUnsignedChar / bytesToUShortInt / bytesToUInt / bytesToULongLong return the big-endian value of their argument whenever it has exactly 1 / 2 / 4 / 8 bytes, and -9999 for every other length. Hence decoding is injective per width, the result always lies in [0, 2^(8n)-1] or is -9999, and -9999 is returned iff the length is wrong.", "quantifier": "every byte string of every length", "why_tests_cant": "8-byte domain has 2^64 members; lengths unbounded", "anchors": ["jpylyzer/byteconv.py:_doConv", "jpylyzer/byteconv.py:bytesToULongLong", "jpylyzer/byteconv.py:bytesToUInt", "jpylyzer/byteconv.py:bytesToUShortInt", "jpylyzer/byteconv.py:bytesToUnsignedChar"]}
{"id": "C02", "title": "Signed byte decoding", "statement": "byteconv.bytesToSignedChar returns the two's-complement value of a one-byte argument (in [-128,127]) and -9999 for any other length; it agrees with bytesToUnsignedChar modulo 256.", "quantifier": "every byte string", "why_tests_cant": "all lengths", "anchors": ["jpylyzer/byteconv.py:bytesToSignedChar"]}
{"id": "C03", "title": "Arbitrary-length integer decoding", "statement": "byteconv.bytesToInteger returns the big-endian value of any non-empty byte string (never -9999, always in [0,256^n)), is -9999 exactly for the empty string, and agrees with the fixed-width decoders on 1, 2, 4 and 8 bytes.", "quantifier": "every byte string", "why_tests_cant": "unbounded length", "anchors": ["jpylyzer/byteconv.py:bytesToInteger"]}
{"id": "C04", "title": "Text decoding is exact and clean", "statement": "byteconv.bytesToText returns the strict UTF-8 decoding of its argument with all category-C characters other than tab, LF and CR removed; if the argument is not well-formed UTF-8 it returns the empty string. The result never contains a control character, and for a control-free string s, bytesToText(encode(s)) = s.", "quantifier": "every byte string and every Unicode string", "why_tests_cant": "all strings", "anchors": ["jpylyzer/byteconv.py:bytesToText", "jpylyzer/byteconv.py:removeControlCharacters"]}
{"id": "C05", "title": "Control-character filter", "statement": "removeControlCharacters keeps exactly the characters that are not category C or are tab/LF/CR, in order (it is a subsequence), is idempotent, and distributes over concatenation; containsControlCharacters(b) is True iff some byte of b is below 32 or equal to 127.", "quantifier": "every Unicode string, every assignment of Unicode categories", "why_tests_cant": "unbounded strings", "anchors": ["jpylyzer/byteconv.py:removeControlCharacters", "jpylyzer/byteconv.py:containsControlCharacters"]}
{"id": "C06", "title": "Trailing NUL removal", "statement": "removeNullTerminator returns the longest prefix of its argument that does not end in a NUL byte: the argument is the result followed by zero or more NULs only.", "quantifier": "every byte string", "why_tests_cant": "unbounded strings", "anchors": ["jpylyzer/byteconv.py:removeNullTerminator"]}
{"id": "C07", "title": "Hex rendering is lossless", "statement": "byteconv.bytesToHex yields two lower-case hex digits per byte, and is injective.", "quantifier": "every byte string", "why_tests_cant": "unbounded strings", "anchors": ["jpylyzer/byteconv.py:bytesToHex"]}
{"id": "C08", "title": "Contiguity of repeated boxes", "statement": "shared.listOccurrencesAreContiguous(l, v) is True iff the positions at which v occurs form one uninterrupted run (vacuously true if v does not occur).", "quantifier": "every list and value", "why_tests_cant": "unbounded lists", "anchors": ["jpylyzer/shared.py:listOccurrencesAreContiguous"]}
{"id": "C09", "title": "Surrogate stripping makes names encodable", "statement": "jpylyzer.stripSurrogatePairs returns a string of the same length that is UTF-8 encodable, differs from the input only at surrogate code points (each replaced by '?'), and is the identity on encodable strings.", "quantifier": "every Python string (code points 0..0x10FFFF incl. surrogates)", "why_tests_cant": "unbounded strings", "anchors": ["jpylyzer/jpylyzer.py:stripSurrogatePairs"]}
{"id": "C10", "title": "Verdict equals absence of failed tests", "statement": "For every box, marker segment, file or codestream validated without an exception, isValid is True iff no leaf in the tests tree is False; nested boxes included: a failed test at any depth makes the file invalid.", "quantifier": "every byte sequence, every option setting, every nesting depth", "why_tests_cant": "every input and nesting", "anchors": ["jpylyzer/boxvalidator.py:BoxValidator._isValid", "jpylyzer/boxvalidator.py:BoxValidator._getBox"]}
{"id": "C11", "title": "Verbosity does not affect the verdict or the properties", "statement": "Running with verboseFlag=True or False on the same bytes gives the same isValid, the same properties and the same warnings, and the non-verbose tests tree is the verbose one with all True leaves and then-empty containers removed.", "quantifier": "every byte sequence and format", "why_tests_cant": "2-run relation over every input", "anchors": ["jpylyzer/boxvalidator.py:BoxValidator.testFor", "jpylyzer/boxvalidator.py:BoxValidator._getBox"]}
{"id": "C12", "title": "nullxml and packetmarkers flags do not affect the verdict", "statement": "The nullxmlFlag / packetmarkersFlag options never change isValid, the tests tree, or any property outside xmlBox/uuidBox content and the plt/ppt/plm/ppm elements.", "quantifier": "every byte sequence and format, all flag values", "why_tests_cant": "2-run relation over every input", "anchors": ["jpylyzer/boxvalidator.py:BoxValidator.validate_xmlBox", "jpylyzer/boxvalidator.py:BoxValidator.validate_uuidBox", "jpylyzer/boxvalidator.py:BoxValidator.validate_contiguousCodestreamBox", "jpylyzer/boxvalidator.py:BoxValidator.validate_tilePart"]}
{"id": "C13", "title": "Analysis of arbitrary bytes terminates (box level)", "statement": "The box-walking loops of the file root and of every superbox always terminate, after at most one iteration per 1 byte of content, whatever the length fields say.", "quantifier": "every byte sequence", "why_tests_cant": "adversarial lengths", "anchors": ["jpylyzer/boxvalidator.py:BoxValidator.validate_JP2", "jpylyzer/boxvalidator.py:BoxValidator.validate_jp2HeaderBox", "jpylyzer/boxvalidator.py:BoxValidator._getBox"]}
{"id": "C14", "title": "Main-header and tile-part-header marker loops terminate", "statement": "The marker-segment loops of the codestream main header and of each tile-part header always terminate.", "quantifier": "every byte sequence", "why_tests_cant": "adversarial segment lengths", "anchors": ["jpylyzer/boxvalidator.py:BoxValidator.validate_contiguousCodestreamBox", "jpylyzer/boxvalidator.py:BoxValidator.validate_tilePart", "jpylyzer/boxvalidator.py:BoxValidator._getMarkerSegment"]}
{"id": "C15", "title": "Tile-part loop terminates", "statement": "The loop over tile parts terminates on every codestream. (False of the code: a tile part with unreadable psot moves the offset back 9999 bytes.) It does terminate whenever no SOT segment with a readable isot has an unreadable psot.", "quantifier": "every byte sequence", "why_tests_cant": "needs an adversarial 10 kB file and an unbounded run", "anchors": ["jpylyzer/boxvalidator.py:BoxValidator.validate_contiguousCodestreamBox", "jpylyzer/boxvalidator.py:BoxValidator.validate_tilePart"]}
{"id": "C16", "title": "Packet-length parsing terminates", "statement": "Parsing a PLT/PLM segment terminates for every content. (False of the code when the last length byte has its continuation bit set.) It terminates exactly when the last byte has the continuation bit clear, or the content is exhausted before the first entry.", "quantifier": "every byte sequence", "why_tests_cant": "non-termination cannot be observed by a test", "anchors": ["jpylyzer/boxvalidator.py:BoxValidator._parse_ipl", "jpylyzer/boxvalidator.py:BoxValidator.validate_plt", "jpylyzer/boxvalidator.py:BoxValidator.validate_plm"]}
{"id": "C17", "title": "Packet-length decoding is exact", "statement": "Packet lengths encoded in 7-bit groups are decoded to their exact values. (False of the code for entries of 3 or more bytes.) It holds for all sequences of one- and two-byte entries.", "quantifier": "every sequence of packet lengths", "why_tests_cant": "unbounded sequences", "anchors": ["jpylyzer/boxvalidator.py:BoxValidator._parse_ipl"]}
{"id": "C18", "title": "Box splitting is faithful", "statement": "For any sequence of boxes serialised with a 4-byte length, an 8-byte extended length, or (last one only) length 0, the file-root and superbox walk visits exactly those boxes, in order, with exactly those types and contents.", "quantifier": "every list of boxes, every mix of header forms", "why_tests_cant": "unbounded lists of boxes", "anchors": ["jpylyzer/boxvalidator.py:BoxValidator._getBox", "jpylyzer/boxvalidator.py:BoxValidator.validate_JP2", "jpylyzer/boxvalidator.py:BoxValidator.validate_jp2HeaderBox"]}
{"id": "C19", "title": "Marker-segment splitting is faithful", "statement": "For any main header made of marker segments (marker, 2-byte length, payload), the codestream walk visits exactly those segments with exactly those payloads, up to the first SOT/EOC.", "quantifier": "every list of segments", "why_tests_cant": "unbounded lists of segments", "anchors": ["jpylyzer/boxvalidator.py:BoxValidator._getMarkerSegment", "jpylyzer/boxvalidator.py:BoxValidator.validate_contiguousCodestreamBox"]}
{"id": "C20", "title": "checkOneFile never raises for mixFlag = 0", "statement": "For every file content and option setting with mixFlag 0, checkOneFile returns an element with statusInfo, isValid, tests, properties (unless it loops forever); success False implies isValid False.", "quantifier": "every byte sequence, option setting and recursion limit", "why_tests_cant": "every input and every exception point", "anchors": ["jpylyzer/jpylyzer.py:checkOneFile"]}
{"id": "C21", "title": "The properties tree of a failed analysis is empty", "statement": "If any exception is raised during validation, the result carries success=False, isValid False, one of the documented failure messages, and empty tests/properties.", "quantifier": "every exception at every point", "why_tests_cant": "every exception point", "anchors": ["jpylyzer/jpylyzer.py:checkOneFile"]}
{"id": "C22", "title": "Malformed content never aborts the analysis", "statement": "Validation never raises, i.e. success is True for every byte sequence. (False of the code: enumerated exceptions.) The exceptions that can occur are exactly TypeError, ValueError, ZeroDivisionError, UnboundLocalError and RecursionError, and none occurs if the listed triggers are absent.", "quantifier": "every byte sequence", "why_tests_cant": "every malformed input", "anchors": ["jpylyzer/boxvalidator.py:BoxValidator.validate", "jpylyzer/boxvalidator.py:BoxValidator.validate_siz", "jpylyzer/boxvalidator.py:BoxValidator.validate_captureResolutionBox", "jpylyzer/boxvalidator.py:BoxValidator.validate_uuidBox"]}
{"id": "C23", "title": "Signature, file-type box validity", "statement": "A JPEG 2000 Signature box passes iff its content is the 4 bytes 0D 0A 87 0A; a File Type box passes (JP2) iff brand is 'jp2 ', minor version is 0 and the compatibility list contains 'jp2 ' (analogously 'jph ' for JPH).", "quantifier": "every box content", "why_tests_cant": "all contents", "anchors": ["jpylyzer/boxvalidator.py:BoxValidator.validate_signatureBox", "jpylyzer/boxvalidator.py:BoxValidator.validate_fileTypeBox"]}
{"id": "C24", "title": "Image Header box validity", "statement": "An Image Header box passes iff it is 14 bytes with height,width in [1,2^32-1], nC in [1,16384], bPC as documented ((bPC&127)+1 in [1,38] or bPC = 255), c = 7, unkC, iPR in {0,1}. (The bPC clause is false of the code: every value passes.)", "quantifier": "every box content", "why_tests_cant": "all contents", "anchors": ["jpylyzer/boxvalidator.py:BoxValidator.validate_imageHeaderBox"]}
{"id": "C25", "title": "Bits Per Component box validity", "statement": "A bits-per-component box passes iff every byte b of it has (b & 127)+1 in [1,38]; the reported signs and depths are those of the bytes, in order.", "quantifier": "every box content", "why_tests_cant": "unbounded contents", "anchors": ["jpylyzer/boxvalidator.py:BoxValidator.validate_bitsPerComponentBox"]}
{"id": "C26", "title": "Colour specification box validity", "statement": "A colour specification box passes iff meth is 1 or 2 (JP2) or one of 1, 2, 3, 5 (JPH), prec = 0, approx = 0, and: for meth 1 the rest of the box is a 4-byte enumCS in {16,17,18}; for meth 2 the declared profile size is the number of bytes present, the profile class is 'scnr' or 'mntr', and none of the (at most 4096) tag signatures is 'A2B0'; for meth 5 (JPH) the three parameters are in their documented sets. The reported properties, including all fields of the ICC header, are the decoded fields.", "quantifier": "every box content", "why_tests_cant": "all contents", "anchors": ["jpylyzer/boxvalidator.py:BoxValidator.validate_colourSpecificationBox", "jpylyzer/boxvalidator.py:BoxValidator.validate_icc"]}
{"id": "C27", "title": "Palette, component mapping and channel definition boxes", "statement": "The palette / component-mapping / channel-definition boxes pass iff all documented range conditions hold of the decoded fields, and the reported entries are exactly the decoded fields in order. (Channel definition: the association-range test is false of the code, which tests the type field twice.)", "quantifier": "every box content", "why_tests_cant": "unbounded contents", "anchors": ["jpylyzer/boxvalidator.py:BoxValidator.validate_paletteBox", "jpylyzer/boxvalidator.py:BoxValidator.validate_componentMappingBox", "jpylyzer/boxvalidator.py:BoxValidator.validate_channelDefinitionBox"]}
{"id": "C28", "title": "Resolution values", "statement": "The capture/display resolution reported in x/y direction is the correctly rounded numerator/denominator*10^exponent pipeline, and inch values derive from it; a zero denominator must be reported as a failed test. (False of the code: it aborts the analysis.)", "quantifier": "every box content", "why_tests_cant": "all 2^80 contents", "anchors": ["jpylyzer/boxvalidator.py:BoxValidator.validate_captureResolutionBox", "jpylyzer/boxvalidator.py:BoxValidator.validate_displayResolutionBox"]}
{"id": "C29", "title": "JP2 Header superbox validity", "statement": "A JP2 Header box passes iff it contains at least one Image Header and one Colour Specification box, the first box is the Image Header box, at most one of ihdr/bpcc/pclr/cmap/cdef/res, colr boxes are contiguous, bpcc is present when bPC=255, pclr present iff cmap present, and every child passes.", "quantifier": "every list of child boxes", "why_tests_cant": "unbounded lists", "anchors": ["jpylyzer/boxvalidator.py:BoxValidator.validate_jp2HeaderBox"]}
{"id": "C30", "title": "SIZ marker validity and image/tile geometry", "statement": "A SIZ segment that passes has all fields in the documented ranges and lsiz = 38+3*csiz; the reported component depths/subsamplings are the decoded ones; numberOfTiles equals ceil((xsiz-xTOsiz)/xTsiz)*ceil((ysiz-yTOsiz)/yTsiz) exactly, in spite of floating-point division.", "quantifier": "all 2^320 field values", "why_tests_cant": "all field values, float rounding", "anchors": ["jpylyzer/boxvalidator.py:BoxValidator.validate_siz"]}
{"id": "C31", "title": "COD/COC validity", "statement": "COD and COC segments pass iff all documented range and consistency conditions hold (including the segment-length equation and precinct sizes per resolution level).", "quantifier": "every segment content, every csiz", "why_tests_cant": "all contents", "anchors": ["jpylyzer/boxvalidator.py:BoxValidator.validate_cod", "jpylyzer/boxvalidator.py:BoxValidator.validate_coc"]}
{"id": "C32", "title": "QCD/QCC/RGN/POC/CRG validity", "statement": "QCD, QCC, RGN, POC, CRG segments pass iff all documented conditions hold of the decoded fields. The reported step sizes are the ones coded. (The last clause is false of the code for QCD, which shows only some of the sub-bands, and for QCC, which reads the steps one byte early.)", "quantifier": "every segment content, every csiz", "why_tests_cant": "all contents", "anchors": ["jpylyzer/boxvalidator.py:BoxValidator.validate_qcd", "jpylyzer/boxvalidator.py:BoxValidator.validate_qcc", "jpylyzer/boxvalidator.py:BoxValidator.validate_rgn", "jpylyzer/boxvalidator.py:BoxValidator.validate_poc", "jpylyzer/boxvalidator.py:BoxValidator.validate_crg"]}
{"id": "C33", "title": "COM/CAP/PRF/CPF validity", "statement": "Comment segments pass iff lcom in range, rcom in {0,1} and (rcom=1) the comment has no control characters; CAP/PRF/CPF pass iff the documented conditions hold. (PRF/CPF: last-entry-nonzero condition is false of the code.)", "quantifier": "every segment content", "why_tests_cant": "all contents", "anchors": ["jpylyzer/boxvalidator.py:BoxValidator.validate_com", "jpylyzer/boxvalidator.py:BoxValidator.validate_cap", "jpylyzer/boxvalidator.py:BoxValidator.validate_prf", "jpylyzer/boxvalidator.py:BoxValidator.validate_cpf"]}
{"id": "C34", "title": "SOT validity", "statement": "An SOT segment passes iff lsot = 10, isot in [0,65534], psot not in [1,13], tpsot in [0,254]; fields reported as decoded.", "quantifier": "every segment content", "why_tests_cant": "all contents", "anchors": ["jpylyzer/boxvalidator.py:BoxValidator.validate_sot"]}
{"id": "C35", "title": "Component-indexed fields switch width at csiz = 257", "statement": "In COC, QCC, RGN and POC the component index is read with one byte when csiz < 257 and two bytes otherwise, and later fields shift accordingly.", "quantifier": "every csiz in [1,16384] and content", "why_tests_cant": "all csiz", "anchors": ["jpylyzer/boxvalidator.py:BoxValidator.validate_coc", "jpylyzer/boxvalidator.py:BoxValidator.validate_qcc", "jpylyzer/boxvalidator.py:BoxValidator.validate_rgn", "jpylyzer/boxvalidator.py:BoxValidator.validate_poc"]}
{"id": "C36", "title": "A valid JP2 has the required box structure", "statement": "If checkOneFile reports isValid=True for format jp2, the file's root boxes start with a Signature box then a File Type box, contain exactly one JP2 Header box located before the first codestream box, exactly one Signature and File Type box, and at least one codestream.", "quantifier": "every byte sequence", "why_tests_cant": "soundness over every input", "anchors": ["jpylyzer/boxvalidator.py:BoxValidator.validate_JP2"]}
{"id": "C37", "title": "A valid JP2 is consistent between header and codestream", "statement": "If isValid=True then height = ysiz-yOsiz, width = xsiz-xOsiz, nC = csiz and the per-component sign/depth of ihdr or bpcc equal those of the SIZ segment.", "quantifier": "every byte sequence", "why_tests_cant": "soundness over every input", "anchors": ["jpylyzer/boxvalidator.py:BoxValidator.validate_JP2"]}
{"id": "C38", "title": "A valid codestream has the required marker structure", "statement": "If a codestream is reported valid, it starts with SOC, SIZ; its main header has COD and QCD; it ends with EOC; every tile-part header ends with SOD; and the number of distinct tile indices found equals the number of tiles in SIZ (or 65535, if SIZ gives more).", "quantifier": "every byte sequence", "why_tests_cant": "soundness over every input", "anchors": ["jpylyzer/boxvalidator.py:BoxValidator.validate_contiguousCodestreamBox", "jpylyzer/boxvalidator.py:BoxValidator.validate_tilePart"]}
{"id": "C39", "title": "Tile-part chaining", "statement": "In a valid codestream each tile part's psot leads exactly to the next SOT marker or to EOC.", "quantifier": "every byte sequence", "why_tests_cant": "soundness over every input", "anchors": ["jpylyzer/boxvalidator.py:BoxValidator.validate_tilePart"]}
{"id": "C40", "title": "Truncation is detected", "statement": "If a codestream or JP2 is valid and its last tile part has nonzero psot, every proper prefix of the codestream is invalid. (False of the code if something follows the EOC marker that ends in another EOC marker.)", "quantifier": "every valid file and every truncation point", "why_tests_cant": "every cut position of every file", "anchors": ["jpylyzer/boxvalidator.py:BoxValidator.validate_contiguousCodestreamBox", "jpylyzer/boxvalidator.py:BoxValidator.validate_JP2"]}
{"id": "C41", "title": "Every minimal well-formed JP2 is accepted", "statement": "For all in-range parameters (image size, tile size, components, depths, levels, precincts, tile data bytes, comments) the canonical JP2 built from them is reported valid.", "quantifier": "all parameter values and all tile data", "why_tests_cant": "unbounded family", "anchors": ["jpylyzer/boxvalidator.py:BoxValidator.validate_JP2"]}
{"id": "C42", "title": "Tile-part counting accepts every legal interleaving", "statement": "A codestream whose tile parts satisfy the standard (each tile's parts numbered 0..n-1, some part giving n, others 0 or n) passes foundExpectedNumberOfTileParts. (False of the code for mixtures of tnsot=0 and tnsot≠0 tiles.)", "quantifier": "every assignment of tile parts to tiles", "why_tests_cant": "unbounded histories", "anchors": ["jpylyzer/boxvalidator.py:BoxValidator.validate_contiguousCodestreamBox"]}
{"id": "C43", "title": "Trailing data is reported as invalid", "statement": "A file with bytes after the last complete box is invalid. (False of the code: 1-3 trailing bytes, illegal or overlong length after valid content yields at most a warning.)", "quantifier": "every valid file and every suffix", "why_tests_cant": "every suffix", "anchors": ["jpylyzer/boxvalidator.py:BoxValidator.validate_JP2", "jpylyzer/boxvalidator.py:BoxValidator._getBox"]}
{"id": "C44", "title": "makeHumanReadable preserves structure and yields serialisable text", "statement": "makeHumanReadable keeps the tag structure of the tree (same tags, attributes, shape); every text afterwards is absent or a string without control characters; values in the remap table are replaced by their documented description and others by their decimal/UTF-8 rendering; it is idempotent on trees whose texts are plain strings.", "quantifier": "every element tree", "why_tests_cant": "unbounded trees", "anchors": ["jpylyzer/etpatch.py:Element.makeHumanReadable"]}
{"id": "C45", "title": "All reported text is XML-safe", "statement": "Every text in the element returned by checkOneFile is a string free of control characters. (False for fileName/filePath, which are only surrogate-stripped.)", "quantifier": "every file content and file name", "why_tests_cant": "every input", "anchors": ["jpylyzer/jpylyzer.py:checkOneFile"]}
{"id": "C46", "title": "Reported properties follow file order", "statement": "The children of the properties element of a JP2 are, in order, one element per root box with the documented tag, followed by the compression ratio.", "quantifier": "every byte sequence", "why_tests_cant": "unbounded lists of boxes", "anchors": ["jpylyzer/boxvalidator.py:BoxValidator.validate_JP2", "jpylyzer/boxvalidator.py:BoxValidator._getBox"]}
{"id": "C47", "title": "Compression ratio", "statement": "The compression ratio reported is round(uncompressed bytes / size of the file, 2), where uncompressed size = width*height*sum of depths / 8, for every valid JP2. (J2C/JHC use xOsiz in place of yOsiz: false of the code.)", "quantifier": "every valid file", "why_tests_cant": "all dimension values", "anchors": ["jpylyzer/boxvalidator.py:BoxValidator._calculateCompressionRatio", "jpylyzer/boxvalidator.py:BoxValidator.validate_contiguousCodestreamBox"]}
{"id": "C48", "title": "Every file named on the command line is analysed exactly once in order", "statement": "In wrapper mode, checkFiles emits the header, one file element per existing input in order, and the closing tag, unless an exception escapes; the exit status is 0 otherwise.", "quantifier": "every list of files and outcomes", "why_tests_cant": "unbounded histories", "anchors": ["jpylyzer/jpylyzer.py:checkFiles", "jpylyzer/jpylyzer.py:findFiles", "jpylyzer/jpylyzer.py:main"]}
{"id": "C49", "title": "Batch isolation", "statement": "The result for a file does not depend on the other files in the batch, and one failing analysis does not prevent the analysis of later files (mixFlag = 0).", "quantifier": "every batch", "why_tests_cant": "every history", "anchors": ["jpylyzer/jpylyzer.py:checkFiles", "jpylyzer/jpylyzer.py:checkOneFile"]}
{"id": "C50", "title": "File discovery is complete and restricted", "statement": "findFiles(recurse=False, paths) collects, for each path in order, the path itself if it is a file, and otherwise the regular files matched by the expression; nothing else. With recursion, files in the root directory that match the pattern are found as well.", "quantifier": "every file system state and path list", "why_tests_cant": "every file-system state", "anchors": ["jpylyzer/jpylyzer.py:findFiles", "jpylyzer/jpylyzer.py:getFiles", "jpylyzer/jpylyzer.py:getFilesFromTree", "jpylyzer/jpylyzer.py:getFilesWithPatternFromTree"]}
{"id": "C51", "title": "MIX output only for valid files", "statement": "propertiesExtension contains a mix element iff mixFlag is 1 or 2, the format is jp2/jph and the file is valid (from the command line); otherwise it is empty.", "quantifier": "every file", "why_tests_cant": "every input", "anchors": ["jpylyzer/jpylyzer.py:checkOneFile", "jpylyzer/mix.py:Mix.generateMix"]}
{"id": "C52", "title": "MIX image dimensions and bit depth agree with the properties", "statement": "imageWidth, imageHeight, bitsPerSampleValue list and samplesPerPixel of the MIX output equal the corresponding jpylyzer properties.", "quantifier": "every valid file", "why_tests_cant": "all values", "anchors": ["jpylyzer/mix.py:Mix.generateMixBasicImageInformation", "jpylyzer/mix.py:Mix.generateMixImageAssessmentMetadata"]}
{"id": "C53", "title": "MIX generation never aborts", "statement": "Requesting MIX output never raises for a file. (False of the code: mix runs outside the exception handler and can raise.)", "quantifier": "every file", "why_tests_cant": "every input", "anchors": ["jpylyzer/jpylyzer.py:checkOneFile", "jpylyzer/mix.py:Mix.generateMix"]}
{"id": "C54", "title": "Analysis is local to the box", "statement": "The tests and properties of a box depend only on its own bytes (plus the component count for marker segments), not on its position or on neighbouring boxes, except for the documented cross checks.", "quantifier": "every two files containing the box", "why_tests_cant": "2-run relation", "anchors": ["jpylyzer/boxvalidator.py:BoxValidator.validate"]}
{"id": "C55", "title": "Unknown boxes are ignored", "statement": "Inserting boxes of unknown type (not the first two) anywhere among the root boxes of a file never changes the verdict, and adds only unknownBox elements/warnings.", "quantifier": "every file, every unknown type and content, every position", "why_tests_cant": "unbounded insertions", "anchors": ["jpylyzer/boxvalidator.py:BoxValidator.validate_JP2", "jpylyzer/boxvalidator.py:BoxValidator.validate_unknownBox"]}
{"id": "C56", "title": "XML content is carried over unchanged", "statement": "For an XML box whose content parses, the parsed element is attached unchanged (before human-readable conversion) and the box passes; otherwise test containsWellformedXML fails, and an element is attached only under the nullxml option, when the content without trailing NULs parses. The same holds for XMP data in a UUID box; any other UUID is reported in canonical form.", "quantifier": "every content and every parser behaviour", "why_tests_cant": "every parser behaviour", "anchors": ["jpylyzer/boxvalidator.py:BoxValidator.validate_xmlBox", "jpylyzer/boxvalidator.py:BoxValidator.validate_uuidBox"]}
{"id": "C57", "title": "Nesting depth only matters through the recursion limit", "statement": "If an analysis completes with some recursion limit, it completes with the same result for every larger limit (and likewise for step budgets).", "quantifier": "all limits", "why_tests_cant": "monotonicity over all limits", "anchors": ["jpylyzer/boxvalidator.py:BoxValidator.validate", "jpylyzer/boxvalidator.py:BoxValidator.validate_jp2HeaderBox"]}
{"id": "C58", "title": "UUID list and URL boxes", "statement": "A UUID List box passes iff the declared count equals the number of 16-byte entries present, and the entries are reported in canonical form in order; a Data Entry URL box passes iff version and flags are 0 and the location is well-formed UTF-8 ending in NUL; the location is reported decoded.", "quantifier": "every content", "why_tests_cant": "every count and every text", "anchors": ["jpylyzer/boxvalidator.py:BoxValidator.validate_uuidListBox", "jpylyzer/boxvalidator.py:BoxValidator.validate_urlBox"]}
{"id": "C59", "title": "Number of tiles found", "statement": "foundExpectedNumberOfTiles passes only if the tile parts cover exactly the tile indices 0 .. n-1, where n is the number of tiles given by SIZ. (False of the code: it compares the number of different indices found with n, and an index that is out of range counts.)", "quantifier": "every codestream", "why_tests_cant": "every assignment of tile indices", "anchors": ["jpylyzer/boxvalidator.py:BoxValidator.validate_contiguousCodestreamBox"]}
{"id": "C60", "title": "Complete characterisation of valid files", "statement": "For every byte sequence the analysis ends with isValid True iff the file satisfies file_ok (codestream: codestream_ok), a declarative list of conditions on boxes, marker segments and tile parts; there is no other reason for a file to be accepted or rejected.", "quantifier": "every byte sequence and format", "why_tests_cant": "both directions over all inputs", "anchors": ["jpylyzer/boxvalidator.py:BoxValidator.validate_JP2", "jpylyzer/boxvalidator.py:BoxValidator.validate_contiguousCodestreamBox"]}
{"id": "C61", "title": "Depth of recursion", "statement": "The analysis of a file of n bytes never needs more than (n+7)/8+3 nested validate calls, and that of a codestream no more than 3; with that many there is no RecursionError, and the outcome does not depend on the limit.", "quantifier": "every byte sequence", "why_tests_cant": "bound over all nestings", "anchors": ["jpylyzer/boxvalidator.py:BoxValidator.validate", "jpylyzer/boxvalidator.py:BoxValidator.validate_jp2HeaderBox"]}
{"id": "C62", "title": "A valid codestream has tile parts", "statement": "A codestream that is reported valid has at least one tile part. (False of the code when the tile grid of SIZ is empty: then the headers and EOC suffice.)", "quantifier": "every byte sequence", "why_tests_cant": "every SIZ segment", "anchors": ["jpylyzer/boxvalidator.py:BoxValidator.validate_contiguousCodestreamBox", "jpylyzer/boxvalidator.py:BoxValidator.validate_siz"]}
{"id": "C63", "title": "Tile parts do not overlap", "statement": "In a valid codestream each tile part starts at least 14 bytes after the one before, and no tile part starts before the header of the one before it has ended. (The second half is false of the code: psot is not compared with the position of SOD.)", "quantifier": "every byte sequence", "why_tests_cant": "every layout of tile parts", "anchors": ["jpylyzer/boxvalidator.py:BoxValidator.validate_tilePart"]}
{"id": "C64", "title": "Numbers with decimals are accurate", "statement": "Every finite floating-point number is shown by a text that converts back to exactly that number. The resolutions shown for a resolution box, and the compression ratio shown for a valid file, differ from the exact quotient of the stored numbers by at most half a hundredth plus a 2^-49 part of it; below 10^11 they are multiples of 1/100.", "quantifier": "every double; every resolution box; every valid file shorter than 2^63 bytes", "why_tests_cant": "rounding behaviour over all doubles", "anchors": ["jpylyzer/boxvalidator.py:BoxValidator.validate_captureResolutionBox", "jpylyzer/boxvalidator.py:BoxValidator._calculateCompressionRatio", "jpylyzer/etpatch.py:Element.makeHumanReadable"]}
{"id": "C65", "title": "MIX output agrees with the file", "statement": "For a valid JP2 or JPH file the MIX element gives the format of the file, lossless compression iff the wavelet transformation of the first codestream is reversible, the layers and decomposition levels of its COD segment, the compression ratio (rounded to an integer or, in version 2, to hundredths), the colour space of the first profile or else of the first enumerated colour space, and the capture (else display) resolution as sampling frequencies; the frequencies are exact to 1/100 pixel per metre. (False: they are cut, not rounded; 0.29 becomes 28/100.)", "quantifier": "every valid file shorter than 2^53 bytes", "why_tests_cant": "all values of the fields together", "anchors": ["jpylyzer/mix.py:Mix.generateMix"]}
{"id": "C66", "title": "Codes are shown by their names", "statement": "In every report a coded property (flags, signs, colour space, progression order, wavelet, quantization style, ICC and HT codes ...) is shown by the name that the standards and the manual give to the code, any code without a name in decimal, and no two codes of a property are shown alike. Four-character ICC codes are shown by name as well (false of the code for the platform 'SGI ').", "quantifier": "every file and every property of its report", "why_tests_cant": "every code value of each of 41 properties", "anchors": ["jpylyzer/jpylyzer.py:checkOneFile", "jpylyzer/etpatch.py:Element.makeHumanReadable"]}
{"id": "C67", "title": "The header of an embedded ICC profile", "statement": "For a valid file with an embedded ICC profile the report shows the fields of the profile header as ICC.1 defines them: size, version, class, colour space, connection space, date and time, platform, manufacturer, model, rendering intent, illuminant (to 4 decimals), creator, identifier, tag signatures and description. (False of the code for the profile flags, the device attributes, negative illuminant values, the descriptions of version 4 profiles, and dates out of range.)", "quantifier": "every valid JP2 and JPH file and every profile in it", "why_tests_cant": "all values of a 128-byte header and tag table", "anchors": ["jpylyzer/boxvalidator.py:BoxValidator.validate_icc"]}
{"id": "C68", "title": "Parts of MIX output, codec and capture metadata", "statement": "For every valid JP2 or JPH file MIX output is one document with the attributes of the version asked for and the sections in the order of its schema, ImageCaptureMetadata among them iff XMP metadata is found. Codec and version are those named by the first comment (the first line with -v in it up to its last -v, and the digits and dots after that), or absent. Creation date, artist, scanner make, model and serial number repeat the XMP properties without white space at the ends (element before attribute, nothing when empty), and the creator tool is split at its last space when a version number follows.", "quantifier": "every valid file; every comment text and every XMP tree", "why_tests_cant": "all texts against two regular expressions, all trees", "anchors": ["jpylyzer/mix.py:Mix.generateMix", "jpylyzer/mix.py:Mix.generateMixBasicImageInformation", "jpylyzer/mix.py:Mix.generateMixImageCaptureMetadata", "jpylyzer/mix.py:Mix.findValueInRDF", "jpylyzer/mix.py:Mix.addIfExist"]}
{"id": "C69", "title": "How the analysis of a file ends is told by the file", "statement": "Exceptions of the analysis come only from the listed triggers (a denominator 0 in a resolution box, a UUID box or list that is cut off, an unknown SIZ capability, a component-dependent or tile-part marker used as box type), wherever they are in the file, and a file with a trigger anywhere is never reported on. If tile-part lengths can be read, the outcome (report, which exception, or no end) is that of the first trouble in file order, the same for all formats, options and XML parsers, and success and isValid say so.", "quantifier": "every byte sequence shorter than 2^53 bytes, every option setting, recursion limit and XML parser", "why_tests_cant": "every combination and order of malformed parts", "anchors": ["jpylyzer/boxvalidator.py:BoxValidator.validate", "jpylyzer/boxvalidator.py:BoxValidator.validate_contiguousCodestreamBox", "jpylyzer/boxvalidator.py:BoxValidator.validate_tilePart", "jpylyzer/jpylyzer.py:checkOneFile"]}
{"id": "C70", "title": "The output is an XML document that carries the reports", "statement": "What jpylyzer writes for a batch of files (header, tool information, one element per file, end tag; indented or not) is a well-formed XML document with namespaces, and a reader of XML finds in it exactly the reports, in order: element for element, attribute for attribute, text for text (but for white space around texts when indented). Namespace-qualified XML from XML and UUID boxes means there what it meant in its box. (False of the code: in indented output a file name with a control character ends the batch with an exception; line ends in attribute values of embedded XML are lost; embedded XML without a namespace ends up in the namespace of jpylyzer.)", "quantifier": "every list of files, every content, both modes of output", "why_tests_cant": "every text and every tree; no reader is run on the output of all files", "anchors": ["jpylyzer/jpylyzer.py:writeElement", "jpylyzer/jpylyzer.py:checkFiles", "jpylyzer/jpylyzer.py:checkOneFile", "jpylyzer/etpatch.py:Element.makeHumanReadable"]}
{"id": "C71", "title": "Reports conform to the published schema", "statement": "The document of a batch is valid against xsd/jpylyzer-v-2-2.xsd, whatever the files. (False of the code: true with a list of amendments, exactly when no element of the report uses one of them; a valid JPH file with colour method 5 uses one.)", "quantifier": "every file, option and failure", "why_tests_cant": "every report that any byte sequence can lead to", "anchors": ["xsd/jpylyzer-v-2-2.xsd:file", "jpylyzer/jpylyzer.py:checkOneFile", "jpylyzer/boxvalidator.py:BoxValidator.validate"]}
{"id": "C72", "title": "What a search of a directory tree finds", "statement": "On a POSIX file system, with the path, glob, fnmatch and walk functions of Python's library: --recurse with a directory finds every entry that is not a directory, of every directory below that is reached without following a symbolic link, exactly once, by a path that leads to it, and without --recurse nothing; a file is found as itself; an expression in a directory finds exactly the regular files with matching names of that directory and, with --recurse, of all directories below it, once each (if the expression matches a single directory, everything below that one); with expressions in several components of the path, the same for every directory that the leading components lead to. (False of the code if the name of a directory is itself an expression: the files of a directory named [a] are missed, those of its sibling named a are found twice.)", "quantifier": "every directory tree, every current directory, every expression with *, ? and character classes, in any number of components, no class beginning with a range in reverse", "why_tests_cant": "every shape of a tree, every name", "anchors": ["jpylyzer/jpylyzer.py:findFiles", "jpylyzer/jpylyzer.py:getFiles", "jpylyzer/jpylyzer.py:getFilesWithPatternFromTree", "jpylyzer/jpylyzer.py:getFilesFromTree"]}
{"id": "C73", "title": "From a directory to the verdicts in the document", "statement": "With --recurse and a directory of readable files the program ends normally and writes one well-formed XML document, in which a reader finds, once for each file at whatever depth below the directory, its absolute path with the verdict True or False: True exactly if the file conforms to the format asked for, by the rules stated on bytes alone. The same for any other choice of paths, with the files that the search finds.", "quantifier": "every directory tree, every content shorter than 2^53 bytes the analysis of which comes to an end, all formats, both modes of output", "why_tests_cant": "the composition of search, analysis, report and output for all trees and all contents", "anchors": ["jpylyzer/jpylyzer.py:main", "jpylyzer/jpylyzer.py:checkFiles", "jpylyzer/jpylyzer.py:checkOneFile", "jpylyzer/jpylyzer.py:writeElement", "jpylyzer/jpylyzer.py:findFiles"]}
{"id": "C74", "title": "The command line means what its grammar says", "statement": "The parser accepts exactly the lines of a grammar: options (long names, cut short where that is unambiguous, with a value after = or in the next word; letters, several in one word), then one or more paths, then options again, or options, paths, -- and paths of any spelling; with values of --mix that are 1 or 2. The last format and MIX version given count, flags are set iff they occur, and nothing else is a path. Help and version are given at the first word that asks for them, and a word that could be two options is refused wherever it is. The run then goes on with exactly these settings if the format is one of the four, in upper or lower case, and the warnings name the paths without * that are neither a file nor a directory, for which nothing is found.", "quantifier": "every list of words", "why_tests_cant": "all lists of words, all spellings and orders of options", "anchors": ["jpylyzer/jpylyzer.py:parseCommandLine", "jpylyzer/jpylyzer.py:main", "jpylyzer/jpylyzer.py:findFiles"]}
{"id": "C75", "title": "What the document says about an image is what its bytes say", "statement": "In the document written for a batch of files a reader finds one element per file, in order, with its path and verdict; at every path of names that does not lead into foreign XML it holds the same elements as the report, in the same order, with the same texts. For every file with the verdict True the texts at properties/jp2HeaderBox/imageHeaderBox, properties/contiguousCodestreamBox/siz and .../cod (properties/siz and properties/cod for a bare codestream) are the fields of the file's image header box, of SIZ and of the first COD of its first codestream, read big-endian at the positions of the standard: decimal numerals, or the names of the codes.", "quantifier": "every batch of files, every content shorter than 2^53 bytes the analysis of which comes to an end, all formats, both modes of output", "why_tests_cant": "all values of all fields, through analysis, conversion to text, XML output and a reader", "anchors": ["jpylyzer/jpylyzer.py:main", "jpylyzer/jpylyzer.py:checkOneFile", "jpylyzer/jpylyzer.py:writeElement", "jpylyzer/boxvalidator.py:BoxValidator.validate_imageHeaderBox", "jpylyzer/boxvalidator.py:BoxValidator.validate_siz", "jpylyzer/boxvalidator.py:BoxValidator.validate_cod"]}
{"id": "C76", "title": "Files and bare codestreams are judged alike", "statement": "A codestream inside a valid JP2 (JPH) file is valid on its own as J2C (JHC). Conversely a valid bare codestream with a nonempty image area becomes a valid file when the four required boxes, with the values of its SIZ segment, are put around it; so the first codestreams of valid files are exactly these. Nothing is valid for two different formats. The report describes a codestream, and judges it, in the same way inside a file and alone, up to the compression ratio. (Without the condition on the area the converse is false of the code: a codestream with an empty image area is called valid, but is in no valid file.)", "quantifier": "every byte sequence (files below 2^53 bytes), all four formats, every option setting; the comparison of reports for every codestream whose tile parts follow each other", "why_tests_cant": "all codestreams, in all files and alone, in all formats", "anchors": ["jpylyzer/boxvalidator.py:BoxValidator.validate_contiguousCodestreamBox", "jpylyzer/boxvalidator.py:BoxValidator.validate_siz", "jpylyzer/boxvalidator.py:BoxValidator.validate_JP2", "jpylyzer/boxvalidator.py:BoxValidator.validate_imageHeaderBox"]}
{"id": "C77", "title": "What the verdict does not depend on", "statement": "The verdict about a JP2 or JPH file does not depend on the form in which boxes are written (4-byte, 8-byte or open length), on the order of the boxes inside the JP2 Header box after the first (as long as the Colour Specification boxes stay together), on the order of the marker segments in a main header after SIZ, or on which well-formed metadata there is: other boxes than the five kinds that the verdict is about, anywhere after the second box, and comments anywhere in a main header, may be added and removed. A file with such boxes put in is valid exactly if it was valid without them and each of them passes its own tests; likewise for comments in bare codestreams.", "quantifier": "every pair of files below 2^53 bytes (or of bare codestreams) that differ in this way only", "why_tests_cant": "all files, all positions, orders and numbers of boxes and segments", "anchors": ["jpylyzer/boxvalidator.py:BoxValidator.validate", "jpylyzer/boxvalidator.py:BoxValidator.validate_JP2", "jpylyzer/boxvalidator.py:BoxValidator.validate_jp2HeaderBox", "jpylyzer/boxvalidator.py:BoxValidator.validate_contiguousCodestreamBox", "jpylyzer/boxvalidator.py:BoxValidator._getBox"]}
{"id": "C78", "title": "An invalid verdict names exactly the broken rules", "statement": "The failed tests in a report are exactly the requirements, stated on bytes alone, that the file does not meet, each one at the path of element names of the box, marker segment or tile part it belongs to; no requirement that is not met is left out and none that is met is named, whatever the other options and in verbose mode as well. A report that says not valid names at least one, a report that says valid names none, and the report that is printed shows False at these places only.", "quantifier": "every byte sequence below 2^53 bytes for which the analysis gives a report and in which the tile parts of each codestream follow one another (no reached tile part with an unreadable length), all formats and options", "why_tests_cant": "all combinations of broken rules at all depths", "anchors": ["jpylyzer/boxvalidator.py:BoxValidator.testFor", "jpylyzer/boxvalidator.py:BoxValidator.validate", "jpylyzer/boxvalidator.py:BoxValidator.validate_JP2", "jpylyzer/boxvalidator.py:BoxValidator.validate_contiguousCodestreamBox", "jpylyzer/boxvalidator.py:BoxValidator.validate_tilePart", "jpylyzer/jpylyzer.py:checkOneFile"]}
{"id": "C79", "title": "Damage to bytes in which a valid file has no choice is always noticed", "statement": "Take a valid JP2 or JPH file and change the contents of one box, keeping its length. If the change affects any byte of the signature, the brand or minor version in the File Type box, or the SOC and SIZ markers at the beginning or the EOC marker at the end of a codestream, the file is no longer valid, whatever else was changed in the box. The same holds for height, width, number of components and compression type in the Image Header box, and for the bit depth there if there is no Bits Per Component box. The markers of bare codestreams are protected in the same way.", "quantifier": "every valid file below 2^53 bytes, whatever the form of its boxes, and every change of the contents of one box that keeps the length", "why_tests_cant": "all files, all positions and all values of the changed bytes", "anchors": ["jpylyzer/boxvalidator.py:BoxValidator.validate_signatureBox", "jpylyzer/boxvalidator.py:BoxValidator.validate_fileTypeBox", "jpylyzer/boxvalidator.py:BoxValidator.validate_imageHeaderBox", "jpylyzer/boxvalidator.py:BoxValidator.validate_contiguousCodestreamBox", "jpylyzer/boxvalidator.py:BoxValidator.validate_JP2"]}
{"id": "C80", "title": "No bytes are valid in two formats, and two files are not one", "statement": "A sequence of bytes is called valid in at most one of the formats jp2, jph, j2c and jhc. The codestream in a valid JP2 file can be valid on its own only as j2c, that in a JPH file only as jhc. If the boxes of a file all give their lengths, the file followed by another valid file (of either format) is not valid. (A codestream followed by another one can be: see C43.)", "quantifier": "every byte sequence below 2^53 bytes, all pairs of formats, options and external conditions; every sequence of boxes with lengths followed by every valid file", "why_tests_cant": "all byte sequences under all pairs of formats; two files joined at any size", "anchors": ["jpylyzer/boxvalidator.py:BoxValidator.validate_fileTypeBox", "jpylyzer/boxvalidator.py:BoxValidator.validate_siz", "jpylyzer/boxvalidator.py:BoxValidator.validate_JP2", "jpylyzer/boxvalidator.py:BoxValidator.validate_contiguousCodestreamBox", "jpylyzer/jpylyzer.py:checkOneFile"]}
{"id": "C81", "title": "The verdict is the same wherever the program runs", "statement": "Two installations (Python version, Unicode data, XML parser, C library, limits) that agree on which characters of ISO 8859-15 are control characters and on which XML documents in the file are well-formed call the same files valid. White space classes, floating point functions, the Unicode category of other characters, what a parser makes of a document, the name, place and age of the file, and options other than the format do not matter. For bare codestreams the XML parser does not matter at all. A limit on the digits of numbers (Python 3.11 and later) either leaves the report of a file as it is or turns it into the report of a failed analysis; the latter happens for valid codestreams with long PRF segments.", "quantifier": "every pair of external conditions, every byte sequence below 2^53 bytes, all formats, options, names and dates", "why_tests_cant": "all installations: the code relies on unicodedata, str.isspace, ElementTree, float formatting and the limits of the interpreter", "anchors": ["jpylyzer/boxvalidator.py:BoxValidator.validate_com", "jpylyzer/boxvalidator.py:BoxValidator.validate_xmlBox", "jpylyzer/boxvalidator.py:BoxValidator.validate_uuidBox", "jpylyzer/boxvalidator.py:BoxValidator.validate_JP2", "jpylyzer/boxvalidator.py:BoxValidator.validate_contiguousCodestreamBox", "jpylyzer/jpylyzer.py:checkOneFile"]}
{"id": "C82", "title": "How long the numbers in a report can be", "statement": "Whatever the bytes of the file, every number in the trees of properties, tests and warnings has at most 91 digits, except PRFnum and CPFnum (the numbers of a profile marker segment), which have at most 158000. So Python's limit on the conversion of integers to text (sys.set_int_max_str_digits) changes no report unless one of these two numbers is longer than the limit, and a limit of 158000 digits changes none; below that limit it does happen (C81).", "quantifier": "every byte sequence, format and option setting, every limit of at least 91 digits (Python permits none from 1 to 639), every analysis with fewer than 2^299 steps and an XML parser that yields texts, not numbers", "why_tests_cant": "the largest value of every field over all files; the longest numbers come from segments no test file has", "anchors": ["jpylyzer/boxvalidator.py:BoxValidator.validate_prf", "jpylyzer/boxvalidator.py:BoxValidator.validate_cpf", "jpylyzer/boxvalidator.py:BoxValidator.addCharacteristic", "jpylyzer/jpylyzer.py:checkOneFile", "jpylyzer/etpatch.py:Element.makeHumanReadable"]}
