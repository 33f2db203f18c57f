{
 "claims": [
  {
   "property": "C01",
   "status": "proved",
   "theorems": [
    "C01_unsigned_char",
    "C01_ushort",
    "C01_uint",
    "C01_ulonglong",
    "C01_injective",
    "C01_sentinel"
   ],
   "note": "All four widths, sentinel, injectivity."
  },
  {
   "property": "C02",
   "status": "proved",
   "theorems": [
    "C02_signed_char"
   ],
   "note": ""
  },
  {
   "property": "C03",
   "status": "proved",
   "theorems": [
    "C03_integer",
    "C03_agrees"
   ],
   "note": ""
  },
  {
   "property": "C04",
   "status": "proved",
   "theorems": [
    "C04_text",
    "C04_decoding_unique",
    "C04_roundtrip"
   ],
   "note": "Unicode categories are a parameter; well-formed UTF-8 is specified by RFC 3629 encoding."
  },
  {
   "property": "C05",
   "status": "proved",
   "theorems": [
    "C05_filter",
    "C05_contains"
   ],
   "note": "Unicode categories are a parameter."
  },
  {
   "property": "C06",
   "status": "proved",
   "theorems": [
    "C06_null_terminator"
   ],
   "note": ""
  },
  {
   "property": "C07",
   "status": "proved",
   "theorems": [
    "C07_hex"
   ],
   "note": ""
  },
  {
   "property": "C08",
   "status": "proved",
   "theorems": [
    "C08_contiguous"
   ],
   "note": ""
  },
  {
   "property": "C09",
   "status": "proved",
   "theorems": [
    "C09_strip_surrogates"
   ],
   "note": "Strings are lists of code points 0..0x10FFFF."
  },
  {
   "property": "C10",
   "status": "proved",
   "theorems": [
    "C10_verdict",
    "C10_nested_boxes",
    "C10_nested_segments"
   ],
   "note": "C10_verdict for files and codestreams; C10_nested_* carry it to boxes at every depth, marker segments and tile parts. Boxes and segments themselves have no verdict of their own in the code (isValid stays None)."
  },
  {
   "property": "C11",
   "status": "proved",
   "theorems": [
    "C11_verbosity",
    "C11_verdict"
   ],
   "note": "Equality of whole results (tests, properties, warnings, exceptions, non-termination) for every box, marker segment and file."
  },
  {
   "property": "C12",
   "status": "proved",
   "theorems": [
    "C12_flags"
   ],
   "note": "For every two option settings with equal format and verbosity; same exception or non-termination as well."
  },
  {
   "property": "C13",
   "status": "proved",
   "theorems": [
    "C13_boxes",
    "C13_loop_ends",
    "C13_terminates"
   ],
   "note": "C13_boxes (unique splitting, at most one box per byte), C13_loop_ends (what the walk does) and C13_terminates (only a codestream inside can keep the analysis from ending)."
  },
  {
   "property": "C14",
   "status": "proved",
   "theorems": [
    "C14_segments",
    "C14_main_header_loop",
    "C14_tile_header_loop",
    "C14_segments_end"
   ],
   "note": "The loops over marker segments end, at most one iteration per two bytes; C14_segments_end: the analysis of each segment ends too, except for PLM/PLT with unterminated packet lengths, which is C16."
  },
  {
   "property": "C15",
   "status": "partial",
   "theorems": [
    "C15_terminates",
    "C15_file_terminates",
    "C15_circle",
    "C15_always_terminates_refuted"
   ],
   "note": "C15_always_terminates_refuted: two tile parts, the second with an SOT segment too short to hold psot, make the loop run for ever. C15_terminates proves the conditional claim, for codestreams and (C15_file_terminates) whole files; C15_circle says when it does not end."
  },
  {
   "property": "C16",
   "status": "partial",
   "theorems": [
    "C16_terminates_iff",
    "C16_loops_otherwise",
    "C16_terminates_complete",
    "C16_always_terminates_refuted"
   ],
   "note": "Termination holds exactly when the packet-length bytes end properly (C16_terminates_iff); the unconditional claim is refuted by C16_always_terminates_refuted (last byte with its top bit set makes _parse_ipl loop for ever)."
  },
  {
   "property": "C17",
   "status": "partial",
   "theorems": [
    "C17_displayed",
    "C17_exact",
    "C17_exact_refuted"
   ],
   "note": "Exact decoding is proved for entries of at most two bytes (C17_exact) and the value shown in general (C17_displayed); for longer entries the claim is refuted (C17_exact_refuted): the code keeps 14 bits."
  },
  {
   "property": "C18",
   "status": "proved",
   "theorems": [
    "C18_boxes_read_back",
    "C18_boxes_reported"
   ],
   "note": ""
  },
  {
   "property": "C19",
   "status": "proved",
   "theorems": [
    "C19_segments_read_back",
    "C19_segments_reported"
   ],
   "note": "Up to the SOT marker. The chain of tile parts is supposed to exist (see C15)."
  },
  {
   "property": "C20",
   "status": "partial",
   "theorems": [
    "C20_report",
    "C20_never_raises",
    "C20_verdict",
    "C20_verdict_codestream",
    "C20_settles",
    "C20_mtime_refuted"
   ],
   "note": "Every report has the fixed shape, checkOneFile returns one for every readable, empty or unmappable file given size and modification time, and the verdict text is the boolean verdict. C20_mtime_refuted: the fallback used when the modification time is out of range raises TypeError."
  },
  {
   "property": "C21",
   "status": "proved",
   "theorems": [
    "C21_failed",
    "C21_only",
    "C21_exceptions",
    "C21_messages"
   ],
   "note": "The failure report is produced exactly when the analysis raises; the message depends only on the exception class. Message texts of exceptions with no class of their own are the generic text."
  },
  {
   "property": "C22",
   "status": "partial",
   "theorems": [
    "C22_exceptions",
    "C22_never_raises_refuted"
   ],
   "note": "The claim that analysis never raises is refuted by a file for each exception (C22_never_raises_refuted); the set of possible exceptions is proved exact here. That none occurs without one of the listed triggers is C69_triggers, for the whole file and every input."
  },
  {
   "property": "C23",
   "status": "proved",
   "theorems": [
    "C23_signature",
    "C23_filetype"
   ],
   "note": ""
  },
  {
   "property": "C24",
   "status": "partial",
   "theorems": [
    "C24_ihdr",
    "C24_bpc_refuted"
   ],
   "note": "C24_ihdr: exact characterisation of the code. C24_bpc_refuted: the bPC clause is false, every readable bPC value passes."
  },
  {
   "property": "C25",
   "status": "proved",
   "theorems": [
    "C25_bpcc"
   ],
   "note": ""
  },
  {
   "property": "C26",
   "status": "proved",
   "theorems": [
    "C26_colr",
    "C26_icc"
   ],
   "note": "ICC sub-tests are not appended to the test tree by the code except through the listed ones."
  },
  {
   "property": "C27",
   "status": "partial",
   "theorems": [
    "C27_pclr",
    "C27_cmap",
    "C27_cdef",
    "C27_cassoc_refuted"
   ],
   "note": "Palette and component mapping proved as documented; channel definition proved as coded, and the association-range clause is refuted."
  },
  {
   "property": "C28",
   "status": "partial",
   "theorems": [
    "C28_resolution",
    "C28_zero_denominator_refuted"
   ],
   "note": "Values proved for nonzero denominators (binary64 pipeline); zero denominators abort with ZeroDivisionError."
  },
  {
   "property": "C29",
   "status": "proved",
   "theorems": [
    "C29_jp2h_iff",
    "C29_jph_iff"
   ],
   "note": "C29_jp2h_iff as stated; C29_jph_iff for the jph format."
  },
  {
   "property": "C30",
   "status": "proved",
   "theorems": [
    "C30_siz",
    "C30_tiles"
   ],
   "note": "Field values, tests and tile count, for every Rsiz for which the code has a capability text; the others abort (see C22)."
  },
  {
   "property": "C31",
   "status": "proved",
   "theorems": [
    "C31_cod",
    "C31_coc"
   ],
   "note": ""
  },
  {
   "property": "C32",
   "status": "partial",
   "theorems": [
    "C32_rgn",
    "C32_qcd",
    "C32_qcd_steps_refuted",
    "C32_qcc",
    "C32_qcc_steps_refuted",
    "C32_poc",
    "C32_crg"
   ],
   "note": "Tests proved exactly; the reported step sizes of QCD and QCC are not the coded ones (refuted)."
  },
  {
   "property": "C33",
   "status": "partial",
   "theorems": [
    "C33_com",
    "C33_cap",
    "C33_prf",
    "C33_prf_refuted",
    "C33_cpf",
    "C33_cpf_refuted"
   ],
   "note": "COM and CAP proved; PRF and CPF proved as coded, the nonzero-last-entry clause is refuted."
  },
  {
   "property": "C34",
   "status": "proved",
   "theorems": [
    "C34_sot"
   ],
   "note": ""
  },
  {
   "property": "C35",
   "status": "proved",
   "theorems": [
    "C35_width"
   ],
   "note": "C35_width plus the explicit field positions in C31_coc, C32_rgn, C32_qcc, C32_poc."
  },
  {
   "property": "C36",
   "status": "proved",
   "theorems": [
    "C36_structure"
   ],
   "note": ""
  },
  {
   "property": "C37",
   "status": "proved",
   "theorems": [
    "C37_consistent"
   ],
   "note": "The code compares the header with the first codestream only, and so does the theorem."
  },
  {
   "property": "C38",
   "status": "proved",
   "theorems": [
    "C38_structure"
   ],
   "note": "If SIZ describes an image with tiles there is an SOT marker after the main header; see C62 for the other case."
  },
  {
   "property": "C39",
   "status": "proved",
   "theorems": [
    "C39_chaining"
   ],
   "note": "psot = 0 is possible in the last tile part only. After a tile index out of range the code stops looking, so psot may lead to an SOT marker there."
  },
  {
   "property": "C40",
   "status": "partial",
   "theorems": [
    "C40_codestream",
    "C40_file",
    "C40_refuted"
   ],
   "note": "C40_codestream and C40_file: no proper prefix is valid, if the last tile part gives its length and is followed by EOC at the end of the data. C40_refuted: without that last condition the claim is false."
  },
  {
   "property": "C41",
   "status": "proved",
   "theorems": [
    "C41_codestream",
    "C41_file",
    "C41_report",
    "C41_report_codestream"
   ],
   "note": "The writer covers .jp2/.jph files and bare codestreams: any grid, components, coding style, quantisation, comments, tile parts in any order, boxes of other types; it does not write optional segments (COC, QCC, RGN, POC, PPM, PLT, ...) or optional header boxes. 'Reported valid' is for the format the file is made for; str_limit E = None excludes the interpreter's limit on printing huge integers."
  },
  {
   "property": "C42",
   "status": "partial",
   "theorems": [
    "C42_accepts",
    "C42_mixed_fails",
    "C42_accepts_refuted"
   ],
   "note": "C42_accepts: passes if every tile has a tile part giving the number, or none has. C42_accepts_refuted and C42_mixed_fails: always fails if only some tiles have one."
  },
  {
   "property": "C43",
   "status": "partial",
   "theorems": [
    "C43_trailing_data_shows",
    "C43_trailing_data_invalid_refuted"
   ],
   "note": "C43_trailing_data_shows: trailing bytes always give one more element in the report (a warning and an unknownBox, or a failed read); C43_trailing_data_invalid_refuted: the file stays valid."
  },
  {
   "property": "C44",
   "status": "proved",
   "theorems": [
    "C44_readable",
    "C44_clean",
    "C44_idempotent",
    "C44_fails",
    "C44_tables"
   ],
   "note": ""
  },
  {
   "property": "C45",
   "status": "partial",
   "theorems": [
    "C45_texts",
    "C45_xml",
    "C45_names",
    "C45_names_refuted",
    "C45_mix"
   ],
   "note": "Every text of the report from the analysed bytes is free of control characters and XML-legal. C45_names_refuted: fileName and filePath are written unfiltered, so a name with a control character makes the output not well-formed. Texts of MIX output are XML characters as well (C45_mix)."
  },
  {
   "property": "C46",
   "status": "proved",
   "theorems": [
    "C46_order",
    "C46_order_inside"
   ],
   "note": "C46_order_inside gives the same for superboxes."
  },
  {
   "property": "C47",
   "status": "partial",
   "theorems": [
    "C47_ratio",
    "C47_ratio_codestream",
    "C47_ratio_codestream_refuted"
   ],
   "note": "C47_ratio: correct for every valid file. C47_ratio_codestream: the value shown for bare codestreams, which uses XOsiz in place of YOsiz, so that the claim is refuted there (C47_ratio_codestream_refuted)."
  },
  {
   "property": "C48",
   "status": "partial",
   "theorems": [
    "C48_output",
    "C48_complete_iff",
    "C48_no_crash",
    "C48_main",
    "C48_status_refuted",
    "C48_once_refuted"
   ],
   "note": "Proved: the output is head, tool element, the file elements in order and the closing tag, or stops at the first file whose analysis raises or does not end. Refuted clauses: an unknown format exits with status 0 (C48_status_refuted); the list of files is kept between calls of checkFiles, so files are analysed again (C48_once_refuted)."
  },
  {
   "property": "C49",
   "status": "proved",
   "theorems": [
    "C49_isolated",
    "C49_removal",
    "C49_failures",
    "C49_mix_refuted"
   ],
   "note": "With MIX output the clause on failures is false: C49_mix_refuted."
  },
  {
   "property": "C50",
   "status": "partial",
   "theorems": [
    "C50_plain",
    "C50_restricted",
    "C50_recursive",
    "C50_tree",
    "C50_directory",
    "C50_order",
    "C50_restricted_refuted",
    "C50_directories_refuted"
   ],
   "note": "Non-recursive discovery and recursive discovery of a pattern or a directory proved. Refuted: recursion into a directory also collects entries that are not regular files, which end the run (C50_restricted_refuted); an expression that matches several directories finds none of their files, although one that matches a single directory does (C50_directories_refuted)."
  },
  {
   "property": "C51",
   "status": "proved",
   "theorems": [
    "C51_extension",
    "C51_off"
   ],
   "note": ""
  },
  {
   "property": "C52",
   "status": "proved",
   "theorems": [
    "C52_values",
    "C52_file"
   ],
   "note": ""
  },
  {
   "property": "C53",
   "status": "partial",
   "theorems": [
    "C53_exceptions",
    "C53_codestream_refuted",
    "C53_xmp_refuted",
    "C53_complete",
    "C53_jp2",
    "C53_colour_refuted"
   ],
   "note": "Refuted for every valid bare codestream through the library call (C53_codestream_refuted), for a JP2 file with XMP data without rdf:Description (C53_xmp_refuted) and for a JPH file with only a parameterised colour space (C53_colour_refuted). Proved: only AttributeError, TypeError and ValueError can escape (C53_exceptions); for valid JP2 and JPH files (shorter than 2^53 bytes) exactly these two causes exist (C53_complete), and a valid JP2 file without XML and UUID boxes always has MIX output (C53_jp2)."
  },
  {
   "property": "C54",
   "status": "proved",
   "theorems": [
    "C54_boxes_local",
    "C54_boxes_same",
    "C54_segments_local"
   ],
   "note": "Every box in a file at any depth, every marker segment and tile part; the report of a tile part is that of the codestream bytes at its offset."
  },
  {
   "property": "C55",
   "status": "proved",
   "theorems": [
    "C55_unknown_ends",
    "C55_unknown_ignored"
   ],
   "note": "One box of unknown type after the second root box; repeated application gives any number. The compression ratio changes with the size of the file."
  },
  {
   "property": "C56",
   "status": "proved",
   "theorems": [
    "C56_xml",
    "C56_uuid"
   ],
   "note": "The XML parser is a parameter."
  },
  {
   "property": "C57",
   "status": "proved",
   "theorems": [
    "C57_limits"
   ],
   "note": "For the step budget and the recursion limit of the model."
  },
  {
   "property": "C58",
   "status": "proved",
   "theorems": [
    "C58_uuid_list",
    "C58_url"
   ],
   "note": "A truncated UUID list aborts with ValueError (part of the theorem)."
  },
  {
   "property": "C59",
   "status": "partial",
   "theorems": [
    "C59_count",
    "C59_cover",
    "C59_cover_declared",
    "C59_cover_refuted"
   ],
   "note": "C59_count: what the test does. C59_cover: the claim, if all tile indices are in range; C59_cover_declared: the claim for valid codestreams with any nonzero tnsot. C59_cover_refuted: false otherwise."
  },
  {
   "property": "C60",
   "status": "proved",
   "theorems": [
    "C60_file",
    "C60_codestream"
   ],
   "note": "Files shorter than 2^53 bytes (beyond that the compression ratio may overflow a float); codestreams of any size."
  },
  {
   "property": "C61",
   "status": "proved",
   "theorems": [
    "C61_file_depth",
    "C61_codestream_depth"
   ],
   "note": ""
  },
  {
   "property": "C62",
   "status": "partial",
   "theorems": [
    "C62_tile_parts",
    "C62_tile_parts_refuted"
   ],
   "note": "C62_tile_parts: holds if the number of tiles in SIZ is not 0; C62_tile_parts_refuted: false otherwise."
  },
  {
   "property": "C63",
   "status": "partial",
   "theorems": [
    "C63_apart",
    "C63_apart_refuted"
   ],
   "note": "C63_apart: tile parts start at least 14 bytes apart. C63_apart_refuted: valid codestream whose second tile part starts in the header of the first."
  },
  {
   "property": "C64",
   "status": "proved",
   "theorems": [
    "C64_readback",
    "C64_distinct",
    "C64_resolution",
    "C64_ratio",
    "C64_ratio_codestream"
   ],
   "note": "Python's float operations, round and repr are modelled on stdlib spec_float (PyFloat.v). 10 ** n for negative n is a parameter assumed accurate to one unit in the last place (pow_ok); for bare codestreams with different X and Y offsets see C47."
  },
  {
   "property": "C65",
   "status": "partial",
   "theorems": [
    "C65_file",
    "C65_frequency_refuted"
   ],
   "note": "Proved for every valid file (C65_file); the clause on exact sampling frequencies is false of the code (C65_frequency_refuted): the numerator can be one less than the number shown. Python's str.isspace enters as a parameter of which the ASCII values are assumed (space_ok)."
  },
  {
   "property": "C66",
   "status": "partial",
   "theorems": [
    "C66_names",
    "C66_distinct",
    "C66_sgi_refuted"
   ],
   "note": "Proved for all integer codes and all listed four-character codes but one (C66_names, C66_distinct): the platform code 'SGI ' is shown as such because the table lacks the trailing space (C66_sgi_refuted)."
  },
  {
   "property": "C67",
   "status": "partial",
   "theorems": [
    "C67_header",
    "C67_flags_refuted",
    "C67_attributes_refuted",
    "C67_illuminant_refuted",
    "C67_description_refuted",
    "C67_date_refuted"
   ],
   "note": "Proved for every valid file and every profile of at least 132 bytes (C67_header): all fields but flags and attributes, with dates in range, illuminants not negative, version 2 descriptions and printable ASCII texts. The other clauses are refuted by witnesses: C67_flags_refuted, C67_attributes_refuted, C67_illuminant_refuted, C67_description_refuted, C67_date_refuted."
  },
  {
   "property": "C68",
   "status": "proved",
   "theorems": [
    "C68_layout",
    "C68_codec",
    "C68_capture",
    "C68_determined"
   ],
   "note": "C68_layout, C68_codec, C68_capture, with C68_determined: the specifications determine the values. The parsed XMP tree is whatever the XML parser (a parameter) returns."
  },
  {
   "property": "C69",
   "status": "proved",
   "theorems": [
    "C69_outcome",
    "C69_outcome_codestream",
    "C69_same_for_all",
    "C69_where",
    "C69_reports",
    "C69_codestream",
    "C69_triggers",
    "C69_trigger_stops",
    "C69_success"
   ],
   "note": "C69_triggers, C69_trigger_stops and C69_codestream hold for every input. The exact outcome (C69_outcome and what follows from it) is for files in which every codestream is chained, i.e. no reached tile part has an unreadable length (the jump back of C15)."
  },
  {
   "property": "C70",
   "status": "partial",
   "theorems": [
    "C70_types",
    "C70_encodable",
    "C70_reports",
    "C70_document",
    "C70_document_plain",
    "C70_embedded",
    "C70_embedded_refuted",
    "C70_names_refuted",
    "C70_values_refuted"
   ],
   "note": "Proved with and without MIX output (C70_reports, C70_document, C70_embedded) for file names of XML characters, and in indented mode for attribute values without line ends and tabs; expat is a parameter assumed to agree with the reader of SpecXml.v on documents without a DTD (dom_ok, parser_ok). The excluded cases are refuted: C70_names_refuted, C70_values_refuted, C70_embedded_refuted."
  },
  {
   "property": "C71",
   "status": "partial",
   "theorems": [
    "C71_document",
    "C71_reports",
    "C71_published",
    "C71_amendments",
    "C71_published_refuted"
   ],
   "note": "False as stated (C71_published_refuted). Proved: every report and document is valid against the schema with the amendments of SpecXsd.v (C71_reports, C71_document), is valid as published exactly when no element of it needs one of them (C71_published), and every amendment but the one for an infinite compression ratio is needed (C71_amendments). The schema is transcribed by hand into SpecXsd.v."
  },
  {
   "property": "C72",
   "status": "partial",
   "theorems": [
    "C72_tree",
    "C72_plain",
    "C72_file",
    "C72_pattern",
    "C72_pattern_tree",
    "C72_single",
    "C72_paths",
    "C72_names_refuted",
    "C72_glob",
    "C72_glob_tree",
    "C72_glob_single"
   ],
   "note": "Proved with the conditions named in the statement (C72_tree, C72_plain, C72_file; C72_pattern, C72_pattern_tree, C72_single for an expression in the last component; C72_glob, C72_glob_tree, C72_glob_single for several components, with --recurse if a leading one has an asterisk); refuted for directory names that are themselves expressions (C72_names_refuted). Classes that begin with a range in reverse are excluded: fnmatch can take a later exclamation mark in them for a negation (C72_ex_reverse). The library functions are transcribed by hand in PosixFS.v; \"..\" is resolved by names."
  },
  {
   "property": "C73",
   "status": "proved",
   "theorems": [
    "C73_run",
    "C73_ends",
    "C73_directory"
   ],
   "note": "Without MIX output, for files the analysis of which comes to an end (C73_ends gives a condition on the bytes), paths of XML characters without carriage returns, no special files in the directory, and the assumptions on expat of C70. Directories as in C72_tree, without an asterisk in their names."
  },
  {
   "property": "C74",
   "status": "proved",
   "theorems": [
    "C74_line",
    "C74_accepted",
    "C74_ambiguous",
    "C74_asks",
    "C74_session",
    "C74_refused",
    "C74_ran",
    "C74_warned",
    "C74_not_found",
    "C74_format"
   ],
   "note": "argparse is transcribed by hand in Argv.v from CPython 3.11 for the options that jpylyzer declares; decimal digits and int() are parameters. That nothing is found for a path warned about (C74_not_found) is for absolute paths if --recurse is given: \"x/../d\" is looked up without \"x\"."
  },
  {
   "property": "C75",
   "status": "proved",
   "theorems": [
    "C75_nodes",
    "C75_document",
    "C75_image",
    "C75_run"
   ],
   "note": "Without MIX output for the values (C75_image, C75_run; C75_nodes and C75_document hold with it), under the assumptions of C73. Paths through xmlBox, uuidBox, tests, warnings and the other elements with free content are excluded."
  },
  {
   "property": "C76",
   "status": "partial",
   "theorems": [
    "C76_inside",
    "C76_wrap",
    "C76_first",
    "C76_one_format",
    "C76_report",
    "C76_every_codestream_refuted"
   ],
   "note": "The clause that every valid codestream is in some valid file is refuted (C76_every_codestream_refuted); with a nonempty image area it is proved (C76_wrap, C76_first). C76_report is for codestreams whose tile parts follow each other."
  },
  {
   "property": "C77",
   "status": "proved",
   "theorems": [
    "C77_file",
    "C77_codestream",
    "C77_form",
    "C77_metadata",
    "C77_box",
    "C77_comment"
   ],
   "note": "C77_file and C77_codestream in general; C77_form, C77_metadata, C77_box and C77_comment are special cases without assumptions about the rest."
  },
  {
   "property": "C78",
   "status": "proved",
   "theorems": [
    "C78_file",
    "C78_codestream",
    "C78_reason",
    "C78_reason_codestream",
    "C78_report"
   ],
   "note": "For files in which every codestream is chained, i.e. no reached tile part has an unreadable length (the jump back of C15). C78_report is about the printed report, the others about the analysis."
  },
  {
   "property": "C79",
   "status": "proved",
   "theorems": [
    "C79_damage",
    "C79_header",
    "C79_codestream"
   ],
   "note": "The example also shows a byte outside the list (12 of the Image Header box) that two valid files may differ in."
  },
  {
   "property": "C80",
   "status": "proved",
   "theorems": [
    "C80_one_format",
    "C80_inside",
    "C80_not_joined"
   ],
   "note": "The example runs four files under four formats each; each is valid in its own format only. It also shows two codestreams that are valid together."
  },
  {
   "property": "C81",
   "status": "proved",
   "theorems": [
    "C81_file",
    "C81_codestream",
    "C81_report",
    "C81_limit",
    "C81_limit_matters"
   ],
   "note": "C81_ex shows that both conditions are needed: with another parser or another control character the verdicts on two files change. C81_report assumes that numbers of any length can be written (as C20_verdict does); C81_limit says what a limit does, and C81_limit_matters is a codestream called valid by the validators whose report says False under a limit of 640 digits."
  },
  {
   "property": "C82",
   "status": "proved",
   "theorems": [
    "C82_numbers",
    "C82_limit",
    "C82_no_limit",
    "C82_ex",
    "C82_ex_limit"
   ],
   "note": "Bounds on all numbers of the raw trees (Prop_Small.v, by an invariant of every validator in PSmall.v); the report under a limit of at least 91 digits is the report without a limit unless PRFnum or CPFnum exceed it; C82_ex shows both cases on concrete codestreams."
  }
 ]
}