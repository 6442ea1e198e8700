{
 "claims": [
  {
   "property": "C01",
   "status": "proved",
   "theorems": [
    "C01_page_body_conforms",
    "C01_grammar_unambiguous"
   ],
   "note": "For every sane geometry, mode and format; the page body is a sentence of the line-repeat/run/literal grammar of RasterSpec.v for the transformed bitmap, and that grammar is unambiguous."
  },
  {
   "property": "C02",
   "status": "partial",
   "theorems": [
    "C02_decoder_inverts_pwg",
    "C02_decoder_inverts_urf_partial"
   ],
   "note": "Every grammatical PWG body is decoded to its image; URF bodies likewise when the fill code's colour is what the decoder uses. Grey fill is refuted under C08."
  },
  {
   "property": "C03",
   "status": "proved",
   "theorems": [
    "C03_round_trip_pwg",
    "C03_round_trip_urf"
   ],
   "note": "Encoder followed by decoder gives back the (transformed) bitmap, for all sane parameters."
  },
  {
   "property": "C04",
   "status": "partial",
   "theorems": [
    "C04_encoder_memory_safe_partial",
    "C04_short_bitmap_refuted"
   ],
   "note": "Safe for every bitmap of at least H*bytesPerLine bytes; a shorter bitmap is read out of bounds (refuted)."
  },
  {
   "property": "C05",
   "status": "proved",
   "theorems": [
    "C05_back_side_transform",
    "C06_bilevel_mirroring_partial"
   ],
   "note": "8/16-bit modes in full; 1-bit modes under C06."
  },
  {
   "property": "C06",
   "status": "partial",
   "theorems": [
    "C06_any_width_partial",
    "C06_bilevel_mirroring_partial",
    "C06_bilevel_mirroring_refuted"
   ],
   "note": "Proved for widths that are multiples of 8; for every width what happens exactly (C06_any_width_partial): mirrored lines move to the right by the number of padding bits. Refuted for width 9: the padding bits come first."
  },
  {
   "property": "C07",
   "status": "partial",
   "theorems": [
    "C07_decoder_safe_partial",
    "C07_decoder_hangs_refuted",
    "C07_hang_is_endless",
    "C07_hang_exactly",
    "C07_returns_exactly"
   ],
   "note": "Never UB and never a wrong size; termination is refuted in URF mode (endless loop on two bytes). The pages on which it hangs and those on which it returns are characterised exactly (C07_hang_exactly, C07_returns_exactly)."
  },
  {
   "property": "C08",
   "status": "partial",
   "theorems": [
    "C08_white_fill_partial",
    "C08_white_fill_refuted"
   ],
   "note": "RGB, CMYK, 16-bit RGB proved; refuted for grey (fill comes out black)."
  },
  {
   "property": "C09",
   "status": "partial",
   "theorems": [
    "C09_sixteen_bit_decodable_partial",
    "C09_sixteen_bit_refuted",
    "C09_sixteen_bit_urf_refuted"
   ],
   "note": "Refuted for pwg2ppm: it decodes with NumColors as pixel size (16-bit PWG pages raise), and for URF it writes an 8-bit header. Proved: the page itself decodes correctly with BitsPerPixel/8."
  },
  {
   "property": "C10",
   "status": "proved",
   "theorems": [
    "C10_pwg_header_layout",
    "C10_pwg_header_lossless",
    "C10_pwg_header_total"
   ],
   "note": ""
  },
  {
   "property": "C100",
   "status": "partial",
   "theorems": [
    "C100_options",
    "C100_client_partial",
    "C100_collated_refuted",
    "C100_values",
    "C100_ready"
   ],
   "note": "refuted for --collated-copies, whose listed values are not values the option takes (C100_collated_refuted); resolutions are listed without separators (C74). The rest is proved, for printers whose attributes have the types of the standard (otherwise an exception ends the client, C75)."
  },
  {
   "property": "C101",
   "status": "partial",
   "theorems": [
    "C101_prints_partial",
    "C101_usage",
    "C101_unreadable_refuted",
    "C101_ppm2pwg_partial",
    "C101_pdf"
   ],
   "note": "refuted for files that cannot be read: an empty line is printed and the exit code is 0 (C101_unreadable_refuted); files with half a TIFF signature are taken for TIFF (C56). C101_ppm2pwg_partial is for an output file that is not the input and can be written (as C91). The rest is proved."
  },
  {
   "property": "C102",
   "status": "proved",
   "theorems": [
    "C102_requests",
    "C102_saved"
   ],
   "note": "Words and user name below 65536 bytes (C30 is about longer ones). For set-attrs no pair may have an empty name: a printer that reports an attribute without a name could be sent one. A document beginning with two zero bytes is the exception of C29. A set of one value is read back as that value (RFC 8010 has no other notation)."
  },
  {
   "property": "C103",
   "status": "partial",
   "theorems": [
    "C103_printed_partial",
    "C103_shown_partial",
    "C103_job_name",
    "C103_job_name_unique"
   ],
   "note": "refuted in part by what refutes C85 (JustUpload and the JPEG and text conversions do not notice an upload that does not take the document) and C29 (a document beginning with two zero bytes is read as part of the request); proved for all else. With compression, what follows the request is what zlib gave. The pictures as in C84: sRGB, CMYK and grey of 8 bits."
  },
  {
   "property": "C104",
   "status": "partial",
   "theorems": [
    "C104_written",
    "C104_job_partial",
    "C104_read_partial",
    "C104_switches_refuted",
    "C104_parser"
   ],
   "note": "refuted in part: switches that are not IPP settings (--antialias, --one-stage) are not saved. Proved for all IPP settings, for printers whose uuid, if any, is a plain name (C67). What the printer reads: for settings that finalizing leaves alone."
  },
  {
   "property": "C105",
   "status": "partial",
   "theorems": [
    "C105_same_picture",
    "C105_colours_partial",
    "C105_colours_refuted",
    "C105_accepted"
   ],
   "note": "refuted in part: the Adobe marker is not written, so that pictures in YCCK, and RGB pictures whose components are not named by letters, are taken for CMYK and YCbCr (C105_colours_refuted); C105_colours_partial says for which files exactly. libjpeg is specified in TransSpec from its documentation."
  },
  {
   "property": "C106",
   "status": "partial",
   "theorems": [
    "C106_raster",
    "C106_vector_partial",
    "C106_destroyed_stream_refuted",
    "C106_missing_page_refuted"
   ],
   "note": "refuted in part: a PDF or Postscript job that fails before its last page was taken writes to the destroyed output buffer (C106_vector_partial says that exactly these do, C106_destroyed_stream_refuted gives one), and a page that the document announces but does not have is used as if it were there (C106_missing_page_refuted). Raster jobs are proved for all ends. poppler and cairo are specified in CallsSpec from their documentation."
  },
  {
   "property": "C107",
   "status": "partial",
   "theorems": [
    "C107_races_partial",
    "C107_complete_refuted",
    "C107_mutex_refuted",
    "C107_semaphores_partial"
   ],
   "note": "refuted in part: LThread::_complete is a plain bool that the worker writes while the producer reads it (C107_complete_refuted, for every print job), and the mutexes are unlocked by the other thread (C107_mutex_refuted, for every upload of two chunks). C107_races_partial: there is no other race; C107_semaphores_partial: as binary semaphores the two would be used properly while the transfer goes on."
  },
  {
   "property": "C108",
   "status": "partial",
   "theorems": [
    "C108_sent_partial",
    "C108_unknown_refuted",
    "C108_syntaxes_partial",
    "C108_language_refuted"
   ],
   "note": "refuted in part: names the printer does not have are left out and success is reported (C108_unknown_refuted); dates, resolutions, ranges, collections and octets cannot be set, nor can sets of values (C108_syntaxes_partial); what is sent for texts with a language is not in their format (C108_language_refuted). C108_sent_partial: in every other respect the request has exactly what was typed."
  },
  {
   "property": "C109",
   "status": "partial",
   "theorems": [
    "C109_refuted"
   ],
   "note": "refuted: the value is used with the two lengths and the language in it (RFC 8010 3.9), for every message, language and text"
  },
  {
   "property": "C11",
   "status": "proved",
   "theorems": [
    "C11_urf_header_lossless",
    "C11_urf_header_refused"
   ],
   "note": ""
  },
  {
   "property": "C110",
   "status": "partial",
   "theorems": [
    "C110_read",
    "C110_same",
    "C110_shown",
    "C110_delimiters_refuted"
   ],
   "note": "refuted in part: groups with the other delimiter tags of RFC 8010 (6 to 9 and the reserved 10 to 15) are taken for attributes and the message is lost (C110_delimiters_refuted); proved for operation, job, printer and unsupported attributes"
  },
  {
   "property": "C111",
   "status": "partial",
   "theorems": [
    "C111_get_partial",
    "C111_default_refuted",
    "C111_media_refuted"
   ],
   "note": "refuted: as text the attribute is empty, as anything else an exception (C111_default_refuted); with a media-default without a value, which RFC 8011 allows, nothing is printed unless the paper is chosen (C111_media_refuted). Proved for attributes that are absent and for those with one value of the type asked for (C111_get_partial)."
  },
  {
   "property": "C112",
   "status": "partial",
   "theorems": [
    "C112_client_partial",
    "C112_refuted"
   ],
   "note": "refuted in part: undefined without USER, for an answer that ends within a collection, for resolutions and paper sizes that are too large and for levels whose percentage does not fit an int (C112_refuted); proved for all command lines and worlds without these; the bounds on sizes (10000) and resolutions (2^30) are sufficient, not exact, and the insides of the conversions are left out"
  },
  {
   "property": "C113",
   "status": "partial",
   "theorems": [
    "C113_bsplit",
    "C113_pwg2ppm_partial",
    "C113_ppm2pwg_partial",
    "C113_ippdecode_partial",
    "C113_refuted"
   ],
   "note": "refuted in part: ppm2pwg is undefined on a page with fewer bytes than it announces, on a giant page and for a resolution of 0, pwg2ppm never ends on some URF files, ippdecode is undefined on a file that ends within a collection (C113_refuted); proved for all other arguments and files (bsplit: for all); 10^7 pixels as the bound of a giant page is sufficient, not exact"
  },
  {
   "property": "C114",
   "status": "partial",
   "theorems": [
    "C114_conversion_partial",
    "C114_command_partial",
    "C114_refuted"
   ],
   "note": "refuted in part: a resolution of 0 in one direction divides by zero, a giant paper size is converted to an integer that cannot hold it (C114_refuted), and a page of 2^25 lines or more overflows the error diffusion (C52_overflow_refuted). Proved for all documents and command lines with sensible paper sizes and resolutions from 1 to 3000."
  },
  {
   "property": "C115",
   "status": "partial",
   "theorems": [
    "C115_bsplit",
    "C115_bsplit_message",
    "C115_ppm2pwg",
    "C115_ppm2pwg_header",
    "C115_pdf2printable",
    "C115_help",
    "C115_complaint",
    "C115_pdf_reasons_partial",
    "C115_pdf_otherwise_partial"
   ],
   "note": "Missing: numbers of more than 64 bits in --pages and --paper-size, which end pdf2printable with an exception (refuted, C79_exception_refuted). -v is not modelled."
  },
  {
   "property": "C116",
   "status": "partial",
   "theorems": [
    "C116_documents_partial",
    "C116_options_refuted"
   ],
   "note": "Refuted: with several copies of an odd number of pages --duplex and --tumble put blank pages into PDF and Postscript files (C116_options_refuted). Everything else is proved, given that the bytes cairo delivers do not depend on its fallback resolution."
  },
  {
   "property": "C117",
   "status": "partial",
   "theorems": [
    "C117_pwg",
    "C117_pwg_every",
    "C117_urf",
    "C117_urf_every",
    "C117_urf_header",
    "C117_unknown",
    "C117_command",
    "C117_same_program",
    "C117_count_refuted"
   ],
   "note": "Refuted: the page count announced by a URF file is told but not compared with the pages read (C117_count_refuted). Everything else is proved; the texts of describe() (bytestream submodule) are parameters."
  },
  {
   "property": "C118",
   "status": "proved",
   "theorems": [
    "C118_any_order",
    "C118_synonym",
    "C118_again",
    "C118_bsplit",
    "C118_ppm2pwg",
    "C118_pdf2printable",
    "C118_ippclient"
   ],
   "note": "Command lines that are accepted; which message a refused one gets is C90."
  },
  {
   "property": "C119",
   "status": "partial",
   "theorems": [
    "C119_sessions_partial",
    "C119_undefined",
    "C119_one_service",
    "C119_refuted"
   ],
   "note": "The full statement (the same addresses are reported) is refuted: the question of another host after an answer that tells of both services makes the ipp address appear besides the ipps one. Proved: same questions, nothing lost, and the additional addresses are exactly of that kind; full equality where the records are of one service."
  },
  {
   "property": "C12",
   "status": "partial",
   "theorems": [
    "C12_reproduces_images_pwg_partial",
    "C12_reproduces_images_urf_partial"
   ],
   "note": "All sequences of 8-bit P5/P6 images up to 10^7 pixels per side whose headers end in a newline, comment lines after the magic number, data not starting with '#'. The excluded inputs are refuted under C13."
  },
  {
   "property": "C120",
   "status": "partial",
   "theorems": [
    "C120_pwg",
    "C120_urf",
    "C120_bad",
    "C120_ppm2pwg_partial"
   ],
   "note": "pwg2ppm: any bytes it accepts. ppm2pwg: after an even number of pictures that are read as they are (the others are the ones of C13_hash_refuted and C13_separator_refuted), any further input."
  },
  {
   "property": "C13",
   "status": "partial",
   "theorems": [
    "C13_encodes_exactly_the_data_partial",
    "C13_header_unambiguous",
    "C13_hash_refuted",
    "C13_hash_shifts_pages_refuted",
    "C13_separator_refuted"
   ],
   "note": "Refuted as stated: data starting with '#' are swallowed, and a header ending in a space shifts the image. Proved for the remaining files."
  },
  {
   "property": "C14",
   "status": "partial",
   "theorems": [
    "C14_writes_pnm_pwg_partial",
    "C14_writes_pnm_urf_partial",
    "C14_bilevel_refuted"
   ],
   "note": "Proved for 8-bit pages of 1, 3 or 4 colours in any input file; refuted for 1-bit pages (P4 header followed by a maximum value)."
  },
  {
   "property": "C15",
   "status": "proved",
   "theorems": [
    "C15_cmyk_round_trip",
    "C15_rgb_page",
    "C15_invert"
   ],
   "note": "RGB to CMYK to RGB through pdf2printable's copy and the decoder is the identity on every 24-bit page; inverting is an involution"
  },
  {
   "property": "C16",
   "status": "partial",
   "theorems": [
    "C16_exact_grammar_partial",
    "C16_accepts_grammar",
    "C16_raises_refuted",
    "C16_reject_clears_ranges"
   ],
   "note": "For every string: accepted exactly on the grammar with exactly its ranges, or rejected. Refuted part: a number of 2^64 or more raises std::out_of_range. Also recorded: rejection empties the stored ranges."
  },
  {
   "property": "C17",
   "status": "proved",
   "theorems": [
    "C17_one_copy",
    "C17_selection_meaning",
    "C17_in_order",
    "C17_endless_at_size_max"
   ],
   "note": "For ranges starting at 1 or later (all that setPageRange stores) and page counts below 2^64 - 1; at that page count the loop does not end."
  },
  {
   "property": "C18",
   "status": "proved",
   "theorems": [
    "C18_collated_copies",
    "C17_one_copy"
   ],
   "note": ""
  },
  {
   "property": "C19",
   "status": "proved",
   "theorems": [
    "C19_uncollated_one_sided",
    "C19_uncollated_two_sided"
   ],
   "note": ""
  },
  {
   "property": "C20",
   "status": "partial",
   "theorems": [
    "C20_accepts_exactly_partial",
    "C20_name_unambiguous",
    "C20_sets_size_partial",
    "C20_not_nearest_refuted",
    "C20_raises_refuted"
   ],
   "note": "Grammar exactly; integers exact, decimals within relative 2^-51. Refuted: the stored double is not always the nearest to the decimal (1.14), and numbers of 64 bits or more raise."
  },
  {
   "property": "C21",
   "status": "proved",
   "theorems": [
    "C21_geometry"
   ],
   "note": "For paper sizes from 0 to 10^7 units and positive resolutions; the header part when the values fit the 32-bit header fields."
  },
  {
   "property": "C22",
   "status": "partial",
   "theorems": [
    "C22_split_join_partial",
    "C22_join_split_partial",
    "C22_join_is_glue",
    "C22_long_delimiter_refuted",
    "C22_any_delimiter",
    "C22_first_character"
   ],
   "note": "Proved for all strings and all one-character delimiters. Refuted for longer delimiters: the position advances by one character only. For delimiters of any length the result is stated exactly (C22_any_delimiter): the text is cut wherever the delimiter begins, and joining with its first character gives the text back."
  },
  {
   "property": "C23",
   "status": "partial",
   "theorems": [
    "C23_exact_effect",
    "C23_normalises_partial",
    "C23_spec_functional",
    "C23_crlf_refuted"
   ],
   "note": "The exact effect is proved for all texts and the claim for texts without CR LF; refuted for texts that already have CR LF, which become LF CR LF-like sequences with extra line breaks."
  },
  {
   "property": "C24",
   "status": "proved",
   "theorems": [
    "C24_accepts",
    "C24_refuses",
    "C24_exactly",
    "C24_values",
    "C24_sub_commands",
    "C24_sub_command_values"
   ],
   "note": "Number syntax is that of std::stoi/stol/stoul (leading blanks and trailing characters accepted). The switch tables of ppm2pwg and bsplit are modelled."
  },
  {
   "property": "C25",
   "status": "proved",
   "theorems": [
    "C25_round_trip",
    "C25_injective"
   ],
   "note": "For well-formed messages (values matching their tags, at least two elements in a set, names and strings below 65536 bytes); the request id is written but the decoder discards it; job groups without attributes are not sent."
  },
  {
   "property": "C26",
   "status": "partial",
   "theorems": [
    "C26_terminates",
    "C26_undefined_only_when_cut_off_partial",
    "C26_safe_without_collections",
    "C26_safe_refuted"
   ],
   "note": "Refuted as stated: attrs.front() on an empty list when a collection is cut off (C26_safe_refuted). Proved: every input ends, and undefined behaviour only follows a cut-off collection. Recursion depth (stack use) is not modelled."
  },
  {
   "property": "C27",
   "status": "proved",
   "theorems": [
    "C27_order",
    "C27_mandatory_first"
   ],
   "note": ""
  },
  {
   "property": "C28",
   "status": "proved",
   "theorems": [
    "C28_successive",
    "C28_distinct"
   ],
   "note": "Within one process and below 2^32 requests; setReqId resets are outside the claim."
  },
  {
   "property": "C29",
   "status": "partial",
   "theorems": [
    "C29_any_following_partial",
    "C29_encoded_partial",
    "C29_refuted"
   ],
   "note": "Refuted for document data beginning with two zero bytes; proved for every other document."
  },
  {
   "property": "C30",
   "status": "partial",
   "theorems": [
    "C30_full_or_raises_partial",
    "C30_overlong_refuted"
   ],
   "note": "Refuted for names and strings of 65536 bytes and more, whose length field wraps; proved below that."
  },
  {
   "property": "C31",
   "status": "partial",
   "theorems": [
    "C31_round_trip_partial",
    "C31_attrs_round_trip_partial",
    "C31_wire_attributes_partial",
    "C31_date_refuted"
   ],
   "note": "Proved for every attribute without dates (nested collections and sets included). Refuted for dates, which come back as strings. Text form of json11 is assumed to be the identity on the tree."
  },
  {
   "property": "C32",
   "status": "proved",
   "theorems": [
    "C32_set",
    "C32_unset",
    "C32_sequences",
    "C32_job_settings",
    "C32_distinct",
    "C32_places"
   ],
   "note": "for every job setting without a container, and for arbitrary sequences of set and unset over all job settings"
  },
  {
   "property": "C33",
   "status": "proved",
   "theorems": [
    "C33_last_member",
    "C33_set_unset",
    "C33_no_empty_collection"
   ],
   "note": "for attributes whose media-col, if present, is a non-empty collection: the invariant kept by every sequence of set and unset"
  },
  {
   "property": "C34",
   "status": "partial",
   "theorems": [
    "C34_automatic_partial",
    "C34_chosen",
    "C34_error",
    "C34_chosen_refuted"
   ],
   "note": "Proved for a format chosen automatically (user set none, or octet-stream): advertised (list, default or device-id) and reachable from the input, or octet-stream as last resort. Refuted when the user sets document-format: it is taken unchecked (C34_chosen_refuted)."
  },
  {
   "property": "C35",
   "status": "proved",
   "theorems": [
    "C35_copies_once"
   ],
   "note": "Copies are made by the printer or by the client, never both, for every successful finalize on well-formed attributes."
  },
  {
   "property": "C36",
   "status": "proved",
   "theorems": [
    "C36_page_ranges_once",
    "C36_new_job"
   ],
   "note": "Page ranges are applied by exactly one side."
  },
  {
   "property": "C37",
   "status": "partial",
   "theorems": [
    "C37_pwg_partial",
    "C37_urf_partial",
    "C37_wrap_refuted"
   ],
   "note": "Nearest supported resolution, for values below 2^30. Refuted beyond: the uint32 difference wraps (C37_wrap_refuted)."
  },
  {
   "property": "C38",
   "status": "proved",
   "theorems": [
    "C38_margins",
    "C38_other_members"
   ],
   "note": "Borderless margins and preservation of the other members of media-col."
  },
  {
   "property": "C39",
   "status": "partial",
   "theorems": [
    "C39_copy_partial",
    "C39_copy_refuted"
   ],
   "note": "Refuted: the copy constructor drops the device-id formats; proved when there are none."
  },
  {
   "property": "C40",
   "status": "proved",
   "theorems": [
    "C40_first",
    "C40_sound_complete",
    "C40_can_convert",
    "C40_not_raw",
    "C40_input_formats"
   ],
   "note": ""
  },
  {
   "property": "C41",
   "status": "proved",
   "theorems": [
    "C41_total",
    "C41_parse_total",
    "C41_sound",
    "C41_complete"
   ],
   "note": "Names are decoded or an exception is thrown, for every datagram and position; names read are in the datagram (the code takes labels up to 191 bytes and 12-bit references); all RFC names are read in datagrams up to 4096 bytes. Finding: references are masked with 0x0fff instead of 0x3fff."
  },
  {
   "property": "C42",
   "status": "proved",
   "theorems": [
    "C42_questions",
    "C42_unique",
    "C42_own_reader"
   ],
   "note": "For names with labels of 1..63 bytes and queries up to 4096 bytes, as in the property."
  },
  {
   "property": "C43",
   "status": "proved",
   "theorems": [
    "C43_once",
    "C43_backed",
    "C43_reported"
   ],
   "note": "C43_reported adds that every printer made up by the latest records is reported."
  },
  {
   "property": "C44",
   "status": "partial",
   "theorems": [
    "C44_refuted",
    "C44_one_datagram_partial"
   ],
   "note": "refuted: ippsIpRps is local to one update() call, so an ipp printer heard of in a later datagram is reported although its ipps address was. Within one datagram the preference holds."
  },
  {
   "property": "C45",
   "status": "partial",
   "theorems": [
    "C45_refuted",
    "C45_prompt_partial",
    "C45_only_expiry_partial",
    "C45_exactly"
   ],
   "note": "refuted: sendQuery erases from _outstandingQueries in a range-for over it. The sessions that are undefined are known exactly (C45_exactly): those that ask anything more than two seconds after their start; all others end normally."
  },
  {
   "property": "C46",
   "status": "partial",
   "theorems": [
    "C46_refuted",
    "C46_forged_refuted",
    "C46_consistent_partial",
    "C46_txt_partial"
   ],
   "note": "refuted: the length check follows the last break of the switch and is dead code. Records whose content agrees with the length field are followed exactly."
  },
  {
   "property": "C47",
   "status": "proved",
   "theorems": [
    "C47_exclusive",
    "C47_prefix",
    "C47_complete",
    "C47_refused"
   ],
   "note": "All interleavings of the step relation of CurlModel.v, all chunk lists and read sizes. Mutexes are binary semaphores and memory is sequentially consistent (the C++ standard leaves the protocol undefined); curl is assumed not to call back after 0. For uncompressed jobs the delivered bytes are compared with the program; compressed ones are C49."
  },
  {
   "property": "C48",
   "status": "proved",
   "theorems": [
    "C48_progress",
    "C48_bounded",
    "C48_terminates"
   ],
   "note": "For programs ending with await (the destructor) and any compressor satisfying zlib_ok (deflate consumes all unless its room is used up, and has bounded output). The transfer may end between any two callbacks."
  },
  {
   "property": "C49",
   "status": "proved",
   "theorems": [
    "C49_order",
    "C49_complete"
   ],
   "note": "All interleavings and any compressor. A second setCompression throws; the statement covers the calls before it."
  },
  {
   "property": "C50",
   "status": "partial",
   "theorems": [
    "C50_refuted",
    "C50_indistinguishable"
   ],
   "note": "Refuted: after a failed conversion the destructor of the streamer ends the upload normally, and the truncated document is sent exactly like a complete one."
  },
  {
   "property": "C51",
   "status": "proved",
   "theorems": [
    "C51_stream",
    "C51_first_failure"
   ],
   "note": "the written stream is the file header followed by every selected page in order; the first failing write stops the conversion and is reported"
  },
  {
   "property": "C52",
   "status": "partial",
   "theorems": [
    "C52_defined_partial",
    "C52_black_and_white",
    "C52_complement",
    "C52_overflow_refuted"
   ],
   "note": "refuted for pages of 61356676 lines, where the debts of the first column overflow int; proved below 2^25 lines (cairo surfaces stop at 32767)"
  },
  {
   "property": "C53",
   "status": "partial",
   "theorems": [
    "C53_gray_partial",
    "C53_black_partial",
    "C53_extremes",
    "C53_neutral_refuted",
    "C53_neutral_black"
   ],
   "note": "refuted for neutrality in Gray8: 65 of 256 neutral greys come out one darker. Proved for all pixels: the value lies between the darkest component minus one and the brightest, and is the luminance rounded down (one less only where the luminance is a whole number); black and white are exact; Black8 is exact on all neutral greys"
  },
  {
   "property": "C54",
   "status": "partial",
   "theorems": [
    "C54_fill_partial",
    "C54_aspect_partial",
    "C54_fit_refuted",
    "C54_aspect_refuted"
   ],
   "note": "refuted: an A4 page of 595x842 points does not fit A4 (595x841 whole points) because the scale is rounded to two decimals; with resolutions that are not multiples of each other (300x200) integer division loses the aspect. Proved: same scale in both directions and the page fills the area within 0.52 % of its size for equal resolutions; same physical scale to one part in 2^53 when one resolution is a multiple of the other"
  },
  {
   "property": "C55",
   "status": "partial",
   "theorems": [
    "C55_pieces",
    "C55_negative_partial",
    "C55_refused",
    "C55_nothing",
    "C55_bad_command_line",
    "C55_negative_large_refuted",
    "C55_program",
    "C55_program_tail",
    "C55_command_line"
   ],
   "note": "Proved for files below 2 GiB and for non-negative offsets. Refuted for negative offsets in files of 2 GiB and more (int arithmetic)."
  },
  {
   "property": "C56",
   "status": "partial",
   "theorems": [
    "C56_detected_partial",
    "C56_local_partial",
    "C56_half_tiff_refuted",
    "C56_refuted"
   ],
   "note": "refuted: files beginning with MM (or II* without the NUL) are called TIFF although the signature is incomplete; for all other files the detected type is the one whose signature the file begins with, and depends on the first bytes only"
  },
  {
   "property": "C57",
   "status": "proved",
   "theorems": [
    "C57_supplies",
    "C57_total",
    "C57_firmware"
   ],
   "note": ""
  },
  {
   "property": "C58",
   "status": "proved",
   "theorems": [
    "C58_request",
    "C58_on_the_wire"
   ],
   "note": ""
  },
  {
   "property": "C59",
   "status": "partial",
   "theorems": [
    "C59_network_partial",
    "C59_no_exception",
    "C59_create_failure",
    "C59_success_reported",
    "C59_file_partial",
    "C59_file_refuted",
    "C59_last_success_refuted",
    "C59_file_where"
   ],
   "note": "refuted: for file:// printers the error of the conversion is dropped and success reported; and the success status 0x00ff is reported as failure. Proved: network printers report success only after the whole exchange, with everything converted, went well"
  },
  {
   "property": "C60",
   "status": "proved",
   "theorems": [
    "C60_torn_file",
    "C60_all_or_nothing",
    "C60_written_text",
    "C60_parser"
   ],
   "note": "for settings without dates (C31) and a JSON parser that accepts only JSON texts and reads back what was written (json11 is a submodule that is not in the repository); C60_parser shows that such parsers exist"
  },
  {
   "property": "C61",
   "status": "partial",
   "theorems": [
    "C61_whole_millimetres",
    "C61_within_one_partial",
    "C61_inches_partial",
    "C61_letter_refuted"
   ],
   "note": "Whole-millimetre names are sent exactly; names with up to two decimals exactly or one hundredth too small; inch names (below 10000 inches, up to 15 decimals) within 1.51 hundredths below and 0.51 above, and exactly or one too small when they are a whole number of hundredths; refuted in general: US letter is sent as 215.90 x 279.39 mm (C61_letter_refuted)."
  },
  {
   "property": "C62",
   "status": "partial",
   "theorems": [
    "C62_exact",
    "C62_percentage",
    "C62_undefined_refuted"
   ],
   "note": "refuted: levels far above the high level leave int's range (undefined conversion). Proved exact whenever the result is an int"
  },
  {
   "property": "C63",
   "status": "partial",
   "theorems": [
    "C63_cancel",
    "C63_answered_partial",
    "C63_status_ignored_refuted",
    "C63_jobs"
   ],
   "note": "refuted for identify, setAttributes, getJobs and refresh, which ignore the status; proved for cancelJob"
  },
  {
   "property": "C64",
   "status": "proved",
   "theorems": [
    "C64_no_match",
    "C64_only_listed",
    "C64_applied"
   ],
   "note": ""
  },
  {
   "property": "C65",
   "status": "proved",
   "theorems": [
    "C65_additional_formats",
    "C65_inputs",
    "C65_job"
   ],
   "note": ""
  },
  {
   "property": "C66",
   "status": "proved",
   "theorems": [
    "C66_warning"
   ],
   "note": ""
  },
  {
   "property": "C67",
   "status": "partial",
   "theorems": [
    "C67_plain_uuid_partial",
    "C67_refuted"
   ],
   "note": "refuted: a uuid with slashes names any file of the user; proved for uuids without slashes"
  },
  {
   "property": "C68",
   "status": "partial",
   "theorems": [
    "C68_with_user_partial",
    "C68_settings_refuted",
    "C68_refresh_refuted"
   ],
   "note": "refuted: CONFIG_DIR adds getenv's null pointer to a string"
  },
  {
   "property": "C69",
   "status": "proved",
   "theorems": [
    "C69_json_file",
    "C69_message_file",
    "C69_failure_keeps"
   ],
   "note": ""
  },
  {
   "property": "C70",
   "status": "partial",
   "theorems": [
    "C70_accepted",
    "C70_refused_partial",
    "C70_nothing_sent_partial",
    "C70_success"
   ],
   "note": "refusal needs printer attributes of the standard types and qualities (C75) and page numbers of at most 64 bits (C16)"
  },
  {
   "property": "C71",
   "status": "proved",
   "theorems": [
    "C71_pages"
   ],
   "note": ""
  },
  {
   "property": "C72",
   "status": "proved",
   "theorems": [
    "C72_pairs",
    "C72_other_text"
   ],
   "note": ""
  },
  {
   "property": "C73",
   "status": "partial",
   "theorems": [
    "C73_any_value_refuted"
   ],
   "note": "refuted: values with a comma or equals sign cannot be given"
  },
  {
   "property": "C74",
   "status": "partial",
   "theorems": [
    "C74_refuted",
    "C74_single_partial"
   ],
   "note": "refuted: the flag for the separator is never cleared"
  },
  {
   "property": "C75",
   "status": "partial",
   "theorems": [
    "C75_standard_partial",
    "C75_quality_refuted"
   ],
   "note": "refuted: a quality other than 3..5 in print-quality-supported raises std::out_of_range for every print command"
  },
  {
   "property": "C76",
   "status": "partial",
   "theorems": [
    "C76_members_partial",
    "C76_refuted"
   ],
   "note": "refuted: ranges up to INT_MAX overflow the loop variable"
  },
  {
   "property": "C77",
   "status": "proved",
   "theorems": [
    "C77_options",
    "C77_bad_value",
    "C77_help"
   ],
   "note": "The options come before the two file names, as ArgGet wants them. Help texts and verbose output are not modelled."
  },
  {
   "property": "C78",
   "status": "proved",
   "theorems": [
    "C78_quality",
    "C78_duplex",
    "C78_sides",
    "C78_collated",
    "C78_color",
    "C78_media",
    "C78_back_side",
    "C78_back_side_unique"
   ],
   "note": "C78_sides for page counts and copies below 2^31, page ranges from 1 on and a job whose duplex mode is still the initial one."
  },
  {
   "property": "C79",
   "status": "partial",
   "theorems": [
    "C79_options",
    "C79_bad_value",
    "C79_help",
    "C79_malformed_partial",
    "C79_exception_refuted"
   ],
   "note": "Options proved for all sequences with selections in their grammars; malformed ones without over-long numbers are refused; refuted: a number of more than 64 bits in --pages or --paper-size escapes as an exception."
  },
  {
   "property": "C80",
   "status": "partial",
   "theorems": [
    "C80_complete_partial",
    "C80_exit_ignores_output",
    "C80_exit_refuted",
    "C80_same_file_refuted",
    "C80_where"
   ],
   "note": "Proved when the device takes everything; refuted: the exit code does not depend on the output file; with the same file for both the document is lost."
  },
  {
   "property": "C81",
   "status": "partial",
   "theorems": [
    "C81_named_file_partial",
    "C81_other_file_refuted",
    "C81_no_file_refuted",
    "C81_read"
   ],
   "note": "Proved for paths without % and #; refuted: the path is used as a URI without escaping."
  },
  {
   "property": "C82",
   "status": "partial",
   "theorems": [
    "C82_delivers_partial",
    "C82_within_file",
    "C82_truncated_refuted",
    "C82_left"
   ],
   "note": "The bytes served are those of the file, and accesses within it stay within it; the claim as a whole is refuted: the end of the file is never reported, so that a truncated file is read past its end."
  },
  {
   "property": "C83",
   "status": "proved",
   "theorems": [
    "C83_all_written"
   ],
   "note": "For every buffer size; libjpeg's use of the manager is an assumption (DESIGN.md section 5)."
  },
  {
   "property": "C84",
   "status": "partial",
   "theorems": [
    "C84_shows_pages_partial",
    "C84_converted_file_partial",
    "C84_black_refuted"
   ],
   "note": "sRGB24, CMYK32 and Gray8, PWG and URF, all duplex and back side settings, all sizes below 2^29 x 2^32. Refuted for Black8, which pwg2ppm writes as a negative; 1-bit pages see C14_bilevel_refuted."
  },
  {
   "property": "C85",
   "status": "partial",
   "theorems": [
    "C85_received_partial",
    "C85_raster_shown_partial",
    "C85_on_the_wire",
    "C85_not_taken_refuted",
    "C85_empty_chunks"
   ],
   "note": "Refuted in part: JustUpload, FixupText and Baselinify ignore that the upload refused the document (C85_not_taken_refuted). For PDF documents success implies a complete upload. Raster contents: 8 bit modes except Black8 (C84)."
  },
  {
   "property": "C86",
   "status": "partial",
   "theorems": [
    "C86_extension",
    "C86_no_extension",
    "C86_classes",
    "C86_images",
    "C86_pages",
    "C86_injective",
    "C86_detected",
    "C86_text_refuted"
   ],
   "note": "All table properties proved. Refuted: a job whose target format is text/plain (or any other format without an extension) cannot be printed to a file; C86_text_refuted shows that no such job succeeds."
  },
  {
   "property": "C87",
   "status": "partial",
   "theorems": [
    "C87_output_determines_partial",
    "C87_encoded_partial",
    "C87_dates_refuted",
    "C87_malformed_refuted",
    "C87_exit_code",
    "C87_lines"
   ],
   "note": "Proved for all encoded messages whose dates have offsets of at most two digits, and for all files whose messages have no dates. Refuted: dates with offsets of three digits are ambiguous (C87_dates_refuted); a malformed message ends with exit code 0, though with an empty standard output exactly then (C87_malformed_refuted)."
  },
  {
   "property": "C88",
   "status": "partial",
   "theorems": [
    "C88_colors",
    "C88_supply",
    "C88_unknown_refuted",
    "C88_info",
    "C88_info_exit",
    "C88_jobs",
    "C88_attributes_partial"
   ],
   "note": "Proved: sections, stanzas, percentages, colours, jobs, and get-attrs for attributes that fit their tags with dates whose offsets have at most two digits. Refuted: a supply whose level is unknown (negative) is shown as low."
  },
  {
   "property": "C89",
   "status": "partial",
   "theorems": [
    "C89_total_partial",
    "C89_print_partial",
    "C89_refuted"
   ],
   "note": "Proved when the attributes read have the types of the standard, sizes are below 10000 mm or inches, resolutions below 2^30, trays are among those the program numbers and urf-supported entries are well formed. Refuted without these (C89_refuted): an unknown tray, an RS entry without a number, over-long numbers and wrong types raise; a size of 100 km is undefined behaviour. runJob turns the exceptions into error messages."
  },
  {
   "property": "C90",
   "status": "partial",
   "theorems": [
    "C90_message",
    "C90_help",
    "C90_sub_help",
    "C90_sub_message",
    "C90_unknown_refuted"
   ],
   "note": "The messages are characterised exactly (C90_message, C90_sub_message) and the layout of the help is proved. Refuted in one point (C90_unknown_refuted): when there are too many positional arguments the message names the first of them, which is in order, and not one that is too much."
  },
  {
   "property": "C91",
   "status": "partial",
   "theorems": [
    "C91_ppm2pwg_partial",
    "C91_bsplit",
    "C91_baselinify_partial",
    "C91_round_trip_partial",
    "C91_refuted",
    "C91_bsplit_stdout",
    "C91_ppm2pwg_stdout",
    "C91_ppm2pwg_stdin_partial",
    "C91_baselinify_streams",
    "C91_missing_input"
   ],
   "note": "Proved when the output file is not the input file (bsplit: also then), can be written and has room. Refuted otherwise (C91_refuted): ppm2pwg and baselinify empty the output before they read the input and so destroy an input that is also the output; writing errors and a full disk are not noticed and the exit code is 0."
  },
  {
   "property": "C92",
   "status": "partial",
   "theorems": [
    "C92_help",
    "C92_other_words",
    "C92_open",
    "C92_no_printer",
    "C92_info",
    "C92_get_attrs",
    "C92_identify",
    "C92_get_jobs",
    "C92_cancel",
    "C92_set_attrs",
    "C92_print",
    "C92_refused_partial",
    "C92_unknown_type"
   ],
   "note": "All parts are proved in full but one: that demands that cannot be met end the client with 1 is proved for printers whose attributes have the types they should have and whose qualities are known, and page numbers below 2^64 (otherwise an exception ends the client, see C70 and C75)."
  },
  {
   "property": "C93",
   "status": "proved",
   "theorems": [
    "C93_read",
    "C93_reported"
   ],
   "note": "Longer messages are subject to the 12 bit mask of references (see C41); malformed ones to C46."
  },
  {
   "property": "C94",
   "status": "proved",
   "theorems": [
    "C94_questions",
    "C94_readable"
   ],
   "note": "For sessions with a defined outcome; C45 tells which ones have none. That the bytes sent are the questions is C42, applied to each query in C94_readable."
  },
  {
   "property": "C95",
   "status": "partial",
   "theorems": [
    "C95_words",
    "C95_lines_partial",
    "C95_lines_refuted",
    "C95_silence_refuted",
    "C95_queries"
   ],
   "note": "refuted in two points: a path in a TXT record may contain a line break, so that the output has a line for a host of which nothing was received (C95_lines_refuted), and an empty datagram ends the search like a pause (C95_silence_refuted). Without both it is proved (C95_lines_partial). Sessions without a defined outcome: C45."
  },
  {
   "property": "C96",
   "status": "partial",
   "theorems": [
    "C96_determined",
    "C96_url",
    "C96_refuted",
    "C96_requests",
    "C96_announced_partial",
    "C96_announced_refuted"
   ],
   "note": "refuted for addresses without a port: the standards say port 631, the client contacts 80 or 443 (C96_refuted); discovery leaves out the port 631 of ipp printers, so these are contacted at port 80 (C96_announced_refuted). Addresses with a port, all ipps printers found, and ipp printers found at other ports are contacted where they say."
  },
  {
   "property": "C97",
   "status": "partial",
   "theorems": [
    "C97_raster_partial",
    "C97_points",
    "C97_uneven_refuted"
   ],
   "note": "refuted for resolutions neither of which is a multiple of the other: at 300 x 200 dpi the page lies at the left edge (C97_uneven_refuted). Otherwise proved for bitmaps up to 2^20 pixels and pages up to 2^20 points a side."
  },
  {
   "property": "C98",
   "status": "partial",
   "theorems": [
    "C98_posted",
    "C98_length",
    "C98_streamed",
    "C98_client",
    "C98_verified_partial",
    "C98_verified_refuted",
    "C98_client_refuted"
   ],
   "note": "the verification of certificates is refuted: the request with the document ignores TLS errors whatever ignoreSslErrors is (C98_verified_refuted), and ippclient ignores them always (C98_client_refuted). The rest is proved."
  },
  {
   "property": "C99",
   "status": "partial",
   "theorems": [
    "C99_same",
    "C99_reason",
    "C99_printed",
    "C99_no_id_refuted",
    "C99_file_partial",
    "C99_file_refuted",
    "C99_commands"
   ],
   "note": "refuted in two points: without a job-id in the response a job 0 is spoken of (C99_no_id_refuted), and a failed conversion to a file ends with 0 and says nothing (C99_file_refuted). The rest is proved."
  }
 ]
}
