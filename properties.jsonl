{"id": "C01", "title": "Encoded page body is a conforming raster stream for the bitmap", "statement": "Encoding a bitmap of H lines with bmp_to_pwg produces, after the page header, a byte sequence that the PWG Raster (5102.4) / URF grammar reads as exactly the H lines of the bitmap: line-repeat bytes account for exactly H lines, repeat runs cover 1..128 chunks, literal runs cover 2..128 chunks, and the reserved control byte 128 never occurs.", "quantifier": "every bitmap content, every width, height, colour mode and both formats, front sides", "why_tests_cant": "The run/literal scanner has boundary cases (runs of 127/128/129, 255/256 equal lines, literals ending in a pair) that depend on the whole line content; no finite set of bitmaps covers them.", "anchors": ["/repo/lib/ppm2pwg.cpp:bmp_to_pwg", "/repo/lib/ppm2pwg.cpp:compress_line"]}
{"id": "C02", "title": "Decoder inverts every conforming stream", "statement": "raster_to_bmp, given any page body that conforms to the PWG/URF run-length grammar for the declared byte width, height and chunk size, returns exactly the lines the grammar denotes and consumes exactly the body, leaving the following page untouched.", "quantifier": "every conforming stream (not only streams this encoder makes), followed by any bytes", "why_tests_cant": "Other encoders choose different run splits; the set of conforming streams is infinite.", "anchors": ["/repo/lib/pwg2ppm.cpp:raster_to_bmp"]}
{"id": "C03", "title": "Encode/decode round trip of a page", "statement": "For 8-bit and 1-bit colour modes, decoding what bmp_to_pwg wrote with the byte width, height and colour count stated in the page header gives back the bitmap byte for byte.", "quantifier": "all bitmaps, all page geometries, PWG and URF where URF accepts the mode", "why_tests_cant": "Unbounded input space; errors appear only at specific run lengths.", "anchors": ["/repo/lib/ppm2pwg.cpp:bmp_to_pwg", "/repo/lib/pwg2ppm.cpp:raster_to_bmp", "/repo/utils/pwg2ppm_main.cpp"]}
{"id": "C04", "title": "Encoder touches only the bitmap", "statement": "bmp_to_pwg and compress_line never read outside the bitmap (and the line buffer) they are given, and terminate, provided the bitmap has at least height*bytesPerLine bytes; a shorter bitmap is never read past its end.", "quantifier": "all bitmaps and all page geometries", "why_tests_cant": "An out-of-bounds read is silent in most test runs and depends on geometry.", "anchors": ["/repo/lib/ppm2pwg.cpp:bmp_to_pwg", "/repo/lib/ppm2pwg.cpp:compress_line"]}
{"id": "C05", "title": "Back-side transform is the one declared in the header", "statement": "For every page of a job, reading the encoded raster and applying the CrossFeedTransform/FeedTransform declared in its PWG page header (mirror columns when -1, mirror rows when -1) gives back the bitmap handed to the encoder; front pages (odd numbers, or one-sided jobs) are never transformed.", "quantifier": "all bitmaps, page numbers, duplex modes and back-transform settings", "why_tests_cant": "2 duplex modes x 4 back transforms x formats x geometry x content; consistency between header and data is never asserted by example tests over all of them.", "anchors": ["/repo/lib/ppm2pwg.cpp:bmp_to_pwg", "/repo/lib/ppm2pwg.cpp:make_pwg_hdr", "/repo/lib/printparameters.cpp:getBackHFlip", "/repo/lib/printparameters.cpp:getBackVFlip"]}
{"id": "C06", "title": "Bilevel mirroring mirrors pixels", "statement": "When a 1-bit page is mirrored horizontally for the back side, pixel x of each line of the result equals pixel W-1-x of the original line.", "quantifier": "every line content and every pixel width W", "why_tests_cant": "The mirroring is a bit trick over bytes; correctness over all bytes and all widths needs proof.", "anchors": ["/repo/lib/ppm2pwg.cpp:bmp_to_pwg"]}
{"id": "C07", "title": "Decoder is safe on arbitrary input", "statement": "raster_to_bmp on arbitrary bytes either returns, having produced exactly height*byteWidth bytes, or raises an exception; it never hangs and never yields a bitmap of another size.", "quantifier": "all byte strings, all header values (byte width, height, colours)", "why_tests_cant": "Arbitrary hostile input; wrap-around of the height counter and overshooting lines only show on crafted data.", "anchors": ["/repo/lib/pwg2ppm.cpp:raster_to_bmp"]}
{"id": "C08", "title": "URF 'fill with white' means white", "statement": "When a URF line contains the control byte 128, the rest of the line is decoded as white pixels of the page's colour space (0xff for grey and RGB, 0 for CMYK).", "quantifier": "all URF streams using the fill code in any colour space", "why_tests_cant": "This encoder never emits the code, so round-trip tests never meet it.", "anchors": ["/repo/lib/pwg2ppm.cpp:raster_to_bmp"]}
{"id": "C09", "title": "16-bit pages survive ppm2pwg followed by pwg2ppm", "statement": "Decoding with pwg2ppm a 16-bit-per-colour page written by this library yields the original bitmap.", "quantifier": "all 16-bit bitmaps", "why_tests_cant": "Needs to hold for each content; a uniform-colour test bitmap can pass by luck.", "anchors": ["/repo/utils/pwg2ppm_main.cpp:main", "/repo/lib/pwg2ppm.cpp:raster_to_bmp", "/repo/lib/pwg2ppm.cpp:write_ppm"]}
{"id": "C10", "title": "PWG page header has the fixed layout and is lossless", "statement": "The PWG page header written for a page is exactly 1796 bytes with every field at the offset required by PWG 5102.4, describes the page's own geometry (width, height, bits, bytes per line, colours), and decoding it returns every field.", "quantifier": "all parameter values whose strings fit 64 bytes", "why_tests_cant": "Each field ranges over 32-bit values; a swapped or mis-sized field corrupts everything behind it.", "anchors": ["/repo/lib/ppm2pwg.cpp:make_pwg_hdr", "/repo/lib/pwgpghdr.codable"]}
{"id": "C11", "title": "URF page header is lossless or refused", "statement": "make_urf_hdr either raises an exception (asymmetric resolution, colour mode URF lacks, unknown media type) or writes a 32-byte header from which bits per pixel, colour space, duplex, quality, media, size and resolution can be read back; bits-per-pixel/8 equals the compression chunk used in the body.", "quantifier": "all parameter values", "why_tests_cant": "Field combinations are unbounded; header/body agreement is a relation between two outputs.", "anchors": ["/repo/lib/ppm2pwg.cpp:make_urf_hdr", "/repo/lib/urfpghdr.codable"]}
{"id": "C12", "title": "ppm2pwg then pwg2ppm reproduces the images", "statement": "Running ppm2pwg on a file of concatenated PPM/PGM images and pwg2ppm on the result writes, page by page, images with the same dimensions and the same pixels.", "quantifier": "all sequences of well-formed 8-bit P5/P6 images (any sizes, any number of pages, comments in headers), PWG output", "why_tests_cant": "End-to-end over unbounded files.", "anchors": ["/repo/utils/ppm2pwg_main.cpp:main", "/repo/utils/pwg2ppm_main.cpp:main"]}
{"id": "C13", "title": "PPM pixel data is never mistaken for header text", "statement": "After the single whitespace that ends a PNM header, every byte is pixel data: the bitmap encoded is exactly the bytes that follow the header.", "quantifier": "all P4/P5/P6 files", "why_tests_cant": "Only pixel data starting with particular bytes (e.g. 0x23, '#') reveals it.", "anchors": ["/repo/utils/ppm2pwg_main.cpp:main", "/repo/utils/ppm2pwg_main.cpp:ignore_comments"]}
{"id": "C14", "title": "pwg2ppm writes well-formed PNM", "statement": "Every file written by pwg2ppm is a well-formed PNM file of the declared type: P5/P6 carry width, height, maxval and 1 or 3 bytes per pixel; P4 carries width and height only followed by packed rows.", "quantifier": "all pages decoded, all colour spaces", "why_tests_cant": "Depends on colour space and depth; well-formedness is a grammar over all sizes.", "anchors": ["/repo/lib/pwg2ppm.cpp:write_ppm"]}
{"id": "C15", "title": "CMYK and inversion conversions are lossless", "statement": "Converting RGB to the CMYK produced by this library and back with cmyk2rgb returns every original RGB pixel; inverting a bilevel bitmap twice is the identity and never changes its size.", "quantifier": "all pixels, all bitmap sizes", "why_tests_cant": "2^24 pixels times arbitrary lengths.", "anchors": ["/repo/lib/pwg2ppm.cpp:cmyk2rgb", "/repo/lib/pwg2ppm.cpp:invert", "/repo/lib/pdf2printable.cpp:copy_raster_buffer"]}
{"id": "C16", "title": "Page range parsing accepts exactly the documented grammar", "statement": "setPageRange accepts a string exactly when it is a comma separated list of pages N or ranges N-M, N- with N>=1, strictly increasing and non-overlapping; on acceptance it stores exactly those ranges, otherwise it reports failure and never raises.", "quantifier": "all strings", "why_tests_cant": "Infinite grammar; off-by-one at boundaries between ranges, zero, very long digit strings.", "anchors": ["/repo/lib/printparameters.cpp:parsePageRange", "/repo/lib/printparameters.cpp:setPageRange"]}
{"id": "C17", "title": "Selected pages are the requested ones, in order", "statement": "The page sequence printed for one one-sided copy is exactly the ranges' pages in order, clipped to the document's page count; without ranges it is 1..n.", "quantifier": "all page counts, all lists of ranges", "why_tests_cant": "Unbounded lists of ranges and page counts.", "anchors": ["/repo/lib/printparameters.cpp:getPageSequence"]}
{"id": "C18", "title": "Every copy of a duplex job starts on a fresh sheet and each requested page is printed 'copies' times", "statement": "For collated two-sided jobs with several copies the page sequence is the concatenation of identical copies, each padded with at most one blank to an even number of sides; removing blanks, every page occurs exactly copies times its multiplicity in the selection; no padding with one copy or one-sided.", "quantifier": "all page selections, copy counts, duplex modes", "why_tests_cant": "Parity interactions across unbounded copies/pages.", "anchors": ["/repo/lib/printparameters.cpp:getPageSequence"]}
{"id": "C19", "title": "Uncollated copies keep sheets intact", "statement": "For uncollated jobs the page sequence is, for each sheet of a single copy in order, that sheet (one page one-sided; front and back two-sided, padded with a blank) repeated 'copies' times; the pairwise iteration never runs past the end of the sequence.", "quantifier": "all page selections, copy counts, duplex modes", "why_tests_cant": "Iterator-past-the-end depends on parity over all lengths.", "anchors": ["/repo/lib/printparameters.cpp:getPageSequence"]}
{"id": "C20", "title": "Media size names parse exactly", "statement": "setPaperSize accepts a self-describing name exactly when it has the form <class_name>_<W>x<H>(mm|in) with decimal numbers; it then sets exactly W, H and the unit, otherwise leaves all parameters unchanged.", "quantifier": "all strings", "why_tests_cant": "Infinite grammar (names contain digits, underscores and x).", "anchors": ["/repo/lib/printparameters.cpp:setPaperSize"]}
{"id": "C21", "title": "Page geometry is self-consistent", "statement": "For every colour mode, bytes per line is the least number of bytes holding the pixel width, is a whole number of compression chunks, and header bits-per-pixel, colours and bytes-per-line agree with each other and with the bitmap size the renderer allocates.", "quantifier": "all paper sizes, resolutions and colour modes", "why_tests_cant": "Relation between several getters over unbounded sizes.", "anchors": ["/repo/lib/printparameters.cpp:getPaperSizeWInBytes", "/repo/lib/printparameters.cpp:getPaperSizeInBytes", "/repo/lib/printparameters.cpp:getNumberOfColors", "/repo/lib/printparameters.cpp:getBitsPerColor"]}
{"id": "C22", "title": "split/join are inverse", "statement": "Joining the pieces returned by split_string with the same delimiter gives back the original string, and no piece contains the delimiter.", "quantifier": "all strings and all non-empty delimiters", "why_tests_cant": "Unbounded strings; overlapping delimiter occurrences.", "anchors": ["/repo/lib/stringutils.h:split_string", "/repo/lib/stringutils.h:join_string"]}
{"id": "C23", "title": "Plain-text fixup normalises line ends and nothing else", "statement": "The text conversion turns every LF and every CRLF line end of a document into exactly one CRLF and leaves all other bytes unchanged; applying it twice changes nothing more.", "quantifier": "all text documents", "why_tests_cant": "Depends on byte patterns anywhere in the document.", "anchors": ["/repo/lib/converter.h:FixupText", "/repo/lib/stringutils.h"]}
{"id": "C24", "title": "Command line parsing", "statement": "get_args succeeds exactly when the arguments are a sequence of known switches (each followed by its parsable value where it takes one) followed by exactly the required positional arguments; then every option holds the value of its last occurrence, untouched options keep their default, and every argument has been consumed; otherwise an error is reported.", "quantifier": "all option sets and all argument vectors", "why_tests_cant": "Unbounded argument lists with values that look like switches.", "anchors": ["/repo/lib/argget.h:ArgGet", "/repo/lib/argget.h:get_args"]}
{"id": "C25", "title": "IPP message round trip", "statement": "Decoding an encoded IPP message returns the same operation/status, version, request id, operation attributes, job attribute groups and printer attributes, including nested collections and sets of values, for every message whose values fit the wire format.", "quantifier": "all well-formed messages (any number of attributes, any nesting of collections and sets)", "why_tests_cant": "Recursive, unbounded data; the format is implicit (unnamed values, begin/end markers).", "anchors": ["/repo/lib/ippmsg.cpp:IppMsg::encode", "/repo/lib/ippmsg.cpp:IppMsg::IppMsg(Bytestream&)", "/repo/lib/ippmsg.cpp:collectAttributes"]}
{"id": "C26", "title": "IPP decoder is safe on arbitrary input", "statement": "Decoding arbitrary bytes as an IPP message terminates with a message or an exception, with no undefined behaviour.", "quantifier": "all byte strings", "why_tests_cant": "Printers and files are untrusted; malformed nesting is unbounded.", "anchors": ["/repo/lib/ippmsg.cpp:consumeAttributes", "/repo/lib/ippmsg.cpp:collectAttributes", "/repo/lib/ippmsg.cpp:getUnnamedAttributes"]}
{"id": "C27", "title": "Mandatory operation attributes come first", "statement": "In every encoded request the operation attribute group comes first and starts with attributes-charset, then attributes-natural-language, then (when present) printer-uri, job-id, requesting-user-name, then all others, each attribute exactly once, as RFC 8011 requires.", "quantifier": "all requests", "why_tests_cant": "Must hold for every attribute set.", "anchors": ["/repo/lib/ippmsg.cpp:IppMsg::encode", "/repo/lib/ippmsg.cpp:encodeAttributes"]}
{"id": "C28", "title": "Request ids are unique in a session", "statement": "Each message encoded by a client gets the successor of the previous request id, so ids are pairwise distinct over any run of fewer than 2^32 requests.", "quantifier": "all histories of requests", "why_tests_cant": "History property.", "anchors": ["/repo/lib/ippmsg.cpp:IppMsg::encode", "/repo/lib/ippmsg.h:_reqId"]}
{"id": "C29", "title": "Document data does not influence message decoding", "statement": "Decoding a message followed by document data gives the same message as decoding it alone, whatever the data.", "quantifier": "all messages and all following bytes", "why_tests_cant": "Only data starting with specific bytes interferes.", "anchors": ["/repo/lib/ippmsg.cpp:getUnnamedAttributes", "/repo/lib/ippmsg.cpp:IppMsg::IppMsg(Bytestream&)"]}
{"id": "C30", "title": "No silent truncation when encoding IPP", "statement": "Encoding either represents every name and value in full or raises; in particular a string value too long for its 16-bit length field is refused.", "quantifier": "all messages, including over-long strings", "why_tests_cant": "Needs all lengths.", "anchors": ["/repo/lib/ippmsg.cpp:encodeValue", "/repo/lib/ippmsg.cpp:encodeAttribute"]}
{"id": "C31", "title": "Attribute JSON round trip", "statement": "IppAttr::fromJSON(attr.toJSON()) equals attr for every attribute, including nested collections and sets, so saved job settings restore to what was saved.", "quantifier": "all attributes of every value type", "why_tests_cant": "Recursive unbounded values, value type dispatch.", "anchors": ["/repo/lib/ippattr.cpp:toJSON", "/repo/lib/ippattr.cpp:fromJSON", "/repo/lib/ippprintjob.cpp:saveSettings", "/repo/lib/ippprintjob.cpp:restoreSettings"]}
{"id": "C32", "title": "Settings behave like independent variables", "statement": "After set(v), get() returns v and isSet() is true; after unset() isSet() is false and get() returns the printer's default; setting or unsetting one setting does not change any other setting, including the media-col members.", "quantifier": "all sequences of set/unset over all settings", "why_tests_cant": "Arbitrary histories over shared nested storage.", "anchors": ["/repo/lib/setting.h:Setting", "/repo/lib/ippprintjob.h"]}
{"id": "C33", "title": "Unset leaves no debris", "statement": "Removing the last media-col member removes media-col itself; set followed by unset of a previously unset setting restores the job attributes exactly.", "quantifier": "all job attribute states", "why_tests_cant": "State-dependent on arbitrary prior content.", "anchors": ["/repo/lib/setting.h:Setting::unset"]}
{"id": "C34", "title": "Chosen document format is supported and reachable", "statement": "If finalizing a job succeeds, the format the document is converted to is either one the printer advertises (or the device-id adds) and that can be produced from the input, or application/octet-stream pass-through chosen because nothing else fits; otherwise an error is returned.", "quantifier": "all printers (format lists, defaults), inputs and user settings", "why_tests_cant": "Decision tree over unbounded lists.", "anchors": ["/repo/lib/ippprintjob.cpp:finalize", "/repo/lib/ippprintjob.cpp:determineTargetFormat"]}
{"id": "C35", "title": "Copies are made exactly once", "statement": "When a job asks for n copies, either the printer is asked for n copies and the rasterizer makes one, or the rasterizer makes n and the printer is asked for none; never both or neither.", "quantifier": "all printers, formats, copy counts", "why_tests_cant": "Interaction of printer capability, format and settings.", "anchors": ["/repo/lib/ippprintjob.cpp:adjustRasterSettings"]}
{"id": "C36", "title": "Page ranges are applied exactly once", "statement": "Requested page ranges are applied either locally (PDF input) or by the printer (sent unchanged), never both or neither, and local ranges equal the requested ones.", "quantifier": "all jobs", "why_tests_cant": "Interaction of input format and settings.", "anchors": ["/repo/lib/ippprintjob.cpp:finalize"]}
{"id": "C37", "title": "Raster resolution is the nearest supported", "statement": "For PWG raster the resolution used is one the printer supports, in dots per inch, with minimal total distance to the requested one; for URF it is the nearest supported RS value and equal in both directions.", "quantifier": "all supported lists and requests", "why_tests_cant": "Minimum over unbounded lists, unsigned arithmetic.", "anchors": ["/repo/lib/ippprintjob.cpp:adjustRasterSettings"]}
{"id": "C38", "title": "Margins reach the printer only for images", "statement": "Media margins are sent to the printer unchanged for image formats; for all other formats they are removed from the job and used locally.", "quantifier": "all jobs and formats", "why_tests_cant": "Interaction with nested media-col storage.", "anchors": ["/repo/lib/ippprintjob.cpp:finalize"]}
{"id": "C39", "title": "A job keeps its printer's capabilities when copied", "statement": "Copying a print job preserves everything that influences format selection, so submitting a job by value selects the same format as the original.", "quantifier": "all jobs and printers", "why_tests_cant": "Only differs for printers whose formats come from the device id.", "anchors": ["/repo/lib/ippprintjob.h:IppPrintJob(const IppPrintJob&)", "/repo/lib/ippprinter.cpp:runJob"]}
{"id": "C40", "title": "Conversion selection is sound, complete and prioritised", "statement": "The converter picks the first pipeline, in priority order, that starts at the input format and ends in a supported format; the advertised possible input formats are exactly those for which a target exists, without duplicates.", "quantifier": "all input formats and supported lists", "why_tests_cant": "Unbounded lists.", "anchors": ["/repo/lib/converter.h:Converter"]}
{"id": "C41", "title": "DNS name decoding terminates", "statement": "Decoding a DNS name from any datagram, including one with cyclic compression pointers, terminates with a name or an exception and never reads outside the datagram.", "quantifier": "all datagrams and positions", "why_tests_cant": "Cycles of arbitrary length.", "anchors": ["/repo/lib/ippdiscovery.cpp:get_addr"]}
{"id": "C42", "title": "DNS queries decode to the queried names", "statement": "The query datagram built for a set of questions decodes, name by name, to exactly those questions with their types, despite name compression.", "quantifier": "all sets of questions with labels of 1..63 bytes in a datagram below 4096 bytes", "why_tests_cant": "Compression depends on shared suffixes among arbitrary names.", "anchors": ["/repo/lib/ippdiscovery.cpp:sendQuery", "/repo/lib/ippdiscovery.cpp:get_addr"]}
{"id": "C43", "title": "Each printer is reported at most once", "statement": "Over a whole discovery session the callback is never invoked twice with the same address, and every reported address is backed by received PTR, SRV, TXT and A records.", "quantifier": "all sequences of received datagrams", "why_tests_cant": "History property over arbitrary packet sequences and duplicates.", "anchors": ["/repo/lib/ippdiscovery.cpp:update", "/repo/lib/ippdiscovery.cpp:updateAndQueryPtrs"]}
{"id": "C44", "title": "IPPS is preferred over IPP", "statement": "A printer that has been reported with an ipps: address is not also reported with an ipp: address for the same host and resource path.", "quantifier": "all sequences of received datagrams", "why_tests_cant": "Depends on arrival order across packets.", "anchors": ["/repo/lib/ippdiscovery.cpp:update"]}
{"id": "C45", "title": "Expiring old queries is safe", "statement": "Sending a query when previous queries have timed out causes no undefined behaviour.", "quantifier": "all histories of queries and times", "why_tests_cant": "Iterator invalidation usually goes unnoticed in test runs.", "anchors": ["/repo/lib/ippdiscovery.cpp:sendQuery"]}
{"id": "C46", "title": "Resource record lengths are honoured", "statement": "After each resource record, decoding continues at the end of that record as given by its length field; a record whose content disagrees with its length is rejected.", "quantifier": "all datagrams", "why_tests_cant": "Only malformed or unusual records reveal it.", "anchors": ["/repo/lib/ippdiscovery.cpp:updateAndQueryPtrs"]}
{"id": "C47", "title": "Streamed upload delivers exactly the written bytes", "statement": "Whatever the interleaving of the producer (write) and the transfer thread (read callback), and whatever buffer sizes the transfer asks for, the bytes handed to the transfer are at every moment a prefix of the concatenation of the written chunks in order, and all of it once the upload has completed normally.", "quantifier": "all interleavings, chunk lists and read sizes", "why_tests_cant": "Schedules are unbounded; tests see few.", "anchors": ["/repo/lib/curlrequester.cpp:write", "/repo/lib/curlrequester.cpp:requestWrite", "/repo/lib/curlrequester.cpp:await"]}
{"id": "C48", "title": "Streamed upload never deadlocks", "statement": "In every reachable state of producer and transfer thread either both are finished or one of them can make progress, also when the transfer thread dies at any point.", "quantifier": "all interleavings and failure points", "why_tests_cant": "Deadlocks need specific schedules.", "anchors": ["/repo/lib/curlrequester.cpp:CurlIppPosterBase", "/repo/lib/lthread.h"]}
{"id": "C49", "title": "Only the document is compressed", "statement": "With compression enabled after the IPP header was written, the header bytes are delivered verbatim and every later byte goes, once and in order, through the compressor, which is flushed exactly at the end.", "quantifier": "all interleavings, chunk lists and read sizes", "why_tests_cant": "The switch happens in one thread while the other may still be sending the header.", "anchors": ["/repo/lib/curlrequester.cpp:setCompression", "/repo/lib/curlrequester.cpp:requestWrite"]}
{"id": "C50", "title": "A failed conversion is not submitted as a complete document", "statement": "If conversion fails after part of the document was streamed, the upload is not completed normally, so the printer does not see a truncated document as complete.", "quantifier": "all failure points of the conversion", "why_tests_cant": "Crash-point property.", "anchors": ["/repo/lib/ippprinter.cpp:doPrint", "/repo/lib/curlrequester.cpp:await"]}
{"id": "C51", "title": "Rendered document stream", "statement": "Rendering to raster writes the file header followed by one encoded page per entry of the page sequence, in order, with the URF page count equal to the number of pages; progress is reported once per page in order; the first failing write ends the job with an error and nothing more is written.", "quantifier": "all page sequences, page contents and failure points of the writer", "why_tests_cant": "Failure point and page count unbounded.", "anchors": ["/repo/lib/pdf2printable.cpp:pdf_to_printable"]}
{"id": "C52", "title": "Dithering is bounded and complementary", "statement": "The error-diffusion to 1 bit never overflows, keeps an all-white page white and an all-black page black, pads lines with white, and Black1 output is the exact bitwise complement of Gray1 output for the same page.", "quantifier": "all page bitmaps of all sizes", "why_tests_cant": "Error propagation accumulates over unbounded images.", "anchors": ["/repo/lib/pdf2printable.cpp:copy_raster_buffer"]}
{"id": "C53", "title": "Grey conversion stays in range and keeps neutral greys", "statement": "Conversion of an RGB pixel to 8-bit grey gives a value between the smallest and largest component (in particular white is white, black is black and a neutral grey keeps its value).", "quantifier": "all 2^24 pixels", "why_tests_cant": "Floating point rounding affects individual values.", "anchors": ["/repo/lib/pdf2printable.cpp:RGB32_GRAY"]}
{"id": "C54", "title": "Page scaling preserves aspect and fits the page", "statement": "When a page is scaled to the output size the same physical scale is applied in both directions (also for asymmetric resolutions) and the scaled page does not exceed the output bitmap.", "quantifier": "all page sizes, output sizes and resolutions", "why_tests_cant": "Rounding and integer division over a continuous domain.", "anchors": ["/repo/lib/pdf2printable.cpp:fixup_scale"]}
{"id": "C55", "title": "bsplit pieces add up", "statement": "For a file and an offset n within it, the head piece of n bytes followed by the tail piece from n (the negative-offset forms included) is the file; offsets outside the file are refused.", "quantifier": "all files and offsets", "why_tests_cant": "Unbounded.", "anchors": ["/repo/utils/bsplit.cpp"]}
{"id": "C56", "title": "Magic number detection", "statement": "The detected MIME type depends only on the first bytes and is the type whose complete signature the file starts with, or empty/unknown.", "quantifier": "all files", "why_tests_cant": "Unbounded; signatures with embedded NUL bytes.", "anchors": ["/repo/lib/minimime.cpp:getMimeType"]}
{"id": "C57", "title": "Supply information is assembled position-wise", "statement": "The i-th reported supply combines the i-th name, type, colours and level of the printer's lists; the number of supplies is the length of the shortest list; never an out-of-range access.", "quantifier": "all printer attribute lists", "why_tests_cant": "Lists of arbitrary and different lengths.", "anchors": ["/repo/lib/ippprinter.cpp:supplies"]}
{"id": "C58", "title": "Requests carry the base attributes without overriding the caller's", "statement": "Every request to a printer contains charset, natural language, printer-uri and user name, values given by the caller win over the defaults, all other given attributes are present unchanged, and version 2.0 is used only if the printer advertises it.", "quantifier": "all requests and printers", "why_tests_cant": "All attribute sets.", "anchors": ["/repo/lib/ippprinter.cpp:_mkMsg", "/repo/lib/ippprinter.cpp:_doRequest"]}
{"id": "C59", "title": "Submitting a job reports failure", "statement": "runJob returns success only if the document was converted and, for network printers, the final response has a success status (0x0000-0x00ff); every failure of finalizing, converting, writing or printing is reported.", "quantifier": "all printers, inputs, conversion outcomes and server responses", "why_tests_cant": "Combination of failure points and status codes.", "anchors": ["/repo/lib/ippprinter.cpp:runJob", "/repo/lib/ippprinter.cpp:doPrint", "/repo/lib/ippprinter.cpp:doPrintToFile"]}
{"id": "C60", "title": "Restoring settings survives a torn settings file", "statement": "If the process dies while saving settings, restoring from whatever prefix reached the disk either restores all saved settings or none, without raising.", "quantifier": "all crash points during saving, all settings", "why_tests_cant": "Crash-point property.", "anchors": ["/repo/lib/ippprintjob.cpp:saveSettings", "/repo/lib/ippprintjob.cpp:restoreSettings"]}
{"id": "C61", "title": "media-size sent to the printer equals the media name's size", "statement": "When finalizing a job moves its media name into media-col, the x- and y-dimension of media-size are the name's width and height in hundredths of a millimetre.", "quantifier": "all jobs, printers, and media names with at most two decimals (millimetres) or whose size is a whole number of hundredths of a millimetre (inches)", "why_tests_cant": "Depends on binary64 rounding followed by truncation for every decimal size name.", "anchors": ["/repo/lib/ippprintjob.cpp:finalize", "/repo/lib/printparameters.cpp:setPaperSize"]}
{"id": "C62", "title": "Supply percentage", "statement": "The percentage reported for a supply is the whole part of 100 times its level over its high level (100 if that is 0), never a percent off, and computing it is defined for every level and high level a printer can send.", "quantifier": "all 32-bit levels and high levels", "why_tests_cant": "2^64 pairs; depends on binary64 rounding followed by truncation.", "anchors": ["/repo/lib/ippprinter.cpp:Supply::getPercent"]}
{"id": "C63", "title": "Cancel, identify, set-attributes, get-jobs and refresh report refusals", "statement": "Each of these operations reports success only if the printer answered its request with a success status.", "quantifier": "all printers, worlds and responses", "why_tests_cant": "Every status code and response.", "anchors": ["/repo/lib/ippprinter.cpp:cancelJob", "/repo/lib/ippprinter.cpp:identify", "/repo/lib/ippprinter.cpp:setAttributes", "/repo/lib/ippprinter.cpp:getJobs", "/repo/lib/ippprinter.cpp:refresh"]}
{"id": "C64", "title": "Overrides apply to the printers they are for and to nothing else", "statement": "An overrides file with no condition met by the printer leaves its attributes unchanged; every changed attribute comes from an object of the file; the attributes of an object whose condition is met replace the printer's and all others stay.", "quantifier": "all override files and printer attributes", "why_tests_cant": "All files and attribute maps.", "anchors": ["/repo/lib/ippprinter.cpp:_applyOverrides"]}
{"id": "C65", "title": "Formats found in the device id", "statement": "The additional document formats are exactly those not already listed as supported for which a keyword occurs in the printer's device id.", "quantifier": "all printer attributes", "why_tests_cant": "Arbitrary strings and lists.", "anchors": ["/repo/lib/ippprinter.cpp:additionalDocumentFormats"]}
{"id": "C66", "title": "Warning state", "statement": "A printer is shown as needing attention exactly if it is stopped or has a state reason other than none and reports.", "quantifier": "all printer attributes", "why_tests_cant": "Arbitrary lists of reasons.", "anchors": ["/repo/lib/ippprinter.cpp:isWarningState"]}
{"id": "C67", "title": "Settings are stored in the settings directory", "statement": "Whatever uuid a printer reports, its settings are saved to a file directly in the user's saved_settings directory.", "quantifier": "all users, printers and settings", "why_tests_cant": "The uuid is an arbitrary string chosen by the printer.", "anchors": ["/repo/lib/ippprintjob.cpp:saveSettings", "/repo/lib/ippprintjob.cpp:restoreSettings", "/repo/lib/ippprintjob.cpp:settings_dir"]}
{"id": "C68", "title": "A missing USER variable is tolerated", "statement": "With the environment variable USER not set, saving and restoring settings and refreshing a printer have defined behaviour, as making requests has.", "quantifier": "all environments, printers, files and responses", "why_tests_cant": "Undefined behaviour in an environment tests do not run in.", "anchors": ["/repo/lib/configdir.h", "/repo/lib/ippprintjob.cpp:settings_dir", "/repo/lib/ippprinter.cpp:_applyOverrides"]}
{"id": "C69", "title": "Printers that are files", "statement": "Refreshing from a file with saved attributes as JSON, or with a recorded response, gives those attributes with the overrides; an unusable file is reported and leaves the attributes.", "quantifier": "all attributes, messages and files", "why_tests_cant": "All files.", "anchors": ["/repo/lib/ippprinter.cpp:refresh"]}
{"id": "C70", "title": "The client checks and applies print options", "statement": "ippclient print sets each job attribute to what the last option for it says and leaves the others, and refuses (exit 1, nothing sent after opening the printer) exactly when page ranges are malformed, one axis of the resolution is missing, or a value is not among the printer's supported ones and not forced; exit 0 means that the job was run without error.", "quantifier": "all option combinations, printers and restored settings", "why_tests_cant": "Combinations of twenty options with arbitrary printers.", "anchors": ["/repo/utils/ippclient.cpp:set_or_fail", "/repo/utils/ippclient.cpp:main", "/repo/lib/setting.h:isSupportedValue"]}
{"id": "C71", "title": "Page selection survives 32-bit attributes", "statement": "The pages given with -p for a PDF are exactly those printed, for documents below 2^31-1 pages, though the numbers pass through 32-bit IPP ranges; the printer is not told; for other formats the printer is told the clamped ranges.", "quantifier": "all page range texts and documents", "why_tests_cant": "Numbers beyond 2^31 and open ranges.", "anchors": ["/repo/utils/ippclient.cpp:pos_clamp", "/repo/lib/ippprintjob.cpp:finalize"]}
{"id": "C72", "title": "Pairs given to set-attrs", "statement": "The name=value list is accepted iff it is a comma separated list of pairs without separators inside, and then exactly these pairs are set; otherwise exit 1 and nothing is sent.", "quantifier": "all texts", "why_tests_cant": "All strings.", "anchors": ["/repo/utils/ippclient.cpp:main", "/repo/lib/stringutils.h:split_string"]}
{"id": "C73", "title": "Any value can be set", "statement": "Every attribute value can be given to set-attrs.", "quantifier": "all values", "why_tests_cant": "The separators inside values.", "anchors": ["/repo/utils/ippclient.cpp:main"]}
{"id": "C74", "title": "Resolution list", "statement": "The message lists the supported DPI resolutions separated by commas.", "quantifier": "all lists", "why_tests_cant": "Lists with several resolutions.", "anchors": ["/repo/utils/ippclient.cpp:resolution_list"]}
{"id": "C75", "title": "Options raise no exception", "statement": "Handling the print options ends without an exception for every printer.", "quantifier": "all printers and options", "why_tests_cant": "Printers with unusual attributes.", "anchors": ["/repo/utils/ippclient.cpp:main", "/repo/lib/argget.h:getAlias"]}
{"id": "C76", "title": "Values of a range", "statement": "IntegerChoiceSetting lists exactly the members of a range the printer supports.", "quantifier": "all ranges", "why_tests_cant": "The largest int.", "anchors": ["/repo/lib/setting.h:IntegerChoiceSetting"]}
{"id": "C77", "title": "The options of ppm2pwg mean what the help text says", "statement": "For every sequence of option words whose values the options take, ppm2pwg runs the conversion with exactly the parameters the last value of each option asks for (format also from the .urf suffix, -rx/-ry over -r, -t over -d), refuses a media type URF cannot carry, refuses a value an option does not take, and only prints help if asked for help.", "quantifier": "all sequences of options, values, file names and inputs", "why_tests_cant": "The combinations of options and values are unbounded.", "anchors": ["/repo/utils/ppm2pwg_main.cpp:main"]}
{"id": "C78", "title": "Print parameters follow the job", "statement": "After finalize succeeds, quality, colour mode, duplex mode, collation, media type and position and the turning of back sides are those the job (else the printer's defaults) asks for; the sides are changed to one-sided exactly when several copies of a single page are made locally, and the pages are rendered for the sides that are sent.", "quantifier": "all printers' attributes, jobs, formats and page counts", "why_tests_cant": "Combinations of job and printer attributes are unbounded.", "anchors": ["/repo/lib/ippprintjob.cpp:finalize", "/repo/lib/ippprintjob.cpp:adjustRasterSettings"]}
{"id": "C79", "title": "The options of pdf2printable mean what the help text says", "statement": "For every sequence of option words whose values the options take, pdf2printable converts with exactly the parameters the words ask for (the last value of an option counts, the format follows the output name when not given, resolution-x and -y override resolution, tumble overrides duplex); what URF cannot express, values an option does not take and malformed page selections and paper sizes give exit code 1 and leave the output untouched; no exception escapes.", "quantifier": "all option sequences, file names and environments", "why_tests_cant": "Option sequences and values are unbounded.", "anchors": ["/repo/utils/pdf2printable_main.cpp:main"]}
{"id": "C80", "title": "Exit code 0 of pdf2printable means a complete output file", "statement": "When pdf2printable exits with code 0 the output file holds the header, every page of the page sequence in order and the trailer; the document is not changed.", "quantifier": "all documents, parameters, output devices (unopenable, full)", "why_tests_cant": "Failing devices and all documents cannot be enumerated.", "anchors": ["/repo/utils/pdf2printable_main.cpp:main", "/repo/lib/binfile.h:OutBinFile"]}
{"id": "C81", "title": "The document converted is the file named", "statement": "pdf_to_printable opens the file whose name it was given, for every name and working directory.", "quantifier": "all file names and directories", "why_tests_cant": "Names with URI syntax are rarely tried.", "anchors": ["/repo/lib/pdf2printable.cpp:pdf_to_printable"]}
{"id": "C82", "title": "libjpeg is given the bytes of the file and no others", "statement": "The source manager of baselinify serves exactly the bytes of the JPEG file, in order, and tells libjpeg when there are no more; no access reaches outside of the file.", "quantifier": "all files and all sequences of accesses", "why_tests_cant": "Truncated and malformed files cannot be enumerated, and reads past the end often go unnoticed.", "anchors": ["/repo/lib/baselinify.cpp:bts_source_mgr"]}
{"id": "C83", "title": "Everything libjpeg writes ends up in the output", "statement": "The destination manager of baselinify appends exactly the bytes libjpeg emits to the output, whatever their number in relation to the buffer size.", "quantifier": "all byte sequences, buffer sizes and earlier contents", "why_tests_cant": "The boundary cases are at multiples of the buffer size.", "anchors": ["/repo/lib/baselinify.cpp:bts_destination_mgr"]}
{"id": "C84", "title": "The raster output shows the pages that were drawn", "statement": "Decoding what pdf2printable writes as PWG or URF gives one picture per entry of the page sequence; its pixels are those drawn for that entry (RGB components, or the luminance in grey modes), on back sides mirrored as the sheet-back setting prescribes.", "quantifier": "all documents, page sequences, paper sizes, 8-bit colour modes, duplex and sheet-back settings", "why_tests_cant": "Page contents and sizes cannot be enumerated; the run lengths depend on every pixel.", "anchors": ["/repo/lib/pdf2printable.cpp:pdf_to_printable", "/repo/lib/pdf2printable.cpp:copy_raster_buffer", "/repo/lib/ppm2pwg.cpp:bmp_to_pwg", "/repo/lib/pwg2ppm.cpp:raster_to_bmp", "/repo/lib/pwg2ppm.cpp:write_ppm"]}
{"id": "C85", "title": "A job reported as printed means the printer got the whole document", "statement": "When running a job on a network printer reports success, the printer answered an upload with a success status, and in that upload it got, after the request, the complete document: a PDF document rendered page by page in the target format with the finalized parameters (for rasters: decoding what it got shows the pages drawn), any other document as it is (JPEG made baseline, text with its line ends changed).", "quantifier": "all documents, jobs, printers' attributes and answers, all ways the upload may refuse data", "why_tests_cant": "It composes job finalization, conversion, rendering and the transfer, each over unbounded inputs, and must hold for every point at which the transfer may fail.", "anchors": ["/repo/lib/converter.h:Pdf2Printable", "/repo/lib/converter.h:JustUpload", "/repo/lib/converter.h:FixupText", "/repo/lib/ippprinter.cpp:IppPrinter::doPrint", "/repo/lib/ippprinter.cpp:IppPrinter::runJob"]}
{"id": "C86", "title": "Format classes and extensions", "statement": "The program's tables of formats agree: exactly the formats with a file name extension are classed as known picture or as multi-page; multi-page formats are those a PDF document can be converted to; known pictures are images with an extension; extensions are distinct; every detected file type other than unknown and empty has one; every job can be printed to a file.", "quantifier": "all format names, files, jobs and printers", "why_tests_cant": "Names outside the tables are unbounded, and the tables are in different places.", "anchors": ["/repo/lib/minimime.cpp:isKnownImageFormat", "/repo/lib/minimime.cpp:isMultiPage", "/repo/lib/minimime.cpp:defaultExtension", "/repo/lib/converter.h", "/repo/lib/ippprinter.cpp:IppPrinter::doPrintToFile"]}
{"id": "C87", "title": "ippdecode shows the whole message", "statement": "What ippdecode writes determines the operation or status and all attributes of the message in their groups; a malformed message is reported by a non-zero exit code.", "quantifier": "all files", "why_tests_cant": "Injectivity of the text over all messages, including strings with quotes, control characters and U+2028.", "anchors": ["/repo/utils/ippdecode.cpp", "/repo/lib/ippattr.cpp:IppAttrs::toJSON"]}
{"id": "C88", "title": "The client shows printers, supplies and jobs as they are", "statement": "info writes a section for every attribute that is set and none for others; a supply's stanza has swatches for its colours, its percentage rounded down, and says low if and only if it is known to be low; get-jobs writes every job; the output of get-attrs determines the attributes.", "quantifier": "all printers' attributes and jobs", "why_tests_cant": "Any combination of attributes, colours and levels.", "anchors": ["/repo/utils/ippclient.cpp:print_colors", "/repo/utils/ippclient.cpp:operator<<", "/repo/utils/ippclient.cpp:print_if_set", "/repo/utils/ippclient.cpp:main", "/repo/lib/ippprinter.cpp:Supply::isLow"]}
{"id": "C89", "title": "Preparing a job ends in a job or an error message", "statement": "IppPrintJob::finalize returns, with the job prepared or with an error, for every job, printer, input format and number of pages; it does not raise an exception and does not run into undefined behaviour. In particular this holds for every print command line accepted without force.", "quantifier": "all jobs, printers' attributes, input formats, page counts and command lines", "why_tests_cant": "Combinations of attributes of printers that do not exist yet, and of settings.", "anchors": ["/repo/lib/ippprintjob.cpp:IppPrintJob::finalize", "/repo/lib/ippprintjob.cpp:IppPrintJob::adjustRasterSettings", "/repo/lib/printparameters.cpp:PrintParameters::setPaperSize"]}
{"id": "C90", "title": "Command lines are refused with the reason, and help texts show the options", "statement": "A command line that is refused is refused with the message for the first thing that is wrong with it: the option whose value is missing or bad (with its hint if it has one), the argument that is too much, or the first positional argument missing, with the title used in the help. The help text lists all options in order, the descriptions begin in one column that is as far left as the longest title allows; with sub-commands, the help of the one given or else of all in order.", "quantifier": "all definitions of options, positional arguments and sub-commands and all command lines", "why_tests_cant": "Any options and any command line.", "anchors": ["/repo/lib/argget.h:ArgGet::get_args", "/repo/lib/argget.h:ArgGet::_argHelp", "/repo/lib/argget.h:SubArgGet::get_args", "/repo/lib/argget.h:SubArgGet::argHelp", "/repo/lib/argget.h:SwitchArgBase::docName", "/repo/lib/argget.h:PosArg::docName"]}
{"id": "C91", "title": "The utilities write their output completely and nothing else", "statement": "When ppm2pwg, pwg2ppm, bsplit or baselinify ends with exit code 0, the output files hold the whole result for the input as it was when the program started, and no other file has changed. In particular ppm2pwg followed by pwg2ppm leaves files with the pictures of the input.", "quantifier": "all contents of the disk, names (several of which may lead to the same file), command lines and inputs", "why_tests_cant": "Any disk, any aliasing of names, any input.", "anchors": ["/repo/utils/ppm2pwg_main.cpp:main", "/repo/utils/pwg2ppm_main.cpp:main", "/repo/utils/bsplit.cpp:main", "/repo/utils/baselinify_main.cpp:main", "/repo/lib/binfile.h:InBinFile", "/repo/lib/binfile.h:OutBinFile"]}
{"id": "C92", "title": "The words on ippclient's command line mean what its help says", "statement": "For every command line: --help sends nothing and ends with 0; words that are no command with the options and values it takes send nothing and end with 1 (0 if they ask for help); a printer that cannot be opened ends the client with 1 after the request for its attributes; info, identify, get-attrs, set-attrs, get-jobs and cancel-job do exactly their one operation with the id or the pairs given, and the exit code tells whether it succeeded. print ends with 0 only if a job was run without an error whose settings are the strongest of what the options demand, on top of the saved settings, for the input type given or detected; what was demanded is supported by the printer unless --force was given. Options that cannot be met, and input of unknown type, send nothing more and end with 1.", "quantifier": "all command lines, printers, responses, files, settings files and initial values of the variables", "why_tests_cant": "Any order, repetition and combination of 30 options, with any values, printers and responses.", "anchors": ["/repo/utils/ippclient.cpp:main", "/repo/lib/argget.h:SwitchArg", "/repo/lib/ippprinter.cpp:IppPrinter"]}
{"id": "C93", "title": "Responses in a discovery session are read completely", "statement": "Of a DNS message of at most 4096 bytes in the format of RFC 1035, with any number of questions and of records in the answer, authority and additional sections, compressed names and records of other types among them, the discovery takes exactly the pointers, services, texts and addresses in it, in their order; so every printer which the messages of a session describe is reported.", "quantifier": "all messages in the format of the RFC up to 4096 bytes, all sessions", "why_tests_cant": "Any nesting of compressed names, any mix of sections and record types.", "anchors": ["/repo/lib/ippdiscovery.cpp:discover", "/repo/lib/ippdiscovery.cpp:get_addr", "/repo/lib/ippdiscovery.cpp:ip4str"]}
{"id": "C94", "title": "Discovery asks exactly for what it does not know, once", "statement": "The queries of a discovery session carry consecutive transaction ids; the first asks for the two services; no question is asked twice; the text or service of a name is asked for only when a pointer of an IPP service to it, and no text or service, has been received, the address of a host only when a service points to it and no address has been received; and every such question is asked by the end of the session.", "quantifier": "all sequences of datagrams (well-formed or not) and clock readings with a defined outcome", "why_tests_cant": "Any sequence of datagrams of any content.", "anchors": ["/repo/lib/ippdiscovery.cpp:sendQuery", "/repo/lib/ippdiscovery.cpp:updateAndQueryPtrs", "/repo/lib/ippdiscovery.cpp:discover"]}
{"id": "C95", "title": "ippdiscover prints each printer on a line of its own", "statement": "ippdiscover prints one line per printer found: the lines are pairwise different addresses of printers which the datagrams received until the first pause of two seconds describe, and every printer which the latest records describe is among them. -h or --help prints the help, any other word than -v and --verbose makes it fail, and in both cases nothing is sent.", "quantifier": "all sequences of arriving datagrams, all words on the command line", "why_tests_cant": "Any content of datagrams from anyone on the network.", "anchors": ["/repo/utils/ippdiscover.cpp:main", "/repo/lib/udpsocket.h:receive", "/repo/lib/ippdiscovery.cpp:discover"]}
{"id": "C96", "title": "The client contacts the printer that an address names", "statement": "All requests of a run of ippclient go to the address on its command line; the URL made of an ipp or ipps address leads to the host, port and path of that address, with TLS exactly for ipps; and an address reported by discovery leads the client to the host and port in the records received.", "quantifier": "all addresses, command lines, printers' answers and discovery sessions", "why_tests_cant": "Any address; every command with any answers of the printer.", "anchors": ["/repo/lib/curlrequester.cpp:CurlRequester", "/repo/lib/ippdiscovery.cpp:make_addr", "/repo/utils/ippclient.cpp:main", "/repo/lib/ippprinter.cpp:_doRequest"]}
{"id": "C97", "title": "A page lies upright in the middle of the paper", "statement": "The transformation with which a page is drawn puts it onto a rectangle of the paper with sides parallel to the paper's, upright, or turned by a right angle if the page is wider than high; opposite margins differ by at most about two pixels of the lower resolution (or points).", "quantifier": "all page sizes, paper sizes and resolutions", "why_tests_cant": "Floating point arithmetic over a continuous domain, with a detour over single precision.", "anchors": ["/repo/lib/pdf2printable.cpp:fixup_scale", "/repo/lib/pdf2printable.cpp:pdf_to_printable"]}
{"id": "C98", "title": "Requests are IPP over HTTP", "statement": "The options set on libcurl make each request a POST to the URL of the printer with Content-Type application/ipp, whose body is either exactly as long as announced or sent in chunks, which does not wait for 100 Continue and for which an HTTP error is an error; the server's certificate is verified unless the caller asked to ignore TLS errors.", "quantifier": "all messages, addresses and runs of ippclient", "why_tests_cant": "The options are set in constructors of four classes and interact; certificates are only checked against servers with bad ones.", "anchors": ["/repo/lib/curlrequester.cpp:CurlRequester", "/repo/lib/curlrequester.cpp:CurlIppPosterBase", "/repo/lib/curlrequester.cpp:CurlIppPoster", "/repo/lib/curlrequester.cpp:CurlIppStreamer", "/repo/lib/ippprinter.cpp:doPrint"]}
{"id": "C99", "title": "ippclient's exit code is explained on the terminal", "statement": "Whatever the words on its command line, ippclient that ends without an exception ends with 0 or 1; with 1 it wrote a reason to the standard error and nothing to the standard output. A print that ends with 0 was answered with success, and with --print-job-id the number of the job the printer tells of is printed; for a file the name of the file written is printed.", "quantifier": "all command lines, printers, responses, files and conversions", "why_tests_cant": "Every command has several ways to fail, and the responses come from the printer.", "anchors": ["/repo/utils/ippclient.cpp:main", "/repo/lib/ippprinter.cpp:doPrint", "/repo/lib/ippprinter.cpp:doPrintToFile"]}
{"id": "C100", "title": "A refused option is named with the values the printer supports", "statement": "If an option of ippclient print is not accepted, the message names the first such option, and says that the printer does not support it if the printer has no attribute for it, and otherwise lists the values of that attribute; the values listed are values the option takes.", "quantifier": "all combinations of options and all printer attributes", "why_tests_cant": "Twenty-odd options with their own texts, in combination with any attributes.", "anchors": ["/repo/utils/ippclient.cpp:set_or_fail", "/repo/utils/ippclient.cpp:main", "/repo/lib/setting.h:supportedStr"]}
{"id": "C101", "title": "minimime prints the type of a file and knows the files of the other programs", "statement": "Given one word minimime prints the media type of the file of that name and a line break and ends with 0, and ends with 1 if the file cannot be read; with any other number of words it prints nothing but its usage and ends with 1. For the output of ppm2pwg and for what pdf_to_printable passes on in a raster format the type is that of the format.", "quantifier": "all file systems, file contents, command lines, pictures, documents and answers of the writer", "why_tests_cant": "Files, pictures and the point at which a write fails are unbounded.", "anchors": ["/repo/utils/minimime_main.cpp:main", "/repo/lib/minimime.cpp:getMimeType", "/repo/lib/ppm2pwg.cpp:make_pwg_file_hdr", "/repo/lib/pdf2printable.cpp:pdf_to_printable"]}
{"id": "C102", "title": "All that ippclient sends are IPP requests to the printer named, numbered from 1", "statement": "Whatever the printer answers and whatever options are given, each request ippclient sends goes to the address on the command line, has the bytes RFC 8010 gives a well-formed message of version 1.1 or 2.0 with the operation and the attributes every request has, and the message and any document after it are read back from those bytes; the requests are numbered 1, 2, 3... Settings files that earlier runs wrote, perhaps torn by a crash, do not change this.", "quantifier": "all command lines of ippclient with words below 65536 bytes, all printers, answers, documents, and all settings files written by such runs", "why_tests_cant": "Options, attributes and answers combine without bound; the length limits and one-element sets meet only in combinations tests do not reach.", "anchors": ["/repo/utils/ippclient.cpp:main", "/repo/lib/ippprinter.cpp:_mkMsg", "/repo/lib/ippmsg.cpp:encode", "/repo/lib/ippprintjob.cpp:finalize"]}
{"id": "C103", "title": "From the words of a print command to what the printer reads", "statement": "If `ippclient print` on a network printer ends with 0, then: the printer can read, from the bytes of the upload, a Print-Job request (id 2), or a Create-Job (id 2) and a Send-Document request (id 3) for the job id it answered, with the operation attributes of the job and exactly the job attributes of the job the words ask for, finalized; each setting that finalizing leaves alone has the value of the strongest option; after the request it reads the whole document as rendered or converted; and it has answered with a success status. For uncompressed raster pages of 8 bit samples, decoding that document gives pictures that show the pages as drawn, pixel by pixel.", "quantifier": "all command lines with words below 65536 bytes, printers, documents, renderers, saved settings that fit, and all interleavings of the two threads of the upload", "why_tests_cant": "Options, attributes, documents and thread interleavings combine without bound.", "anchors": ["/repo/utils/ippclient.cpp:main", "/repo/lib/ippprinter.cpp:runJob", "/repo/lib/ippprinter.cpp:doPrint", "/repo/lib/ippmsg.cpp:encode", "/repo/lib/curlrequester.cpp:CurlIppStreamer", "/repo/lib/pdf2printable.cpp:pdf_to_printable"]}
{"id": "C104", "title": "Options saved with --save are used by later print commands", "statement": "Commands are given one after the other, and nothing else writes settings files. In a print command that ends with 0, each IPP setting of the job has the value of the strongest of its own options, else that of the last print command that was given --save and wrote the settings file of the printer's uuid, else none; the printer reads these values from the request. With --save the settings file is written before the job is run, and a command on a network printer writes no other file. The help text promises this for all options ('Save options as local defaults for future jobs'); it does not hold for those that are not IPP settings, such as --antialias and --one-stage.", "quantifier": "all sequences of command lines, printers, users, documents and answers, and all parsers that read back the JSON that was written", "why_tests_cant": "Sequences of commands, and the options in each, are unbounded.", "anchors": ["/repo/utils/ippclient.cpp:main", "/repo/lib/ippprintjob.cpp:saveSettings", "/repo/lib/ippprintjob.cpp:restoreSettings", "/repo/lib/ippattr.cpp:toJSON", "/repo/lib/ippprinter.cpp:runJob"]}
{"id": "C105", "title": "baselinify recodes a JPEG file without changing the picture", "statement": "For every JPEG file libjpeg can read, baselinify makes only calls that libjpeg allows, in an allowed order (the coefficients are written while the decompressor that owns them exists), releases everything, and produces exactly one file: the same components, quantization tables and coefficients, coded sequentially, with the JFIF and EXIF segments (APP0, APP1) as they were, each once and in order. A decoder takes the components for the same colours as before.", "quantifier": "all JPEG files, all markers, components and coefficients, and whatever libjpeg's defaults for the markers are", "why_tests_cant": "Test pictures have JFIF headers; colours go wrong only for files whose colour space is told by an Adobe marker.", "anchors": ["/repo/lib/baselinify.cpp:baselinify"]}
{"id": "C106", "title": "pdf_to_printable uses poppler and cairo only as they allow, and gives everything back", "statement": "For every document, format, page selection and behaviour of the writer, each call of pdf_to_printable to poppler and cairo is on an object that exists and in a state in which it is allowed; a surface that writes to the output buffer is finished before the buffer is destroyed; and however the function ends, the document, its error, pages, contexts, font options and surface are released exactly once, before the libraries are unloaded.", "quantifier": "all documents and renderers, formats, parameters, writers, with and without libraries loaded at run time", "why_tests_cant": "Objects are destroyed on early returns in an order nobody wrote down; tests print complete documents to writers that accept everything.", "anchors": ["/repo/lib/pdf2printable.cpp:pdf_to_printable", "/repo/lib/pointer.h:Pointer", "/repo/lib/madness.h:LibLoader"]}
{"id": "C107", "title": "The two threads of an upload keep the rules of C++ for shared variables and mutexes", "statement": "In every interleaving of the producer and the transfer thread, for every program of writes, compression and await, and every compressor and transfer: no member is accessed by both threads at the same time with one of them writing, and every mutex is unlocked only by the thread that holds it.", "quantifier": "all executions (schedules) of all upload programs, all behaviours of curl and zlib", "why_tests_cant": "Races and misuse of mutexes show on no particular run; sanitizers see only the schedules that happen.", "anchors": ["/repo/lib/curlrequester.cpp:CurlIppPosterBase::write", "/repo/lib/curlrequester.cpp:CurlIppPosterBase::requestWrite", "/repo/lib/curlrequester.cpp:CurlIppPosterBase::await", "/repo/lib/lthread.h:LThread"]}
{"id": "C108", "title": "set-attrs sets what was typed", "statement": "For every list of name=value pairs, one Set-Printer-Attributes request is sent with exactly the attributes named, each of the syntax the printer uses and with the value the text means in it; if a text has no meaning nothing is sent and the exit code is 1.", "quantifier": "all command lines, printers' attributes and texts", "why_tests_cant": "All names, syntaxes, texts and repetitions of names.", "anchors": ["/repo/lib/ippattr.cpp:IppAttr::fromString", "/repo/lib/ippprinter.cpp:setAttributes", "/repo/utils/ippclient.cpp:main"]}
{"id": "C109", "title": "Texts with a language", "statement": "A textWithLanguage or nameWithLanguage attribute of a response is read as its text.", "quantifier": "all messages, languages and texts", "why_tests_cant": "Printers answer with these syntaxes only in some languages.", "anchors": ["/repo/lib/ippmsg.cpp:decodeValue", "/repo/lib/ippattr.h:IppAttrs::get"]}
{"id": "C110", "title": "Any response is read", "statement": "Whatever the groups of a message, their order and number, and the order of the attributes in them, the decoder yields the last operation and printer group and all job groups, leaves the document alone, and reports each group of unsupported attributes.", "quantifier": "all messages a printer may send (RFC 8010), attributes without a value included", "why_tests_cant": "All orders, repetitions and contents of groups.", "anchors": ["/repo/lib/ippmsg.cpp:IppMsg::IppMsg"]}
{"id": "C111", "title": "Attributes without a value", "statement": "An attribute that is sent with an out-of-band value (unknown, no-value, unsupported) is treated like one that is not sent: its default is used.", "quantifier": "all responses, attributes and types", "why_tests_cant": "Any attribute may be sent that way; every use of it is affected.", "anchors": ["/repo/lib/ippmsg.cpp:decodeValue", "/repo/lib/ippattr.h:IppAttrs::get", "/repo/lib/ippprintjob.cpp:finalize"]}
{"id": "C112", "title": "The client always ends in a defined way", "statement": "Whatever the command line, the files, the saved settings and the printer's answers, ippclient ends with an exit code or an exception: no loop goes on for ever and no operation is undefined.", "quantifier": "all command lines, worlds (answers, files, settings, overrides) and uninitialised values", "why_tests_cant": "The answers and attributes are chosen by a printer; the number of combinations of options, attribute types and values has no bound.", "anchors": ["/repo/utils/ippclient.cpp:main", "/repo/lib/ippprinter.cpp:refresh", "/repo/lib/ippprinter.cpp:runJob", "/repo/lib/ippprintjob.cpp:finalize", "/repo/lib/argget.h:get_args"]}
{"id": "C113", "title": "The utilities always end in a defined way", "statement": "Whatever their arguments and whatever the files hold, bsplit, ppm2pwg, pwg2ppm and ippdecode end with an exit code or an exception: no loop goes on for ever and no operation is undefined.", "quantifier": "all command lines, file systems and file contents", "why_tests_cant": "The files are arbitrary byte strings and the pages follow each other without end; undefined behaviour and endless loops depend on sizes, separators and resolutions in combination.", "anchors": ["utils/ppm2pwg_main.cpp:22-32", "utils/ppm2pwg_main.cpp:165-253", "utils/pwg2ppm_main.cpp:8-70", "utils/bsplit.cpp:15-89", "utils/ippdecode.cpp:7-38"]}
{"id": "C114", "title": "The conversion of a PDF always ends in a defined way", "statement": "Whatever the command line and whatever the document, pdf2printable ends with an exit code or an exception: no loop goes on for ever and no operation is undefined. With a colour mode and a medium that the format can express the conversion raises no exception.", "quantifier": "all command lines, documents (pages, page sizes, pixels), writers and parameters", "why_tests_cant": "Sizes, resolutions, colour modes, pixels and page sequences in any combination; undefined conversions and overflows of the error diffusion depend on all of them.", "anchors": ["lib/pdf2printable.cpp:55-220", "lib/pdf2printable.cpp:222-310", "lib/pdf2printable.cpp:313-356", "utils/pdf2printable_main.cpp:21-216"]}
{"id": "C115", "title": "bsplit, ppm2pwg and pdf2printable say what is wrong", "statement": "Each of the three programs either ends with code 0 and nothing on the standard error, or with code 1, nothing on the standard output and a message on the standard error. A request for help before the first mistake gives the usage on the standard output. Otherwise a mistake on the command line is named and followed by the usage. A header that ppm2pwg does not take, a format or medium that pdf2printable cannot express, a malformed page selection or paper size, an input that cannot be opened and a missing choice in bsplit each have their own message, the first in the order of the checks.", "quantifier": "all command lines, files, picture headers and documents", "why_tests_cant": "The order of checks and the texts depend on combinations of options, files and headers without bound.", "anchors": ["utils/bsplit.cpp:8-89", "utils/ppm2pwg_main.cpp:15-254", "utils/pdf2printable_main.cpp:13-216"]}
{"id": "C116", "title": "Options from 'resolution' and onwards only affect raster output formats", "statement": "As the help text of pdf2printable says: for PDF and Postscript output, two command lines that agree on format, pages, copies and paper size (and the files) give the same exit code and the same output file, whatever resolution, sides, back side transform, colour mode, quality, antialiasing, media position and media type they ask for.", "quantifier": "all command lines, documents and output files", "why_tests_cant": "Any combination of eleven options with any values on two command lines, and any document.", "anchors": ["utils/pdf2printable_main.cpp:13-14", "utils/pdf2printable_main.cpp:36-216", "lib/pdf2printable.cpp:55-220", "lib/pdf2printable.cpp:313-356", "lib/printparameters.cpp:115-188"]}
{"id": "C117", "title": "pwg2ppm keeps the pages before a bad one, and says how far it got", "statement": "Whatever follows a sequence of whole pages - nothing, a header that is cut off, a page that cannot be decoded - pwg2ppm has written the files of exactly those whole pages, in order, and its standard error is the length of the file, the format (for URF with the announced page count, which should agree with the pages read), number and description of every page, the number of the page that was begun last, and on success the total. Files of another format and wrong command lines are refused with the given message and nothing is written.", "quantifier": "all files, output prefixes and command lines", "why_tests_cant": "Any number of pages of any size and every possible continuation after them, including all places where a file can be cut off.", "anchors": ["utils/pwg2ppm_main.cpp:8-70", "lib/pwg2ppm.cpp:10-77"]}
{"id": "C118", "title": "The order of the options makes no difference", "statement": "Two accepted command lines of bsplit, ppm2pwg, pdf2printable or a sub-command of ippclient that give every option the same value do the same: same exit code, files, requests and messages. Options can be given in any order, under any of their names and with any writing of the same value, and an option given again replaces the earlier one as if that had not been there.", "quantifier": "all command lines, inputs, printers and environments", "why_tests_cant": "Any permutation of up to 29 options with any values, on any input.", "anchors": ["lib/argget.h:28-334", "lib/argget.h:385-435", "utils/bsplit.cpp:15-89", "utils/ppm2pwg_main.cpp:34-254", "utils/pdf2printable_main.cpp:21-215", "utils/ippclient.cpp:158-531"]}
{"id": "C119", "title": "Datagrams that tell of nothing make no difference to discovery", "statement": "Datagrams with no record that matters (too short for a header, questions of other hosts, records of other types) inserted anywhere in a discovery session change neither the questions asked nor the addresses reported.", "quantifier": "all sequences of datagrams, all insertions of such datagrams, all clocks", "why_tests_cant": "Any interleaving of any other traffic of the multicast group with any answers.", "anchors": ["lib/ippdiscovery.cpp:177-232", "lib/ippdiscovery.cpp:234-257", "lib/ippdiscovery.cpp:259-395"]}
{"id": "C120", "title": "Documents can be put together page by page", "statement": "pwg2ppm on the pages of one file followed by those of another writes the pictures of the first and then those of the second, with the next numbers. ppm2pwg on an even number of pictures followed by any other input writes the pages of the pictures and then what it writes for the other input alone.", "quantifier": "all PWG and URF files, all pictures, all inputs after them, all parameters", "why_tests_cant": "Any files of any length; the program must not carry anything over from one page to the next.", "anchors": ["utils/pwg2ppm_main.cpp:23-69", "utils/ppm2pwg_main.cpp:142-253", "lib/pwg2ppm.cpp:5-77", "lib/ppm2pwg.cpp:33-106"]}
