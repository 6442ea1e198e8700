# Formal model of ppm2pwg: design and trusted base

Subject: the C++ sources under `/repo` (attah/ppm2pwg at the pinned commit).
Prover: Rocq/Coq 8.16.1.  Properties: `properties.jsonl`; status per property:
`MANIFEST.json`; tests of the theorems against wrong programs: `seeded/LOG.jsonl`.
A theorem is listed there as failed only when Coq rejects a proof that it depends on.  A
proof that runs out of time or memory does not count; the results of the first runner that
may have contained one were withdrawn and have been run again.  In later entries the
theorems failed are those that depend on the first lemma that failed.  An edit that breaks
nothing is listed too: with the theorems added because of it, or, if there are none, because
it makes no difference (said in the entry).

## 1. Conventions of the model

* A byte is `Ascii.ascii` (exactly 256 values, no side conditions), `std::string`
  is Coq `string`, a `Bytestream` is a list of bytes (what remains to be read), or
  data+position where the code seeks.
* `outcome A` = `Ok a | Throw e | UB | Hang`.  Exceptions, C++ undefined behaviour
  and provably endless loops are distinct outcomes, so "does not throw", "is memory
  safe" and "terminates" are statements about results.  Raw pointer accesses are
  modelled as offset reads that yield `UB` outside the buffer.
* Loops without an evident structural measure take fuel; running out of fuel is the
  separate outcome `NoFuel`, proved unreachable for the fuel the entry points pass.
* Fixed-width arithmetic is explicit (`mod 2^8`, `2^32`, `2^64`) wherever a wrap can
  matter; elsewhere the simplification is stated in the comment of the definition.
* Every definition cites the file and lines it models.

Files: `Model*`/`*Model.v` hold definitions only; `*Spec.v` hold the independent
specifications (grammars, image semantics, ...), which mention no model helper;
`*Proofs.v` hold lemmas; `*Properties.v` hold only the property theorems, their
non-vacuity examples and `Print Assumptions`.

## 2. Plan per property

| id | what is modelled | how it is proved |
|----|------------------|------------------|
| C01 | `compress_line`, `bmp_to_pwg` over a byte memory with offsets | grammar of PWG/URF bodies as an inductive relation; loop invariants over scanner states, induction on remaining chunks/lines |
| C02 | `raster_to_bmp` | induction on the grammar derivation |
| C03 | both | C01+C02 composed |
| C04 | as C01, out-of-range reads give `UB` | same invariants; short bitmap: refuted with witness |
| C05 | header flags + flips in `bmp_to_pwg` | pixel-coordinate semantics of mirroring, list reversal lemmas |
| C06 | the 64-bit bit-reversal expression with explicit wrap | finite sweep of the 256 bytes lifted to lines; width not multiple of 8: refuted |
| C07 | `raster_to_bmp` incl. 2^64 wrap and white fill | fuel sufficiency, size invariant; hang: refuted in general, exact grammar of the pages that hang and of those that are decoded (HangProperties.v) |
| C08 | white fill | refuted for grey (fills 0x00), proved for RGB/CMYK |
| C09 | pwg2ppm's use of NumColors as chunk | refuted with witness |
| C10, C11 | header codec, `make_pwg_hdr`, `make_urf_hdr` | field-by-field codec lemmas |
| C12, C13, C14 | the two main programs on file contents | composition; C13 and P4 part of C14 refuted |
| C15 | `cmyk2rgb`, `invert`, CMYK branch of `copy_raster_buffer` | arithmetic mod 256 |
| C16-C19 | `parsePageRange`, `getPageSequence` | grammar spec, list induction; over-long numbers raise: refuted part |
| C20, C21 | `setPaperSize`, geometry getters (binary64 arithmetic via SpecFloat/Flocq) | grammar; arithmetic |
| C22, C23 | `split_string`, `join_string`, `FixupText` | induction; CRLF refuted |
| C24 | `ArgGet`, `SubArgGet` | grammar of argument vectors, induction |
| C25-C30 | `IppMsg` encode/decode, `IppAttr` | wire grammar relation, mutual structural induction on values; refutations by witness |
| C31 | `toJSON`/`fromJSON` on an abstract JSON tree | structural induction; DateTime refuted |
| C32, C33 | `Setting` over job attributes | map lemmas |
| C34-C39 | `finalize`, `determineTargetFormat`, `adjustRasterSettings` | case analysis + list minima |
| C40 | `Converter` | list lemmas |
| C41, C42 | `get_addr`, query writer | fuel bound by pointer set; name/offset invariant |
| C43-C46 | discovery state machine per datagram | invariants over histories; refutations by witness |
| C47-C50 | two-thread transition system of `CurlIppPosterBase` | inductive invariant over reachable states |
| C51 | page loop of `pdf_to_printable` with the renderer as oracle | induction over the page sequence |
| C52-C54 | `copy_raster_buffer`, `fixup_scale` | integer invariants; binary64 evaluation |
| C55-C58 | bsplit, MiniMime, supplies, `_mkMsg` | list lemmas |
| C59 | `runJob`/`doPrint`/`doPrintToFile` with network and converter oracles | case analysis; which file is written (WhereProperties) |
| C60 | `saveSettings`/`restoreSettings` with json11's `dump`; the parser as an oracle | RFC 8259 grammar; bracket-depth scanner: no proper prefix of an object text is a JSON text |
| C61 | media-size in `finalize` | binary64 error bounds; letter paper refuted |
| C62 | `Supply::getPercent` | exactness of binary64 division followed by truncation |
| C63 | `cancelJob`, `identify`, `setAttributes`, `getJobs`, `refresh` | case analysis over responses; ignored statuses refuted; what is told of the jobs (WhereProperties) |
| C64 | `_applyOverrides` | induction over the file's entries |
| C65, C66 | `additionalDocumentFormats`, the formats printed with conversion, a new job, `isWarningState` | substring/suffix specifications; `producible` of C40 |
| C67, C68 | `settings_dir`, `CONFIG_DIR` | refuted with witnesses; partial |
| C69 | `refresh` for file printers | C25 and C31 composed |
| C70, C71, C75 | the print command of ippclient | the options as a sequence of stages, each proved to set or refuse; C32, C36 |
| C72, C73 | set-attrs of ippclient | C22 and string search |
| C74, C76 | `resolution_list`, `IntegerChoiceSetting` | refuted with witnesses; partial |
| C78 | `finalize`: the parameters decided | stages of finalize, C18/C19 for the page sequence |
| C77 | the option table of ppm2pwg | options as words (PpmCmdSpec), C24 |
| C79, C80, C81 | pdf2printable from the command line | options as words (OptionProofs, for any table), C16, C20, C51; refuted with witnesses; which files are read and written (WhereProperties) |
| C82, C83 | source and destination manager of baselinify | induction over the accesses of libjpeg; truncated files refuted |
| C84 | rendering, encoding and decoding composed | C51, C15/C53, the page codec (C03/C05) pixel by pixel, C12's reader |
| C85 | job, conversion, rendering and transfer composed | C59, C40, C51, C84, C47/C49 |
| C86 | MiniMime's tables against a table of formats | case analysis; C56 for detection |
| C87 | `ippdecode` | a reader for json11's dump (`read_dump`), injectivity of `toJSON`; partial: dates with offsets of three digits |
| C88 | `ippclient` info, get-attrs, get-jobs | exact text; C57, C62 for supplies; refuted for unknown levels |
| C89 | finalize on all jobs and printers | an invariant (attributes typed and sensible) through all stages; refuted in general |
| C90 | messages and help texts of the command line parser | exact messages (an inductive relation of complaints), layout of the help; refuted for surplus arguments |
| C91 | the utilities on a disk | the programs as functions on disks; C12, C55, C77 composed end to end; refuted for input = output and for writing errors |
| C92 | the command line of ippclient | a table of commands, options and what they demand, related to the parser by C24; C70, C72 |
| C93 | DNS messages as a whole | inductive grammar of RFC 1035 messages, C41 for the names |
| C94 | the questions of a discovery session | invariant relating the list of all questions asked to the records received |
| C95 | ippdiscover as a whole | C43 for the session; a text determines its lines |
| C96 | where the client connects | unique reading of URLs; every event of a run goes to the given address |
| C97 | placement of a page | error bounds for binary64 and binary32 rounding by Flocq; the drawing matrix over the reals |
| C98 | requests over HTTP | the settings of libcurl as a list; what libcurl makes of such a list as a specification (HttpSpec), from its documentation |
| C99 | exit codes and what is said | a second model of ippclient with its terminal (SayModel), proved to do what the first does; why each command failed (ToldProperties) |
| C100 | refused options | a list of checks in the order of the reports (SaySpec) against the chain of set_or_fail; the list of the media, those ready marked (WhereProperties) |
| C101 | minimime, also on the output of the other programs | C56 for detection, C91 for ppm2pwg; induction over the pages for pdf_to_printable |
| C102 | everything ippclient sends, as bytes | invariant: every attribute any step puts into a job fits on the wire; C25/C26 for the bytes, C60 for saved settings |
| C103 | the print command from its words to the bytes of the upload | C92, C102, C59, C85 and C47/C49 composed |
| C104 | ippclient --save and the commands after it | an induction over the sequence of commands, with C66, C67, C92 and C103 |
| C105 | `baselinify` as calls of libjpeg | libjpeg as a machine that refuses misuse (TransSpec); what a file's markers say about its colours |
| C106 | `pdf_to_printable` as calls of poppler and cairo, with the destructors of its locals | poppler and cairo as a machine that refuses misuse (CallsSpec) |
| C107 | which members the steps of CurlModel access and what they do to the mutexes (RaceModel) | data races and ownership of mutexes as in the C++ standard (RaceSpec), over all reachable states |
| C108 | `IppAttr::fromString`, `setAttributes` (PrinterModel), set-attrs (ClientModel) | what texts mean in the syntaxes of RFC 8010, last value given (SetSpec) |
| C109 | decoding (IppModel), `IppAttrs::get` | the format of texts with a language, RFC 8010 3.9 (SetSpec) |
| C110 | decoding (IppModel) with what it writes (WarnModel); ippdecode | messages of any groups, RFC 8010 (ResponseSpec) |
| C111 | decoding, `IppAttrs::get`, `finalize` | out-of-band values, RFC 8010 3.5.2 (ResponseSpec) |
| C112 | the whole client (ClientModel) down to the decoder, the settings and `finalize` | ends with an exit code or an exception (SafeProperties) |
| C113 | `main` of bsplit, ppm2pwg, pwg2ppm and ippdecode (FileModel, DecodeModel) | end with an exit code or an exception (EndProperties) |
| C114 | `pdf_to_printable` (RenderModel), `main` of pdf2printable (PdfCmdModel) | end with an exit code or an exception (PdfEndProperties) |
| C115 | what bsplit, ppm2pwg and pdf2printable write to the standard output and error (TellModel) | exit code as in the models of the programs, streams, exact messages in the order of the checks (TellProperties, with the complaints and help texts of C90) |
| C116 | `main` of pdf2printable, `pdf_to_printable`, `fixup_scale`, `getPageSequence` | two runs with different options (DocumentProperties); refuted for two-sided copies |
| C117 | `main` of pwg2ppm with its standard error and the files left by a run that raises (TraceModel) | whole pages, what follows them, and the lines for both; every file is such a sequence (TraceProperties); refuted for the announced page count |
| C118 | `get_args` and the programs bsplit, ppm2pwg, pdf2printable, ippclient as a whole | two runs; permutations of options, synonyms, repeated options (OrderProperties) |
| C119 | `discover` (ippdiscovery) | two sessions, one with datagrams without records inserted (NoiseProperties) |
| C120 | `ppm2pwg`, `pwg2ppm` | one file after the other (JoinProperties) |

TightProperties adds to C55, C82, C85, C87, C91 and C105: literal command lines of bsplit, the standard input and output and missing
input files of the utilities, the lines `ippdecode` writes, chunks without bytes, the counter of the JPEG source and refused calls.

## 3. Trusted base

* The Coq 8.16.1 kernel (`coqc`, checked again with `coqchk`), and `vm_compute` for
  examples and finite sweeps.  No kernel check is switched off.
* The statements: each `*Spec.v` and the definitions in `*Properties.v` in front of a
  theorem have to be read to know what a theorem says.
* The correspondence of `*Model.v` with the C++ text.  It is by reading; each
  definition cites the lines.  Nothing was compiled or run.
* Axioms.  No axiom is declared in this development.  `Print Assumptions` follows each
  property theorem; the result is one of two:
  - *Closed under the global context*: all theorems not listed next.
  - Four axioms of the standard library, `ClassicalDedekindReals.sig_forall_dec`,
    `ClassicalDedekindReals.sig_not_dec`, `Classical_Prop.classic` and
    `FunctionalExtensionality.functional_extensionality_dep`, which come in through
    Flocq's real-number reading of binary64 numbers (the model computes with
    `Coq.Floats.SpecFloat`, without axioms): C01_page_body_conforms,
    C03_round_trip_pwg, C03_round_trip_urf, C04_encoder_memory_safe_partial,
    C05_back_side_transform, C06_bilevel_mirroring_partial,
    C09_sixteen_bit_decodable_partial, C10_pwg_header_total,
    C12_reproduces_images_pwg_partial, C12_reproduces_images_urf_partial,
    C13_encodes_exactly_the_data_partial, C15_cmyk_round_trip, C15_rgb_page,
    C20_sets_size_partial, C21_geometry, C51_stream, C51_first_failure,
    C52_defined_partial, C52_black_and_white, C53_gray_partial, C53_black_partial,
    C54_fill_partial, C54_aspect_partial, C54_fit_refuted, C54_aspect_refuted,
    C61_whole_millimetres, C61_within_one_partial, C61_inches_partial, C62_exact, C62_percentage,
    C79_options, C80_complete_partial, C84_shows_pages_partial, C84_converted_file_partial, C85_received_partial, C85_raster_shown_partial,
    C88_supply, C88_unknown_refuted, C88_info, C89_total_partial, C89_print_partial, C91_round_trip_partial,
    C97_raster_partial, C97_points, C97_uneven_refuted, C103_printed_partial, C103_shown_partial,
    C104_read_partial, C112_client_partial,
    C113_ppm2pwg_partial,
    C114_conversion_partial, C114_command_partial, C120_ppm2pwg_partial.
  (`coqchk` and vcheck also list the axioms inside modules of the standard library that
  are loaded but not used by the theorems, such as those of ssreflect's `under`.)

## 4. What is modelled and what is not

| source | model | left out |
|--------|-------|----------|
| lib/ppm2pwg.cpp | RasterModel, HeaderModel: all functions | |
| lib/pwg2ppm.cpp, utils/pwg2ppm_main.cpp, utils/ppm2pwg_main.cpp | RasterModel, PpmModel, TellModel (messages of ppm2pwg), TraceModel (messages of pwg2ppm, files left by an exception) | verbose output of ppm2pwg; the texts of describe() |
| lib/printparameters.{h,cpp} | ParamsModel: all | |
| lib/stringutils.h | StringModel: all | |
| lib/argget.h | ArgModel: get_args, all argument kinds, sub-commands; HelpModel: help texts | — |
| lib/ippattr.{h,cpp} | IppModel (values), JsonModel, SettingModel (get, getList), SayModel (values for people) | - |
| lib/ippmsg.{h,cpp} | IppModel: encode, decode, baseOpAttrs, makeRequest; WarnModel: the warnings | |
| lib/setting.h | SettingModel: all setting kinds | |
| lib/ippprintjob.{h,cpp} | JobModel (finalize and its parts), SettingsModel (save, restore) | |
| lib/converter.h, lib/minimime.cpp, lib/mediaposition.h | ConverterModel, JobModel, UploadModel (the conversion functions) | poppler, cairo and libjpeg (oracles) |
| lib/ippprinter.{h,cpp} | PrinterModel | plain getters, progress callbacks |
| lib/curlrequester.{h,cpp}, lib/lthread.h | CurlModel: transition system of the two threads; RaceModel: its accesses and mutexes; HttpModel: the options of curl | libcurl itself: what its options mean is specified in HttpSpec |
| lib/ippdiscovery.{h,cpp} | DiscoveryModel | sockets, poll, wall clock |
| lib/pdf2printable.cpp, lib/pointer.h, lib/madness.h | RenderModel, PlaceModel; CallsModel: the calls of poppler and cairo and the destructors | poppler and cairo themselves (the renderer is an oracle; CallsSpec says what they allow); a library that cannot be loaded; std::filesystem::absolute |
| utils/bsplit.cpp | ArgModel | |
| utils/ippclient.cpp | ClientModel, OutputModel (info, get-attrs, get-jobs), SayModel (messages and exit codes), SavedModel (the text of the settings file) | debug messages; what is written before an exception; variables that are not initialised hold any value; an empty file name given together with --mime-type application/pdf (std::filesystem::absolute throws; the model asks poppler for the directory) |
| utils/pdf2printable_main.cpp, lib/binfile.h | PdfCmdModel, TellModel (messages) | logging (-v), the texts of poppler and cairo; symbolic links (files are told apart by absolute path) |
| lib/baselinify.cpp | JpegModel: the source and destination managers; TransModel: the calls of libjpeg | libjpeg itself (TransSpec says what its functions do); its error exit, which ends the program |
| utils/ippdecode.cpp | DecodeModel | |
| utils/{ppm2pwg_main,pwg2ppm_main,bsplit,baselinify_main}.cpp on files | FileModel, TellModel (messages of bsplit) | directories as files; messages of baselinify |
| utils/ippdiscover.cpp, lib/udpsocket.h | ContactModel: words, arriving datagrams, output, queries | socket calls, poll; -v (log output) |
| utils/minimime_main.cpp | ToolModel | directories as files |
| utils/hexdump.cpp | not modelled (it prints what Bytestream::hexdump, a function of the submodule, returns) | |

DBG logging is ignored everywhere.

## 5. Assumptions about code that is not in the repository

The submodules bytestream and json11 are empty in the checkout; their behaviour is
taken from their documentation and use:

* Bytestream: integers are big-endian; `>> variable`, `get`, `getString`,
  `getBytestream`, `peek` and `+=` throw `std::out_of_range` when there is too little
  data; `>> constant` consumes on a match and throws otherwise; `>>=` and `next` consume
  and return true on a match and otherwise return false without consuming; string
  literals are C strings, so that an embedded NUL ends them (C56 depends on it);
  `<< std::string` writes its bytes; `Bytestream(istream, n)` holds what reading
  delivered; `setPos` beyond the data throws there or at the next read; `reset` empties.
* Generated header codecs (`*.codable`): STRING(n) is NUL-padded on writing and cut at
  the first NUL on reading, PADDING is zeros, enumerations are plain numbers, nothing
  is validated.
* json11: `dump` writes what `SettingsModel.dump` says; parsing gives back the tree that
  was dumped (C31, C60, C69) and accepts nothing but JSON texts (C60); its limit of 200
  levels of nesting is not reached.
* A Bytestream without bytes converts to false (the loop of discover, C95); curl contacts the host and port in a URL, by
  default port 80 for http and 443 for https (C96).
* curl: calls the read callback again only after a non-zero result and with a size of at
  least one; never after 0.  zlib: the contract `zlib_ok` in CurlModel/CurlProperties.
* Mutexes used as semaphores (unlocked by another thread) act as binary semaphores,
  although that is undefined in C++; memory is sequentially consistent (C107 shows that only `_complete` is raced for, so
  this concerns `_complete` alone).
* double is IEEE binary64, rounding to nearest even, without contraction to fused
  multiply-add; int is 32 and size_t 64 bits.
* glib: `g_filename_from_uri` on `file://` and a path is `PdfCmdModel.unescape`; libstdc++:
  `std::filesystem::absolute` raises for an empty path; an ostream's exception mask is
  goodbit until it is set.
* std::regex matches as ECMAScript says and has the memory it needs: stack and heap are unlimited everywhere in the model
  (libstdc++'s matcher recurses once per character, and a number of copies in the billions does not fit any memory).
* libjpeg: takes bytes through `next_input_byte`, calling fill_input_buffer first when
  `bytes_in_buffer` is 0, and skips with skip_input_data; puts bytes at `next_output_byte`
  and calls empty_output_buffer when `free_in_buffer` has become 0, and term_destination
  at the end (JpegModel, C82, C83).  The functions for transcoding do what TransSpec.step says, and decoders take the
  colours from the markers as TransSpec.shows says (libjpeg.txt, jctrans.c, jdtrans.c, jdapimin.c; C105).
* poppler and cairo allow the calls that CallsSpec.step has an answer to; in particular, destroying the last reference to an
  unfinished PDF or Postscript surface finishes it, which writes to its stream (cairo_surface_destroy; C106).
* cairo: the stride of an RGB24 image is four times its width.  Datagrams are shorter
  than 65536 bytes; the discovery clock ticks once per call of sendQuery.

## 6. Findings

Statements that are false of the code, each with a theorem `..._refuted` (witness), and
other behaviour noticed while modelling.

* Raster encoder: a bitmap shorter than the page is read out of range (C04); a mirrored
  1-bit line whose width is not a multiple of 8 starts with its padding bits (C06).
* Raster decoder: overshooting runs are accepted until data runs out; the URF fill code
  128 with 2 bytes per pixel or after an overshoot loops for ever, and nothing else does
  (C07, C07_hang_exactly); grey is filled
  with black (C08).  pwg2ppm passes the number of colours as chunk size, so that 16-bit
  PWG files are decoded wrongly (C09); P4 files get a maximum value line (C14).
* ppm2pwg: data beginning with `#` is taken for a comment, and a separator that is not
  a newline becomes a pixel (C13); an empty input file is an error.
* Page ranges and paper sizes: over-long numbers raise `out_of_range` out of the parsers
  (C17, C20); a refused page range has already cleared the previous one; a paper size is
  not the nearest double for long names (C20).
* split_string with delimiters longer than one character (C22); FixupText turns LF
  following CRLF splitting into CRLF, but existing CRLF is not always preserved (C23).
* IPP: decoding is undefined when a collection is cut off at its first member (C26);
  document data beginning with two zero bytes behind the attributes is misread (C29);
  lengths are truncated to 16 bits (C30); the last group is lost without an
  end-of-attributes tag; sets of one element come back as the element.
* JSON: dates are not restored (C31).
* getDefault and get catch only `out_of_range`: a value of the wrong type raises
  `bad_variant_access`.
* finalize: an unsupported document-format chosen by the user is accepted; copying a job
  drops the additional formats, so that runJob never sees them (C39); unknown
  media-sources raise; "RS" without a number in URF capabilities raises; the media size
  of letter paper is one hundredth of a millimetre short (C61).
* Upload: a conversion that fails midway ends the upload normally, so that the printer
  prints the first half (C50).  SSL errors are always ignored for documents.
* Discovery: compression pointers are cut to 12 bits; label lengths above 63 are
  accepted; erasing in a range-for is undefined, in exactly the
  sessions that send a query more than two seconds after their start (C45, C45_exactly); the length check follows the
  switch and has no effect (C46); a printer's IPPS address is forgotten between updates
  (C44).  Any datagram is enough, even a question of another host: an ipp address that was
  left out because of its ipps address is reported at the next datagram (C119).
* Rendering: 65 of the neutral greys come out one level darker (C53); rounding the
  scale to two decimals can exceed the page (C54); integer division of resolutions.
* MiniMime: the NUL in the TIFF signatures ends the literals, so that every file that
  begins with MM is a TIFF (C56).
* runJob: for file printers the conversion's error is dropped (C59); the success code
  0x00ff of a print request is a failure (C59); identify, set-attributes, get-jobs and
  refresh ignore the response's status (C63); getPercent is undefined for levels far
  above the high level (C62).
* Settings: the printer's uuid is used as a file name unchecked, so that a printer can
  have any of the user's files overwritten (C67); without USER in the environment
  CONFIG_DIR adds a null pointer to a string (C68), which refresh does on every start;
  saving empties the file first, so that a crash loses the old settings (C60 holds: the
  new ones are restored completely or not at all); write errors are not reported.
* ippclient: a quality other than 3, 4 and 5 in print-quality-supported ends every print
  command with an uncaught `out_of_range`, and so do attributes of the wrong type (C75);
  resolutions in a message run together (C74); set-attrs cannot set values with commas or
  equals signs (C73); restored settings are not checked against the printer; -r is cut to
  32 bits; variables are passed on uninitialised when their option was not given; paths
  are put into file URLs without escaping.
* IntegerChoiceSetting overflows for a range up to INT_MAX, and lists a range of any size
  the printer names (C76).
* pdf2printable_main checks `exceptions()` where the stream's state is meant, so write
  failures and output files that cannot be opened are not reported (C80); the output is
  truncated before the document is opened, so that naming one file for both loses it
  (C80); paths with % or # open another file or none (C81); an over-long number in a page
  selection or paper size ends the program with an uncaught exception (C79).
* baselinify: fill_input_buffer reports success without providing bytes, so that libjpeg
  reads past the end of a truncated file (C82); libjpeg's standard error handler, which
  baselinify installs, ends the process on a malformed file.
* pwg2ppm writes Black8 pages (1 is ink) as PGM (0 is black) without inverting them (C84).
* The conversions that write once (JustUpload, FixupText, Baselinify) ignore the writer's answer: if the upload ended before
  it took the document (the printer answered early), a success status is reported as success (C85).
* Printing text/plain to a file printer always fails, since there is no extension for it (C86).
* ippdecode ends with exit code 0 for malformed messages; the offsets in dates are written without separator (C87).
* ippclient info shows supplies whose level the printer does not know (negative) as low (C88).
* Preparing a job for a tray that has no number in MEDIA_POSITION_MAP raises, although printers may name trays freely; so do
  entries "RS" without numbers; a paper size of 2^31 hundredths of a millimetre is undefined behaviour (C89).  runJob
  turns the exceptions into error messages such as "Exception caught while printing: map::at".
* With too many positional arguments the parser calls the first of them unknown ("bsplit a b c": "Unknown argument: a"; C90).
* ppm2pwg and baselinify create the output file before they read the input: with the same file as input and output the data
  are lost.  ppm2pwg, pwg2ppm, bsplit and baselinify end with exit code 0 when the output cannot be created or the disk is
  full (C91).
* In every discovery session with a defined outcome no question is repeated: a query or response that is lost is not asked
  for again (C94; entries that expire would allow it, but removing them is undefined behaviour, C45).
* Discovery leaves out the port 631 of ipp printers, but the client makes http URLs, without a port, of such addresses: a
  printer found at port 631, where IPP printers usually are, is contacted at port 80.  An ipp or ipps address without port
  given by the user likewise goes to 80 or 443 instead of 631 (C96).  Addresses with another scheme are mangled: http://h
  becomes httpp://h.
* A line break in the path of a TXT record forges lines in the output of ippdiscover; an empty datagram, from anyone, ends
  the search (C95).
* With resolutions such as 300 x 200 dpi pages are not only distorted (C54) but printed at one edge of the paper (C97).
* The request with the document is sent without verification of the server's certificate whatever ignoreSslErrors is
  (`cr(_addr, true)`, ippprinter.cpp:139), and ippclient never verifies a certificate (C98).  Some calls of curl_easy_setopt
  pass an int where libcurl reads a long (curlrequester.cpp:13-15,167).
* ippclient print to a file:// printer ends with 0 and says nothing if the conversion fails; with --print-job-id it speaks of
  job 0 if the response has no job-id (C99).
* For --collated-copies, which takes yes or no, the values listed as valid are IPP keywords (C100).  Media are listed with
  "(ready)" directly after the name.
* minimime ends with 0 and prints an empty line for a file that cannot be read (C101).
* ippclient print --save keeps only options that are IPP settings; --antialias, --one-stage and the like are not saved, though
  the help text speaks of options (C104).
* baselinify does not write the Adobe marker: YCCK pictures, and RGB pictures without component letters, are then taken for
  CMYK and YCbCr and printed in wrong colours.  Colour profiles (APP2) and comments are dropped, too (C105).
* pdf_to_printable declares the cairo surface before the output buffer it writes to, so the buffer is destroyed first.  If a
  PDF or Postscript job fails before the end (say, the printer closes the connection), destroying the unfinished surface
  writes the rest of the document to the destroyed buffer (pdf2printable.cpp:70-74, 194, 206; C106).
* poppler_document_get_page can give a null pointer for broken documents; pdf_to_printable does not check, and takes the page
  size from uninitialised variables (pdf2printable.cpp:170-176; C106).
* LThread::_complete is a plain bool, written by the worker while the producer reads it: a data race in every print job.  The
  mutexes of CurlIppPosterBase are unlocked by the thread that does not hold them (and in the constructor, by a thread when
  nobody does), which is undefined; binary semaphores would be right.  No other member is raced for (C107).
* set-attrs leaves out names the printer does not have and reports success (ippprinter.cpp:440); dates, resolutions, ranges,
  collections, octets and sets of values cannot be set (ippattr.cpp:135-140; C108).
* textWithLanguage and nameWithLanguage are treated as plain strings: what is shown has the lengths and the language in it,
  and what set-attrs sends for them is malformed (ippattr.cpp:141-153; C108, C109).
* Subscription, event notification, resource and document attributes groups (RFC 8010 3.5.1) are taken for attributes and the
  response is lost (ippmsg.cpp:18; C110).  No line break follows the text about unsupported attributes (ippmsg.cpp:35).
* Attributes without a value (no-value, unknown) are read as empty texts: getting a number from one throws
  std::bad_variant_access, and with media-default sent that way every job without --media fails with "Invalid paper size
  name", whereas without media-default A4 is used (C111).
* A resolution option of 2^31 (with --force) overflows the int arithmetic of the nearest resolution (ippprintjob.cpp:210; C112).
  Five kinds of input that make a run of ippclient undefined are in C112_refuted; all others end in an exit code or an exception.
* `ppm2pwg -r 0` divides by the resolution and converts the infinite quotient to an integer, which is undefined; so is a page whose
  height times its bytes per line does not fit 64 bits (C113).  A file of whole pages of at most 10^7 x 10^7 pixels is converted or refused.
* The help text of pdf2printable says that the options from --resolution on only affect raster formats; with `--copies 2` and an odd number
  of pages `-d` and `-t` put blank pages into PDF and Postscript files (C116).  The resolution is also the fallback resolution of cairo.
* pwg2ppm tells the page count announced by a URF file but does not compare it with the pages read: a file that announces five pages and
  has none is converted with exit code 0 (C117).
* `pdf2printable -rx 0` (or `-ry 0`) to a raster format divides by zero in fixup_scale (C114).  With resolutions from 1 to 3000 and a
  sensible paper size every document is converted or refused.
