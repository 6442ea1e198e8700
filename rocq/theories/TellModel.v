(** What pdf2printable, ppm2pwg and bsplit tell on the standard output and the standard
    error, without -v: utils/pdf2printable_main.cpp, utils/ppm2pwg_main.cpp,
    utils/bsplit.cpp.  The data written to the standard output for the output name - is not
    part of it. *)
From Verif Require Import Base StringModel FloatModel ParamsModel HeaderModel PpmModel ArgModel HelpModel RenderModel PdfCmdModel.
Local Open Scope Z_scope.

(** exit code, standard output, standard error *)
Record told := mkTold { t_code : Z; t_out : string; t_err : string }.
Definition refuses (text : string) : told := mkTold 1 "" text.
(** std::cerr << text << std::endl; return 1 *)
Definition fails (text : string) : told := refuses (text ++ endl).
(** print_error: pdf2printable_main.cpp:16-19, ppm2pwg_main.cpp:17-20, bsplit.cpp:10-13; [note]
    is HELPTEXT *)
Definition print_error (hint help note : string) : string := hint ++ endl ++ endl ++ help ++ endl ++ note ++ endl.
(** std::cout << args.argHelp() << std::endl << HELPTEXT << std::endl; return 0 *)
Definition helps (help note : string) : told := mkTold 0 (help ++ endl ++ note ++ endl) "".
(** ppm2pwg_main.cpp:15 *)
Definition streams_note : string := "Use ""-"" as filename for stdin/stdout.".
(** pdf2printable_main.cpp:13-14 *)
Definition pdf_note : string := "Options from 'resolution' and onwards only affect raster output formats." ++ endl ++ streams_note.
(** bsplit.cpp:8 *)
Definition bsplit_note : string := "Negative numbers means ""all but"" number of bytes from the beginning/end.".

(** ** bsplit *)
(** bsplit.cpp:23-25 *)
Definition bsplit_docs : list documented :=
  combine bsplit_switches ["Print this help text"; "Get head number of bytes from the beginning"; "Get tail number of bytes from the end"]%string.
(** bsplit.cpp:15-89 *)
Definition bsplit_tells (files : string -> option (list byte)) (name : string) (args : list string) : outcome told :=
  let help := arg_help name bsplit_docs bsplit_pos in
  let! (r, st) := get_args bsplit_switches bsplit_pos bsplit_init args in
  let '(ok, msg) := r in
  if as_bool (a_val st 0%nat) then Ok (helps help bsplit_note)
  else if negb ok then Ok (refuses (print_error msg help bsplit_note))
  else
    match files (as_str (a_val st 3%nat)) with
    | None => Ok (fails "Failed to open input")
    | Some bts =>
        if Bool.eqb (a_set st 1%nat) (a_set st 2%nat) then Ok (fails "Please give --head *or* --tail.")
        else
          let! _ := (if a_set st 1%nat then bsplit_head bts (as_int (a_val st 1%nat))
                     else bsplit_tail bts (as_int (a_val st 2%nat))) in
          Ok (mkTold 0 "" "")
    end.

(** ** ppm2pwg *)
(** ppm2pwg_main.cpp:50-79 *)
Definition ppm2pwg_docs : list documented :=
  combine ppm2pwg_switches
    [ "Print this help text"; "Be verbose, print headers"; "Format to output (pwg/urf)"; "Number of pages to expect (for URF header)";
      "Paper size name in header, e.g.: iso_a4_210x297mm"; "Resolution (in DPI) to set in header"; "Resolution (in DPI) to set in header, x-axis";
      "Resolution (in DPI) to set in header, y-axis"; "Process for duplex printing"; "Process for tumbled duplex output";
      "Transform backsides (rotate/flip/manual-tumble)"; "Quality setting in raster header (draft/normal/high)";
      "Media position, e.g.: main, top, left, roll-2 etc."; "Media type, e.g.: stationery, cardstock etc." ]%string.
(** ppm2pwg_main.cpp:181-235: the complaint about a header, or the colour mode *)
Definition depth_complaint (r : string) : string := "Only 255 and 65535 bit-depths supported, got " ++ r.
Definition ppm_mode_tells (f : fmt) (magic xs r : string) : outcome (string + color_mode) :=
  if String.eqb magic "P6" then
    Ok (if String.eqb r "255" then inr sRGB24 else if String.eqb r "65535" then inr sRGB48 else inl (depth_complaint r))
  else if String.eqb magic "P5" then
    Ok (if String.eqb r "255" then inr Gray8 else if String.eqb r "65535" then inr Gray16 else inl (depth_complaint r))
  else if String.eqb magic "P4" then
    let! x := stoul xs in
    Ok (if negb (x mod 8 =? 0) then inl ("Only whole-byte width P4 PBMs supported, got " ++ dec_string x)%string
        else match f with URF => inl "URF does not support 1-bit (P4/pbm) color."%string | _ => inr Black1 end)
  else Ok (inl ("Only P4/P5/P6 (raw) supported, got " ++ magic)%string).
(** ppm2pwg_main.cpp:171-248: as PpmModel.ppm_page, with the complaint *)
Definition ppm_page_tells (p : params) (page : Z) (s : istream) : outcome (string + (list byte * params * istream)) :=
  let '(magic, s) := read_word s in
  let! s := ignore_comments s in
  let '(xs, s) := read_word s in
  let '(ys, s) := read_word s in
  let '(r, s) := if String.eqb magic "P6" || String.eqb magic "P5" then read_word s else (""%string, s) in
  let! mode := ppm_mode_tells (p_format p) magic xs r in
  match mode with
  | inl complaint => Ok (inl complaint)
  | inr m =>
      let! s := ignore_comments s in
      let! w := stoul xs in
      let! h := stoul ys in
      let p := with_page p m (fofZ w) (fofZ h) in
      let! bpl := getPaperSizeWInBytes p in
      let! size := f_to_unsigned 64 (fmul (p_sizeH p) (fofZ bpl)) in
      let '(bmp, s) := read_block s size in
      let! out := bmp_to_pwg bmp page p in
      Ok (inr (out, p, s))
  end.
(** ppm2pwg_main.cpp:169-252 *)
Fixpoint ppm_pages_tells (fuel : nat) (p : params) (page : Z) (s : istream) : outcome told :=
  match fuel with
  | O => NoFuel
  | S f =>
      if i_eof s then Ok (mkTold 0 "" "")
      else
        let! o := ppm_page_tells p (page + 1) s in
        match o with
        | inl complaint => Ok (fails complaint)
        | inr (_, p, s) => let '(_, s) := peek s in ppm_pages_tells f p (page + 1) s
        end
  end.
(** ppm2pwg_main.cpp:34-254 *)
Definition ppm2pwg_tells (files : string -> option (list byte)) (name : string) (args : list string) : outcome told :=
  let help := arg_help name ppm2pwg_docs ppm2pwg_pos in
  let! (r, st) := get_args ppm2pwg_switches ppm2pwg_pos ppm2pwg_init args in
  let '(ok, msg) := r in
  if as_bool (a_val st 0%nat) then Ok (helps help streams_note)
  else if negb ok then Ok (refuses (print_error msg help streams_note))
  else
    match ppm2pwg_params (ppm_opts_of st) with
    | None => Ok (refuses (print_error "Invalid media type for URF" help streams_note))
    | Some p =>
        match files (as_str (a_val st 14%nat)) with
        | None => Ok (fails "Failed to open input")
        | Some input => ppm_pages_tells (S (length input)) p 0 (mkIn input false false)
        end
    end.

(** ** pdf2printable *)
(** pdf2printable_main.cpp:36-88 *)
Definition pdf_docs : list documented :=
  combine pdf_switches
    [ "Print this help text"; "Be verbose, print headers and progress"; "Format to output (pdf/postscript/pwg/urf)";
      "What pages to process, e.g.: 1,17-42,69-"; "Number of copies to output"; "Paper size to output, e.g.: iso_a4_210x297mm";
      "Resolution (in DPI) for rasterization"; "Resolution (in DPI) for rasterization, x-axis"; "Resolution (in DPI) for rasterization, y-axis";
      "Process for duplex printing"; "Process for tumbled duplex output"; "Transform backsides (rotate/flip/manual-tumble)";
      "Color mode (srgb24/cmyk32/gray8/black8/gray1/black1)"; "Quality setting in raster header (draft/normal/high)";
      "Enable antialiasing in rasterization"; "Media position, e.g.: main, top, left, roll-2 etc."; "Media type, e.g.: stationery, cardstock etc." ]%string.
(** pdf2printable_main.cpp:135-191: the hint of print_error, or the parameters *)
Definition pdf_params_tells (st : astate) : outcome (string + params) :=
  let p := parsed_params st in
  let! (ok, p) := (if a_set st 3%nat then setPageRange p (as_str (a_val st 3%nat)) else Ok (true, p)) in
  if negb ok then Ok (inl "Malformed page selection"%string)
  else
    let! (ok, p) := (if a_set st 5%nat then setPaperSize p (as_str (a_val st 5%nat)) else Ok (true, p)) in
    if negb ok then Ok (inl "Malformed paper size"%string)
    else
      let p := resolved st p in
      match p_format p with
      | URF =>
          if (getBitsPerColor p =? 1) || isBlack p then Ok (inl "URF does not support black or 1-bit color modes"%string)
          else if a_set st 16%nat && negb (isUrfMediaType (p_mediaType p)) then Ok (inl "Invalid media type for URF"%string)
          else Ok (inr p)
      | _ => Ok (inr p)
      end.
(** pdf2printable_main.cpp:193-215; [pdf_error] completes the errors of pdf_to_printable with the
    texts of poppler and cairo (pdf2printable.cpp:94-95, 190) *)
Definition convert_tells (pdf_error : string -> string) (e : pdf_env) (p : params) (i o : string) : outcome told :=
  let! r := (if match p_format p with URF => negb (p_hwResW p =? p_hwResH p) | _ => false end
             then Ok unopened else open_document e i o) in
  let! (_, err) := pdf_to_printable r (fun _ _ => true) p in
  Ok (match err with Some text => fails ("Conversion failed: " ++ pdf_error text) | None => mkTold 0 "" "" end).
(** pdf2printable_main.cpp:21-215 *)
Definition pdf_tells (pdf_error : string -> string) (e : pdf_env) (name : string) (args : list string) : outcome told :=
  let help := arg_help name pdf_docs pdf_pos in
  let! (r, st) := get_args pdf_switches pdf_pos pdf_init args in
  let '(ok, msg) := r in
  if as_bool (a_val st 0%nat) then Ok (helps help pdf_note)
  else if negb ok then Ok (refuses (print_error msg help pdf_note))
  else
    let! q := pdf_params_tells st in
    match q with
    | inl hint => Ok (refuses (print_error hint help pdf_note))
    | inr p => convert_tells pdf_error e p (as_str (a_val st 17%nat)) (as_str (a_val st 18%nat))
    end.
