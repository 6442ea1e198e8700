(** utils/pdf2printable_main.cpp: the command line of pdf2printable.  What poppler and
    cairo do with a document is a [renderer] (RenderModel). *)
From Verif Require Import Base StringModel FloatModel ParamsModel HeaderModel PpmModel RenderModel ArgModel.
Local Open Scope Z_scope.

(** ** The options: pdf2printable_main.cpp:36-95; enumerators by their position in the types
    of ParamsModel (PrintParameters::Quality by its values) *)
Definition pdf_switches : list switch :=
  [ mkSwitch 0 KBool ["-h"; "--help"] "";
    mkSwitch 1 KBool ["-v"; "--verbose"] "";
    mkSwitch 2 (KEnum [("pdf", 0); ("postscript", 1); ("ps", 1); ("pwg", 2); ("urf", 3)]) ["-f"; "--format"] "Unrecognized target format";
    mkSwitch 3 KString ["-p"; "--pages"] "";
    mkSwitch 4 KULong ["--copies"] "";
    mkSwitch 5 KString ["--paper-size"] "";
    mkSwitch 6 KInt ["-r"; "--resolution"] "";
    mkSwitch 7 KInt ["-rx"; "--resolution-x"] "";
    mkSwitch 8 KInt ["-ry"; "--resolution-y"] "";
    mkSwitch 9 KBool ["-d"; "--duplex"] "";
    mkSwitch 10 KBool ["-t"; "--tumble"] "";
    mkSwitch 11 (KEnum [("flip", 2); ("manual-tumble", 3); ("rotate", 1)]) ["-b"; "--back-xform"] "";
    mkSwitch 12 (KEnum [("black1", 5); ("black8", 3); ("cmyk32", 1); ("gray1", 4); ("gray8", 2); ("srgb24", 0)]) ["-c"; "--color-mode"] "Unrecognized color mode";
    mkSwitch 13 (KEnum [("draft", 3); ("high", 5); ("normal", 4)]) ["-q"; "--quality"] "";
    mkSwitch 14 KBool ["-aa"; "--antialias"] "";
    mkSwitch 15 (KEnum media_positions) ["-mp"; "--media-pos"] "";
    mkSwitch 16 KString ["-mt"; "--media-type"] "" ]%string.
Definition pdf_pos : list posarg := [ mkPos 17 "PDF-file" false; mkPos 18 "out-file" false ].
(** the variables before parsing: pdf2printable_main.cpp:23-34, printparameters.h:112-152 *)
Definition pdf_init : astate :=
  mkA (fun i => match i with
                | 0 | 1 | 9 | 10 | 14 => ABool false
                | 2 | 6 | 7 | 8 | 11 | 12 | 13 | 15 => AInt 0
                | 4 => AInt 1
                | _ => AStr ""
                end%nat) (fun _ => false).
Definition format_of (z : Z) : fmt := if z =? 1 then Postscript else if z =? 2 then PWG else if z =? 3 then URF else PDF.
Definition back_of (z : Z) : back_xform := if z =? 1 then Rotated else if z =? 2 then Flipped else if z =? 3 then ManualTumble else Normal.
Definition color_of (z : Z) : color_mode :=
  if z =? 1 then CMYK32 else if z =? 2 then Gray8 else if z =? 3 then Black8 else if z =? 4 then Gray1 else if z =? 5 then Black1 else sRGB24.
Definition quality_of (z : Z) : quality_t := if z =? 3 then DraftQuality else if z =? 4 then NormalQuality else if z =? 5 then HighQuality else DefaultQuality.

(** pdf2printable_main.cpp:114-132: the format from the name of the output file *)
Definition format_by_name (out : string) (f : fmt) : fmt :=
  if string_ends_with out ".ps" then Postscript
  else if string_ends_with out ".pwg" then PWG
  else if string_ends_with out ".urf" then URF
  else if string_ends_with out ".pdf" then PDF else f.

(** pdf2printable_main.cpp:97-132: params after parsing and the choice of the format *)
Definition parsed_params (st : astate) : params :=
  let d := default_params in
  let int i := as_int (a_val st i) in
  {| p_format := if a_set st 2%nat then format_of (int 2%nat) else format_by_name (as_str (a_val st 18%nat)) (format_of (int 2%nat));
     p_colorMode := color_of (int 12%nat); p_quality := quality_of (int 13%nat); p_antiAlias := as_bool (a_val st 14%nat);
     p_paperSizeName := p_paperSizeName d; p_hwResW := p_hwResW d; p_hwResH := p_hwResH d;
     p_units := p_units d; p_sizeW := p_sizeW d; p_sizeH := p_sizeH d;
     p_duplexMode := p_duplexMode d; p_backXform := back_of (int 11%nat); p_copies := int 4%nat;
     p_collated := p_collated d; p_pageRanges := p_pageRanges d;
     p_mediaPosition := int 15%nat; p_mediaType := as_str (a_val st 16%nat) |}.
(** pdf2printable_main.cpp:152-177; an int is assigned to a uint32_t *)
Definition with_sides (p : params) (w h : Z) (d : duplex_mode) : params :=
  {| p_format := p_format p; p_colorMode := p_colorMode p; p_quality := p_quality p; p_antiAlias := p_antiAlias p;
     p_paperSizeName := p_paperSizeName p; p_hwResW := w; p_hwResH := h; p_units := p_units p; p_sizeW := p_sizeW p; p_sizeH := p_sizeH p;
     p_duplexMode := d; p_backXform := p_backXform p; p_copies := p_copies p; p_collated := p_collated p;
     p_pageRanges := p_pageRanges p; p_mediaPosition := p_mediaPosition p; p_mediaType := p_mediaType p |}.
Definition resolved (st : astate) (p : params) : params :=
  let int i := as_int (a_val st i) in
  with_sides p
    (if a_set st 7%nat then int 7%nat mod two32 else if a_set st 6%nat then int 6%nat mod two32 else p_hwResW p)
    (if a_set st 8%nat then int 8%nat mod two32 else if a_set st 6%nat then int 6%nat mod two32 else p_hwResH p)
    (if as_bool (a_val st 10%nat) then TwoSidedShortEdge
     else if as_bool (a_val st 9%nat) then TwoSidedLongEdge else p_duplexMode p).
(** pdf2printable_main.cpp:179-191 *)
Definition urf_refuses (st : astate) (p : params) : bool :=
  match p_format p with
  | URF => ((getBitsPerColor p =? 1) || isBlack p) || (a_set st 16%nat && negb (isUrfMediaType (p_mediaType p)))
  | _ => false
  end.
(** pdf2printable_main.cpp:114-191: the parameters, None for return 1 *)
Definition pdf_params (st : astate) : outcome (option params) :=
  let p := parsed_params st in
  let! (ok, p) := (if a_set st 3%nat then setPageRange p (as_str (a_val st 3%nat)) else Ok (true, p)) in
  if negb ok then Ok None
  else
    let! (ok, p) := (if a_set st 5%nat then setPaperSize p (as_str (a_val st 5%nat)) else Ok (true, p)) in
    if negb ok then Ok None
    else
      let p := resolved st p in
      if urf_refuses st p then Ok None else Ok (Some p).

(** ** The files *)
(** std::filesystem::absolute (pdf2printable.cpp:85) as libstdc++ has it; [cwd] is the
    working directory.  An empty name raises filesystem_error (a std::runtime_error). *)
Definition absolute (cwd name : string) : outcome string :=
  match name with
  | EmptyString => Throw RuntimeError
  | String c _ =>
      if Ascii.eqb c "/" then Ok name
      else if string_ends_with cwd "/" then Ok (cwd ++ name)%string else Ok (cwd ++ "/" ++ name)%string
  end.
(** g_filename_from_uri (glib) on file:// followed by an absolute path, as
    poppler_document_new_from_file uses it: no # may occur, %XX stands for the character
    with that number and may not stand for / or the null character.  None: an error. *)
Definition hex_value (c : ascii) : option Z :=
  let z := Zb c in
  if (48 <=? z) && (z <=? 57) then Some (z - 48)
  else if (97 <=? z) && (z <=? 102) then Some (z - 87)
  else if (65 <=? z) && (z <=? 70) then Some (z - 55) else None.
Fixpoint unescape (s : string) : option string :=
  match s with
  | EmptyString => Some ""%string
  | String c s' =>
      if Ascii.eqb c "%" then
        match s' with
        | String a (String b s'') =>
            match hex_value a, hex_value b with
            | Some x, Some y =>
                let z := 16 * x + y in
                if (z =? 0) || (z =? 47) then None else option_map (String (bZ z)) (unescape s'')
            | _, _ => None
            end
        | _ => None
        end
      else if Ascii.eqb c "#" then None
      else option_map (String c) (unescape s')
  end.

(** [e_doc]: what poppler and cairo make of a file.  [e_file]: the contents of the file at an
    absolute path, None if it cannot be read.  [e_room]: None if a file cannot be opened for
    writing, otherwise how many bytes can be written. *)
Record pdf_env := mkEnv {
  e_doc : list byte -> renderer;
  e_cwd : string;
  e_stdin : list byte;
  e_file : string -> option (list byte);
  e_room : string -> option Z
}.
Definition unopened : renderer := mkRenderer None (fun _ => (fofZ 0, fofZ 0)) (fun _ _ => None) (fun _ _ => []) [].
(** the path of the output file: opened by its name, so relative to the working directory;
    the standard output is called - *)
Definition out_path (e : pdf_env) (name : string) : string :=
  if String.eqb name "-" then "-"%string else match absolute (e_cwd e) name with Ok path => path | _ => ""%string end.
(** pdf2printable.cpp:79-97: the document is opened after the output file was truncated.
    Two names of a file that are different absolute paths are not modelled. *)
Definition open_document (e : pdf_env) (i o : string) : outcome renderer :=
  if String.eqb i "-" then Ok (e_doc e (e_stdin e))
  else
    let! path := absolute (e_cwd e) i in
    match unescape path with
    | None => Ok unopened
    | Some path' =>
        let content := if match e_room e (out_path e o) with Some _ => String.eqb path' (out_path e o) | None => false end
                       then Some [] else e_file e path' in
        Ok (match content with Some b => e_doc e b | None => unopened end)
    end.
(** the bytes given to the ostream *)
Fixpoint written (ev : list event) : list byte :=
  match ev with
  | [] => []
  | Wrote b :: ev' => b ++ written ev'
  | Progress _ _ :: ev' => written ev'
  end.
(** pdf2printable_main.cpp:193-214.  The exception mask of an ostream is goodbit unless set:
    the lambda always answers true.  An ostream that failed writes nothing more. *)
Definition convert_file (e : pdf_env) (p : params) (i o : string) : outcome (Z * option (string * list byte)) :=
  (* the early return for URF precedes the opening of the document: pdf2printable.cpp:58-61 *)
  let! r := (if match p_format p with URF => negb (p_hwResW p =? p_hwResH p) | _ => false end
             then Ok unopened else open_document e i o) in
  let! (ev, err) := pdf_to_printable r (fun _ _ => true) p in
  Ok (match err with Some _ => 1 | None => 0 end,
      match e_room e (out_path e o) with
      | None => None
      | Some n => Some (out_path e o, firstn (Z.to_nat n) (written ev))
      end).
(** pdf2printable_main.cpp:21-215: exit code and the file written (None: none was opened) *)
Definition pdf2printable_cmd (e : pdf_env) (args : list string) : outcome (Z * option (string * list byte)) :=
  let! (r, st) := get_args pdf_switches pdf_pos pdf_init args in
  let '(ok, _) := r in
  if as_bool (a_val st 0%nat) then Ok (0, None)
  else if negb ok then Ok (1, None)
  else
    let! p := pdf_params st in
    match p with
    | None => Ok (1, None)
    | Some p => convert_file e p (as_str (a_val st 17%nat)) (as_str (a_val st 18%nat))
    end.
