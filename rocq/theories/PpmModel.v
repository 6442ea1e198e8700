(** utils/ppm2pwg_main.cpp, utils/pwg2ppm_main.cpp and write_ppm of lib/pwg2ppm.cpp,
    on file contents. *)
From Verif Require Import Base FloatModel StringModel ParamsModel RasterModel HeaderModel.
Local Open Scope Z_scope.

(** ** std::istream, as far as ppm2pwg uses it (binfile.h wraps one).
    [i_rest]: characters not yet extracted; [i_eof]/[i_fail]: the state bits. *)
Record istream := mkIn { i_rest : list byte; i_eof : bool; i_fail : bool }.
Definition i_good (s : istream) : bool := negb (i_eof s || i_fail s).

(** longest prefix without / with only white space, and the rest *)
Fixpoint span_word (l : list byte) : list byte * list byte :=
  match l with
  | [] => ([], [])
  | c :: r => if is_space c then ([], l) else let '(a, b) := span_word r in (c :: a, b)
  end.
Fixpoint skip_ws (l : list byte) : list byte :=
  match l with
  | [] => []
  | c :: r => if is_space c then skip_ws r else l
  end.

(** in >> string: the sentry fails on a stream that is not good (failbit), skips white
    space (eofbit and failbit at the end of the file); then extracts up to white space,
    setting eofbit when the end of the file is reached.  The string stays empty if the
    sentry fails (all strings read are fresh: ppm2pwg_main.cpp:174). *)
Definition read_word (s : istream) : string * istream :=
  if i_good s then
    match skip_ws (i_rest s) with
    | [] => (""%string, mkIn [] true true)
    | l => let '(w, r) := span_word l in
           (string_of_bytes w, mkIn r (match r with [] => true | _ => false end) false)
    end
  else (""%string, mkIn (i_rest s) (i_eof s) true).

(** in.peek(): None is EOF, which sets eofbit; on a stream that is not good the sentry
    sets failbit *)
Definition peek (s : istream) : option byte * istream :=
  if i_good s then
    match i_rest s with
    | [] => (None, mkIn [] true false)
    | c :: _ => (Some c, s)
    end
  else (None, mkIn (i_rest s) (i_eof s) true).

(** the rest of the stream after the first newline; true if there is none *)
Fixpoint skip_line (l : list byte) : list byte * bool :=
  match l with
  | [] => ([], true)
  | c :: r => if Ascii.eqb c "010" then (r, false) else skip_line r
  end.
(** ppm2pwg_main.cpp:28-31: while(peek() == '#') ignore(max, '\n') *)
Fixpoint ignore_comment_lines (fuel : nat) (s : istream) : outcome istream :=
  match fuel with
  | O => NoFuel
  | S f =>
      let '(c, s) := peek s in
      match c with
      | Some "#"%char =>
          let '(r, e) := skip_line (i_rest s) in
          ignore_comment_lines f (mkIn r e false)
      | _ => Ok s
      end
  end.
(** ppm2pwg_main.cpp:22-32 *)
Definition ignore_comments (s : istream) : outcome istream :=
  let '(c, s) := peek s in
  let s := match c with
           | Some "010"%char => mkIn (tl (i_rest s)) false false
           | _ => s
           end in
  ignore_comment_lines (S (length (i_rest s))) s.

(** Bytestream(inFile, size): assumed to take what istream::read delivers, i.e. [size]
    bytes or, setting eofbit and failbit, what is left (bytestream submodule) *)
Definition read_block (s : istream) (size : Z) : list byte * istream :=
  if i_good s then
    if size <=? Z.of_nat (length (i_rest s))
    then (firstn (Z.to_nat size) (i_rest s), mkIn (skipn (Z.to_nat size) (i_rest s)) false false)
    else (i_rest s, mkIn [] true true)
  else ([], mkIn (i_rest s) (i_eof s) true).

(** params with the members ppm2pwg assigns per page *)
Definition with_page (p : params) (m : color_mode) (w h : f64) : params :=
  {| p_format := p_format p; p_colorMode := m; p_quality := p_quality p;
     p_antiAlias := p_antiAlias p; p_paperSizeName := p_paperSizeName p;
     p_hwResW := p_hwResW p; p_hwResH := p_hwResH p; p_units := p_units p;
     p_sizeW := w; p_sizeH := h; p_duplexMode := p_duplexMode p;
     p_backXform := p_backXform p; p_copies := p_copies p; p_collated := p_collated p;
     p_pageRanges := p_pageRanges p; p_mediaPosition := p_mediaPosition p;
     p_mediaType := p_mediaType p |}.

(** ppm2pwg_main.cpp:181-235: the colour mode, None for "return 1".  [r] is the maximum
    value read (P5 and P6 only). *)
Definition ppm_mode (f : fmt) (magic xs r : string) : outcome (option color_mode) :=
  if String.eqb magic "P6" then
    Ok (if String.eqb r "255" then Some sRGB24
        else if String.eqb r "65535" then Some sRGB48 else None)
  else if String.eqb magic "P5" then
    Ok (if String.eqb r "255" then Some Gray8
        else if String.eqb r "65535" then Some Gray16 else None)
  else if String.eqb magic "P4" then
    let! x := stoul xs in
    Ok (if negb (x mod 8 =? 0) then None
        else match f with URF => None | _ => Some Black1 end)
  else Ok None.

(** ppm2pwg_main.cpp:171-248: one page: None for "return 1", otherwise the page written,
    the parameters and the stream afterwards (before the peek of line 251) *)
Definition ppm_page (p : params) (page : Z) (s : istream)
  : outcome (option (list byte * params * istream)) :=
  let '(magic, s) := read_word s in
  let! s := ignore_comments s in
  let '(xs, s) := read_word s in
  let '(ys, s) := read_word s in
  let '(r, s) := if String.eqb magic "P6" || String.eqb magic "P5" then read_word s else (""%string, s) in
  let! mode := ppm_mode (p_format p) magic xs r in
  match mode with
  | None => Ok None
  | Some m =>
      let! s := ignore_comments s in
      let! w := stoul xs in
      let! h := stoul ys in
      let p := with_page p m (fofZ w) (fofZ h) in
      let! bpl := getPaperSizeWInBytes p in
      let! size := f_to_unsigned 64 (fmul (p_sizeH p) (fofZ bpl)) in
      let '(bmp, s) := read_block s size in
      let! out := bmp_to_pwg bmp page p in
      Ok (Some (out, p, s))
  end.

(** ppm2pwg_main.cpp:169-252: exit code and what is written to the output file *)
Fixpoint ppm_pages (fuel : nat) (p : params) (page : Z) (s : istream) : outcome (Z * list byte) :=
  match fuel with
  | O => NoFuel
  | S f =>
      if i_eof s then Ok (0, [])
      else
        let! o := ppm_page p (page + 1) s in
        match o with
        | None => Ok (1, [])
        | Some (out, p, s) =>
            let '(_, s) := peek s in
            let! (code, rest) := ppm_pages f p (page + 1) s in
            Ok (code, out ++ rest)
        end
  end.

(** ppm2pwg_main.cpp:142-253 with the options evaluated into [p] and [pages] *)
Definition ppm2pwg_file_hdr (p : params) (pages : Z) : list byte :=
  match p_format p with URF => make_urf_file_hdr pages | _ => make_pwg_file_hdr end.
Definition ppm2pwg (p : params) (pages : Z) (input : list byte) : outcome (Z * list byte) :=
  let! (code, out) := ppm_pages (S (length input)) p 0 (mkIn input false false) in
  Ok (code, ppm2pwg_file_hdr p pages ++ out).

(** The command line options of ppm2pwg (None: not given), ppm2pwg_main.cpp:50-79 *)
Record ppm_opts := mkPpmOpts {
  o_format : option fmt;
  o_pages : option Z;          (* int *)
  o_paperSize : option string;
  o_res : option Z;            (* int *)
  o_resX : option Z;
  o_resY : option Z;
  o_duplex : bool;
  o_tumble : bool;
  o_backXform : option back_xform;
  o_quality : option quality_t;
  o_mediaPosition : option Z;
  o_mediaType : option string;
  o_outFile : string
}.
Definition opt {A} (o : option A) (d : A) : A := match o with Some a => a | None => d end.

(** ppm2pwg_main.cpp:36-38 and 104-140; None: "return 1" *)
Definition ppm2pwg_params (o : ppm_opts) : option params :=
  let format := opt (o_format o) (if string_ends_with (o_outFile o) ".urf" then URF else PWG) in
  let mt := opt (o_mediaType o) ""%string in
  if match format, o_mediaType o with URF, Some mt => negb (isUrfMediaType mt) | _, _ => false end
  then None
  else
    let d := default_params in
    Some {| p_format := format; p_colorMode := p_colorMode d; p_quality := opt (o_quality o) (p_quality d);
            p_antiAlias := p_antiAlias d; p_paperSizeName := opt (o_paperSize o) (p_paperSizeName d);
            (* int assigned to a uint32_t *)
            p_hwResW := opt (o_resX o) (opt (o_res o) (p_hwResW d)) mod two32;
            p_hwResH := opt (o_resY o) (opt (o_res o) (p_hwResH d)) mod two32;
            p_units := Pixels; p_sizeW := p_sizeW d; p_sizeH := p_sizeH d;
            p_duplexMode := if o_tumble o then TwoSidedShortEdge
                            else if o_duplex o then TwoSidedLongEdge else p_duplexMode d;
            p_backXform := opt (o_backXform o) (p_backXform d);
            p_copies := p_copies d; p_collated := p_collated d; p_pageRanges := p_pageRanges d;
            p_mediaPosition := opt (o_mediaPosition o) (p_mediaPosition d); p_mediaType := mt |}.

(** the whole program on an input file that can be opened: exit code and output file *)
Definition ppm2pwg_main (o : ppm_opts) (input : list byte) : outcome (Z * list byte) :=
  match ppm2pwg_params o with
  | None => Ok (1, [])
  | Some p => ppm2pwg p (opt (o_pages o) 0) input
  end.

(** ** pwg2ppm *)

Definition nl : list byte := [bZ 10].

(** write_ppm: pwg2ppm.cpp:58-77: name and contents of the file *)
Definition write_ppm (bmp : list byte) (width height colors bits : Z) (black : bool)
  (prefix : string) (page : Z) : string * list byte :=
  let bmp := if (bits =? 1) && negb black then invert bmp
             else if colors =? 4 then cmyk2rgb bmp else bmp in
  let suffix := if colors >? 2 then ".ppm"%string else if bits =? 8 then ".pgm"%string else ".pbm"%string in
  let magic := if colors >? 2 then "P6"%string else if bits =? 8 then "P5"%string else "P4"%string in
  ((prefix ++ dec_string page ++ suffix)%string,
   bytes_of_string magic ++ nl ++ bytes_of_string (dec_string width) ++ bytes_of_string " "
   ++ bytes_of_string (dec_string height) ++ nl ++ bytes_of_string "255" ++ nl ++ bmp).

(** pwg2ppm_main.cpp:31-41 *)
Fixpoint pwg_pages (fuel : nat) (file : list byte) (page : Z) (prefix : string)
  : outcome (list (string * list byte)) :=
  match fuel with
  | O => NoFuel
  | S f =>
      match file with
      | [] => Ok []
      | _ =>
          let page := page + 1 in
          let! (h, file) := decode_pwg_hdr file in
          let! (bmp, file) := raster_to_bmp file (h_BytesPerLine h) (h_Height h) (h_NumColors h) false in
          let out := write_ppm bmp (h_Width h) (h_Height h) (h_NumColors h) (h_BitsPerColor h)
                       (h_ColorSpace h =? 3) prefix page in
          let! rest := pwg_pages f file page prefix in
          Ok (out :: rest)
      end
  end.

(** pwg2ppm_main.cpp:50-61; the product is computed in uint32_t *)
Fixpoint urf_pages (fuel : nat) (file : list byte) (page : Z) (prefix : string)
  : outcome (list (string * list byte)) :=
  match fuel with
  | O => NoFuel
  | S f =>
      match file with
      | [] => Ok []
      | _ =>
          let page := page + 1 in
          let! (h, file) := decode_urf_hdr file in
          let bytes := u_BitsPerPixel h / 8 in
          let byteWidth := (u_Width h * bytes) mod two32 in
          let! (bmp, file) := raster_to_bmp file byteWidth (u_Height h) bytes true in
          let out := write_ppm bmp (u_Width h) (u_Height h) bytes 8 false prefix page in
          let! rest := urf_pages f file page prefix in
          Ok (out :: rest)
      end
  end.

(** bts >>= "string": consumes the string if the unread bytes start with it *)
Fixpoint eat (lit s : list byte) : option (list byte) :=
  match lit, s with
  | [], _ => Some s
  | a :: lit', b :: s' => if Ascii.eqb a b then eat lit' s' else None
  | _, [] => None
  end.

(** pwg2ppm_main.cpp:23-69: exit code and the files written, in order.  (If a later page
    raises, the earlier files have been written; the outcome is the exception; see TraceModel.) *)
Definition pwg2ppm (file : list byte) (prefix : string) : outcome (Z * list (string * list byte)) :=
  match eat (bytes_of_string "RaS2") file with
  | Some file =>
      let! l := pwg_pages (S (length file)) file 0 prefix in Ok (0, l)
  | None =>
      match eat (bytes_of_string "UNIRAST") file with
      | Some file =>
          let! (zero, file) := get_u8 file in
          if zero =? 0 then
            let! (_, file) := get_u32 file in
            let! l := urf_pages (S (length file)) file 0 prefix in Ok (0, l)
          else Throw BadMatch
      | None => Ok (1, [])
      end
  end.
