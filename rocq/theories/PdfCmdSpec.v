(** What the options of pdf2printable mean (its help text, pdf2printable_main.cpp:36-88), in
    terms of the words on the command line, and which file a name stands for; independent
    of how PdfCmdModel reads them. *)
From Verif Require Import Base StringModel StringSpec FloatModel ParamsModel HeaderSpec ArgModel ArgSpec PpmCmdSpec.
From Verif Require ParamsSpec.
Local Open Scope Z_scope.

(** the options without and with a value: the names and the long name *)
Definition pdf_flags : list (string * string) :=
  [ ("-h", "--help"); ("--help", "--help"); ("-v", "--verbose"); ("--verbose", "--verbose"); ("-d", "--duplex"); ("--duplex", "--duplex");
    ("-t", "--tumble"); ("--tumble", "--tumble"); ("-aa", "--antialias"); ("--antialias", "--antialias") ]%string.
Definition pdf_values : list (string * string) :=
  [ ("-f", "--format"); ("--format", "--format"); ("-p", "--pages"); ("--pages", "--pages"); ("--copies", "--copies"); ("--paper-size", "--paper-size");
    ("-r", "--resolution"); ("--resolution", "--resolution"); ("-rx", "--resolution-x"); ("--resolution-x", "--resolution-x");
    ("-ry", "--resolution-y"); ("--resolution-y", "--resolution-y"); ("-b", "--back-xform"); ("--back-xform", "--back-xform");
    ("-c", "--color-mode"); ("--color-mode", "--color-mode"); ("-q", "--quality"); ("--quality", "--quality");
    ("-mp", "--media-pos"); ("--media-pos", "--media-pos"); ("-mt", "--media-type"); ("--media-type", "--media-type") ]%string.
Definition pdf_formats : list (string * fmt) := [("pdf", PDF); ("postscript", Postscript); ("ps", Postscript); ("pwg", PWG); ("urf", URF)]%string.
Definition color_modes : list (string * color_mode) :=
  [("srgb24", sRGB24); ("cmyk32", CMYK32); ("gray8", Gray8); ("black8", Black8); ("gray1", Gray1); ("black1", Black1)]%string.
(** a number of copies, as strtoul(3) reads it *)
Definition count (t : string) (z : Z) : Prop := value_text KULong t (AInt z).
(** every value given is one the option takes, also where a later one replaces it *)
Definition pdf_takes (name value : string) : Prop :=
  (name = "--format" -> In value (map fst pdf_formats))%string /\ (name = "--back-xform" -> In value (map fst back_sides))%string
  /\ (name = "--quality" -> In value (map fst qualities))%string /\ (name = "--media-pos" -> In value (map fst positions))%string
  /\ (name = "--color-mode" -> In value (map fst color_modes))%string
  /\ (name = "--copies" -> exists z, count value z)%string
  /\ (In name ["--resolution"; "--resolution-x"; "--resolution-y"] -> exists z, integer value z)%string.

(** the format the name of the output file calls for *)
Definition ends (s suffix : string) : Prop := exists a, s = (a ++ suffix)%string.
Definition name_format (out : string) (f : fmt) : Prop :=
  (ends out ".ps" /\ f = Postscript) \/ (ends out ".pwg" /\ f = PWG) \/ (ends out ".urf" /\ f = URF)
  \/ (~ ends out ".ps" /\ ~ ends out ".pwg" /\ ~ ends out ".urf" /\ f = PDF).
(** the pages selected *)
Definition page_list (t : string) (rs : list (Z * Z)) : Prop :=
  ParamsSpec.ranges_text t rs /\ ParamsSpec.in_size_t rs /\ ParamsSpec.ascending 0 rs.
(** the paper a name stands for, with sizes of at most 22 decimals and numbers below 2^64 *)
Definition paper_name (t : string) (w h : Z * Z * nat) (inches : bool) : Prop :=
  exists tw th, ParamsSpec.size_name_text t tw th inches
    /\ (let '(n, d, k) := w in ParamsSpec.decimal_text tw n d k /\ n < 2 ^ 64 /\ d < 2 ^ 64 /\ (k <= 22)%nat)
    /\ (let '(n, d, k) := h in ParamsSpec.decimal_text th n d k /\ n < 2 ^ 64 /\ d < 2 ^ 64 /\ (k <= 22)%nat).
Definition paper (l : list (string * string)) (p : params) : Prop :=
  match asked l "--paper-size" with
  | None => p_paperSizeName p = "iso_a4_210x297mm"%string /\ p_units p = Millimeters /\ p_sizeW p = fofZ 210 /\ p_sizeH p = fofZ 297
  | Some t => p_paperSizeName p = t
      /\ exists w h inches, paper_name t w h inches /\ p_units p = (if inches then Inches else Millimeters)
           /\ (let '(n, d, k) := w in ParamsSpec.reads_as (p_sizeW p) n d k) /\ (let '(n, d, k) := h in ParamsSpec.reads_as (p_sizeH p) n d k)
  end.
(** what is asked for *)
Definition pdf_asks (l : list (string * string)) (out : string) (p : params) : Prop :=
  match asked l "--format" with None => name_format out (p_format p) | Some t => In (t, p_format p) pdf_formats end
  /\ match asked l "--pages" with None => p_pageRanges p = [] | Some t => page_list t (p_pageRanges p) end
  /\ match asked l "--copies" with None => p_copies p = 1 | Some t => count t (p_copies p) end
  /\ paper l p
  /\ (exists r, numeric l "--resolution" 300 r
       /\ (exists x, numeric l "--resolution-x" r x /\ p_hwResW p = x mod 2 ^ 32)
       /\ (exists y, numeric l "--resolution-y" r y /\ p_hwResH p = y mod 2 ^ 32))
  /\ p_duplexMode p = (if present l "--tumble" then TwoSidedShortEdge else if present l "--duplex" then TwoSidedLongEdge else OneSided)
  /\ choice l "--back-xform" back_sides Normal (p_backXform p)
  /\ choice l "--color-mode" color_modes sRGB24 (p_colorMode p)
  /\ choice l "--quality" qualities DefaultQuality (p_quality p)
  /\ p_antiAlias p = present l "--antialias"
  /\ choice l "--media-pos" positions 0 (p_mediaPosition p)
  /\ p_mediaType p = match asked l "--media-type" with Some t => t | None => ""%string end
  /\ p_collated p = true.
(** a media type that can be given in a URF header *)
Definition urf_type (t : string) : Prop := t <> ""%string /\ exists c, In (t, c) urf_media_table.
(** what the URF format cannot express *)
Definition no_urf (l : list (string * string)) (p : params) : Prop :=
  p_format p = URF /\ (In (p_colorMode p) [Gray1; Black1; Black8] \/ exists t, asked l "--media-type" = Some t /\ ~ urf_type t).
Definition pdf_plain (s : string) : Prop := ~ In s (map fst pdf_flags) /\ ~ In s (map fst pdf_values).

(** the absolute path of a name in a directory *)
Definition names_file (cwd name path : string) : Prop :=
  match name with
  | EmptyString => False
  | String c _ => if Ascii.eqb c "/" then path = name
                  else exists dir, (cwd = (dir ++ "/") \/ (cwd = dir /\ ~ ends dir "/"))%string /\ path = (dir ++ "/" ++ name)%string
  end.
