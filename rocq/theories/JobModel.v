(** lib/ippprintjob.{h,cpp}: IppPrintJob::finalize. *)
From Verif Require Import Base MapModel FloatModel StringModel ParamsModel IppModel ArgModel SettingModel ConverterModel.
Local Open Scope Z_scope.

(** IppPrintJob's members: ippprintjob.h:67-92 *)
Record margins_t := mkMargins { g_top : Z; g_bottom : Z; g_left : Z; g_right : Z }.
Record job := mkJob {
  j_opAttrs : ipp_attrs; j_jobAttrs : ipp_attrs; j_params : params; j_target : string; j_oneStage : bool;
  j_margins : margins_t; j_printerAttrs : ipp_attrs; j_additional : list string }.
(** a new job: ippprintjob.h:12-14 *)
Definition new_job (pa : ipp_attrs) (additional : list string) : job :=
  mkJob [] [] default_params "" false (mkMargins 0 0 0 0) pa additional.
(** the copy constructor and the assignment: ippprintjob.h:16-31.  The list of additional
    formats is not among the members copied; a new object's is empty. *)
Definition copy_job (j : job) : job :=
  mkJob (j_opAttrs j) (j_jobAttrs j) (j_params j) (j_target j) (j_oneStage j) (j_margins j) (j_printerAttrs j) [].

(** assignments to single members *)
Definition with_op (j : job) (m : ipp_attrs) : job :=
  mkJob m (j_jobAttrs j) (j_params j) (j_target j) (j_oneStage j) (j_margins j) (j_printerAttrs j) (j_additional j).
Definition with_job (j : job) (m : ipp_attrs) : job :=
  mkJob (j_opAttrs j) m (j_params j) (j_target j) (j_oneStage j) (j_margins j) (j_printerAttrs j) (j_additional j).
Definition with_params (j : job) (p : params) : job :=
  mkJob (j_opAttrs j) (j_jobAttrs j) p (j_target j) (j_oneStage j) (j_margins j) (j_printerAttrs j) (j_additional j).
Definition with_target (j : job) (t : string) : job :=
  mkJob (j_opAttrs j) (j_jobAttrs j) (j_params j) t (j_oneStage j) (j_margins j) (j_printerAttrs j) (j_additional j).
Definition with_margins (j : job) (g : margins_t) : job :=
  mkJob (j_opAttrs j) (j_jobAttrs j) (j_params j) (j_target j) (j_oneStage j) g (j_printerAttrs j) (j_additional j).

Definition mk_params p fmt col qual resW resH dup back copies coll ranges mpos mtype : params :=
  {| p_format := fmt; p_colorMode := col; p_quality := qual; p_antiAlias := p_antiAlias p; p_paperSizeName := p_paperSizeName p;
     p_hwResW := resW; p_hwResH := resH; p_units := p_units p; p_sizeW := p_sizeW p; p_sizeH := p_sizeH p; p_duplexMode := dup;
     p_backXform := back; p_copies := copies; p_collated := coll; p_pageRanges := ranges; p_mediaPosition := mpos; p_mediaType := mtype |}.
Definition set_format (p : params) x := mk_params p x (p_colorMode p) (p_quality p) (p_hwResW p) (p_hwResH p) (p_duplexMode p) (p_backXform p) (p_copies p) (p_collated p) (p_pageRanges p) (p_mediaPosition p) (p_mediaType p).
Definition set_color (p : params) x := mk_params p (p_format p) x (p_quality p) (p_hwResW p) (p_hwResH p) (p_duplexMode p) (p_backXform p) (p_copies p) (p_collated p) (p_pageRanges p) (p_mediaPosition p) (p_mediaType p).
Definition set_quality (p : params) x := mk_params p (p_format p) (p_colorMode p) x (p_hwResW p) (p_hwResH p) (p_duplexMode p) (p_backXform p) (p_copies p) (p_collated p) (p_pageRanges p) (p_mediaPosition p) (p_mediaType p).
Definition set_res (p : params) x y := mk_params p (p_format p) (p_colorMode p) (p_quality p) x y (p_duplexMode p) (p_backXform p) (p_copies p) (p_collated p) (p_pageRanges p) (p_mediaPosition p) (p_mediaType p).
Definition set_duplex (p : params) x := mk_params p (p_format p) (p_colorMode p) (p_quality p) (p_hwResW p) (p_hwResH p) x (p_backXform p) (p_copies p) (p_collated p) (p_pageRanges p) (p_mediaPosition p) (p_mediaType p).
Definition set_back (p : params) x := mk_params p (p_format p) (p_colorMode p) (p_quality p) (p_hwResW p) (p_hwResH p) (p_duplexMode p) x (p_copies p) (p_collated p) (p_pageRanges p) (p_mediaPosition p) (p_mediaType p).
Definition set_copies (p : params) x c := mk_params p (p_format p) (p_colorMode p) (p_quality p) (p_hwResW p) (p_hwResH p) (p_duplexMode p) (p_backXform p) x c (p_pageRanges p) (p_mediaPosition p) (p_mediaType p).
Definition set_ranges (p : params) x := mk_params p (p_format p) (p_colorMode p) (p_quality p) (p_hwResW p) (p_hwResH p) (p_duplexMode p) (p_backXform p) (p_copies p) (p_collated p) x (p_mediaPosition p) (p_mediaType p).
Definition set_media (p : params) x y := mk_params p (p_format p) (p_colorMode p) (p_quality p) (p_hwResW p) (p_hwResH p) (p_duplexMode p) (p_backXform p) (p_copies p) (p_collated p) (p_pageRanges p) x y.

(** contents of a value of a known type *)
Definition v_str (v : ipp_value) : string := match v with VStr s => s | _ => "" end.
Definition v_int (v : ipp_value) : Z := match v with VInt z => z | _ => 0 end.

(** settings of the job *)
Definition get_op (j : job) (s : setting) (fb : ipp_value) := setting_get (j_printerAttrs j) s (j_opAttrs j) fb.
Definition get_job (j : job) (s : setting) (fb : ipp_value) := setting_get (j_printerAttrs j) s (j_jobAttrs j) fb.
Definition get_job_str (j : job) (s : setting) : outcome string := let! v := get_job j s (VStr "") in Ok (v_str v).
Definition set_op (j : job) (s : setting) (v : ipp_value) : outcome job := let! m := setting_set s v (j_opAttrs j) in Ok (with_op j m).
Definition set_job (j : job) (s : setting) (v : ipp_value) : outcome job := let! m := setting_set s v (j_jobAttrs j) in Ok (with_job j m).
Definition unset_job (j : job) (s : setting) : outcome job := let! m := setting_unset s (j_jobAttrs j) in Ok (with_job j m).
Definition supported_strs (j : job) (s : setting) : outcome (list string) := let! l := getSupported (j_printerAttrs j) s in Ok (map v_str l).
Definition printer_strs (j : job) (k : string) : outcome (list string) := let! l := attrs_getList TStr k (j_printerAttrs j) in Ok (map v_str l).

(** determineTargetFormat: ippprintjob.cpp:166-187 *)
Definition determineTargetFormat (j : job) (inputFormat : string) : outcome string :=
  let! v := get_op j s_documentFormat (VStr OctetStream) in
  let target := v_str v in
  let! set := setting_isSet s_documentFormat (j_opAttrs j) in
  let target := if negb set && negb (canConvert inputFormat target) then OctetStream else target in
  if String.eqb target OctetStream then
    let! supported := supported_strs j s_documentFormat in
    Ok (match getTargetFormat inputFormat (supported ++ j_additional j) with Some t => t | None => target end)
  else Ok target.

(** ippprintjob.cpp:14-23 *)
Definition choose_format (j : job) (inputFormat : string) : outcome job :=
  let! t := determineTargetFormat j inputFormat in
  let j := with_target j t in
  let! supported := supported_strs j s_documentFormat in
  set_op j s_documentFormat (VStr (if contains supported t then t else OctetStream)).

(** ippprintjob.cpp:30-41 *)
Definition choose_compression (j : job) : outcome job :=
  if isPrinterRaster (j_target j) then
    let! supported := supported_strs j s_compression in
    if contains supported "gzip" then set_op j s_compression (VStr "gzip")
    else if contains supported "deflate" then set_op j s_compression (VStr "deflate")
    else Ok j
  else Ok j.

(** ippprintjob.cpp:43-46 *)
Definition choose_paper (j : job) : outcome (bool * job) :=
  let! v := get_job j s_media (VStr (p_paperSizeName (j_params j))) in
  let! (ok, p) := setPaperSize (j_params j) (v_str v) in
  Ok (ok, with_params j p).

(** ippprintjob.cpp:48-60 *)
Definition take_margins (j : job) : outcome job :=
  if negb (isImage (j_target j)) then
    let! t := get_job j s_topMargin (VInt 0) in
    let! b := get_job j s_bottomMargin (VInt 0) in
    let! l := get_job j s_leftMargin (VInt 0) in
    let! r := get_job j s_rightMargin (VInt 0) in
    let j := with_margins j (mkMargins (v_int t) (v_int b) (v_int l) (v_int r)) in
    let! j := unset_job j s_topMargin in
    let! j := unset_job j s_bottomMargin in
    let! j := unset_job j s_leftMargin in
    unset_job j s_rightMargin
  else Ok j.

(** ippprintjob.cpp:62-74: the double product is truncated to an int *)
Definition hundredths (mm : f64) : outcome Z := f_to_signed 32 (fmul mm f100).
Definition move_media_size (j : job) : outcome job :=
  let! set := setting_isSet s_media (j_jobAttrs j) in
  if map_has "media-col" (j_jobAttrs j) && set then
    let! x := hundredths (getPaperSizeWInMillimeters (j_params j)) in
    let! y := hundredths (getPaperSizeHInMillimeters (j_params j)) in
    let dimensions := [("x-dimension", (tInteger, VInt x)); ("y-dimension", (tInteger, VInt y))]%string in
    let! v := attrs_get TColl "media-col" (VColl []) (j_jobAttrs j) in
    let! col := get_coll v in
    let col := map_set "media-size" (tBeginCollection, VColl dimensions) col in
    unset_job (with_job j (map_set "media-col" (tBeginCollection, VColl col) (j_jobAttrs j))) s_media
  else Ok j.

(** ippprintjob.cpp:76-102 *)
Definition format_for (inputFormat target : string) : fmt :=
  if String.eqb inputFormat mPDF then
    if String.eqb target mPDF then PDF
    else if String.eqb target mPostscript then Postscript
    else if String.eqb target mPWG then PWG
    else if String.eqb target mURF then URF
    else Invalid
  else Invalid.

(** ippprintjob.cpp:104-106 *)
Definition choose_resolution (j : job) : outcome job :=
  let p := j_params j in
  let! v := get_job j s_resolution (VRes (p_hwResW p) (p_hwResH p) 3) in
  Ok (match v with VRes x y _ => with_params j (set_res p x y) | _ => j end).

(** ippprintjob.cpp:108-116: an int32_t pair becomes a pair of size_t *)
Definition take_ranges (j : job) (inputFormat : string) : outcome job :=
  if String.eqb inputFormat mPDF then
    let! l := attrs_getList TRange "page-ranges" (j_jobAttrs j) in
    let ranges := map (fun v => match v with VRange lo hi => (lo mod two64, hi mod two64) | _ => (0, 0) end) l in
    unset_job (with_params j (set_ranges (j_params j) (p_pageRanges (j_params j) ++ ranges))) s_pageRanges
  else Ok j.

(** std::abs(int(a - b)) of uint32_t values; abs of the smallest int is undefined *)
Definition abs_diff (a b : Z) : outcome Z :=
  let d := to_s32 ((a - b) mod two32) in
  if d =? -2147483648 then UB else Ok (Z.abs d).
(** sum of ints: overflow is undefined *)
Definition add_int (a b : Z) : outcome Z := if a + b <? 2147483648 then Ok (a + b) else UB.

(** ippprintjob.cpp:204-217; the state is diff and the adjusted resolution *)
Fixpoint nearest_pwg (w h : Z) (l : list ipp_value) (diff x y : Z) : outcome (Z * Z) :=
  match l with
  | [] => Ok (x, y)
  | VRes rx ry u :: l' =>
      if negb (u =? 3) then nearest_pwg w h l' diff x y
      else
        let! dx := abs_diff w rx in
        let! dy := abs_diff h ry in
        let! d := add_int dx dy in
        if d <? diff then nearest_pwg w h l' d rx ry else nearest_pwg w h l' diff x y
  | _ :: l' => nearest_pwg w h l' diff x y
  end.
(** ippprintjob.cpp:234-243 *)
Fixpoint nearest_urf (w : Z) (l : list string) (diff x : Z) : outcome Z :=
  match l with
  | [] => Ok x
  | r :: l' =>
      let! z := stoi r in
      let! d := abs_diff w z in
      if d <? diff then nearest_urf w l' d (z mod two32) else nearest_urf w l' diff x
  end.
(** ippprintjob.cpp:229-247: the first element starting with RS *)
Fixpoint urf_resolution (w : Z) (l : list string) : outcome Z :=
  match l with
  | [] => Ok w
  | us :: l' => if string_starts_with us "RS" then nearest_urf w (split_string (drop 2 us) "-") (two32 - 1) w else urf_resolution w l'
  end.
Definition adjust_resolution (j : job) : outcome job :=
  let p := j_params j in
  match p_format p with
  | PWG =>
      let! l := attrs_getList TRes "pwg-raster-document-resolution-supported" (j_printerAttrs j) in
      let! (x, y) := nearest_pwg (p_hwResW p) (p_hwResH p) l (two32 - 1) (p_hwResW p) (p_hwResH p) in
      Ok (with_params j (set_res p x y))
  | URF =>
      let w := Z.min (p_hwResW p) (p_hwResH p) in
      let! l := printer_strs j "urf-supported" in
      let! w := urf_resolution w l in
      Ok (with_params j (set_res p w w))
  | _ => Ok j
  end.

(** ippprintjob.cpp:250-281 *)
Definition back_side (j : job) : outcome job :=
  let p := j_params j in
  match p_format p with
  | PWG =>
      let! v := attrs_get TStr "pwg-raster-document-sheet-back" (VStr "") (j_printerAttrs j) in
      let s := v_str v in
      Ok (if String.eqb s "flipped" then with_params j (set_back p Flipped)
          else if String.eqb s "rotated" then with_params j (set_back p Rotated)
          else if String.eqb s "manual-tumble" then with_params j (set_back p ManualTumble) else j)
  | URF =>
      let! l := printer_strs j "urf-supported" in
      Ok (if contains l "DM2" then with_params j (set_back p Flipped)
          else if contains l "DM3" then with_params j (set_back p Rotated)
          else if contains l "DM4" then with_params j (set_back p ManualTumble) else j)
  | _ => Ok j
  end.

(** std::adjacent_find(seq, not_equal_to) == end *)
Fixpoint all_same (l : list Z) : bool :=
  match l with
  | a :: ((b :: _) as l') => (a =? b) && all_same l'
  | _ => true
  end.
(** ippprintjob.cpp:283-315; [pages] is an int *)
Definition printer_copies (j : job) : outcome bool :=
  let! v := attrs_get TRange "copies-supported" (VRange 0 0) (j_printerAttrs j) in
  let high := match v with VRange _ hi => hi | _ => 0 end in
  let! varying := printer_strs j "document-format-varying-attributes" in
  Ok (if contains varying "copies" || contains varying "copies-supported" then false else high >? 1).
Definition take_copies (j : job) (pages : Z) : outcome job :=
  let! v := get_job j s_copies (VInt 1) in
  let requested := v_int v in
  let! supports := printer_copies j in
  if (requested >? 1) && negb supports then
    let! mode := get_job_str j s_multipleDocumentHandling in
    let p := set_copies (j_params j) (requested mod two64)
               (if String.eqb mode "separate-documents-uncollated-copies" then false else p_collated (j_params j)) in
    let! j := unset_job (with_params j p) s_copies in
    let! sides := get_job_str j s_sides in
    if String.eqb sides "one-sided" then Ok j
    else
      let! seq := getPageSequence p (pages mod two64) in
      if (pages =? 1) || all_same seq then set_job j s_sides (VStr "one-sided") else Ok j
  else Ok j.
(** adjustRasterSettings: ippprintjob.cpp:189-315 *)
Definition adjustRasterSettings (j : job) (pages : Z) : outcome job :=
  match p_format (j_params j) with
  | PWG | URF =>
      let! j := unset_job j s_resolution in
      let! j := adjust_resolution j in
      let! j := back_side j in
      take_copies j pages
  | _ => Ok j
  end.

(** ippprintjob.cpp:120-161: the remaining parameters *)
Definition choose_sides (j : job) : outcome job :=
  let! s := get_job_str j s_sides in
  Ok (if String.eqb s "two-sided-long-edge" then with_params j (set_duplex (j_params j) TwoSidedLongEdge)
      else if String.eqb s "two-sided-short-edge" then with_params j (set_duplex (j_params j) TwoSidedShortEdge) else j).
Definition choose_quality (j : job) : outcome job :=
  let! v := get_job j s_printQuality (VInt 0) in
  let q := v_int v in
  Ok (with_params j (set_quality (j_params j) (if q =? 3 then DraftQuality else if q =? 4 then NormalQuality else if q =? 5 then HighQuality else DefaultQuality))).
Definition choose_color (j : job) : outcome job :=
  let! supported := supported_strs j s_colorMode in
  let! mode := get_job_str j s_colorMode in
  Ok (if string_contains mode "color" then with_params j (set_color (j_params j) sRGB24)
      else if string_contains mode "monochrome" || negb (contains supported "color") then with_params j (set_color (j_params j) Gray8) else j).
Definition choose_media (j : job) : outcome job :=
  let! set := setting_isSet s_mediaSource (j_jobAttrs j) in
  let! pos := (if set then
                 let! s := get_job_str j s_mediaSource in
                 match enum_get media_positions s with Some z => Ok z | None => Throw OutOfRange end
               else Ok (p_mediaPosition (j_params j))) in
  let! t := get_job_str j s_mediaType in
  Ok (with_params j (set_media (j_params j) pos t)).

(** IppPrintJob::finalize: ippprintjob.cpp:12-164.  The error (None: success) and the job
    afterwards. *)
Definition finalize (j : job) (inputFormat : string) (pages : Z) : outcome (option string * job) :=
  let! j := choose_format j inputFormat in
  if String.eqb (j_target j) "" || String.eqb (j_target j) OctetStream then Ok (Some "Failed to determine traget format"%string, j)
  else
    let! j := choose_compression j in
    let! (ok, j) := choose_paper j in
    if negb ok then Ok (Some "Invalid paper size name"%string, j)
    else
      let! j := take_margins j in
      let! j := move_media_size j in
      let j := with_params j (set_format (j_params j) (format_for inputFormat (j_target j))) in
      let! j := choose_resolution j in
      let! j := take_ranges j inputFormat in
      let! j := adjustRasterSettings j pages in
      let! j := choose_sides j in
      let! j := choose_quality j in
      let! j := choose_color j in
      let! j := choose_media j in
      Ok (None, j).
