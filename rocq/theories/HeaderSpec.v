(** Independent specification of the raster page headers: where each field lives
    (PWG 5102.4-2012 section 4.3.1, table 2; the URF header as documented by CUPS) and
    what each value means.  Only [Base] and the parameter record are used. *)
From Coq Require Import Floats.SpecFloat.
From Verif Require Import Base ParamsModel.
Local Open Scope Z_scope.

(** the [n] bytes at offset [off] *)
Definition bytes_at (l : list byte) (off n : nat) : list byte := firstn n (skipn off l).
Definition u8_at (l : list byte) (off : nat) : option Z :=
  match bytes_at l off 1 with [a] => Some (Zb a) | _ => None end.
(** big-endian unsigned / signed 32-bit integer at an offset; None outside the data *)
Definition u32_at (l : list byte) (off : nat) : option Z :=
  match bytes_at l off 4 with
  | [a; b; c; d] => Some (Zb a * 16777216 + Zb b * 65536 + Zb c * 256 + Zb d)
  | _ => None
  end.
Definition s32_at (l : list byte) (off : nat) : option Z :=
  match u32_at l off with
  | Some z => Some (if z <? 2147483648 then z else z - 4294967296)
  | None => None
  end.
(** a 64-byte C string field: the string followed by NULs only *)
Definition cstr_at (l : list byte) (off : nat) (s : string) : Prop :=
  bytes_at l off 64 = bytes_of_string s ++ repeat (bZ 0) (64 - String.length s).

(** a string that fits a 64-byte field *)
Definition fits_field (s : string) : Prop :=
  (String.length s <= 64)%nat /\ ~ In (bZ 0) (bytes_of_string s).

(** offsets of PWG 5102.4 *)
Definition off_PwgRaster : nat := 0.
Definition off_MediaColor : nat := 64.
Definition off_MediaType : nat := 128.
Definition off_PrintContentType : nat := 192.
Definition off_CutMedia : nat := 268.
Definition off_Duplex : nat := 272.
Definition off_HWResolutionX : nat := 276.
Definition off_HWResolutionY : nat := 280.
Definition off_InsertSheet : nat := 300.
Definition off_Jog : nat := 304.
Definition off_LeadingEdge : nat := 308.
Definition off_MediaPosition : nat := 324.
Definition off_MediaWeight : nat := 328.
Definition off_NumCopies : nat := 340.
Definition off_Orientation : nat := 344.
Definition off_PageSizeX : nat := 352.
Definition off_PageSizeY : nat := 356.
Definition off_Tumble : nat := 368.
Definition off_Width : nat := 372.
Definition off_Height : nat := 376.
Definition off_BitsPerColor : nat := 384.
Definition off_BitsPerPixel : nat := 388.
Definition off_BytesPerLine : nat := 392.
Definition off_ColorOrder : nat := 396.
Definition off_ColorSpace : nat := 400.
Definition off_NumColors : nat := 420.
Definition off_TotalPageCount : nat := 452.
Definition off_CrossFeedTransform : nat := 456.
Definition off_FeedTransform : nat := 460.
Definition off_ImageBoxLeft : nat := 464.
Definition off_ImageBoxTop : nat := 468.
Definition off_ImageBoxRight : nat := 472.
Definition off_ImageBoxBottom : nat := 476.
Definition off_AlternatePrimary : nat := 480.
Definition off_PrintQuality : nat := 484.
Definition off_VendorIdentifier : nat := 508.
Definition off_VendorLength : nat := 512.
Definition off_RenderingIntent : nat := 1668.
Definition off_PageSizeName : nat := 1732.

(** what a colour mode is: colour components, bits per component, PWG colour space
    code (sRGB 19, sGray 18, CMYK 6, Black 3) *)
Definition mode_colors (m : color_mode) : nat :=
  match m with sRGB24 | sRGB48 => 3 | CMYK32 => 4 | _ => 1 end.
Definition mode_bits (m : color_mode) : nat :=
  match m with sRGB48 | Gray16 => 16 | Gray1 | Black1 => 1 | _ => 8 end.
Definition mode_pwg_space (m : color_mode) : Z :=
  match m with
  | sRGB24 | sRGB48 => 19 | CMYK32 => 6 | Gray8 | Gray1 | Gray16 => 18 | Black8 | Black1 => 3
  end.
(** URF: sGray 0, sRGB 1, CMYK 6; no 1-bit modes and no device black *)
Definition mode_urf_space (m : color_mode) : option Z :=
  match m with
  | sRGB24 | sRGB48 => Some 1 | CMYK32 => Some 6 | Gray8 | Gray16 => Some 0
  | Black8 | Black1 | Gray1 => None
  end.

(** bytes per compression unit and units per line of a [w] pixel wide page: 1-bit
    pages are compressed by whole bytes, all others by pixels *)
Definition unit_bytes (m : color_mode) : nat :=
  match m with
  | sRGB24 => 3 | CMYK32 => 4 | Gray8 | Black8 => 1 | Gray1 | Black1 => 1
  | sRGB48 => 6 | Gray16 => 2
  end.
Definition line_units (m : color_mode) (w : nat) : nat :=
  match m with Gray1 | Black1 => (w + 7) / 8 | _ => w end%nat.

(** the sheet-back transform of PWG 5102.4 (table 12 and section 4.3.3.2/4.3.3.5):
    (cross-feed mirrored, feed mirrored) for back sides *)
Definition back_transform (d : duplex_mode) (x : back_xform) : bool * bool :=
  match d, x with
  | OneSided, _ => (false, false)
  | _, Normal => (false, false)
  | TwoSidedLongEdge, Flipped => (false, true)
  | TwoSidedShortEdge, Flipped => (true, false)
  | TwoSidedLongEdge, Rotated => (true, true)
  | TwoSidedShortEdge, Rotated => (false, false)
  | TwoSidedLongEdge, ManualTumble => (false, false)
  | TwoSidedShortEdge, ManualTumble => (true, true)
  end.

(** a page is a back side in duplex jobs when its number is even *)
Definition back_side (d : duplex_mode) (page : Z) : bool :=
  match d with OneSided => false | _ => Z.even page end.

(** ranges of the parameters' C++ types *)
Definition params_in_range (p : params) : Prop :=
  0 <= p_hwResW p < 4294967296 /\ 0 <= p_hwResH p < 4294967296 /\
  0 <= p_mediaPosition p <= 49.

Definition max_size : Z := 10000000.

(** a double between 0 and 10^7 *)
Definition sane_size (x : spec_float) : Prop :=
  match x with
  | S754_zero _ => True
  | S754_finite false m e => valid_binary 53 1024 x = true /\
      (if 0 <=? e then Zpos m * 2 ^ e <= max_size else Zpos m <= max_size * 2 ^ (- e))
  | _ => False
  end.

(** Parameters whose paper size is finite, non-negative and at most 10^7 units, with
    positive resolutions *)
Definition sane_geometry (p : params) : Prop :=
  sane_size (p_sizeW p) /\ sane_size (p_sizeH p) /\
  1 <= p_hwResW p < 4294967296 /\ 1 <= p_hwResH p < 4294967296.

(** URF media types and their codes *)
Definition urf_media_table : list (string * Z) :=
  [ ("", 0); ("auto", 0); ("stationery", 1); ("transparency", 2); ("envelope", 3); ("cardstock", 4);
    ("labels", 5); ("stationery-letterhead", 6); ("disc", 7); ("photographic-matte", 8);
    ("photographic-satin", 9); ("photographic-semi-gloss", 10); ("photographic-glossy", 11);
    ("photographic-high-gloss", 12); ("other", 13) ]%string.

(** what URF can express: equal resolutions, a colour space URF has, a known medium *)
Definition urf_expressible (p : params) : Prop :=
  p_hwResW p = p_hwResH p /\
  (exists cs, mode_urf_space (p_colorMode p) = Some cs) /\
  (exists mt, In (p_mediaType p, mt) urf_media_table).

(** URF sides: one-sided 1, short edge (tumble) 2, long edge (no tumble) 3 *)
Definition urf_sides (d : duplex_mode) : Z :=
  match d with OneSided => 1 | TwoSidedShortEdge => 2 | TwoSidedLongEdge => 3 end.

(** PWG/IPP print quality codes: default 0, draft 3, normal 4, high 5 *)
Definition quality_code (q : quality_t) : Z :=
  match q with DefaultQuality => 0 | DraftQuality => 3 | NormalQuality => 4 | HighQuality => 5 end.

(** bytes per line of a [w] pixel wide page in a mode *)
Definition line_bytes (m : color_mode) (w : Z) : Z :=
  (w * Z.of_nat (mode_colors m) * Z.of_nat (mode_bits m) + 7) / 8.

(** [hdr] is the PWG page header of a [w] x [h] pixel page with parameters [p];
    [px], [py] is the page size in points *)
Definition pwg_header_describes (p : params) (back : bool) (w h px py : Z) (hdr : list byte) : Prop :=
  let m := p_colorMode p in
  let '(hm, vm) := if back then back_transform (p_duplexMode p) (p_backXform p) else (false, false) in
  length hdr = 1796%nat /\
  (* what the page is *)
  cstr_at hdr off_PwgRaster "PwgRaster" /\
  cstr_at hdr off_MediaType (p_mediaType p) /\
  cstr_at hdr off_PageSizeName (p_paperSizeName p) /\
  u32_at hdr off_Duplex = Some (match p_duplexMode p with OneSided => 0 | _ => 1 end) /\
  u32_at hdr off_Tumble = Some (match p_duplexMode p with TwoSidedShortEdge => 1 | _ => 0 end) /\
  u32_at hdr off_HWResolutionX = Some (p_hwResW p) /\
  u32_at hdr off_HWResolutionY = Some (p_hwResH p) /\
  u32_at hdr off_MediaPosition = Some (p_mediaPosition p) /\
  u32_at hdr off_NumCopies = Some 1 /\
  u32_at hdr off_PageSizeX = Some px /\
  u32_at hdr off_PageSizeY = Some py /\
  u32_at hdr off_Width = Some w /\
  u32_at hdr off_Height = Some h /\
  u32_at hdr off_BitsPerColor = Some (Z.of_nat (mode_bits m)) /\
  u32_at hdr off_BitsPerPixel = Some (Z.of_nat (mode_colors m * mode_bits m)) /\
  u32_at hdr off_BytesPerLine = Some (line_bytes m w) /\
  u32_at hdr off_ColorSpace = Some (mode_pwg_space m) /\
  u32_at hdr off_NumColors = Some (Z.of_nat (mode_colors m)) /\
  s32_at hdr off_CrossFeedTransform = Some (if hm then -1 else 1) /\
  s32_at hdr off_FeedTransform = Some (if vm then -1 else 1) /\
  u32_at hdr off_AlternatePrimary = Some 0x00ffffff /\
  u32_at hdr off_PrintQuality = Some (quality_code (p_quality p)) /\
  (* everything else is empty or zero *)
  cstr_at hdr off_MediaColor "" /\ cstr_at hdr off_PrintContentType "" /\
  cstr_at hdr off_RenderingIntent "" /\
  Forall (fun off => u32_at hdr off = Some 0)
    [ off_CutMedia; off_InsertSheet; off_Jog; off_LeadingEdge; off_MediaWeight; off_Orientation;
      off_ColorOrder; off_TotalPageCount; off_ImageBoxLeft; off_ImageBoxTop; off_ImageBoxRight;
      off_ImageBoxBottom; off_VendorIdentifier; off_VendorLength ].

(** the URF page header *)
Definition urf_header_describes (p : params) (w h : Z) (hdr : list byte) : Prop :=
  let m := p_colorMode p in
  length hdr = 32%nat /\
  u8_at hdr 0 = Some (Z.of_nat (mode_colors m * mode_bits m)) /\
  u8_at hdr 1 = mode_urf_space m /\
  u8_at hdr 2 = Some (urf_sides (p_duplexMode p)) /\
  u8_at hdr 3 = Some (quality_code (p_quality p)) /\
  (exists mt, u8_at hdr 4 = Some mt /\ In (p_mediaType p, mt) urf_media_table) /\
  u8_at hdr 5 = Some (p_mediaPosition p) /\
  bytes_at hdr 6 6 = repeat (bZ 0) 6 /\
  u32_at hdr 12 = Some w /\
  u32_at hdr 16 = Some h /\
  u32_at hdr 20 = Some (p_hwResW p) /\ u32_at hdr 20 = Some (p_hwResH p) /\
  bytes_at hdr 24 8 = repeat (bZ 0) 8.
