(** The raster headers: lib/pwgpghdr.codable, lib/urfpghdr.codable, and
    make_pwg_hdr / make_urf_hdr / bmp_to_pwg of lib/ppm2pwg.cpp.

    The code generated from a .codable file comes from the bytestream submodule,
    which is not part of the checkout.  Assumed (and confirmed byte for byte against
    tests/pacman.pwg in PacmanExample.v): fields are written in order, integers
    big-endian, STRING(n) NUL-padded to n bytes, PADDING(n) as n zero bytes; decoding
    reads the same layout, strings end at the first NUL. *)
From Verif Require Import Base FloatModel StringModel ParamsModel RasterModel.
Local Open Scope Z_scope.

Definition zeros (n : nat) : list byte := repeat (bZ 0) n.

(** STRING(n).  What happens to strings longer than n is not specified here (the
    theorems assume they fit); the model cuts them. *)
Definition str_field (n : nat) (s : string) : list byte :=
  firstn n (bytes_of_string s ++ zeros n).

Fixpoint until_nul (l : list byte) : list byte :=
  match l with
  | [] => []
  | b :: r => if Zb b =? 0 then [] else b :: until_nul r
  end.
Definition get_str_field (n : Z) (s : list byte) : outcome (string * list byte) :=
  let! (b, s) := get_bytes n s in
  Ok (string_of_bytes (until_nul b), s).
Definition get_s32 (s : list byte) : outcome (Z * list byte) :=
  let! (z, s) := get_u32 s in Ok (to_s32 z, s).

(** pwgpghdr.codable:1-121 *)
Record pwg_hdr := mk_pwg_hdr {
  h_PwgRaster : string;
  h_MediaColor : string;
  h_MediaType : string;
  h_PrintContentOptimize : string;
  h_CutMedia : Z;
  h_Duplex : Z;
  h_HWResolutionX : Z;
  h_HWResolutionY : Z;
  h_InsertSheet : Z;
  h_Jog : Z;
  h_LeadingEdge : Z;
  h_MediaPosition : Z;
  h_MediaWeightMetric : Z;
  h_NumCopies : Z;
  h_Orientation : Z;
  h_PageSizeX : Z;
  h_PageSizeY : Z;
  h_Tumble : Z;
  h_Width : Z;
  h_Height : Z;
  h_BitsPerColor : Z;
  h_BitsPerPixel : Z;
  h_BytesPerLine : Z;
  h_ColorOrder : Z;
  h_ColorSpace : Z;
  h_NumColors : Z;
  h_TotalPageCount : Z;
  h_CrossFeedTransform : Z;
  h_FeedTransform : Z;
  h_ImageBoxLeft : Z;
  h_ImageBoxTop : Z;
  h_ImageBoxRight : Z;
  h_ImageBoxBottom : Z;
  h_AlternatePrimary : Z;
  h_PrintQuality : Z;
  h_VendorIdentifier : Z;
  h_VendorLength : Z;
  h_RenderingIntent : string;
  h_PageSizeName : string
}.

(** encodeInto: the fields in order *)
Definition pwg_blocks (h : pwg_hdr) : list (list byte) :=
  [ str_field 64 (h_PwgRaster h);
    str_field 64 (h_MediaColor h);
    str_field 64 (h_MediaType h);
    str_field 64 (h_PrintContentOptimize h);
    zeros 12;
    be32 (h_CutMedia h);
    be32 (h_Duplex h);
    be32 (h_HWResolutionX h);
    be32 (h_HWResolutionY h);
    zeros 16;
    be32 (h_InsertSheet h);
    be32 (h_Jog h);
    be32 (h_LeadingEdge h);
    zeros 12;
    be32 (h_MediaPosition h);
    be32 (h_MediaWeightMetric h);
    zeros 8;
    be32 (h_NumCopies h);
    be32 (h_Orientation h);
    zeros 4;
    be32 (h_PageSizeX h);
    be32 (h_PageSizeY h);
    zeros 8;
    be32 (h_Tumble h);
    be32 (h_Width h);
    be32 (h_Height h);
    zeros 4;
    be32 (h_BitsPerColor h);
    be32 (h_BitsPerPixel h);
    be32 (h_BytesPerLine h);
    be32 (h_ColorOrder h);
    be32 (h_ColorSpace h);
    zeros 16;
    be32 (h_NumColors h);
    zeros 28;
    be32 (h_TotalPageCount h);
    be32 (h_CrossFeedTransform h);
    be32 (h_FeedTransform h);
    be32 (h_ImageBoxLeft h);
    be32 (h_ImageBoxTop h);
    be32 (h_ImageBoxRight h);
    be32 (h_ImageBoxBottom h);
    be32 (h_AlternatePrimary h);
    be32 (h_PrintQuality h);
    zeros 20;
    be32 (h_VendorIdentifier h);
    be32 (h_VendorLength h);
    zeros 1088;
    zeros 64;
    str_field 64 (h_RenderingIntent h);
    str_field 64 (h_PageSizeName h) ].
Definition encode_pwg_hdr (h : pwg_hdr) : list byte := concat (pwg_blocks h).

(** decodeFrom *)
Definition decode_pwg_hdr (s : list byte) : outcome (pwg_hdr * list byte) :=
  let! (xPwgRaster, s) := get_str_field 64 s in
  let! (xMediaColor, s) := get_str_field 64 s in
  let! (xMediaType, s) := get_str_field 64 s in
  let! (xPrintContentOptimize, s) := get_str_field 64 s in
  let! (_, s) := get_bytes 12 s in
  let! (xCutMedia, s) := get_u32 s in
  let! (xDuplex, s) := get_u32 s in
  let! (xHWResolutionX, s) := get_u32 s in
  let! (xHWResolutionY, s) := get_u32 s in
  let! (_, s) := get_bytes 16 s in
  let! (xInsertSheet, s) := get_u32 s in
  let! (xJog, s) := get_u32 s in
  let! (xLeadingEdge, s) := get_u32 s in
  let! (_, s) := get_bytes 12 s in
  let! (xMediaPosition, s) := get_u32 s in
  let! (xMediaWeightMetric, s) := get_u32 s in
  let! (_, s) := get_bytes 8 s in
  let! (xNumCopies, s) := get_u32 s in
  let! (xOrientation, s) := get_u32 s in
  let! (_, s) := get_bytes 4 s in
  let! (xPageSizeX, s) := get_u32 s in
  let! (xPageSizeY, s) := get_u32 s in
  let! (_, s) := get_bytes 8 s in
  let! (xTumble, s) := get_u32 s in
  let! (xWidth, s) := get_u32 s in
  let! (xHeight, s) := get_u32 s in
  let! (_, s) := get_bytes 4 s in
  let! (xBitsPerColor, s) := get_u32 s in
  let! (xBitsPerPixel, s) := get_u32 s in
  let! (xBytesPerLine, s) := get_u32 s in
  let! (xColorOrder, s) := get_u32 s in
  let! (xColorSpace, s) := get_u32 s in
  let! (_, s) := get_bytes 16 s in
  let! (xNumColors, s) := get_u32 s in
  let! (_, s) := get_bytes 28 s in
  let! (xTotalPageCount, s) := get_u32 s in
  let! (xCrossFeedTransform, s) := get_s32 s in
  let! (xFeedTransform, s) := get_s32 s in
  let! (xImageBoxLeft, s) := get_u32 s in
  let! (xImageBoxTop, s) := get_u32 s in
  let! (xImageBoxRight, s) := get_u32 s in
  let! (xImageBoxBottom, s) := get_u32 s in
  let! (xAlternatePrimary, s) := get_u32 s in
  let! (xPrintQuality, s) := get_u32 s in
  let! (_, s) := get_bytes 20 s in
  let! (xVendorIdentifier, s) := get_u32 s in
  let! (xVendorLength, s) := get_u32 s in
  let! (_, s) := get_bytes 1088 s in
  let! (_, s) := get_bytes 64 s in
  let! (xRenderingIntent, s) := get_str_field 64 s in
  let! (xPageSizeName, s) := get_str_field 64 s in
  Ok (mk_pwg_hdr xPwgRaster xMediaColor xMediaType xPrintContentOptimize xCutMedia xDuplex xHWResolutionX xHWResolutionY xInsertSheet xJog xLeadingEdge xMediaPosition xMediaWeightMetric xNumCopies xOrientation xPageSizeX xPageSizeY xTumble xWidth xHeight xBitsPerColor xBitsPerPixel xBytesPerLine xColorOrder xColorSpace xNumColors xTotalPageCount xCrossFeedTransform xFeedTransform xImageBoxLeft xImageBoxTop xImageBoxRight xImageBoxBottom xAlternatePrimary xPrintQuality xVendorIdentifier xVendorLength xRenderingIntent xPageSizeName, s).

(** urfpghdr.codable:1-87 *)
Record urf_hdr := mk_urf_hdr {
  u_BitsPerPixel : Z;
  u_ColorSpace : Z;
  u_Duplex : Z;
  u_Quality : Z;
  u_MediaType : Z;
  u_MediaPosition : Z;
  u_Width : Z;
  u_Height : Z;
  u_HWRes : Z
}.

Definition urf_blocks (h : urf_hdr) : list (list byte) :=
  [ [bZ (u_BitsPerPixel h)];
    [bZ (u_ColorSpace h)];
    [bZ (u_Duplex h)];
    [bZ (u_Quality h)];
    [bZ (u_MediaType h)];
    [bZ (u_MediaPosition h)];
    zeros 2;
    zeros 4;
    be32 (u_Width h);
    be32 (u_Height h);
    be32 (u_HWRes h);
    zeros 4;
    zeros 4 ].
Definition encode_urf_hdr (h : urf_hdr) : list byte := concat (urf_blocks h).

Definition decode_urf_hdr (s : list byte) : outcome (urf_hdr * list byte) :=
  let! (xBitsPerPixel, s) := get_u8 s in
  let! (xColorSpace, s) := get_u8 s in
  let! (xDuplex, s) := get_u8 s in
  let! (xQuality, s) := get_u8 s in
  let! (xMediaType, s) := get_u8 s in
  let! (xMediaPosition, s) := get_u8 s in
  let! (_, s) := get_bytes 2 s in
  let! (_, s) := get_bytes 4 s in
  let! (xWidth, s) := get_u32 s in
  let! (xHeight, s) := get_u32 s in
  let! (xHWRes, s) := get_u32 s in
  let! (_, s) := get_bytes 4 s in
  let! (_, s) := get_bytes 4 s in
  Ok (mk_urf_hdr xBitsPerPixel xColorSpace xDuplex xQuality xMediaType xMediaPosition xWidth xHeight xHWRes, s).

(** ppm2pwg.cpp:19-24 *)
Definition make_pwg_file_hdr : list byte := bytes_of_string "RaS2".
(** ppm2pwg.cpp:26-31; [pages] is a uint32_t *)
Definition make_urf_file_hdr (pages : Z) : list byte :=
  bytes_of_string "UNIRAST" ++ [bZ 0] ++ be32 pages.

(** ppm2pwg.cpp:204-212 with the enumerator values of pwgpghdr.codable:94-99 *)
Definition pwg_color_space (m : color_mode) : Z :=
  match m with
  | sRGB24 | sRGB48 => 19       (* sRGB *)
  | CMYK32 => 6                 (* CMYK *)
  | Gray8 | Gray1 | Gray16 => 18 (* sGray *)
  | Black8 | Black1 => 3        (* Black *)
  end.

(** round(double) assigned to a uint32_t: undefined behaviour when out of range *)
Definition round_u32 (x : f64) : outcome Z :=
  match froundZ x with
  | Some z => if (0 <=? z) && (z <? two32) then Ok z else UB
  | None => UB
  end.

(** ppm2pwg.cpp:200-240.  Fields not assigned keep their default (0 or empty; the
    first string defaults to PwgRaster); size_t values are truncated to uint32_t. *)
Definition pwg_hdr_of (p : params) (backside : bool) : outcome pwg_hdr :=
  let! psx := round_u32 (getPaperSizeWInPoints p) in
  let! psy := round_u32 (getPaperSizeHInPoints p) in
  let! w := getPaperSizeWInPixels p in
  let! h := getPaperSizeHInPixels p in
  let! bpl := getPaperSizeWInBytes p in
  Ok {| h_PwgRaster := "PwgRaster"; h_MediaColor := ""; h_MediaType := p_mediaType p;
        h_PrintContentOptimize := ""; h_CutMedia := 0;
        h_Duplex := if isTwoSided p then 1 else 0;
        h_HWResolutionX := p_hwResW p; h_HWResolutionY := p_hwResH p;
        h_InsertSheet := 0; h_Jog := 0; h_LeadingEdge := 0;
        h_MediaPosition := p_mediaPosition p; h_MediaWeightMetric := 0;
        h_NumCopies := 1; h_Orientation := 0; h_PageSizeX := psx; h_PageSizeY := psy;
        h_Tumble := match p_duplexMode p with TwoSidedShortEdge => 1 | _ => 0 end;
        h_Width := w mod two32; h_Height := h mod two32;
        h_BitsPerColor := getBitsPerColor p;
        h_BitsPerPixel := getNumberOfColors p * getBitsPerColor p;
        h_BytesPerLine := bpl mod two32; h_ColorOrder := 0;
        h_ColorSpace := pwg_color_space (p_colorMode p);
        h_NumColors := getNumberOfColors p; h_TotalPageCount := 0;
        h_CrossFeedTransform := if backside && getBackHFlip p then -1 else 1;
        h_FeedTransform := if backside && getBackVFlip p then -1 else 1;
        h_ImageBoxLeft := 0; h_ImageBoxTop := 0; h_ImageBoxRight := 0; h_ImageBoxBottom := 0;
        h_AlternatePrimary := 0x00ffffff; h_PrintQuality := quality_Z (p_quality p);
        h_VendorIdentifier := 0; h_VendorLength := 0; h_RenderingIntent := "";
        h_PageSizeName := p_paperSizeName p |}.
Definition make_pwg_hdr (p : params) (backside : bool) : outcome (list byte) :=
  let! h := pwg_hdr_of p backside in Ok (encode_pwg_hdr h).

(** ppm2pwg.cpp:179-193 *)
Definition urf_media_types : list (string * Z) :=
  [ ("auto", 0); ("stationery", 1); ("transparency", 2); ("envelope", 3); ("cardstock", 4);
    ("labels", 5); ("stationery-letterhead", 6); ("disc", 7); ("photographic-matte", 8);
    ("photographic-satin", 9); ("photographic-semi-gloss", 10); ("photographic-glossy", 11);
    ("photographic-high-gloss", 12); ("other", 13) ]%string.
Fixpoint assoc_str {A} (k : string) (l : list (string * A)) : option A :=
  match l with
  | [] => None
  | (k', v) :: r => if String.eqb k k' then Some v else assoc_str k r
  end.
(** ppm2pwg.cpp:195-198 *)
Definition isUrfMediaType (mt : string) : bool :=
  match assoc_str mt urf_media_types with Some _ => true | None => false end.

(** ppm2pwg.cpp:251-256; std::map::at raises out_of_range for missing modes *)
Definition urf_color_space (m : color_mode) : outcome Z :=
  match m with
  | sRGB24 | sRGB48 => Ok 1   (* sRGB *)
  | CMYK32 => Ok 6            (* CMYK *)
  | Gray8 | Gray16 => Ok 0    (* sGray *)
  | Black8 | Gray1 | Black1 => Throw OutOfRange
  end.
(** ppm2pwg.cpp:258-261 with urfpghdr.codable:10-12 *)
Definition urf_duplex (d : duplex_mode) : Z :=
  match d with OneSided => 1 | TwoSidedShortEdge => 2 | TwoSidedLongEdge => 3 end.

(** ppm2pwg.cpp:242-277 *)
Definition urf_hdr_of (p : params) : outcome urf_hdr :=
  if negb (p_hwResW p =? p_hwResH p) then Throw LogicError
  else
    let! cs := urf_color_space (p_colorMode p) in
    let! mt := (if String.eqb (p_mediaType p) "" then Ok 0
                else match assoc_str (p_mediaType p) urf_media_types with
                     | Some v => Ok v
                     | None => Throw OutOfRange
                     end) in
    let! w := getPaperSizeWInPixels p in
    let! h := getPaperSizeHInPixels p in
    Ok {| u_BitsPerPixel := (getNumberOfColors p * getBitsPerColor p) mod two8;
          u_ColorSpace := cs; u_Duplex := urf_duplex (p_duplexMode p);
          u_Quality := quality_Z (p_quality p); u_MediaType := mt;
          u_MediaPosition := p_mediaPosition p;
          u_Width := w mod two32; u_Height := h mod two32; u_HWRes := p_hwResW p |}.
Definition make_urf_hdr (p : params) : outcome (list byte) :=
  let! h := urf_hdr_of p in Ok (encode_urf_hdr h).

(** ppm2pwg.cpp:33-106 *)
Definition is_backside (p : params) (page : Z) : bool := isTwoSided p && (page mod 2 =? 0).
Definition bmp_to_pwg (bmp : list byte) (page : Z) (p : params) : outcome (list byte) :=
  let backside := is_backside p page in
  let! hdr := (match p_format p with
               | URF => make_urf_hdr p
               | _ => make_pwg_hdr p backside
               end) in
  let! yRes := getPaperSizeHInPixels p in
  let! bytesPerLine := getPaperSizeWInBytes p in
  let! body := encode_page bmp yRes bytesPerLine (getNumberOfColors p) (getBitsPerColor p)
                 (backside && getBackHFlip p) (backside && getBackVFlip p) in
  Ok (hdr ++ body).
