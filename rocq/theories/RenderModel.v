(** lib/pdf2printable.cpp.  Poppler and cairo are outside the model: a [renderer] says
    what they deliver. *)
From Verif Require Import Base FloatModel StringModel ParamsModel RasterModel HeaderModel.
Local Open Scope Z_scope.

(** ** Element access of arrays: undefined behaviour outside *)
Definition get_at {A} (l : list A) (i : Z) : outcome A :=
  if i <? 0 then UB
  else match nth_error l (Z.to_nat i) with Some a => Ok a | None => UB end.
Definition set_at {A} (l : list A) (i : Z) (a : A) : outcome (list A) :=
  if (0 <=? i) && (i <? Z.of_nat (length l))
  then Ok (firstn (Z.to_nat i) l ++ a :: skipn (S (Z.to_nat i)) l)
  else UB.
(** signed int arithmetic: undefined behaviour on overflow *)
Definition int_ok (z : Z) : outcome Z :=
  if (- 2147483648 <=? z) && (z <? 2147483648) then Ok z else UB.

(** ** Pixels: pdf2printable.cpp:20-28.  A pixel is a uint32_t. *)
Definition RGB32_R (v : Z) : Z := Z.land (Z.shiftr v 16) 255.
Definition RGB32_G (v : Z) : Z := Z.land (Z.shiftr v 8) 255.
Definition RGB32_B (v : Z) : Z := Z.land v 255.
Definition R_RELATIVE_LUMINOSITY : f64 := fmk 5386305154335113 (-54).  (* 0.299 *)
Definition G_RELATIVE_LUMINOSITY : f64 := fmk 2643612981266481 (-52).  (* 0.587 *)
Definition B_RELATIVE_LUMINOSITY : f64 := fmk 8214565720323785 (-56).  (* 0.114 *)
Definition RGB32_GRAY (v : Z) : f64 :=
  fadd (fadd (fmul (fofZ (RGB32_R v)) R_RELATIVE_LUMINOSITY)
             (fmul (fofZ (RGB32_G v)) G_RELATIVE_LUMINOSITY))
       (fmul (fofZ (RGB32_B v)) B_RELATIVE_LUMINOSITY).
(** pdf2printable.cpp:31; int division truncates towards zero *)
Definition SIXTEENTHS (parts value : Z) : Z := parts * Z.quot value 16.

(** ** copy_raster_buffer: pdf2printable.cpp:222-310 *)

(** pdf2printable.cpp:250-270: the loop over the columns; [n] columns remain.
    debtArray and tmp are returned. *)
Fixpoint dither_line (n : nat) (data : list Z) (black : bool) (lineStartInBytes lineStartInPixels : Z)
    (col nextDebt : Z) (debtArray : list Z) (tmp : list byte) : outcome (list Z * list byte) :=
  match n with
  | O => Ok (debtArray, tmp)
  | S n' =>
      let! v := get_at data (lineStartInPixels + col) in
      let! pixel := f_to_signed 32 (fadd (RGB32_GRAY v) (fofZ nextDebt)) in
      let newpixel := if pixel <? 128 then 0 else 255 in
      let! debt := int_ok (pixel - newpixel) in
      let! d2 := get_at debtArray (col + 2) in
      let! nextDebt := int_ok (d2 + SIXTEENTHS 7 debt) in
      let! d0 := get_at debtArray col in
      let! d0 := int_ok (d0 + SIXTEENTHS 3 debt) in
      let! debtArray := set_at debtArray col d0 in
      let! d1 := get_at debtArray (col + 1) in
      let! d1 := int_ok (d1 + SIXTEENTHS 5 debt) in
      let! debtArray := set_at debtArray (col + 1) d1 in
      let! debtArray := set_at debtArray (col + 2) (SIXTEENTHS 1 debt) in
      let! tmp :=
        (if newpixel =? 0 then
           let i := lineStartInBytes + col / 8 in
           let! b := get_at tmp i in
           if black then set_at tmp i (bZ (Z.lor (Zb b) (Z.shiftr 0x80 (col mod 8))))
           else set_at tmp i (bZ (Z.land (Zb b) (Z.lnot (Z.shiftr 0x80 (col mod 8)))))
         else Ok tmp) in
      dither_line n' data black lineStartInBytes lineStartInPixels (col + 1) nextDebt debtArray tmp
  end.

(** pdf2printable.cpp:245-271: the loop over the lines; [n] lines remain *)
Fixpoint dither_lines (n : nat) (data : list Z) (black : bool) (w bytesW : Z)
    (line : Z) (debtArray : list Z) (tmp : list byte) : outcome (list byte) :=
  match n with
  | O => Ok tmp
  | S n' =>
      let! (debtArray, tmp) :=
        dither_line (Z.to_nat w) data black (line * bytesW) (line * w) 0 0 debtArray tmp in
      dither_lines n' data black w bytesW (line + 1) debtArray tmp
  end.

(** pdf2printable.cpp:277-303: the loops over the pixels: the bytes of pixel i are
    written at i * (number of bytes); [n] pixels remain *)
Fixpoint set_bytes (tmp : list byte) (i : Z) (l : list byte) : outcome (list byte) :=
  match l with
  | [] => Ok tmp
  | b :: l' => let! tmp := set_at tmp i b in set_bytes tmp (i + 1) l'
  end.
Fixpoint copy_pixels (n : nat) (f : Z -> outcome (list byte)) (step : Z) (data : list Z) (i : Z)
    (tmp : list byte) : outcome (list byte) :=
  match n with
  | O => Ok tmp
  | S n' =>
      let! v := get_at data i in
      let! l := f v in
      let! tmp := set_bytes tmp (i * step) l in
      copy_pixels n' f step data (i + 1) tmp
  end.
(** pdf2printable.cpp:279; the double is converted to uint8_t *)
Definition gray_pixel (black : bool) (v : Z) : outcome (list byte) :=
  let! g := f_to_unsigned 8 (if black then fsub (fofZ 255) (RGB32_GRAY v) else RGB32_GRAY v) in
  Ok [bZ g].
(** pdf2printable.cpp:287-289 *)
Definition rgb_pixel (v : Z) : outcome (list byte) :=
  Ok [bZ (RGB32_R v); bZ (RGB32_G v); bZ (RGB32_B v)].
(** pdf2printable.cpp:297-301 (uint32_t arithmetic; no difference is negative) *)
Definition cmyk_pixel (v : Z) : outcome (list byte) :=
  let blackDiff := Z.max (Z.max (RGB32_R v) (RGB32_G v)) (RGB32_B v) in
  Ok [bZ (blackDiff - RGB32_R v); bZ (blackDiff - RGB32_G v); bZ (blackDiff - RGB32_B v);
      bZ (255 - blackDiff)].

(** pdf2printable.cpp:222-310: the new contents of bmpBts.  A newly made
    Bytestream(n) is taken to hold zeros (it does not matter: C51_fresh_buffer). *)
Definition copy_raster_buffer (bmpBts : list byte) (data : list Z) (p : params) : outcome (list byte) :=
  let! size := getPaperSizeInPixels p in
  let black := isBlack p in
  let! bytes := getPaperSizeInBytes p in
  let tmp := if Z.of_nat (length bmpBts) =? bytes then bmpBts else zeros (Z.to_nat bytes) in
  match p_colorMode p with
  | Gray1 | Black1 =>
      let! w := getPaperSizeWInPixels p in
      let! bytesW := getPaperSizeWInBytes p in
      let! h := getPaperSizeHInPixels p in
      dither_lines (Z.to_nat h) data black w bytesW 0 (repeat 0 (Z.to_nat ((w + 2) mod two64)))
        (repeat (bZ (if black then 0 else 255)) (length tmp))
  | Gray8 | Black8 => copy_pixels (Z.to_nat size) (gray_pixel black) 1 data 0 tmp
  | sRGB24 => copy_pixels (Z.to_nat size) rgb_pixel 3 data 0 tmp
  | CMYK32 => copy_pixels (Z.to_nat size) cmyk_pixel 4 data 0 tmp
  | sRGB48 | Gray16 => Throw LogicError
  end.

(** ** fixup_scale: pdf2printable.cpp:313-356 *)

(** the argument of roundf is converted to float *)
Definition f32_of (x : f64) : f64 :=
  match x with
  | S754_finite s m e => binary_normalize 24 128 (if s then Zneg m else Zpos m) e s
  | _ => x
  end.
Definition roundf (x : f64) : f64 := fround (f32_of x).
(** std::min *)
Definition fmin (a b : f64) : f64 := if fltb b a then b else a.
Definition is_raster (p : params) : bool := match p_format p with PWG | URF => true | _ => false end.

(** pdf2printable.cpp:332-333: both alternatives of ?: have type double *)
Definition out_size (raster : bool) (u : size_units) (size : f64) (res : Z) : outcome Z :=
  if raster then
    let! px := sizeInPixels u size res in f_to_unsigned 64 (fofZ px)
  else f_to_unsigned 64 (sizeInPoints u size res).

Record placement := mkPlacement {
  t_xScale : f64; t_yScale : f64; t_xOffset : f64; t_yOffset : f64; t_rotate : bool;
  t_w : f64; t_h : f64   (* the page size after the swap *)
}.
Definition fixup_scale (wIn hIn : f64) (p : params) : outcome placement :=
  let rotate := fltb hIn wIn in
  let (wIn, hIn) := if rotate then (hIn, wIn) else (wIn, hIn) in
  let res := Z.min (p_hwResW p) (p_hwResH p) in
  let raster := is_raster p in
  let! hOut := out_size raster (p_units p) (p_sizeH p) res in
  let! wOut := out_size raster (p_units p) (p_sizeW p) res in
  let scale := round2 (fmin (fdiv (fofZ wOut) wIn) (fdiv (fofZ hOut) hIn)) in
  let xOffset := roundf (fdiv (fsub (fofZ wOut) (fmul wIn scale)) (fofZ 2)) in
  let yOffset := roundf (fdiv (fsub (fofZ hOut) (fmul hIn scale)) (fofZ 2)) in
  if raster && (p_hwResH p <? p_hwResW p) then
    if p_hwResH p =? 0 then UB
    else
      let k := fofZ (p_hwResW p / p_hwResH p) in
      Ok (mkPlacement (fmul scale k) scale (fmul xOffset k) yOffset rotate wIn hIn)
  else if raster && (p_hwResW p <? p_hwResH p) then
    if p_hwResW p =? 0 then UB
    else
      let k := fofZ (p_hwResH p / p_hwResW p) in
      Ok (mkPlacement scale (fmul scale k) xOffset (fmul yOffset k) rotate wIn hIn)
  else Ok (mkPlacement scale scale xOffset yOffset rotate wIn hIn).

(** ** pdf_to_printable: pdf2printable.cpp:55-220 *)

(** What poppler and cairo deliver.  [r_draw n place]: the pixels of the image surface
    after page [n] (counted from 1) was drawn there, None for a cairo error; blank pages
    have no placement.  [r_stream]: the bytes cairo passes to bytestream_writer when page
    n is shown (PDF and Postscript only), [r_finish]: when the surface is finished. *)
Record renderer := mkRenderer {
  r_pages : option Z;                            (* None: the document cannot be opened *)
  r_size : Z -> f64 * f64;                       (* poppler_page_get_size *)
  r_draw : Z -> option (Z * placement) -> option (list Z);
  r_stream : Z -> option (Z * placement) -> list byte;
  r_finish : list byte
}.
(** What the callbacks see *)
Inductive event := Wrote (b : list byte) | Progress (page total : Z).
(** The writer's answer to a write, given everything seen so far and the write *)
Definition writer := list event -> list byte -> bool.

(** pdf2printable.cpp:145-210.  The result: the events, the error if any and outBts. *)
Fixpoint print_pages (r : renderer) (wr : writer) (p : params) (total : Z) (seq : list Z) (outPageNo : Z)
    (bmpBts outBts : list byte) (seen : list event) : outcome (list event * option string * list byte) :=
  match seq with
  | [] => Ok (seen, None, outBts)
  | pageNo :: rest =>
      let outPageNo := outPageNo + 1 in
      let! place :=
        (if pageNo =? INVALID_PAGE then Ok None
         else let '(w, h) := r_size r pageNo in
              let! t := fixup_scale w h p in Ok (Some (pageNo, t))) in
      match r_draw r outPageNo place with
      | None => Ok (seen, Some "Cairo error"%string, outBts)
      | Some data =>
          let! (bmpBts, outBts) :=
            (if is_raster p then
               let! bmpBts := copy_raster_buffer bmpBts data p in
               let! page := bmp_to_pwg bmpBts outPageNo p in
               Ok (bmpBts, outBts ++ page)
             else Ok (bmpBts, outBts ++ r_stream r outPageNo place)) in
          if wr seen outBts then
            print_pages r wr p total rest outPageNo bmpBts []
              (seen ++ [Wrote outBts; Progress outPageNo total])
          else Ok (seen ++ [Wrote outBts], Some "Write error"%string, [])
      end
  end.

(** pdf2printable.cpp:55-220: the events and the error (None: success).  For raster
    formats creating the surface evaluates the size in pixels (106-108). *)
Definition pdf_to_printable (r : renderer) (wr : writer) (p : params)
  : outcome (list event * option string) :=
  if match p_format p with URF => negb (p_hwResW p =? p_hwResH p) | _ => false end
  then Ok ([], Some "URF must have a symmetric resolution."%string)
  else
    match r_pages r with
    | None => Ok ([], Some "Failed to open PDF"%string)
    | Some pages =>
        let! seq := getPageSequence p pages in
        let total := Z.of_nat (length seq) in
        let! outBts :=
          (if is_raster p then
             let! _ := getPaperSizeWInPixels p in
             let! _ := getPaperSizeHInPixels p in
             Ok (match p_format p with URF => make_urf_file_hdr total | _ => make_pwg_file_hdr end)
           else Ok []) in
        match p_format p with
        | Invalid => Ok ([], Some "Unknown format"%string)
        | _ =>
            let! (seen, err, outBts) := print_pages r wr p total seq 0 [] outBts [] in
            match err with
            | Some e => Ok (seen, Some e)
            | None =>
                let outBts := if is_raster p then outBts else outBts ++ r_finish r in
                match outBts with
                | [] => Ok (seen, None)
                | _ => if wr seen outBts then Ok (seen ++ [Wrote outBts], None)
                       else Ok (seen ++ [Wrote outBts], Some "Write error"%string)
                end
            end
        end
    end.
