(** Properties C01-C08, C10, C11: raster pages. *)
From Verif Require Import Base FloatModel StringModel ParamsModel RasterModel RasterSpec
  HeaderModel HeaderSpec HeaderProofs RasterEncProofs RasterDecProofs GeometryProofs PageProofs.
From Coq Require Import Lia.
Local Open Scope Z_scope.

(** Sample parameters for the examples: a 3x2 pixel page. *)
Definition sample (f : fmt) (m : color_mode) (d : duplex_mode) (x : back_xform) (w h : Z) : params :=
  {| p_format := f; p_colorMode := m; p_quality := NormalQuality; p_antiAlias := false;
     p_paperSizeName := "iso_a4_210x297mm"; p_hwResW := 300; p_hwResH := 300;
     p_units := Pixels; p_sizeW := fofZ w; p_sizeH := fofZ h;
     p_duplexMode := d; p_backXform := x; p_copies := 1; p_collated := true;
     p_pageRanges := []; p_mediaPosition := 0; p_mediaType := "" |}.
Definition px3 (a b c : Z) : list byte := [bZ a; bZ b; bZ c].
Definition sample_image : list (list (list byte)) :=
  [ [px3 1 2 3; px3 1 2 3; px3 4 5 6]; [px3 7 8 9; px3 1 2 3; px3 0 0 0] ].
Example sample_is_sane : sane_geometry (sample PWG sRGB24 TwoSidedLongEdge Rotated 3 2).
Proof. repeat split; vm_compute; congruence. Qed.

Definition body_of (n : nat) (o : outcome (list byte)) : list byte :=
  match o with Ok l => skipn n l | _ => [] end.

(** ** C01 *)
Theorem C01_page_body_conforms : forall p page W H (img : list (list (list byte))) extra,
  sane_geometry p ->
  getPaperSizeWInPixels p = Ok W -> getPaperSizeHInPixels p = Ok H ->
  let c := unit_bytes (p_colorMode p) in
  let w := line_units (p_colorMode p) (Z.to_nat W) in
  image_of_size c w (Z.to_nat H) img ->
  line_bytes (p_colorMode p) W < 2 ^ 31 ->
  back_side (p_duplexMode p) page = false ->
  (p_format p = URF -> urf_expressible p) ->
  exists hdr body,
    bmp_to_pwg (flat img ++ extra) page p = Ok (hdr ++ body) /\
    length hdr = (match p_format p with URF => 32 | _ => 1796 end)%nat /\
    page_code c w None body img.
Proof.
  intros p page W H img extra H1 H2 H3 c w H4 H5 H6 H7.
  destruct (sane_page None p page W H img extra H1 H2 H3 H4 H5 H7) as (hdr & body & _ & Hl & Hb & Hc).
  rewrite H6 in Hc. exists hdr, body. auto.
Qed.
Example C01_example : let p := sample PWG sRGB24 OneSided Normal 3 2 in
  sane_geometry p /\ getPaperSizeWInPixels p = Ok 3 /\ getPaperSizeHInPixels p = Ok 2 /\
  image_of_size 3 3 2 sample_image /\ line_bytes sRGB24 3 < 2 ^ 31 /\
  body_of 1796 (bmp_to_pwg (flat sample_image) 1 p)
     = map bZ [0; 1; 1; 2; 3; 0; 4; 5; 6;
               0; 254; 7; 8; 9; 1; 2; 3; 0; 0; 0].
Proof.
  repeat split; try (vm_compute; congruence); repeat constructor; reflexivity.
Qed.
Print Assumptions C01_page_body_conforms.

(** The grammar reads a body in one way only, so "conforms" determines the image. *)
Theorem C01_grammar_unambiguous : forall c w h bs (a b : list (list (list byte))),
  (1 <= c)%nat -> image_of_size c w h a -> image_of_size c w h b -> Z.of_nat h < 2 ^ 64 ->
  page_code c w None bs a -> page_code c w None bs b -> a = b.
Proof. exact page_code_unique. Qed.
Print Assumptions C01_grammar_unambiguous.

(** ** C02 *)
(** PWG (no fill code); the decoder run in URF mode also reads such streams. *)
Theorem C02_decoder_inverts_pwg : forall c w bs (img : list (list (list byte))) rest urf,
  (1 <= c)%nat ->
  page_code c w None bs img ->
  Z.of_nat (length img) < 2 ^ 64 ->
  raster_to_bmp (bs ++ rest) (Z.of_nat w * Z.of_nat c) (Z.of_nat (length img)) (Z.of_nat c) urf
  = Ok (flat img, rest).
Proof. intros. apply (raster_to_bmp_ok c w None urf); auto. exact I. Qed.
Print Assumptions C02_decoder_inverts_pwg.

(** URF with the fill code, for RGB (24, 48 bit) and CMYK.  Missing: grey, where the
    code fills with black (C08_white_fill_refuted). *)
Definition urf_white (c : nat) : list byte := if Nat.eqb c 4 then repeat (bZ 0) 4 else repeat (bZ 255) c.
Theorem C02_decoder_inverts_urf_partial : forall c w bs (img : list (list (list byte))) rest,
  (c = 3 \/ c = 4 \/ c = 6)%nat ->
  page_code c w (Some (urf_white c)) bs img ->
  Z.of_nat (length img) < 2 ^ 64 ->
  raster_to_bmp (bs ++ rest) (Z.of_nat w * Z.of_nat c) (Z.of_nat (length img)) (Z.of_nat c) true
  = Ok (flat img, rest).
Proof.
  intros c w bs img rest Hc Hcode Hl. apply (raster_to_bmp_ok c w (Some (urf_white c)) true); auto; [lia|].
  destruct Hc as [->|[->| ->]]; (apply fill_agrees_pattern; [reflexivity|lia|]).
  - exists 1%nat. reflexivity.
  - exists 1%nat. reflexivity.
  - exists 2%nat. reflexivity.
Qed.
Example C02_example :
  page_code 3 4 (Some (urf_white 3)) (map bZ [1; 0; 1; 2; 3; 128]%Z)
    (repeat (px3 1 2 3 :: repeat (px3 255 255 255) 3) 2).
Proof.
  apply (pc_line 3 4 (Some (urf_white 3)) 2 (map bZ [0; 1; 2; 3; 128]) (px3 1 2 3 :: repeat (px3 255 255 255) 3) [] []);
    [lia|reflexivity| |constructor].
  apply (lc_run 3 (Some (urf_white 3)) 1 (px3 1 2 3) [bZ 128] (repeat (px3 255 255 255) 3)); [lia|reflexivity|].
  apply lc_fill; [reflexivity|lia].
Qed.
Print Assumptions C02_decoder_inverts_urf_partial.

(** ** C03 *)
(** What a reader of the header passes to the decoder: PWG (BytesPerLine, Height,
    NumColors), as pwg2ppm does. *)
Theorem C03_round_trip_pwg : forall p page W H (img : list (list (list byte))) extra rest,
  sane_geometry p -> params_in_range p -> fits_field (p_mediaType p) -> fits_field (p_paperSizeName p) ->
  getPaperSizeWInPixels p = Ok W -> getPaperSizeHInPixels p = Ok H ->
  W < 2 ^ 32 -> H < 2 ^ 32 ->
  let c := unit_bytes (p_colorMode p) in
  let w := line_units (p_colorMode p) (Z.to_nat W) in
  image_of_size c w (Z.to_nat H) img ->
  line_bytes (p_colorMode p) W < 2 ^ 31 ->
  back_side (p_duplexMode p) page = false ->
  p_format p <> URF -> (mode_bits (p_colorMode p) <= 8)%nat ->
  exists hdr body bpl n,
    bmp_to_pwg (flat img ++ extra) page p = Ok (hdr ++ body) /\ length hdr = 1796%nat /\
    u32_at hdr off_BytesPerLine = Some bpl /\ u32_at hdr off_NumColors = Some n /\
    u32_at hdr off_Height = Some H /\ u32_at hdr off_Width = Some W /\
    raster_to_bmp (body ++ rest) bpl H n false = Ok (flat img, rest).
Proof.
  intros p page W H img extra rest H1 HR F1 F2 H2 H3 HW32 H32 c w H4 H5 H6 H7 H8.
  destruct (sane_bounds _ _ _ H1 H2 H3) as [HWb HHb].
  destruct (sane_page None p page W H img extra H1 H2 H3 H4 H5) as (hdr & body & Hh & Hl & Hb & Hc);
    [intros; contradiction|].
  rewrite H6 in Hc, Hh. cbn [fst snd] in Hc.
  assert (Hd : exists px py, froundZ (getPaperSizeWInPoints p) = Some px /\ froundZ (getPaperSizeHInPoints p) = Some py /\
     pwg_header_describes p false W H px py hdr).
  { apply make_pwg_hdr_describes; auto; unfold two32; try lia. revert Hh H7.
    unfold page_header. destruct (p_format p); congruence. }
  destruct Hd as (px & py & _ & _ & Hd). unfold pwg_header_describes in Hd.
  exists hdr, body, (line_bytes (p_colorMode p) W), (Z.of_nat (mode_colors (p_colorMode p))).
  repeat split; try (apply Hd); auto.
  rewrite <- line_bytes_eq by lia.
  assert (Hlen : length img = Z.to_nat H) by apply H4.
  replace H with (Z.of_nat (length img)) by lia.
  replace (mode_colors (p_colorMode p)) with (unit_bytes (p_colorMode p))
    by (destruct (p_colorMode p); simpl in *; lia).
  apply C02_decoder_inverts_pwg; [apply unit_pos| |lia].
  unfold xform in Hc. exact Hc.
Qed.
Print Assumptions C03_round_trip_pwg.

(** URF: bits-per-pixel/8 is both the bytes per pixel and the chunk (16-bit included). *)
Theorem C03_round_trip_urf : forall p page W H (img : list (list (list byte))) extra rest,
  sane_geometry p -> params_in_range p ->
  getPaperSizeWInPixels p = Ok W -> getPaperSizeHInPixels p = Ok H ->
  W < 2 ^ 32 -> H < 2 ^ 32 ->
  let c := unit_bytes (p_colorMode p) in
  image_of_size c (Z.to_nat W) (Z.to_nat H) img ->
  line_bytes (p_colorMode p) W < 2 ^ 31 ->
  back_side (p_duplexMode p) page = false ->
  p_format p = URF -> urf_expressible p ->
  exists hdr body bpp,
    bmp_to_pwg (flat img ++ extra) page p = Ok (hdr ++ body) /\ length hdr = 32%nat /\
    u8_at hdr 0 = Some bpp /\ u32_at hdr 12 = Some W /\ u32_at hdr 16 = Some H /\
    raster_to_bmp (body ++ rest) (W * (bpp / 8)) H (bpp / 8) true = Ok (flat img, rest).
Proof.
  intros p page W H img extra rest H1 HR H2 H3 HW32 H32 c H4 H5 H6 H7 H8.
  destruct (sane_bounds _ _ _ H1 H2 H3) as [HWb HHb].
  assert (Hw : line_units (p_colorMode p) (Z.to_nat W) = Z.to_nat W).
  { destruct H8 as (_ & [cs Hcs] & _). destruct (p_colorMode p); try discriminate; reflexivity. }
  destruct (sane_page None p page W H img extra H1 H2 H3) as (hdr & body & Hh & Hl & Hb & Hc);
    [rewrite Hw; assumption|assumption|auto|].
  rewrite H6 in Hc, Hh. cbn [fst snd] in Hc. rewrite Hw in Hc. rewrite H7 in Hl.
  assert (Hd : urf_header_describes p W H hdr).
  { apply make_urf_hdr_describes; auto; unfold two32; try lia.
    unfold page_header in Hh. rewrite H7 in Hh. exact Hh. }
  unfold urf_header_describes in Hd.
  exists hdr, body, (Z.of_nat (mode_colors (p_colorMode p) * mode_bits (p_colorMode p))).
  repeat split; try (apply Hd); auto.
  assert (Hlen : length img = Z.to_nat H) by apply H4.
  assert (Ec : Z.of_nat (mode_colors (p_colorMode p) * mode_bits (p_colorMode p)) / 8 = Z.of_nat (unit_bytes (p_colorMode p))).
  { destruct H8 as (_ & [cs Hcs] & _). destruct (p_colorMode p); try discriminate; reflexivity. }
  rewrite Ec. replace H with (Z.of_nat (length img)) by lia.
  replace W with (Z.of_nat (Z.to_nat W)) by lia.
  apply C02_decoder_inverts_pwg; [apply unit_pos| |lia].
  unfold xform in Hc. exact Hc.
Qed.
Example C03_example : let p := sample URF Gray16 TwoSidedLongEdge Rotated 2 1 in
  sane_geometry p /\ urf_expressible p /\ getPaperSizeWInPixels p = Ok 2 /\
  image_of_size 2 2 1 [[[bZ 1; bZ 2]; [bZ 3; bZ 4]]] /\ back_side (p_duplexMode p) 3 = false.
Proof.
  repeat split; try (vm_compute; congruence); repeat constructor.
  - exists 0. reflexivity.
  - exists 0. left. reflexivity.
Qed.
Print Assumptions C03_round_trip_urf.

(** ** C04 *)
(** The bitmap is any byte string of at least height * bytes-per-line bytes.  Missing
    from the property: a shorter bitmap, see C04_short_bitmap_refuted. *)
Theorem C04_encoder_memory_safe_partial : forall p page W H bmp,
  sane_geometry p ->
  getPaperSizeWInPixels p = Ok W -> getPaperSizeHInPixels p = Ok H ->
  line_bytes (p_colorMode p) W < 2 ^ 31 ->
  H * line_bytes (p_colorMode p) W <= Z.of_nat (length bmp) ->
  (p_format p = URF -> urf_expressible p) ->
  exists out, bmp_to_pwg bmp page p = Ok out.
Proof.
  intros p page W H bmp H1 H2 H3 H4 H5 H6.
  destruct (sane_bounds _ _ _ H1 H2 H3) as [HWb HHb].
  rewrite <- line_bytes_eq in H5 by lia.
  set (c := unit_bytes (p_colorMode p)) in *. set (w := line_units (p_colorMode p) (Z.to_nat W)) in *.
  destruct (cut_lines_ok (Z.to_nat H) w c bmp) as [Hi Hf]; [nia|].
  destruct (sane_page None p page W H _ (skipn (Z.to_nat H * (w * c)) bmp) H1 H2 H3 Hi H4 H6)
    as (hdr & body & _ & _ & Hb & _).
  rewrite Hf, firstn_skipn in Hb. eauto.
Qed.
Print Assumptions C04_encoder_memory_safe_partial.

(** Finding: a bitmap shorter than the page (a truncated PPM) is read past its end. *)
Theorem C04_short_bitmap_refuted :
  exists p bmp, sane_geometry p /\ getPaperSizeWInPixels p = Ok 2 /\ getPaperSizeHInPixels p = Ok 1 /\
    bmp_to_pwg bmp 1 p = UB.
Proof.
  exists (sample PWG Gray8 OneSided Normal 2 1), [bZ 7].
  repeat split; vm_compute; congruence.
Qed.
Print Assumptions C04_short_bitmap_refuted.

(** ** C05 *)
(** Modes of 8 and 16 bits per colour: the encoded image, mirrored as its header
    declares, is the bitmap; and only back sides are declared (hence) mirrored. *)
Theorem C05_back_side_transform : forall p page W H (img : list (list (list byte))) extra,
  sane_geometry p -> params_in_range p -> fits_field (p_mediaType p) -> fits_field (p_paperSizeName p) ->
  getPaperSizeWInPixels p = Ok W -> getPaperSizeHInPixels p = Ok H -> W < 2 ^ 32 -> H < 2 ^ 32 ->
  let c := unit_bytes (p_colorMode p) in
  let w := Z.to_nat W in let h := Z.to_nat H in
  image_of_size c w h img -> line_bytes (p_colorMode p) W < 2 ^ 31 ->
  p_format p <> URF -> (8 <= mode_bits (p_colorMode p))%nat ->
  exists hdr body enc (hm vm : bool),
    bmp_to_pwg (flat img ++ extra) page p = Ok (hdr ++ body) /\ length hdr = 1796%nat /\
    page_code c w None body enc /\ image_of_size c w h enc /\
    s32_at hdr off_CrossFeedTransform = Some (if hm then -1 else 1) /\
    s32_at hdr off_FeedTransform = Some (if vm then -1 else 1) /\
    mirrored hm vm w h enc img /\
    (hm, vm) = (if back_side (p_duplexMode p) page
                then back_transform (p_duplexMode p) (p_backXform p) else (false, false)).
Proof.
  intros p page W H img extra H1 HR F1 F2 H2 H3 HW32 H32 c w h H4 H5 H6 H7.
  destruct (sane_bounds _ _ _ H1 H2 H3) as [HWb HHb].
  assert (Hw : line_units (p_colorMode p) (Z.to_nat W) = w) by (destruct (p_colorMode p); simpl in H7; try lia; reflexivity).
  assert (Ho : one_bit (p_colorMode p) = false) by (destruct (p_colorMode p); simpl in H7; try lia; reflexivity).
  destruct (sane_page None p page W H img extra H1 H2 H3) as (hdr & body & Hh & Hl & Hb & Hc);
    [rewrite Hw; assumption|assumption|congruence|].
  rewrite Hw, Ho in Hc.
  set (t := if back_side (p_duplexMode p) page then back_transform (p_duplexMode p) (p_backXform p) else (false, false)) in *.
  assert (Hd : exists px py, froundZ (getPaperSizeWInPoints p) = Some px /\ froundZ (getPaperSizeHInPoints p) = Some py /\
     pwg_header_describes p (back_side (p_duplexMode p) page) W H px py hdr).
  { apply make_pwg_hdr_describes; auto; unfold two32; try lia. revert Hh H6.
    unfold page_header. destruct (p_format p); congruence. }
  destruct Hd as (px & py & _ & _ & Hd). unfold pwg_header_describes in Hd. fold t in Hd.
  destruct t as [hm vm] eqn:Et. cbn [fst snd] in Hc.
  exists hdr, body, (xform false hm vm img), hm, vm.
  split; [assumption|]. split; [apply Hd|]. split; [assumption|].
  split; [apply xform_size; [assumption|discriminate]|].
  split; [apply Hd|]. split; [apply Hd|]. split; [|reflexivity].
  apply (xform_mirrored hm vm w h c). assumption.
Qed.
Example C05_example : let p := sample PWG sRGB24 TwoSidedLongEdge Rotated 3 2 in
  sane_geometry p /\ params_in_range p /\ image_of_size 3 3 2 sample_image /\
  back_side (p_duplexMode p) 2 = true /\ back_transform (p_duplexMode p) (p_backXform p) = (true, true) /\
  body_of 1796 (bmp_to_pwg (flat sample_image) 2 p)
    = map bZ [0; 254; 0; 0; 0; 1; 2; 3; 7; 8; 9; 0; 0; 4; 5; 6; 1; 1; 2; 3].
Proof.
  repeat split; try (vm_compute; congruence); repeat constructor; reflexivity.
Qed.
Print Assumptions C05_back_side_transform.

(** ** C06 (and C05 for 1-bit modes) *)
(** the claim for 1-bit pages of any width *)
Definition bilevel_mirroring_for (P : Z -> Prop) : Prop :=
  forall p page W H (img : list (list (list byte))) extra,
  sane_geometry p ->
  getPaperSizeWInPixels p = Ok W -> getPaperSizeHInPixels p = Ok H -> P W ->
  let w := line_units (p_colorMode p) (Z.to_nat W) in let h := Z.to_nat H in
  image_of_size 1 w h img -> line_bytes (p_colorMode p) W < 2 ^ 31 ->
  p_format p <> URF -> mode_bits (p_colorMode p) = 1%nat ->
  exists hdr body enc (hm vm : bool),
    bmp_to_pwg (flat img ++ extra) page p = Ok (hdr ++ body) /\ length hdr = 1796%nat /\
    page_code 1 w None body enc /\ image_of_size 1 w h enc /\
    (hm, vm) = (if back_side (p_duplexMode p) page
                then back_transform (p_duplexMode p) (p_backXform p) else (false, false)) /\
    forall x y, (x < Z.to_nat W)%nat -> (y < h)%nat ->
      bit_at (concat (nth y enc [])) x =
      bit_at (concat (nth (if vm then h - 1 - y else y)%nat img []))
             (if hm then Z.to_nat W - 1 - x else x)%nat.

Lemma line_units_mod8 m W : mode_bits m = 1%nat -> 0 <= W -> W mod 8 = 0 ->
  (8 * line_units m (Z.to_nat W) = Z.to_nat W)%nat.
Proof.
  intros Hm HW HP.
  assert (E : ((Z.to_nat W + 7) / 8 * 8 = Z.to_nat W)%nat) by lia.
  destruct m; simpl in Hm; try lia; cbn [line_units]; rewrite Nat.mul_comm; exact E.
Qed.
(** What happens at any width: lines are mirrored about the middle of their bytes, so that the
    pixels move to the right by the number of padding bits (and pages that are not mirrored
    are as they were).  Missing: that they stay in place (refuted below). *)
Theorem C06_any_width_partial : forall p page W H (img : list (list (list byte))) extra,
  sane_geometry p ->
  getPaperSizeWInPixels p = Ok W -> getPaperSizeHInPixels p = Ok H ->
  let w := line_units (p_colorMode p) (Z.to_nat W) in let h := Z.to_nat H in
  image_of_size 1 w h img -> line_bytes (p_colorMode p) W < 2 ^ 31 ->
  p_format p <> URF -> mode_bits (p_colorMode p) = 1%nat ->
  exists hdr body enc (hm vm : bool),
    bmp_to_pwg (flat img ++ extra) page p = Ok (hdr ++ body) /\ length hdr = 1796%nat /\
    page_code 1 w None body enc /\ image_of_size 1 w h enc /\
    (hm, vm) = (if back_side (p_duplexMode p) page
                then back_transform (p_duplexMode p) (p_backXform p) else (false, false)) /\
    (8 * w < Z.to_nat W + 8)%nat /\ (Z.to_nat W <= 8 * w)%nat /\
    forall x y, (x < 8 * w)%nat -> (y < h)%nat ->
      bit_at (concat (nth y enc [])) x =
      bit_at (concat (nth (if vm then h - 1 - y else y)%nat img []))
             (if hm then 8 * w - 1 - x else x)%nat.
Proof.
  intros p page W H img extra H1 H2 H3 w h H4 H5 H6 H7.
  destruct (sane_bounds _ _ _ H1 H2 H3) as [HWb HHb].
  assert (Hu : unit_bytes (p_colorMode p) = 1%nat) by (destruct (p_colorMode p); simpl in H7; try lia; reflexivity).
  assert (Ho : one_bit (p_colorMode p) = true) by (destruct (p_colorMode p); simpl in H7; try lia; reflexivity).
  destruct (sane_page None p page W H img extra H1 H2 H3) as (hdr & body & Hh & Hl & Hb & Hc);
    [rewrite Hu; assumption|assumption|congruence|].
  rewrite Hu, Ho in Hc.
  destruct (if back_side (p_duplexMode p) page then back_transform (p_duplexMode p) (p_backXform p) else (false, false))
    as [hm vm] eqn:Et. cbn [fst snd] in Hc.
  assert (Ew : w = ((Z.to_nat W + 7) / 8)%nat) by (subst w; destruct (p_colorMode p); simpl in H7; try lia; reflexivity).
  exists hdr, body, (xform true hm vm img), hm, vm.
  split; [assumption|]. split.
  { rewrite Hl. revert H6. destruct (p_format p); congruence. }
  split; [assumption|]. split; [apply xform_size; auto|].
  split; [reflexivity|]. split; [|split]; [clear - Ew; lia|clear - Ew; lia|]. intros x y Hx Hy.
  apply (xform_bits hm vm w h); assumption.
Qed.
Example C06_any_width_example : let p := sample PWG Black1 TwoSidedLongEdge Rotated 9 1 in
  sane_geometry p /\ getPaperSizeWInPixels p = Ok 9 /\
  body_of 1796 (bmp_to_pwg (map bZ [0xc0; 0x80]) 2 p) = map bZ [0; 255; 0x01; 0x03].
Proof. repeat split; vm_compute; congruence. Qed.
Print Assumptions C06_any_width_partial.
(** Missing: widths that are not a multiple of 8 (refuted below). *)
Theorem C06_bilevel_mirroring_partial : bilevel_mirroring_for (fun W => W mod 8 = 0).
Proof.
  intros p page W H img extra H1 H2 H3 HP w h H4 H5 H6 H7.
  destruct (sane_bounds _ _ _ H1 H2 H3) as [HWb HHb].
  destruct (C06_any_width_partial p page W H img extra H1 H2 H3 H4 H5 H6 H7) as (hdr & body & enc & hm & vm & A & B & C & D & E & _ & _ & F).
  assert (Hw8 : (8 * w = Z.to_nat W)%nat).
  { apply line_units_mod8; [assumption|apply HWb|assumption]. }
  fold w h in F. rewrite Hw8 in F.
  exists hdr, body, enc, hm, vm. auto 10.
Qed.
Example C06_example : let p := sample PWG Black1 TwoSidedLongEdge Rotated 16 1 in
  sane_geometry p /\ getPaperSizeWInPixels p = Ok 16 /\ 16 mod 8 = 0 /\
  body_of 1796 (bmp_to_pwg (map bZ [0x80; 0x03]) 2 p) = map bZ [0; 255; 0xc0; 0x01].
Proof. repeat split; vm_compute; congruence. Qed.
Print Assumptions C06_bilevel_mirroring_partial.

(** Finding: the padding bits are mirrored into the image when the width is not a
    multiple of 8. *)
Theorem C06_bilevel_mirroring_refuted : ~ bilevel_mirroring_for (fun _ => True).
Proof.
  intros Hclaim.
  pose (img := [[[bZ 0x80]; [bZ 0]]]).
  destruct (Hclaim (sample PWG Black1 TwoSidedLongEdge Rotated 9 1) 2 9 1 img [])
    as (hdr & body & enc & hm & vm & Hb & Hl & Hc & Hs & Ht & Hbits); auto.
  - repeat split; vm_compute; congruence.
  - vm_compute; repeat constructor.
  - vm_compute. congruence.
  - discriminate.
  - cbn in Ht. inversion Ht; subst hm vm; clear Ht.
    assert (Hbody : body = map bZ [0; 255; 0; 1]).
    { assert (E : body = body_of 1796 (Ok (hdr ++ body))).
      { unfold body_of. rewrite skipn_app, Hl, Nat.sub_diag. rewrite skipn_all2 by lia. reflexivity. }
      rewrite E, <- Hb. vm_compute. reflexivity. }
    assert (Henc : enc = [[[bZ 0]; [bZ 1]]]).
    { apply (page_code_unique 1 2 1 body); auto.
      - repeat constructor.
      - vm_compute. congruence.
      - rewrite Hbody.
        apply (pc_line 1 2 None 1 (map bZ [255; 0; 1]) [[bZ 0]; [bZ 1]] [] []); [lia|reflexivity| |constructor].
        apply (lc_literal 1 None [[bZ 0]; [bZ 1]] [] []); [simpl; lia|repeat constructor|constructor]. }
    specialize (Hbits 8%nat 0%nat). rewrite Henc in Hbits. vm_compute in Hbits.
    specialize (Hbits ltac:(lia) ltac:(lia)). discriminate.
Qed.
Print Assumptions C06_bilevel_mirroring_refuted.

(** ** C07 *)
(** Missing: "never hangs" in URF mode (refuted below). *)
Theorem C07_decoder_safe_partial : forall file byteWidth height colors urf,
  0 <= colors -> 0 <= height < 2 ^ 64 -> 256 * Z.of_nat (length file) < 2 ^ 64 ->
  match raster_to_bmp file byteWidth height colors urf with
  | Ok (out, rest) => Z.of_nat (length out) = height * byteWidth /\ exists used, file = used ++ rest
  | Throw e => e = OutOfRange
  | Hang => urf = true
  | UB | NoFuel => False
  end.
Proof. exact raster_to_bmp_total. Qed.
Print Assumptions C07_decoder_safe_partial.

(** Finding: two bytes of a URF page body make the decoder loop for ever (16-bit grey:
    the white pattern of 3 bytes never hits a line of 2 bytes); so does a run that
    overshoots the line, followed by the fill code, in any colour space. *)
Theorem C07_decoder_hangs_refuted :
  raster_to_bmp (map bZ [0; 128]) 2 1 2 true = Hang /\
  raster_to_bmp (map bZ [0; 1; 255; 255; 255; 128]) 3 1 3 true = Hang /\
  raster_to_bmp (map bZ [0; 1; 255; 128]) 1 1 1 true = Hang.
Proof. repeat split; vm_compute; reflexivity. Qed.
(** ... where [Hang] means that the loop of pwg2ppm.cpp:26-29 exceeds every bound *)
Theorem C07_hang_is_endless : forall line byteWidth white,
  (1 <= length white)%nat -> fill_white line byteWidth white = Hang ->
  forall steps, fill_loop steps line byteWidth white = NoFuel.
Proof. exact fill_white_hang. Qed.
Print Assumptions C07_hang_is_endless.

(** ** C08 *)
(** a URF line that consists of the fill code only *)
Definition fill_line_is_white (colors : nat) (white : list byte) : Prop :=
  forall w, (1 <= w)%nat -> forall rest,
    raster_to_bmp ([bZ 0; bZ 128] ++ rest) (Z.of_nat w * Z.of_nat colors) 1 (Z.of_nat colors) true
    = Ok (concat (repeat white w), rest).
Lemma fill_line c w : (1 <= w)%nat -> (1 <= c)%nat -> forall p, fill_agrees c true (Some p) -> forall rest,
  raster_to_bmp ([bZ 0; bZ 128] ++ rest) (Z.of_nat w * Z.of_nat c) 1 (Z.of_nat c) true
    = Ok (concat (repeat p w), rest).
Proof.
  intros Hw Hc p Hp rest.
  pose proof (raster_to_bmp_ok c w (Some p) true [bZ 0; bZ 128] [repeat p w] rest Hc Hp) as E.
  unfold flat in E. cbn [map concat length] in E. rewrite app_nil_r in E. apply E; [|vm_compute; reflexivity].
  apply (pc_line c w (Some p) 1 [bZ 128] (repeat p w) [] []); [lia|apply repeat_length| |constructor].
  apply lc_fill; [reflexivity|assumption].
Qed.
(** Missing: grey (C08_white_fill_refuted).  Fill codes after other runs in a line are
    covered by C02_decoder_inverts_urf_partial. *)
Theorem C08_white_fill_partial :
  fill_line_is_white 3 (map bZ [255; 255; 255]) /\
  fill_line_is_white 4 (map bZ [0; 0; 0; 0]) /\
  fill_line_is_white 6 (map bZ [255; 255; 255; 255; 255; 255]).
Proof.
  repeat split; intros w Hw rest; apply fill_line; try lia;
    (apply fill_agrees_pattern; [reflexivity|lia|]).
  - exists 1%nat. reflexivity.
  - exists 1%nat. reflexivity.
  - exists 2%nat. reflexivity.
Qed.
Print Assumptions C08_white_fill_partial.
(** Finding: on 8-bit grey pages the fill code yields black. *)
Theorem C08_white_fill_refuted :
  ~ fill_line_is_white 1 [bZ 255] /\ fill_line_is_white 1 [bZ 0].
Proof.
  split.
  - intros Hc. specialize (Hc 1%nat ltac:(lia) []). vm_compute in Hc. discriminate.
  - intros w Hw rest. apply fill_line; try lia. apply fill_agrees_pattern; [reflexivity|lia|].
    exists 1%nat. reflexivity.
Qed.
Print Assumptions C08_white_fill_refuted.

(** ** C10 *)
Theorem C10_pwg_header_layout : forall p back W H hdr rest,
  params_in_range p -> fits_field (p_mediaType p) -> fits_field (p_paperSizeName p) ->
  getPaperSizeWInPixels p = Ok W -> getPaperSizeHInPixels p = Ok H ->
  0 <= W < 2 ^ 32 -> 0 <= H < 2 ^ 32 -> line_bytes (p_colorMode p) W < 2 ^ 32 ->
  make_pwg_hdr p back = Ok hdr ->
  (exists px py, froundZ (getPaperSizeWInPoints p) = Some px /\ froundZ (getPaperSizeHInPoints p) = Some py /\
     pwg_header_describes p back W H px py hdr) /\
  (exists h, decode_pwg_hdr (hdr ++ rest) = Ok (h, rest) /\ encode_pwg_hdr h = hdr).
Proof.
  intros p back W H hdr rest HR F1 F2 HW HH HW32 HH32 Hbpl Hhdr. split.
  - apply make_pwg_hdr_describes; auto; clear - HW32 HH32 Hbpl; unfold two32; lia.
  - unfold make_pwg_hdr in Hhdr. destruct (pwg_hdr_of p back) as [h| | | |] eqn:E; try discriminate.
    inversion Hhdr. exists h. split; [|reflexivity].
    apply decode_encode_pwg. apply (pwg_hdr_of_wf p back); assumption.
Qed.
Print Assumptions C10_pwg_header_layout.
(** every header value survives encoding and decoding *)
Theorem C10_pwg_header_lossless : forall h rest,
  wf_pwg_hdr h -> decode_pwg_hdr (encode_pwg_hdr h ++ rest) = Ok (h, rest).
Proof. exact decode_encode_pwg. Qed.
(** and on sane geometry a header is always produced *)
Theorem C10_pwg_header_total : forall p back, sane_geometry p -> exists hdr, make_pwg_hdr p back = Ok hdr.
Proof.
  intros p back Hp. destruct (sane_pwg_hdr p back Hp) as [h Hh]. unfold make_pwg_hdr. rewrite Hh.
  eexists. reflexivity.
Qed.
Example C10_example : let p := sample PWG CMYK32 TwoSidedShortEdge Flipped 5 7 in
  params_in_range p /\ fits_field (p_paperSizeName p) /\
  (let! hdr := make_pwg_hdr p true in Ok (u32_at hdr off_BytesPerLine, s32_at hdr off_CrossFeedTransform))
    = Ok (Some 20, Some (-1)).
Proof.
  split; [|split].
  - vm_compute. intuition discriminate.
  - vm_compute. intuition (try discriminate; try lia).
  - vm_compute. reflexivity.
Qed.
Print Assumptions C10_pwg_header_lossless.
Print Assumptions C10_pwg_header_total.

(** ** C11 *)
Theorem C11_urf_header_lossless : forall p W H hdr rest,
  params_in_range p ->
  getPaperSizeWInPixels p = Ok W -> getPaperSizeHInPixels p = Ok H ->
  0 <= W < 2 ^ 32 -> 0 <= H < 2 ^ 32 ->
  make_urf_hdr p = Ok hdr ->
  urf_expressible p /\ urf_header_describes p W H hdr /\
  (exists h, decode_urf_hdr (hdr ++ rest) = Ok (h, rest) /\ encode_urf_hdr h = hdr) /\
  (* bits per pixel / 8 is the compression unit of the body *)
  u8_at hdr 0 = Some (8 * Z.of_nat (unit_bytes (p_colorMode p))).
Proof.
  intros p W H hdr rest HR HW HH HW32 HH32 Hhdr.
  assert (He : urf_expressible p).
  { destruct (Z.eqb_spec (p_hwResW p) (p_hwResH p)) as [Er|Er].
    2:{ exfalso. unfold make_urf_hdr, urf_hdr_of in Hhdr.
        rewrite (proj2 (Z.eqb_neq _ _) Er) in Hhdr. discriminate. }
    unfold make_urf_hdr, urf_hdr_of in Hhdr.
    rewrite (proj2 (Z.eqb_eq _ _) Er) in Hhdr. cbn [negb] in Hhdr.
    destruct (urf_color_space (p_colorMode p)) as [cs| | | |] eqn:Ec; try discriminate. cbn [bind] in Hhdr.
    destruct (if String.eqb (p_mediaType p) "" then Ok 0
            else match assoc_str (p_mediaType p) urf_media_types with Some v => Ok v | None => Throw OutOfRange end)
      as [mt| | | |] eqn:Em; try discriminate.
    split; [assumption|]. split.
    - exists cs. revert Ec. destruct (p_colorMode p); simpl; congruence.
    - exists mt. apply (urf_media_ok _ _ Em). }
  pose proof (make_urf_hdr_describes p W H hdr HR HW HH HW32 HH32 Hhdr) as Hd.
  split; [assumption|]. split; [assumption|]. split.
  - unfold make_urf_hdr in Hhdr. destruct (urf_hdr_of p) as [h| | | |] eqn:E; try discriminate.
    inversion Hhdr. exists h. split; [|reflexivity]. apply decode_encode_urf.
    unfold urf_hdr_of in E.
    destruct (negb (p_hwResW p =? p_hwResH p)); [discriminate|].
    destruct (urf_color_space (p_colorMode p)) as [cs| | | |] eqn:Ec; try discriminate. cbn [bind] in E.
    destruct (if String.eqb (p_mediaType p) "" then Ok 0
            else match assoc_str (p_mediaType p) urf_media_types with Some v => Ok v | None => Throw OutOfRange end)
      as [mt| | | |] eqn:Em; try discriminate. cbn [bind] in E.
    destruct (urf_media_ok _ _ Em) as [_ Hm].
    rewrite HW in E. cbn [bind] in E. rewrite HH in E. cbn [bind] in E. inversion E; subst h. clear E Hhdr.
    destruct HR as (R1 & R2 & R3).
    assert (0 <= cs < 7) by (destruct (p_colorMode p); inversion Ec; lia).
    unfold wf_urf_hdr, two8, two32. cbn -[Z.modulo].
    assert (0 <= urf_duplex (p_duplexMode p) < 4) by (destruct (p_duplexMode p); simpl; lia).
    assert (0 <= quality_Z (p_quality p) < 6) by (destruct (p_quality p); simpl; lia).
    repeat split; repeat (apply Forall_cons; [|]); try apply Forall_nil; try lia; try apply Z.mod_pos_bound; lia.
  - destruct Hd as (_ & Hd & _). rewrite Hd. f_equal.
    destruct He as (_ & [cs Hcs] & _). destruct (p_colorMode p); try discriminate; reflexivity.
Qed.
Print Assumptions C11_urf_header_lossless.
Theorem C11_urf_header_refused : forall p, ~ urf_expressible p ->
  make_urf_hdr p = Throw LogicError \/ make_urf_hdr p = Throw OutOfRange.
Proof. exact make_urf_hdr_refused. Qed.
Print Assumptions C11_urf_header_refused.
Example C11_example : urf_expressible (sample URF sRGB48 OneSided Normal 5 7) /\
  ~ urf_expressible (sample URF Black8 OneSided Normal 5 7) /\
  (let! h := make_urf_hdr (sample URF sRGB48 OneSided Normal 5 7) in Ok (u8_at h 0)) = Ok (Some 48).
Proof.
  split; [|split].
  - split; [reflexivity|]. split; [exists 1; reflexivity|exists 0; left; reflexivity].
  - intros (_ & [cs Hcs] & _). discriminate.
  - vm_compute. reflexivity.
Qed.
