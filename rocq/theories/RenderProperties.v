(** C15, C51, C52, C53: rendering pages (lib/pdf2printable.cpp). *)
From Verif Require Import Base BaseLemmas ListLemmas FloatModel StringModel ParamsModel ParamsProofs FloatLemmas ParamsProperties RasterModel HeaderModel RenderModel RenderProofs IppEncProofs.
From Coq Require Import Lia ZifyBool ZifyNat.
Local Open Scope Z_scope.
Ltac Zify.zify_post_hook ::= Z.div_mod_to_equations.

(** ** Specification *)
(** A page of cairo pixels 0x??RRGGBB: [w * h] of them, line by line. *)
Definition red (v : Z) : Z := v / 65536 mod 256.
Definition green (v : Z) : Z := v / 256 mod 256.
Definition blue (v : Z) : Z := v mod 256.
Definition is_white (v : Z) : Prop := red v = 255 /\ green v = 255 /\ blue v = 255.
Definition is_black (v : Z) : Prop := red v = 0 /\ green v = 0 /\ blue v = 0.
Definition at_pixel (data : list Z) (w line col : Z) : Z := nth (Z.to_nat (line * w + col)) data 0.
(** the paper has these dimensions in pixels (and its bitmap fits the address space) *)
Definition paper (p : params) (w h : Z) : Prop :=
  getPaperSizeWInPixels p = Ok w /\ getPaperSizeHInPixels p = Ok h /\ 0 <= w < 2 ^ 60 /\ 0 <= h < 2 ^ 60 /\ w * h < 2 ^ 60.
(** the sample of a 1-bit image: most significant bit first, [bytes] bytes per line *)
Definition dot (bmp : list byte) (bytes line col : Z) : bool :=
  Z.testbit (Zb (nth (Z.to_nat (line * bytes + col / 8)) bmp (bZ 0))) (7 - col mod 8).
(** p with another colour mode *)
Definition in_mode (m : color_mode) (p : params) : params :=
  {| p_format := p_format p; p_colorMode := m; p_quality := p_quality p; p_antiAlias := p_antiAlias p; p_paperSizeName := p_paperSizeName p;
     p_hwResW := p_hwResW p; p_hwResH := p_hwResH p; p_units := p_units p; p_sizeW := p_sizeW p; p_sizeH := p_sizeH p; p_duplexMode := p_duplexMode p;
     p_backXform := p_backXform p; p_copies := p_copies p; p_collated := p_collated p; p_pageRanges := p_pageRanges p; p_mediaPosition := p_mediaPosition p;
     p_mediaType := p_mediaType p |}.

(** ** Components *)
Lemma red_R v : RGB32_R v = red v.
Proof. unfold RGB32_R, red. change 255 with (Z.ones 8). rewrite Z.land_ones by lia. rewrite Z.shiftr_div_pow2 by lia. reflexivity. Qed.
Lemma green_G v : RGB32_G v = green v.
Proof. unfold RGB32_G, green. change 255 with (Z.ones 8). rewrite Z.land_ones by lia. rewrite Z.shiftr_div_pow2 by lia. reflexivity. Qed.
Lemma blue_B v : RGB32_B v = blue v.
Proof. unfold RGB32_B, blue. change 255 with (Z.ones 8). rewrite Z.land_ones by lia. reflexivity. Qed.
Lemma white_lum v : is_white v <-> luminance v = 255000.
Proof. unfold is_white, luminance. rewrite red_R, green_G, blue_B. unfold red, green, blue. lia. Qed.
Lemma black_lum v : is_black v <-> luminance v = 0.
Proof. unfold is_black, luminance. rewrite red_R, green_G, blue_B. unfold red, green, blue. lia. Qed.
Lemma dot_bit bmp bytes l c : bit bmp (8 * (l * bytes) + c) = dot bmp bytes l c.
Proof.
  unfold bit, dot. replace ((8 * (l * bytes) + c) / 8) with (l * bytes + c / 8) by lia. replace ((8 * (l * bytes) + c) mod 8) with (c mod 8) by lia. reflexivity.
Qed.
Lemma paper_bytes p w h : paper p w h -> (match p_colorMode p with Gray1 | Black1 => True | _ => False end) ->
  getPaperSizeWInBytes p = Ok ((w + 7) / 8) /\ getPaperSizeInBytes p = Ok ((w + 7) / 8 * h).
Proof.
  intros [Hw [Hh [Bw [Bh Bwh]]]] Hm. assert (E : getPaperSizeWInBytes p = Ok ((w + 7) / 8)).
  { unfold getPaperSizeWInBytes, getBitsPerColor, getNumberOfColors. destruct (p_colorMode p); try contradiction; cbn [andb Z.eqb]; rewrite Hw; cbn [bind]; unfold two64; rewrite (Z.mod_small (w + 7)) by lia; reflexivity. }
  split; [exact E|]. unfold getPaperSizeInBytes. rewrite E. cbn [bind]. rewrite Hh. cbn [bind]. unfold two64. f_equal. apply Z.mod_small. assert ((w + 7) / 8 <= w + 1) by lia. nia.
Qed.
Lemma paper_pixels p w h : paper p w h -> getPaperSizeInPixels p = Ok (w * h).
Proof. intros [Hw [Hh [Bw [Bh Bwh]]]]. unfold getPaperSizeInPixels. rewrite Hw, Hh. cbn [bind]. unfold two64. f_equal. apply Z.mod_small. nia. Qed.
Lemma bit_zero_repeat b n q : 0 <= q < 8 * Z.of_nat n -> bit (repeat b n) q = Z.testbit (Zb b) (7 - q mod 8).
Proof.
  intros H. unfold bit. f_equal. f_equal. apply nth_error_nth. assert (K : (Z.to_nat (q / 8) < n)%nat) by lia. clear H. revert K. generalize (Z.to_nat (q / 8)). induction n as [|n IH]; intros k Hk; [lia|].
  destruct k; [reflexivity|]. cbn. apply IH. lia.
Qed.
Lemma blank_bit (black : bool) n q : 0 <= q < 8 * Z.of_nat n -> bit (repeat (bZ (if black then 0 else 255)) n) q = negb black.
Proof.
  intros H. rewrite bit_zero_repeat by exact H. assert (K : 0 <= 7 - q mod 8 < 8) by lia. revert K. generalize (7 - q mod 8). intros i Hi. rewrite testbit_byte by lia. destruct black; cbn [negb].
  - apply Z.bits_0.
  - change 255 with (Z.ones 8). apply Z.ones_spec_low. lia.
Qed.
Definition one_bit (m : color_mode) (black : bool) : Prop := m = if black then Black1 else Gray1.
Lemma dither_page p bmp data w h black : paper p w h -> one_bit (p_colorMode p) black -> Z.of_nat (length data) = w * h -> 56 * h < 2147483648 ->
  exists tmp', copy_raster_buffer bmp data p = Ok tmp' /\ Z.of_nat (length tmp') = (w + 7) / 8 * h /\
    (forall l c, 0 <= l < h -> w <= c < 8 * ((w + 7) / 8) -> dot tmp' ((w + 7) / 8) l c = negb black) /\
    (bilevel data -> forall l c, 0 <= l < h -> 0 <= c < w -> dot tmp' ((w + 7) / 8) l c = if luminance (at_pixel data w l c) =? 0 then black else negb black).
Proof.
  intros Hp Hm Hd Hh. pose proof (paper_bytes p w h Hp ltac:(unfold one_bit in Hm; rewrite Hm; destruct black; exact I)) as [E1 E2]. pose proof (paper_pixels p w h Hp) as E3. destruct Hp as [Hw [Hhh [Bw [Bh Bwh]]]].
  set (bw := (w + 7) / 8) in *. assert (BW : 0 <= w <= 8 * bw) by (unfold bw; lia). assert (Bbw : 0 <= bw) by lia. assert (Hbk : isBlack p = black) by (unfold isBlack; rewrite Hm; destruct black; reflexivity).
  set (tmp0 := if Z.of_nat (length bmp) =? bw * h then bmp else zeros (Z.to_nat (bw * h))). assert (L0 : Z.of_nat (length tmp0) = bw * h).
  { unfold tmp0. destruct (Z.eqb_spec (Z.of_nat (length bmp)) (bw * h)); [assumption|]. unfold zeros. rewrite repeat_length. nia. }
  set (blank := repeat (bZ (if black then 0 else 255)) (length tmp0)). assert (LB : Z.of_nat (length blank) = bw * h) by (unfold blank; rewrite repeat_length; exact L0).
  destruct (dither_lines_ok data black w bw h BW Hd Hh (Z.to_nat h) 0 (repeat 0 (Z.to_nat ((w + 2) mod two64))) blank ltac:(lia) ltac:(lia) LB) as [t [R [Lt [P1 P2]]]].
  { rewrite repeat_length. unfold two64. rewrite Z.mod_small by lia. reflexivity. }
  { intros k a Hk. apply nth_error_In, repeat_spec in Hk. subst a. unfold debt_bound. ifs; lia. }
  exists t. split; [|split; [|split]].
  - unfold copy_raster_buffer. rewrite E3. cbn [bind]. rewrite E2. cbn [bind]. fold tmp0. rewrite Hbk. unfold one_bit in Hm. rewrite Hm. destruct black; rewrite Hw, E1, Hhh; cbn [bind]; exact R.
  - rewrite Lt. exact LB.
  - intros l c Hl Hc. rewrite <- dot_bit. rewrite P1 by lia. apply blank_bit. unfold blank in LB. rewrite repeat_length in LB. nia.
  - intros BL l c Hl Hc. rewrite <- dot_bit. rewrite P2; [|exact BL| |exact Hl|exact Hc].
    + unfold at_pixel. destruct (luminance _ =? 0); [reflexivity|]. apply blank_bit. unfold blank in LB. rewrite repeat_length in LB. nia.
    + intros k a Hk. apply nth_error_In, repeat_spec in Hk. exact Hk.
Qed.

Lemma map_repeat' {A B} (f : A -> B) a n : map f (repeat a n) = repeat (f a) n.
Proof. induction n as [|n IH]; [reflexivity|]. cbn. rewrite IH. reflexivity. Qed.

(** ** C52: dithering *)
(** The error diffusion of a page of less than 2^25 lines is defined for all pixels
    (no overflow, no access outside the arrays), and pads every line with white.
    Missing: higher pages, see C52_overflow_refuted. *)
Theorem C52_defined_partial : forall p bmp data w h (black : bool), paper p w h -> p_colorMode p = (if black then Black1 else Gray1) -> Z.of_nat (length data) = w * h -> h < 2 ^ 25 ->
  exists out, copy_raster_buffer bmp data p = Ok out /\ Z.of_nat (length out) = (w + 7) / 8 * h /\
  forall line col, 0 <= line < h -> w <= col < 8 * ((w + 7) / 8) -> dot out ((w + 7) / 8) line col = negb black.
Proof.
  intros p bmp data w h black Hp Hm Hd Hh. destruct (dither_page p bmp data w h black Hp Hm Hd ltac:(lia)) as [t [E [L [P _]]]]. exists t. auto.
Qed.
(** A page of pure black and white pixels is reproduced exactly; in particular an
    all-white page stays white and an all-black page black. *)
Theorem C52_black_and_white : forall p bmp data w h (black : bool) out, paper p w h -> p_colorMode p = (if black then Black1 else Gray1) -> Z.of_nat (length data) = w * h -> h < 2 ^ 25 ->
  (forall v, In v data -> is_white v \/ is_black v) -> copy_raster_buffer bmp data p = Ok out ->
  forall line col, 0 <= line < h -> 0 <= col < w ->
  (is_black (at_pixel data w line col) -> dot out ((w + 7) / 8) line col = black) /\ (is_white (at_pixel data w line col) -> dot out ((w + 7) / 8) line col = negb black).
Proof.
  intros p bmp data w h black out Hp Hm Hd Hh BL Ho l c Hl Hc. destruct (dither_page p bmp data w h black Hp Hm Hd ltac:(lia)) as [t [E [_ [_ P]]]]. assert (t = out) by congruence. subst t.
  assert (BL' : bilevel data) by (intros v Hv; rewrite <- white_lum, <- black_lum; destruct (BL v Hv); auto). specialize (P BL' l c Hl Hc). rewrite P. split; intros K.
  - apply black_lum in K. rewrite K. reflexivity.
  - apply white_lum in K. rewrite K. reflexivity.
Qed.
(** Black1 output is the complement of Gray1 output, byte for byte. *)
Theorem C52_complement : forall p bmp data, copy_raster_buffer bmp data (in_mode Black1 p) = (let! out := copy_raster_buffer bmp data (in_mode Gray1 p) in Ok (map (fun b => bZ (255 - Zb b)) out)).
Proof.
  intros p bmp data. unfold copy_raster_buffer.
  change (getPaperSizeInPixels (in_mode Black1 p)) with (getPaperSizeInPixels (in_mode Gray1 p)). change (getPaperSizeInBytes (in_mode Black1 p)) with (getPaperSizeInBytes (in_mode Gray1 p)).
  change (getPaperSizeWInPixels (in_mode Black1 p)) with (getPaperSizeWInPixels (in_mode Gray1 p)). change (getPaperSizeWInBytes (in_mode Black1 p)) with (getPaperSizeWInBytes (in_mode Gray1 p)).
  change (getPaperSizeHInPixels (in_mode Black1 p)) with (getPaperSizeHInPixels (in_mode Gray1 p)).
  destruct (getPaperSizeInPixels _); cbn [bind]; try reflexivity. destruct (getPaperSizeInBytes _); cbn [bind]; try reflexivity. cbn [p_colorMode in_mode isBlack]. change (fun b : byte => bZ (255 - Zb b)) with compl.
  destruct (getPaperSizeWInPixels _) as [w| | | |]; cbn [bind]; try reflexivity. destruct (getPaperSizeWInBytes _) as [bw| | | |]; cbn [bind]; try reflexivity. destruct (getPaperSizeHInPixels _) as [h| | | |]; cbn [bind]; try reflexivity.
  match goal with |- dither_lines _ _ _ _ _ _ _ (repeat _ ?n) = _ => replace (repeat (bZ 0) n) with (map compl (repeat (bZ 255) n)) by (rewrite map_repeat'; f_equal; vm_compute; reflexivity) end. apply dither_lines_compl.
Qed.
(** Not for every height: the debts of the first column are added up line after line and
    never used, so that a grey page of 61356676 lines overflows an int. *)
Definition tall : params := with_paper (in_mode Gray1 default_params) "tall" (fofZ 1) (fofZ 61356676) Pixels.
Definition mid_gray : Z := 128 * 65536 - 65536 + 127 * 256 + 127.
Lemma tall_pixel : f_to_signed 32 (fadd (RGB32_GRAY mid_gray) (fofZ 0)) = Ok 126.
Proof. vm_compute. reflexivity. Qed.
Lemma tall_line a b c lsp tmp data lsb : nth_error data (Z.to_nat lsp) = Some mid_gray -> 0 <= lsp -> 0 <= a <= b -> 0 <= b < 2147483648 -> 0 <= c <= 63 -> 0 <= lsb < Z.of_nat (length tmp) ->
  exists tmp', length tmp' = length tmp /\ dither_line 1 data false lsb lsp 0 0 [a; b; c] tmp = if b + 35 <? 2147483648 then Ok ([a + 21; b + 35; 7], tmp') else UB.
Proof.
  intros Hd Hl Ha Hb Hc Ht. destruct (ink_at false tmp lsb 0 ltac:(lia) ltac:(lia) ltac:(lia)) as [x [tmp' [G [S [L _]]]]]. exists tmp'. split; [exact L|].
  cbn [dither_line]. rewrite (get_at_nth data (lsp + 0) mid_gray) by (rewrite ?Z.add_0_r; assumption). cbn [bind]. rewrite tall_pixel. cbn [bind]. change (126 <? 128) with true. cbv iota.
  change (126 - 0) with 126. rewrite int_ok_id by lia. cbn [bind]. change (get_at [a; b; c] (0 + 2)) with (Ok c). cbn [bind]. change (SIXTEENTHS 7 126) with 49. rewrite int_ok_id by lia. cbn [bind].
  change (get_at [a; b; c] 0) with (Ok a). cbn [bind]. change (SIXTEENTHS 3 126) with 21. change (SIXTEENTHS 5 126) with 35. change (SIXTEENTHS 1 126) with 7.
  destruct (Z.ltb_spec (b + 35) 2147483648) as [K|K].
  - rewrite int_ok_id by lia. cbn [bind]. change (set_at [a; b; c] 0 (a + 21)) with (Ok [a + 21; b; c]). cbn [bind]. change (get_at [a + 21; b; c] (0 + 1)) with (Ok b). cbn [bind]. rewrite int_ok_id by lia. cbn [bind].
    change (set_at [a + 21; b; c] (0 + 1) (b + 35)) with (Ok [a + 21; b + 35; c]). cbn [bind]. change (set_at [a + 21; b + 35; c] (0 + 2) 7) with (Ok [a + 21; b + 35; 7]). cbn [bind].
    change (0 =? 0) with true. cbv iota. rewrite G. cbn [bind]. unfold ink in S. rewrite S. reflexivity.
  - assert (U : int_ok (b + 35) = UB) by (unfold int_ok; replace ((- 2147483648 <=? b + 35) && (b + 35 <? 2147483648)) with false by lia; reflexivity).
    unfold int_ok at 1. destruct ((- 2147483648 <=? a + 21) && (a + 21 <? 2147483648)); [|reflexivity]. cbn [bind]. change (set_at [a; b; c] 0 (a + 21)) with (Ok [a + 21; b; c]). cbn [bind].
    change (get_at [a + 21; b; c] (0 + 1)) with (Ok b). cbn [bind]. rewrite U. reflexivity.
Qed.
Lemma nth_error_repeat' {A} (a : A) n k : (k < n)%nat -> nth_error (repeat a n) k = Some a.
Proof. revert k. induction n as [|n IH]; intros [|k] H; [lia|lia|reflexivity|]. cbn. apply IH. lia. Qed.
Lemma tall_overflow total : forall n line a b c tmp, line + Z.of_nat n = Z.of_nat total -> 0 <= line -> 0 <= a <= b -> b = 35 * line -> b < 2147483648 -> 0 <= c <= 63 -> Z.of_nat total <= Z.of_nat (length tmp) ->
  61356676 <= Z.of_nat total -> dither_lines n (repeat mid_gray total) false 1 1 line [a; b; c] tmp = UB.
Proof.
  induction n as [|n IH]; intros line a b c tmp Hn Hl Ha Hb Hb2 Hc Ht Hbig; [lia|]. cbn [dither_lines]. change (Z.to_nat 1) with 1%nat.
  destruct (tall_line a b c (line * 1) tmp (repeat mid_gray total) (line * 1)) as [tmp' [L E]].
  { apply nth_error_repeat'. lia. } { lia. } { exact Ha. } { lia. } { exact Hc. } { lia. }
  rewrite E. destruct (Z.ltb_spec (b + 35) 2147483648); [|reflexivity]. cbn [bind]. apply IH; lia.
Qed.
Theorem C52_overflow_refuted : exists p data h, p_colorMode p = Gray1 /\ paper p 1 h /\ Z.of_nat (length data) = h /\ copy_raster_buffer [] data p = UB.
Proof.
  assert (exists h, h = 61356676) as [h Hh0] by (exists 61356676; reflexivity). exists tall, (repeat mid_gray (Z.to_nat h)), h. assert (P : paper tall 1 h).
  { split; [vm_compute; reflexivity|]. split; [rewrite Hh0; vm_compute; reflexivity|]. split; [lia|]. split; lia. }
  split; [reflexivity|]. split; [exact P|]. split; [rewrite repeat_length; lia|]. pose proof (paper_bytes _ _ _ P I) as [E1 E2]. pose proof (paper_pixels _ _ _ P) as E3. destruct P as [Hw [Hh _]].
  unfold copy_raster_buffer. rewrite E3. cbn [bind]. rewrite E2. cbn [bind]. change (p_colorMode tall) with Gray1. cbv iota. rewrite Hw, E1, Hh. cbn [bind].
  change (isBlack tall) with false. change (repeat 0 (Z.to_nat ((1 + 2) mod two64))) with [0; 0; 0]. change ((1 + 7) / 8) with 1. change (Z.of_nat (length (@nil byte))) with 0. replace (0 =? 1 * h) with false by lia. cbv iota.
  apply tall_overflow; rewrite ?repeat_length; unfold zeros; rewrite ?repeat_length; lia.
Qed.

(** ** C53: grey values *)
Definition max3 a b c := Z.max (Z.max a b) c.
Definition min3 a b c := Z.min (Z.min a b) c.
Definition brightest (v : Z) := max3 (red v) (green v) (blue v).
Definition darkest (v : Z) := min3 (red v) (green v) (blue v).
Lemma gray_lum v : luminance v = 299 * red v + 587 * green v + 114 * blue v.
Proof. unfold luminance. rewrite red_R, green_G, blue_B. reflexivity. Qed.
(** The grey byte of a Gray8 page is the luminance (299 red + 587 green + 114 blue)/1000
    rounded down, or one less when that is a whole number; so it is never brighter than
    the brightest component and at most one darker than the darkest.  Missing: not darker
    than the darkest, see C53_neutral_refuted. *)
Theorem C53_gray_partial : forall v, exists g, gray_pixel false v = Ok [bZ g] /\ 0 <= g <= 255 /\ darkest v - 1 <= g <= brightest v /\
  let l := 299 * red v + 587 * green v + 114 * blue v in g = l / 1000 \/ (l mod 1000 = 0 /\ g = l / 1000 - 1).
Proof.
  intros v. destruct (gray_pixel_ok false v) as [g [E [B [_ L]]]]. exists g. split; [exact E|]. split; [lia|]. rewrite gray_lum in L. cbv zeta. split; [|exact L].
  clear E. unfold darkest, brightest, max3, min3. lia.
Qed.
(** The ink of a Black8 page likewise: never more than the darkest component asks for,
    at most one less than the brightest does. *)
Theorem C53_black_partial : forall v, exists g, gray_pixel true v = Ok [bZ g] /\ 0 <= g <= 255 /\ 255 - brightest v - 1 <= g <= 255 - darkest v /\
  let l := 299 * red v + 587 * green v + 114 * blue v in 255 - g = (l + 999) / 1000 \/ (l mod 1000 = 0 /\ 255 - g = l / 1000 + 1).
Proof.
  intros v. destruct (gray_pixel_ok true v) as [g [E [B [_ L]]]]. exists g. split; [exact E|]. split; [lia|]. rewrite gray_lum in L. cbv zeta. split; [|exact L].
  clear E. unfold darkest, brightest, max3, min3. lia.
Qed.
(** White is white and black is black, in both. *)
Theorem C53_extremes : forall v, (is_white v -> gray_pixel false v = Ok [bZ 255] /\ gray_pixel true v = Ok [bZ 0]) /\ (is_black v -> gray_pixel false v = Ok [bZ 0] /\ gray_pixel true v = Ok [bZ 255]).
Proof.
  intros v. split; intros K.
  - apply white_lum in K. apply white_gray in K. unfold gray_pixel. rewrite K. split; vm_compute; reflexivity.
  - apply black_lum in K. apply black_gray in K. unfold gray_pixel. rewrite K. split; vm_compute; reflexivity.
Qed.
(** A neutral grey does not always keep its value in Gray8: 65 of the 256 become one
    darker (for example 127); in Black8 all 256 keep theirs. *)
Definition neutral (n : Z) : Z := n * 65536 + n * 256 + n.
Definition gray_levels := map Z.of_nat (seq 0 256).
Theorem C53_neutral_refuted : red (neutral 127) = 127 /\ green (neutral 127) = 127 /\ blue (neutral 127) = 127 /\ gray_pixel false (neutral 127) = Ok [bZ 126] /\
  length (filter (fun n => match gray_pixel false (neutral n) with Ok [g] => negb (Zb g =? n) | _ => true end) gray_levels) = 65%nat.
Proof. split; [reflexivity|]. split; [reflexivity|]. split; [reflexivity|]. split; vm_compute; reflexivity. Qed.
Theorem C53_neutral_black : forall n, 0 <= n < 256 -> gray_pixel true (neutral n) = Ok [bZ (255 - n)].
Proof.
  assert (A : forallb (fun n => match gray_pixel true (neutral n) with Ok [g] => Zb g =? 255 - n | _ => false end) gray_levels = true) by (vm_compute; reflexivity).
  intros n Hn. rewrite forallb_forall in A. specialize (A n). assert (I : In n gray_levels) by (apply in_map_iff; exists (Z.to_nat n); split; [lia|apply in_seq; lia]). specialize (A I).
  destruct (gray_pixel true (neutral n)) as [[|g [|]]| | | |]; try discriminate. apply Z.eqb_eq in A. f_equal. f_equal. apply Zb_inj. rewrite A, Zb_bZ_small by lia. reflexivity.
Qed.

(** ** C15: CMYK and inversion *)
Lemma paper_mode p w h m : paper p w h -> paper (in_mode m p) w h.
Proof. intros H. exact H. Qed.
Lemma color_bytes p w h n : paper p w h -> (p_colorMode p = sRGB24 /\ n = 3) \/ (p_colorMode p = CMYK32 /\ n = 4) \/ ((p_colorMode p = Gray8 \/ p_colorMode p = Black8) /\ n = 1) -> getPaperSizeInBytes p = Ok (n * (w * h)).
Proof.
  intros [Hw [Hh [Bw [Bh Bwh]]]] Hm. assert (P0 : 0 <= w * h) by nia. unfold getPaperSizeInBytes, getPaperSizeWInBytes, getBitsPerColor, getNumberOfColors.
  destruct Hm as [[Hm ->]|[[Hm ->]|[[Hm|Hm] ->]]]; rewrite Hm; change (8 mod 8) with 0; cbv beta iota delta [andb Z.eqb Pos.eqb]; rewrite ?Hw; cbn [bind];
  change (8 / 8) with 1; rewrite Hh; cbn [bind]; unfold two64; f_equal.
  - rewrite (Z.mod_small (w * 3 * 1)) by lia. replace (w * 3 * 1 * h) with (3 * (w * h)) by ring. apply Z.mod_small. lia.
  - rewrite (Z.mod_small (w * 4 * 1)) by lia. replace (w * 4 * 1 * h) with (4 * (w * h)) by ring. apply Z.mod_small. lia.
  - rewrite (Z.mod_small (w * 1 * 1)) by lia. replace (w * 1 * 1 * h) with (1 * (w * h)) by ring. apply Z.mod_small. lia.
  - rewrite (Z.mod_small (w * 1 * 1)) by lia. replace (w * 1 * 1 * h) with (1 * (w * h)) by ring. apply Z.mod_small. lia.
Qed.
(** the bytes of a page, pixel by pixel *)
Definition mode_pixel (m : color_mode) : option (Z * (Z -> outcome (list byte))) :=
  match m with
  | Gray8 => Some (1, gray_pixel false) | Black8 => Some (1, gray_pixel true)
  | sRGB24 => Some (3, rgb_pixel) | CMYK32 => Some (4, cmyk_pixel)
  | _ => None
  end.
Lemma mode_pixel_total m n f v : mode_pixel m = Some (n, f) -> 0 <= n /\ exists l, f v = Ok l /\ Z.of_nat (length l) = n.
Proof.
  intros H. destruct m; try discriminate; injection H as <- <-; (split; [lia|]).
  - unfold rgb_pixel. eexists. split; [reflexivity|]. reflexivity.
  - unfold cmyk_pixel. eexists. split; [reflexivity|]. reflexivity.
  - destruct (gray_pixel_ok false v) as [g [E _]]. exists [bZ g]. split; [exact E|reflexivity].
  - destruct (gray_pixel_ok true v) as [g [E _]]. exists [bZ g]. split; [exact E|reflexivity].
Qed.
Lemma copy_page p bmp data w h n f : paper p w h -> mode_pixel (p_colorMode p) = Some (n, f) -> Z.of_nat (length data) = w * h ->
  exists ls, copy_raster_buffer bmp data p = Ok (concat ls) /\ map Ok ls = map f data.
Proof.
  intros Hp Hm Hd. pose proof (paper_pixels p w h Hp) as E3.
  assert (E2 : getPaperSizeInBytes p = Ok (n * (w * h))).
  { apply color_bytes; [exact Hp|]. destruct (p_colorMode p); try discriminate; injection Hm as <- _; auto 6. }
  set (tmp := if Z.of_nat (length bmp) =? n * (w * h) then bmp else zeros (Z.to_nat (n * (w * h)))).
  assert (L : Z.of_nat (length tmp) = n * Z.of_nat (length data)).
  { rewrite Hd. unfold tmp. destruct (Z.eqb_spec (Z.of_nat (length bmp)) (n * (w * h))); [assumption|]. unfold zeros. rewrite repeat_length. pose proof (mode_pixel_total _ _ _ 0 Hm). nia. }
  destruct (copy_all f n data tmp) as [ls [E M]]; [apply (mode_pixel_total _ _ _ 0 Hm)|intros v _; apply (mode_pixel_total _ _ _ v Hm)|exact L|].
  exists ls. split; [|exact M]. unfold copy_raster_buffer. rewrite E3. cbn [bind]. rewrite E2. cbn [bind]. fold tmp. unfold isBlack. replace (Z.to_nat (w * h)) with (length data) by lia.
  destruct (p_colorMode p); try discriminate; injection Hm as <- <-; exact E.
Qed.
Lemma cmyk2rgb_pixels : forall data ls, map Ok ls = map cmyk_pixel data -> exists ls', map Ok ls' = map rgb_pixel data /\ cmyk2rgb (concat ls) = concat ls'.
Proof.
  induction data as [|v data IH]; intros ls H.
  - destruct ls; [|discriminate]. exists []. split; reflexivity.
  - destruct ls as [|l ls]; [discriminate|]. cbn [map] in H. injection H as Hl H. destruct (IH ls H) as [ls' [E M]].
    assert (l = [bZ (max3 (RGB32_R v) (RGB32_G v) (RGB32_B v) - RGB32_R v); bZ (max3 (RGB32_R v) (RGB32_G v) (RGB32_B v) - RGB32_G v); bZ (max3 (RGB32_R v) (RGB32_G v) (RGB32_B v) - RGB32_B v);
      bZ (255 - max3 (RGB32_R v) (RGB32_G v) (RGB32_B v))]) by exact Hl. clear Hl. subst l.
    exists ([bZ (RGB32_R v); bZ (RGB32_G v); bZ (RGB32_B v)] :: ls'). split; [cbn [map]; rewrite E; reflexivity|].
    cbn [concat app cmyk2rgb]. rewrite M. destruct (component_range v) as [R [G B]]. set (m := max3 (RGB32_R v) (RGB32_G v) (RGB32_B v)). assert (Bm : 0 <= m < 256 /\ RGB32_R v <= m /\ RGB32_G v <= m /\ RGB32_B v <= m) by (unfold m, max3; lia). clearbody m.
    f_equal; [|f_equal; [|f_equal]]; apply Zb_inj; rewrite !Zb_bZ; rewrite (Z.mod_small (255 - m)) by lia; rewrite (Z.mod_small (255 - (255 - m))) by lia; rewrite (Z.mod_small (m - _)) by lia; f_equal; lia.
Qed.
(** Converting a page to CMYK and back with cmyk2rgb gives the RGB page. *)
Theorem C15_cmyk_round_trip : forall p w h data bmp bmp' cmyk, paper p w h -> Z.of_nat (length data) = w * h ->
  copy_raster_buffer bmp data (in_mode CMYK32 p) = Ok cmyk -> copy_raster_buffer bmp' data (in_mode sRGB24 p) = Ok (cmyk2rgb cmyk).
Proof.
  intros p w h data bmp bmp' cmyk Hp Hd H. destruct (copy_page (in_mode CMYK32 p) bmp data w h 4 cmyk_pixel Hp eq_refl Hd) as [ls [E M]]. assert (cmyk = concat ls) by congruence. subst cmyk.
  destruct (cmyk2rgb_pixels data ls M) as [ls' [M' C]]. destruct (copy_page (in_mode sRGB24 p) bmp' data w h 3 rgb_pixel Hp eq_refl Hd) as [ls2 [E2 M2]]. rewrite E2, C. f_equal. f_equal.
  rewrite <- M' in M2. clear - M2. revert ls' M2. induction ls2 as [|a l IH]; intros [|b l'] H; try discriminate; [reflexivity|]. cbn in H. injection H as -> H. f_equal. apply IH, H.
Qed.
(** The RGB page holds the components, in order. *)
Theorem C15_rgb_page : forall p w h data bmp, paper p w h -> Z.of_nat (length data) = w * h -> p_colorMode p = sRGB24 ->
  copy_raster_buffer bmp data p = Ok (flat_map (fun v => [bZ (red v); bZ (green v); bZ (blue v)]) data).
Proof.
  intros p w h data bmp Hp Hd Hm. destruct (copy_page p bmp data w h 3 rgb_pixel Hp ltac:(rewrite Hm; reflexivity) Hd) as [ls [E M]]. rewrite E. f_equal. rewrite flat_map_concat_map. f_equal.
  clear - M. revert ls M. induction data as [|v data IH]; intros [|l ls] H; try discriminate; [reflexivity|]. cbn [map] in H |- *. injection H as H1 H2. rewrite (IH ls H2). f_equal.
  rewrite <- red_R, <- green_G, <- blue_B. exact H1.
Qed.
(** Inverting twice is the identity and keeps the size. *)
Theorem C15_invert : forall bts, invert (invert bts) = bts /\ length (invert bts) = length bts /\ (forall i b, nth_error bts i = Some b -> exists b', nth_error (invert bts) i = Some b' /\ forall k, 0 <= k < 8 -> Z.testbit (Zb b') k = negb (Z.testbit (Zb b) k)).
Proof.
  intros bts. split; [|split].
  - unfold invert. rewrite map_map. rewrite <- (map_id bts) at 2. apply map_ext. intros b. apply Zb_inj. rewrite !Zb_bZ. pose proof (Zb_range b). lia.
  - apply map_length.
  - intros i b H. exists (compl b). split; [unfold invert; rewrite nth_error_map, H; reflexivity|]. intros k Hk. apply testbit_compl. exact Hk.
Qed.

(** ** C51: the document stream *)
(** What is drawn for an entry of the page sequence: nothing for a blank page *)
Inductive placed (r : renderer) (p : params) : Z -> option (Z * placement) -> Prop :=
| placed_blank : placed r p 0 None
| placed_page n w h t : n <> 0 -> r_size r n = (w, h) -> fixup_scale w h p = Ok t -> placed r p n (Some (n, t)).
(** [b]: the bytes of the [i]-th page of the output, which shows page [n] *)
Inductive page_bytes (r : renderer) (p : params) (i n : Z) : list byte -> Prop :=
| page_raster place data bmp b : (p_format p = PWG \/ p_format p = URF) -> placed r p n place -> r_draw r i place = Some data ->
    copy_raster_buffer [] data p = Ok bmp -> bmp_to_pwg bmp i p = Ok b -> page_bytes r p i n b
| page_vector place data : p_format p <> PWG -> p_format p <> URF -> placed r p n place -> r_draw r i place = Some data -> page_bytes r p i n (r_stream r i place).
(** the pages from the [i]-th on *)
Inductive pages_bytes (r : renderer) (p : params) : Z -> list Z -> list (list byte) -> Prop :=
| pages_none i : pages_bytes r p i [] []
| pages_more i n seq b bs : page_bytes r p i n b -> pages_bytes r p (i + 1) seq bs -> pages_bytes r p i (n :: seq) (b :: bs).
(** The callbacks for pages [bs], the first of which is the [i]-th, with [pre] still to be
    written before them *)
Fixpoint callbacks (pre : list byte) (i total : Z) (bs : list (list byte)) : list event :=
  match bs with
  | [] => []
  | b :: bs => Wrote (pre ++ b) :: Progress i total :: callbacks [] (i + 1) total bs
  end.
Definition file_header (p : params) (pages : Z) : list byte :=
  match p_format p with URF => make_urf_file_hdr pages | PWG => make_pwg_file_hdr | _ => [] end.
(** cairo's image surface has the size of the paper *)
Definition surfaces (r : renderer) (p : params) : Prop := (p_format p = PWG \/ p_format p = URF) ->
  exists w h, paper p w h /\ forall i place data, r_draw r i place = Some data -> Z.of_nat (length data) = w * h.

Lemma C51_fresh_buffer p bmp data w h : paper p w h -> Z.of_nat (length data) = w * h -> copy_raster_buffer bmp data p = copy_raster_buffer [] data p.
Proof.
  intros Hp Hd. destruct (mode_pixel (p_colorMode p)) as [[n f]|] eqn:Hm.
  - destruct (copy_page p bmp data w h n f Hp Hm Hd) as [l [E M]]. destruct (copy_page p [] data w h n f Hp Hm Hd) as [l' [E' M']]. rewrite E, E'. f_equal. f_equal. rewrite <- M' in M.
    clear - M. revert l' M. induction l as [|a l IH]; intros [|b l'] H; try discriminate; [reflexivity|]. cbn in H. injection H as -> H. f_equal. apply IH, H.
  - pose proof (paper_pixels p w h Hp) as E3. destruct (p_colorMode p) eqn:Hc; try discriminate; unfold copy_raster_buffer; rewrite E3; cbn [bind]; (destruct (getPaperSizeInBytes p) as [b| | | |] eqn:Eb; cbn [bind]; try reflexivity); rewrite Hc; try reflexivity;
    (assert (L : length (if Z.of_nat (length bmp) =? b then bmp else zeros (Z.to_nat b)) = length (if Z.of_nat (length (@nil byte)) =? b then [] else zeros (Z.to_nat b)));
     [|rewrite L; reflexivity]); pose proof (paper_bytes p w h Hp ltac:(rewrite Hc; exact I)) as [_ E2]; assert (b = (w + 7) / 8 * h) by congruence;
     (assert (0 <= b) by (destruct Hp as [_ [_ [? [? _]]]]; nia)); cbn [length]; unfold zeros; destruct (Z.eqb_spec (Z.of_nat (length bmp)) b); destruct (Z.eqb_spec (Z.of_nat 0) b); rewrite ?repeat_length; cbn [length]; lia.
Qed.
Lemma raster_spec p : is_raster p = true <-> (p_format p = PWG \/ p_format p = URF).
Proof. unfold is_raster. destruct (p_format p); split; intros H; try discriminate; auto; destruct H; discriminate. Qed.
Lemma print_pages_ok r wr p total : surfaces r p -> forall seq i bmp outBts seen ev err rest, print_pages r wr p total seq i bmp outBts seen = Ok (ev, err, rest) ->
  exists bs, match err with
  | None => pages_bytes r p (i + 1) seq bs /\ ev = seen ++ callbacks outBts (i + 1) total bs /\ rest = (match seq with [] => outBts | _ => [] end)
  | Some e => exists sq n sq' , seq = sq ++ n :: sq' /\ pages_bytes r p (i + 1) sq bs /\
      ((e = "Cairo error"%string /\ ev = seen ++ callbacks outBts (i + 1) total bs) \/
       (e = "Write error"%string /\ exists b pre, page_bytes r p (i + 1 + Z.of_nat (length sq)) n b /\ pre = (match sq with [] => outBts | _ => [] end) /\ ev = seen ++ callbacks outBts (i + 1) total bs ++ [Wrote (pre ++ b)])) end /\
  (forall a b c, ev = seen ++ a ++ Wrote b :: c -> (wr (seen ++ a) b = false <-> c = [] /\ err = Some "Write error"%string)).
Proof.
  intros Hsurf. induction seq as [|n seq IH]; intros i bmp outBts seen ev err rest H; cbn [print_pages] in H.
  - injection H as <- <- <-. exists []. split; [split; [constructor|]; split; [cbn; rewrite app_nil_r; reflexivity|reflexivity]|].
    intros a b c E. exfalso. apply (f_equal (@length event)) in E. rewrite !app_length in E. cbn in E. lia.
  - bind_inv H as place Hplace H2. assert (PL : placed r p n place).
    { destruct (Z.eqb_spec n INVALID_PAGE) as [E|E]; [rewrite E; injection Hplace as <-; constructor|]. destruct (r_size r n) as [w h] eqn:Hs. bind_inv Hplace as t Ht K. injection K as <-. econstructor; [exact E|exact Hs|exact Ht]. }
    destruct (r_draw r (i + 1) place) as [data|] eqn:Hd.
    2:{ injection H2 as <- <- <-. exists []. split.
        - exists [], n, seq. split; [reflexivity|]. split; [constructor|]. left. split; [reflexivity|]. cbn. rewrite app_nil_r. reflexivity.
        - intros a b c E. exfalso. apply (f_equal (@length event)) in E. rewrite !app_length in E. cbn in E. lia. }
    bind_inv H2 as q Hq H3. destruct q as [bmp1 out1].
    assert (PB : exists b, out1 = outBts ++ b /\ page_bytes r p (i + 1) n b).
    { destruct (is_raster p) eqn:Hr.
      - pose proof (proj1 (raster_spec p) Hr) as Hf. destruct (Hsurf Hf) as [w [h [Hp Hl]]]. bind_inv Hq as bmp2 Hb K. bind_inv K as pg Hpg K2. injection K2 as <- <-. exists pg. split; [reflexivity|].
        rewrite (C51_fresh_buffer p bmp data w h Hp (Hl _ _ _ Hd)) in Hb. econstructor; eassumption.
      - injection Hq as <- <-. eexists. split; [reflexivity|]. assert (NR : ~ (p_format p = PWG \/ p_format p = URF)) by (rewrite <- raster_spec, Hr; discriminate).
        eapply page_vector; [intros F; apply NR; auto|intros F; apply NR; auto|exact PL|exact Hd]. }
    destruct PB as [b [-> PB]]. destruct (wr seen (outBts ++ b)) eqn:Hw.
    + apply IH in H3. destruct H3 as [bs [R W]]. exists (b :: bs). split.
      * destruct err as [e|].
        -- destruct R as [sq [m [sq' [E1 [E2 E3]]]]]. exists (n :: sq), m, sq'. split; [rewrite E1; reflexivity|]. split; [constructor; assumption|]. destruct E3 as [[E3 E4]|[E3 [b' [pre [P1 [P2 P3]]]]]].
           ++ left. split; [exact E3|]. rewrite E4. cbn [callbacks]. rewrite <- app_assoc. reflexivity.
           ++ right. split; [exact E3|]. exists b', pre. split; [cbn [length]; replace (i + 1 + Z.of_nat (S (length sq))) with (i + 1 + 1 + Z.of_nat (length sq)) by lia; exact P1|].
              split; [destruct sq; exact P2|]. rewrite P3. cbn [callbacks]. rewrite <- !app_assoc. reflexivity.
        -- destruct R as [E1 [E2 E3]]. split; [constructor; assumption|]. split; [rewrite E2; cbn [callbacks]; rewrite <- app_assoc; reflexivity|]. rewrite E3. destruct seq; reflexivity.
      * intros a b0 c E. assert (EV : exists t, ev = seen ++ Wrote (outBts ++ b) :: Progress (i + 1) total :: t).
        { destruct err as [e|].
          - destruct R as [sq [m [sq' [_ [_ [[_ E3]|[_ [b' [pre [_ [_ E3]]]]]]]]]]]; rewrite E3, <- app_assoc; cbn [app]; eexists; reflexivity.
          - destruct R as [_ [E3 _]]. rewrite E3, <- app_assoc. cbn [app]. eexists. reflexivity. }
        destruct EV as [t EV]. rewrite EV in E. apply app_inv_head in E. destruct a as [|a0 [|a1 a]].
        -- cbn [app] in E. injection E as E1 E2. subst b0 c. rewrite app_nil_r, Hw. split; [discriminate|]. intros [F _]. discriminate.
        -- cbn [app] in E. discriminate.
        -- cbn [app] in E. injection E as <- <- E. specialize (W a b0 c). rewrite <- !app_assoc in W. cbn [app] in W. apply W. rewrite EV. rewrite E. reflexivity.
    + injection H3 as <- <- <-. exists []. split.
      * exists [], n, seq. split; [reflexivity|]. split; [constructor|]. right. split; [reflexivity|]. exists b, outBts. cbn [length]. rewrite Z.add_0_r. split; [exact PB|]. split; [reflexivity|]. reflexivity.
      * intros a b0 c E. apply app_inv_head in E. destruct a as [|a0 [|a1 a]]; cbn [app] in E; [|discriminate|discriminate]. injection E as <- <-. rewrite app_nil_r. split; [auto|auto].
Qed.
Definition leftover (r : renderer) (p : params) (pre : list byte) : list byte := pre ++ match p_format p with PWG | URF => [] | _ => r_finish r end.
(** The callbacks of a job: for every page in order one write and one progress report; the
    header precedes the first page and carries the number of pages.  If there are no pages
    (and for PDF and Postscript, if cairo has more to write) there is a last write.  A
    job that succeeds has done all of it; a job that fails in page [n] has done it for the
    pages before, and in case of a write error offered that page, last. *)
Theorem C51_stream : forall r wr p pages seq ev res, r_pages r = Some pages -> getPageSequence p pages = Ok seq -> surfaces r p -> p_format p <> Invalid ->
  (p_format p = URF -> p_hwResW p = p_hwResH p) -> pdf_to_printable r wr p = Ok (ev, res) ->
  let total := Z.of_nat (length seq) in let hdr := file_header p total in
  exists bs, match res with
  | None => pages_bytes r p 1 seq bs /\ let rest := leftover r p (match seq with [] => hdr | _ => [] end) in
      ev = callbacks hdr 1 total bs ++ match rest with [] => [] | _ => [Wrote rest] end
  | Some e => (exists sq n sq', seq = sq ++ n :: sq' /\ pages_bytes r p 1 sq bs /\
      ((e = "Cairo error"%string /\ ev = callbacks hdr 1 total bs) \/
       (e = "Write error"%string /\ exists b, page_bytes r p (1 + Z.of_nat (length sq)) n b /\ ev = callbacks hdr 1 total bs ++ [Wrote ((match sq with [] => hdr | _ => [] end) ++ b)]))) \/
      (e = "Write error"%string /\ pages_bytes r p 1 seq bs /\ ev = callbacks hdr 1 total bs ++ [Wrote (leftover r p (match seq with [] => hdr | _ => [] end))]) end.
Proof.
  intros r wr p pages seq ev res Hpg Hseq Hs Hf Hu H total hdr. unfold pdf_to_printable in H.
  assert (U : match p_format p with URF => negb (p_hwResW p =? p_hwResH p) | _ => false end = false) by (destruct (p_format p) eqn:F; try reflexivity; rewrite (Hu eq_refl), Z.eqb_refl; reflexivity).
  rewrite U, Hpg, Hseq in H. cbn [bind] in H. fold total in H. bind_inv H as out0 Ho H1.
  assert (out0 = hdr).
  { unfold hdr, file_header, is_raster in *. destruct (p_format p); try (injection Ho as <-; reflexivity); bind_inv Ho as a A1 A2; bind_inv A2 as c A3 A4; injection A4 as <-; reflexivity. }
  subst out0. assert (M : exists q, print_pages r wr p total seq 0 [] hdr [] = Ok q /\ (let '(seen, err, outBts) := q in match err with Some e => Ok (seen, Some e) | None =>
     let outBts := if is_raster p then outBts else outBts ++ r_finish r in match outBts with [] => Ok (seen, None) | _ => if wr seen outBts then Ok (seen ++ [Wrote outBts], None) else Ok (seen ++ [Wrote outBts], Some "Write error"%string) end end) = Ok (ev, res)).
  { destruct (p_format p) eqn:F; try contradiction; (bind_inv H1 as q Q1 Q2; exists q; split; [exact Q1|exact Q2]). }
  destruct M as [[[seen err] rest0] [Q1 Q2]]. apply print_pages_ok in Q1; [|exact Hs]. destruct Q1 as [bs [R W]]. exists bs. destruct err as [e|].
  - injection Q2 as <- <-. left. destruct R as [sq [n [sq' [E1 [E2 E3]]]]]. exists sq, n, sq'. split; [exact E1|]. split; [exact E2|]. destruct E3 as [[E3 E4]|[E3 [b [pre [P1 [P2 P3]]]]]].
    + left. split; [exact E3|exact E4].
    + right. split; [exact E3|]. exists b. split; [exact P1|]. rewrite P3, P2. reflexivity.
  - destruct R as [E1 [E2 E3]]. cbn [app] in E2. cbv zeta in Q2.
    assert (LO : (if is_raster p then rest0 else rest0 ++ r_finish r) = leftover r p (match seq with [] => hdr | _ => [] end)).
    { unfold leftover, is_raster. rewrite <- E3. destruct (p_format p); rewrite ?app_nil_r; reflexivity. }
    rewrite LO in Q2. destruct (leftover r p (match seq with [] => hdr | _ => [] end)) as [|x l] eqn:EL.
    + injection Q2 as <- <-. split; [exact E1|]. cbv zeta. rewrite app_nil_r. exact E2.
    + destruct (wr seen (x :: l)); injection Q2 as <- <-.
      * split; [exact E1|]. cbv zeta. rewrite E2. reflexivity.
      * right. split; [reflexivity|]. split; [exact E1|]. rewrite E2. reflexivity.
Qed.
(** A write fails exactly if it is the last callback of a job that ends with a write
    error; so after a failing write nothing more is written or reported. *)
Theorem C51_first_failure : forall r wr p ev res, surfaces r p -> pdf_to_printable r wr p = Ok (ev, res) ->
  forall a b c, ev = a ++ Wrote b :: c -> (wr a b = false <-> c = [] /\ res = Some "Write error"%string).
Proof.
  intros r wr p ev res Hs H a b c E. unfold pdf_to_printable in H.
  assert (N : forall s, @Ok (list event * option string) ([], s) = Ok (ev, res) -> wr a b = false <-> c = [] /\ res = Some "Write error"%string).
  { intros s K. injection K as <- <-. destruct a; discriminate. }
  destruct (match p_format p with URF => negb (p_hwResW p =? p_hwResH p) | _ => false end); [apply N in H; exact H|].
  destruct (r_pages r) as [pages|]; [|apply N in H; exact H]. bind_inv H as seq Hseq H. bind_inv H as out0 Ho H1.
  assert (D : p_format p = Invalid \/ exists q, print_pages r wr p (Z.of_nat (length seq)) seq 0 [] out0 [] = Ok q /\ (let '(seen, err, outBts) := q in match err with Some e => Ok (seen, Some e) | None =>
     let outBts := if is_raster p then outBts else outBts ++ r_finish r in match outBts with [] => Ok (seen, None) | _ => if wr seen outBts then Ok (seen ++ [Wrote outBts], None) else Ok (seen ++ [Wrote outBts], Some "Write error"%string) end end) = Ok (ev, res)).
  { destruct (p_format p) eqn:F; try (right; bind_inv H1 as q Q1 Q2; exists q; split; [exact Q1|exact Q2]). left. reflexivity. }
  destruct D as [D|[[[seen err] rest0] [Q1 Q2]]]; [rewrite D in H1; apply N in H1; exact H1|].
  apply print_pages_ok in Q1; [|exact Hs]. destruct Q1 as [bs [R W]]. destruct err as [e|].
  - injection Q2 as <- <-. apply (W a b c E).
  - cbv zeta in Q2. set (lo := if is_raster p then rest0 else rest0 ++ r_finish r) in *. clearbody lo. destruct lo as [|x l].
    + injection Q2 as <- <-. apply (W a b c E).
    + destruct (wr seen (x :: l)) eqn:Hw; injection Q2 as <- <-.
      * destruct c as [|y c].
        -- apply app_inj_tail in E. destruct E as [<- E]. injection E as <-. rewrite Hw. split; [discriminate|]. intros [_ K]. discriminate.
        -- destruct (exists_last (l := y :: c)) as [c' [z Ez]]; [discriminate|]. rewrite Ez in E. change (a ++ Wrote b :: c' ++ [z]) with (a ++ (Wrote b :: c') ++ [z]) in E. rewrite app_assoc in E. apply app_inj_tail in E. destruct E as [E _].
           specialize (W a b c' E). rewrite app_nil_l in W. rewrite W. split; intros [_ K]; discriminate.
      * destruct c as [|y c].
        -- apply app_inj_tail in E. destruct E as [<- E]. injection E as <-. rewrite Hw. split; [auto|auto].
        -- destruct (exists_last (l := y :: c)) as [c' [z Ez]]; [discriminate|]. rewrite Ez in E. change (a ++ Wrote b :: c' ++ [z]) with (a ++ (Wrote b :: c') ++ [z]) in E. rewrite app_assoc in E. apply app_inj_tail in E. destruct E as [E _].
           specialize (W a b c' E). rewrite app_nil_l in W. rewrite W. split; intros [K1 K2]; discriminate.
Qed.

(** ** Examples *)
Definition small_paper (m : color_mode) (f : fmt) (w h : Z) : params :=
  {| p_format := f; p_colorMode := m; p_quality := DefaultQuality; p_antiAlias := false; p_paperSizeName := "small"; p_hwResW := 300; p_hwResH := 300; p_units := Pixels;
     p_sizeW := fofZ w; p_sizeH := fofZ h; p_duplexMode := TwoSidedLongEdge; p_backXform := Rotated; p_copies := 2; p_collated := true; p_pageRanges := [(1, 1)]; p_mediaPosition := 0; p_mediaType := "" |}.
Definition K := 0. Definition W := 16777215.
Example C52_example : let p := small_paper Gray1 PWG 10 2 in let data := [K; W; W; K; K; W; K; W; W; K;  W; W; W; W; W; W; W; W; K; W] in
  paper p 10 2 /\ Z.of_nat (length data) = 10 * 2 /\ (forall v, In v data -> is_white v \/ is_black v) /\
  copy_raster_buffer [] data p = Ok [bZ 101; bZ 191; bZ 255; bZ 127] /\ copy_raster_buffer [] data (in_mode Black1 p) = Ok [bZ 154; bZ 64; bZ 0; bZ 128].
Proof.
  cbv zeta. split; [split; [vm_compute; reflexivity|]; split; [vm_compute; reflexivity|]; lia|]. split; [reflexivity|]. split.
  - assert (F : forallb (fun v => (v =? K) || (v =? W)) [K; W; W; K; K; W; K; W; W; K;  W; W; W; W; W; W; W; W; K; W] = true) by (vm_compute; reflexivity). rewrite forallb_forall in F.
    intros v Hv. specialize (F v Hv). apply orb_prop in F. destruct F as [F|F]; apply Z.eqb_eq in F; subst v; [right|left]; (split; [reflexivity|]; split; reflexivity).
  - split; vm_compute; reflexivity.
Qed.
(** a grey page: 128 dithers to dots *)
Example C52_example_gray : copy_raster_buffer [] (repeat (neutral 128) 32) (small_paper Gray1 PWG 16 2) = Ok [bZ 85; bZ 85; bZ 85; bZ 85].
Proof. vm_compute. reflexivity. Qed.
Example C53_example : gray_pixel false (200 * 65536 + 100 * 256 + 50) = Ok [bZ 124] /\ gray_pixel true (200 * 65536 + 100 * 256 + 50) = Ok [bZ 130] /\ gray_pixel false W = Ok [bZ 255].
Proof. vm_compute. auto. Qed.
Example C15_example : let p := small_paper CMYK32 PWG 2 1 in let data := [200 * 65536 + 100 * 256 + 50; W] in paper p 2 1 /\
  copy_raster_buffer [] data p = Ok (map bZ [0; 100; 150; 55; 0; 0; 0; 0]) /\ cmyk2rgb (map bZ [0; 100; 150; 55; 0; 0; 0; 0]) = map bZ [200; 100; 50; 255; 255; 255].
Proof. cbv zeta. split; [split; [vm_compute; reflexivity|]; split; [vm_compute; reflexivity|]; lia|]. split; vm_compute; reflexivity. Qed.
(** a document of three pages, of which the first is printed twice on duplex paper *)
Definition example_doc : renderer := {| r_pages := Some 3; r_size := fun _ => (fofZ 2, fofZ 2); r_draw := fun i place => Some (match place with None => [W; W] | Some (n, _) => [n; n] end);
  r_stream := fun i _ => [bZ i]; r_finish := [bZ 0] |}.
Definition accept : writer := fun _ _ => true.
Definition accept_once : writer := fun seen _ => match seen with [] => true | _ => false end.
Definition summary_of (x : outcome (list event * option string)) : list (Z * Z) * option string :=
  match x with
  | Ok (ev, res) => (map (fun e => match e with Wrote b => (-1, Z.of_nat (length b)) | Progress a t => (a, t) end) ev, res)
  | _ => ([], None)
  end.
Example C51_example : let p := small_paper sRGB24 URF 2 1 in getPageSequence p 3 = Ok [1; 0; 1; 0] /\ surfaces example_doc p /\
  summary_of (pdf_to_printable example_doc accept p) = ([(-1, 49); (1, 4); (-1, 37); (2, 4); (-1, 37); (3, 4); (-1, 37); (4, 4)], None) /\
  summary_of (pdf_to_printable example_doc accept_once p) = ([(-1, 49); (1, 4); (-1, 37)], Some "Write error"%string).
Proof.
  cbv zeta. split; [vm_compute; reflexivity|]. split.
  - intros _. exists 2, 1. split; [split; [vm_compute; reflexivity|]; split; [vm_compute; reflexivity|]; lia|]. intros i [[n t]|] data H; injection H as <-; reflexivity.
  - split; vm_compute; reflexivity.
Qed.
Print Assumptions C15_cmyk_round_trip.
Print Assumptions C15_rgb_page.
Print Assumptions C15_invert.
Print Assumptions C51_stream.
Print Assumptions C51_first_failure.
Print Assumptions C52_defined_partial.
Print Assumptions C52_black_and_white.
Print Assumptions C52_complement.
Print Assumptions C52_overflow_refuted.
Print Assumptions C53_gray_partial.
Print Assumptions C53_black_partial.
Print Assumptions C53_extremes.
Print Assumptions C53_neutral_refuted.
Print Assumptions C53_neutral_black.
