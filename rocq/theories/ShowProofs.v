(** Lemmas for C84: from the pixels of a rendered page to the samples of the file pwg2ppm
    writes for it. *)
From Verif Require Import Base BaseLemmas ListLemmas FloatModel StringModel StringProofs ParamsModel RasterModel HeaderModel
  HeaderSpec HeaderProofs PpmModel PpmSpec PpmProofs RasterSpec RasterEncProofs RasterDecProofs GeometryProofs PageProofs.
From Coq Require Import Lia ZifyBool ZifyNat.
Local Open Scope Z_scope.

(** ** Pixels in lists *)
Lemma unit_of_concat {A} c (us : list (list A)) k d : Forall (fun u => length u = c) us -> (k < length us)%nat ->
  firstn c (skipn (k * c) (concat us)) = nth k us d.
Proof.
  revert k. induction us as [|u us IH]; intros k Hf Hk; [cbn in Hk; lia|]. inversion Hf as [|? ? Hu Hus]; subst. cbn [concat].
  destruct k as [|k]; cbn [nth].
  - cbn [Nat.mul skipn]. rewrite firstn_app, Nat.sub_diag, firstn_all. cbn. apply app_nil_r.
  - replace (S k * length u)%nat with (length u + k * length u)%nat by lia.
    rewrite <- skipn_skipn, skipn_app, Nat.sub_diag, (skipn_all u). cbn [app skipn]. apply IH; [exact Hus|cbn in Hk; lia].
Qed.
(** the image [h] x [w] pixels make *)
Fixpoint rows {A} (h w : nat) (l : list A) : list (list A) :=
  match h with O => [] | S h => firstn w l :: rows h w (skipn w l) end.
Lemma rows_concat {A} h w : forall l : list A, length l = (h * w)%nat -> concat (rows h w l) = l.
Proof.
  induction h as [|h IH]; intros l Hl; cbn [rows concat].
  - destruct l; [reflexivity|discriminate].
  - rewrite IH by (rewrite skipn_length; lia). apply firstn_skipn.
Qed.
Lemma rows_size {A} h w : forall l : list A, length l = (h * w)%nat -> length (rows h w l) = h /\ Forall (fun r => length r = w) (rows h w l).
Proof.
  induction h as [|h IH]; intros l Hl; cbn [rows length]; [split; constructor|].
  destruct (IH (skipn w l)) as [H1 H2]; [rewrite skipn_length; lia|]. split; [lia|]. constructor; [rewrite firstn_length; lia|exact H2].
Qed.
Lemma nth_concat_rows {A} w (rs : list (list A)) x y d : Forall (fun r => length r = w) rs -> (x < w)%nat -> (y < length rs)%nat ->
  nth (y * w + x) (concat rs) d = nth x (nth y rs []) d.
Proof.
  revert y. induction rs as [|r rs IH]; intros y Hf Hx Hy; [cbn in Hy; lia|]. inversion Hf as [|? ? Hr Hrs]; subst. cbn [concat].
  destruct y as [|y]; cbn [nth].
  - cbn [Nat.mul Nat.add]. apply app_nth1. exact Hx.
  - rewrite app_nth2 by lia. replace (S y * length r + x - length r)%nat with (y * length r + x)%nat by lia. apply IH; [exact Hrs|exact Hx|cbn in Hy; lia].
Qed.
Lemma flat_units (img : image) : flat img = concat (concat img).
Proof. unfold flat. induction img as [|l img IH]; [reflexivity|]. cbn [map concat]. rewrite IH, concat_app. reflexivity. Qed.
Lemma image_units c w h (img : image) : image_of_size c w h img ->
  Forall (fun u => length u = c) (concat img) /\ length (concat img) = (h * w)%nat /\ Forall (fun r : list (list byte) => length r = w) img.
Proof.
  intros [Hh Hf]. split; [|split].
  - clear Hh. induction Hf as [|l img [Hl Hp] _ IH]; [constructor|]. cbn [concat]. apply Forall_app. split; assumption.
  - subst h. induction Hf as [|l img [Hl Hp] _ IH]; [reflexivity|]. cbn [concat length]. rewrite app_length, IH, Hl. lia.
  - eapply Forall_impl; [|exact Hf]. intros a [H _]. exact H.
Qed.
Lemma image_pixel c w h (img : image) x y : image_of_size c w h img -> (x < w)%nat -> (y < h)%nat ->
  pixel_at img x y = nth (y * w + x) (concat img) [].
Proof.
  intros Hi Hx Hy. destruct (image_units _ _ _ _ Hi) as (_ & _ & Hr). destruct Hi as [Hh _]. unfold pixel_at. symmetry.
  apply nth_concat_rows; [exact Hr|exact Hx|lia].
Qed.
Lemma rows_image c w h us : Forall (fun u : list byte => length u = c) us -> length us = (h * w)%nat -> image_of_size c w h (rows h w us).
Proof.
  intros Hf Hl. destruct (rows_size h w us Hl) as [H1 H2]. split; [exact H1|].
  rewrite <- (rows_concat h w us Hl) in Hf. clear Hl H1. induction (rows h w us) as [|r rs IH]; [constructor|].
  cbn [concat] in Hf. apply Forall_app in Hf. inversion H2; subst. constructor; [split; [reflexivity|apply Hf]|]. apply IH; [apply Hf|assumption].
Qed.
(** A sample of the transformed page is the pixel of the original at the mirrored place *)
Lemma turned_pixel hm vm c w h (us : list (list byte)) x y : Forall (fun u : list byte => length u = c) us -> length us = (h * w)%nat -> (x < w)%nat -> (y < h)%nat ->
  nth (y * w + x) (concat (xform false hm vm (rows h w us))) [] =
  nth ((if vm then h - 1 - y else y) * w + (if hm then w - 1 - x else x)) us [].
Proof.
  intros Hf Hl Hx Hy. pose proof (rows_image c w h us Hf Hl) as Hi.
  assert (He : image_of_size c w h (xform false hm vm (rows h w us))) by (apply (xform_size false hm vm w h c); [exact Hi|discriminate]).
  set (x' := (if hm then w - 1 - x else x)%nat). set (y' := (if vm then h - 1 - y else y)%nat).
  assert (Hx' : (x' < w)%nat) by (unfold x'; destruct hm; lia). assert (Hy' : (y' < h)%nat) by (unfold y'; destruct vm; lia).
  rewrite <- (image_pixel c w h _ x y He Hx Hy).
  pose proof (xform_mirrored hm vm w h c (rows h w us) Hi x' y' Hx' Hy') as M.
  replace (if hm then w - 1 - x' else x')%nat with x in M by (unfold x'; destruct hm; lia).
  replace (if vm then h - 1 - y' else y')%nat with y in M by (unfold y'; destruct vm; lia).
  rewrite <- M, (image_pixel c w h _ x' y' Hi Hx' Hy'), (rows_concat h w us Hl). reflexivity.
Qed.

(** ** CMYK samples *)
Lemma cmyk_units us : Forall (fun u : list byte => length u = 4%nat) us -> cmyk2rgb (concat us) = concat (map cmyk2rgb us) /\ Forall (fun u : list byte => length u = 3%nat) (map cmyk2rgb us).
Proof.
  induction 1 as [|u us Hu _ [IH1 IH2]]; [split; constructor|]. destruct u as [|a [|b [|c [|d [|e u]]]]]; try discriminate.
  cbn [concat map app cmyk2rgb]. rewrite IH1. split; [reflexivity|]. constructor; [reflexivity|exact IH2].
Qed.

(** ** A page written and decoded *)
Definition plain (m : color_mode) : Prop := m = sRGB24 \/ m = CMYK32 \/ m = Gray8.
Definition colors_of (m : color_mode) : Z := match m with sRGB24 => 3 | CMYK32 => 4 | _ => 1 end.
Definition turns (p : params) (page : Z) : bool * bool :=
  if back_side (p_duplexMode p) page then back_transform (p_duplexMode p) (p_backXform p) else (false, false).
Lemma plain_facts p W : plain (p_colorMode p) -> 0 <= W -> Z.of_nat (unit_bytes (p_colorMode p)) = colors_of (p_colorMode p) /\ line_units (p_colorMode p) (Z.to_nat W) = Z.to_nat W /\
  line_bytes (p_colorMode p) W = W * colors_of (p_colorMode p) /\ getNumberOfColors p = colors_of (p_colorMode p) /\ getBitsPerColor p = 8 /\ one_bit (p_colorMode p) = false.
Proof.
  intros [H|[H|H]] HW; unfold getNumberOfColors, getBitsPerColor; rewrite H; repeat split; unfold line_bytes; cbn [mode_colors mode_bits colors_of]; lia.
Qed.
Lemma pwg_page_dec p page W H (img : image) :
  sane_geometry p -> params_in_range p -> fits_field (p_mediaType p) -> fits_field (p_paperSizeName p) ->
  getPaperSizeWInPixels p = Ok W -> getPaperSizeHInPixels p = Ok H -> W < 2 ^ 29 -> H < 2 ^ 32 -> plain (p_colorMode p) -> p_format p = PWG ->
  image_of_size (unit_bytes (p_colorMode p)) (Z.to_nat W) (Z.to_nat H) img ->
  exists h body, bmp_to_pwg (flat img) page p = Ok (encode_pwg_hdr h ++ body) /\
    (forall rest, decode_pwg_hdr (encode_pwg_hdr h ++ rest) = Ok (h, rest)) /\
    (forall rest, raster_to_bmp (body ++ rest) (h_BytesPerLine h) (h_Height h) (h_NumColors h) false = Ok (flat (xform false (fst (turns p page)) (snd (turns p page)) img), rest)) /\
    h_Width h = W /\ h_Height h = H /\ h_NumColors h = colors_of (p_colorMode p) /\ h_BitsPerColor h = 8.
Proof.
  intros Hs HR F1 F2 HW HH BW BH Hm Hf Hi. destruct (sane_bounds _ _ _ Hs HW HH) as [HWb HHb].
  destruct (plain_facts p W Hm (proj1 HWb)) as (E1 & E2 & E3 & E4 & E5 & E6).
  assert (Hc3 : 1 <= colors_of (p_colorMode p) <= 4) by (destruct Hm as [M|[M|M]]; rewrite M; cbn; lia).
  assert (Hlb : line_bytes (p_colorMode p) W < 2147483648) by (rewrite E3; nia).
  destruct (sane_page None p page W H img [] Hs HW HH) as (hdr & body & Hh & Hl & Hb & Hc); [rewrite E2; exact Hi|exact Hlb|congruence|].
  rewrite app_nil_r in Hb. rewrite E2, E6 in Hc. fold (turns p page) in Hc.
  unfold page_header in Hh. rewrite Hf in Hh. unfold make_pwg_hdr in Hh.
  destruct (pwg_hdr_of p (back_side (p_duplexMode p) page)) as [h| | | |] eqn:Eh; try discriminate. inversion Hh; subst hdr; clear Hh.
  exists h, body. split; [exact Hb|].
  split; [intros rest; apply decode_encode_pwg; apply (pwg_hdr_of_wf p (back_side (p_duplexMode p) page)); auto|].
  destruct (pwg_hdr_of_inv _ _ _ Eh) as (psx & psy & W' & H' & bpl & _ & _ & _ & _ & EW & EH & Ebpl & _ & _ & K3 & K4 & K5).
  rewrite HW in EW. rewrite HH in EH. inversion EW; inversion EH; subst W' H'; clear EW EH.
  rewrite (bytes_per_line p W) in Ebpl by (assumption || lia). inversion Ebpl; subst bpl; clear Ebpl. rewrite E1, E2 in K5.
  unfold two32 in *. rewrite Z.mod_small in K3 by lia. rewrite Z.mod_small in K4 by lia. rewrite Z.mod_small in K5 by nia.
  assert (K6 : h_NumColors h = getNumberOfColors p /\ h_BitsPerColor h = getBitsPerColor p).
  { unfold pwg_hdr_of in Eh.
    destruct (round_u32 (getPaperSizeWInPoints p)); try discriminate. cbn [bind] in Eh.
    destruct (round_u32 (getPaperSizeHInPoints p)); try discriminate. cbn [bind] in Eh.
    rewrite HW, HH in Eh. cbn [bind] in Eh. destruct (getPaperSizeWInBytes p); try discriminate.
    inversion Eh. split; reflexivity. }
  destruct K6 as [K6 K7]. rewrite K3, K4, K5, K6, K7, E4, E5. split; [|auto].
  intros rest. set (enc := xform false (fst (turns p page)) (snd (turns p page)) img) in *.
  assert (Hle : length enc = Z.to_nat H).
  { destruct (xform_size false (fst (turns p page)) (snd (turns p page)) _ _ _ img Hi) as [L _]; [discriminate|exact L]. }
  rewrite <- E1. replace H with (Z.of_nat (length enc)) by lia. apply (raster_to_bmp_ok _ _ None); [apply unit_pos|exact I|exact Hc|unfold two64; lia].
Qed.
Lemma urf_page_dec p page W H (img : image) :
  sane_geometry p -> params_in_range p -> urf_expressible p ->
  getPaperSizeWInPixels p = Ok W -> getPaperSizeHInPixels p = Ok H -> W < 2 ^ 29 -> H < 2 ^ 32 -> plain (p_colorMode p) -> p_format p = URF ->
  image_of_size (unit_bytes (p_colorMode p)) (Z.to_nat W) (Z.to_nat H) img ->
  exists h body, bmp_to_pwg (flat img) page p = Ok (encode_urf_hdr h ++ body) /\
    (forall rest, decode_urf_hdr (encode_urf_hdr h ++ rest) = Ok (h, rest)) /\
    (forall rest, raster_to_bmp (body ++ rest) ((u_Width h * (u_BitsPerPixel h / 8)) mod two32) (u_Height h) (u_BitsPerPixel h / 8) true
       = Ok (flat (xform false (fst (turns p page)) (snd (turns p page)) img), rest)) /\
    u_Width h = W /\ u_Height h = H /\ u_BitsPerPixel h / 8 = colors_of (p_colorMode p).
Proof.
  intros Hs HR Hx HW HH BW BH Hm Hf Hi. destruct (sane_bounds _ _ _ Hs HW HH) as [HWb HHb].
  destruct (plain_facts p W Hm (proj1 HWb)) as (E1 & E2 & E3 & E4 & E5 & E6).
  assert (Hc3 : 1 <= colors_of (p_colorMode p) <= 4) by (destruct Hm as [M|[M|M]]; rewrite M; cbn; lia).
  assert (Hlb : line_bytes (p_colorMode p) W < 2147483648) by (rewrite E3; nia).
  destruct (sane_page None p page W H img [] Hs HW HH) as (hdr & body & Hh & Hl & Hb & Hc); [rewrite E2; exact Hi|exact Hlb|auto|].
  rewrite app_nil_r in Hb. rewrite E2, E6 in Hc. fold (turns p page) in Hc.
  unfold page_header in Hh. rewrite Hf in Hh. unfold make_urf_hdr in Hh.
  destruct (urf_hdr_of p) as [h| | | |] eqn:Eh; try discriminate. inversion Hh; subst hdr; clear Hh.
  exists h, body. split; [exact Hb|].
  destruct (urf_hdr_shape p _ _ h HW HH HR Eh) as (Hwf & EW & EH & EB).
  split; [intros rest; apply decode_encode_urf; exact Hwf|].
  assert (N : u_BitsPerPixel h / 8 = colors_of (p_colorMode p)).
  { rewrite EB, E4, E5. unfold two8. rewrite Z.mod_small by lia. apply Z.div_mul. lia. }
  rewrite N. unfold two32 in *. rewrite Z.mod_small in EW by lia. rewrite Z.mod_small in EH by lia. rewrite EW, EH. split; [|auto].
  intros rest. set (enc := xform false (fst (turns p page)) (snd (turns p page)) img) in *.
  assert (Hle : length enc = Z.to_nat H).
  { destruct (xform_size false (fst (turns p page)) (snd (turns p page)) _ _ _ img Hi) as [L _]; [discriminate|exact L]. }
  rewrite Z.mod_small by nia. rewrite <- E1. replace H with (Z.of_nat (length enc)) by lia.
  replace W with (Z.of_nat (Z.to_nat W)) at 1 by lia. apply (raster_to_bmp_ok _ _ None); [apply unit_pos|exact I|exact Hc|unfold two64; lia].
Qed.
