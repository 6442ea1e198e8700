(** C84: the raster file pdf2printable writes shows the pages that were drawn. *)
From Verif Require Import Base BaseLemmas ListLemmas FloatModel StringModel StringProofs ParamsModel RasterModel HeaderModel
  HeaderSpec HeaderProofs PpmModel PpmSpec PpmProofs RasterSpec RasterEncProofs RasterDecProofs GeometryProofs PageProofs ShowProofs RenderModel RenderProofs RenderProperties PdfCmdModel PdfCmdProperties.
From Coq Require Import Lia ZifyBool ZifyNat.
Local Open Scope Z_scope.

(** ** Specification *)
(** what a sample of the file says about the pixel [v] that was drawn *)
Definition shows (m : color_mode) (v : Z) (sample : list byte) : Prop :=
  match m with
  | sRGB24 | CMYK32 => sample = [bZ (red v); bZ (green v); bZ (blue v)]
  | Gray8 => exists g, sample = [bZ g] /\ 0 <= g <= 255 /\
      let l := 299 * red v + 587 * green v + 114 * blue v in g = l / 1000 \/ (l mod 1000 = 0 /\ g = l / 1000 - 1)
  | _ => False
  end.
Definition sample_at (q : picture) (x y : Z) : list byte :=
  let n := match pic_kind q with PPM8 => 3 | _ => 1 end in
  firstn (Z.to_nat n) (skipn (Z.to_nat (n * (y * pic_w q + x))) (pic_data q)).
(** the picture is the page [data] of [W] x [H] pixels, mirrored left to right (hm) and top to bottom (vm) *)
Definition pictures (m : color_mode) (W H : Z) (hm vm : bool) (data : list Z) (q : picture) : Prop :=
  pic_w q = W /\ pic_h q = H /\ pic_kind q = (match m with Gray8 => PGM8 | _ => PPM8 end) /\
  forall x y, 0 <= x < W -> 0 <= y < H ->
    shows m (at_pixel data W (if vm then H - 1 - y else y) (if hm then W - 1 - x else x)) (sample_at q x y).
(** the files: one per entry of the page sequence, numbered from 1; each shows what was
    drawn for that entry, on back sides transformed as PWG 5102.4 prescribes *)
Definition shows_pages (r : renderer) (p : params) (W H : Z) (prefix : string) (seq : list Z) (files : list (string * list byte)) : Prop :=
  length files = length seq /\
  forall i n, nth_error seq i = Some n -> let page := Z.of_nat i + 1 in exists place data digits text q,
    placed r p n place /\ r_draw r page place = Some data /\
    nth_error files i = Some ((prefix ++ string_of_bytes digits ++ match p_colorMode p with Gray8 => ".pgm" | _ => ".ppm" end)%string, text) /\
    number digits page /\ pnm_text newline q text /\
    (let '(hm, vm) := if back_side (p_duplexMode p) page then back_transform (p_duplexMode p) (p_backXform p) else (false, false) in
     pictures (p_colorMode p) W H hm vm data q).

(** ** One page *)
Lemma units_length {A} (f : Z -> outcome (list A)) c data : (forall v, exists l, f v = Ok l /\ length l = c) -> forall ls, map Ok ls = map f data -> Forall (fun u => length u = c) ls /\ length ls = length data.
Proof.
  intros Hf. induction data as [|v data IH]; intros [|l ls] H; try discriminate; [split; constructor|]. cbn [map] in H. injection H as H1 H2. destruct (IH ls H2) as [I1 I2].
  split; [|cbn; lia]. constructor; [|exact I1]. destruct (Hf v) as [l' [E L]]. congruence.
Qed.
Lemma unit_at {A} (f : Z -> outcome (list A)) data ls k : map Ok ls = map f data -> (k < length data)%nat -> f (nth k data 0) = Ok (nth k ls []).
Proof.
  revert ls k. induction data as [|v data IH]; intros [|l ls] k H Hk; try discriminate; [cbn in Hk; lia|]. cbn [map] in H. injection H as H1 H2.
  destruct k as [|k]; cbn [nth]; [congruence|]. apply IH; [exact H2|cbn in Hk; lia].
Qed.
Lemma plain_pixel m : plain m -> exists f, mode_pixel m = Some (colors_of m, f).
Proof. intros [->|[->| ->]]; eexists; reflexivity. Qed.
(** what write_ppm makes of a decoded page *)
Lemma page_picture p W H data ls f hm vm : plain (p_colorMode p) -> 1 <= W -> 1 <= H -> Z.of_nat (length data) = W * H -> mode_pixel (p_colorMode p) = Some (colors_of (p_colorMode p), f) ->
  map Ok ls = map f data -> let m := p_colorMode p in
  let enc := xform false hm vm (rows (Z.to_nat H) (Z.to_nat W) ls) in
  let q := mkPic (ppm_kind (colors_of m)) W H (ppm_data (colors_of m) (flat enc)) in
  image_of_size (unit_bytes m) (Z.to_nat W) (Z.to_nat H) (rows (Z.to_nat H) (Z.to_nat W) ls) /\ flat (rows (Z.to_nat H) (Z.to_nat W) ls) = concat ls /\
  Z.of_nat (length (flat enc)) = H * (W * colors_of m) /\ pictures m W H hm vm data q.
Proof.
  intros Hm BW BH Hd Hf Hls m enc q. destruct (plain_facts p W Hm ltac:(lia)) as (E1 & _).
  destruct (units_length f (Z.to_nat (colors_of m)) data) with (ls := ls) as [Hu Hl]; [|exact Hls|].
  { intros v. destruct (mode_pixel_total _ _ _ v Hf) as [_ [l [El Ll]]]. exists l. split; [exact El|]. fold m in Ll. lia. }
  fold m in E1. rewrite <- E1, Nat2Z.id in Hu.
  assert (Hlen : length ls = (Z.to_nat H * Z.to_nat W)%nat) by nia.
  pose proof (rows_image _ (Z.to_nat W) (Z.to_nat H) ls Hu Hlen) as Hi. split; [exact Hi|].
  split; [rewrite flat_units, rows_concat by exact Hlen; reflexivity|].
  assert (He : image_of_size (unit_bytes m) (Z.to_nat W) (Z.to_nat H) enc) by (apply (xform_size false hm vm _ _ _ _ Hi); discriminate).
  destruct (image_units _ _ _ _ He) as (U1 & U2 & _).
  split; [rewrite flat_units, (concat_length_uniform (unit_bytes m)) by exact U1; rewrite U2; nia|].
  split; [reflexivity|]. split; [reflexivity|]. split; [unfold q; cbn [pic_kind]; destruct Hm as [M|[M|M]]; fold m in M; rewrite M; reflexivity|].
  intros x y Hx Hy. set (x' := if hm then W - 1 - x else x). set (y' := if vm then H - 1 - y else y).
  assert (Bx : 0 <= x' < W) by (unfold x'; destruct hm; lia). assert (By : 0 <= y' < H) by (unfold y'; destruct vm; lia).
  assert (K : nth (Z.to_nat y * Z.to_nat W + Z.to_nat x) (concat enc) [] = nth (Z.to_nat (y' * W + x')) ls []).
  { unfold enc. rewrite (turned_pixel hm vm (unit_bytes m)) by (assumption || lia). f_equal. unfold x', y'. destruct hm, vm; nia. }
  assert (Kk : (Z.to_nat y * Z.to_nat W + Z.to_nat x < length (concat enc))%nat) by (rewrite U2; nia).
  assert (Kd : (Z.to_nat (y' * W + x') < length data)%nat) by nia.
  pose proof (unit_at f data ls _ Hls Kd) as V. rewrite <- K in V. unfold at_pixel. set (v := nth (Z.to_nat (y' * W + x')) data 0) in *. clearbody v.
  set (k := (Z.to_nat y * Z.to_nat W + Z.to_nat x)%nat) in *.
  assert (Sk : forall n, 0 <= n -> Z.to_nat (n * (y * W + x)) = (k * Z.to_nat n)%nat) by (intros n Hn; unfold k; nia).
  unfold sample_at, q. cbn [pic_kind pic_w pic_data]. fold m in Hf.
  destruct Hm as [M|[M|M]]; fold m in M; rewrite M in *; cbn [colors_of ppm_kind ppm_data Z.eqb Pos.eqb shows unit_bytes mode_pixel] in *; injection Hf as <-; rewrite Sk by lia; rewrite flat_units.
  - change (Z.to_nat 3) with 3%nat. rewrite (unit_of_concat 3 (concat enc) k []) by assumption. unfold rgb_pixel in V. injection V as <-. rewrite red_R, green_G, blue_B. reflexivity.
  - destruct (cmyk_units _ U1) as [C1 C2]. rewrite C1. change (Z.to_nat 3) with 3%nat. rewrite (unit_of_concat 3 _ k []) by (exact C2 || (rewrite map_length; exact Kk)).
    change (@nil byte) with (cmyk2rgb []). rewrite map_nth.
    destruct (cmyk2rgb_pixels [v] [nth k (concat enc) []]) as [ls' [L1 L2]]; [cbn [map]; rewrite V; reflexivity|].
    destruct ls' as [|a [|b ls']]; try discriminate. cbn [map concat] in L1, L2. rewrite !app_nil_r in L2. rewrite L2. unfold rgb_pixel in L1. injection L1 as ->. rewrite red_R, green_G, blue_B. reflexivity.
  - change (Z.to_nat 1) with 1%nat. rewrite (unit_of_concat 1 (concat enc) k []) by assumption. destruct (C53_gray_partial v) as [g [G1 [G2 [_ G3]]]]. rewrite G1 in V. injection V as <-. exists g. auto.
Qed.

(** ** All pages *)
Definition shown (r : renderer) (p : params) (W H : Z) (prefix : string) (page n : Z) (file : string * list byte) : Prop :=
  exists place data digits text q, placed r p n place /\ r_draw r page place = Some data /\
    file = ((prefix ++ string_of_bytes digits ++ match p_colorMode p with Gray8 => ".pgm" | _ => ".ppm" end)%string, text) /\
    number digits page /\ pnm_text newline q text /\
    (let '(hm, vm) := if back_side (p_duplexMode p) page then back_transform (p_duplexMode p) (p_backXform p) else (false, false) in
     pictures (p_colorMode p) W H hm vm data q).
Inductive shown_all (r : renderer) (p : params) (W H : Z) (prefix : string) : Z -> list Z -> list (string * list byte) -> Prop :=
| sa_nil i : shown_all r p W H prefix i [] []
| sa_cons i n seq f fs : shown r p W H prefix i n f -> shown_all r p W H prefix (i + 1) seq fs -> shown_all r p W H prefix i (n :: seq) (f :: fs).
Lemma shown_all_nth r p W H prefix i seq files : shown_all r p W H prefix i seq files -> length files = length seq /\
  forall k n, nth_error seq k = Some n -> exists f, nth_error files k = Some f /\ shown r p W H prefix (i + Z.of_nat k) n f.
Proof.
  induction 1 as [i|i n seq f fs Hf _ [IH1 IH2]]; [split; [reflexivity|intros [|k]; discriminate]|]. split; [cbn; lia|].
  intros [|k] n' Hk; cbn [nth_error] in *.
  - injection Hk as <-. exists f. rewrite Z.add_0_r. auto.
  - destruct (IH2 k n' Hk) as [f' [F1 F2]]. exists f'. split; [exact F1|]. replace (i + Z.of_nat (S k)) with (i + 1 + Z.of_nat k) by lia. exact F2.
Qed.
Lemma shown_all_pages r p W H prefix seq files : shown_all r p W H prefix 1 seq files -> shows_pages r p W H prefix seq files.
Proof.
  intros Hs. apply shown_all_nth in Hs. destruct Hs as [H1 H2]. split; [exact H1|]. intros i n Hi page. destruct (H2 i n Hi) as [f [F1 F2]].
  replace (1 + Z.of_nat i) with page in F2 by (unfold page; lia). destruct F2 as (place & data & digits & text & q & A & B & -> & C & D & E).
  exists place, data, digits, text, q. auto 10.
Qed.
(** the conditions on the job: a printable size and 8 bit samples *)
Definition viewable (p : params) (W H : Z) : Prop :=
  sane_geometry p /\ params_in_range p /\ getPaperSizeWInPixels p = Ok W /\ getPaperSizeHInPixels p = Ok H /\ 1 <= W < 2 ^ 29 /\ 1 <= H < 2 ^ 32 /\
  (p_colorMode p = sRGB24 \/ p_colorMode p = CMYK32 \/ p_colorMode p = Gray8) /\
  match p_format p with
  | PWG => fits_field (p_mediaType p) /\ fits_field (p_paperSizeName p)
  | URF => urf_expressible p
  | _ => False
  end.
Lemma drawn_page r p W H i n b : viewable p W H -> surfaces r p -> page_bytes r p i n b ->
  exists place data f ls, placed r p n place /\ r_draw r i place = Some data /\ mode_pixel (p_colorMode p) = Some (colors_of (p_colorMode p), f) /\
   map Ok ls = map f data /\ Z.of_nat (length data) = W * H /\ bmp_to_pwg (concat ls) i p = Ok b.
Proof.
  intros (_ & _ & HW & HH & _ & _ & Hm & Hf) Hs Hb.
  assert (Hr : p_format p = PWG \/ p_format p = URF) by (destruct (p_format p); try contradiction; auto).
  destruct (Hs Hr) as (w & h & Hp & Hd). assert (w = W /\ h = H) as [-> ->]. { destruct Hp as (P1 & P2 & _). split; congruence. }
  destruct Hb as [place data bmp b _ Hpl Hdr Hc Hb|place data N1 N2]; [|destruct Hr; contradiction].
  destruct (plain_pixel _ Hm) as [f Ef]. pose proof (Hd _ _ _ Hdr) as Hl. destruct (copy_page p [] data W H _ f Hp Ef Hl) as [ls [C M]].
  exists place, data, f, ls. repeat split; try assumption. congruence.
Qed.
Lemma file_shown r p W H prefix i n place data f ls black : viewable p W H -> placed r p n place -> r_draw r i place = Some data -> mode_pixel (p_colorMode p) = Some (colors_of (p_colorMode p), f) ->
  map Ok ls = map f data -> Z.of_nat (length data) = W * H -> 0 <= i ->
  shown r p W H prefix i n (write_ppm (flat (xform false (fst (turns p i)) (snd (turns p i)) (rows (Z.to_nat H) (Z.to_nat W) ls))) W H (colors_of (p_colorMode p)) 8 black prefix i).
Proof.
  intros (_ & _ & HW & HH & BW & BH & Hm & _) Hpl Hdr Hf Hls Hd Hi0.
  destruct (page_picture p W H data ls f (fst (turns p i)) (snd (turns p i)) Hm ltac:(lia) ltac:(lia) Hd Hf Hls) as (_ & _ & Hlen & Hpic).
  set (bmp := flat (xform false (fst (turns p i)) (snd (turns p i)) (rows (Z.to_nat H) (Z.to_nat W) ls))) in *.
  pose proof (write_ppm_text bmp W H (colors_of (p_colorMode p)) black prefix i ltac:(lia) ltac:(lia)) as T.
  exists place, data, (bytes_of_string (dec_string i)), (snd (write_ppm bmp W H (colors_of (p_colorMode p)) 8 black prefix i)), (mkPic (ppm_kind (colors_of (p_colorMode p))) W H (ppm_data (colors_of (p_colorMode p)) bmp)).
  split; [exact Hpl|]. split; [exact Hdr|]. split.
  { rewrite string_bytes_id. unfold write_ppm. cbn [snd]. f_equal. destruct Hm as [M|[M|M]]; rewrite M; reflexivity. }
  split; [apply dec_string_number; exact Hi0|]. split.
  { apply T; [|exact Hlen]. destruct Hm as [M|[M|M]]; rewrite M; cbn; auto. }
  revert Hpic. unfold turns. destruct (back_side (p_duplexMode p) i); [destruct (back_transform (p_duplexMode p) (p_backXform p))|]; cbn [fst snd]; auto.
Qed.
Lemma pwg_shown r p W H prefix : viewable p W H -> surfaces r p -> p_format p = PWG -> forall i seq bs, pages_bytes r p i seq bs -> 1 <= i -> (length seq <= length (concat bs))%nat /\
  forall f, (length seq < f)%nat -> exists files, pwg_pages f (concat bs) (i - 1) prefix = Ok files /\ shown_all r p W H prefix i seq files.
Proof.
  intros Hv Hs Hf i seq bs Hb. induction Hb as [i|i n seq b bs Hb _ IH]; intros Hi.
  - split; [cbn; lia|]. intros [|f] Hlt; [cbn in Hlt; lia|]. exists []. split; [reflexivity|constructor].
  - destruct (IH ltac:(lia)) as [IL IF]. destruct (drawn_page r p W H i n b Hv Hs Hb) as (place & data & f & ls & Hpl & Hdr & Ef & Hls & Hd & Hp).
    pose proof Hv as (Hg & HR & HW & HH & BW & BH & Hm & Hx). rewrite Hf in Hx. destruct Hx as [F1 F2].
    destruct (page_picture p W H data ls f false false Hm ltac:(lia) ltac:(lia) Hd Ef Hls) as (Himg & Hflat & _).
    destruct (pwg_page_dec p i W H _ Hg HR F1 F2 HW HH ltac:(lia) ltac:(lia) Hm Hf Himg) as (h & body & Hb' & Hdec & Hras & E1 & E2 & E3 & E4).
    rewrite Hflat in Hb'. rewrite Hp in Hb'. injection Hb' as ->. split.
    { cbn [concat length]. rewrite !app_length. pose proof (encode_pwg_hdr_length h). lia. }
    intros fu Hlt. destruct fu as [|fu]; [cbn in Hlt; lia|]. cbn [concat pwg_pages]. rewrite <- app_assoc.
    destruct (encode_pwg_hdr h ++ body ++ concat bs) as [|c l] eqn:El.
    { exfalso. pose proof (encode_pwg_hdr_length h) as L. apply app_eq_nil in El. destruct El as [El _]. rewrite El in L. discriminate. }
    rewrite <- El. rewrite Hdec. cbn [bind]. rewrite Hras. cbn [bind]. rewrite E1, E2, E3, E4.
    destruct (IF fu ltac:(cbn in Hlt; lia)) as [files [P1 P2]]. replace (i - 1 + 1) with (i + 1 - 1) by lia. rewrite P1. cbn [bind].
    eexists. split; [reflexivity|]. constructor; [|exact P2]. replace (i + 1 - 1) with i by lia. eapply file_shown; eauto; lia.
Qed.
Lemma urf_shown r p W H prefix : viewable p W H -> surfaces r p -> p_format p = URF -> forall i seq bs, pages_bytes r p i seq bs -> 1 <= i -> (length seq <= length (concat bs))%nat /\
  forall f, (length seq < f)%nat -> exists files, urf_pages f (concat bs) (i - 1) prefix = Ok files /\ shown_all r p W H prefix i seq files.
Proof.
  intros Hv Hs Hf i seq bs Hb. induction Hb as [i|i n seq b bs Hb _ IH]; intros Hi.
  - split; [cbn; lia|]. intros [|f] Hlt; [cbn in Hlt; lia|]. exists []. split; [reflexivity|constructor].
  - destruct (IH ltac:(lia)) as [IL IF]. destruct (drawn_page r p W H i n b Hv Hs Hb) as (place & data & f & ls & Hpl & Hdr & Ef & Hls & Hd & Hp).
    pose proof Hv as (Hg & HR & HW & HH & BW & BH & Hm & Hx). rewrite Hf in Hx.
    destruct (page_picture p W H data ls f false false Hm ltac:(lia) ltac:(lia) Hd Ef Hls) as (Himg & Hflat & _).
    destruct (urf_page_dec p i W H _ Hg HR Hx HW HH ltac:(lia) ltac:(lia) Hm Hf Himg) as (h & body & Hb' & Hdec & Hras & E1 & E2 & E3).
    rewrite Hflat in Hb'. assert (b = encode_urf_hdr h ++ body) as -> by congruence. split.
    { cbn [concat length]. rewrite !app_length. pose proof (encode_urf_hdr_length h). lia. }
    intros fu Hlt. destruct fu as [|fu]; [cbn in Hlt; lia|]. cbn [concat urf_pages]. rewrite <- app_assoc.
    destruct (encode_urf_hdr h ++ body ++ concat bs) as [|c l] eqn:El; [discriminate|].
    rewrite <- El. rewrite Hdec. cbn [bind]. rewrite Hras. cbn [bind]. rewrite E1, E2, E3.
    destruct (IF fu ltac:(cbn in Hlt; lia)) as [files [P1 P2]]. replace (i - 1 + 1) with (i + 1 - 1) by lia. rewrite P1. cbn [bind].
    eexists. split; [reflexivity|]. constructor; [|exact P2]. replace (i + 1 - 1) with i by lia. eapply file_shown; eauto; lia.
Qed.

(** ** C84 *)
(** Reading the output of a conversion to PWG or URF with pwg2ppm gives one picture per
    entry of the page sequence, which shows, pixel by pixel, what was drawn for it.
    Missing: Black8 (refuted below), 1 bit pages (C14_bilevel_refuted). *)
Theorem C84_shows_pages_partial : forall r p W H seq out prefix, viewable p W H -> surfaces r p -> whole_output r p seq out ->
  exists files, pwg2ppm out prefix = Ok (0, files) /\ shows_pages r p W H prefix seq files.
Proof.
  intros r p W H seq out prefix Hv Hs (bs & Hb & Ho). pose proof Hv as (_ & _ & _ & _ & _ & _ & _ & Hx).
  destruct (p_format p) eqn:Hf; try contradiction; unfold file_header in Ho; rewrite Hf, app_nil_r in Ho; subst out.
  - destruct (pwg_shown r p W H prefix Hv Hs Hf 1 seq bs Hb ltac:(lia)) as [L F].
    unfold pwg2ppm, make_pwg_file_hdr. change (eat (bytes_of_string "RaS2") (bytes_of_string "RaS2" ++ concat bs)) with (Some (concat bs)). cbv iota.
    destruct (F (S (length (concat bs))) ltac:(lia)) as [files [P1 P2]]. change (1 - 1) with 0 in P1. rewrite P1. cbn [bind]. exists files. split; [reflexivity|]. apply shown_all_pages. exact P2.
  - destruct (urf_shown r p W H prefix Hv Hs Hf 1 seq bs Hb ltac:(lia)) as [L F].
    unfold pwg2ppm, make_urf_file_hdr. rewrite <- app_assoc. set (rest := ([bZ 0] ++ be32 (Z.of_nat (length seq))) ++ concat bs).
    change (eat (bytes_of_string "RaS2") (bytes_of_string "UNIRAST" ++ rest)) with (@None (list byte)). cbv iota.
    change (eat (bytes_of_string "UNIRAST") (bytes_of_string "UNIRAST" ++ rest)) with (Some rest). cbv iota. unfold rest.
    unfold be32 at 1. cbn [app get_u8 get_u32 bind]. change (Zb (bZ 0) =? 0) with true. cbv iota. cbn [get_u32 bind].
    destruct (F (S (length (concat bs))) ltac:(lia)) as [files [P1 P2]]. change (1 - 1) with 0 in P1. rewrite P1. cbn [bind]. exists files. split; [reflexivity|]. apply shown_all_pages. exact P2.
Qed.
(** The same for the command: a conversion with exit code 0 whose output file had room. *)
Theorem C84_converted_file_partial : forall e p i o r pages seq n path out prefix W H, open_document e i o = Ok r -> r_pages r = Some pages -> getPageSequence p pages = Ok seq -> surfaces r p ->
  viewable p W H -> convert_file e p i o = Ok (0, Some (path, out)) -> e_room e path = Some n -> Z.of_nat (length out) < n ->
  exists files, pwg2ppm out prefix = Ok (0, files) /\ shows_pages r p W H prefix seq files.
Proof.
  intros e p i o r pages seq n path out prefix W H Hd Hpg Hseq Hs Hv Hc Hr Hl. apply (C84_shows_pages_partial r p W H seq out prefix Hv Hs).
  refine (proj2 (C80_complete_partial e p i o r pages seq n path out Hd Hpg Hseq Hs _ Hc Hr Hl)). destruct Hv as (_ & _ & _ & _ & _ & _ & _ & Hx). intros E. rewrite E in Hx. exact Hx.
Qed.

(** ** Examples *)
(** two different pixels on each of two pages, printed on the two sides of a sheet *)
Definition view_doc : renderer := {| r_pages := Some 2; r_size := fun _ => (fofZ 2, fofZ 1); r_draw := fun i place => Some (match place with None => [RenderProperties.W; RenderProperties.W] | Some (n, _) => [n; 256 * n] end);
  r_stream := fun i _ => [bZ i]; r_finish := [bZ 0] |}.
Definition view_job (f : fmt) (m : color_mode) : params :=
  {| p_format := f; p_colorMode := m; p_quality := DefaultQuality; p_antiAlias := false; p_paperSizeName := "small"; p_hwResW := 300; p_hwResH := 300; p_units := Pixels;
     p_sizeW := fofZ 2; p_sizeH := fofZ 1; p_duplexMode := TwoSidedLongEdge; p_backXform := Rotated; p_copies := 1; p_collated := true; p_pageRanges := []; p_mediaPosition := 0; p_mediaType := "" |}.
Definition seen_file (name magic : string) (samples : list Z) : string * list byte :=
  (name, bytes_of_string magic ++ nl ++ bytes_of_string "2 1" ++ nl ++ bytes_of_string "255" ++ nl ++ map bZ samples).
Definition view_back (r : renderer) (p : params) : outcome (Z * list (string * list byte)) := let! (ev, _) := pdf_to_printable r accept p in pwg2ppm (written ev) "x".
Example C84_example : viewable (view_job PWG CMYK32) 2 1 /\ viewable (view_job URF sRGB24) 2 1 /\ viewable (view_job PWG Gray8) 2 1 /\ surfaces view_doc (view_job PWG CMYK32) /\ getPageSequence (view_job PWG CMYK32) 2 = Ok [1; 2] /\
  view_back view_doc (view_job PWG CMYK32) = Ok (0, [seen_file "x1.ppm" "P6" [0; 0; 1; 0; 1; 0]; seen_file "x2.ppm" "P6" [0; 2; 0; 0; 0; 2]]) /\
  view_back view_doc (view_job URF sRGB24) = Ok (0, [seen_file "x1.ppm" "P6" [0; 0; 1; 0; 1; 0]; seen_file "x2.ppm" "P6" [0; 2; 0; 0; 0; 2]]) /\
  view_back view_doc (view_job PWG Gray8) = Ok (0, [seen_file "x1.pgm" "P5" [0; 0]; seen_file "x2.pgm" "P5" [1; 0]]).
Proof.
  assert (V : forall f m, (m = sRGB24 \/ m = CMYK32 \/ m = Gray8) -> (f = PWG \/ f = URF) -> viewable (view_job f m) 2 1).
  { intros f m Hm Hf. unfold viewable. split; [split; [apply sane_fofZ; unfold max_size; lia|]; split; [apply sane_fofZ; unfold max_size; lia|]; cbn; lia|].
    split; [cbn; unfold params_in_range; cbn; lia|]. split; [vm_compute; reflexivity|]. split; [vm_compute; reflexivity|]. split; [lia|]. split; [lia|]. split; [exact Hm|].
    destruct Hf as [-> | ->]; cbn [view_job p_format p_mediaType p_paperSizeName].
    - split; [apply empty_fits|]. split; [vm_compute; lia|]. intros H. vm_compute in H. intuition discriminate.
    - split; [reflexivity|]. split; [destruct Hm as [-> |[-> | ->]]; eexists; reflexivity|]. exists 0. left. reflexivity. }
  split; [apply V; auto|]. split; [apply V; auto|]. split; [apply V; auto|]. split.
  - intros _. exists 2, 1. split; [split; [vm_compute; reflexivity|]; split; [vm_compute; reflexivity|]; lia|]. intros i [[n t]|] data H; injection H as <-; reflexivity.
  - repeat split; vm_compute; reflexivity.
Qed.
(** Finding: a Black8 page comes out of pwg2ppm as a negative: white paper is shown black. *)
Theorem C84_black_refuted : exists r text, (forall i place data v, r_draw r i place = Some data -> In v data -> is_white v) /\
  view_back r (view_job PWG Black8) = Ok (0, [("x1.pgm"%string, text)]) /\
  exists q, pnm_text newline q text /\ pic_kind q = PGM8 /\ forall x y, 0 <= x < 2 -> 0 <= y < 1 -> sample_at q x y = [bZ 0].
Proof.
  pose (r := {| r_pages := Some 1; r_size := fun _ => (fofZ 2, fofZ 1); r_draw := fun i place => Some [RenderProperties.W; RenderProperties.W]; r_stream := fun i _ => []; r_finish := [] |}).
  exists r, (snd (write_ppm [bZ 0; bZ 0] 2 1 1 8 true "x" 1)). split.
  { intros i place data v H Hv. injection H as <-. assert (v = RenderProperties.W) as -> by (destruct Hv as [<-|[<-|[]]]; reflexivity). repeat split; reflexivity. }
  split; [vm_compute; reflexivity|].
  exists (mkPic (ppm_kind 1) 2 1 (ppm_data 1 [bZ 0; bZ 0])). split; [apply write_ppm_text; [lia|lia|auto|reflexivity]|]. split; [reflexivity|].
  intros x y Hx Hy. assert (y = 0) as -> by lia. assert (x = 0 \/ x = 1) as [-> | ->] by lia; reflexivity.
Qed.
Print Assumptions C84_shows_pages_partial.
Print Assumptions C84_converted_file_partial.
Print Assumptions C84_black_refuted.
