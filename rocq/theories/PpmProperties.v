(** C09, C12, C13, C14: ppm2pwg and pwg2ppm. *)
From Verif Require Import Base BaseLemmas FloatModel StringModel StringProofs ParamsModel RasterModel HeaderModel
  HeaderSpec HeaderProofs PpmModel PpmSpec PpmProofs RasterSpec RasterEncProofs RasterDecProofs GeometryProofs PageProofs RasterProperties.
From Coq Require Import Lia.
Local Open Scope Z_scope.

(** ** C12 *)
(** options ppm2pwg can act on: positive resolutions, names that fit the header fields,
    no back side transform, and a media position of the table *)
Definition usable_options (o : ppm_opts) : Prop :=
  (forall r, o_res o = Some r \/ o_resX o = Some r \/ o_resY o = Some r -> 1 <= r < 2 ^ 31) /\
  (forall s, o_paperSize o = Some s \/ o_mediaType o = Some s -> fits_field s) /\
  (forall m, o_mediaPosition o = Some m -> 0 <= m <= 49) /\
  (o_backXform o = None \/ (o_duplex o = false /\ o_tumble o = false)).
Definition wants_pwg (o : ppm_opts) : Prop :=
  o_format o = Some PWG \/ (o_format o = None /\ forall s, o_outFile o <> (s ++ ".urf")%string).
Definition wants_urf (o : ppm_opts) : Prop :=
  (o_format o = Some URF \/ (o_format o = None /\ exists s, o_outFile o = (s ++ ".urf")%string)) /\
  (forall s, o_mediaType o = Some s -> s <> ""%string /\ exists c, In (s, c) urf_media_table) /\
  (* the same resolution in both directions *)
  (o_resX o = None /\ o_resY o = None \/ exists r, o_resX o = Some r /\ o_resY o = Some r).

Lemma fits_default : fits_field "iso_a4_210x297mm".
Proof. split; [vm_compute; lia|]. intros H. vm_compute in H. intuition discriminate. Qed.

Lemma usable_params o p : usable_options o -> ppm2pwg_params o = Some p ->
  p_units p = Pixels /\ params_in_range p /\ 1 <= p_hwResW p /\ 1 <= p_hwResH p /\
  fits_field (p_mediaType p) /\ fits_field (p_paperSizeName p) /\ untransformed p.
Proof.
  intros (Hr & Hs & Hm & Hb). unfold ppm2pwg_params.
  destruct (match opt (o_format o) (if string_ends_with (o_outFile o) ".urf" then URF else PWG), o_mediaType o with
            | URF, Some mt => negb (isUrfMediaType mt) | _, _ => false end); [discriminate|].
  intros E. injection E as <-. cbn [p_units p_mediaType p_paperSizeName].
  assert (Hx : forall r, 1 <= r < 2 ^ 31 -> 1 <= r mod two32 < 4294967296).
  { intros r Hr'. unfold two32. rewrite Z.mod_small by lia. lia. }
  assert (RW : 1 <= opt (o_resX o) (opt (o_res o) (p_hwResW default_params)) mod two32 < 4294967296).
  { apply Hx. destruct (o_resX o) as [r|]; cbn [opt]; [apply Hr; auto|].
    destruct (o_res o) as [r|]; cbn [opt]; [apply Hr; auto|vm_compute; split; congruence]. }
  assert (RH : 1 <= opt (o_resY o) (opt (o_res o) (p_hwResH default_params)) mod two32 < 4294967296).
  { apply Hx. destruct (o_resY o) as [r|]; cbn [opt]; [apply Hr; auto|].
    destruct (o_res o) as [r|]; cbn [opt]; [apply Hr; auto|vm_compute; split; congruence]. }
  split; [reflexivity|]. split.
  { assert (Hw : forall z, 1 <= z < 4294967296 -> 0 <= z < 4294967296) by (intros; lia).
    split; [apply Hw, RW|]. split; [apply Hw, RH|]. cbn [p_mediaPosition].
    destruct (o_mediaPosition o) as [m|]; cbn [opt]; [apply Hm; reflexivity|vm_compute; split; congruence]. }
  split; [apply RW|]. split; [apply RH|]. split.
  { destruct (o_mediaType o) as [s|]; cbn [opt]; [apply Hs; auto|apply empty_fits]. }
  split.
  { destruct (o_paperSize o) as [s|]; cbn [opt]; [apply Hs; auto|apply fits_default]. }
  unfold untransformed. cbn [p_duplexMode p_backXform].
  destruct Hb as [->|[-> ->]]; [|reflexivity]. cbn [opt p_backXform default_params].
  destruct (o_tumble o), (o_duplex o); reflexivity.
Qed.

(** a picture ppm2pwg followed by pwg2ppm reproduces: 8 bits per sample, at most 10^7
    pixels in each direction, data not starting with the byte of '#' *)
Definition reproducible (q : picture) : Prop :=
  (pic_kind q = PGM8 \/ pic_kind q = PPM8) /\ pic_w q <= max_size /\ pic_h q <= max_size /\
  exists b r, pic_data q = b :: r /\ b <> bZ 35.
Lemma reproducible_spec p q : picture_ok q -> reproducible q -> small_picture q /\ eight_bit q /\ readable p q.
Proof.
  intros Hok (He & H1 & H2 & b & r & Hd & Hb).
  split; [split; assumption|]. split; [assumption|].
  split; [split; assumption|]. split; [rewrite Hd; exact Hb|]. destruct He as [He|He]; rewrite He; discriminate.
Qed.

(** what pwg2ppm must write: one file per page, numbered from 1, each a PNM file of the picture *)
Definition same_pictures (prefix : string) (qs : list picture) (files : list (string * list byte)) : Prop :=
  length files = length qs /\
  forall i q, nth_error qs i = Some q -> exists digits ext text,
    nth_error files i = Some ((prefix ++ string_of_bytes digits ++ ext)%string, text) /\
    number digits (Z.of_nat i + 1) /\
    ext = (match pic_kind q with PGM8 => ".pgm" | _ => ".ppm" end)%string /\
    pnm_text newline q text.

Lemma pic_files_same prefix qs : Forall picture_ok qs -> Forall eight_bit qs -> same_pictures prefix qs (pic_files prefix 1 qs).
Proof.
  intros Hok He. split; [apply pic_files_length|]. intros i q Hi. rewrite pic_files_nth, Hi. cbn [option_map].
  assert (Hq : picture_ok q /\ eight_bit q).
  { apply nth_error_In in Hi. rewrite Forall_forall in Hok, He. auto. }
  destruct Hq as [Hq1 Hq2].
  exists (bytes_of_string (dec_string (1 + Z.of_nat i))), (match pic_kind q with PGM8 => ".pgm" | _ => ".ppm" end)%string,
    (snd (pic_file prefix (1 + Z.of_nat i) q)).
  split.
  - f_equal. rewrite string_bytes_id.
    assert (En : fst (pic_file prefix (1 + Z.of_nat i) q)
      = (prefix ++ dec_string (1 + Z.of_nat i) ++ match pic_kind q with PGM8 => ".pgm" | _ => ".ppm" end)%string).
    { unfold pic_file, write_ppm, pic_colors. destruct Hq2 as [E|E]; rewrite E; reflexivity. }
    rewrite <- En. apply surjective_pairing.
  - split; [replace (Z.of_nat i + 1) with (1 + Z.of_nat i) by lia; apply dec_string_number; lia|].
    split; [reflexivity|]. apply pic_file_text; assumption.
Qed.

Lemma texts_ok p qs texts : Forall2 (pnm_text newline) qs texts -> Forall reproducible qs ->
  Forall (fun q => picture_ok q /\ small_picture q /\ eight_bit q) qs /\ Forall (readable p) qs /\
  Forall picture_ok qs /\ Forall eight_bit qs.
Proof.
  intros Ht Hq. assert (H : Forall picture_ok qs).
  { clear Hq. induction Ht as [|q t qs ts H _ IH]; constructor; [apply H|assumption]. }
  clear Ht. rewrite Forall_forall in H, Hq.
  repeat split; apply Forall_forall; intros q Hin; pose proof (H q Hin) as Hok;
    destruct (reproducible_spec p q Hok (Hq q Hin)) as (? & ? & ?); auto.
Qed.

(** Any number of 8-bit P5/P6 images, of different sizes and kinds, with comment lines
    after the magic number, one file, PWG output.  Missing from the property: image data
    whose first byte is '#' or headers not ending in a newline (C13_refuted), comments in
    other places of the header, and dimensions above 10^7.  Back side transforms are
    intended to change the raster and are covered by C05. *)
Theorem C12_reproduces_images_pwg_partial : forall o qs texts prefix,
  usable_options o -> wants_pwg o ->
  qs <> [] -> Forall2 (pnm_text newline) qs texts -> Forall reproducible qs ->
  exists raster files,
    ppm2pwg_main o (concat texts) = Ok (0, raster) /\
    pwg2ppm raster prefix = Ok (0, files) /\
    same_pictures prefix qs files.
Proof.
  intros o qs texts prefix Ho Hp Hne Ht Hq.
  assert (Hf : opt (o_format o) (if string_ends_with (o_outFile o) ".urf" then URF else PWG) = PWG).
  { destruct Hp as [->|[-> Hs]]; [reflexivity|]. cbn [opt].
    destruct (string_ends_with (o_outFile o) ".urf") eqn:E; [|reflexivity].
    apply ends_with_spec in E. destruct E as [t E]. exfalso. apply (Hs t E). }
  destruct (ppm2pwg_params o) as [p|] eqn:Ep.
  2:{ unfold ppm2pwg_params in Ep. rewrite Hf in Ep. discriminate. }
  destruct (usable_params o p Ho Ep) as (Hu & HR & HW & HH & F1 & F2 & Hx).
  assert (Hfp : p_format p = PWG).
  { unfold ppm2pwg_params in Ep. rewrite Hf in Ep. injection Ep as <-. reflexivity. }
  destruct (texts_ok p qs texts Ht Hq) as (A1 & A2 & A3 & A4).
  destruct (pwg_pages_rt qs p 0) as (outs & Hw & Hlen & Hrd); auto; [congruence|].
  exists (make_pwg_file_hdr ++ concat outs), (pic_files prefix 1 qs). split.
  { unfold ppm2pwg_main. rewrite Ep. rewrite (ppm2pwg_ok p _ qs texts outs) by assumption.
    unfold ppm2pwg_file_hdr. rewrite Hfp. reflexivity. }
  split; [|apply pic_files_same; assumption].
  unfold pwg2ppm. change (eat (bytes_of_string "RaS2") (make_pwg_file_hdr ++ concat outs)) with (Some (concat outs)).
  cbv iota. rewrite (Hrd prefix) by lia. reflexivity.
Qed.

(** the same for URF *)
Theorem C12_reproduces_images_urf_partial : forall o qs texts prefix,
  usable_options o -> wants_urf o ->
  qs <> [] -> Forall2 (pnm_text newline) qs texts -> Forall reproducible qs ->
  exists raster files,
    ppm2pwg_main o (concat texts) = Ok (0, raster) /\
    pwg2ppm raster prefix = Ok (0, files) /\
    same_pictures prefix qs files.
Proof.
  intros o qs texts prefix Ho (Hp & Hm & Hres) Hne Ht Hq.
  assert (Hf : opt (o_format o) (if string_ends_with (o_outFile o) ".urf" then URF else PWG) = URF).
  { destruct Hp as [->|[-> Hs]]; [reflexivity|]. cbn [opt]. apply ends_with_spec in Hs. rewrite Hs. reflexivity. }
  assert (Hmt : match o_mediaType o with Some mt => negb (isUrfMediaType mt) | _ => false end = false).
  { destruct (o_mediaType o) as [s|]; [|auto]. destruct (Hm s eq_refl) as [Hs [c Hc]]. revert Hs Hc. clear.
    intros Hs [E|Hc]; [congruence|].
    unfold urf_media_table in Hc. unfold isUrfMediaType.
    repeat (destruct Hc as [E|Hc]; [injection E as <- <-; reflexivity|]). contradiction. }
  destruct (ppm2pwg_params o) as [p|] eqn:Ep.
  2:{ unfold ppm2pwg_params in Ep. rewrite Hf in Ep. rewrite Hmt in Ep. discriminate. }
  destruct (usable_params o p Ho Ep) as (Hu & HR & HW & HH & F1 & F2 & Hx).
  assert (Hfp : p_format p = URF /\ p_hwResW p = p_hwResH p /\ exists c, In (p_mediaType p, c) urf_media_table).
  { unfold ppm2pwg_params in Ep. rewrite Hf, Hmt in Ep.
    injection Ep as <-. cbn [p_format p_hwResW p_hwResH p_mediaType]. split; [reflexivity|]. split.
    - destruct Hres as [[-> ->]|(r & -> & ->)]; reflexivity.
    - destruct (o_mediaType o) as [s|]; cbn [opt]; [apply Hm; reflexivity|]. exists 0. left. reflexivity. }
  destruct Hfp as (Hfp & Hrr & Hmp).
  destruct (texts_ok p qs texts Ht Hq) as (A1 & A2 & A3 & A4).
  destruct (urf_pages_rt qs p 0) as (outs & Hw & Hlen & Hrd); auto.
  exists (make_urf_file_hdr (opt (o_pages o) 0) ++ concat outs), (pic_files prefix 1 qs). split.
  { unfold ppm2pwg_main. rewrite Ep. rewrite (ppm2pwg_ok p _ qs texts outs) by assumption.
    unfold ppm2pwg_file_hdr. rewrite Hfp. reflexivity. }
  split; [|apply pic_files_same; assumption].
  unfold pwg2ppm, make_urf_file_hdr. rewrite <- !app_assoc.
  change (eat (bytes_of_string "RaS2") (bytes_of_string "UNIRAST" ++ [bZ 0] ++ be32 (opt (o_pages o) 0) ++ concat outs)) with (@None (list byte)).
  cbv iota.
  change (eat (bytes_of_string "UNIRAST") (bytes_of_string "UNIRAST" ++ [bZ 0] ++ be32 (opt (o_pages o) 0) ++ concat outs))
    with (Some ([bZ 0] ++ be32 (opt (o_pages o) 0) ++ concat outs)).
  cbv iota. cbn [app get_u8 bind]. change (Zb (bZ 0) =? 0) with true. cbv iota.
  unfold be32 at 1. cbn [app get_u32 bind]. rewrite (Hrd prefix) by lia. reflexivity.
Qed.

(** an example: options and two pages of different kinds, the first with comments *)
Definition no_options : ppm_opts :=
  mkPpmOpts None None None None None None false false None None None None "out.pwg".
Definition some_options : ppm_opts :=
  mkPpmOpts None (Some 2) (Some "na_letter_8.5x11in"%string) (Some 600) None None true true None
    (Some HighQuality) (Some 3) (Some "stationery"%string) "x.urf".
Definition page_a : picture := mkPic PGM8 2 2 (map bZ [1; 1; 2; 35]).
Definition page_b : picture := mkPic PPM8 1 2 (map bZ [255; 0; 10; 7; 8; 9]).
Definition text_a : list byte :=
  map bZ [80; 53; 10; 35; 32; 99; 10; 50; 32; 32; 50; 9; 50; 53; 53; 10] ++ pic_data page_a.
Definition text_b : list byte := map bZ [80; 54; 32; 48; 49; 10; 50; 10; 50; 53; 53; 10] ++ pic_data page_b.
Lemma text_a_ok : pnm_text newline page_a text_a.
Proof.
  assert (W : forall z, In (bZ z) (map bZ [32; 9; 10; 11; 12; 13]) -> white (bZ z)) by (intros; assumption).
  split; [vm_compute; intuition congruence|].
  exists (map bZ [80; 53; 10; 35; 32; 99; 10; 50; 32; 32; 50; 9; 50; 53; 53; 10]). split; [|reflexivity].
  exists (map bZ [10; 35; 32; 99; 10]), (map bZ [50]), (map bZ [32; 32]), (map bZ [50]), (map bZ [9; 50; 53; 53]).
  split; [reflexivity|]. split.
  { right. exists [map bZ [35; 32; 99; 10]], []. split; [reflexivity|]. split; [|constructor].
    constructor; [|constructor]. exists (map bZ [32; 99]). split; [reflexivity|].
    intros H. vm_compute in H. intuition discriminate. }
  split; [apply (number_one 2); lia|]. split; [split; [discriminate|repeat constructor; apply W; simpl; tauto]|].
  split; [apply (number_one 2); lia|]. split.
  - exists [bZ 9]. split; [split; [discriminate|repeat constructor; apply W; simpl; tauto]|reflexivity].
  - apply W. simpl. tauto.
Qed.
Lemma text_b_ok : pnm_text newline page_b text_b.
Proof.
  assert (W : forall z, In (bZ z) (map bZ [32; 9; 10; 11; 12; 13]) -> white (bZ z)) by (intros; assumption).
  split; [vm_compute; intuition congruence|].
  exists (map bZ [80; 54; 32; 48; 49; 10; 50; 10; 50; 53; 53; 10]). split; [|reflexivity].
  exists (map bZ [32]), (map bZ [48; 49]), (map bZ [10]), (map bZ [50]), (map bZ [10; 50; 53; 53]).
  split; [reflexivity|]. split.
  { left. split; [discriminate|repeat constructor; apply W; simpl; tauto]. }
  split; [apply (number_more [bZ 48] 0 1); [apply (number_one 0); lia|lia]|].
  split; [split; [discriminate|repeat constructor; apply W; simpl; tauto]|].
  split; [apply (number_one 2); lia|]. split.
  - exists [bZ 10]. split; [split; [discriminate|repeat constructor; apply W; simpl; tauto]|reflexivity].
  - apply W. simpl. tauto.
Qed.
Example C12_example :
  usable_options no_options /\ wants_pwg no_options /\ usable_options some_options /\ wants_urf some_options /\
  Forall2 (pnm_text newline) [page_a; page_b] [text_a; text_b] /\ Forall reproducible [page_a; page_b] /\
  (let! (c, raster) := ppm2pwg_main no_options (text_a ++ text_b) in pwg2ppm raster "p")
  = Ok (0, [ ("p1.pgm"%string, bytes_of_string "P5" ++ nl ++ bytes_of_string "2 2" ++ nl ++ bytes_of_string "255" ++ nl ++ pic_data page_a);
             ("p2.ppm"%string, bytes_of_string "P6" ++ nl ++ bytes_of_string "1 2" ++ nl ++ bytes_of_string "255" ++ nl ++ pic_data page_b) ]).
Proof.
  assert (F : fits_field "na_letter_8.5x11in" /\ fits_field "stationery").
  { split; (split; [vm_compute; lia|]; intros H; vm_compute in H; intuition discriminate). }
  split; [|split; [|split; [|split; [|split; [|split]]]]].
  - repeat split; cbn in *; intuition (congruence || discriminate).
  - right. split; [reflexivity|]. intros s E.
    assert (Hb : string_ends_with "out.pwg" ".urf" = true) by (apply ends_with_spec; exists s; exact E).
    vm_compute in Hb. discriminate.
  - split; [|split; [|split]]; cbn.
    + intros r [E|[E|E]]; inversion E. lia.
    + intros s [E|E]; inversion E; apply F.
    + intros m E. inversion E. lia.
    + left. reflexivity.
  - split; [right; split; [reflexivity|exists "x"%string; reflexivity]|]. split.
    + cbn. intros s E. injection E as <-. split; [discriminate|]. exists 1. simpl. auto.
    + left. auto.
  - constructor; [apply text_a_ok|constructor; [apply text_b_ok|constructor]].
  - constructor; [|constructor; [|constructor]].
    + split; [left; reflexivity|]. split; [vm_compute; congruence|]. split; [vm_compute; congruence|].
      exists (bZ 1), (map bZ [1; 2; 35]). split; [reflexivity|vm_compute; discriminate].
    + split; [right; reflexivity|]. split; [vm_compute; congruence|]. split; [vm_compute; congruence|].
      exists (bZ 255), (map bZ [0; 10; 7; 8; 9]). split; [reflexivity|vm_compute; discriminate].
  - vm_compute. reflexivity.
Qed.
Print Assumptions C12_reproduces_images_pwg_partial.
Print Assumptions C12_reproduces_images_urf_partial.

(** ** C13 *)
(** For files whose headers end in a newline and whose data do not start with '#' the
    bitmaps encoded are exactly the data of the pictures (all five kinds of PNM files the
    program accepts).  Missing: the files of C13_hash_refuted and C13_separator_refuted. *)
Theorem C13_encodes_exactly_the_data_partial : forall p pages qs texts outs,
  p_units p = Pixels -> qs <> [] ->
  Forall2 (pnm_text newline) qs texts ->
  Forall (fun q => pic_w q <= max_size /\ pic_h q <= max_size /\
    (exists b r, pic_data q = b :: r /\ b <> bZ 35) /\
    (pic_kind q = PBM -> pic_w q mod 8 = 0 /\ p_format p <> URF)) qs ->
  (* the pages the encoder makes of the pictures' data *)
  Forall2 (fun iq out => bmp_to_pwg (pic_data (snd iq)) (fst iq) (page_params p (snd iq)) = Ok out)
    (combine (map Z.of_nat (seq 1 (length qs))) qs) outs ->
  ppm2pwg p pages (concat texts)
  = Ok (0, (match p_format p with URF => make_urf_file_hdr pages | _ => make_pwg_file_hdr end) ++ concat outs).
Proof.
  intros p pages qs texts outs Hu Hne Ht Hq Ho.
  assert (Hr : Forall (readable p) qs).
  { eapply Forall_impl; [|exact Hq]. intros q (H1 & H2 & (b & r & Hd & Hb) & Hk).
    split; [split; assumption|]. split; [rewrite Hd; exact Hb|assumption]. }
  apply (ppm2pwg_ok p pages qs texts outs); auto.
  clear - Ho. change 1 with (Z.of_nat 1). revert Ho. generalize 1%nat as n. revert outs.
  induction qs as [|q qs IH]; intros outs n Ho.
  - inversion Ho; subst. exact I.
  - cbn [length seq map combine] in Ho. inversion Ho as [|? o ? outs' H1 H2]; subst. split; [exact H1|].
    replace (Z.of_nat n + 1) with (Z.of_nat (S n)) by lia. apply IH. exact H2.
Qed.
Definition pbm_page : picture := mkPic PBM 16 1 (map bZ [10; 35]).
Definition pbm_text : list byte := map bZ [80; 52; 10; 49; 54; 32; 49; 10] ++ pic_data pbm_page.
Example C13_example : let p := sample PWG Black1 OneSided Normal 3 2 in
  pnm_text newline pbm_page pbm_text /\
  exists out, bmp_to_pwg (pic_data pbm_page) 1 (page_params p pbm_page) = Ok out /\
    skipn 1796 out = map bZ [0; 255; 10; 35] /\
    ppm2pwg p 0 pbm_text = Ok (0, make_pwg_file_hdr ++ out).
Proof.
  assert (W : forall z, In (bZ z) (map bZ [32; 9; 10; 11; 12; 13]) -> white (bZ z)) by (intros; assumption).
  split.
  - split; [vm_compute; intuition congruence|]. exists (map bZ [80; 52; 10; 49; 54; 32; 49; 10]). split; [|reflexivity].
    exists (map bZ [10]), (map bZ [49; 54]), (map bZ [32]), (map bZ [49]), [].
    split; [reflexivity|]. split; [left; split; [discriminate|repeat constructor; apply W; simpl; tauto]|].
    split; [apply (number_more [bZ 49] 1 6); [apply (number_one 1); lia|lia]|].
    split; [split; [discriminate|repeat constructor; apply W; simpl; tauto]|].
    split; [apply (number_one 1); lia|]. split; [reflexivity|apply W; simpl; tauto].
  - eexists. split; [vm_compute; reflexivity|]. split; vm_compute; reflexivity.
Qed.
Print Assumptions C13_encodes_exactly_the_data_partial.

(** Finding: data starting with '#' are swallowed up to the next newline.  The witness
    has a second picture in its data, which is then taken for the page. *)
Definition hash_page : picture := mkPic PGM8 4 2 (map bZ [35; 1; 2; 10; 5; 6; 7; 8]).
Definition hash_text : list byte :=
  map bZ [80; 53; 10; 52; 32; 50; 10; 50; 53; 53; 10] ++ pic_data hash_page.
Lemma hash_text_ok : pnm_text newline hash_page hash_text.
Proof.
  assert (W : forall z, In (bZ z) (map bZ [32; 9; 10; 11; 12; 13]) -> white (bZ z)) by (intros; assumption).
  split; [vm_compute; intuition congruence|].
  exists (map bZ [80; 53; 10; 52; 32; 50; 10; 50; 53; 53; 10]). split; [|reflexivity].
  exists (map bZ [10]), (map bZ [52]), (map bZ [32]), (map bZ [50]), (map bZ [10; 50; 53; 53]).
  split; [reflexivity|]. split; [left; split; [discriminate|repeat constructor; apply W; simpl; tauto]|].
  split; [apply (number_one 4); lia|].
  split; [split; [discriminate|repeat constructor; apply W; simpl; tauto]|].
  split; [apply (number_one 2); lia|]. split; [|apply W; simpl; tauto].
  exists [bZ 10]. split; [split; [discriminate|repeat constructor; apply W; simpl; tauto]|reflexivity].
Qed.
(** The bitmap left is too short and read past its end (undefined behaviour). *)
Theorem C13_hash_refuted : exists p q text,
  p_units p = Pixels /\ pnm_text newline q text /\ ppm2pwg p 0 text = UB /\
  exists page, bmp_to_pwg (pic_data q) 1 (page_params p q) = Ok page.
Proof.
  exists (sample PWG Gray8 OneSided Normal 4 2), hash_page, hash_text.
  split; [reflexivity|]. split; [apply hash_text_ok|]. split; [vm_compute; reflexivity|].
  eexists. vm_compute. reflexivity.
Qed.
(** In a file of two pages the first page takes bytes of the second one and the rest is
    refused: exit code 1 and a wrong first page. *)
Theorem C13_hash_shifts_pages_refuted : exists p texts qs out,
  p_units p = Pixels /\ Forall2 (pnm_text newline) qs texts /\
  ppm2pwg p 0 (concat texts) = Ok (1, make_pwg_file_hdr ++ out) /\
  bmp_to_pwg (map bZ [5; 6; 7; 8; 80; 53; 10; 52]) 1 (page_params p hash_page) = Ok out.
Proof.
  exists (sample PWG Gray8 OneSided Normal 4 2), [hash_text; hash_text], [hash_page; hash_page]. eexists.
  split; [reflexivity|]. split; [constructor; [apply hash_text_ok|constructor; [apply hash_text_ok|constructor]]|].
  split; vm_compute; reflexivity.
Qed.
(** Finding: a header that ends in white space other than a newline: that character is
    taken as the first byte of the image and the last byte is dropped. *)
Definition space_page : picture := mkPic PGM8 2 1 (map bZ [1; 2]).
Definition space_text : list byte := map bZ [80; 53; 10; 50; 32; 49; 10; 50; 53; 53; 32] ++ pic_data space_page.
Lemma space_text_ok : pnm_text (bZ 32) space_page space_text.
Proof.
  assert (W : forall z, In (bZ z) (map bZ [32; 9; 10; 11; 12; 13]) -> white (bZ z)) by (intros; assumption).
  split; [vm_compute; intuition congruence|].
  exists (map bZ [80; 53; 10; 50; 32; 49; 10; 50; 53; 53; 32]). split; [|reflexivity].
  exists (map bZ [10]), (map bZ [50]), (map bZ [32]), (map bZ [49]), (map bZ [10; 50; 53; 53]).
  split; [reflexivity|]. split; [left; split; [discriminate|repeat constructor; apply W; simpl; tauto]|].
  split; [apply (number_one 2); lia|].
  split; [split; [discriminate|repeat constructor; apply W; simpl; tauto]|].
  split; [apply (number_one 1); lia|]. split; [|apply W; simpl; tauto].
  exists [bZ 10]. split; [split; [discriminate|repeat constructor; apply W; simpl; tauto]|reflexivity].
Qed.
Theorem C13_separator_refuted : exists p out,
  p_units p = Pixels /\ pnm_text (bZ 32) space_page space_text /\
  ppm2pwg p 0 space_text = Ok (1, make_pwg_file_hdr ++ out) /\
  bmp_to_pwg (map bZ [32; 1]) 1 (page_params p space_page) = Ok out /\
  bmp_to_pwg (pic_data space_page) 1 (page_params p space_page) <> Ok out.
Proof.
  exists (sample PWG Gray8 OneSided Normal 4 2). eexists.
  split; [reflexivity|]. split; [apply space_text_ok|]. split; [vm_compute; reflexivity|].
  split; [vm_compute; reflexivity|]. vm_compute. discriminate.
Qed.
Print Assumptions C13_hash_refuted.
Print Assumptions C13_hash_shifts_pages_refuted.
Print Assumptions C13_separator_refuted.

(** The header grammar is unambiguous, so "the data" is well defined. *)
Theorem C13_header_unambiguous : forall k w h t hdr data k' w' h' t' hdr' data',
  pnm_header k w h t hdr -> pnm_header k' w' h' t' hdr' -> hdr ++ data = hdr' ++ data' ->
  k = k' /\ w = w' /\ h = h' /\ t = t' /\ hdr = hdr' /\ data = data'.
Proof. exact pnm_header_unique. Qed.
Print Assumptions C13_header_unambiguous.

(** ** C14 *)
(** Every file pwg2ppm writes belongs to a page header of the input; if that header
    describes a page of 1, 3 or 4 colours of 8 bits without padding, the file is a PNM
    file of the header's dimensions.  Missing: 1-bit and 16-bit pages (refuted below). *)
Theorem C14_writes_pnm_pwg_partial : forall file prefix files,
  256 * Z.of_nat (length file) < 2 ^ 64 ->
  pwg2ppm (bytes_of_string "RaS2" ++ file) prefix = Ok (0, files) ->
  forall i name text, nth_error files i = Some (name, text) ->
  exists before hdr after h,
    file = before ++ hdr /\ decode_pwg_hdr hdr = Ok (h, after) /\
    (1 <= h_Width h -> 1 <= h_Height h -> h_BitsPerColor h = 8 ->
     h_NumColors h = 1 \/ h_NumColors h = 3 \/ h_NumColors h = 4 ->
     h_BytesPerLine h = h_Width h * h_NumColors h ->
     exists q, pnm_text newline q text /\ pic_w q = h_Width h /\ pic_h q = h_Height h /\
       (pic_kind q = PGM8 <-> h_NumColors h = 1) /\ (pic_kind q = PPM8 <-> h_NumColors h <> 1)).
Proof.
  intros file prefix files Hl E i name text Hi. unfold pwg2ppm in E.
  change (eat (bytes_of_string "RaS2") (bytes_of_string "RaS2" ++ file)) with (Some file) in E. cbv iota in E.
  destruct (pwg_pages (S (length file)) file 0 prefix) as [l| | | |] eqn:Ep; try discriminate. cbn [bind] in E.
  injection E as <-.
  destruct (pwg_pages_trace _ _ _ _ _ Hl Ep i _ Hi) as (mid & after & h & bmp & [before Hs] & Hd & Hlen & Hw).
  exists before, mid, after, h. split; [assumption|]. split; [assumption|].
  intros B1 B2 B3 B4 B5. rewrite B3 in Hw. rewrite B5 in Hlen.
  pose proof (write_ppm_text bmp (h_Width h) (h_Height h) (h_NumColors h) (h_ColorSpace h =? 3) prefix (0 + 1 + Z.of_nat i) B1 B2 B4 Hlen) as Ht.
  rewrite <- Hw in Ht. cbn [snd] in Ht. eexists. split; [exact Ht|]. split; [reflexivity|]. split; [reflexivity|].
  unfold ppm_kind. cbn [pic_kind]. clear - B4. destruct B4 as [B4|[B4|B4]]; rewrite B4; cbn; split; split; congruence.
Qed.
Theorem C14_writes_pnm_urf_partial : forall file prefix files,
  256 * Z.of_nat (length file) < 2 ^ 64 ->
  pwg2ppm (bytes_of_string "UNIRAST" ++ file) prefix = Ok (0, files) ->
  forall i name text, nth_error files i = Some (name, text) ->
  exists before hdr after h,
    file = before ++ hdr /\ decode_urf_hdr hdr = Ok (h, after) /\
    (1 <= u_Width h < 2 ^ 30 -> 1 <= u_Height h ->
     u_BitsPerPixel h = 8 \/ u_BitsPerPixel h = 24 \/ u_BitsPerPixel h = 32 ->
     exists q, pnm_text newline q text /\ pic_w q = u_Width h /\ pic_h q = u_Height h /\
       (pic_kind q = PGM8 <-> u_BitsPerPixel h = 8) /\ (pic_kind q = PPM8 <-> u_BitsPerPixel h <> 8)).
Proof.
  intros file prefix files Hl E i name text Hi. unfold pwg2ppm in E.
  change (eat (bytes_of_string "RaS2") (bytes_of_string "UNIRAST" ++ file)) with (@None (list byte)) in E. cbv iota in E.
  change (eat (bytes_of_string "UNIRAST") (bytes_of_string "UNIRAST" ++ file)) with (Some file) in E. cbv iota in E.
  destruct (get_u8 file) as [[z f1]| | | |] eqn:E1; try discriminate. cbn [bind] in E.
  destruct (z =? 0); [|discriminate].
  destruct (get_u32 f1) as [[n f2]| | | |] eqn:E2; try discriminate. cbn [bind] in E.
  apply get_u8_inv in E1. apply get_u32_inv in E2. destruct E1 as [_ S1], E2 as [_ S2].
  assert (S3 : suffix f2 file) by (eapply suffix_trans; eassumption).
  destruct (urf_pages (S (length f2)) f2 0 prefix) as [l| | | |] eqn:Ep; try discriminate. cbn [bind] in E.
  injection E as <-.
  assert (Hl2 : 256 * Z.of_nat (length f2) < two64).
  { destruct S3 as [u ->]. rewrite app_length in Hl. clear - Hl. unfold two64. lia. }
  destruct (urf_pages_trace _ _ _ _ _ Hl2 Ep i _ Hi) as (mid & after & h & bmp & Hs & Hd & Hlen & Hw).
  destruct (suffix_trans _ _ _ Hs S3) as [before Hb].
  exists before, mid, after, h. split; [assumption|]. split; [assumption|].
  intros B1 B2 B4.
  assert (B5 : u_BitsPerPixel h / 8 = 1 \/ u_BitsPerPixel h / 8 = 3 \/ u_BitsPerPixel h / 8 = 4).
  { destruct B4 as [->|[->| ->]]; cbn; auto. }
  rewrite Z.mod_small in Hlen.
  2:{ clear - B1 B5. unfold two32. destruct B5 as [->|[->| ->]]; lia. }
  pose proof (write_ppm_text bmp (u_Width h) (u_Height h) (u_BitsPerPixel h / 8) false prefix (0 + 1 + Z.of_nat i) (proj1 B1) B2 B5 Hlen) as Ht.
  rewrite <- Hw in Ht. cbn [snd] in Ht. eexists. split; [exact Ht|]. split; [reflexivity|]. split; [reflexivity|].
  unfold ppm_kind. cbn [pic_kind]. clear - B4. destruct B4 as [B4|[B4|B4]]; rewrite B4; cbn; split; split; congruence.
Qed.
(** a CMYK page of one pixel: (c, m, y, k) = (1, 2, 3, 4) *)
Definition cmyk_sample : params := sample PWG CMYK32 OneSided Normal 1 1.
Example C14_example :
  (let! page := bmp_to_pwg (map bZ [1; 2; 3; 4]) 1 cmyk_sample in pwg2ppm (bytes_of_string "RaS2" ++ page) "x")
  = Ok (0, [("x1.ppm"%string, bytes_of_string "P6" ++ nl ++ bytes_of_string "1 1" ++ nl ++ bytes_of_string "255" ++ nl ++ map bZ [250; 249; 248])]).
Proof. vm_compute. reflexivity. Qed.
Print Assumptions C14_writes_pnm_pwg_partial.
Print Assumptions C14_writes_pnm_urf_partial.

(** Finding: for 1-bit pages pwg2ppm writes a P4 header followed by a maximum value, which
    P4 files do not have: read as a PBM file the data are not those of the page. *)
Definition p4_written : list byte :=
  bytes_of_string "P4" ++ nl ++ bytes_of_string "8 1" ++ nl ++ bytes_of_string "255" ++ nl ++ [bZ 170].
Theorem C14_bilevel_refuted :
  (exists raster, ppm2pwg_main no_options (map bZ [80; 52; 10; 56; 32; 49; 10; 170]) = Ok (0, raster) /\
     pwg2ppm raster "x" = Ok (0, [("x1.pbm"%string, p4_written)])) /\
  ~ exists tail q, pnm_text tail q p4_written.
Proof.
  assert (W : forall z, In (bZ z) (map bZ [32; 9; 10; 11; 12; 13]) -> white (bZ z)) by (intros; assumption).
  split.
  - eexists. split; [vm_compute; reflexivity|]. vm_compute. reflexivity.
  - intros (tail & q & Hok & hdr & Hh & E).
    assert (H0 : pnm_header PBM 8 1 newline (map bZ [80; 52; 10; 56; 32; 49; 10])).
    { exists (map bZ [10]), (map bZ [56]), (map bZ [32]), (map bZ [49]), [].
      split; [reflexivity|]. split; [left; split; [discriminate|repeat constructor; apply W; simpl; tauto]|].
      split; [apply (number_one 8); lia|].
      split; [split; [discriminate|repeat constructor; apply W; simpl; tauto]|].
      split; [apply (number_one 1); lia|]. split; [reflexivity|apply W; simpl; tauto]. }
    destruct (pnm_header_unique _ _ _ _ _ (map bZ [50; 53; 53; 10; 170]) _ _ _ _ _ (pic_data q) H0 Hh E)
      as (K1 & K2 & K3 & _ & _ & K4).
    destruct Hok as (_ & _ & Hl). rewrite <- K1, <- K2, <- K3, <- K4 in Hl. vm_compute in Hl. discriminate.
Qed.
Print Assumptions C14_bilevel_refuted.

(** ** C09 *)
(** The encoded 16-bit page is right: decoding with the bytes per pixel (BitsPerPixel/8 of
    the header) instead of NumColors gives the bitmap back.  Missing: that pwg2ppm does so. *)
Theorem C09_sixteen_bit_decodable_partial : forall p page W H (img : list (list (list byte))) extra rest,
  sane_geometry p -> params_in_range p -> fits_field (p_mediaType p) -> fits_field (p_paperSizeName p) ->
  getPaperSizeWInPixels p = Ok W -> getPaperSizeHInPixels p = Ok H -> W < 2 ^ 32 -> H < 2 ^ 32 ->
  image_of_size (unit_bytes (p_colorMode p)) (Z.to_nat W) (Z.to_nat H) img ->
  line_bytes (p_colorMode p) W < 2 ^ 31 -> back_side (p_duplexMode p) page = false ->
  p_format p <> URF -> mode_bits (p_colorMode p) = 16%nat ->
  exists hdr body bpl bpp,
    bmp_to_pwg (flat img ++ extra) page p = Ok (hdr ++ body) /\ length hdr = 1796%nat /\
    u32_at hdr off_BytesPerLine = Some bpl /\ u32_at hdr off_BitsPerPixel = Some bpp /\
    raster_to_bmp (body ++ rest) bpl H (bpp / 8) false = Ok (flat img, rest).
Proof.
  intros p page W H img extra rest H1 HR F1 F2 H2 H3 HW32 H32 H4 H5 H6 H7 H8.
  assert (Hw : line_units (p_colorMode p) (Z.to_nat W) = Z.to_nat W) by (destruct (p_colorMode p); try discriminate; reflexivity).
  rewrite <- Hw in H4.
  destruct (sane_bounds _ _ _ H1 H2 H3) as [HWb HHb].
  destruct (sane_page None p page W H img extra H1 H2 H3 H4 H5) as (hdr & body & Hh & Hl & Hb & Hc);
    [intros; contradiction|].
  rewrite H6 in Hc, Hh. cbn [fst snd] in Hc.
  assert (Hd : exists px py, froundZ (getPaperSizeWInPoints p) = Some px /\ froundZ (getPaperSizeHInPoints p) = Some py /\
     pwg_header_describes p false W H px py hdr).
  { apply make_pwg_hdr_describes; auto; unfold two32; try lia. revert Hh H7.
    unfold page_header. destruct (p_format p); congruence. }
  destruct Hd as (px & py & _ & _ & Hd). unfold pwg_header_describes in Hd.
  exists hdr, body, (line_bytes (p_colorMode p) W), (Z.of_nat (mode_colors (p_colorMode p) * mode_bits (p_colorMode p))).
  repeat split; try (apply Hd); auto.
  rewrite <- line_bytes_eq by lia.
  assert (Hlen : length img = Z.to_nat H) by apply H4.
  replace H with (Z.of_nat (length img)) by lia.
  replace (Z.of_nat (mode_colors (p_colorMode p) * mode_bits (p_colorMode p)) / 8) with (Z.of_nat (unit_bytes (p_colorMode p)))
    by (destruct (p_colorMode p); try discriminate; reflexivity).
  apply C02_decoder_inverts_pwg; [apply unit_pos| |lia].
  unfold xform in Hc. exact Hc.
Qed.
Example C09_example : let p := sample PWG sRGB48 OneSided Normal 1 2 in
  sane_geometry p /\ params_in_range p /\ image_of_size 6 1 2 [[map bZ [0; 1; 0; 2; 0; 3]]; [map bZ [9; 1; 9; 2; 9; 3]]] /\
  (let! page := bmp_to_pwg (map bZ [0; 1; 0; 2; 0; 3; 9; 1; 9; 2; 9; 3]) 1 p in raster_to_bmp (skipn 1796 page) 6 2 6 false)
  = Ok (map bZ [0; 1; 0; 2; 0; 3; 9; 1; 9; 2; 9; 3], []).
Proof.
  split; [repeat split; vm_compute; congruence|]. split; [repeat split; vm_compute; congruence|].
  split; [split; [reflexivity|repeat constructor]|]. vm_compute. reflexivity.
Qed.
Print Assumptions C09_sixteen_bit_decodable_partial.

(** Finding: pwg2ppm decodes with NumColors as the number of bytes per pixel, so a 16-bit
    PWG page is misread: the file below is valid (C03) but raises an exception. *)
Definition grey16 : picture := mkPic PGM16 2 1 (map bZ [0; 1; 0; 2]).
Definition grey16_text : list byte := map bZ [80; 53; 10; 50; 32; 49; 10; 54; 53; 53; 51; 53; 10] ++ pic_data grey16.
Definition rgb16 : picture := mkPic PPM16 1 1 (map bZ [0; 1; 0; 2; 0; 3]).
Definition rgb16_text : list byte := map bZ [80; 54; 10; 49; 32; 49; 10; 54; 53; 53; 51; 53; 10] ++ pic_data rgb16.
Lemma grey16_ok : pnm_text newline grey16 grey16_text /\ pnm_text newline rgb16 rgb16_text.
Proof.
  assert (W : forall z, In (bZ z) (map bZ [32; 9; 10; 11; 12; 13]) -> white (bZ z)) by (intros; assumption).
  split; (split; [vm_compute; intuition congruence|]).
  - exists (map bZ [80; 53; 10; 50; 32; 49; 10; 54; 53; 53; 51; 53; 10]). split; [|reflexivity].
    exists (map bZ [10]), (map bZ [50]), (map bZ [32]), (map bZ [49]), (map bZ [10; 54; 53; 53; 51; 53]).
    split; [reflexivity|]. split; [left; split; [discriminate|repeat constructor; apply W; simpl; tauto]|].
    split; [apply (number_one 2); lia|].
    split; [split; [discriminate|repeat constructor; apply W; simpl; tauto]|].
    split; [apply (number_one 1); lia|]. split; [|apply W; simpl; tauto].
    exists [bZ 10]. split; [split; [discriminate|repeat constructor; apply W; simpl; tauto]|reflexivity].
  - exists (map bZ [80; 54; 10; 49; 32; 49; 10; 54; 53; 53; 51; 53; 10]). split; [|reflexivity].
    exists (map bZ [10]), (map bZ [49]), (map bZ [32]), (map bZ [49]), (map bZ [10; 54; 53; 53; 51; 53]).
    split; [reflexivity|]. split; [left; split; [discriminate|repeat constructor; apply W; simpl; tauto]|].
    split; [apply (number_one 1); lia|].
    split; [split; [discriminate|repeat constructor; apply W; simpl; tauto]|].
    split; [apply (number_one 1); lia|]. split; [|apply W; simpl; tauto].
    exists [bZ 10]. split; [split; [discriminate|repeat constructor; apply W; simpl; tauto]|reflexivity].
Qed.
Theorem C09_sixteen_bit_refuted :
  (exists raster, ppm2pwg_main no_options rgb16_text = Ok (0, raster) /\ pwg2ppm raster "x" = Throw OutOfRange) /\
  (exists raster, ppm2pwg_main no_options grey16_text = Ok (0, raster) /\ pwg2ppm raster "x" = Throw OutOfRange).
Proof. split; eexists; (split; [vm_compute; reflexivity|]); vm_compute; reflexivity. Qed.
(** URF pages are decoded with the right pixel size, but the file written claims one byte
    per sample: the grey page below is a P5 file of 2x1 pixels followed by 4 bytes. *)
Theorem C09_sixteen_bit_urf_refuted :
  (let! (_, raster) := ppm2pwg_main some_options grey16_text in pwg2ppm raster "x")
  = Ok (0, [("x1.pgm"%string, bytes_of_string "P5" ++ nl ++ bytes_of_string "2 1" ++ nl ++ bytes_of_string "255" ++ nl ++ pic_data grey16)]).
Proof. vm_compute. reflexivity. Qed.
Print Assumptions C09_sixteen_bit_refuted.
Print Assumptions C09_sixteen_bit_urf_refuted.
