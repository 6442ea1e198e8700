(** C114: whatever its arguments and the document, pdf2printable comes to an end in a defined way. *)
From Verif Require Import Base BaseLemmas FloatModel StringModel StringProofs ParamsModel ParamsSpec ParamsProofs ParamsProperties RasterModel HeaderModel HeaderSpec HeaderProofs FloatLemmas GeometryProofs PageProofs RasterProperties
  RenderModel RenderProofs RenderProperties ScaleProperties PlaceProofs PlaceProperties IppEncProofs ArgModel MediaSizeProperties InchProperties TotalProperties JobProofs SafeProperties EndProperties PdfCmdModel PdfCmdProperties.
From Coq Require Import Lia Reals Lra ZifyBool ZifyNat.
From Flocq Require Import Core.Core IEEE754.BinarySingleNaN.
Local Open Scope Z_scope.
Local Notation plain := IppEncProofs.plain.

(** ** Specification *)
Definition raster_format (p : params) : Prop := p_format p = PWG \/ p_format p = URF.
(** poppler counts the pages with an int; cairo's surface has the pixels of the page *)
Definition sound_document (r : renderer) (p : params) : Prop :=
  (forall n, r_pages r = Some n -> 0 <= n < 2 ^ 31) /\
  (raster_format p -> forall w h i place data, getPaperSizeWInPixels p = Ok w -> getPaperSizeHInPixels p = Ok h -> r_draw r i place = Some data -> Z.of_nat (length data) = w * h).
(** a page of less than 2^31 bytes per line and less than 2^25 lines *)
Definition sound_page (p : params) : Prop :=
  sane_geometry p /\
  (raster_format p -> forall w h, getPaperSizeWInPixels p = Ok w -> getPaperSizeHInPixels p = Ok h -> line_bytes (p_colorMode p) w < 2 ^ 31 /\ h < 2 ^ 25).
(** what the format can express *)
Definition expressible (p : params) : Prop :=
  raster_format p -> p_colorMode p <> sRGB48 /\ p_colorMode p <> Gray16 /\ (p_format p = URF -> p_hwResW p = p_hwResH p -> urf_expressible p).
(** the options of a command line that a page depends on, if given: the paper size is
    sensible (C89), the resolutions are between 1 and 3000 *)
Definition sound_request (st : astate) : Prop :=
  (a_set st 5%nat = true -> sensible_size (as_str (a_val st 5%nat))) /\
  (forall i, In i [6; 7; 8]%nat -> a_set st i = true -> 1 <= as_int (a_val st i) <= 3000).

(** ** Proofs *)
(** *** Scaling *)
Lemma ofZ_converts z : 0 <= z <= 2 ^ 56 -> exists n, f_to_unsigned 64 (fofZ z) = Ok n.
Proof.
  intros Hz. assert (P : 2 ^ 56 <= 2 ^ 1000) by (pose proof small_pow; lia). pose proof (repr_ofZ_any z ltac:(lia)) as Hr.
  pose proof (rnd_abs_le (IZR z) 56 ltac:(lia)) as E. rewrite <- abs_IZR in E. change (bpow radix2 56) with (IZR (2 ^ 56)) in E. specialize (E ltac:(apply IZR_le; lia)). apply Rabs_le_inv in E.
  assert (B0 : (0 <= rnd (IZR z))%R) by (apply (rnd_ge_IZR _ 0); [lia|apply IZR_le; lia]).
  assert (B : 0 <= Zfloor (rnd (IZR z)) <= 2 ^ 56).
  { split; [apply Zfloor_lub; exact B0|]. apply le_IZR. apply Rle_trans with (rnd (IZR z)); [apply Zfloor_lb|lra]. }
  unfold f_to_unsigned. rewrite (repr_trunc _ _ Hr), Ztrunc_floor by exact B0. exists (Zfloor (rnd (IZR z))). replace ((0 <=? Zfloor (rnd (IZR z))) && (Zfloor (rnd (IZR z)) <? 2 ^ 64)) with true by lia. reflexivity.
Qed.
Lemma out_size_ok raster u x res : sane_size x -> 1 <= res < two32 -> exists n, out_size raster u x res = Ok n.
Proof.
  intros S R. unfold out_size. destruct raster.
  - destruct (sizeInPixels_ok u x res S R) as (w & -> & B). cbn [bind]. apply ofZ_converts. exact B.
  - destruct (sizeInPoints_ok u x res S R) as (r & Hr & B). unfold f_to_unsigned. rewrite (repr_trunc _ _ Hr), Ztrunc_floor by apply B.
    assert (0 <= Zfloor r <= 2 ^ 31) by (split; [apply Zfloor_lub; apply B|apply le_IZR; apply Rle_trans with r; [apply Zfloor_lb|apply B]]).
    exists (Zfloor r). replace ((0 <=? Zfloor r) && (Zfloor r <? 2 ^ 64)) with true by lia. reflexivity.
Qed.
Lemma scale_ok w h p : sane_geometry p -> exists t, fixup_scale w h p = Ok t.
Proof.
  intros (Sw & Sh & R1 & R2). unfold fixup_scale. destruct (if fltb h w then (h, w) else (w, h)) as [a b]. cbv zeta. set (m := Z.min _ _). assert (Bm : 1 <= m < two32) by (unfold m, two32; lia).
  destruct (out_size_ok (is_raster p) (p_units p) _ m Sh Bm) as [x ->]. destruct (out_size_ok (is_raster p) (p_units p) _ m Sw Bm) as [y ->]. cbn [bind].
  replace (p_hwResH p =? 0) with false by lia. replace (p_hwResW p =? 0) with false by lia. destruct (is_raster p && _); [eexists; reflexivity|]. destruct (is_raster p && _); eexists; reflexivity.
Qed.

(** *** Pages *)
Lemma raster_is p : is_raster p = true <-> raster_format p.
Proof. unfold is_raster, raster_format. destruct (p_format p); split; intros H; try discriminate; auto; destruct H; discriminate. Qed.
Lemma line_bytes_wide m w : 0 <= w -> w <= 8 * line_bytes m w /\ (w + 7) / 8 <= line_bytes m w.
Proof. intros H. unfold line_bytes. destruct m; cbn [mode_colors mode_bits]; lia. Qed.
Lemma page_paper p : sound_page p -> raster_format p -> exists w h, paper p w h /\ h < 2 ^ 25 /\ line_bytes (p_colorMode p) w < 2 ^ 31.
Proof.
  intros [(Sw & Sh & R1 & R2) B] F. destruct (sizeInPixels_ok (p_units p) _ (p_hwResW p) Sw ltac:(unfold two32; lia)) as (w & Hw & Bw). destruct (sizeInPixels_ok (p_units p) _ (p_hwResH p) Sh ltac:(unfold two32; lia)) as (h & Hh & Bh).
  destruct (B F w h Hw Hh) as [B1 B2]. pose proof (line_bytes_wide (p_colorMode p) w ltac:(lia)). exists w, h. split; [|auto]. split; [exact Hw|]. split; [exact Hh|]. change (2 ^ 60) with 1152921504606846976. change (2 ^ 31) with 2147483648 in *. change (2 ^ 25) with 33554432 in *. nia.
Qed.
Lemma copied p w h bmp data : paper p w h -> h < 2 ^ 25 -> Z.of_nat (length data) = w * h ->
  (exists out, copy_raster_buffer bmp data p = Ok out /\ h * line_bytes (p_colorMode p) w <= Z.of_nat (length out)) \/
  (copy_raster_buffer bmp data p = Throw LogicError /\ (p_colorMode p = sRGB48 \/ p_colorMode p = Gray16)).
Proof.
  intros Hp Hh Hd. assert (Bh : 56 * h < 2147483648) by lia. assert (Bw : 0 <= w /\ 0 <= h) by (destruct Hp as (_ & _ & A & B & _); lia).
  destruct (mode_pixel (p_colorMode p)) as [[n f]|] eqn:Em.
  - left. destruct (copy_page p bmp data w h n f Hp Em Hd) as (ls & E & M). exists (concat ls). split; [exact E|].
    assert (L : Z.of_nat (length (concat ls)) = n * Z.of_nat (length data)).
    { clear - M Em. revert data M. induction ls as [|l ls IH]; intros [|v data] M; try discriminate; [cbn; lia|]. cbn [map] in M. injection M as M1 M2. cbn [concat length]. rewrite app_length.
      destruct (mode_pixel_total _ _ _ v Em) as (_ & l' & E & L). rewrite E in M1. injection M1 as ->. rewrite Nat2Z.inj_add, (IH _ M2). lia. }
    assert (LB : line_bytes (p_colorMode p) w <= n * w) by (unfold line_bytes; destruct (p_colorMode p); try discriminate; injection Em as <- _; cbn [mode_colors mode_bits]; lia). rewrite L, Hd. nia.
  - destruct (p_colorMode p) eqn:Ec; try discriminate Em.
    + left. destruct (dither_page p bmp data w h false Hp Ec Hd Bh) as (out & E & L & _). exists out. split; [exact E|]. rewrite L. replace (line_bytes _ w) with ((w + 7) / 8) by (unfold line_bytes; cbn [mode_colors mode_bits]; lia). nia.
    + left. destruct (dither_page p bmp data w h true Hp Ec Hd Bh) as (out & E & L & _). exists out. split; [exact E|]. rewrite L. replace (line_bytes _ w) with ((w + 7) / 8) by (unfold line_bytes; cbn [mode_colors mode_bits]; lia). nia.
    + right. split; [|auto]. unfold copy_raster_buffer. rewrite (paper_pixels p w h Hp). cbn [bind]. unfold getPaperSizeInBytes, getPaperSizeWInBytes. destruct Hp as (Hw & Hhh & _). rewrite Hw, Hhh.
      unfold getBitsPerColor, getNumberOfColors. rewrite Ec. reflexivity.
    + right. split; [|auto]. unfold copy_raster_buffer. rewrite (paper_pixels p w h Hp). cbn [bind]. unfold getPaperSizeInBytes, getPaperSizeWInBytes. destruct Hp as (Hw & Hhh & _). rewrite Hw, Hhh.
      unfold getBitsPerColor, getNumberOfColors. rewrite Ec. reflexivity.
Qed.
(** [o] is a value, or an exception because of what the format cannot express *)
Definition answered {A} (p : params) (o : outcome A) : Prop := plain o /\ (expressible p -> exists a, o = Ok a).
Lemma answered_ok {A} p (a : A) : answered p (Ok a). Proof. split; [exact I|eauto]. Qed.
Lemma answered_bind {A B} p (o : outcome A) (k : A -> outcome B) : answered p o -> (forall a, o = Ok a -> answered p (k a)) -> answered p (let! x := o in k x).
Proof.
  intros [P E] K. split; [apply plain_bind; [exact P|]; intros a H; apply (K a H)|]. intros X. destruct (E X) as [a ->]. cbn [bind]. apply (K a eq_refl). exact X.
Qed.
Lemma encoded p w h bmp page : sane_geometry p -> paper p w h -> raster_format p -> (p_format p = URF -> p_hwResW p = p_hwResH p) -> line_bytes (p_colorMode p) w < 2 ^ 31 -> h * line_bytes (p_colorMode p) w <= Z.of_nat (length bmp) -> answered p (bmp_to_pwg bmp page p).
Proof.
  intros G (Hw & Hh & _) F Q B L. assert (S : (p_format p = URF -> urf_expressible p) -> exists out, bmp_to_pwg bmp page p = Ok out).
  { intros X. exact (C04_encoder_memory_safe_partial p page w h bmp G Hw Hh B L X). }
  split.
  - destruct (p_format p) eqn:Ef; try (destruct S as [out ->]; [intros A; discriminate A|exact I]). destruct (expressible_dec p) as [X|X]; [destruct S as [out ->]; [auto|exact I]|].
    unfold bmp_to_pwg. rewrite Ef. destruct (make_urf_hdr_refused p X) as [-> | ->]; exact I.
  - intros X. apply S. intros U. apply (X F); [exact U|exact (Q U)].
Qed.
Lemma pages_end r wr p total : sound_page p -> sound_document r p -> (p_format p = URF -> p_hwResW p = p_hwResH p) -> forall seq i bmp out seen, answered p (print_pages r wr p total seq i bmp out seen).
Proof.
  intros G D Q. induction seq as [|n seq IH]; intros i bmp out seen; [apply answered_ok|]. cbn [print_pages]. apply answered_bind.
  { destruct (n =? INVALID_PAGE); [apply answered_ok|]. destruct (r_size r n) as [w h]. destruct (scale_ok w h p (proj1 G)) as [t ->]. apply answered_ok. }
  intros place _. destruct (r_draw r (i + 1) place) as [data|] eqn:Ed; [|apply answered_ok]. apply answered_bind.
  { destruct (is_raster p) eqn:Er; [|apply answered_ok]. apply raster_is in Er. destruct (page_paper p G Er) as (w & h & Hp & Bh & Bl). pose proof Hp as (Hw & Hh & _). pose proof (proj2 D Er w h _ _ _ Hw Hh Ed) as Hl.
    destruct (copied p w h bmp data Hp Bh Hl) as [(c & -> & L)|[-> M]].
    - cbn [bind]. apply answered_bind; [apply (encoded p w h); auto; apply G|]. intros; apply answered_ok.
    - split; [exact I|]. intros X. destruct (X Er) as (N1 & N2 & _). destruct M; contradiction. }
  intros [b o] _. destruct (wr seen o); [apply IH|apply answered_ok].
Qed.
Lemma printable_ends r wr p : sound_page p -> sound_document r p -> answered p (pdf_to_printable r wr p).
Proof.
  intros G D. unfold pdf_to_printable. destruct (match p_format p with URF => _ | _ => false end) eqn:Eu; [apply answered_ok|].
  assert (Q : p_format p = URF -> p_hwResW p = p_hwResH p) by (intros U; rewrite U in Eu; lia). destruct (r_pages r) as [n|] eqn:En; [|apply answered_ok]. pose proof (proj1 D n En) as Bn.
  destruct (sequence_total p n ltac:(unfold two64; lia)) as [seq ->]. cbn [bind]. apply answered_bind.
  { destruct (is_raster p) eqn:Er; [|apply answered_ok]. apply raster_is in Er. destruct (page_paper p G Er) as (w & h & (-> & -> & _) & _). apply answered_ok. }
  intros o _. assert (K : answered p (let! (seen, err, outBts) := print_pages r wr p (Z.of_nat (length seq)) seq 0 [] o [] in
    match err with Some e => Ok (seen, Some e) | None => let outBts := if is_raster p then outBts else outBts ++ r_finish r in
      match outBts with [] => Ok (seen, None) | _ => if wr seen outBts then Ok (seen ++ [Wrote outBts], None) else Ok (seen ++ [Wrote outBts], Some "Write error"%string) end end)).
  { apply answered_bind; [apply pages_end; assumption|]. intros [[seen [e|]] b] _; [apply answered_ok|]. cbv zeta. destruct (if is_raster p then b else b ++ r_finish r); [apply answered_ok|]. destruct (wr seen _); apply answered_ok. }
  destruct (p_format p); try exact K. apply answered_ok.
Qed.

(** *** The command line *)
Definition side (x : f64) : Prop := exists r, repr x r /\ (0 <= r <= 10002)%R.
Lemma side_sane x : side x -> sane_size x.
Proof.
  intros (r & (b & <- & F & <-) & B). change (sane_size (B2SF b)). destruct b as [s|s| |s m e He]; try discriminate F; [exact I|]. cbn [B2R] in B. unfold F2R in B. cbn [Fnum Fexp] in B.
  assert (P : (0 < bpow radix2 e)%R) by apply bpow_gt_0. destruct s; cbn [cond_Zopp] in B.
  - exfalso. assert (IZR (- Zpos m) <= -1)%R by (apply IZR_le; lia). change (Z.neg m) with (- Z.pos m) in B. nra.
  - cbn [B2SF sane_size]. split; [exact He|]. unfold max_size. destruct (Z.leb_spec 0 e).
    + apply le_IZR. rewrite <- scaled_pos by assumption. lra.
    + rewrite scaled_neg in B by assumption. assert (Hk : 0 < 2 ^ (- e)) by (apply Z.pow_pos_nonneg; lia). apply IZR_lt in Hk. apply le_IZR. rewrite mult_IZR.
      assert (IZR (Zpos m) <= 10002 * IZR (2 ^ (- e)))%R; [|nra]. apply Rmult_le_reg_r with (/ IZR (2 ^ (- e)))%R; [apply Rinv_0_lt_compat; exact Hk|]. rewrite Rmult_assoc, Rinv_r, Rmult_1_r by lra. apply B.
Qed.
Lemma side_pixels u x res : u <> Pixels -> side x -> 1 <= res <= 3000 -> forall w, sizeInPixels u x res = Ok w -> w < 2 ^ 25.
Proof.
  intros U (r & Hr & B) R w H. assert (R2 : 1 <= res < two32) by (unfold two32; lia). assert (B2 : (0 <= r <= IZR max_size)%R) by (change (IZR max_size) with 10000000%R; lra).
  destruct (pixels_fine u x r res w U Hr B2 R2 H) as (v & -> & Fv). set (g := match u with Millimeters => _ | _ => _ end) in *.
  assert (Pg : (0 <= g <= 1)%R).
  { unfold g. pose proof f25_4_val. destruct u; try lra. split; [left; apply Rinv_0_lt_compat; lra|]. rewrite <- Rinv_1. apply Rinv_le; lra. }
  clearbody g. unfold fine in Fv. apply Rabs_le_inv in Fv. assert (Q : (0 <= r * IZR res <= 30006000)%R).
  { assert (1 <= IZR res <= 3000)%R by (split; apply IZR_le; lia). nra. }
  set (y := (r * IZR res)%R) in *. clearbody y. assert (Y : (0 <= y * g <= 30006000)%R) by nra. set (z := (y * g)%R) in *. clearbody z. unfold eps53, tiny in Fv.
  apply lt_IZR. apply Rle_lt_trans with v; [apply Zfloor_lb|]. change (IZR (2 ^ 25)) with 33554432%R. lra.
Qed.
Lemma number_side t x : (exists n d k, decimal_text t n d k) -> sensible_number t -> from_string t = Ok x -> side x.
Proof.
  intros (n & d & k & H) S Hx. destruct (S n d k H) as [Hn Hk]. destruct (decimal_bounds _ _ _ _ H) as [Pn Pd].
  assert (T : 1 <= 10 ^ Z.of_nat k <= 10 ^ 15) by (split; [apply (Z.pow_le_mono_r 10 0)|apply Z.pow_le_mono_r]; lia). set (p := 10 ^ Z.of_nat k) in *. change (10 ^ 15) with 1000000000000000 in T.
  destruct (from_string_repr t n d k H ltac:(lia) ltac:(lia) ltac:(lia)) as [x' [r [Hx' [Hr [He [_ _]]]]]]. assert (x' = x) by congruence. subst x'. exists r. split; [exact Hr|].
  cbv zeta in He. fold p in He. apply Rabs_le_inv in He. change (2 ^ 51) with 2251799813685248 in He.
  assert (Q : (0 <= IZR d / IZR p <= 1)%R).
  { assert (0 < IZR p)%R by (apply IZR_lt; lia). assert (0 <= IZR d <= IZR p)%R by (split; apply IZR_le; lia). split; [apply Rmult_le_pos; [lra|left; apply Rinv_0_lt_compat; lra]|].
    apply Rmult_le_reg_r with (IZR p); [lra|]. unfold Rdiv. rewrite Rmult_assoc, Rinv_l, Rmult_1_r by lra. lra. }
  assert (0 <= IZR n <= 10000)%R by (split; apply IZR_le; lia). lra.
Qed.
Definition modest (p : params) : Prop := side (p_sizeW p) /\ side (p_sizeH p) /\ p_units p <> Pixels /\ 1 <= p_hwResW p <= 3000 /\ 1 <= p_hwResH p <= 3000.
Lemma modest_page p : modest p -> sound_page p.
Proof.
  intros (S1 & S2 & U & R1 & R2). split; [repeat split; try (apply side_sane; assumption); lia|]. intros _ w h Hw Hh. pose proof (side_pixels _ _ _ U S1 R1 w Hw) as Bw. pose proof (side_pixels _ _ _ U S2 R2 h Hh) as Bh. split; [|exact Bh].
  assert (0 <= w).
  { destruct (sizeInPixels_ok (p_units p) _ (p_hwResW p) (side_sane _ S1) ltac:(unfold two32; lia)) as (w' & Hw' & B'). unfold getPaperSizeWInPixels in Hw. rewrite Hw in Hw'. injection Hw' as <-. lia. }
  change (2 ^ 25) with 33554432 in *. change (2 ^ 31) with 2147483648. unfold line_bytes. destruct (p_colorMode p); cbn [mode_colors mode_bits]; lia.
Qed.
Lemma side_default : side (fofZ 210) /\ side (fofZ 297).
Proof. split; eexists; (split; [apply repr_ofZ; lia|]); lra. Qed.
Lemma page_range_keeps p s b p' : setPageRange p s = Ok (b, p') -> keeps_rest p p' /\ keeps_paper p p'.
Proof. intros H. pose proof (C16_exact_grammar_partial p s) as K. rewrite H in K. destruct b; intuition. Qed.
Lemma page_range_plain p s : plain (setPageRange p s).
Proof. pose proof (C16_exact_grammar_partial p s) as K. destruct (setPageRange p s) as [[b p']| | | |]; try exact I; destruct K. Qed.
(** the parameters a command line asks for are modest ones *)
Lemma params_modest st : sound_request st -> plain (pdf_params st) /\ (forall p, pdf_params st = Ok (Some p) -> modest p).
Proof.
  intros [S R]. unfold pdf_params. set (p0 := parsed_params st).
  assert (M0 : side (p_sizeW p0) /\ side (p_sizeH p0) /\ p_units p0 <> Pixels /\ p_hwResW p0 = 300 /\ p_hwResH p0 = 300).
  { split; [apply side_default|]. split; [apply side_default|]. split; [discriminate|]. split; reflexivity. }
  clearbody p0. set (o1 := if a_set st 3%nat then _ else _).
  assert (H1 : plain o1 /\ forall b p, o1 = Ok (b, p) -> side (p_sizeW p) /\ side (p_sizeH p) /\ p_units p <> Pixels /\ p_hwResW p = 300 /\ p_hwResH p = 300).
  { unfold o1. destruct (a_set st 3%nat); [|split; [exact I|]; intros b p H; injection H as <- <-; exact M0]. split; [apply page_range_plain|]. intros b p H.
    destruct (page_range_keeps _ _ _ _ H) as [(_ & _ & _ & _ & K1 & K2 & _) (_ & K3 & K4 & K5)]. rewrite K1, K2, K3, K4, K5. exact M0. }
  clearbody o1. destruct H1 as [P1 H1]. destruct o1 as [[b1 p1]| | | |]; try destruct P1; [|split; [exact I|discriminate]]. specialize (H1 _ _ eq_refl). cbn [bind]. destruct (negb b1); [split; [exact I|discriminate]|].
  set (o2 := if a_set st 5%nat then _ else _).
  assert (H2 : plain o2 /\ forall b p, o2 = Ok (b, p) -> b = true -> side (p_sizeW p) /\ side (p_sizeH p) /\ p_units p <> Pixels /\ p_hwResW p = 300 /\ p_hwResH p = 300).
  { unfold o2. destruct (a_set st 5%nat); [|split; [exact I|]; intros b p H _; injection H as <- <-; exact H1]. specialize (S eq_refl). split; [apply paper_plain|]. intros b p H ->.
    pose proof (C20_accepts_exactly_partial p1 (as_str (a_val st 5%nat))) as A. rewrite H in A. destruct A as (w & h & inches & Hs & _). destruct (S _ _ _ Hs) as [Sw Sh]. destruct (paper_of _ _ _ _ _ _ Hs H) as (F1 & F2 & F3).
    destruct (setPaperSize_kept _ _ _ _ H) as (_ & _ & Rw & Rh & _). rewrite Rw, Rh. destruct Hs as (_ & Dw & Dh). split; [apply (number_side w); assumption|]. split; [apply (number_side h); assumption|]. split; [rewrite F3; destruct inches; discriminate|]. apply H1. }
  clearbody o2. destruct H2 as [P2 H2]. destruct o2 as [[b2 p2]| | | |]; try destruct P2; [|split; [exact I|discriminate]]. specialize (H2 _ _ eq_refl). cbn [bind]. destruct b2; cbn [negb]; [|split; [exact I|discriminate]]. destruct (H2 eq_refl) as (S1 & S2 & U & R1 & R2).
  destruct (urf_refuses st _); [split; [exact I|discriminate]|]. split; [exact I|]. intros p H. injection H as <-. unfold resolved, with_sides, modest. cbn [p_sizeW p_sizeH p_units p_hwResW p_hwResH].
  assert (T : forall i, In i [6; 7; 8]%nat -> a_set st i = true -> 1 <= as_int (a_val st i) mod two32 <= 3000) by (intros i Hi Ha; pose proof (R i Hi Ha); rewrite Z.mod_small by (unfold two32; lia); assumption).
  split; [exact S1|]. split; [exact S2|]. split; [exact U|]. split.
  - destruct (a_set st 7%nat) eqn:E7; [apply T; [cbn; tauto|exact E7]|]. destruct (a_set st 6%nat) eqn:E6; [apply T; [cbn; tauto|exact E6]|]. rewrite R1. lia.
  - destruct (a_set st 8%nat) eqn:E8; [apply T; [cbn; tauto|exact E8]|]. destruct (a_set st 6%nat) eqn:E6; [apply T; [cbn; tauto|exact E6]|]. rewrite R2. lia.
Qed.
Lemma unopened_sound p : sound_document unopened p.
Proof. split; intros; discriminate. Qed.

(** ** C114 *)
(** The conversion ends in a defined way for all documents, page sizes, writers and
    parameters with a page within bounds; it ends without an exception if the format can
    express the colour mode and the medium.  Missing: pages out of bounds, see C114_refuted. *)
Theorem C114_conversion_partial : forall r wr p, sound_page p -> sound_document r p ->
  defined (pdf_to_printable r wr p) /\ (expressible p -> exists seen err, pdf_to_printable r wr p = Ok (seen, err)).
Proof.
  intros r wr p G D. destruct (printable_ends r wr p G D) as [P E]. split; [apply defined_plain; exact P|]. intros X. destruct (E X) as [[seen err] ->]. eauto.
Qed.
(** So does the command, for all command lines whose paper size and resolutions, if given,
    are within bounds. *)
Theorem C114_command_partial : forall e args,
  (forall r st, get_args pdf_switches pdf_pos pdf_init args = Ok (r, st) -> sound_request st /\ forall p, pdf_params st = Ok (Some p) -> forall content, sound_document (e_doc e content) p) ->
  defined (pdf2printable_cmd e args).
Proof.
  intros e args H. apply defined_plain. unfold pdf2printable_cmd. pose proof (get_args_plain pdf_switches pdf_pos pdf_init args) as P.
  destruct (get_args pdf_switches pdf_pos pdf_init args) as [[[ok msg] st]| | | |] eqn:E; try destruct P; [|exact I]. destruct (H _ _ eq_refl) as [S D]. cbn [bind].
  destruct (as_bool _); [exact I|]. destruct (negb ok); [exact I|]. destruct (params_modest st S) as [P M]. apply plain_bind; [exact P|]. intros [p|] Hp; [|exact I].
  pose proof (modest_page p (M p Hp)) as G. specialize (D p Hp). unfold convert_file. apply plain_bind.
  { destruct (match p_format p with URF => _ | _ => false end); [exact I|]. unfold open_document. destruct (String.eqb _ _); [exact I|]. apply plain_bind; [|intros path _; destruct (unescape path); exact I].
    unfold absolute. destruct (as_str (a_val st 17%nat)) as [|c s]; [exact I|]. destruct (Ascii.eqb c _); [exact I|]. destruct (string_ends_with _ _); exact I. }
  intros r Hr. assert (Dr : sound_document r p).
  { destruct (match p_format p with URF => _ | _ => false end); [injection Hr as <-; apply unopened_sound|]. unfold open_document in Hr. destruct (String.eqb _ _); [injection Hr as <-; apply D|].
    bind_inv Hr as path H1 H2. destruct (unescape path) as [path'|]; [|injection H2 as <-; apply unopened_sound]. cbv zeta in H2. injection H2 as <-. match goal with |- sound_document (match ?c with Some _ => _ | None => _ end) _ => destruct c; [apply D|apply unopened_sound] end. }
  apply plain_bind; [apply (proj1 (printable_ends r _ p G Dr))|]. intros [ev err] _. exact I.
Qed.
(** Finding: a resolution of zero in one direction divides by zero; a paper size of 20 digits
    cannot be converted to a number of pixels. *)
Definition blank_doc : renderer := {| r_pages := Some 1; r_size := fun _ => (fofZ 595, fofZ 842); r_draw := fun _ _ => Some []; r_stream := fun _ _ => []; r_finish := [] |}.
Definition blank_env : pdf_env := mkEnv (fun _ => blank_doc) "/home" [] (fun _ => Some []) (fun _ => None).
Theorem C114_refuted :
  pdf2printable_cmd blank_env ["-rx"; "0"; "in.pdf"; "out.pwg"]%string = UB
  /\ pdf2printable_cmd blank_env ["-ry"; "0"; "in.pdf"; "out.pwg"]%string = UB
  /\ pdf2printable_cmd blank_env ["-r"; "300"; "--paper-size"; "a_10000000000000000000x1mm"; "in.pdf"; "out.pwg"]%string = UB
  /\ sound_document blank_doc (with_sides default_params 0 300 OneSided).
Proof. split; [vm_compute; reflexivity|]. split; [vm_compute; reflexivity|]. split; [vm_compute; reflexivity|]. split; [intros n H; injection H as <-; lia|]. intros [K|K]; discriminate K. Qed.

(** ** Examples *)
(** A document of three pages of two pixels, one of them a PDF's, in a mode that is dithered *)
Example C114_conversion_example : let p := small_paper Black1 PWG 2 1 in sound_page p /\ sound_document example_doc p /\ expressible p /\
  exists seen, pdf_to_printable example_doc accept p = Ok (seen, None) /\ length seen = 8%nat.
Proof.
  cbv zeta. split; [|split; [|split]].
  - split; [repeat split; try (apply sane_fofZ; unfold max_size; lia); vm_compute; intuition congruence|]. intros _ w h Hw Hh. vm_compute in Hw, Hh. injection Hw as <-. injection Hh as <-. vm_compute. split; reflexivity.
  - split; [intros n H; injection H as <-; lia|]. intros _ w h i [[n t]|] data Hw Hh H; vm_compute in Hw, Hh; injection Hw as <-; injection Hh as <-; injection H as <-; reflexivity.
  - intros _. split; [discriminate|]. split; [discriminate|]. discriminate.
  - eexists. split; [vm_compute; reflexivity|reflexivity].
Qed.
(** A page of 17 by 11 pixels, asked for on the command line *)
Definition blank_page : renderer := {| r_pages := Some 1; r_size := fun _ => (fofZ 595, fofZ 842); r_draw := fun _ _ => Some (repeat 0 (Z.to_nat 187)); r_stream := fun _ _ => []; r_finish := [] |}.
Definition page_env : pdf_env := mkEnv (fun _ => blank_page) "/home" [] (fun _ => Some []) (fun _ => Some 2000).
Definition page_args : list string := ["-rx"; "432"; "-ry"; "300"; "--paper-size"; "a_1x1mm"; "-c"; "gray8"; "in.pdf"; "out.pwg"]%string.
Example C114_command_example :
  (forall r st, get_args pdf_switches pdf_pos pdf_init page_args = Ok (r, st) -> sound_request st /\ forall p, pdf_params st = Ok (Some p) -> forall content, sound_document (e_doc page_env content) p) /\
  exists out, pdf2printable_cmd page_env page_args = Ok (0, Some ("/home/out.pwg"%string, out)) /\ Z.of_nat (length out) = 1803.
Proof.
  split.
  - intros r st H. vm_compute in H. injection H as _ <-. split.
    + split; [intros _; change (sensible_size "a_1x1mm"); eapply short_size; [vm_compute; reflexivity|cbn; lia|cbn; lia]|]. intros i [<-|[<-|[<-|[]]]] H; vm_compute in H |- *; try discriminate H; split; discriminate.
    + intros p Hp content. vm_compute in Hp. injection Hp as <-. split; [intros n H; injection H as <-; lia|]. intros _ w h i place data Hw Hh H. vm_compute in Hw, Hh. injection Hw as <-. injection Hh as <-. injection H as <-. reflexivity.
  - eexists. split; [vm_compute; reflexivity|reflexivity].
Qed.
Print Assumptions C114_conversion_partial.
Print Assumptions C114_command_partial.
Print Assumptions C114_refuted.
