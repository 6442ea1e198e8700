(** What a successful finalize does, field by field. *)
From Verif Require Import Base BaseLemmas MapModel MapProofs FloatModel StringModel ParamsModel IppModel IppEncProofs ArgModel
  SettingModel SettingProperties ConverterModel JobModel JobProofs.
From Coq Require Import Lia ZifyBool.
Local Open Scope Z_scope.

(** the input is rasterised here *)
Definition rasterised (inp t : string) : bool := String.eqb inp mPDF && isPrinterRaster t.
Lemma format_for_raster inp t : (format_for inp t = PWG /\ inp = mPDF /\ t = mPWG /\ rasterised inp t = true) \/
  (format_for inp t = URF /\ inp = mPDF /\ t = mURF /\ rasterised inp t = true) \/
  (match format_for inp t with PWG | URF => False | _ => True end /\ rasterised inp t = false).
Proof.
  unfold format_for, rasterised, isPrinterRaster. destruct (String.eqb_spec inp mPDF) as [->|]; cbn [andb]; [|right; right; split; [exact I|reflexivity]].
  destruct (String.eqb_spec t mPDF) as [->|]; [right; right; split; [exact I|reflexivity]|].
  destruct (String.eqb_spec t mPostscript) as [->|]; [right; right; split; [exact I|reflexivity]|].
  destruct (String.eqb_spec t mPWG) as [->|]; [left; auto|].
  destruct (String.eqb_spec t mURF) as [->|]; [right; left; auto|].
  right; right; split; [exact I|reflexivity].
Qed.

Lemma adjust_inv j pages j' : wf_job (j_jobAttrs j) -> adjustRasterSettings j pages = Ok j' ->
  (match p_format (j_params j) with PWG | URF => False | _ => True end /\ j' = j) \/
  (match p_format (j_params j) with PWG | URF => True | _ => False end /\
   exists m x y b j1, wf_job m /\ adjust_resolution (with_job j m) = Ok (with_params (with_job j m) (set_res (j_params j) x y)) /\
     (forall s, job_setting s -> lookup s m = if same s s_resolution then None else lookup s (j_jobAttrs j)) /\
     j1 = with_params (with_job j m) (set_back (set_res (j_params j) x y) b) /\ take_copies j1 pages = Ok j').
Proof.
  intros Hm H. unfold adjustRasterSettings in H.
  assert (D : (let! j0 := unset_job j s_resolution in let! j1 := adjust_resolution j0 in let! j2 := back_side j1 in take_copies j2 pages) = Ok j' ->
    exists m x y b j1, wf_job m /\ adjust_resolution (with_job j m) = Ok (with_params (with_job j m) (set_res (j_params j) x y)) /\
     (forall s, job_setting s -> lookup s m = if same s s_resolution then None else lookup s (j_jobAttrs j)) /\
     j1 = with_params (with_job j m) (set_back (set_res (j_params j) x y) b) /\ take_copies j1 pages = Ok j').
  { clear H. intros H. bind_inv H as j0 H0 K. apply unset_job_inv in H0; [|exact Hm|apply js_res]. destruct H0 as [m [-> [W L]]].
    bind_inv K as j1 H1 K. pose proof H1 as H1'. apply adjust_resolution_inv in H1. destruct H1 as [x [y ->]].
    bind_inv K as j2 H2 K. apply back_side_inv in H2. destruct H2 as [b ->].
    exists m, x, y, b. eexists. split; [exact W|]. split; [exact H1'|]. split; [exact L|]. split; [reflexivity|]. exact K. }
  destruct (p_format (j_params j)); first [left; split; [exact I|congruence]|right; split; [exact I|apply D; exact H]].
Qed.

Record summary (j : job) (inp : string) (pages : Z) (j' : job) : Prop := mkSummary {
  sm_target : determineTargetFormat j inp = Ok (j_target j') /\ j_target j' <> ""%string /\ j_target j' <> OctetStream;
  sm_printer : j_printerAttrs j' = j_printerAttrs j /\ j_additional j' = j_additional j;
  sm_format : p_format (j_params j') = format_for inp (j_target j');
  sm_op : sorted_keys (j_opAttrs j) -> exists sup, supported_strs j s_documentFormat = Ok sup /\
     map_get "document-format" (j_opAttrs j') = Some (tMimeMediaType, VStr (if contains sup (j_target j') then j_target j' else OctetStream));
  sm_wf : wf_job (j_jobAttrs j');
  sm_margins : j_margins j' = if isImage (j_target j') then j_margins j else
     let v s := v_int (value_of (j_printerAttrs j) s (j_jobAttrs j) (VInt 0)) in mkMargins (v s_topMargin) (v s_bottomMargin) (v s_leftMargin) (v s_rightMargin);
  sm_margin_attrs : forall s, is_margin s = true -> job_setting s ->
     lookup s (j_jobAttrs j') = if isImage (j_target j') then lookup s (j_jobAttrs j) else None;
  sm_ranges : exists l, (inp = mPDF -> attrs_getList TRange "page-ranges" (j_jobAttrs j) = Ok l) /\ (inp <> mPDF -> l = []) /\
     p_pageRanges (j_params j') = p_pageRanges (j_params j) ++ map (fun v => match v with VRange lo hi => (lo mod two64, hi mod two64) | _ => (0, 0) end) l;
  sm_range_attrs : lookup s_pageRanges (j_jobAttrs j') = if String.eqb inp mPDF then None else lookup s_pageRanges (j_jobAttrs j);
  sm_copies : let n := v_int (value_of (j_printerAttrs j) s_copies (j_jobAttrs j) (VInt 1)) in
     (rasterised inp (j_target j') = true -> exists sup, printer_copies j = Ok sup) /\
     if rasterised inp (j_target j') && (n >? 1) && match printer_copies j with Ok false => true | _ => false end
     then lookup s_copies (j_jobAttrs j') = None /\ p_copies (j_params j') = n mod two64
     else lookup s_copies (j_jobAttrs j') = lookup s_copies (j_jobAttrs j) /\ p_copies (j_params j') = p_copies (j_params j);
  sm_media : match lookup s_media (j_jobAttrs j) with
     | None => lookup s_media (j_jobAttrs j') = None
     | Some a => lookup s_media (j_jobAttrs j') = Some a \/ lookup s_media (j_jobAttrs j') = None /\ exists x y,
         hundredths (getPaperSizeWInMillimeters (j_params j')) = Ok x /\ hundredths (getPaperSizeHInMillimeters (j_params j')) = Ok y /\
         lookup s_mediaSize (j_jobAttrs j') = Some (tBeginCollection, dims x y)
     end;
  sm_paper : exists p0, setPaperSize (j_params j) (v_str (value_of (j_printerAttrs j) s_media (j_jobAttrs j) (VStr (p_paperSizeName (j_params j))))) = Ok (true, p0) /\
     p_sizeW (j_params j') = p_sizeW p0 /\ p_sizeH (j_params j') = p_sizeH p0 /\ p_units (j_params j') = p_units p0 /\ p_paperSizeName (j_params j') = p_paperSizeName p0;
  sm_resolution : exists ja x y u, value_of (j_printerAttrs j) s_resolution (j_jobAttrs j) (VRes (p_hwResW (j_params j)) (p_hwResH (j_params j)) 3) = VRes x y u /\
     p_format (j_params ja) = format_for inp (j_target j') /\ p_hwResW (j_params ja) = x /\ p_hwResH (j_params ja) = y /\ j_printerAttrs ja = j_printerAttrs j /\
     exists jb, (if rasterised inp (j_target j') then adjust_resolution ja = Ok jb else jb = ja) /\ p_hwResW (j_params j') = p_hwResW (j_params jb) /\ p_hwResH (j_params j') = p_hwResH (j_params jb);
  sm_other_attrs : forall s, job_setting s -> existsb (same s) [s_topMargin; s_bottomMargin; s_leftMargin; s_rightMargin; s_media; s_mediaSize; s_pageRanges; s_copies; s_sides; s_resolution] = false ->
     lookup s (j_jobAttrs j') = lookup s (j_jobAttrs j)
}.

Lemma has_type_res v : has_type TRes v = true -> exists x y u, v = VRes x y u.
Proof. destruct v; try discriminate. intros _. eauto. Qed.
Lemma lookup_page_ranges m : lookup s_pageRanges m = map_get "page-ranges" m.
Proof. reflexivity. Qed.
Lemma attrs_getList_lookup t k m m' : map_get k m = map_get k m' -> attrs_getList t k m = attrs_getList t k m'.
Proof. unfold attrs_getList. intros H. change ipp_attr with (Z * ipp_value)%type in *. rewrite H. reflexivity. Qed.
Lemma value_of_eq pa s m m' fb : lookup s m = lookup s m' -> value_of pa s m fb = value_of pa s m' fb.
Proof. unfold value_of. intros H. change ipp_attr with (Z * ipp_value)%type in *. rewrite H. reflexivity. Qed.

Lemma paper_units p s p0 : setPaperSize p s = Ok (true, p0) -> p_units p0 <> Pixels.
Proof.
  unfold setPaperSize. intros H. destruct (match_paper_size s) as [[[w h] u]|]; [|discriminate].
  bind_inv H as fw Hw K. bind_inv K as fh Hh K. assert (p0 = with_paper p s fw fh (if String.eqb u "in" then Inches else Millimeters)) by congruence. subst p0.
  cbn [with_paper p_units]. destruct (String.eqb u "in"); discriminate.
Qed.
Lemma size_mm p p' : p_units p <> Pixels -> p_units p' = p_units p -> p_sizeW p' = p_sizeW p -> p_sizeH p' = p_sizeH p ->
  getPaperSizeWInMillimeters p' = getPaperSizeWInMillimeters p /\ getPaperSizeHInMillimeters p' = getPaperSizeHInMillimeters p.
Proof.
  intros H E1 E2 E3. unfold getPaperSizeWInMillimeters, getPaperSizeHInMillimeters. rewrite E1, E2, E3. unfold sizeInMillimeters.
  destruct (p_units p); [contradiction| |]; split; reflexivity.
Qed.
Theorem finalize_summary j inp pages j' : wf_job (j_jobAttrs j) -> finalize j inp pages = Ok (None, j') -> summary j inp pages j'.
Proof.
  intros Hm H. apply finalize_stages in H. destruct H as [j1 [j2 [j3 [j4 [j5 [j6 [j7 [j8 [j9 [j10 [j11 (H1 & Ht & H2 & H3 & H4 & H5 & H6 & H7 & H8 & H9 & H10 & H11 & H12)]]]]]]]]]]].
  apply choose_format_inv in H1. destruct H1 as [t [sup [Dt [Ds ->]]]].
  apply choose_compression_inv in H2. destruct H2 as [mo [-> Hmo]].
  apply choose_paper_inv in H3. destruct H3 as [name [p0 [Hn [Hp ->]]]].
  apply get_job_value in Hn; [|exact Hm|apply js_media]. destruct Hn as [-> _].
  cbn [with_op with_target j_params j_printerAttrs j_jobAttrs j_target j_opAttrs] in *.
  pose proof (setPaperSize_kept _ _ _ _ Hp) as (Pk1 & Pk2 & Pk3 & Pk4 & _).
  (* margins *)
  apply take_margins_inv in H4; [|exact Hm]. cbn [with_params with_op with_target j_params j_printerAttrs j_jobAttrs j_target j_opAttrs j_margins j_additional j_oneStage] in H4.
  assert (E4 : exists m4, wf_job m4 /\ j4 = with_job (with_margins (with_params (with_op (with_target j t) mo) p0)
      (if isImage t then j_margins j else let v s := v_int (value_of (j_printerAttrs j) s (j_jobAttrs j) (VInt 0)) in mkMargins (v s_topMargin) (v s_bottomMargin) (v s_leftMargin) (v s_rightMargin))) m4
    /\ forall s, job_setting s -> lookup s m4 = if isImage t then lookup s (j_jobAttrs j) else if is_margin s then None else lookup s (j_jobAttrs j)).
  { destruct H4 as [[Hi ->]|[Hi [m [W [-> L]]]]].
    - exists (j_jobAttrs j). split; [exact Hm|]. rewrite Hi. split; [destruct j; reflexivity|]. reflexivity.
    - exists m. split; [exact W|]. rewrite Hi. split; [reflexivity|exact L]. }
  clear H4. destruct E4 as [m4 [W4 [-> L4]]]. set (mg := if isImage t then _ else _) in *.
  (* media size *)
  apply move_media_size_inv in H5; [|exact W4]. cbn [with_job with_margins with_params with_op with_target j_params j_printerAttrs j_jobAttrs j_target j_opAttrs j_margins j_additional j_oneStage] in H5.
  assert (E5 : exists m5, wf_job m5 /\ j5 = with_job (with_margins (with_params (with_op (with_target j t) mo) p0) mg) m5 /\
     ((forall s, job_setting s -> lookup s m5 = lookup s m4) \/
      (lookup s_media m4 <> None /\ exists x y, hundredths (getPaperSizeWInMillimeters p0) = Ok x /\ hundredths (getPaperSizeHInMillimeters p0) = Ok y /\
        forall s, job_setting s -> lookup s m5 = if same s s_media then None else if same s s_mediaSize then Some (tBeginCollection, dims x y) else lookup s m4))).
  { destruct H5 as [[_ ->]|[N1 [N2 [x [y [m [W [-> [Hx [Hy L]]]]]]]]]].
    - exists m4. split; [exact W4|]. split; [reflexivity|]. left. reflexivity.
    - exists m. split; [exact W|]. split; [reflexivity|]. right. split; [exact N2|]. exists x, y. split; [exact Hx|]. split; [exact Hy|]. exact L. }
  clear H5. destruct E5 as [m5 [W5 [-> L5]]].
  (* resolution *)
  pose proof H6 as H6'. apply choose_resolution_inv in H6. destruct H6 as [rx [ry [-> _]]].
  cbn [with_job with_margins with_params with_op with_target j_params j_printerAttrs j_jobAttrs j_target j_opAttrs j_margins j_additional j_oneStage] in *.
  assert (L5r : lookup s_resolution m5 = lookup s_resolution (j_jobAttrs j)).
  { assert (Q : lookup s_resolution m4 = lookup s_resolution (j_jobAttrs j)) by (rewrite L4 by apply js_res; destruct (isImage t); reflexivity).
    destruct L5 as [L5|[_ [x [y [_ [_ L5]]]]]]; rewrite L5 by apply js_res; exact Q. }
  assert (Hr : exists u, value_of (j_printerAttrs j) s_resolution (j_jobAttrs j) (VRes (p_hwResW (j_params j)) (p_hwResH (j_params j)) 3) = VRes rx ry u).
  { unfold choose_resolution in H6'. bind_inv H6' as v Hv K. apply get_job_value in Hv; [|exact W5|apply js_res].
    cbn [with_job with_margins with_params with_op with_target j_params j_printerAttrs j_jobAttrs] in Hv. destruct Hv as [Hv Hty].
    assert (exists x y u, v = VRes x y u) as [x [y [u ->]]].
    { destruct Hty as [Hty| ->]; [apply has_type_res; exact Hty|]. eauto. }
    exists u. rewrite (value_of_eq _ _ _ _ _ L5r) in Hv. cbn [p_hwResW p_hwResH set_format mk_params] in Hv. rewrite <- Pk3, <- Pk4, <- Hv.
    assert (K' := f_equal (fun o => match o with Ok z => (p_hwResW (j_params z), p_hwResH (j_params z)) | _ => (0, 0) end) K).
    cbn [with_params j_params set_res mk_params p_hwResW p_hwResH] in K'. congruence. }
  clear H6'.
  (* ranges *)
  apply take_ranges_inv in H7; [|exact W5].
  cbn [with_job with_margins with_params with_op with_target j_params j_printerAttrs j_jobAttrs j_target j_opAttrs j_margins j_additional j_oneStage
       set_res set_format mk_params p_pageRanges p_format p_copies p_hwResW p_hwResH p_collated] in H7.
  set (base := with_margins (with_params (with_op (with_target j t) mo) (set_res (set_format p0 (format_for inp t)) rx ry)) mg) in *.
  assert (E7 : exists l m7, wf_job m7 /\ (inp = mPDF -> attrs_getList TRange "page-ranges" m5 = Ok l) /\ (inp <> mPDF -> l = []) /\
     j7 = with_job (with_params base (set_ranges (j_params base) (p_pageRanges p0 ++ map (fun v => match v with VRange lo hi => (lo mod two64, hi mod two64) | _ => (0, 0) end) l))) m7 /\
     forall s, job_setting s -> lookup s m7 = if String.eqb inp mPDF && same s s_pageRanges then None else lookup s m5).
  { destruct H7 as [[Hi ->]|[Hi [l [m [W [Hl [-> L]]]]]]].
    - exists [], m5. split; [exact W5|]. split; [intros; contradiction|]. split; [reflexivity|]. split.
      + cbn [map]. rewrite app_nil_r. unfold base. destruct j; destruct p0; reflexivity.
      + intros s Hs. rewrite (proj2 (String.eqb_neq _ _) Hi). reflexivity.
    - exists l, m. split; [exact W|]. split; [intros; exact Hl|]. split; [intros; contradiction|]. split; [reflexivity|].
      intros s Hs. rewrite Hi. cbn [andb String.eqb]. rewrite String.eqb_refl. apply L. exact Hs. }
  clear H7. destruct E7 as [l [m7 [W7 [Hl [Hl' [-> L7]]]]]]. set (rs := p_pageRanges p0 ++ _) in *.
  (* raster settings *)
  apply adjust_inv in H8; [|exact W7].
  unfold base in H8. cbn [with_job with_margins with_params with_op with_target j_params j_printerAttrs j_jobAttrs j_target j_opAttrs j_margins j_additional j_oneStage
       set_ranges set_res set_format mk_params p_pageRanges p_format p_copies p_hwResW p_hwResH p_collated] in H8.
  set (n := v_int (value_of (j_printerAttrs j) s_copies (j_jobAttrs j) (VInt 1))).
  assert (L7c : lookup s_copies m7 = lookup s_copies (j_jobAttrs j)).
  { rewrite L7 by apply js_copies. cbn [same s_sub s_name s_copies s_pageRanges String.eqb Ascii.eqb Bool.eqb andb]. rewrite andb_false_r.
    assert (Q : lookup s_copies m4 = lookup s_copies (j_jobAttrs j)) by (rewrite L4 by apply js_copies; destruct (isImage t); reflexivity).
    destruct L5 as [L5|[_ [x [y [_ [_ L5]]]]]]; rewrite L5 by apply js_copies; exact Q. }
  assert (E8 : exists m8 x y b c coll ja jb,
     j8 = with_job (with_params base (set_copies (set_back (set_res (set_ranges (j_params base) rs) x y) b) c coll)) m8 /\ wf_job m8 /\
     p_format (j_params ja) = format_for inp t /\ p_hwResW (j_params ja) = rx /\ p_hwResH (j_params ja) = ry /\ j_printerAttrs ja = j_printerAttrs j /\
     (if rasterised inp t then adjust_resolution ja = Ok jb else jb = ja) /\ x = p_hwResW (j_params jb) /\ y = p_hwResH (j_params jb) /\
     (rasterised inp t = true -> exists sup, printer_copies j = Ok sup) /\
     (if rasterised inp t && (n >? 1) && match printer_copies j with Ok false => true | _ => false end
      then lookup s_copies m8 = None /\ c = n mod two64 else lookup s_copies m8 = lookup s_copies (j_jobAttrs j) /\ c = p_copies (j_params j)) /\
     (forall s, job_setting s -> same s s_copies = false -> same s s_sides = false -> same s s_resolution = false -> lookup s m8 = lookup s m7)).
  { destruct (format_for_raster inp t) as [(Ff & Fi & Ft & Fr)|[(Ff & Fi & Ft & Fr)|[Ff Fr]]].
    3: { rewrite Fr. destruct H8 as [[_ ->]|[X _]]; [|exfalso; destruct (format_for inp t); contradiction].
      exists m7, rx, ry, (p_backXform p0), (p_copies p0), (p_collated p0), (with_job (with_params base (set_ranges (j_params base) rs)) m7), (with_job (with_params base (set_ranges (j_params base) rs)) m7).
      split; [unfold base; destruct j; destruct p0; reflexivity|]. split; [exact W7|]. repeat (split; [reflexivity|]). split; [discriminate|]. split; [|reflexivity].
      cbn [andb]. split; [exact L7c|exact Pk1]. }
    all: rewrite Fr.
    all: destruct H8 as [[X _]|[_ [m [x [y [b [j0 [W [Ha [L [Hj0 Hc]]]]]]]]]]]; [exfalso; rewrite Ff in X; exact X|].
    all: apply take_copies_inv in Hc; [|rewrite Hj0; exact W].
    all: assert (E0 : lookup s_copies (j_jobAttrs j0) = lookup s_copies (j_jobAttrs j)) by
          (rewrite Hj0; cbn [with_params with_job j_jobAttrs]; rewrite L by apply js_copies; exact L7c).
    all: assert (Ea : j_printerAttrs j0 = j_printerAttrs j) by (rewrite Hj0; reflexivity).
    all: assert (En : v_int (value_of (j_printerAttrs j0) s_copies (j_jobAttrs j0) (VInt 1)) = n) by (rewrite Ea, (value_of_eq _ _ _ _ _ E0); reflexivity).
    all: rewrite En in Hc; destruct Hc as [sp [Hsp Hc]].
    all: assert (Ep : printer_copies j = Ok sp) by (rewrite <- Hsp; unfold printer_copies, printer_strs; rewrite Ea; reflexivity).
    all: rewrite Ep; destruct Hc as [[Hn ->]|[Hn [-> [coll [m8 [W8 [-> L8]]]]]]].
    all: match type of Ha with adjust_resolution ?A = Ok ?B => set (ja := A) in *; set (jb := B) in * end.
    1,3: exists m, x, y, b, (p_copies p0), (p_collated p0), ja, jb.
    3,4: exists m8, x, y, b, (n mod two64), coll, ja, jb.
    all: split; [first [rewrite Hj0; unfold base; destruct j; destruct p0; reflexivity]|].
    all: split; [assumption|]; split; [reflexivity|]; split; [reflexivity|]; split; [reflexivity|]; split; [reflexivity|]; split; [exact Ha|]; split; [reflexivity|]; split; [reflexivity|].
    all: split; [intros _; eexists; reflexivity|].
    all: split.
    all: cbn [andb].
    1,3: replace ((n >? 1) && (if sp then false else true)) with false by (destruct sp; lia); split; [rewrite <- E0; rewrite Hj0; reflexivity|exact Pk1].
    1,2: intros s Hs _ _ Hr'; rewrite L by exact Hs; rewrite Hr'; reflexivity.
    1,3: replace ((n >? 1) && true) with true by lia; split; [|reflexivity]; rewrite L8 by (apply js_copies || reflexivity); reflexivity.
    all: intros s Hs Hc1 Hs1 Hr'; rewrite L8 by assumption; rewrite Hc1; rewrite Hj0; cbn [with_params with_job j_jobAttrs]; rewrite L by exact Hs; rewrite Hr'; reflexivity. }
  clear H8. destruct E8 as [m8 [x [y [b [c [coll [ja [jb (-> & W8 & A1 & A2 & A3 & A4 & A5 & A6 & A7 & A8 & A9 & L8)]]]]]]]].
  apply choose_sides_inv in H9. destruct H9 as [d ->]. apply choose_quality_inv in H10. destruct H10 as [q ->]. apply choose_color_inv in H11. destruct H11 as [cm ->].
  apply choose_media_inv in H12. destruct H12 as [mp [mt ->]].
  unfold base in *. clear base.
  constructor.
  all: cbn [with_job with_margins with_params with_op with_target j_params j_printerAttrs j_jobAttrs j_target j_opAttrs j_margins j_additional j_oneStage
       set_ranges set_res set_format set_copies set_back set_duplex set_quality set_color set_media mk_params p_pageRanges p_format p_copies p_hwResW p_hwResH p_collated
       p_sizeW p_sizeH p_units p_paperSizeName] in *.
  - split; [exact Dt|exact Ht].
  - split; reflexivity.
  - reflexivity.
  - intros Hop. exists sup. split; [exact Ds|].
    pose proof (map_get_set "document-format" (tMimeMediaType, VStr (if contains sup t then t else OctetStream)) (j_opAttrs j) "document-format" Hop) as G. rewrite String.eqb_refl in G.
    destruct Hmo as [Hmo|[v ->]].
    + assert (mo = map_set "document-format" (tMimeMediaType, VStr (if contains sup t then t else OctetStream)) (j_opAttrs j)) as -> by (apply (f_equal j_opAttrs) in Hmo; exact Hmo).
      exact G.
    + rewrite map_get_set by (apply set_sorted; exact Hop). exact G.
  - exact W8.
  - reflexivity.
  - intros s Hmar Hs.
    assert (N : same s s_copies = false /\ same s s_sides = false /\ same s s_resolution = false /\ same s s_pageRanges = false /\ same s s_media = false /\ same s s_mediaSize = false).
    { destruct Hs as [[S1 S2]|S1].
      - exfalso. unfold is_margin, same in Hmar. rewrite S1 in Hmar. discriminate.
      - unfold same. rewrite S1. cbn [s_sub s_copies s_sides s_resolution s_pageRanges s_media s_mediaSize String.eqb Ascii.eqb Bool.eqb andb]. repeat (split; [reflexivity|]).
        unfold is_margin, same in Hmar. rewrite S1 in Hmar. cbn [s_sub s_name s_topMargin s_bottomMargin s_leftMargin s_rightMargin s_mediaSize String.eqb Ascii.eqb Bool.eqb andb] in *.
        destruct (String.eqb_spec (s_name s) "media-size") as [E|]; [rewrite E in Hmar; discriminate|reflexivity]. }
    destruct N as (N1 & N2 & N3 & N4 & N5 & N6). rewrite L8 by assumption. rewrite L7 by exact Hs. rewrite N4, andb_false_r.
    assert (Q : lookup s m5 = lookup s m4).
    { destruct L5 as [L5|[_ [x' [y' [_ [_ L5]]]]]]; rewrite L5 by exact Hs; [reflexivity|]. rewrite N5, N6. reflexivity. }
    rewrite Q, L4 by exact Hs. rewrite Hmar. reflexivity.
  - exists l. split; [|split; [exact Hl'|unfold rs; rewrite Pk2; reflexivity]].
    intros E. rewrite <- (Hl E). apply attrs_getList_lookup. rewrite <- !lookup_page_ranges.
    assert (Q : lookup s_pageRanges m4 = lookup s_pageRanges (j_jobAttrs j)) by (rewrite L4 by apply js_ranges; destruct (isImage t); reflexivity).
    destruct L5 as [L5|[_ [x' [y' [_ [_ L5]]]]]]; rewrite L5 by apply js_ranges; rewrite <- Q; reflexivity.
  - rewrite L8 by (apply js_ranges || reflexivity). rewrite L7 by apply js_ranges. rewrite same_refl, andb_true_r.
    destruct (String.eqb inp mPDF); [reflexivity|].
    assert (Q : lookup s_pageRanges m4 = lookup s_pageRanges (j_jobAttrs j)) by (rewrite L4 by apply js_ranges; destruct (isImage t); reflexivity).
    destruct L5 as [L5|[_ [x' [y' [_ [_ L5]]]]]]; rewrite L5 by apply js_ranges; rewrite <- Q; reflexivity.
  - split; [exact A8|]. fold n. exact A9.
  - assert (Q : lookup s_media m4 = lookup s_media (j_jobAttrs j)) by (rewrite L4 by apply js_media; destruct (isImage t); reflexivity).
    assert (Q8 : lookup s_media m8 = lookup s_media m5).
    { rewrite L8 by (apply js_media || reflexivity). rewrite L7 by apply js_media. cbn [same s_sub s_name s_media s_pageRanges String.eqb Ascii.eqb Bool.eqb andb]. rewrite andb_false_r. reflexivity. }
    rewrite Q8. rewrite <- Q. destruct L5 as [L5|[N [x' [y' [Hx [Hy L5]]]]]].
    + rewrite L5 by apply js_media. destruct (lookup s_media m4); [left; reflexivity|reflexivity].
    + rewrite L5 by apply js_media. rewrite same_refl. destruct (lookup s_media m4); [|contradiction]. right. split; [reflexivity|].
      match goal with |- context [getPaperSizeWInMillimeters ?q] => destruct (size_mm p0 q (paper_units _ _ _ Hp) eq_refl eq_refl eq_refl) as [-> ->] end.
      exists x', y'. split; [exact Hx|]. split; [exact Hy|]. rewrite L8 by (apply js_size || reflexivity). rewrite L7 by apply js_size.
      cbn [same s_sub s_name s_mediaSize s_pageRanges String.eqb Ascii.eqb Bool.eqb andb]. rewrite andb_false_r. rewrite L5 by apply js_size. reflexivity.
  - exists p0. split; [exact Hp|]. repeat split.
  - destruct Hr as [u Hr]. exists ja, rx, ry, u. split; [exact Hr|]. split; [exact A1|]. split; [exact A2|]. split; [exact A3|]. split; [exact A4|].
    exists jb. split; [exact A5|]. split; [exact A6|exact A7].
  - intros s Hs N. cbn [existsb] in N. rewrite !orb_false_iff in N. destruct N as (N1 & N2 & N3 & N4 & N5 & N6 & N7 & N8 & N9 & N10 & _).
    rewrite L8 by assumption. rewrite L7 by exact Hs. rewrite N7, andb_false_r.
    assert (Q : lookup s m4 = lookup s (j_jobAttrs j)).
    { rewrite L4 by exact Hs. unfold is_margin. rewrite N1, N2, N3, N4. destruct (isImage t); reflexivity. }
    destruct L5 as [L5|[_ [x' [y' [_ [_ L5]]]]]]; rewrite L5 by exact Hs; [exact Q|]. rewrite N5, N6. exact Q.
Qed.
