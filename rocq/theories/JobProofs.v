(** The stages of finalize. *)
From Verif Require Import Base BaseLemmas MapModel MapProofs FloatModel StringModel ParamsModel IppModel IppEncProofs ArgModel
  SettingModel SettingProperties ConverterModel JobModel.
From Coq Require Import Lia ZifyBool.
Local Open Scope Z_scope.

Lemma with_params_id j : with_params j (j_params j) = j.
Proof. destruct j. reflexivity. Qed.
Lemma with_job_id j : with_job j (j_jobAttrs j) = j.
Proof. destruct j. reflexivity. Qed.
Ltac params_id p := destruct p; reflexivity.

(** ** Stages that only change print parameters *)
Lemma choose_sides_inv j j' : choose_sides j = Ok j' -> exists d, j' = with_params j (set_duplex (j_params j) d).
Proof.
  unfold choose_sides. intros H. bind_inv H as s Hs K. assert (K' := f_equal (fun x => match x with Ok a => a | _ => j end) K). cbv beta iota in K'. subst j'.
  destruct (String.eqb s "two-sided-long-edge"); [eexists; reflexivity|]. destruct (String.eqb s "two-sided-short-edge"); [eexists; reflexivity|].
  exists (p_duplexMode (j_params j)). replace (set_duplex (j_params j) (p_duplexMode (j_params j))) with (j_params j) by params_id (j_params j).
  symmetry. apply with_params_id.
Qed.
Lemma choose_quality_inv j j' : choose_quality j = Ok j' -> exists q, j' = with_params j (set_quality (j_params j) q).
Proof. unfold choose_quality. intros H. bind_inv H as s Hs K. assert (K' := f_equal (fun x => match x with Ok a => a | _ => j end) K). cbv beta iota in K'. subst j'. eexists. reflexivity. Qed.
Lemma choose_color_inv j j' : choose_color j = Ok j' -> exists c, j' = with_params j (set_color (j_params j) c).
Proof.
  unfold choose_color. intros H. bind_inv H as s Hs K. bind_inv K as m Hm K. assert (K' := f_equal (fun x => match x with Ok a => a | _ => j end) K). cbv beta iota in K'. subst j'.
  destruct (string_contains m "color"); [eexists; reflexivity|]. destruct (_ || _); [eexists; reflexivity|].
  exists (p_colorMode (j_params j)). replace (set_color (j_params j) (p_colorMode (j_params j))) with (j_params j) by params_id (j_params j).
  symmetry. apply with_params_id.
Qed.
Lemma choose_media_inv j j' : choose_media j = Ok j' -> exists x y, j' = with_params j (set_media (j_params j) x y).
Proof.
  unfold choose_media. intros H. bind_inv H as s Hs K. bind_inv K as x Hx K. bind_inv K as y Hy K.
  assert (K' := f_equal (fun x => match x with Ok a => a | _ => j end) K). cbv beta iota in K'. subst j'. eexists. eexists. reflexivity.
Qed.
Lemma choose_resolution_inv j j' : choose_resolution j = Ok j' -> exists x y, j' = with_params j (set_res (j_params j) x y)
  /\ get_job j s_resolution (VRes (p_hwResW (j_params j)) (p_hwResH (j_params j)) 3) <> UB.
Proof.
  unfold choose_resolution. intros H. bind_inv H as v Hv K. assert (K' := f_equal (fun x => match x with Ok a => a | _ => j end) K). cbv beta iota in K'. subst j'.
  assert (D : exists x y, j = with_params j (set_res (j_params j) x y)).
  { exists (p_hwResW (j_params j)), (p_hwResH (j_params j)). replace (set_res (j_params j) _ _) with (j_params j) by params_id (j_params j). symmetry. apply with_params_id. }
  rewrite Hv. destruct v; try (destruct D as [x [y D]]; exists x, y; split; [exact D|discriminate]).
  eexists. eexists. split; [reflexivity|discriminate].
Qed.
Lemma adjust_resolution_inv j j' : adjust_resolution j = Ok j' -> exists x y, j' = with_params j (set_res (j_params j) x y).
Proof.
  unfold adjust_resolution. intros H.
  assert (D : exists x y, j = with_params j (set_res (j_params j) x y)).
  { exists (p_hwResW (j_params j)), (p_hwResH (j_params j)). replace (set_res (j_params j) _ _) with (j_params j) by params_id (j_params j). symmetry. apply with_params_id. }
  destruct (p_format (j_params j)); try (injection H as <-; exact D).
  - bind_inv H as l Hl K. bind_inv K as xy Hxy K. destruct xy as [x y]. cbn [fst snd] in K. exists x, y. congruence.
  - bind_inv H as l Hl K. bind_inv K as w Hw K. exists w, w. congruence.
Qed.
Lemma back_side_inv j j' : back_side j = Ok j' -> exists b, j' = with_params j (set_back (j_params j) b).
Proof.
  unfold back_side. intros H.
  assert (D : exists b, j = with_params j (set_back (j_params j) b)).
  { exists (p_backXform (j_params j)). replace (set_back (j_params j) _) with (j_params j) by params_id (j_params j). symmetry. apply with_params_id. }
  destruct (p_format (j_params j)); try (injection H as <-; exact D).
  - bind_inv H as v Hv K. assert (K' := f_equal (fun x => match x with Ok a => a | _ => j end) K). cbv beta iota in K'. rewrite <- K'. clear K K'.
    repeat match goal with |- context [if ?b then _ else _] => destruct b; [eexists; reflexivity|] end. exact D.
  - bind_inv H as v Hv K. assert (K' := f_equal (fun x => match x with Ok a => a | _ => j end) K). cbv beta iota in K'. rewrite <- K'. clear K K'.
    repeat match goal with |- context [if ?b then _ else _] => destruct b; [eexists; reflexivity|] end. exact D.
Qed.

(** ** Stages that change settings *)
Lemma unset_job_inv j s j' : wf_job (j_jobAttrs j) -> job_setting s -> unset_job j s = Ok j' ->
  exists m, j' = with_job j m /\ wf_job m /\ (forall s', job_setting s' -> lookup s' m = if same s' s then None else lookup s' (j_jobAttrs j)).
Proof.
  intros Hm Hs H. unfold unset_job in H. destruct (unset_lookup s (j_jobAttrs j) Hs Hm) as [m [E [W [L _]]]]. rewrite E in H. cbn [bind] in H.
  exists m. split; [congruence|]. split; assumption.
Qed.
Lemma set_job_inv j s v j' : wf_job (j_jobAttrs j) -> job_setting s -> set_job j s v = Ok j' ->
  exists m, j' = with_job j m /\ wf_job m /\ (forall s', job_setting s' -> lookup s' m = if same s' s then Some (s_tag s, v) else lookup s' (j_jobAttrs j)).
Proof.
  intros Hm Hs H. unfold set_job in H. destruct (set_lookup s v (j_jobAttrs j) Hs Hm) as [m [E [W [L _]]]]. rewrite E in H. cbn [bind] in H.
  exists m. split; [congruence|]. split; assumption.
Qed.
Ltac is_setting := first [left; split; [reflexivity|discriminate] | right; reflexivity].
Lemma js_media : job_setting s_media. Proof. is_setting. Qed.
Lemma js_copies : job_setting s_copies. Proof. is_setting. Qed.
Lemma js_sides : job_setting s_sides. Proof. is_setting. Qed.
Lemma js_ranges : job_setting s_pageRanges. Proof. is_setting. Qed.
Lemma js_res : job_setting s_resolution. Proof. is_setting. Qed.
Lemma js_top : job_setting s_topMargin. Proof. is_setting. Qed.
Lemma js_bottom : job_setting s_bottomMargin. Proof. is_setting. Qed.
Lemma js_left : job_setting s_leftMargin. Proof. is_setting. Qed.
Lemma js_right : job_setting s_rightMargin. Proof. is_setting. Qed.

(** the value of a setting: the job's, else the printer's default, else the fallback *)
Definition value_of (pa : ipp_attrs) (s : setting) (m : ipp_attrs) (fallback : ipp_value) : ipp_value :=
  match lookup s m with
  | Some a => snd a
  | None => match map_get (s_name s ++ "-default") pa with Some a => snd a | None => fallback end
  end.
Lemma get_job_value j s fb v : wf_job (j_jobAttrs j) -> job_setting s -> get_job j s fb = Ok v ->
  v = value_of (j_printerAttrs j) s (j_jobAttrs j) fb /\ (has_type (s_type s) v = true \/ v = fb).
Proof.
  intros Hm Hs H. unfold get_job in H. rewrite get_lookup in H by assumption. unfold value_of.
  change ipp_attr with (Z * ipp_value)%type in *.
  destruct (lookup s (j_jobAttrs j)) as [a|].
  - unfold get_as in H. destruct (has_type (s_type s) (snd a)) eqn:E; [|discriminate]. injection H as <-. split; [reflexivity|left; exact E].
  - unfold default_of in H. change ipp_attr with (Z * ipp_value)%type in *. destruct (@map_get (Z * ipp_value) (s_name s ++ "-default") (j_printerAttrs j)) as [a|].
    + destruct (has_type (s_type s) (snd a)) eqn:E; [|discriminate]. injection H as <-. split; [reflexivity|left; exact E].
    + injection H as <-. split; [reflexivity|right; reflexivity].
Qed.
Definition is_margin (s : setting) : bool := same s s_topMargin || same s s_bottomMargin || same s s_leftMargin || same s s_rightMargin.

Lemma take_margins_inv j j' : wf_job (j_jobAttrs j) -> take_margins j = Ok j' ->
  (isImage (j_target j) = true /\ j' = j) \/
  (isImage (j_target j) = false /\ exists m, wf_job m /\
    j' = with_job (with_margins j
      (let v s := v_int (value_of (j_printerAttrs j) s (j_jobAttrs j) (VInt 0)) in mkMargins (v s_topMargin) (v s_bottomMargin) (v s_leftMargin) (v s_rightMargin))) m /\
    (forall s, job_setting s -> lookup s m = if is_margin s then None else lookup s (j_jobAttrs j))).
Proof.
  intros Hm H. unfold take_margins in H. destruct (isImage (j_target j)); cbn [negb] in H; [left; split; [reflexivity|congruence]|]. right. split; [reflexivity|].
  bind_inv H as t Ht K. bind_inv K as b Hb K. bind_inv K as l Hl K. bind_inv K as r Hr K.
  apply get_job_value in Ht, Hb, Hl, Hr; try assumption; try (apply js_top || apply js_bottom || apply js_left || apply js_right).
  destruct Ht as [-> _], Hb as [-> _], Hl as [-> _], Hr as [-> _].
  bind_inv K as j1 H1 K. bind_inv K as j2 H2 K. bind_inv K as j3 H3 K.
  apply unset_job_inv in H1; [|assumption|apply js_top]. destruct H1 as [m1 [-> [W1 L1]]].
  apply unset_job_inv in H2; [|assumption|apply js_bottom]. destruct H2 as [m2 [-> [W2 L2]]].
  apply unset_job_inv in H3; [|assumption|apply js_left]. destruct H3 as [m3 [-> [W3 L3]]].
  apply unset_job_inv in K; [|assumption|apply js_right]. destruct K as [m4 [-> [W4 L4]]].
  exists m4. split; [exact W4|]. split; [reflexivity|]. intros s Hs. rewrite L4 by exact Hs. cbn [with_job j_jobAttrs with_margins] in *. rewrite L3, L2, L1 by exact Hs. unfold is_margin.
  destruct (same s s_rightMargin), (same s s_leftMargin), (same s s_bottomMargin), (same s s_topMargin); reflexivity.
Qed.

Definition s_mediaSize := mkSetting TColl tBeginCollection "media-size" "media-col".
Lemma js_size : job_setting s_mediaSize. Proof. is_setting. Qed.
Definition dims (x y : Z) : ipp_value := VColl [("x-dimension", (tInteger, VInt x)); ("y-dimension", (tInteger, VInt y))]%string.
Lemma move_media_size_inv j j' : wf_job (j_jobAttrs j) -> move_media_size j = Ok j' ->
  ((map_get "media-col" (j_jobAttrs j) = None \/ map_get "media" (j_jobAttrs j) = None) /\ j' = j) \/
  (map_get "media-col" (j_jobAttrs j) <> None /\ map_get "media" (j_jobAttrs j) <> None /\ exists x y m, wf_job m /\ j' = with_job j m /\
    hundredths (getPaperSizeWInMillimeters (j_params j)) = Ok x /\ hundredths (getPaperSizeHInMillimeters (j_params j)) = Ok y /\
    (forall s, job_setting s -> lookup s m = if same s s_media then None else if same s s_mediaSize then Some (tBeginCollection, dims x y) else lookup s (j_jobAttrs j))).
Proof.
  intros Hm H. unfold move_media_size in H. bind_inv H as b Hb K.
  rewrite isSet_lookup in Hb by (assumption || apply js_media). unfold map_has in K. unfold lookup in Hb. cbn [s_sub s_name s_media String.eqb] in Hb.
  destruct (wf_col _ Hm) as [c [C1 [C2 C3]]].
  destruct C3 as [[C3 C4]|[C3 C4]].
  - rewrite C3 in *. destruct (map_get "media" (j_jobAttrs j)) eqn:Em.
    + injection Hb as <-. cbn [andb] in K. right. split; [first [discriminate|rewrite C3; discriminate]|]. split; [first [discriminate|rewrite Em; discriminate]|].
      bind_inv K as x Hx K. bind_inv K as y Hy K. unfold attrs_get, attrs_at in K. change ipp_attr with (Z * ipp_value)%type in *. rewrite C3 in K. cbn [bind snd get_as has_type get_coll] in K.
      destruct (set_lookup s_mediaSize (dims x y) (j_jobAttrs j) js_size Hm) as [m1 [E1 [W1 [L1 _]]]].
      unfold setting_set in E1. cbn [s_sub s_mediaSize String.eqb Ascii.eqb Bool.eqb s_name s_tag] in E1. rewrite (proj1 (C2 s_mediaSize eq_refl)) in E1. cbn [bind] in E1.
      injection E1 as E1. unfold dims in E1. change ipp_attr with (Z * ipp_value)%type in *. rewrite E1 in K. apply unset_job_inv in K; [|exact W1|apply js_media]. destruct K as [m2 [-> [W2 L2]]].
      exists x, y, m2. split; [exact W2|]. split; [reflexivity|]. split; [exact Hx|]. split; [exact Hy|]. intros s Hs. rewrite L2 by exact Hs. cbn [with_job j_jobAttrs]. rewrite L1 by exact Hs. reflexivity.
    + injection Hb as <-. cbn [andb] in K. left. split; [right; reflexivity|congruence].
  - rewrite C3 in *. cbn [andb] in K. left. split; [left; reflexivity|congruence].
Qed.
Lemma take_ranges_inv j inp j' : wf_job (j_jobAttrs j) -> take_ranges j inp = Ok j' ->
  (inp <> mPDF /\ j' = j) \/
  (inp = mPDF /\ exists l m, wf_job m /\ attrs_getList TRange "page-ranges" (j_jobAttrs j) = Ok l /\
    j' = with_job (with_params j (set_ranges (j_params j) (p_pageRanges (j_params j) ++
      map (fun v => match v with VRange lo hi => (lo mod two64, hi mod two64) | _ => (0, 0) end) l))) m /\
    (forall s, job_setting s -> lookup s m = if same s s_pageRanges then None else lookup s (j_jobAttrs j))).
Proof.
  intros Hm H. unfold take_ranges in H. destruct (String.eqb_spec inp mPDF) as [E|E]; [right|left; split; [exact E|congruence]].
  split; [exact E|]. bind_inv H as l Hl K. apply unset_job_inv in K; [|exact Hm|apply js_ranges]. destruct K as [m [-> [W L]]]. exists l, m.
  split; [exact W|]. split; [exact Hl|]. split; [reflexivity|]. exact L.
Qed.
Lemma take_copies_inv j pages j' : wf_job (j_jobAttrs j) -> take_copies j pages = Ok j' ->
  let n := v_int (value_of (j_printerAttrs j) s_copies (j_jobAttrs j) (VInt 1)) in
  exists sup, printer_copies j = Ok sup /\
  ((n <= 1 \/ sup = true) /\ j' = j \/
   (n > 1 /\ sup = false /\ exists coll m, wf_job m /\ j' = with_job (with_params j (set_copies (j_params j) (n mod two64) coll)) m /\
     (forall s, job_setting s -> same s s_sides = false -> lookup s m = if same s s_copies then None else lookup s (j_jobAttrs j)))).
Proof.
  intros Hm H n. unfold take_copies in H. bind_inv H as v Hv K. apply get_job_value in Hv; [|exact Hm|apply js_copies]. destruct Hv as [-> _].
  bind_inv K as sup Hsup K. exists sup. split; [exact Hsup|]. fold n in K. destruct (n >? 1) eqn:En; cbn [andb] in K; [|left; split; [left; lia|congruence]].
  destruct sup; cbn [negb] in K; [left; split; [right; reflexivity|congruence]|]. right. split; [lia|]. split; [reflexivity|].
  bind_inv K as mode Hmode K. set (coll := if String.eqb mode _ then false else _) in K. bind_inv K as j1 H1 K.
  apply unset_job_inv in H1; [|exact Hm|apply js_copies]. destruct H1 as [m [-> [W L]]]. cbn [with_params j_jobAttrs] in L. exists coll.
  bind_inv K as sd Hsd K. destruct (String.eqb sd "one-sided").
  - exists m. split; [exact W|]. split; [congruence|]. intros s Hs _. apply L. exact Hs.
  - bind_inv K as seq Hseq K. destruct (_ || _).
    + apply set_job_inv in K; [|exact W|apply js_sides]. destruct K as [m2 [-> [W2 L2]]]. exists m2. split; [exact W2|]. split; [reflexivity|].
      intros s Hs Hn. rewrite L2 by exact Hs. rewrite Hn. cbn [with_job j_jobAttrs]. apply L. exact Hs.
    + exists m. split; [exact W|]. split; [congruence|]. intros s Hs _. apply L. exact Hs.
Qed.

(** ** Operation attributes *)
Lemma choose_format_inv j inp j' : choose_format j inp = Ok j' -> exists t sup,
  determineTargetFormat j inp = Ok t /\ supported_strs j s_documentFormat = Ok sup /\
  j' = with_op (with_target j t) (map_set "document-format" (tMimeMediaType, VStr (if contains sup t then t else OctetStream)) (j_opAttrs j)).
Proof.
  unfold choose_format. intros H. bind_inv H as t Ht K. bind_inv K as sup Hs K. exists t, sup. split; [exact Ht|]. split; [exact Hs|].
  unfold set_op, setting_set in K. cbn [s_sub s_documentFormat String.eqb bind s_name s_tag with_target j_opAttrs] in K. congruence.
Qed.
Lemma choose_compression_inv j j' : choose_compression j = Ok j' -> exists m, j' = with_op j m /\ (j' = j \/ exists v, m = map_set "compression" (tKeyword, v) (j_opAttrs j)).
Proof.
  unfold choose_compression. intros H.
  assert (D : exists m, j = with_op j m /\ (j = j \/ exists v, m = map_set "compression" (tKeyword, v) (j_opAttrs j))).
  { exists (j_opAttrs j). split; [destruct j; reflexivity|left; reflexivity]. }
  destruct (isPrinterRaster (j_target j)); [|injection H as <-; exact D]. bind_inv H as sup Hs K.
  unfold set_op, setting_set in K. cbn [s_sub s_compression String.eqb bind s_name s_tag] in K.
  destruct (contains sup "gzip"); [|destruct (contains sup "deflate")].
  - injection K as <-. eexists. split; [reflexivity|]. right. eexists. reflexivity.
  - injection K as <-. eexists. split; [reflexivity|]. right. eexists. reflexivity.
  - injection K as <-. exact D.
Qed.
Lemma choose_paper_inv j ok j' : choose_paper j = Ok (ok, j') ->
  exists name p, get_job j s_media (VStr (p_paperSizeName (j_params j))) = Ok name /\ setPaperSize (j_params j) (v_str name) = Ok (ok, p) /\ j' = with_params j p.
Proof.
  unfold choose_paper. intros H. bind_inv H as v Hv K. bind_inv K as q Hq K. destruct q as [b p]. exists v, p. split; [exact Hv|].
  assert (b = ok) by congruence. subst b. split; [exact Hq|congruence].
Qed.
Lemma setPaperSize_kept p s b p' : setPaperSize p s = Ok (b, p') ->
  p_copies p' = p_copies p /\ p_pageRanges p' = p_pageRanges p /\ p_hwResW p' = p_hwResW p /\ p_hwResH p' = p_hwResH p /\ p_collated p' = p_collated p
  /\ p_duplexMode p' = p_duplexMode p /\ p_colorMode p' = p_colorMode p /\ p_mediaPosition p' = p_mediaPosition p /\ p_backXform p' = p_backXform p.
Proof.
  unfold setPaperSize. intros H. destruct (match_paper_size s) as [[[w h] u]|].
  - bind_inv H as fw Hw K. bind_inv K as fh Hh K. assert (p' = with_paper p s fw fh (if String.eqb u "in" then Inches else Millimeters)) by congruence. subst p'. repeat split.
  - assert (p' = p) by congruence. subst p'. repeat split.
Qed.

(** ** The whole *)
Lemma finalize_stages j inp pages j' : finalize j inp pages = Ok (None, j') -> exists j1 j2 j3 j4 j5 j6 j7 j8 j9 j10 j11,
  choose_format j inp = Ok j1 /\ (j_target j1 <> ""%string /\ j_target j1 <> OctetStream) /\
  choose_compression j1 = Ok j2 /\ choose_paper j2 = Ok (true, j3) /\ take_margins j3 = Ok j4 /\ move_media_size j4 = Ok j5 /\
  choose_resolution (with_params j5 (set_format (j_params j5) (format_for inp (j_target j5)))) = Ok j6 /\
  take_ranges j6 inp = Ok j7 /\ adjustRasterSettings j7 pages = Ok j8 /\ choose_sides j8 = Ok j9 /\ choose_quality j9 = Ok j10 /\
  choose_color j10 = Ok j11 /\ choose_media j11 = Ok j'.
Proof.
  unfold finalize. intros H. bind_inv H as j1 H1 H.
  destruct (String.eqb_spec (j_target j1) "") as [E1|E1]; [discriminate|]. destruct (String.eqb_spec (j_target j1) OctetStream) as [E2|E2]; [discriminate|].
  cbn [orb] in H. bind_inv H as j2 H2 H. bind_inv H as q H3 H. destruct q as [ok j3]. destruct ok; cbn [negb] in H; [|discriminate].
  bind_inv H as j4 H4 H. bind_inv H as j5 H5 H. bind_inv H as j6 H6 H. bind_inv H as j7 H7 H. bind_inv H as j8 H8 H. bind_inv H as j9 H9 H.
  bind_inv H as j10 H10 H. bind_inv H as j11 H11 H. bind_inv H as j12 H12 H. assert (j12 = j') by congruence. subst j12.
  exists j1, j2, j3, j4, j5, j6, j7, j8, j9, j10, j11.
  repeat match goal with |- _ /\ _ => split end; assumption.
Qed.
