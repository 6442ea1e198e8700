(** C78: the parameters the pages are rendered with, as decided by finalize. *)
From Verif Require Import Base BaseLemmas MapModel MapProofs FloatModel StringModel StringSpec StringProofs ParamsModel ParamsSpec ParamsProperties IppModel IppEncProofs ArgModel
  PpmCmdSpec SettingModel SettingProperties ConverterModel JobModel JobProofs JobSummary JobProperties.
From Coq Require Import Lia ZifyBool.
Local Open Scope Z_scope.
Notation job := JobModel.job.

(** ** Specification *)
(** an attribute of the job, else the printer's default *)
Definition asks_for (j : job) (k : string) : ipp_value := effective k (map_get k (j_jobAttrs j)) (j_printerAttrs j) (VStr "").
Definition asks_in_media (j : job) (k : string) : ipp_value := effective k (member k (j_jobAttrs j)) (j_printerAttrs j) (VStr "").
(** copies are made here *)
Definition local_copies (j : job) (inp t : string) : Prop :=
  raster inp t /\ (exists n, effective "copies" (map_get "copies" (j_jobAttrs j)) (j_printerAttrs j) (VInt 1) = VInt n /\ 1 < n) /\ ~ printer_makes_copies (j_printerAttrs j).
(** nothing but copies of one page *)
Definition one_page (pages : Z) (rs : list (Z * Z)) : Prop := forall a b, In a (selection pages rs) -> In b (selection pages rs) -> a = b.
(** how to turn back sides, for PWG and URF *)
Inductive sheet_back (pa : ipp_attrs) (t : string) (default : back_xform) : back_xform -> Prop :=
| back_pwg tag s x : t = "image/pwg-raster"%string -> map_get "pwg-raster-document-sheet-back" pa = Some (tag, VStr s) ->
    In (s, x) [("flipped", Flipped); ("rotated", Rotated); ("manual-tumble", ManualTumble)]%string -> sheet_back pa t default x
| back_pwg_other : t = "image/pwg-raster"%string ->
    (forall tag s, map_get "pwg-raster-document-sheet-back" pa = Some (tag, VStr s) -> ~ In s ["flipped"; "rotated"; "manual-tumble"]%string) -> sheet_back pa t default default
| back_urf2 : t = "image/urf"%string -> In (VStr "DM2") (values "urf-supported" pa) -> sheet_back pa t default Flipped
| back_urf3 : t = "image/urf"%string -> ~ In (VStr "DM2") (values "urf-supported" pa) -> In (VStr "DM3") (values "urf-supported" pa) -> sheet_back pa t default Rotated
| back_urf4 : t = "image/urf"%string -> ~ In (VStr "DM2") (values "urf-supported" pa) -> ~ In (VStr "DM3") (values "urf-supported" pa) ->
    In (VStr "DM4") (values "urf-supported" pa) -> sheet_back pa t default ManualTumble
| back_urf_other : t = "image/urf"%string -> (forall s, In s ["DM2"; "DM3"; "DM4"]%string -> ~ In (VStr s) (values "urf-supported" pa)) -> sheet_back pa t default default.

(** ** Proofs *)
Lemma get_job_str_value j s t : wf_job (j_jobAttrs j) -> job_setting s -> s_type s = TStr -> get_job_str j s = Ok t -> value_of (j_printerAttrs j) s (j_jobAttrs j) (VStr "") = VStr t.
Proof.
  intros Hm Hs Ht H. unfold get_job_str in H. bind_inv H as v Hv K. injection K as <-. apply get_job_value in Hv; [|exact Hm|exact Hs]. destruct Hv as [-> Hv].
  destruct Hv as [Hv|Hv]; [rewrite Ht in Hv|rewrite Hv; reflexivity]. destruct (value_of _ _ _ _); try discriminate Hv. reflexivity.
Qed.
(** the fields no stage before adjustRasterSettings touches *)
Definition kept (p q : params) : Prop := p_duplexMode q = p_duplexMode p /\ p_colorMode q = p_colorMode p /\ p_mediaPosition q = p_mediaPosition p /\
  p_backXform q = p_backXform p /\ p_collated q = p_collated p.
Lemma before_adjust j inp j1 j2 j3 j4 j5 j6 j7 : wf_job (j_jobAttrs j) ->
  choose_format j inp = Ok j1 -> choose_compression j1 = Ok j2 -> choose_paper j2 = Ok (true, j3) -> take_margins j3 = Ok j4 -> move_media_size j4 = Ok j5 ->
  choose_resolution (with_params j5 (set_format (j_params j5) (format_for inp (j_target j5)))) = Ok j6 -> take_ranges j6 inp = Ok j7 ->
  wf_job (j_jobAttrs j7) /\ j_printerAttrs j7 = j_printerAttrs j /\ kept (j_params j) (j_params j7) /\ p_format (j_params j7) = format_for inp (j_target j7) /\ 
  (forall s, job_setting s -> existsb (same s) [s_topMargin; s_bottomMargin; s_leftMargin; s_rightMargin; s_media; s_mediaSize; s_pageRanges] = false ->
     lookup s (j_jobAttrs j7) = lookup s (j_jobAttrs j)).
Proof.
  intros Hm H1 H2 H3 H4 H5 H6 H7.
  apply choose_format_inv in H1. destruct H1 as [t [sup [Dt [Ds ->]]]]. clear Dt Ds.
  apply choose_compression_inv in H2. destruct H2 as [mo [-> _]].
  apply choose_paper_inv in H3. destruct H3 as [name [p0 [_ [Hp ->]]]].
  cbn [with_op with_target j_params j_printerAttrs j_jobAttrs j_target j_opAttrs] in *.
  apply setPaperSize_kept in Hp. destruct Hp as (_ & _ & _ & _ & P1 & P2 & P3 & P4 & P5).
  apply take_margins_inv in H4; [|exact Hm]. cbn [with_params with_op with_target j_params j_printerAttrs j_jobAttrs j_target j_opAttrs j_margins] in H4.
  assert (E4 : wf_job (j_jobAttrs j4) /\ j_printerAttrs j4 = j_printerAttrs j /\ j_params j4 = p0 /\ j_target j4 = t /\
    forall s, job_setting s -> is_margin s = false -> lookup s (j_jobAttrs j4) = lookup s (j_jobAttrs j)).
  { destruct H4 as [[_ ->]|[_ [m [W [-> L]]]]].
    - split; [exact Hm|]. repeat (split; [reflexivity|]). reflexivity.
    - split; [exact W|]. repeat (split; [reflexivity|]). intros s Hs Hn. cbn [with_job j_jobAttrs]. rewrite L by exact Hs. rewrite Hn. reflexivity. }
  clear H4. destruct E4 as (W4 & A4 & B4 & T4 & L4). apply move_media_size_inv in H5; [|exact W4].
  assert (E5 : wf_job (j_jobAttrs j5) /\ j_printerAttrs j5 = j_printerAttrs j /\ j_params j5 = p0 /\ j_target j5 = t /\
    forall s, job_setting s -> same s s_media = false -> same s s_mediaSize = false -> lookup s (j_jobAttrs j5) = lookup s (j_jobAttrs j4)).
  { destruct H5 as [[_ ->]|[_ [_ [x [y [m [W [-> [_ [_ L]]]]]]]]]].
    - repeat (split; [assumption|]). reflexivity.
    - split; [exact W|]. repeat (split; [assumption|]). intros s Hs N1 N2. cbn [with_job j_jobAttrs]. rewrite L by exact Hs. rewrite N1, N2. reflexivity. }
  clear H5. destruct E5 as (W5 & A5 & B5 & T5 & L5).
  apply choose_resolution_inv in H6. destruct H6 as [rx [ry [-> _]]].
  apply take_ranges_inv in H7; [|exact W5]. cbn [with_params j_jobAttrs j_params j_printerAttrs j_target] in H7.
  assert (L : forall s, job_setting s -> existsb (same s) [s_topMargin; s_bottomMargin; s_leftMargin; s_rightMargin; s_media; s_mediaSize; s_pageRanges] = false ->
     same s s_pageRanges = false /\ lookup s (j_jobAttrs j5) = lookup s (j_jobAttrs j)).
  { intros s Hs N. cbn [existsb] in N. rewrite !orb_false_iff in N. destruct N as (N1 & N2 & N3 & N4 & N5 & N6 & N7 & _). split; [exact N7|].
    rewrite L5, L4; auto. unfold is_margin. rewrite N1, N2, N3, N4. reflexivity. }
  assert (K : kept (j_params j) p0) by (unfold kept; auto).
  destruct H7 as [[_ ->]|[_ [l [m [W [_ [-> L7]]]]]]]; cbn [with_job with_params j_jobAttrs j_params j_printerAttrs j_target]; rewrite B5, T5.
  - split; [exact W5|]. split; [exact A5|]. split; [exact K|]. split; [reflexivity|]. intros s Hs N. apply L; assumption.
  - split; [exact W|]. split; [exact A5|]. split; [exact K|]. split; [reflexivity|]. intros s Hs N. destruct (L s Hs N) as [N7 E]. rewrite L7 by exact Hs. rewrite N7. exact E.
Qed.

Lemma all_same_spec l : all_same l = true <-> forall a b, In a l -> In b l -> a = b.
Proof.
  induction l as [|x l IH]; [split; [intros _ a b []|reflexivity]|]. destruct l as [|y l].
  - split; [|reflexivity]. intros _ a b [<-|[]] [<-|[]]. reflexivity.
  - change (all_same (x :: y :: l)) with ((x =? y) && all_same (y :: l)). rewrite andb_true_iff, Z.eqb_eq, IH. split.
    + intros [-> H] a b Ha Hb. apply H; [destruct Ha as [<-|Ha]; [left; reflexivity|exact Ha]|destruct Hb as [<-|Hb]; [left; reflexivity|exact Hb]].
    + intros H. split; [apply H; cbn; auto|]. intros a b Ha Hb. apply H; right; assumption.
Qed.
Lemma sequence_members p n : 0 <= n < to_end -> Forall (fun r => 1 <= fst r) (p_pageRanges p) -> p_duplexMode p = OneSided -> 1 < p_copies p ->
  exists l, getPageSequence p n = Ok l /\ forall q, In q l <-> In q (selection n (p_pageRanges p)).
Proof.
  intros Hn Hr Hd Hc. destruct (p_collated p) eqn:Ec.
  - destruct (C18_collated_copies p n Hn Hr Ec Hc) as (copy & sq & E & Hs & Hcopy & _). exists sq. split; [exact E|]. intros q.
    assert (copy = selection n (p_pageRanges p)) as -> by (destruct Hcopy as [[-> _]|(_ & C & _)]; [reflexivity|contradiction]).
    rewrite Hs. rewrite in_concat. split.
    + intros [x [Hx Hq]]. apply repeat_spec in Hx. subst x. exact Hq.
    + intros Hq. exists (selection n (p_pageRanges p)). split; [|exact Hq]. replace (Z.to_nat (p_copies p)) with (S (Z.to_nat (p_copies p - 1))) by lia. left. reflexivity.
  - eexists. split; [apply C19_uncollated_one_sided; assumption|]. intros q. rewrite in_flat_map. split.
    + intros [x [Hx Hq]]. apply repeat_spec in Hq. subst x. exact Hx.
    + intros Hq. exists q. split; [exact Hq|]. replace (Z.to_nat (p_copies p)) with (S (Z.to_nat (p_copies p - 1))) by lia. left. reflexivity.
Qed.
Lemma selection_single rs : one_page 1 rs.
Proof.
  assert (E : document 1 = [1]) by reflexivity.
  intros a b Ha Hb. assert (D : forall q, In q (selection 1 rs) -> q = 1); [|rewrite (D a Ha), (D b Hb); reflexivity].
  intros q Hq. unfold selection in Hq. destruct rs as [|r rs]; [rewrite E in Hq; destruct Hq as [<-|[]]; reflexivity|].
  apply in_flat_map in Hq. destruct Hq as [x [_ Hq]]. unfold pages_of in Hq. apply filter_In in Hq. rewrite E in Hq. destruct Hq as [[<-|[]] _]. reflexivity.
Qed.

Lemma js_handling : job_setting s_multipleDocumentHandling. Proof. is_setting. Qed.
Lemma js_quality : job_setting s_printQuality. Proof. is_setting. Qed.
Lemma js_color : job_setting s_colorMode. Proof. is_setting. Qed.
Lemma js_mtype : job_setting s_mediaType. Proof. is_setting. Qed.
Lemma js_msource : job_setting s_mediaSource. Proof. is_setting. Qed.

Lemma back_side_value j j' : back_side j = Ok j' ->
  match p_format (j_params j) with
  | PWG => sheet_back (j_printerAttrs j) "image/pwg-raster" (p_backXform (j_params j)) (p_backXform (j_params j'))
  | URF => sheet_back (j_printerAttrs j) "image/urf" (p_backXform (j_params j)) (p_backXform (j_params j'))
  | _ => p_backXform (j_params j') = p_backXform (j_params j)
  end.
Proof.
  unfold back_side. intros H. destruct (p_format (j_params j)); try (assert (j' = j) by congruence; subst; reflexivity).
  - bind_inv H as v Hv K. assert (K' := f_equal (fun x => match x with Ok a => a | _ => j end) K). cbv beta iota in K'. rewrite <- K'. clear K K'.
    unfold attrs_get, attrs_at in Hv. destruct (map_get "pwg-raster-document-sheet-back" (j_printerAttrs j)) as [[tag w]|] eqn:E.
    + cbn [bind snd] in Hv. unfold get_as in Hv. destruct (has_type TStr w) eqn:T; [|discriminate]. assert (v = w) by congruence. subst v. destruct w; try discriminate T. cbn [v_str].
      destruct (String.eqb_spec s "flipped") as [->|N1]; [eapply back_pwg; [reflexivity|exact E|cbn; auto]|].
      destruct (String.eqb_spec s "rotated") as [->|N2]; [eapply back_pwg; [reflexivity|exact E|cbn; auto]|].
      destruct (String.eqb_spec s "manual-tumble") as [->|N3]; [eapply back_pwg; [reflexivity|exact E|cbn; auto]|].
      apply back_pwg_other; [reflexivity|]. intros tag' s' E'. rewrite E in E'. injection E' as _ <-. cbn [In]. intros [C|[C|[C|[]]]]; congruence.
    + cbn [bind] in Hv. assert (v = VStr "") by congruence. subst v. cbn [v_str]. apply back_pwg_other; [reflexivity|]. intros tag' s' E'. rewrite E in E'. discriminate.
  - bind_inv H as l Hl K. assert (K' := f_equal (fun x => match x with Ok a => a | _ => j end) K). cbv beta iota in K'. rewrite <- K'. clear K K'.
    unfold printer_strs in Hl. bind_inv Hl as vs Hvs K. assert (l = map v_str vs) by congruence. subst l. apply getList_values in Hvs. destruct Hvs as [-> Hvs].
    pose proof (strs_in _ "DM2" Hvs) as S2. pose proof (strs_in _ "DM3" Hvs) as S3. pose proof (strs_in _ "DM4" Hvs) as S4.
    destruct (contains _ "DM2"); [apply back_urf2; [reflexivity|apply S2; reflexivity]|].
    assert (N2 : ~ In (VStr "DM2") (values "urf-supported" (j_printerAttrs j))) by (intros C; apply S2 in C; discriminate).
    destruct (contains _ "DM3"); [apply back_urf3; [reflexivity|exact N2|apply S3; reflexivity]|].
    assert (N3 : ~ In (VStr "DM3") (values "urf-supported" (j_printerAttrs j))) by (intros C; apply S3 in C; discriminate).
    destruct (contains _ "DM4"); [apply back_urf4; [reflexivity|exact N2|exact N3|apply S4; reflexivity]|].
    assert (N4 : ~ In (VStr "DM4") (values "urf-supported" (j_printerAttrs j))) by (intros C; apply S4 in C; discriminate).
    apply back_urf_other; [reflexivity|]. intros s [<-|[<-|[<-|[]]]]; assumption.
Qed.

(** what adjustRasterSettings decides for copies *)
Lemma take_copies_value j pages j' : wf_job (j_jobAttrs j) -> take_copies j pages = Ok j' ->
  let n := v_int (value_of (j_printerAttrs j) s_copies (j_jobAttrs j) (VInt 1)) in
  let made := 1 < n /\ ~ printer_makes_copies (j_printerAttrs j) in
  p_duplexMode (j_params j') = p_duplexMode (j_params j) /\ p_colorMode (j_params j') = p_colorMode (j_params j) /\ p_mediaPosition (j_params j') = p_mediaPosition (j_params j) /\
  p_backXform (j_params j') = p_backXform (j_params j) /\
  (~ made -> j' = j) /\
  (made -> (exists mode, value_of (j_printerAttrs j) s_multipleDocumentHandling (j_jobAttrs j) (VStr "") = VStr mode /\
        p_collated (j_params j') = if String.eqb mode "separate-documents-uncollated-copies" then false else p_collated (j_params j)) /\
      exists sd, value_of (j_printerAttrs j) s_sides (j_jobAttrs j) (VStr "") = VStr sd /\
        (n < 2 ^ 31 -> 0 <= pages < 2 ^ 31 -> Forall (fun r => 1 <= fst r) (p_pageRanges (j_params j)) -> p_duplexMode (j_params j) = OneSided ->
         (sd <> "one-sided"%string /\ one_page pages (p_pageRanges (j_params j)) -> lookup s_sides (j_jobAttrs j') = Some (tKeyword, VStr "one-sided")) /\
         (~ (sd <> "one-sided"%string /\ one_page pages (p_pageRanges (j_params j))) -> lookup s_sides (j_jobAttrs j') = lookup s_sides (j_jobAttrs j)))).
Proof.
  intros Hm H n made. unfold take_copies in H. bind_inv H as v Hv K. apply get_job_value in Hv; [|exact Hm|apply js_copies]. destruct Hv as [-> _].
  bind_inv K as sup Hsup K. fold n in K. apply copies_spec in Hsup.
  destruct ((n >? 1) && negb sup) eqn:En.
  2: { assert (j' = j) by congruence. subst j'. repeat (split; [reflexivity|]). intros [M1 M2]. exfalso. destruct sup; [apply M2, Hsup; reflexivity|lia]. }
  assert (M : made) by (split; [lia|]; intros C; apply Hsup in C; subst sup; rewrite andb_false_r in En; discriminate). clear Hsup.
  bind_inv K as mode Hmode K. apply get_job_str_value in Hmode; [|exact Hm|apply js_handling|reflexivity].
  set (coll := if String.eqb mode _ then false else _) in K. bind_inv K as j1 H1 K.
  apply unset_job_inv in H1; [|exact Hm|apply js_copies]. destruct H1 as [m [-> [W L]]]. cbn [with_params j_jobAttrs] in L.
  bind_inv K as sd Hsd K. apply get_job_str_value in Hsd; [|exact W|apply js_sides|reflexivity]. cbn [with_job with_params j_jobAttrs j_printerAttrs] in Hsd.
  assert (Ls : lookup s_sides m = lookup s_sides (j_jobAttrs j)) by (rewrite L by apply js_sides; reflexivity). rewrite (value_of_eq _ _ _ _ _ Ls) in Hsd.
  assert (E : exists m', j' = with_job (with_params j (set_copies (j_params j) (n mod two64) coll)) m' /\
      (n < 2 ^ 31 -> 0 <= pages < 2 ^ 31 -> Forall (fun r => 1 <= fst r) (p_pageRanges (j_params j)) -> p_duplexMode (j_params j) = OneSided ->
         (sd <> "one-sided"%string /\ one_page pages (p_pageRanges (j_params j)) -> lookup s_sides m' = Some (tKeyword, VStr "one-sided")) /\
         (~ (sd <> "one-sided"%string /\ one_page pages (p_pageRanges (j_params j))) -> lookup s_sides m' = lookup s_sides (j_jobAttrs j)))).
  { destruct (String.eqb_spec sd "one-sided") as [->|Nsd].
    - exists m. split; [congruence|]. intros _ _ _ _. split; [intros [C _]; contradiction|intros _; exact Ls].
    - bind_inv K as sq Hsq K.
      assert (Q : n < 2 ^ 31 -> 0 <= pages < 2 ^ 31 -> Forall (fun r => 1 <= fst r) (p_pageRanges (j_params j)) -> p_duplexMode (j_params j) = OneSided ->
         ((pages =? 1) || all_same sq = true <-> one_page pages (p_pageRanges (j_params j)))).
      { intros Hn Hp Hr Hd. rewrite (Z.mod_small pages two64) in Hsq by (unfold two64; lia).
        assert (Mn : n mod two64 = n) by (destruct M as [M _]; apply Z.mod_small; unfold two64; lia).
        destruct (sequence_members (set_copies (j_params j) (n mod two64) coll) pages) as [l [El Hl]]; [unfold to_end; lia|exact Hr|exact Hd|change (1 < n mod two64); rewrite Mn; apply M|].
        rewrite El in Hsq. assert (l = sq) by congruence. subst sq. change (p_pageRanges (set_copies _ _ _)) with (p_pageRanges (j_params j)) in Hl.
        rewrite orb_true_iff, Z.eqb_eq, all_same_spec. unfold one_page. split.
        - intros [->|H]; [apply selection_single|]. intros a b Ha Hb. apply H; apply Hl; assumption.
        - intros H. right. intros a b Ha Hb. apply H; apply Hl; assumption. }
      destruct ((pages =? 1) || all_same sq) eqn:Eb.
      + apply set_job_inv in K; [|exact W|apply js_sides]. destruct K as [m2 [-> [W2 L2]]]. exists m2. split; [reflexivity|].
        intros Q1 Q2 Q3 Q4. specialize (Q Q1 Q2 Q3 Q4). split; [intros _; rewrite L2 by apply js_sides; reflexivity|]. intros C. exfalso. apply C. split; [exact Nsd|]. apply Q. reflexivity.
      + exists m. split; [congruence|]. intros Q1 Q2 Q3 Q4. specialize (Q Q1 Q2 Q3 Q4). split; [|intros _; exact Ls]. intros [_ C]. apply Q in C. discriminate. }
  destruct E as [m' [-> E]]. repeat (split; [reflexivity|]). split; [intros C; contradiction (C M)|]. intros _.
  split; [exists mode; split; [exact Hmode|reflexivity]|]. exists sd. split; [exact Hsd|]. exact E.
Qed.

Lemma enum_get_in m s z : enum_get m s = Some z -> In (s, z) m.
Proof. induction m as [|[k x] m IH]; [discriminate|]. cbn [enum_get]. destruct (String.eqb_spec s k) as [->|]; [intros H; injection H as <-; left; reflexivity|intros H; right; auto]. Qed.
Record decided (j : job) (inp : string) (pages : Z) (j' : job) : Prop := mkDecided {
  d_quality : let q := v_int (value_of (j_printerAttrs j) s_printQuality (j_jobAttrs j') (VInt 0)) in
    p_quality (j_params j') = if q =? 3 then DraftQuality else if q =? 4 then NormalQuality else if q =? 5 then HighQuality else DefaultQuality;
  d_sides : exists s, value_of (j_printerAttrs j) s_sides (j_jobAttrs j') (VStr "") = VStr s /\
    p_duplexMode (j_params j') = if String.eqb s "two-sided-long-edge" then TwoSidedLongEdge else if String.eqb s "two-sided-short-edge" then TwoSidedShortEdge else p_duplexMode (j_params j);
  d_color : exists s, value_of (j_printerAttrs j) s_colorMode (j_jobAttrs j') (VStr "") = VStr s /\ Forall (fun v => has_type TStr v = true) (values "print-color-mode-supported" (j_printerAttrs j)) /\
    p_colorMode (j_params j') = if string_contains s "color" then sRGB24
      else if string_contains s "monochrome" || negb (contains (map v_str (values "print-color-mode-supported" (j_printerAttrs j))) "color") then Gray8 else p_colorMode (j_params j);
  d_position : match lookup s_mediaSource (j_jobAttrs j') with
    | None => p_mediaPosition (j_params j') = p_mediaPosition (j_params j)
    | Some (_, v) => exists s, v = VStr s /\ In (s, p_mediaPosition (j_params j')) media_positions
    end;
  d_type : value_of (j_printerAttrs j) s_mediaType (j_jobAttrs j') (VStr "") = VStr (p_mediaType (j_params j'));
  d_back : (raster inp (j_target j') -> sheet_back (j_printerAttrs j) (j_target j') (p_backXform (j_params j)) (p_backXform (j_params j'))) /\
    (~ raster inp (j_target j') -> p_backXform (j_params j') = p_backXform (j_params j));
  d_copies : let n := v_int (value_of (j_printerAttrs j) s_copies (j_jobAttrs j) (VInt 1)) in
    let made := raster inp (j_target j') /\ 1 < n /\ ~ printer_makes_copies (j_printerAttrs j) in
    (~ made -> lookup s_sides (j_jobAttrs j') = lookup s_sides (j_jobAttrs j) /\ p_collated (j_params j') = p_collated (j_params j)) /\
    (made -> (exists mode, value_of (j_printerAttrs j) s_multipleDocumentHandling (j_jobAttrs j) (VStr "") = VStr mode /\
        p_collated (j_params j') = if String.eqb mode "separate-documents-uncollated-copies" then false else p_collated (j_params j)) /\
      exists sd, value_of (j_printerAttrs j) s_sides (j_jobAttrs j) (VStr "") = VStr sd /\
        (n < 2 ^ 31 -> 0 <= pages < 2 ^ 31 -> Forall (fun r => 1 <= fst r) (p_pageRanges (j_params j')) -> p_duplexMode (j_params j) = OneSided ->
         (sd <> "one-sided"%string /\ one_page pages (p_pageRanges (j_params j')) -> lookup s_sides (j_jobAttrs j') = Some (tKeyword, VStr "one-sided")) /\
         (~ (sd <> "one-sided"%string /\ one_page pages (p_pageRanges (j_params j'))) -> lookup s_sides (j_jobAttrs j') = lookup s_sides (j_jobAttrs j))))
}.
(** what adjustRasterSettings decides *)
Lemma adjust_value j inp pages j' : wf_job (j_jobAttrs j) -> p_format (j_params j) = format_for inp (j_target j) -> adjustRasterSettings j pages = Ok j' ->
  let n := v_int (value_of (j_printerAttrs j) s_copies (j_jobAttrs j) (VInt 1)) in
  let made := raster inp (j_target j) /\ 1 < n /\ ~ printer_makes_copies (j_printerAttrs j) in
  j_target j' = j_target j /\ j_printerAttrs j' = j_printerAttrs j /\ p_pageRanges (j_params j') = p_pageRanges (j_params j) /\
  p_duplexMode (j_params j') = p_duplexMode (j_params j) /\ p_colorMode (j_params j') = p_colorMode (j_params j) /\ p_mediaPosition (j_params j') = p_mediaPosition (j_params j) /\
  ((raster inp (j_target j) -> sheet_back (j_printerAttrs j) (j_target j) (p_backXform (j_params j)) (p_backXform (j_params j'))) /\
    (~ raster inp (j_target j) -> p_backXform (j_params j') = p_backXform (j_params j))) /\
  (~ made -> lookup s_sides (j_jobAttrs j') = lookup s_sides (j_jobAttrs j) /\ p_collated (j_params j') = p_collated (j_params j)) /\
  (made -> (exists mode, value_of (j_printerAttrs j) s_multipleDocumentHandling (j_jobAttrs j) (VStr "") = VStr mode /\
        p_collated (j_params j') = if String.eqb mode "separate-documents-uncollated-copies" then false else p_collated (j_params j)) /\
      exists sd, value_of (j_printerAttrs j) s_sides (j_jobAttrs j) (VStr "") = VStr sd /\
        (n < 2 ^ 31 -> 0 <= pages < 2 ^ 31 -> Forall (fun r => 1 <= fst r) (p_pageRanges (j_params j)) -> p_duplexMode (j_params j) = OneSided ->
         (sd <> "one-sided"%string /\ one_page pages (p_pageRanges (j_params j)) -> lookup s_sides (j_jobAttrs j') = Some (tKeyword, VStr "one-sided")) /\
         (~ (sd <> "one-sided"%string /\ one_page pages (p_pageRanges (j_params j))) -> lookup s_sides (j_jobAttrs j') = lookup s_sides (j_jobAttrs j)))).
Proof.
  intros Hm Hf H n made. unfold adjustRasterSettings in H. pose proof (raster_spec inp (j_target j)) as R. pose proof (format_for_raster inp (j_target j)) as F. rewrite <- Hf in F.
  destruct F as [F|F]; [|destruct F as [F|F]].
  3: { assert (N : ~ raster inp (j_target j)) by (intros C; apply R in C; destruct F as [_ F]; congruence).
    assert (j' = j) by (destruct F as [F _]; destruct (p_format (j_params j)); try contradiction; congruence). subst j'. repeat (split; [reflexivity|]).
    split; [split; [intros C; contradiction|reflexivity]|]. split; [split; reflexivity|]. intros [C _]. contradiction. }
  all: destruct F as (Ff & _ & Ft & Fr); apply R in Fr; rewrite Ff in H; bind_inv H as j0 H0 K; (apply unset_job_inv in H0; [|exact Hm|apply js_res]); destruct H0 as [m [-> [W L]]].
  all: bind_inv K as j1 H1 K; apply adjust_resolution_inv in H1; destruct H1 as [x [y ->]].
  all: bind_inv K as j2 H2 K; pose proof (back_side_value _ _ H2) as B; apply back_side_inv in H2; destruct H2 as [b ->].
  all: cbn [with_params with_job j_params set_res mk_params p_format j_printerAttrs p_backXform set_back] in B; rewrite Ff in B.
  all: pose proof K as I; apply take_copies_inv in I; [|exact W].
  all: apply take_copies_value in K; [|exact W].
  all: cbn [with_params with_job j_params set_res set_back mk_params p_format j_printerAttrs p_backXform set_back j_jobAttrs p_duplexMode p_colorMode p_mediaPosition p_collated p_pageRanges] in K.
  all: assert (En : lookup s_copies m = lookup s_copies (j_jobAttrs j)) by (rewrite L by apply js_copies; reflexivity).
  all: assert (Em : lookup s_multipleDocumentHandling m = lookup s_multipleDocumentHandling (j_jobAttrs j)) by (rewrite L by apply js_handling; reflexivity).
  all: assert (Es : lookup s_sides m = lookup s_sides (j_jobAttrs j)) by (rewrite L by apply js_sides; reflexivity).
  all: rewrite (value_of_eq _ _ _ _ _ En), (value_of_eq _ _ _ _ _ Em), (value_of_eq _ _ _ _ _ Es), Es in K; fold n in K; destruct K as (K1 & K2 & K3 & K4 & K5 & K6).
  all: assert (T : j_target j' = j_target j /\ j_printerAttrs j' = j_printerAttrs j /\ p_pageRanges (j_params j') = p_pageRanges (j_params j)) by
    (destruct I as [sup [_ [[_ ->]|[_ [_ [coll [m' [_ [-> _]]]]]]]]]; repeat split); destruct T as (T1 & T2 & T3).
  all: split; [exact T1|]; split; [exact T2|]; split; [exact T3|]; split; [exact K1|]; split; [exact K2|]; split; [exact K3|].
  all: split; [split; [intros _; rewrite K4, Ft; exact B|intros C; contradiction]|].
  all: split; [intros N; rewrite K5 by (intros C; apply N; split; [exact Fr|exact C]); split; [exact Es|reflexivity]|].
  all: intros [_ M]; exact (K6 M).
Qed.

Theorem finalize_decided j inp pages j' : wf_job (j_jobAttrs j) -> finalize j inp pages = Ok (None, j') -> decided j inp pages j'.
Proof.
  intros Hm H. pose proof (finalize_summary _ _ _ _ Hm H) as S. apply finalize_stages in H. destruct H as [j1 [j2 [j3 [j4 [j5 [j6 [j7 [j8 [j9 [j10 [j11 (H1 & _ & H2 & H3 & H4 & H5 & H6 & H7 & H8 & H9 & H10 & H11 & H12)]]]]]]]]]]].
  destruct (before_adjust j inp j1 j2 j3 j4 j5 j6 j7 Hm H1 H2 H3 H4 H5 H6 H7) as (W7 & A7 & (B1 & B2 & B3 & B4 & B5) & F7 & L7). clear H1 H2 H3 H4 H5 H6 H7.
  pose proof (adjust_value _ inp _ _ W7 F7 H8) as V. cbv zeta in V. destruct V as (V1 & V2 & V3 & V4 & V5 & V6 & V7 & V8 & V9). clear H8.
  pose proof (choose_sides_inv _ _ H9) as [d E9]. pose proof (choose_quality_inv _ _ H10) as [q E10]. pose proof (choose_color_inv _ _ H11) as [c E11]. pose proof (choose_media_inv _ _ H12) as [mp [mt E12]].
  pose proof (sm_wf _ _ _ _ S) as W'. clear S.
  assert (J8 : j_jobAttrs j' = j_jobAttrs j8) by (rewrite E12, E11, E10, E9; reflexivity).
  assert (J9 : j_jobAttrs j9 = j_jobAttrs j8) by (rewrite E9; reflexivity).
  assert (J10 : j_jobAttrs j10 = j_jobAttrs j8) by (rewrite E10, E9; reflexivity).
  assert (J11 : j_jobAttrs j11 = j_jobAttrs j8) by (rewrite E11, E10, E9; reflexivity).
  assert (T8 : j_target j' = j_target j7) by (rewrite E12, E11, E10, E9; exact V1).
  assert (P8 : j_printerAttrs j8 = j_printerAttrs j) by congruence.
  assert (P9 : j_printerAttrs j9 = j_printerAttrs j) by (rewrite E9; exact P8).
  assert (P10 : j_printerAttrs j10 = j_printerAttrs j) by (rewrite E10; exact P9).
  assert (P11 : j_printerAttrs j11 = j_printerAttrs j) by (rewrite E11; exact P10).
  rewrite J8 in W'.
  constructor; rewrite ?J8.
  - unfold choose_quality in H10. bind_inv H10 as v Hv K. apply get_job_value in Hv; [|rewrite J9; exact W'|apply js_quality]. destruct Hv as [Hv _]. rewrite P9, J9 in Hv. rewrite <- Hv. cbv zeta.
    assert (K' := f_equal (fun x => match x with Ok a => p_quality (j_params a) | _ => DefaultQuality end) K). cbn [with_params j_params set_quality mk_params p_quality] in K'. rewrite E12, E11. symmetry. exact K'.
  - unfold choose_sides in H9. bind_inv H9 as s Hs K. apply get_job_str_value in Hs; [|exact W'|apply js_sides|reflexivity]. rewrite P8 in Hs. exists s. split; [exact Hs|].
    assert (K' := f_equal (fun x => match x with Ok a => p_duplexMode (j_params a) | _ => OneSided end) K). rewrite E12, E11, E10. cbn [with_params j_params set_quality set_color set_media mk_params p_duplexMode]. rewrite <- K'.
    destruct (String.eqb s _); [reflexivity|]. destruct (String.eqb s _); [reflexivity|]. congruence.
  - unfold choose_color in H11. bind_inv H11 as sup Hsup K. bind_inv K as s Hs K. apply get_job_str_value in Hs; [|rewrite J10; exact W'|apply js_color|reflexivity]. rewrite P10, J10 in Hs. exists s. split; [exact Hs|].
    unfold supported_strs, getSupported in Hsup. bind_inv Hsup as vs Hvs K2. assert (sup = map v_str vs) by congruence. subst sup. apply getList_values in Hvs. destruct Hvs as [-> Hvs]. rewrite P10 in Hvs, K. split; [exact Hvs|].
    assert (K' := f_equal (fun x => match x with Ok a => p_colorMode (j_params a) | _ => sRGB24 end) K). cbv beta iota in K'. rewrite E12. cbn [with_params j_params set_media mk_params p_colorMode]. rewrite <- K'.
    change (s_name s_colorMode ++ "-supported")%string with "print-color-mode-supported"%string.
    destruct (string_contains s "color"); [reflexivity|]. destruct (_ || _); [reflexivity|]. rewrite E10, E9. cbn [with_params j_params set_quality set_duplex mk_params p_colorMode]. congruence.
  - unfold choose_media in H12. rewrite isSet_lookup in H12; [|apply js_msource|rewrite J11; exact W']. cbn [bind] in H12. rewrite J11 in H12.
    bind_inv H12 as pos Hpos K. bind_inv K as t Ht K. assert (K' := f_equal (fun x => match x with Ok a => p_mediaPosition (j_params a) | _ => 0 end) K). cbn [with_params j_params set_media mk_params p_mediaPosition] in K'. rewrite <- K'.
    destruct (lookup s_mediaSource (j_jobAttrs j8)) as [[tag v]|] eqn:El.
    + bind_inv Hpos as s Hs K2. apply get_job_str_value in Hs; [|rewrite J11; exact W'|apply js_msource|reflexivity]. rewrite J11 in Hs. unfold value_of in Hs. change ipp_attr with (Z * ipp_value)%type in *. rewrite El in Hs. cbn [snd] in Hs.
      exists s. split; [exact Hs|]. apply enum_get_in. destruct (enum_get media_positions s); [congruence|discriminate].
    + assert (pos = p_mediaPosition (j_params j11)) by congruence. rewrite H, E11, E10, E9. cbn [with_params j_params set_quality set_duplex set_color mk_params p_mediaPosition]. congruence.
  - unfold choose_media in H12. bind_inv H12 as b Hb K. bind_inv K as pos Hpos K. bind_inv K as t Ht K. apply get_job_str_value in Ht; [|rewrite J11; exact W'|apply js_mtype|reflexivity]. rewrite P11, J11 in Ht. rewrite Ht.
    assert (K' := f_equal (fun x => match x with Ok a => p_mediaType (j_params a) | _ => ""%string end) K). cbn [with_params j_params set_media mk_params p_mediaType] in K'. rewrite <- K'. reflexivity.
  - rewrite T8. rewrite A7, B4 in V7. rewrite E12, E11, E10, E9. exact V7.
  - rewrite T8. assert (Ls : lookup s_sides (j_jobAttrs j7) = lookup s_sides (j_jobAttrs j)) by (apply L7; [apply js_sides|reflexivity]).
    assert (Lc : lookup s_copies (j_jobAttrs j7) = lookup s_copies (j_jobAttrs j)) by (apply L7; [apply js_copies|reflexivity]).
    assert (Lm : lookup s_multipleDocumentHandling (j_jobAttrs j7) = lookup s_multipleDocumentHandling (j_jobAttrs j)) by (apply L7; [apply js_handling|reflexivity]).
    rewrite A7, Ls, B5, (value_of_eq _ _ _ _ _ Lc) in V8. rewrite A7, Ls, B1, B5, (value_of_eq _ _ _ _ _ Lc), (value_of_eq _ _ _ _ _ Lm), (value_of_eq _ _ _ _ _ Ls) in V9.
    assert (E : p_collated (j_params j') = p_collated (j_params j8) /\ p_pageRanges (j_params j') = p_pageRanges (j_params j7)) by (rewrite E12, E11, E10, E9; split; [reflexivity|exact V3]).
    destruct E as [-> ->]. split; [exact V8|exact V9].
Qed.

(** ** C78 *)
Lemma same_value j inp pages j' s fb : wf_job (j_jobAttrs j) -> finalize j inp pages = Ok (None, j') -> job_setting s ->
  existsb (same s) [s_topMargin; s_bottomMargin; s_leftMargin; s_rightMargin; s_media; s_mediaSize; s_pageRanges; s_copies; s_sides; s_resolution] = false ->
  lookup s (j_jobAttrs j') = lookup s (j_jobAttrs j) /\ value_of (j_printerAttrs j) s (j_jobAttrs j') fb = value_of (j_printerAttrs j) s (j_jobAttrs j) fb.
Proof.
  intros Hm H Hs N. pose proof (sm_other_attrs _ _ _ _ (finalize_summary _ _ _ _ Hm H) s Hs N) as E. split; [exact E|]. apply value_of_eq. exact E.
Qed.
Theorem C78_quality j inp pages j' n : wf_job (j_jobAttrs j) -> finalize j inp pages = Ok (None, j') ->
  effective "print-quality" (map_get "print-quality" (j_jobAttrs j)) (j_printerAttrs j) (VInt 0) = VInt n ->
  (n = 3 -> p_quality (j_params j') = DraftQuality) /\ (n = 4 -> p_quality (j_params j') = NormalQuality) /\ (n = 5 -> p_quality (j_params j') = HighQuality) /\
  (~ In n [3; 4; 5] -> p_quality (j_params j') = DefaultQuality).
Proof.
  intros Hm H E. pose proof (d_quality _ _ _ _ (finalize_decided _ _ _ _ Hm H)) as D. cbv zeta in D. destruct (same_value j inp pages j' s_printQuality (VInt 0) Hm H js_quality eq_refl) as [_ V]. rewrite V in D.
  rewrite value_effective, lookup_top in D by reflexivity. cbn [s_name s_printQuality] in D. rewrite E in D. cbn [v_int] in D. rewrite D. clear. cbn [In].
  destruct (Z.eqb_spec n 3), (Z.eqb_spec n 4), (Z.eqb_spec n 5); intuition congruence.
Qed.
(** The pages are rendered for the sides that are asked of the printer (see C78_sides). *)
Theorem C78_duplex j inp pages j' : wf_job (j_jobAttrs j) -> finalize j inp pages = Ok (None, j') ->
  exists s, asks_for j' "sides" = VStr s /\
  (s = "two-sided-long-edge"%string -> p_duplexMode (j_params j') = TwoSidedLongEdge) /\ (s = "two-sided-short-edge"%string -> p_duplexMode (j_params j') = TwoSidedShortEdge) /\
  (~ In s ["two-sided-long-edge"; "two-sided-short-edge"]%string -> p_duplexMode (j_params j') = p_duplexMode (j_params j)).
Proof.
  intros Hm H. destruct (d_sides _ _ _ _ (finalize_decided _ _ _ _ Hm H)) as [s [E D]]. exists s.
  destruct (sm_printer _ _ _ _ (finalize_summary _ _ _ _ Hm H)) as [P _]. split; [unfold asks_for; rewrite P; exact E|]. rewrite D. clear. cbn [In].
  destruct (String.eqb_spec s "two-sided-long-edge") as [->|N1]; [split; [reflexivity|]; split; [discriminate|tauto]|].
  destruct (String.eqb_spec s "two-sided-short-edge") as [->|N2]; [split; [discriminate|]; split; [reflexivity|tauto]|]. tauto.
Qed.
(** A document of copies of one page made here is sent one-sided; the sides are as asked
    for otherwise. *)
Theorem C78_sides j inp pages j' : wf_job (j_jobAttrs j) -> finalize j inp pages = Ok (None, j') -> 0 <= pages < 2 ^ 31 ->
  (forall n, effective "copies" (map_get "copies" (j_jobAttrs j)) (j_printerAttrs j) (VInt 1) = VInt n -> n < 2 ^ 31) ->
  Forall (fun r => 1 <= fst r) (p_pageRanges (j_params j')) -> p_duplexMode (j_params j) = OneSided ->
  (local_copies j inp (j_target j') /\ asks_for j "sides" <> VStr "one-sided" /\ one_page pages (p_pageRanges (j_params j')) -> map_get "sides" (j_jobAttrs j') = Some (tKeyword, VStr "one-sided")) /\
  (~ (local_copies j inp (j_target j') /\ asks_for j "sides" <> VStr "one-sided" /\ one_page pages (p_pageRanges (j_params j'))) -> map_get "sides" (j_jobAttrs j') = map_get "sides" (j_jobAttrs j)).
Proof.
  intros Hm H Hp Hn Hr Hd. pose proof (d_copies _ _ _ _ (finalize_decided _ _ _ _ Hm H)) as D. cbv zeta in D. destruct D as [D1 D2].
  rewrite !(lookup_top s_sides) in D1, D2 by reflexivity. rewrite value_effective, (lookup_top s_copies) in D1, D2 by reflexivity. cbn [s_name s_sides s_copies] in D1, D2.
  set (v := effective "copies" _ _ _) in *.
  assert (L : local_copies j inp (j_target j') <-> raster inp (j_target j') /\ 1 < v_int v /\ ~ printer_makes_copies (j_printerAttrs j)).
  { unfold local_copies. fold v. split.
    - intros [R [[n [E N]] M]]. rewrite E. auto.
    - intros [R [N M]]. split; [exact R|]. split; [|exact M]. destruct v; cbn in N; try lia. eexists. split; [reflexivity|exact N]. }
  assert (Hv : v_int v < 2 ^ 31) by (destruct v; try (cbn; lia); apply Hn; reflexivity).
  assert (V : forall sd, value_of (j_printerAttrs j) s_sides (j_jobAttrs j) (VStr "") = VStr sd -> asks_for j "sides" = VStr sd).
  { intros sd E. exact E. }
  split.
  - intros (C1 & C2 & C3). apply L in C1. destruct (D2 C1) as [_ [sd [E F]]]. apply F; auto. split; [|exact C3]. intros ->. apply C2. apply V. exact E.
  - intros C.
    assert (X : ~ (raster inp (j_target j') /\ 1 < v_int v /\ ~ printer_makes_copies (j_printerAttrs j)) \/ (raster inp (j_target j') /\ 1 < v_int v /\ ~ printer_makes_copies (j_printerAttrs j))).
    { destruct (sm_copies _ _ _ _ (finalize_summary _ _ _ _ Hm H)) as [Q _]. pose proof (raster_spec inp (j_target j')) as R. destruct (rasterised inp (j_target j')); [|left; intros [Y _]; apply R in Y; discriminate].
      destruct (Q eq_refl) as [sup Es]. apply copies_spec in Es. destruct (Z.lt_decidable 1 (v_int v)); [|left; tauto].
      destruct sup; [left; intros (_ & _ & Y); apply Y, Es; reflexivity|right]. split; [apply R; reflexivity|]. split; [assumption|]. intros Y. apply Es in Y. discriminate. }
    destruct X as [X|X]; [apply D1; exact X|]. destruct (D2 X) as [_ [sd [E F]]]. apply F; auto. intros [Y Z]. apply C. split; [apply L; exact X|]. split; [|exact Z]. rewrite (V sd E). congruence.
Qed.
(** Copies are not collated if and only if they are made here and the job asks for that. *)
Theorem C78_collated j inp pages j' : wf_job (j_jobAttrs j) -> finalize j inp pages = Ok (None, j') -> p_collated (j_params j) = true ->
  (p_collated (j_params j') = false <-> local_copies j inp (j_target j') /\ asks_for j "multiple-document-handling" = VStr "separate-documents-uncollated-copies").
Proof.
  intros Hm H Hc. pose proof (d_copies _ _ _ _ (finalize_decided _ _ _ _ Hm H)) as D. cbv zeta in D. destruct D as [D1 D2].
  rewrite value_effective, (lookup_top s_copies) in D1, D2 by reflexivity. cbn [s_name s_copies] in D1, D2. unfold local_copies. set (v := effective "copies" _ _ _) in *.
  assert (L : (raster inp (j_target j') /\ (exists n, v = VInt n /\ 1 < n) /\ ~ printer_makes_copies (j_printerAttrs j)) <-> raster inp (j_target j') /\ 1 < v_int v /\ ~ printer_makes_copies (j_printerAttrs j)).
  { split.
    - intros [R [[n [E N]] M]]. rewrite E. auto.
    - intros [R [N M]]. split; [exact R|]. split; [|exact M]. destruct v; cbn in N; try lia. eexists. split; [reflexivity|exact N]. }
  rewrite L. split.
  - intros F. assert (X : raster inp (j_target j') /\ 1 < v_int v /\ ~ printer_makes_copies (j_printerAttrs j)).
    { destruct (sm_copies _ _ _ _ (finalize_summary _ _ _ _ Hm H)) as [Q _]. pose proof (raster_spec inp (j_target j')) as R.
      destruct (rasterised inp (j_target j')); [|exfalso; destruct D1 as [_ D1]; [intros [Y _]; apply R in Y; discriminate|congruence]].
      destruct (Q eq_refl) as [sup Es]. apply copies_spec in Es. destruct (Z.lt_decidable 1 (v_int v)); [|exfalso; destruct D1 as [_ D1]; [tauto|congruence]].
      destruct sup; [exfalso; destruct D1 as [_ D1]; [intros (_ & _ & Y); apply Y, Es; reflexivity|congruence]|].
      split; [apply R; reflexivity|]. split; [assumption|]. intros Y. apply Es in Y. discriminate. }
    split; [exact X|]. destruct (D2 X) as [[mode [E F2]] _]. rewrite F2 in F. destruct (String.eqb_spec mode "separate-documents-uncollated-copies") as [Em|]; [rewrite Em in E; exact E|congruence].
  - intros [X E]. destruct (D2 X) as [[mode [E2 F2]] _]. change (value_of _ s_multipleDocumentHandling _ _) with (asks_for j "multiple-document-handling") in E2. rewrite E in E2. injection E2 as <-. rewrite F2. reflexivity.
Qed.
Theorem C78_color j inp pages j' : wf_job (j_jobAttrs j) -> finalize j inp pages = Ok (None, j') -> exists s, asks_for j "print-color-mode" = VStr s /\
  (occurs "color" s -> p_colorMode (j_params j') = sRGB24) /\
  (~ occurs "color" s -> occurs "monochrome" s \/ ~ In (VStr "color") (values "print-color-mode-supported" (j_printerAttrs j)) -> p_colorMode (j_params j') = Gray8) /\
  (~ occurs "color" s -> ~ occurs "monochrome" s -> In (VStr "color") (values "print-color-mode-supported" (j_printerAttrs j)) -> p_colorMode (j_params j') = p_colorMode (j_params j)).
Proof.
  intros Hm H. destruct (d_color _ _ _ _ (finalize_decided _ _ _ _ Hm H)) as [s [E [Ht D]]]. exists s. destruct (same_value j inp pages j' s_colorMode (VStr "") Hm H js_color eq_refl) as [_ V]. rewrite V in E.
  split; [exact E|]. rewrite D. pose proof (contains_spec s "color") as S1. pose proof (contains_spec s "monochrome") as S2. pose proof (strs_in _ "color" Ht) as S3. unfold occurs.
  destruct (string_contains s "color"); [split; [reflexivity|]; split; intros N; exfalso; apply N, S1; reflexivity|].
  split; [intros C; apply S1 in C; discriminate|]. destruct (string_contains s "monochrome"); cbn [orb].
  - split; [reflexivity|]. intros _ N. exfalso. apply N, S2. reflexivity.
  - destruct (contains _ "color"); cbn [negb].
    + split; [|reflexivity]. intros _ [C|C]; [apply S2 in C; discriminate|exfalso; apply C, S3; reflexivity].
    + split; [reflexivity|]. intros _ _ C. apply S3 in C. discriminate.
Qed.
Theorem C78_media j inp pages j' : wf_job (j_jobAttrs j) -> finalize j inp pages = Ok (None, j') ->
  asks_in_media j "media-type" = VStr (p_mediaType (j_params j')) /\
  match member "media-source" (j_jobAttrs j) with
  | None => p_mediaPosition (j_params j') = p_mediaPosition (j_params j)
  | Some a => exists s, snd a = VStr s /\ In (s, p_mediaPosition (j_params j')) positions
  end.
Proof.
  intros Hm H. pose proof (finalize_decided _ _ _ _ Hm H) as D. pose proof (d_position _ _ _ _ D) as D1. pose proof (d_type _ _ _ _ D) as D2.
  destruct (same_value j inp pages j' s_mediaType (VStr "") Hm H js_mtype eq_refl) as [_ V]. destruct (same_value j inp pages j' s_mediaSource (VStr "") Hm H js_msource eq_refl) as [V2 _].
  rewrite V in D2. rewrite V2, lookup_member in D1 by reflexivity. cbn [s_name s_mediaSource] in D1.
  split; [rewrite value_effective, lookup_member in D2 by reflexivity; exact D2|]. destruct (member "media-source" (j_jobAttrs j)) as [[tag v]|]; [|exact D1].
  destruct D1 as [s [E I]]. exists s. split; [exact E|]. replace positions with media_positions by (vm_compute; reflexivity). exact I.
Qed.
Theorem C78_back_side j inp pages j' : wf_job (j_jobAttrs j) -> finalize j inp pages = Ok (None, j') ->
  (raster inp (j_target j') -> sheet_back (j_printerAttrs j) (j_target j') (p_backXform (j_params j)) (p_backXform (j_params j'))) /\
  (~ raster inp (j_target j') -> p_backXform (j_params j') = p_backXform (j_params j)).
Proof. intros Hm H. exact (d_back _ _ _ _ (finalize_decided _ _ _ _ Hm H)). Qed.
(** the specification leaves no choice *)
Theorem C78_back_side_unique pa t d x y : sheet_back pa t d x -> sheet_back pa t d y -> x = y.
Proof.
  intros H H'. destruct H as [tag s x T A I|T N|T I2|T N2 I3|T N2 N3 I4|T N]; subst t;
    (destruct H' as [tag' s' x' T' A' I'|T' N'|T' I2'|T' N2' I3'|T' N2' N3' I4'|T' N']; try discriminate T'; try reflexivity; try contradiction);
    try (exfalso; first [eapply N; [|eassumption]; cbn; tauto | eapply N'; [|eassumption]; cbn; tauto]).
  - rewrite A in A'. injection A' as _ <-. cbn [In] in I, I'. destruct I as [I|[I|[I|[]]]]; injection I as <- <-; destruct I' as [I'|[I'|[I'|[]]]]; congruence.
  - exfalso. apply (N' _ _ A). cbn [In] in I |- *. destruct I as [I|[I|[I|[]]]]; injection I as <- _; auto.
  - exfalso. apply (N _ _ A'). cbn [In] in I' |- *. destruct I' as [I|[I|[I|[]]]]; injection I as <- _; auto.
Qed.

(** three copies of pages 1-2 and 5, then of page 5 alone *)
Definition ex_more : ipp_attrs := map_set "print-quality" (tEnum, VInt 5) (map_set "multiple-document-handling" (kw "separate-documents-uncollated-copies") (map_set "print-color-mode" (kw "auto-monochrome") example_attrs)).
Definition ex_printer : ipp_attrs := map_set "pwg-raster-document-sheet-back" (kw "rotated") example_printer.
Definition ex_job2 := with_job (new_job ex_printer []) ex_more.
Definition ex_job3 := with_job (new_job ex_printer []) (map_set "page-ranges" (tIntegerRange, VRange 5 5) ex_more).
Definition ex_job4 := with_op ex_job2 [("document-format", (tMimeMediaType, VStr "image/urf"))]%string.
Example C78_example : let j := result (finalize ex_job2 mPDF 10) in
  finalize ex_job2 mPDF 10 = Ok (None, j) /\ j_target j = "image/pwg-raster"%string /\
  (p_quality (j_params j), p_duplexMode (j_params j), p_colorMode (j_params j), p_backXform (j_params j), p_mediaPosition (j_params j), p_collated (j_params j), p_copies (j_params j))
    = (HighQuality, TwoSidedLongEdge, Gray8, Rotated, 21, false, 3) /\ map_get "sides" (j_jobAttrs j) = Some (kw "two-sided-long-edge").
Proof. vm_compute. repeat split. Qed.
Example C78_one_page : let j := result (finalize ex_job3 mPDF 10) in
  finalize ex_job3 mPDF 10 = Ok (None, j) /\ p_duplexMode (j_params j) = OneSided /\ map_get "sides" (j_jobAttrs j) = Some (kw "one-sided").
Proof. vm_compute. repeat split. Qed.
Example C78_urf : let j := result (finalize ex_job4 mPDF 10) in
  finalize ex_job4 mPDF 10 = Ok (None, j) /\ j_target j = "image/urf"%string /\ p_backXform (j_params j) = Rotated /\ sheet_back (j_printerAttrs ex_job4) "image/urf" Normal Rotated.
Proof.
  split; [vm_compute; reflexivity|]. split; [vm_compute; reflexivity|]. split; [vm_compute; reflexivity|].
  apply back_urf3; [reflexivity|vm_compute; intuition discriminate|vm_compute; auto].
Qed.

Print Assumptions C78_quality.
Print Assumptions C78_duplex.
Print Assumptions C78_sides.
Print Assumptions C78_collated.
Print Assumptions C78_color.
Print Assumptions C78_media.
Print Assumptions C78_back_side.
Print Assumptions C78_back_side_unique.
