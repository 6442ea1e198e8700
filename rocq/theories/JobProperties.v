(** C34 to C39 and C61: what finalizing a print job decides. *)
From Verif Require Import Base BaseLemmas MapModel MapProofs FloatModel StringModel StringSpec StringProofs StringProperties ParamsModel ParamsSpec PpmSpec PpmProofs ParamsProofs IppModel IppEncProofs ArgModel
  SettingModel SettingProperties ConverterModel ConverterProperties JobModel JobProofs JobSummary.
From Coq Require Import Lia ZifyBool.
Local Open Scope Z_scope.

(** ** Specification *)
(** the values of an attribute: none, one, or a set *)
Definition values (k : string) (m : ipp_attrs) : list ipp_value :=
  match map_get k m with
  | None => []
  | Some (_, VSet l) => l
  | Some (_, v) => [v]
  end.
(** an attribute of the job, a member of media-col *)
Definition member (k : string) (m : ipp_attrs) : option ipp_attr :=
  match map_get "media-col" m with Some (_, VColl c) => map_get k c | _ => None end.
(** what the printer uses for an attribute the job does not have *)
Definition effective (k : string) (x : option ipp_attr) (pa : ipp_attrs) (fallback : ipp_value) : ipp_value :=
  match x with
  | Some a => snd a
  | None => match map_get (k ++ "-default") pa with Some a => snd a | None => fallback end
  end.
(** a format the printer advertises: supported, its default, or known otherwise *)
Definition advertised (j : job) (t : string) : Prop :=
  In (VStr t) (values "document-format-supported" (j_printerAttrs j)) \/ In t (j_additional j) \/
  exists tag, map_get "document-format-default" (j_printerAttrs j) = Some (tag, VStr t).
(** the user chose a format *)
Definition no_choice (j : job) : Prop :=
  map_get "document-format" (j_opAttrs j) = None \/ exists tag, map_get "document-format" (j_opAttrs j) = Some (tag, VStr "application/octet-stream").
(** the printer makes copies itself *)
Definition printer_makes_copies (pa : ipp_attrs) : Prop :=
  (exists tag lo hi, map_get "copies-supported" pa = Some (tag, VRange lo hi) /\ 1 < hi) /\
  ~ In (VStr "copies") (values "document-format-varying-attributes" pa) /\
  ~ In (VStr "copies-supported") (values "document-format-varying-attributes" pa).
(** the document is turned into raster pages here *)
Definition raster (inp t : string) : Prop := inp = "application/pdf"%string /\ (t = "image/pwg-raster" \/ t = "image/urf")%string.
(** not a picture *)
Definition picture (t : string) : Prop := (exists s, t = "image/" ++ s)%string /\ t <> "image/pwg-raster"%string /\ t <> "image/urf"%string.

(** ** Proofs *)
Lemma lookup_top s m : s_sub s = ""%string -> lookup s m = map_get (s_name s) m.
Proof. intros H. unfold lookup. rewrite H. reflexivity. Qed.
Lemma lookup_member s m : s_sub s = "media-col"%string -> lookup s m = member (s_name s) m.
Proof. intros H. unfold lookup, member. rewrite H. reflexivity. Qed.
Lemma value_effective pa s m fb : value_of pa s m fb = effective (s_name s) (lookup s m) pa fb.
Proof. reflexivity. Qed.
Lemma getList_values t k m l : attrs_getList t k m = Ok l -> l = values k m /\ Forall (fun v => has_type t v = true) l.
Proof.
  unfold attrs_getList, values. intros H.
  assert (G : forall vs l, get_each t vs = Ok l -> l = vs /\ Forall (fun v => has_type t v = true) l).
  { induction vs as [|v vs IH]; intros l0 K; cbn [get_each] in K; [injection K as <-; split; [reflexivity|constructor]|].
    bind_inv K as x Hx K. bind_inv K as r Hr K. injection K as <-. unfold get_as in Hx. destruct (has_type t v) eqn:E; [|discriminate]. injection Hx as <-.
    destruct (IH _ Hr) as [-> I2]. split; [reflexivity|]. constructor; assumption. }
  destruct (map_get k m) as [[tag v]|]; [|injection H as <-; split; [reflexivity|constructor]].
  apply G in H. destruct H as [-> H2]. unfold as_list in *. cbn [snd] in *. split; [|exact H2]. destruct v; reflexivity.
Qed.
Lemma strs_in l s : Forall (fun v => has_type TStr v = true) l -> contains (map v_str l) s = true <-> In (VStr s) l.
Proof.
  intros H. rewrite contains_in, in_map_iff. split.
  - intros [v [E Hv]]. rewrite Forall_forall in H. specialize (H v Hv). destruct v; try discriminate. cbn in E. congruence.
  - intros K. exists (VStr s). split; [reflexivity|exact K].
Qed.
Lemma doc_supported j l t : supported_strs j s_documentFormat = Ok l -> contains l t = true <-> In (VStr t) (values "document-format-supported" (j_printerAttrs j)).
Proof.
  unfold supported_strs, getSupported. intros H. bind_inv H as vs Hv K. injection K as <-. apply getList_values in Hv. destruct Hv as [-> Hv].
  apply strs_in. exact Hv.
Qed.
Lemma raster_spec inp t : rasterised inp t = true <-> raster inp t.
Proof.
  unfold rasterised, raster, isPrinterRaster. rewrite andb_true_iff, orb_true_iff, !String.eqb_eq. reflexivity.
Qed.

Lemma copies_spec j b : printer_copies j = Ok b -> b = true <-> printer_makes_copies (j_printerAttrs j).
Proof.
  unfold printer_copies, printer_strs. intros H. bind_inv H as v Hv K. bind_inv K as l Hl K. bind_inv Hl as vs Hvs K2. injection K2 as <-.
  apply getList_values in Hvs. destruct Hvs as [-> Hvs]. pose proof (strs_in _ "copies" Hvs) as S1. pose proof (strs_in _ "copies-supported" Hvs) as S2.
  unfold printer_makes_copies. unfold attrs_get, attrs_at in Hv. assert (K' : b = (if contains (map v_str (values "document-format-varying-attributes" (j_printerAttrs j))) "copies" || contains (map v_str (values "document-format-varying-attributes" (j_printerAttrs j))) "copies-supported" then false else match v with VRange _ hi => hi | _ => 0 end >? 1)) by congruence.
  rewrite K'. clear K K'. set (c1 := contains _ "copies") in *. set (c2 := contains _ "copies-supported") in *.
  destruct (map_get "copies-supported" (j_printerAttrs j)) as [[tag w]|]; cbn [bind snd] in Hv.
  - unfold get_as in Hv. destruct w; cbn [has_type] in Hv; try discriminate. injection Hv as <-. cbn beta iota. split.
    + intros K. destruct c1; [discriminate|]. destruct c2; [discriminate|]. cbn [orb] in K. split; [exists tag, low, high; split; [reflexivity|lia]|].
      split; [intros X; apply S1 in X; discriminate|intros X; apply S2 in X; discriminate].
    + intros [[tag' [lo' [hi' [E Hh]]]] [N1 N2]]. injection E as <- <- <-. destruct c1; [destruct N1; apply S1; reflexivity|]. destruct c2; [destruct N2; apply S2; reflexivity|]. cbn [orb]. lia.
  - injection Hv as <-. cbn beta iota. split.
    + destruct c1; [discriminate|]. destruct c2; [discriminate|]. discriminate.
    + intros [[tag' [lo' [hi' [E Hh]]]] _]. discriminate.
Qed.

(** ** C35 *)
(** The number of copies asked for (by the job, else the printer's default) is made
    either by the printer, which is told exactly what the job said, or by the rasteriser,
    and then the printer is not told; the rasteriser does it exactly when the document is
    rasterised here, more than one copy is asked for and the printer does not do it. *)
Theorem C35_copies_once : forall j inp pages j', wf_job (j_jobAttrs j) -> finalize j inp pages = Ok (None, j') ->
  forall n, effective "copies" (map_get "copies" (j_jobAttrs j)) (j_printerAttrs j) (VInt 1) = VInt n -> n < 2 ^ 31 -> p_copies (j_params j) = 1 ->
  (map_get "copies" (j_jobAttrs j') = map_get "copies" (j_jobAttrs j) /\ p_copies (j_params j') = 1 /\
     (~ raster inp (j_target j') \/ n <= 1 \/ printer_makes_copies (j_printerAttrs j))) \/
  (map_get "copies" (j_jobAttrs j') = None /\ p_copies (j_params j') = n /\
     raster inp (j_target j') /\ 1 < n /\ ~ printer_makes_copies (j_printerAttrs j)).
Proof.
  intros j inp pages j' Hm H n Hn Hn2 H1. apply finalize_summary in H; [|exact Hm]. pose proof (sm_copies _ _ _ _ H) as S. cbv zeta in S.
  rewrite value_effective in S. change (lookup s_copies (j_jobAttrs j)) with (map_get "copies" (j_jobAttrs j)) in S. change (lookup s_copies (j_jobAttrs j')) with (map_get "copies" (j_jobAttrs j')) in S.
  change (s_name s_copies) with "copies"%string in S. rewrite Hn in S. cbn [v_int] in S. destruct S as [S1 S2].
  pose proof (raster_spec inp (j_target j')) as R. destruct (rasterised inp (j_target j')).
  - destruct (S1 eq_refl) as [b Hb]. pose proof (copies_spec j b Hb) as C. rewrite Hb in S2. cbn [andb] in S2. destruct b.
    + rewrite andb_false_r in S2. left. destruct S2 as [S2 S3]. split; [exact S2|]. split; [congruence|]. right. right. apply C. reflexivity.
    + rewrite andb_true_r in S2. destruct (Z.gtb_spec n 1) as [G|G].
      * right. destruct S2 as [S2 S3]. split; [exact S2|]. split; [rewrite S3; unfold two64; rewrite Z.mod_small; lia|]. split; [apply R; reflexivity|]. split; [lia|]. intros X. apply C in X. discriminate.
      * left. destruct S2 as [S2 S3]. split; [exact S2|]. split; [congruence|]. right. left. lia.
  - cbn [andb] in S2. left. destruct S2 as [S2 S3]. split; [exact S2|]. split; [congruence|]. left. intros X. apply R in X. discriminate.
Qed.

(** ** C36 *)
(** For a PDF the requested ranges are added to the local ones and removed from the
    request; for any other input the request is unchanged and nothing is done locally. *)
Theorem C36_page_ranges_once : forall j inp pages j', wf_job (j_jobAttrs j) -> finalize j inp pages = Ok (None, j') ->
  forall rs, values "page-ranges" (j_jobAttrs j) = map (fun r => VRange (fst r) (snd r)) rs -> Forall (fun r => 0 <= fst r < 2 ^ 31 /\ 0 <= snd r < 2 ^ 31) rs ->
  (inp = "application/pdf"%string /\ map_get "page-ranges" (j_jobAttrs j') = None /\ p_pageRanges (j_params j') = p_pageRanges (j_params j) ++ rs) \/
  (inp <> "application/pdf"%string /\ map_get "page-ranges" (j_jobAttrs j') = map_get "page-ranges" (j_jobAttrs j) /\ p_pageRanges (j_params j') = p_pageRanges (j_params j)).
Proof.
  intros j inp pages j' Hm H rs Hr Hb. apply finalize_summary in H; [|exact Hm].
  pose proof (sm_range_attrs _ _ _ _ H) as A. change (lookup s_pageRanges (j_jobAttrs j)) with (map_get "page-ranges" (j_jobAttrs j)) in A. change (lookup s_pageRanges (j_jobAttrs j')) with (map_get "page-ranges" (j_jobAttrs j')) in A.
  destruct (sm_ranges _ _ _ _ H) as [l [L1 [L2 L3]]]. destruct (String.eqb_spec inp mPDF) as [E|E].
  - left. split; [exact E|]. split; [exact A|]. specialize (L1 E). apply getList_values in L1. destruct L1 as [-> _]. rewrite L3, Hr, map_map. f_equal.
    clear -Hb. induction Hb as [|[lo hi] rs [B1 B2] Hb IH]; [reflexivity|]. cbn [map fst snd] in *. rewrite IH. unfold two64. rewrite !Z.mod_small by lia. reflexivity.
  - right. split; [exact E|]. split; [exact A|]. rewrite L3, (L2 E), app_nil_r. reflexivity.
Qed.
(** the job's ranges start empty, so they are then exactly the requested ones *)
Corollary C36_new_job : forall j inp pages j', wf_job (j_jobAttrs j) -> finalize j inp pages = Ok (None, j') -> p_pageRanges (j_params j) = [] ->
  forall rs, values "page-ranges" (j_jobAttrs j) = map (fun r => VRange (fst r) (snd r)) rs -> Forall (fun r => 0 <= fst r < 2 ^ 31 /\ 0 <= snd r < 2 ^ 31) rs ->
  inp = "application/pdf"%string -> p_pageRanges (j_params j') = rs.
Proof.
  intros j inp pages j' Hm H He rs Hr Hb Hi. destruct (C36_page_ranges_once j inp pages j' Hm H rs Hr Hb) as [[_ [_ K]]|[K _]]; [rewrite K, He; reflexivity|contradiction].
Qed.

(** ** C38 *)
Lemma picture_spec t : isImage t = true <-> picture t.
Proof.
  unfold isImage, isPrinterRaster, picture. rewrite andb_true_iff, starts_with_spec, negb_true_iff, orb_false_iff, !String.eqb_neq. reflexivity.
Qed.
(** For a picture the margins in media-col are what they were; otherwise media-col has no
    margins, and the ones asked for (by the job, else the printer's defaults, else 0) are
    used locally. *)
Theorem C38_margins : forall j inp pages j', wf_job (j_jobAttrs j) -> finalize j inp pages = Ok (None, j') ->
  (picture (j_target j') /\ j_margins j' = j_margins j /\
   forall k, In k ["media-top-margin"; "media-bottom-margin"; "media-left-margin"; "media-right-margin"]%string -> member k (j_jobAttrs j') = member k (j_jobAttrs j)) \/
  (~ picture (j_target j') /\
   (forall k, In k ["media-top-margin"; "media-bottom-margin"; "media-left-margin"; "media-right-margin"]%string -> member k (j_jobAttrs j') = None) /\
   forall t b l r, effective "media-top-margin" (member "media-top-margin" (j_jobAttrs j)) (j_printerAttrs j) (VInt 0) = VInt t ->
     effective "media-bottom-margin" (member "media-bottom-margin" (j_jobAttrs j)) (j_printerAttrs j) (VInt 0) = VInt b ->
     effective "media-left-margin" (member "media-left-margin" (j_jobAttrs j)) (j_printerAttrs j) (VInt 0) = VInt l ->
     effective "media-right-margin" (member "media-right-margin" (j_jobAttrs j)) (j_printerAttrs j) (VInt 0) = VInt r ->
     j_margins j' = mkMargins t b l r).
Proof.
  intros j inp pages j' Hm H. apply finalize_summary in H; [|exact Hm]. pose proof (sm_margins _ _ _ _ H) as M. pose proof (sm_margin_attrs _ _ _ _ H) as A.
  pose proof (picture_spec (j_target j')) as P.
  assert (Q : forall k, In k ["media-top-margin"; "media-bottom-margin"; "media-left-margin"; "media-right-margin"]%string ->
    member k (j_jobAttrs j') = if isImage (j_target j') then member k (j_jobAttrs j) else None).
  { intros k Hk. assert (exists s, s_name s = k /\ s_sub s = "media-col"%string /\ is_margin s = true) as [s [E1 [E2 E3]]].
    { destruct Hk as [<-|[<-|[<-|[<-|[]]]]]; [exists s_topMargin|exists s_bottomMargin|exists s_leftMargin|exists s_rightMargin]; auto. }
    specialize (A s E3 (or_intror E2)). rewrite !lookup_member in A by exact E2. rewrite E1 in A. exact A. }
  destruct (isImage (j_target j')).
  - left. split; [apply P; reflexivity|]. split; [exact M|exact Q].
  - right. split; [intros X; apply P in X; discriminate|]. split; [exact Q|]. intros t b l r H1 H2 H3 H4. rewrite M. cbv beta zeta. rewrite !value_effective, !lookup_member by reflexivity.
    cbn [s_name s_topMargin s_bottomMargin s_leftMargin s_rightMargin]. rewrite H1, H2, H3, H4. reflexivity.
Qed.
(** margins are the only members of media-col that are taken away; a media size may be
    added *)
Theorem C38_other_members : forall j inp pages j', wf_job (j_jobAttrs j) -> finalize j inp pages = Ok (None, j') ->
  forall k, ~ In k ["media-top-margin"; "media-bottom-margin"; "media-left-margin"; "media-right-margin"; "media-size"]%string -> member k (j_jobAttrs j') = member k (j_jobAttrs j).
Proof.
  intros j inp pages j' Hm H k Hk. apply finalize_summary in H; [|exact Hm]. pose proof (sm_other_attrs _ _ _ _ H) as A.
  specialize (A (mkSetting TStr tKeyword k "media-col") (or_intror eq_refl)). rewrite !lookup_member in A by reflexivity. apply A.
  cbn [existsb]. unfold same. cbn [s_sub s_name s_topMargin s_bottomMargin s_leftMargin s_rightMargin s_media s_mediaSize s_pageRanges s_copies s_sides s_resolution String.eqb Ascii.eqb Bool.eqb andb].
  rewrite !orb_false_iff. cbn [In] in Hk. rewrite !String.eqb_neq. repeat split; intros ->; apply Hk; tauto.
Qed.

(** ** C34 *)
Lemma determine_spec j inp t : sorted_keys (j_opAttrs j) -> determineTargetFormat j inp = Ok t -> t <> OctetStream ->
  (no_choice j -> advertised j t /\ producible inp t) /\
  (forall tag c, map_get "document-format" (j_opAttrs j) = Some (tag, VStr c) -> c <> OctetStream -> t = c).
Proof.
  intros _ H Ht. unfold determineTargetFormat in H. bind_inv H as v Hv K. bind_inv K as set Hset K.
  unfold setting_isSet in Hset. cbn [s_sub s_documentFormat String.eqb s_name] in Hset. injection Hset as <-.
  unfold get_op, setting_get, setting_isSet in Hv. cbn [s_sub s_documentFormat String.eqb s_name s_type bind] in Hv. unfold map_has, attrs_at in *.
  assert (A : (if String.eqb (v_str v) OctetStream then let! supported := supported_strs j s_documentFormat in
       Ok (match getTargetFormat inp (supported ++ j_additional j) with Some t => t | None => v_str v end) else Ok (v_str v)) = Ok t ->
     (v_str v = t /\ v_str v <> OctetStream) \/ advertised j t /\ producible inp t).
  { intros X. destruct (String.eqb_spec (v_str v) OctetStream) as [E|E]; [|left; split; [congruence|exact E]]. right.
    bind_inv X as sup Hsup X. destruct (getTargetFormat inp (sup ++ j_additional j)) as [t'|] eqn:G; [|congruence].
    assert (t' = t) by congruence. subst t'. apply (proj1 (C40_sound_complete inp _)) in G. destruct G as [G1 G2]. split; [|exact G2].
    apply in_app_or in G1. destruct G1 as [G1|G1]; [left|right; left; exact G1]. apply (doc_supported j sup t Hsup). apply contains_in. exact G1. }
  unfold no_choice. destruct (map_get "document-format" (j_opAttrs j)) as [[tag w]|].
  - cbn [bind snd negb andb] in *. unfold get_as in Hv. destruct w; cbn [has_type] in Hv; try discriminate. injection Hv as <-. cbn [v_str] in *. split.
    + intros [X|[tag' X]]; [discriminate|]. injection X as -> ->. destruct (A K) as [[A1 A2]|A1]; [contradiction A2; reflexivity|exact A1].
    + intros tag' c E Hc. injection E as -> ->. destruct (String.eqb_spec c OctetStream); [contradiction|congruence].
  - cbn [bind negb andb] in *. split; [|intros; discriminate]. intros _.
    rewrite getDefault_of in Hv. unfold default_of in Hv. cbn [s_name s_documentFormat s_type append] in Hv.
    destruct (canConvert inp (v_str v)) eqn:C; cbn [negb] in K.
    + destruct (A K) as [[A1 A2]|A1]; [|exact A1]. split; [|apply canConvert_producible; rewrite <- A1; exact C].
      right. right. destruct (map_get "document-format-default" (j_printerAttrs j)) as [[tag w]|]; cbn [snd] in *.
      * destruct w; cbn [has_type] in Hv; try discriminate. injection Hv as <-. exists tag. rewrite <- A1. reflexivity.
      * injection Hv as <-. contradiction A2. reflexivity.
    + rewrite String.eqb_refl in K. bind_inv K as sup Hsup X. destruct (getTargetFormat inp (sup ++ j_additional j)) as [t'|] eqn:G; [|congruence].
      assert (t' = t) by congruence. subst t'. apply (proj1 (C40_sound_complete inp _)) in G. destruct G as [G1 G2]. split; [|exact G2].
      apply in_app_or in G1. destruct G1 as [G1|G1]; [left|right; left; exact G1]. apply (doc_supported j sup t Hsup). apply contains_in. exact G1.
Qed.
(** If the user chose no format (or octet-stream: "automatic"), the target format is
    advertised and can be produced from the input, and the printer is told the target if
    it lists it as supported, octet-stream otherwise.  Missing: a format chosen by the
    user. *)
Theorem C34_automatic_partial : forall j inp pages j', sorted_keys (j_opAttrs j) -> wf_job (j_jobAttrs j) -> finalize j inp pages = Ok (None, j') -> no_choice j ->
  advertised j (j_target j') /\ producible inp (j_target j') /\ j_target j' <> ""%string /\ j_target j' <> "application/octet-stream"%string /\
  exists tag f, map_get "document-format" (j_opAttrs j') = Some (tag, VStr f) /\
    (In (VStr (j_target j')) (values "document-format-supported" (j_printerAttrs j)) /\ f = j_target j' \/
     ~ In (VStr (j_target j')) (values "document-format-supported" (j_printerAttrs j)) /\ f = "application/octet-stream"%string).
Proof.
  intros j inp pages j' Ho Hm H Hn. apply finalize_summary in H; [|exact Hm]. destruct (sm_target _ _ _ _ H) as [T1 [T2 T3]].
  destruct (determine_spec j inp _ Ho T1 T3) as [D _]. destruct (D Hn) as [D1 D2]. split; [exact D1|]. split; [exact D2|]. split; [exact T2|]. split; [exact T3|].
  destruct (sm_op _ _ _ _ H Ho) as [sup [S1 S2]]. exists tMimeMediaType. eexists. split; [exact S2|]. pose proof (doc_supported j sup (j_target j') S1) as C.
  destruct (contains sup (j_target j')); [left; split; [apply C; reflexivity|reflexivity]|right; split; [|reflexivity]]. intros X. apply C in X. discriminate.
Qed.
(** A chosen format is taken as it is. *)
Theorem C34_chosen : forall j inp pages j' tag f, sorted_keys (j_opAttrs j) -> wf_job (j_jobAttrs j) -> finalize j inp pages = Ok (None, j') ->
  map_get "document-format" (j_opAttrs j) = Some (tag, VStr f) -> f <> "application/octet-stream"%string -> j_target j' = f.
Proof.
  intros j inp pages j' tag f Ho Hm H Hf Hn. apply finalize_summary in H; [|exact Hm]. destruct (sm_target _ _ _ _ H) as [T1 [T2 T3]].
  destruct (determine_spec j inp _ Ho T1 T3) as [_ D]. apply (D tag f Hf Hn).
Qed.
(** With no choice and nothing that fits, an error is returned. *)
Theorem C34_error : forall j inp pages, Forall (fun v => has_type TStr v = true) (values "document-format-supported" (j_printerAttrs j)) ->
  (forall a, map_get "document-format-default" (j_printerAttrs j) = Some a -> has_type TStr (snd a) = true) -> no_choice j ->
  (forall t, advertised j t -> ~ producible inp t) -> ~ producible inp OctetStream ->
  exists e j', finalize j inp pages = Ok (Some e, j').
Proof.
  intros j inp pages Hs Hd Hn Hf Ho.
  assert (Hsup : exists sup, supported_strs j s_documentFormat = Ok sup /\ forall t, In t sup -> advertised j t).
  { assert (G : forall l, Forall (fun v => has_type TStr v = true) l -> get_each TStr l = Ok l).
    { induction l as [|v l IH]; intros K; [reflexivity|]. inversion K; subst. cbn [get_each]. unfold get_as. rewrite H1. cbn [bind]. rewrite IH by assumption. reflexivity. }
    exists (map v_str (values "document-format-supported" (j_printerAttrs j))). assert (E : supported_strs j s_documentFormat = Ok (map v_str (values "document-format-supported" (j_printerAttrs j)))).
    { unfold supported_strs, getSupported, attrs_getList. cbn [s_name s_documentFormat s_type append]. pose proof (G _ Hs) as G1. unfold values in *.
      destruct (map_get "document-format-supported" (j_printerAttrs j)) as [[tag v]|]; [|reflexivity]. cbn [snd]. destruct v; cbn [as_list]; rewrite G1; reflexivity. }
    split; [exact E|]. intros t Ht. left. apply (doc_supported j _ t E). apply contains_in. exact Ht. }
  destruct Hsup as [sup [Hsup Hadv]].
  assert (Hdet : determineTargetFormat j inp = Ok OctetStream).
  { unfold determineTargetFormat, get_op, setting_get, setting_isSet. cbn [s_sub s_documentFormat String.eqb s_name s_type bind]. unfold map_has, attrs_at. unfold no_choice in Hn.
    assert (N : getTargetFormat inp (sup ++ j_additional j) = None).
    { destruct (getTargetFormat inp (sup ++ j_additional j)) as [t|] eqn:G; [|reflexivity]. exfalso. apply (proj1 (C40_sound_complete inp _)) in G. destruct G as [G1 G2].
      apply in_app_or in G1. apply (Hf t); [|exact G2]. destruct G1 as [G1|G1]; [apply Hadv; exact G1|right; left; exact G1]. }
    destruct (map_get "document-format" (j_opAttrs j)) as [[tag w]|].
    - destruct Hn as [Hn|[tag' Hn]]; [discriminate|]. injection Hn as -> ->. cbn [bind snd get_as has_type v_str negb andb String.eqb]. rewrite Hsup. cbn [bind]. rewrite N. reflexivity.
    - cbn [bind]. rewrite getDefault_of. unfold default_of. cbn [s_name s_documentFormat s_type append negb andb].
      assert (F : exists w, match map_get "document-format-default" (j_printerAttrs j) with Some a => if has_type TStr (snd a) then Ok (snd a) else Throw BadVariant | None => Ok (VStr OctetStream) end = Ok (VStr w)
        /\ canConvert inp w = false).
      { assert (NC : forall w, ~ producible inp w -> canConvert inp w = false).
        { intros w X. destruct (canConvert inp w) eqn:E; [|reflexivity]. apply canConvert_producible in E. contradiction. }
        destruct (map_get "document-format-default" (j_printerAttrs j)) as [[tag w]|] eqn:Ed.
        - specialize (Hd _ eq_refl). cbn [snd] in *. rewrite Hd. destruct w; try discriminate. eexists. split; [reflexivity|]. apply NC. apply Hf. right. right. exists tag. exact Ed.
        - eexists. split; [reflexivity|]. apply NC. exact Ho. }
      destruct F as [w [F1 F2]]. rewrite F1. cbn [bind v_str]. rewrite F2. cbn [negb]. rewrite String.eqb_refl, Hsup. cbn [bind]. rewrite N. reflexivity. }
  unfold finalize, choose_format. rewrite Hdet. cbn [bind].
  replace (supported_strs (with_target j OctetStream) s_documentFormat) with (supported_strs j s_documentFormat) by reflexivity. rewrite Hsup. cbn [bind].
  unfold set_op, setting_set. cbn [s_sub s_documentFormat String.eqb bind with_op with_target j_target orb]. eexists. eexists. reflexivity.
Qed.

(** ** C37 *)
(** distance of two resolutions *)
Definition distance (w h x y : Z) : Z := Z.abs (w - x) + Z.abs (h - y).
Lemma abs_diff_small a b : 0 <= a < 2 ^ 30 -> 0 <= b < 2 ^ 30 -> abs_diff a b = Ok (Z.abs (a - b)).
Proof.
  intros Ha Hb. unfold abs_diff. change two32 with 4294967296. rewrite to_s32_id by lia.
  destruct (Z.eqb_spec (a - b) (-2147483648)); [lia|reflexivity].
Qed.
Definition small_res (v : ipp_value) : Prop := match v with VRes x y _ => 0 <= x < 2 ^ 30 /\ 0 <= y < 2 ^ 30 | _ => False end.
Lemma nearest_pwg_spec w h l : 0 <= w < 2 ^ 30 -> 0 <= h < 2 ^ 30 -> Forall small_res l -> forall diff x y, exists x' y', nearest_pwg w h l diff x y = Ok (x', y') /\
  ((x', y') = (x, y) /\ (forall a b, In (VRes a b 3) l -> diff <= distance w h a b) \/
   In (VRes x' y' 3) l /\ distance w h x' y' < diff /\ forall a b, In (VRes a b 3) l -> distance w h x' y' <= distance w h a b).
Proof.
  intros Hw Hh Hl. induction Hl as [|v l Hv Hl IH]; intros diff x y.
  - exists x, y. split; [reflexivity|]. left. split; [reflexivity|]. intros a b [].
  - cbn [nearest_pwg]. destruct v; try contradiction. destruct Hv as [Hx Hy].
    match goal with |- context [VRes ?a ?b ?c :: l] => rename a into rx; rename b into ry; rename c into u end.
    destruct (Z.eqb_spec u 3) as [->|Hu]; cbn [negb].
    + rewrite !abs_diff_small by assumption. cbn [bind]. unfold add_int. destruct (Z.ltb_spec (Z.abs (w - rx) + Z.abs (h - ry)) 2147483648); [|lia]. cbn [bind].
      change (Z.abs (w - rx) + Z.abs (h - ry)) with (distance w h rx ry) in *. destruct (Z.ltb_spec (distance w h rx ry) diff).
      * destruct (IH (distance w h rx ry) rx ry) as [x' [y' [E [[E2 K]|[K1 [K2 K3]]]]]]; exists x', y'; (split; [exact E|]); right.
        -- injection E2 as -> ->. split; [left; reflexivity|]. split; [assumption|]. intros a b [Ei|Ei]; [injection Ei as <- <-; lia|apply K; exact Ei].
        -- split; [right; exact K1|]. split; [lia|]. intros a b [Ei|Ei]; [injection Ei as <- <-; lia|apply K3; exact Ei].
      * destruct (IH diff x y) as [x' [y' [E [[E2 K]|[K1 [K2 K3]]]]]]; exists x', y'; (split; [exact E|]).
        -- left. split; [exact E2|]. intros a b [Ei|Ei]; [injection Ei as <- <-; lia|apply K; exact Ei].
        -- right. split; [right; exact K1|]. split; [exact K2|]. intros a b [Ei|Ei]; [injection Ei as <- <-; lia|apply K3; exact Ei].
    + destruct (IH diff x y) as [x' [y' [E [[E2 K]|[K1 [K2 K3]]]]]]; exists x', y'; (split; [exact E|]).
      * left. split; [exact E2|]. intros a b [Ei|Ei]; [congruence|apply K; exact Ei].
      * right. split; [right; exact K1|]. split; [exact K2|]. intros a b [Ei|Ei]; [congruence|apply K3; exact Ei].
Qed.
Lemma summary_resolution j inp pages j' x y u : wf_job (j_jobAttrs j) -> finalize j inp pages = Ok (None, j') ->
  effective "printer-resolution" (map_get "printer-resolution" (j_jobAttrs j)) (j_printerAttrs j) (VRes (p_hwResW (j_params j)) (p_hwResH (j_params j)) 3) = VRes x y u ->
  exists ja jb, p_format (j_params ja) = format_for inp (j_target j') /\ p_hwResW (j_params ja) = x /\ p_hwResH (j_params ja) = y /\ j_printerAttrs ja = j_printerAttrs j /\
     (if rasterised inp (j_target j') then adjust_resolution ja = Ok jb else jb = ja) /\ p_hwResW (j_params j') = p_hwResW (j_params jb) /\ p_hwResH (j_params j') = p_hwResH (j_params jb).
Proof.
  intros Hm H Hr. apply finalize_summary in H; [|exact Hm]. destruct (sm_resolution _ _ _ _ H) as [ja [x' [y' [u' [V [A1 [A2 [A3 [A4 [jb [B1 [B2 B3]]]]]]]]]]]].
  rewrite value_effective in V. change (s_name s_resolution) with "printer-resolution"%string in V. rewrite (lookup_top s_resolution _ eq_refl) in V. change (s_name s_resolution) with "printer-resolution"%string in V.
  assert (VRes x' y' u' = VRes x y u) as E by (rewrite <- V; exact Hr). injection E as -> -> ->. exists ja, jb. repeat (split; [assumption|]). assumption.
Qed.
(** For PWG the resolution used is one the printer supports, in dots per inch, and none
    is nearer to the one asked for; if it supports none in dots per inch, the one asked
    for is kept.  Missing: resolutions of 2^30 and more. *)
Theorem C37_pwg_partial : forall j pages j', wf_job (j_jobAttrs j) -> finalize j "application/pdf" pages = Ok (None, j') -> j_target j' = "image/pwg-raster"%string ->
  forall w h u, effective "printer-resolution" (map_get "printer-resolution" (j_jobAttrs j)) (j_printerAttrs j) (VRes (p_hwResW (j_params j)) (p_hwResH (j_params j)) 3) = VRes w h u ->
  forall l, l = values "pwg-raster-document-resolution-supported" (j_printerAttrs j) -> small_res (VRes w h u) -> Forall small_res l ->
  let x := p_hwResW (j_params j') in let y := p_hwResH (j_params j') in
  (In (VRes x y 3) l /\ forall a b, In (VRes a b 3) l -> distance w h x y <= distance w h a b) \/
  ((forall a b, ~ In (VRes a b 3) l) /\ x = w /\ y = h).
Proof.
  intros j pages j' Hm H Ht w h u Hr l Hl Hs Hsl x y. destruct (summary_resolution j _ pages j' w h u Hm H Hr) as [ja [jb [A1 [A2 [A3 [A4 [B1 [B2 B3]]]]]]]].
  rewrite Ht in A1, B1. change (format_for "application/pdf" "image/pwg-raster") with PWG in A1. change (rasterised "application/pdf" "image/pwg-raster") with true in B1. cbv iota in B1.
  unfold adjust_resolution in B1. rewrite A1, A4 in B1. bind_inv B1 as l' Hl' K. apply getList_values in Hl'. destruct Hl' as [El _]. rewrite <- Hl in El. subst l'.
  destruct Hs as [Hw Hh]. rewrite A2, A3 in K. destruct (nearest_pwg_spec w h l Hw Hh Hsl (two32 - 1) w h) as [x' [y' [E D]]]. rewrite E in K. cbn [bind] in K.
  assert (Ex : x = x' /\ y = y') by (unfold x, y; rewrite B2, B3; assert (jb = with_params ja (set_res (j_params ja) x' y')) as -> by congruence; split; reflexivity).
  destruct Ex as [-> ->]. destruct D as [[D1 D2]|[D1 [D2 D3]]]; [right|left; split; assumption]. injection D1 as -> ->. split; [|split; reflexivity].
  intros a b Hi. specialize (D2 a b Hi). rewrite Forall_forall in Hsl. destruct (Hsl _ Hi). unfold distance, two32 in D2. lia.
Qed.

Lemma stoi_number s n : digits_of s n -> n < 2 ^ 31 -> stoi s = Ok n.
Proof.
  unfold digits_of. intros Hn Hlt. pose proof (number_digits _ _ Hn) as (Hd & Hne & Hp). pose proof (number_scan _ _ Hn) as Hs. rewrite string_bytes_id in Hs.
  destruct s as [|c s]; [contradiction Hne; reflexivity|].
  assert (H1 : is_digit c = true) by (inversion Hd; assumption).
  destruct (digit_not c H1) as (E1 & _ & _ & E2 & E3).
  unfold stoi. cbn [skip_space]. rewrite E1. apply Z.eqb_neq in E2, E3. rewrite E2, E3. cbn [starts_digit]. rewrite H1, Hs.
  destruct (Z.leb_spec (-2147483648) n); [|lia]. destruct (Z.ltb_spec n 2147483648); [reflexivity|lia].
Qed.
Lemma digits_nonneg s n : digits_of s n -> 0 <= n.
Proof. unfold digits_of. intros H. apply number_digits in H. tauto. Qed.
Lemma nearest_urf_spec w texts ns : 0 <= w < 2 ^ 30 -> Forall2 digits_of texts ns -> Forall (fun n => n < 2 ^ 30) ns -> forall diff x, exists x', nearest_urf w texts diff x = Ok x' /\
  (x' = x /\ (forall n, In n ns -> diff <= Z.abs (w - n)) \/ In x' ns /\ Z.abs (w - x') < diff /\ forall n, In n ns -> Z.abs (w - x') <= Z.abs (w - n)).
Proof.
  intros Hw H. induction H as [|s n texts ns Hd H IH]; intros Hb diff x.
  - exists x. split; [reflexivity|]. left. split; [reflexivity|]. intros n [].
  - inversion Hb as [|? ? Hn Hb']; subst. specialize (IH Hb'). pose proof (digits_nonneg _ _ Hd) as Hp. cbn [nearest_urf]. rewrite (stoi_number s n Hd) by lia. cbn [bind].
    rewrite abs_diff_small by lia. cbn [bind]. unfold two32. rewrite Z.mod_small by lia. destruct (Z.ltb_spec (Z.abs (w - n)) diff).
    + destruct (IH (Z.abs (w - n)) n) as [x' [E [[-> K]|[K1 [K2 K3]]]]]; [exists n|exists x']; (split; [exact E|]); right.
      * split; [left; reflexivity|]. split; [lia|]. intros m [->|Hm]; [lia|apply K; exact Hm].
      * split; [right; exact K1|]. split; [lia|]. intros m [->|Hm]; [lia|apply K3; exact Hm].
    + destruct (IH diff x) as [x' [E [[-> K]|[K1 [K2 K3]]]]]; [exists x|exists x']; (split; [exact E|]).
      * left. split; [reflexivity|]. intros m [->|Hm]; [lia|apply K; exact Hm].
      * right. split; [right; exact K1|]. split; [exact K2|]. intros m [->|Hm]; [lia|apply K3; exact Hm].
Qed.
Lemma digits_no_dash s n : digits_of s n -> ~ occurs "-" s.
Proof.
  intros Hn. unfold digits_of in Hn. apply number_digits in Hn. destruct Hn as [Hd _]. intros [a [b E]]. rewrite E in Hd. unfold digits in Hd. rewrite Forall_forall in Hd.
  specialize (Hd "-"%char). assert (is_digit "-" = true) as C; [|discriminate]. apply Hd. unfold bytes_of_string. clear. induction a as [|c a IH]; [left; reflexivity|right; exact IH].
Qed.
(** For URF the resolution is the same in both directions and one of the numbers n1, n2,
    ... of the printer's "RSn1-n2-..." entry (its first), none of them being nearer to the
    smaller of the two asked for.  Missing: resolutions of 2^30 and more. *)
Theorem C37_urf_partial : forall j pages j', wf_job (j_jobAttrs j) -> finalize j "application/pdf" pages = Ok (None, j') -> j_target j' = "image/urf"%string ->
  forall w h u, effective "printer-resolution" (map_get "printer-resolution" (j_jobAttrs j)) (j_printerAttrs j) (VRes (p_hwResW (j_params j)) (p_hwResH (j_params j)) 3) = VRes w h u ->
  small_res (VRes w h u) ->
  forall before texts ns after, values "urf-supported" (j_printerAttrs j) = map VStr (before ++ ("RS" ++ glue "-" texts)%string :: after) ->
  Forall (fun s => forall r, s <> "RS" ++ r)%string before -> texts <> [] -> Forall2 digits_of texts ns -> Forall (fun n => n < 2 ^ 30) ns ->
  let x := p_hwResW (j_params j') in p_hwResH (j_params j') = x /\ In x ns /\ forall n, In n ns -> Z.abs (Z.min w h - x) <= Z.abs (Z.min w h - n).
Proof.
  intros j pages j' Hm H Ht w h u Hr [Hw Hh] before texts ns after Hv Hbef Hne Hd Hb x. destruct (summary_resolution j _ pages j' w h u Hm H Hr) as [ja [jb [A1 [A2 [A3 [A4 [B1 [B2 B3]]]]]]]].
  rewrite Ht in A1, B1. change (format_for "application/pdf" "image/urf") with URF in A1. change (rasterised "application/pdf" "image/urf") with true in B1. cbv iota in B1.
  unfold adjust_resolution in B1. rewrite A1, A2, A3 in B1. bind_inv B1 as l Hl K. bind_inv K as z Hz K. unfold printer_strs in Hl. bind_inv Hl as vs Hvs Hl. apply getList_values in Hvs.
  destruct Hvs as [-> _]. rewrite A4, Hv, map_map in Hl. assert (l = before ++ ("RS" ++ glue "-" texts)%string :: after) as -> by (transitivity (map (fun x => x) (before ++ ("RS" ++ glue "-" texts)%string :: after)); [cbn beta iota delta [v_str] in Hl; congruence|apply map_id]). clear Hl.
  assert (F : urf_resolution (Z.min w h) (before ++ ("RS" ++ glue "-" texts)%string :: after) = nearest_urf (Z.min w h) texts (two32 - 1) (Z.min w h)).
  { clear -Hbef Hne Hd. induction Hbef as [|s before Hs Hbef IH].
    - cbn [List.app urf_resolution]. replace (string_starts_with ("RS" ++ glue "-" texts) "RS") with true by (symmetry; apply starts_with_spec; eexists; reflexivity).
      change (drop 2 ("RS" ++ glue "-" texts)) with (glue "-" texts). rewrite <- C22_join_is_glue. rewrite C22_join_split_partial; [reflexivity|exact Hne|].
      clear -Hd. induction Hd as [|t n ts ms Hd _ IH]; constructor; [eapply digits_no_dash; exact Hd|exact IH].
    - cbn [List.app urf_resolution]. destruct (string_starts_with s "RS") eqn:E; [|exact IH]. apply starts_with_spec in E. destruct E as [r E]. contradiction (Hs r E). }
  rewrite F in Hz. assert (Hmin : 0 <= Z.min w h < 2 ^ 30) by lia.
  destruct (nearest_urf_spec _ _ _ Hmin Hd Hb (two32 - 1) (Z.min w h)) as [x' [E D]]. rewrite E in Hz. injection Hz as <-.
  assert (jb = with_params ja (set_res (j_params ja) x' x')) as Ejb by congruence. subst jb. unfold x. rewrite B3, B2. cbn [with_params j_params set_res mk_params p_hwResW p_hwResH].
  split; [reflexivity|]. destruct D as [[-> D]|[D1 [D2 D3]]]; [exfalso|split; assumption].
  destruct Hd as [|t n ts ms Hd Hd']; [contradiction|]. specialize (D n (or_introl eq_refl)). inversion Hb; subst. pose proof (digits_nonneg _ _ Hd). unfold two32 in D. lia.
Qed.

(** ** Example printers and jobs *)
Definition kw (s : string) : ipp_attr := (tKeyword, VStr s).
Definition example_printer : ipp_attrs :=
  [("copies-supported", (tIntegerRange, VRange 1 1)); ("document-format-default", (tMimeMediaType, VStr "application/octet-stream"));
   ("document-format-supported", (tMimeMediaType, VSet [VStr "application/octet-stream"; VStr "image/urf"; VStr "image/pwg-raster"; VStr "image/jpeg"]));
   ("media-default", kw "iso_a4_210x297mm"); ("print-color-mode-supported", (tKeyword, VSet [VStr "monochrome"; VStr "color"]));
   ("pwg-raster-document-resolution-supported", (tResolution, VSet [VRes 600 600 3; VRes 360 360 4; VRes 400 300 3]));
   ("urf-supported", (tKeyword, VSet [VStr "CP1"; VStr "RS300-600"; VStr "DM3"]))]%string.
Definition example_attrs : ipp_attrs :=
  [("copies", (tInteger, VInt 3)); ("media", kw "na_letter_8.5x11in");
   ("media-col", (tBeginCollection, VColl [("media-bottom-margin", (tInteger, VInt 300)); ("media-source", kw "tray-2")]));
   ("page-ranges", (tIntegerRange, VSet [VRange 1 2; VRange 5 5])); ("printer-resolution", (tResolution, VRes 360 360 3)); ("sides", kw "two-sided-long-edge")]%string.
Definition example_job := with_job (new_job example_printer []) example_attrs.
Definition result (o : outcome (option string * job)) : job := match o with Ok (_, j) => j | _ => new_job [] [] end.
Definition succeeds (o : outcome (option string * job)) : bool := match o with Ok (None, _) => true | _ => false end.
Lemma example_wf : wf_job example_attrs.
Proof.
  split; [vm_compute; repeat (constructor; [|]); repeat constructor|]. intros a H. vm_compute in H. injection H as <-. eexists. split; [reflexivity|]. split; [vm_compute; repeat constructor|discriminate].
Qed.
Example C35_example : let j := result (finalize example_job mPDF 10) in succeeds (finalize example_job mPDF 10) = true /\ j_target j = mPWG /\
  map_get "copies" (j_jobAttrs j) = None /\ p_copies (j_params j) = 3 /\
  let j2 := result (finalize example_job mJPEG 1) in succeeds (finalize example_job mJPEG 1) = true /\ map_get "copies" (j_jobAttrs j2) = Some (tInteger, VInt 3) /\ p_copies (j_params j2) = 1.
Proof. vm_compute. repeat split. Qed.
Example C36_example : let j := result (finalize example_job mPDF 10) in p_pageRanges (j_params j) = [(1, 2); (5, 5)] /\ map_get "page-ranges" (j_jobAttrs j) = None.
Proof. vm_compute. repeat split. Qed.
Example C37_example : let j := result (finalize example_job mPDF 10) in (p_hwResW (j_params j), p_hwResH (j_params j)) = (400, 300) /\
  let j2 := result (finalize (with_op example_job [("document-format", (tMimeMediaType, VStr "image/urf"))]%string) mPDF 10) in j_target j2 = mURF /\ (p_hwResW (j_params j2), p_hwResH (j_params j2)) = (300, 300).
Proof. vm_compute. repeat split. Qed.
Example C38_example : let j := result (finalize example_job mPDF 10) in g_bottom (j_margins j) = 300 /\ member "media-bottom-margin" (j_jobAttrs j) = None /\ member "media-source" (j_jobAttrs j) = Some (kw "tray-2") /\
  let j2 := result (finalize example_job mJPEG 1) in member "media-bottom-margin" (j_jobAttrs j2) = Some (tInteger, VInt 300).
Proof. vm_compute. repeat split. Qed.
Example C34_example : no_choice example_job /\ succeeds (finalize example_job mPDF 10) = true /\ map_get "document-format" (j_opAttrs (result (finalize example_job mPDF 10))) = Some (tMimeMediaType, VStr mPWG) /\
  match finalize example_job mPNG 1 with Ok (Some e, _) => true | _ => false end = true.
Proof. split; [left; reflexivity|]. vm_compute. repeat split. Qed.

(** A format chosen by the user that the printer does not support and that cannot be
    produced from the input is accepted. *)
Theorem C34_chosen_refuted : exists j inp pages j', sorted_keys (j_opAttrs j) /\ wf_job (j_jobAttrs j) /\ finalize j inp pages = Ok (None, j') /\
  ~ advertised j (j_target j') /\ ~ producible inp (j_target j').
Proof.
  exists (with_op example_job [("document-format", (tMimeMediaType, VStr "image/tiff"))]%string), mPNG, 1.
  exists (result (finalize (with_op example_job [("document-format", (tMimeMediaType, VStr "image/tiff"))]%string) mPNG 1)).
  split; [vm_compute; repeat constructor|]. split; [exact example_wf|]. split; [vm_compute; reflexivity|]. split.
  - intros [H|[H|[tag H]]]; vm_compute in H; [|contradiction|discriminate]. repeat (destruct H as [H|H]; [discriminate|]). contradiction.
  - intros [H|H]; vm_compute in H; [|discriminate]. repeat (destruct H as [H|H]; [discriminate|]). contradiction.
Qed.
(** Unsigned subtraction wraps: the "nearest" resolution need not be. *)
Definition wrap_printer : ipp_attrs :=
  map_set "pwg-raster-document-resolution-supported" (tResolution, VSet [VRes 1200 1200 3; VRes 4294967295 4294967295 3]) example_printer.
Theorem C37_wrap_refuted : exists j pages j' w h, wf_job (j_jobAttrs j) /\ finalize j "application/pdf" pages = Ok (None, j') /\ j_target j' = "image/pwg-raster"%string /\
  effective "printer-resolution" (map_get "printer-resolution" (j_jobAttrs j)) (j_printerAttrs j) (VRes (p_hwResW (j_params j)) (p_hwResH (j_params j)) 3) = VRes w h 3 /\
  exists a b, In (VRes a b 3) (values "pwg-raster-document-resolution-supported" (j_printerAttrs j)) /\ distance w h a b < distance w h (p_hwResW (j_params j')) (p_hwResH (j_params j')).
Proof.
  exists (with_job (new_job wrap_printer []) example_attrs), 10, (result (finalize (with_job (new_job wrap_printer []) example_attrs) mPDF 10)), 360, 360.
  split; [exact example_wf|]. split; [vm_compute; reflexivity|]. split; [vm_compute; reflexivity|]. split; [vm_compute; reflexivity|]. exists 1200, 1200.
  split; [vm_compute; auto|vm_compute; reflexivity].
Qed.

(** ** C39 *)
Lemma determine_copy j inp : incl (j_additional j) (match supported_strs j s_documentFormat with Ok l => l | _ => [] end) ->
  determineTargetFormat (copy_job j) inp = determineTargetFormat j inp.
Proof.
  intros H. unfold determineTargetFormat. change (get_op (copy_job j)) with (get_op j). change (j_opAttrs (copy_job j)) with (j_opAttrs j).
  change (supported_strs (copy_job j)) with (supported_strs j). change (j_additional (copy_job j)) with (@nil string).
  destruct (get_op j s_documentFormat (VStr OctetStream)); try reflexivity. cbn [bind]. destruct (setting_isSet s_documentFormat (j_opAttrs j)); try reflexivity. cbn [bind].
  match goal with |- (if ?b then _ else _) = _ => destruct b; [|reflexivity] end. destruct (supported_strs j s_documentFormat) as [l| | | |]; try reflexivity. cbn [bind].
  rewrite app_nil_r.
  assert (E : forall s, contains (l ++ j_additional j) s = contains l s).
  { intros s. destruct (contains l s) eqn:E; [apply contains_in in E; apply contains_in; apply in_or_app; left; exact E|].
    destruct (contains (l ++ j_additional j) s) eqn:E2; [|reflexivity]. apply contains_in in E2. apply in_app_or in E2. rewrite <- E. symmetry. apply contains_in.
    destruct E2 as [E2|E2]; [exact E2|apply H; exact E2]. }
  assert (F : forall ps, find_target ps inp (l ++ j_additional j) = find_target ps inp l).
  { induction ps as [|[[p1 p2] p3] ps IH]; [reflexivity|]. cbn [find_target]. rewrite E, IH. reflexivity. }
  unfold getTargetFormat. rewrite F, E. reflexivity.
Qed.
(** A copied job selects the same format if the additional formats are ones the printer
    lists anyway.  Missing: additional formats (from the device id) that it does not
    list; refuted below. *)
Theorem C39_copy_partial : forall j inp l, supported_strs j s_documentFormat = Ok l -> (forall t, In t (j_additional j) -> In (VStr t) (values "document-format-supported" (j_printerAttrs j))) ->
  determineTargetFormat (copy_job j) inp = determineTargetFormat j inp.
Proof.
  intros j inp l Hl H. apply determine_copy. rewrite Hl. intros t Ht. apply contains_in. apply (doc_supported j l t Hl). apply H. exact Ht.
Qed.
Definition extra_job := new_job (map_set "document-format-supported" (tMimeMediaType, VStr "application/octet-stream") example_printer) ["image/urf"]%string.
Theorem C39_copy_refuted : exists j inp pages, succeeds (finalize j inp pages) = true /\ j_target (result (finalize j inp pages)) = "image/urf"%string /\
  match finalize (copy_job j) inp pages with Ok (Some e, _) => e = "Failed to determine traget format"%string | _ => False end.
Proof. exists extra_job, mPDF, 3. vm_compute. repeat split. Qed.
Example C39_example : (forall t, In t (j_additional (mkJob [] [] default_params "" false (mkMargins 0 0 0 0) example_printer [mURF])) -> In (VStr t) (values "document-format-supported" example_printer)).
Proof. intros t [<-|[]]. vm_compute. auto. Qed.

Print Assumptions C34_automatic_partial.
Print Assumptions C34_chosen.
Print Assumptions C34_error.
Print Assumptions C34_chosen_refuted.
Print Assumptions C35_copies_once.
Print Assumptions C36_page_ranges_once.
Print Assumptions C36_new_job.
Print Assumptions C37_pwg_partial.
Print Assumptions C37_urf_partial.
Print Assumptions C37_wrap_refuted.
Print Assumptions C38_margins.
Print Assumptions C38_other_members.
Print Assumptions C39_copy_partial.
Print Assumptions C39_copy_refuted.
