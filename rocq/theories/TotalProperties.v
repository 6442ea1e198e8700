(** C89: whether preparing a job (IppPrintJob::finalize) always ends in a prepared job or in
    an error message, rather than in an exception or in undefined behaviour. *)
From Verif Require Import Base BaseLemmas MapModel MapProofs FloatModel StringModel StringSpec StringProofs StringProperties ParamsModel PpmSpec PpmProofs ParamsSpec ParamsProofs FloatLemmas GeometryProofs
  ParamsProperties IppModel IppEncProofs ArgModel SettingModel SettingProperties ConverterModel JobModel JobProofs JobSummary JobProperties ScaleProperties MediaSizeProperties InchProperties
  PrinterSpec PrinterProperties ClientModel ClientSpec ClientProperties.
From Coq Require Import Lia Reals Lra.
From Coq Require Import ZifyBool ZifyNat.
From Flocq Require Import Core.Core IEEE754.BinarySingleNaN.
Local Open Scope Z_scope.

(** ** Specification *)
(** Numbers of a paper size: below 10000 (millimetres or inches), at most 15 decimals.  What
    is not the name of a size is refused and needs no condition. *)
Definition sensible_number (t : string) : Prop := forall n d k, decimal_text t n d k -> n < 10000 /\ (k <= 15)%nat.
Definition sensible_size (s : string) : Prop := forall w h inches, size_name s w h inches -> sensible_number w /\ sensible_number h.
(** the settings that preparing a job reads, besides the page ranges *)
Definition read_settings : list setting :=
  [ s_sides; s_media; s_copies; s_multipleDocumentHandling; s_colorMode; s_printQuality; s_resolution; s_mediaType; s_mediaSource;
    s_topMargin; s_bottomMargin; s_leftMargin; s_rightMargin ].
(** a value of a setting that has the setting's type and, for a size, a resolution or a
    tray, is sensible *)
Definition fine (s : setting) (v : ipp_value) : Prop :=
  has_type (s_type s) v = true
  /\ (s = s_media -> forall n, v = VStr n -> sensible_size n)
  /\ (s = s_resolution -> small_res v)
  /\ (s = s_mediaSource -> forall n, v = VStr n -> In n (map fst media_positions)).
Definition job_fine (m : ipp_attrs) : Prop :=
  wf_job m /\ (forall s a, In s read_settings -> lookup s m = Some a -> fine s (snd a)) /\ typed TRange "page-ranges" m.
(** an entry of urf-supported: the one for resolutions is RS and numbers with dashes between *)
Definition urf_entry (s : string) : Prop :=
  forall r, s = ("RS" ++ r)%string -> exists texts ns, r = glue "-" texts /\ texts <> [] /\ Forall2 digits_of texts ns /\ Forall (fun n => n < 2 ^ 30) ns.
(** the printer's attributes that preparing a job reads *)
Definition printer_fine (pa : ipp_attrs) : Prop :=
  (forall s a, In s read_settings -> s <> s_mediaSource -> map_get (s_name s ++ "-default") pa = Some a -> fine s (snd a))
  /\ (forall a, map_get "document-format-default" pa = Some a -> has_type TStr (snd a) = true)
  /\ (forall a, map_get "copies-supported" pa = Some a -> has_type TRange (snd a) = true)
  /\ (forall a, map_get "pwg-raster-document-sheet-back" pa = Some a -> has_type TStr (snd a) = true)
  /\ (forall k, In k ["document-format-supported"; "compression-supported"; "print-color-mode-supported"; "urf-supported"; "document-format-varying-attributes"]%string -> typed TStr k pa)
  /\ (forall v, In v (JobProperties.values "pwg-raster-document-resolution-supported" pa) -> small_res v)
  /\ (forall s, In (VStr s) (JobProperties.values "urf-supported" pa) -> urf_entry s).
(** parameters that a job starts with *)
Definition params_fine (p : params) : Prop := sensible_size (p_paperSizeName p) /\ 0 <= p_hwResW p < 2 ^ 30 /\ 0 <= p_hwResH p < 2 ^ 30.

(** ** Proofs *)
Lemma js_read s : In s read_settings -> job_setting s.
Proof. intros H. repeat destruct H as [<-|H]; try is_setting. destruct H. Qed.

(** *** Sizes *)
Lemma hundredths_small x r : repr x r -> (0 <= r <= 20000)%R -> exists z, hundredths x = Ok z.
Proof.
  intros Hr B. assert (Rm : repr (fmul x f100) (rnd (r * 100))).
  { apply repr_mul; [exact Hr|apply (repr_ofZ 100); lia|]. apply (big_bound _ (2 ^ 40)); [|split; [lia|apply Z.pow_le_mono_r; lia]]. change (2 ^ 40) with 1099511627776. lra. }
  assert (B2 : (0 <= rnd (r * 100) <= 2000000)%R).
  { split; [apply (rnd_ge_IZR _ 0); [lia|lra]|apply (rnd_le_IZR _ 2000000); [lia|lra]]. }
  exists (Ztrunc (rnd (r * 100))). unfold hundredths. apply signed_trunc; [exact Rm|]. split.
  - apply Z.le_trans with (Ztrunc 0); [rewrite (Ztrunc_IZR 0); lia|apply Ztrunc_le; lra].
  - apply Z.le_lt_trans with (Ztrunc 2000000); [apply Ztrunc_le; lra|rewrite (Ztrunc_IZR 2000000); lia].
Qed.
Lemma number_ok t inches : (exists n d k, decimal_text t n d k) -> sensible_number t -> exists x z, from_string t = Ok x /\ hundredths (sizeInMillimeters (if inches : bool then Inches else Millimeters) x 0) = Ok z.
Proof.
  intros (n & d & k & H) S. destruct (S n d k H) as [Hn Hk]. destruct (decimal_bounds _ _ _ _ H) as [Pn Pd].
  assert (T : 1 <= 10 ^ Z.of_nat k <= 10 ^ 15) by (split; [apply (Z.pow_le_mono_r 10 0)|apply Z.pow_le_mono_r]; lia). set (p := 10 ^ Z.of_nat k) in *. change (10 ^ 15) with 1000000000000000 in T.
  destruct (from_string_repr t n d k H ltac:(lia) ltac:(lia) ltac:(lia)) as [x [r [Hx [Hr [He [_ _]]]]]]. exists x. destruct inches; cbn [sizeInMillimeters].
  - destruct (inches_near t (n * p + d) k x) as (z & _ & E & _); [exists n, d; repeat split; assumption|exact Hx|]. exists z. split; assumption.
  - assert (B : (0 <= r <= 20000)%R).
    { cbv zeta in He. fold p in He. apply Rabs_le_inv in He. change (2 ^ 51) with 2251799813685248 in He.
      assert (Q : (0 <= IZR d / IZR p <= 1)%R).
      { assert (0 < IZR p)%R by (apply IZR_lt; lia). assert (0 <= IZR d <= IZR p)%R by (split; apply IZR_le; lia). split; [apply Rmult_le_pos; [lra|left; apply Rinv_0_lt_compat; lra]|].
        apply Rmult_le_reg_r with (IZR p); [lra|]. unfold Rdiv. rewrite Rmult_assoc, Rinv_l, Rmult_1_r by lra. lra. }
      assert (0 <= IZR n <= 10000)%R by (split; apply IZR_le; lia). lra. }
    destruct (hundredths_small x r Hr B) as [z Hz]. exists z. split; assumption.
Qed.
(** a sensible name is a size that can be sent, or refused *)
Lemma paper_total p s : sensible_size s -> setPaperSize p s = Ok (false, p) \/
  exists p' x y, setPaperSize p s = Ok (true, p') /\ hundredths (getPaperSizeWInMillimeters p') = Ok x /\ hundredths (getPaperSizeHInMillimeters p') = Ok y.
Proof.
  intros S. pose proof (C20_accepts_exactly_partial p s) as A. destruct (setPaperSize p s) as [[b p']|e| | |] eqn:E; try contradiction.
  - destruct b; [right|left; destruct A as [-> _]; reflexivity]. destruct A as (w & h & inches & Hs & _). destruct (S _ _ _ Hs) as [Sw Sh]. destruct (paper_of _ _ _ _ _ _ Hs E) as (F1 & F2 & F3).
    destruct Hs as (_ & Dw & Dh). destruct (number_ok w inches Dw Sw) as (fw & x & Ew & Hx). destruct (number_ok h inches Dh Sh) as (fh & y & Eh & Hy). exists p', x, y. split; [reflexivity|].
    unfold getPaperSizeWInMillimeters, getPaperSizeHInMillimeters. rewrite F3. assert (fw = p_sizeW p') by congruence. assert (fh = p_sizeH p') by congruence. subst fw fh.
    destruct inches; cbn [sizeInMillimeters] in *; split; assumption.
  - exfalso. destruct A as (_ & w & h & inches & Hs & N). apply N. destruct (S _ _ _ Hs) as [Sw Sh]. destruct Hs as (_ & Dw & Dh).
    assert (K : forall t, (exists n d k, decimal_text t n d k) -> sensible_number t -> numbers_fit t).
    { intros t (n & d & k & H) Sn. destruct (Sn n d k H) as [Hn Hk]. exists n, d, k. split; [exact H|]. destruct (decimal_bounds _ _ _ _ H) as [_ Pd].
      assert (10 ^ Z.of_nat k <= 10 ^ 15) by (apply Z.pow_le_mono_r; lia). change (10 ^ 15) with 1000000000000000 in *. change (2 ^ 64) with 18446744073709551616. lia. }
    split; apply K; assumption.
Qed.

(** *** Page sequences *)
Lemma uncollated_one c l : forall acc, exists r, uncollated false c l acc = Ok r.
Proof. induction l as [|q l IH]; intros acc; cbn [uncollated]; [eexists; reflexivity|apply IH]. Qed.
Lemma uncollated_two c : forall m l, (length l = 2 * m)%nat -> forall acc, exists r, uncollated true c l acc = Ok r.
Proof.
  induction m as [|m IH]; intros l Hl acc.
  - destruct l; [eexists; reflexivity|cbn in Hl; lia].
  - destruct l as [|a [|b l]]; cbn [length] in Hl; try lia. cbn [uncollated]. apply IH. lia.
Qed.
Lemma sequence_total p n : 0 <= n < two64 - 1 -> exists l, getPageSequence p n = Ok l.
Proof.
  intros Hn. unfold getPageSequence. set (tmp := match p_pageRanges p with [] => _ | _ => _ end).
  assert (S : exists l, select_pages n tmp = Ok l).
  { induction tmp as [|[a b] tmp IH]; cbn [select_pages]; [eexists; reflexivity|]. unfold range_pages. destruct (Z.eqb_spec (Z.min b n) (two64 - 1)); [lia|]. cbn [andb bind].
    destruct IH as [l ->]. eexists. reflexivity. }
  destruct S as [l ->]. cbn [bind]. destruct (p_copies p >? 1); [|eexists; reflexivity].
  set (l2 := if isTwoSided p && _ then _ else l). destruct (p_collated p); [eexists; reflexivity|]. destruct (isTwoSided p) eqn:T; [|apply uncollated_one].
  apply (uncollated_two _ (Nat.div2 (length l2)) l2). subst l2. cbn [andb]. destruct (Nat.eqb_spec (length l mod 2) 1) as [E|E].
  - rewrite app_length. cbn [length]. rewrite Nat.div2_div. pose proof (Nat.div_mod (length l) 2 ltac:(lia)). rewrite <- (Nat.div_unique (length l + 1) 2 (length l / 2 + 1) 0); lia.
  - rewrite Nat.div2_div. pose proof (Nat.div_mod (length l) 2 ltac:(lia)). pose proof (Nat.mod_upper_bound (length l) 2 ltac:(lia)). lia.
Qed.

(** *** Reading settings *)
Lemma get_total j s fb : job_fine (j_jobAttrs j) -> printer_fine (j_printerAttrs j) -> In s read_settings ->
  (s = s_mediaSource -> lookup s (j_jobAttrs j) <> None) -> fine s fb -> exists v, get_job j s fb = Ok v /\ fine s v.
Proof.
  intros [W [J _]] [P _] Hs Hd Hf. unfold get_job. rewrite get_lookup by (assumption || apply js_read; assumption). specialize (J s). specialize (P s).
  destruct (lookup s (j_jobAttrs j)) as [a|].
  - specialize (J a Hs eq_refl). exists (snd a). split; [|exact J]. unfold get_as. destruct J as [-> _]. reflexivity.
  - unfold default_of. change ipp_attr with (Z * ipp_value)%type in *. destruct (@map_get (Z * ipp_value) (s_name s ++ "-default") (j_printerAttrs j)) as [a|]; [|exists fb; split; [reflexivity|exact Hf]].
    assert (N : s <> s_mediaSource) by (intros E; apply (Hd E); reflexivity). specialize (P a Hs N eq_refl). exists (snd a). split; [|exact P]. destruct P as [-> _]. reflexivity.
Qed.
Lemma fine_str s x : s_type s = TStr -> s <> s_media -> s <> s_mediaSource -> s <> s_resolution -> fine s (VStr x).
Proof. intros T N1 N2 N3. split; [rewrite T; reflexivity|]. split; [intros; contradiction|]. split; intros; contradiction. Qed.
Lemma fine_int s x : s_type s = TInt -> fine s (VInt x).
Proof. intros T. split; [rewrite T; reflexivity|]. split; [intros ->; discriminate|]. split; intros ->; discriminate. Qed.

(** a job with other attributes that are a part of those before *)
Definition part (m m' : ipp_attrs) : Prop := forall s, In s (s_pageRanges :: read_settings) -> lookup s m' = None \/ lookup s m' = lookup s m \/ exists t, s = s_sides /\ lookup s m' = Some (t, VStr "one-sided").
Lemma part_fine m m' : job_fine m -> wf_job m' -> part m m' -> job_fine m'.
Proof.
  intros [W [J R]] W' P. split; [exact W'|]. split.
  - intros s a Hs E. destruct (P s (or_intror Hs)) as [K|[K|(t & -> & K)]]; rewrite K in E; [discriminate|apply J; assumption|]. injection E as <-. apply fine_str; [reflexivity|discriminate..].
  - unfold typed, JobProperties.values in *. destruct (P s_pageRanges (or_introl eq_refl)) as [K|[K|(t & K & _)]]; [| |discriminate];
      unfold lookup in K; cbn [s_sub s_name s_pageRanges String.eqb] in K; rewrite K; [constructor|exact R].
Qed.
Lemma same_ranges s : In s (s_pageRanges :: read_settings) -> job_setting s.
Proof. intros [<-|H]; [apply js_ranges|apply js_read; exact H]. Qed.
Lemma unset_total j s : wf_job (j_jobAttrs j) -> job_setting s -> exists m, unset_job j s = Ok (with_job j m) /\ wf_job m /\ part (j_jobAttrs j) m.
Proof.
  intros W Hs. unfold unset_job. destruct (unset_lookup s (j_jobAttrs j) Hs W) as [m [E [W' [L _]]]]. rewrite E. exists m. split; [reflexivity|]. split; [exact W'|].
  intros s' Hs'. rewrite L by (apply same_ranges; exact Hs'). destruct (same s' s); [left|right; left]; reflexivity.
Qed.
Lemma part_trans m m1 m2 : part m m1 -> part m1 m2 -> part m m2.
Proof.
  intros A B s Hs. destruct (B s Hs) as [K|[K|(t & E & K)]]; [left; exact K| |right; right; exists t; split; assumption].
  rewrite K. apply A. exact Hs.
Qed.
Lemma part_refl m : part m m. Proof. intros s _. right. left. reflexivity. Qed.

(** *** The stages *)
Definition ok_job (pa : ipp_attrs) (j : job) : Prop := job_fine (j_jobAttrs j) /\ j_printerAttrs j = pa /\ printer_fine pa.
Lemma list_total t k pa : Forall (fun v => has_type t v = true) (JobProperties.values k pa) -> attrs_getList t k pa = Ok (JobProperties.values k pa).
Proof. exact (getList_total t k pa). Qed.
Lemma strs_total pa k : In k ["document-format-supported"; "compression-supported"; "print-color-mode-supported"; "urf-supported"; "document-format-varying-attributes"]%string ->
  printer_fine pa -> attrs_getList TStr k pa = Ok (JobProperties.values k pa).
Proof. intros Hk (_ & _ & _ & _ & P & _). apply list_total. apply P. exact Hk. Qed.
Lemma format_total pa j inp : ok_job pa j -> (forall a, map_get "document-format" (j_opAttrs j) = Some a -> has_type TStr (snd a) = true) ->
  exists t m, choose_format j inp = Ok (with_op (with_target j t) m).
Proof.
  intros (_ & E & P) Ho. subst pa. unfold choose_format, determineTargetFormat, get_op, setting_get, setting_isSet, supported_strs, getSupported. cbn [s_documentFormat s_sub s_name s_type String.eqb bind String.append].
  assert (G : exists v, (if map_has "document-format" (j_opAttrs j) then let! a := attrs_at "document-format" (j_opAttrs j) in get_as TStr (snd a) else getDefault (j_printerAttrs j) s_documentFormat (VStr OctetStream)) = Ok v).
  { unfold map_has, attrs_at. change ipp_attr with (Z * ipp_value)%type in *. destruct (@map_get (Z * ipp_value) "document-format" (j_opAttrs j)) as [a|].
    - cbn [bind]. unfold get_as. rewrite (Ho a eq_refl). eexists. reflexivity.
    - rewrite getDefault_of. unfold default_of. cbn [s_documentFormat s_name s_type String.append]. change ipp_attr with (Z * ipp_value)%type in *.
      destruct P as (_ & P & _). destruct (@map_get (Z * ipp_value) "document-format-default" (j_printerAttrs j)) as [a|] eqn:Ed; [|eexists; reflexivity]. rewrite (P a Ed). eexists. reflexivity. }
  cbn [s_documentFormat] in G. destruct G as [v Hv]. rewrite Hv. cbn [bind]. rewrite (strs_total (j_printerAttrs j) "document-format-supported" (or_introl eq_refl) P). cbn [bind].
  match goal with |- context [if String.eqb ?t OctetStream then _ else _] => destruct (String.eqb t OctetStream) end; cbn [bind with_target j_printerAttrs];
    rewrite (strs_total (j_printerAttrs j) "document-format-supported" (or_introl eq_refl) P); cbn [bind]; unfold set_op, setting_set; cbn [s_documentFormat s_sub String.eqb bind]; eexists; eexists; reflexivity.
Qed.
Lemma compression_total pa j : ok_job pa j -> exists m, choose_compression j = Ok (with_op j m).
Proof.
  intros (_ & E & P). subst pa. unfold choose_compression. assert (D : exists m, Ok j = Ok (with_op j m)) by (exists (j_opAttrs j); destruct j; reflexivity).
  destruct (isPrinterRaster (j_target j)); [|exact D]. unfold supported_strs, getSupported. cbn [s_compression s_type s_name String.append].
  rewrite (strs_total (j_printerAttrs j) "compression-supported" (or_intror (or_introl eq_refl)) P). cbn [bind].
  unfold set_op, setting_set. cbn [s_compression s_sub String.eqb bind]. destruct (contains _ "gzip"); [eexists; reflexivity|]. destruct (contains _ "deflate"); [eexists; reflexivity|exact D].
Qed.
Lemma read_paper pa j : ok_job pa j -> sensible_size (p_paperSizeName (j_params j)) ->
  exists n, get_job j s_media (VStr (p_paperSizeName (j_params j))) = Ok (VStr n) /\ sensible_size n.
Proof.
  intros (J & E & P) S. subst pa. destruct (get_total j s_media (VStr (p_paperSizeName (j_params j))) J P) as (v & Hv & F); [cbn; tauto|discriminate| |].
  - split; [reflexivity|]. split; [intros _ n Hn; injection Hn as <-; exact S|]. split; discriminate.
  - destruct F as (T & F & _). destruct v; try discriminate T. eexists. split; [exact Hv|]. apply (F eq_refl). reflexivity.
Qed.
Lemma margins_total pa j : ok_job pa j -> exists m g, take_margins j = Ok (with_job (with_margins j g) m) /\ wf_job m /\ part (j_jobAttrs j) m.
Proof.
  intros (J & E & P). subst pa. pose proof J as [W _]. unfold take_margins. destruct (isImage (j_target j)); cbn [negb]; [exists (j_jobAttrs j), (j_margins j); split; [destruct j; reflexivity|split; [exact W|apply part_refl]]|].
  destruct (get_total j s_topMargin (VInt 0) J P) as (v1 & -> & _); [cbn; tauto|discriminate|apply fine_int; reflexivity|].
  destruct (get_total j s_bottomMargin (VInt 0) J P) as (v2 & -> & _); [cbn; tauto|discriminate|apply fine_int; reflexivity|].
  destruct (get_total j s_leftMargin (VInt 0) J P) as (v3 & -> & _); [cbn; tauto|discriminate|apply fine_int; reflexivity|].
  destruct (get_total j s_rightMargin (VInt 0) J P) as (v4 & -> & _); [cbn; tauto|discriminate|apply fine_int; reflexivity|]. cbn [bind].
  set (g := mkMargins _ _ _ _).
  destruct (unset_total (with_margins j g) s_topMargin W js_top) as (m1 & -> & W1 & P1). cbn [bind].
  destruct (unset_total (with_job (with_margins j g) m1) s_bottomMargin W1 js_bottom) as (m2 & -> & W2 & P2). cbn [bind].
  destruct (unset_total (with_job (with_job (with_margins j g) m1) m2) s_leftMargin W2 js_left) as (m3 & -> & W3 & P3). cbn [bind].
  destruct (unset_total (with_job (with_job (with_job (with_margins j g) m1) m2) m3) s_rightMargin W3 js_right) as (m4 & -> & W4 & P4). exists m4, g. split; [reflexivity|]. split; [exact W4|].
  eapply part_trans; [exact P1|]. eapply part_trans; [exact P2|]. eapply part_trans; [exact P3|exact P4].
Qed.
Lemma size_total pa j x y : ok_job pa j -> hundredths (getPaperSizeWInMillimeters (j_params j)) = Ok x -> hundredths (getPaperSizeHInMillimeters (j_params j)) = Ok y ->
  exists m, move_media_size j = Ok (with_job j m) /\ wf_job m /\ part (j_jobAttrs j) m.
Proof.
  intros (J & _) Hx Hy. pose proof J as [W _].
  assert (T : exists j', move_media_size j = Ok j').
  { unfold move_media_size. rewrite isSet_lookup by (assumption || apply js_media). cbn [bind]. rewrite Hx, Hy. cbn [bind]. unfold map_has.
    destruct (wf_col _ W) as [c [C1 [C2 [[C3 C4]|[C3 C4]]]]]; rewrite C3; [|eexists; reflexivity]. destruct (lookup s_media (j_jobAttrs j)); [|eexists; reflexivity]. cbn [andb].
    unfold attrs_get, attrs_at. change ipp_attr with (Z * ipp_value)%type in *. rewrite C3. cbn [bind snd get_as has_type get_coll].
    destruct (set_lookup s_mediaSize (dims x y) (j_jobAttrs j) js_size W) as [m1 [E1 [W1 _]]].
    unfold setting_set in E1. cbn [s_sub s_mediaSize String.eqb Ascii.eqb Bool.eqb s_name s_tag] in E1. rewrite (proj1 (C2 s_mediaSize eq_refl)) in E1. cbn [bind] in E1.
    injection E1 as E1. unfold dims in E1. change ipp_attr with (Z * ipp_value)%type in *. rewrite E1.
    destruct (unset_total (with_job j m1) s_media W1 js_media) as (m2 & -> & _). eexists. reflexivity. }
  destruct T as [j' T]. pose proof (move_media_size_inv j j' W T) as [[_ ->]|(_ & _ & x' & y' & m & W' & -> & _ & _ & L)].
  - exists (j_jobAttrs j). rewrite with_job_id. split; [exact T|]. split; [exact W|apply part_refl].
  - exists m. split; [exact T|]. split; [exact W'|]. intros s Hs. rewrite L by (apply same_ranges; exact Hs). destruct (same s s_media); [left; reflexivity|].
    replace (same s s_mediaSize) with false; [right; left; reflexivity|]. repeat destruct Hs as [<-|Hs]; try reflexivity. destruct Hs.
Qed.
Lemma resolution_total pa j : ok_job pa j -> 0 <= p_hwResW (j_params j) < 2 ^ 30 -> 0 <= p_hwResH (j_params j) < 2 ^ 30 -> exists x y, choose_resolution j = Ok (with_params j (set_res (j_params j) x y)) /\ 0 <= x < 2 ^ 30 /\ 0 <= y < 2 ^ 30.
Proof.
  intros (J & E & P) R1 R2. subst pa. unfold choose_resolution.
  destruct (get_total j s_resolution (VRes (p_hwResW (j_params j)) (p_hwResH (j_params j)) 3) J P) as (v & -> & F); [cbn; tauto|discriminate| |].
  - split; [reflexivity|]. split; [discriminate|]. split; [intros _; split; assumption|discriminate].
  - destruct F as (T & _ & F & _). destruct v; try discriminate T. destruct (F eq_refl) as [F1 F2]. eexists. eexists. cbn [bind]. split; [reflexivity|]. split; assumption.
Qed.
Lemma ranges_total pa j inp : ok_job pa j -> exists m l, take_ranges j inp = Ok (with_job (with_params j (set_ranges (j_params j) l)) m) /\ wf_job m /\ part (j_jobAttrs j) m.
Proof.
  intros (J & E & P). pose proof J as [W [_ R]]. unfold take_ranges. destruct (String.eqb inp mPDF).
  - rewrite (list_total _ _ _ R). cbn [bind]. set (l := p_pageRanges (j_params j) ++ _).
    destruct (unset_total (with_params j (set_ranges (j_params j) l)) s_pageRanges W js_ranges) as (m & -> & W' & P'). exists m, l. split; [reflexivity|]. split; assumption.
  - exists (j_jobAttrs j), (p_pageRanges (j_params j)). split; [destruct j as [? ? p ? ? ? ? ?]; destruct p; reflexivity|]. split; [exact W|apply part_refl].
Qed.
Lemma small_types l : Forall small_res l -> Forall (fun v => has_type TRes v = true) l.
Proof. apply Forall_impl. intros [] H; try contradiction. reflexivity. Qed.
Lemma adjust_total pa j : ok_job pa j -> 0 <= p_hwResW (j_params j) < 2 ^ 30 -> 0 <= p_hwResH (j_params j) < 2 ^ 30 -> exists x y, adjust_resolution j = Ok (with_params j (set_res (j_params j) x y)).
Proof.
  intros (J & E & P) R1 R2. subst pa. unfold adjust_resolution.
  assert (D : exists x y, Ok j = Ok (with_params j (set_res (j_params j) x y))) by (exists (p_hwResW (j_params j)), (p_hwResH (j_params j)); destruct j as [? ? p ? ? ? ? ?]; destruct p; reflexivity).
  destruct (p_format (j_params j)); try exact D.
  - pose proof P as (_ & _ & _ & _ & _ & Q & _). assert (Q' : Forall small_res (JobProperties.values "pwg-raster-document-resolution-supported" (j_printerAttrs j))) by (apply Forall_forall; exact Q).
    rewrite (list_total _ _ _ (small_types _ Q')). cbn [bind]. destruct (nearest_pwg_spec (p_hwResW (j_params j)) (p_hwResH (j_params j)) _ R1 R2 Q' (two32 - 1) (p_hwResW (j_params j)) (p_hwResH (j_params j))) as (x & y & -> & _).
    eexists. eexists. reflexivity.
  - pose proof P as (_ & _ & _ & _ & _ & _ & Q). unfold printer_strs. rewrite (strs_total (j_printerAttrs j) "urf-supported") by (assumption || (cbn; tauto)). cbn [bind].
    assert (R : 0 <= Z.min (p_hwResW (j_params j)) (p_hwResH (j_params j)) < 2 ^ 30) by lia. set (w := Z.min _ _) in *.
    assert (U : exists z, urf_resolution w (map v_str (JobProperties.values "urf-supported" (j_printerAttrs j))) = Ok z).
    { assert (T : typed TStr "urf-supported" (j_printerAttrs j)) by (destruct P as (_ & _ & _ & _ & P & _); apply P; cbn; tauto). unfold typed in T.
      induction T as [|v l Hv T IH]; [eexists; reflexivity|]. cbn [map urf_resolution]. destruct v; try discriminate Hv. cbn [v_str].
      destruct (string_starts_with s "RS") eqn:Es; [|apply IH; intros t Ht; apply Q; right; exact Ht].
      apply starts_with_spec in Es. destruct Es as [r ->]. destruct (Q _ (or_introl eq_refl) r eq_refl) as (texts & ns & -> & Hne & Hd & Hb).
      change (drop 2 ("RS" ++ glue "-" texts)) with (glue "-" texts). rewrite <- C22_join_is_glue. rewrite C22_join_split_partial; [|exact Hne|].
      - destruct (nearest_urf_spec w texts ns R Hd Hb (two32 - 1) w) as (x & -> & _). eexists. reflexivity.
      - clear -Hd. induction Hd as [|t n ts ms Hd _ IH]; constructor; [eapply digits_no_dash; exact Hd|exact IH]. }
    destruct U as [z ->]. cbn [bind]. eexists. eexists. reflexivity.
Qed.
Lemma back_total pa j : ok_job pa j -> exists b, back_side j = Ok (with_params j (set_back (j_params j) b)).
Proof.
  intros (J & E & P). subst pa.
  assert (T : exists j', back_side j = Ok j').
  { unfold back_side. destruct (p_format (j_params j)); try (eexists; reflexivity).
    - pose proof P as (_ & _ & _ & Q & _). unfold attrs_get, attrs_at. destruct (map_get "pwg-raster-document-sheet-back" (j_printerAttrs j)) as [a|]; [|eexists; reflexivity].
      cbn [bind]. unfold get_as. rewrite (Q a eq_refl). eexists. reflexivity.
    - unfold printer_strs. rewrite (strs_total (j_printerAttrs j) "urf-supported") by (assumption || (cbn; tauto)). eexists. reflexivity. }
  destruct T as [j' T]. rewrite T. apply back_side_inv in T. destruct T as [b ->]. exists b. reflexivity.
Qed.
Lemma str_total j s : job_fine (j_jobAttrs j) -> printer_fine (j_printerAttrs j) -> In s [s_sides; s_multipleDocumentHandling; s_colorMode; s_mediaType] -> exists t, get_job_str j s = Ok t.
Proof.
  intros J P Hs. unfold get_job_str. destruct (get_total j s (VStr "") J P) as (v & -> & _); [| | |eexists; reflexivity];
    repeat destruct Hs as [<-|Hs]; try destruct Hs; try discriminate; try (cbn; tauto); try (apply fine_str; [reflexivity|discriminate..]).
Qed.
Lemma set_total j s v : wf_job (j_jobAttrs j) -> job_setting s -> exists m, set_job j s v = Ok (with_job j m) /\ wf_job m /\
  (forall s', job_setting s' -> lookup s' m = if same s' s then Some (s_tag s, v) else lookup s' (j_jobAttrs j)).
Proof.
  intros W Hs. unfold set_job. destruct (set_lookup s v (j_jobAttrs j) Hs W) as [m [E [W' [L _]]]]. rewrite E. exists m. split; [reflexivity|]. split; assumption.
Qed.
Lemma copies_total pa j pages : ok_job pa j -> 0 <= pages < two64 - 1 -> exists m p, take_copies j pages = Ok (with_job (with_params j p) m) /\ wf_job m /\ part (j_jobAttrs j) m.
Proof.
  intros (J & E & P) Hn. subst pa. pose proof J as [W _]. unfold take_copies.
  assert (D : exists m p, Ok j = Ok (with_job (with_params j p) m) /\ wf_job m /\ part (j_jobAttrs j) m) by (exists (j_jobAttrs j), (j_params j); split; [destruct j; reflexivity|split; [exact W|apply part_refl]]).
  destruct (get_total j s_copies (VInt 1) J P) as (v & -> & _); [cbn; tauto|discriminate|apply fine_int; reflexivity|]. cbn [bind].
  assert (S : exists b, printer_copies j = Ok b).
  { unfold printer_copies, printer_strs. pose proof P as (_ & _ & Q & _). unfold attrs_get, attrs_at. rewrite (strs_total (j_printerAttrs j) "document-format-varying-attributes") by (assumption || (cbn; tauto)).
    destruct (map_get "copies-supported" (j_printerAttrs j)) as [a|]; [|eexists; reflexivity]. cbn [bind]. unfold get_as. rewrite (Q a eq_refl). eexists. reflexivity. }
  destruct S as [sup ->]. cbn [bind]. destruct (_ && _); [|exact D]. destruct (str_total j s_multipleDocumentHandling J P) as [mode ->]; [cbn; tauto|]. cbn [bind]. set (p := set_copies _ _ _).
  destruct (unset_total (with_params j p) s_copies W js_copies) as (m & -> & W1 & P1). cbn [bind]. cbn [with_params j_jobAttrs] in P1.
  destruct (str_total (with_job (with_params j p) m) s_sides) as [sd ->]; [exact (part_fine _ _ J W1 P1)|exact P|cbn; tauto|]. cbn [bind].
  destruct (String.eqb sd "one-sided"); [exists m, p; split; [reflexivity|split; assumption]|]. rewrite Z.mod_small by (unfold two64 in *; lia).
  destruct (sequence_total p pages Hn) as [l ->]. cbn [bind]. destruct (_ || _); [|exists m, p; split; [reflexivity|split; assumption]].
  destruct (set_total (with_job (with_params j p) m) s_sides (VStr "one-sided") W1 js_sides) as (m2 & -> & W2 & L2). exists m2, p. split; [reflexivity|]. split; [exact W2|].
  intros s Hs. rewrite L2 by (apply same_ranges; exact Hs). destruct (same s s_sides) eqn:Es; [|apply P1; exact Hs]. right. right. exists tKeyword.
  split; [|reflexivity]. repeat destruct Hs as [<-|Hs]; try reflexivity; try discriminate Es. destruct Hs.
Qed.
Lemma ok_with pa j j' : ok_job pa j -> j_jobAttrs j' = j_jobAttrs j -> j_printerAttrs j' = j_printerAttrs j -> ok_job pa j'.
Proof. intros K E1 E2. unfold ok_job. rewrite E1, E2. exact K. Qed.
Lemma ok_part pa j m : ok_job pa j -> wf_job m -> part (j_jobAttrs j) m -> ok_job pa (with_job j m).
Proof. intros (J & E & P) W Q. split; [exact (part_fine _ _ J W Q)|]. split; [exact E|exact P]. Qed.
Lemma raster_total pa j pages : ok_job pa j -> 0 <= p_hwResW (j_params j) < 2 ^ 30 -> 0 <= p_hwResH (j_params j) < 2 ^ 30 -> 0 <= pages < two64 - 1 ->
  exists j', adjustRasterSettings j pages = Ok j' /\ ok_job pa j'.
Proof.
  intros K R1 R2 Hn. unfold adjustRasterSettings. assert (D : exists j', Ok j = Ok j' /\ ok_job pa j') by (exists j; split; [reflexivity|exact K]).
  assert (B : exists j', (let! j := unset_job j s_resolution in let! j := adjust_resolution j in let! j := back_side j in take_copies j pages) = Ok j' /\ ok_job pa j').
  { pose proof K as ((W & _) & _). destruct (unset_total j s_resolution W js_res) as (m1 & -> & W1 & P1). cbn [bind]. pose proof (ok_part pa j m1 K W1 P1) as K1. set (j1 := with_job j m1) in *.
    destruct (adjust_total pa j1 K1 R1 R2) as (x & y & ->). cbn [bind]. set (j2 := with_params j1 _). assert (K2 : ok_job pa j2) by (apply (ok_with pa j1); [exact K1|reflexivity|reflexivity]).
    destruct (back_total pa j2 K2) as (b & ->). cbn [bind]. set (j3 := with_params j2 _). assert (K3 : ok_job pa j3) by (apply (ok_with pa j2); [exact K2|reflexivity|reflexivity]).
    destruct (copies_total pa j3 pages K3 Hn) as (m4 & p4 & -> & W4 & P4). eexists. split; [reflexivity|]. apply (ok_with pa (with_job j3 m4)); [apply ok_part; assumption|reflexivity|reflexivity]. }
  destruct (p_format (j_params j)); assumption.
Qed.

(** The job has well-typed attributes of sensible sizes, resolutions and trays, and so has
    the printer: whatever else they are, preparing the job ends with the job prepared or
    with an error message.  (Missing: any job and any printer; see the refutations below.) *)
Theorem C89_total_partial : forall j inp pages, job_fine (j_jobAttrs j) -> printer_fine (j_printerAttrs j) -> params_fine (j_params j) ->
  (forall a, map_get "document-format" (j_opAttrs j) = Some a -> has_type TStr (snd a) = true) -> 0 <= pages < 2 ^ 31 ->
  exists e j', finalize j inp pages = Ok (e, j').
Proof.
  intros j inp pages J P (S & R1 & R2) Ho Hn. set (pa := j_printerAttrs j). assert (K0 : ok_job pa j) by (split; [exact J|split; [reflexivity|exact P]]).
  unfold finalize. destruct (format_total pa j inp K0 Ho) as (t & m1 & ->). cbn [bind]. set (j1 := with_op _ _). destruct (_ || _); [eexists; eexists; reflexivity|].
  assert (K1 : ok_job pa j1) by (apply (ok_with pa j); [exact K0|reflexivity|reflexivity]).
  destruct (compression_total pa j1 K1) as (m2 & ->). cbn [bind]. set (j2 := with_op j1 m2).
  assert (K2 : ok_job pa j2) by (apply (ok_with pa j1); [exact K1|reflexivity|reflexivity]).
  unfold choose_paper. destruct (read_paper pa j2 K2 S) as (n & -> & Sn). cbn [bind v_str].
  destruct (paper_total (j_params j2) n Sn) as [-> |(p3 & x & y & E3 & Hx & Hy)]; [cbn [bind negb]; eexists; eexists; reflexivity|]. rewrite E3. cbn [bind negb].
  destruct (setPaperSize_kept _ _ _ _ E3) as (_ & _ & Rw & Rh & _). change (j_params j2) with (j_params j) in Rw, Rh. rewrite <- Rw in R1. rewrite <- Rh in R2. set (j3 := with_params j2 p3).
  assert (K3 : ok_job pa j3) by (apply (ok_with pa j2); [exact K2|reflexivity|reflexivity]).
  destruct (margins_total pa j3 K3) as (m4 & g & -> & W4 & P4). cbn [bind]. set (j4 := with_job _ m4).
  assert (K4 : ok_job pa j4) by (apply (ok_with pa (with_job j3 m4)); [apply ok_part; assumption|reflexivity|reflexivity]).
  destruct (size_total pa j4 x y K4 Hx Hy) as (m5 & -> & W5 & P5). cbn [bind]. pose proof (ok_part pa j4 m5 K4 W5 P5) as K5. set (j5 := with_job j4 m5) in *.
  set (j5' := with_params j5 _). assert (K5' : ok_job pa j5') by (apply (ok_with pa j5); [exact K5|reflexivity|reflexivity]).
  destruct (resolution_total pa j5' K5' R1 R2) as (rx & ry & -> & Rx & Ry). cbn [bind]. set (j6 := with_params j5' _).
  assert (K6 : ok_job pa j6) by (apply (ok_with pa j5'); [exact K5'|reflexivity|reflexivity]).
  destruct (ranges_total pa j6 inp K6) as (m7 & l7 & -> & W7 & P7). cbn [bind]. set (j7 := with_job _ m7).
  assert (K7 : ok_job pa j7) by (apply (ok_with pa (with_job j6 m7)); [apply ok_part; assumption|reflexivity|reflexivity]).
  destruct (raster_total pa j7 pages K7 Rx Ry) as (j8 & -> & K8); [unfold two64; lia|]. cbn [bind].
  destruct K8 as (J8 & E8 & _). assert (P8 : printer_fine (j_printerAttrs j8)) by (rewrite E8; exact P).
  unfold choose_sides. destruct (str_total j8 s_sides J8 P8) as [sd ->]; [cbn; tauto|]. cbn [bind]. set (j9 := if String.eqb sd _ then _ else _).
  assert (E9 : j_jobAttrs j9 = j_jobAttrs j8 /\ j_printerAttrs j9 = j_printerAttrs j8) by (unfold j9; repeat destruct (String.eqb sd _); split; reflexivity). destruct E9 as [E9 F9].
  rewrite <- E9 in J8. rewrite <- F9 in P8.
  unfold choose_quality. destruct (get_total j9 s_printQuality (VInt 0) J8 P8) as (q & -> & _); [cbn; tauto|discriminate|apply fine_int; reflexivity|]. cbn [bind]. set (j10 := with_params j9 _).
  change (j_jobAttrs j9) with (j_jobAttrs j10) in J8. change (j_printerAttrs j9) with (j_printerAttrs j10) in P8.
  unfold choose_color, supported_strs, getSupported. cbn [s_colorMode s_type s_name String.append]. rewrite (strs_total (j_printerAttrs j10) "print-color-mode-supported") by (assumption || (cbn; tauto)). cbn [bind].
  destruct (str_total j10 s_colorMode J8 P8) as [cm ->]; [cbn; tauto|]. cbn [bind]. set (j11 := if string_contains cm _ then _ else _).
  assert (E11 : j_jobAttrs j11 = j_jobAttrs j10 /\ j_printerAttrs j11 = j_printerAttrs j10) by (unfold j11; repeat match goal with |- context [if ?c then _ else _] => destruct c end; split; reflexivity). destruct E11 as [E11 F11].
  rewrite <- E11 in J8. rewrite <- F11 in P8.
  unfold choose_media. pose proof J8 as (W8 & _). rewrite isSet_lookup by (assumption || (apply js_read; cbn; tauto)). cbn [bind].
  assert (M : exists z, (if match lookup s_mediaSource (j_jobAttrs j11) with Some _ => true | None => false end then
       let! s := get_job_str j11 s_mediaSource in match enum_get media_positions s with Some z => Ok z | None => Throw OutOfRange end else Ok (p_mediaPosition (j_params j11))) = Ok z).
  { destruct (lookup s_mediaSource (j_jobAttrs j11)) as [a|] eqn:El; [|eexists; reflexivity]. unfold get_job_str, get_job. rewrite get_lookup by (assumption || (apply js_read; cbn; tauto)). rewrite El.
    destruct J8 as (_ & J8 & _). destruct (J8 s_mediaSource a) as (T & _ & _ & F); [cbn; tauto|exact El|]. unfold get_as. rewrite T. cbn [bind]. destruct (snd a) as [str| | | | | | |]; try discriminate T. cbn [v_str].
    specialize (F eq_refl str eq_refl). clear - F. induction media_positions as [|[k v] l IH]; [destruct F|]. cbn [map fst In] in F. cbn [enum_get].
    destruct (String.eqb_spec str k) as [Q|N]; [eexists; reflexivity|]. apply IH. destruct F as [F|F]; [congruence|exact F]. }
  destruct M as [z ->]. cbn [bind]. destruct (str_total j11 s_mediaType J8 P8) as [mt ->]; [cbn; tauto|]. eexists. eexists. reflexivity.
Qed.

(** What the printer lists as supported is sensible, too. *)
Definition supported_fine (pa : ipp_attrs) : Prop := forall s v, In s read_settings -> In s choices -> In v (JobProperties.values (s_name s ++ "-supported") pa) -> fine s v.
Lemma after_sets l : forall s x v, value_after (sets l) s x = Some v -> x = Some v \/ exists s', In (s', v) l /\ same s s' = true.
Proof.
  induction l as [|[s' v'] l IH]; intros s x v H; [left; exact H|]. cbn in H. apply IH in H. destruct H as [H|(s2 & H & E)].
  - destruct (same s s') eqn:E; [|left; exact H]. right. exists s'. split; [left; congruence|exact E].
  - right. exists s2. split; [right; exact H|exact E].
Qed.
Lemma request_setting st s v : In (s, v) (requests st) -> In s job_settings.
Proof.
  unfold requests. intros H. repeat (apply in_app_or in H; destruct H as [H|H]); unfold ask in H;
    match type of H with In _ (if ?b then _ else _) => destruct b end; try destruct H as [H|H]; try contradiction; injection H as <- _; cbn; tauto.
Qed.
Lemma read_job s : In s read_settings -> In s job_settings.
Proof. intros H. repeat destruct H as [<-|H]; try (cbn; tauto). Qed.
Lemma get_set_same {A} k (v : A) m : map_get k (map_set k v m) = Some v.
Proof.
  induction m as [|[k' v'] m IH]; cbn [map_set map_get]; [rewrite String.eqb_refl; reflexivity|]. destruct (String.compare k k') eqn:E; cbn [map_get]; rewrite ?String.eqb_refl; try reflexivity.
  destruct (String.eqb_spec k k') as [Q|N]; [|exact IH]. exfalso. subst k'. pose proof (String.compare_antisym k k) as X. rewrite E in X. discriminate.
Qed.
(** Options that are accepted without being forced: preparing the job they ask for ends
    with the job prepared or with an error message. *)
Theorem C89_print_partial : forall st pa j j' inp pages, j_printerAttrs j = pa -> apply_options st pa false j = Ok (Some j') ->
  job_fine (j_jobAttrs j) -> printer_fine pa -> supported_fine pa -> params_fine (j_params j) ->
  (forall a, map_get "document-format" (j_opAttrs j) = Some a -> has_type TStr (snd a) = true) -> 0 <= pages < 2 ^ 31 ->
  exists e j'', finalize j' inp pages = Ok (e, j'').
Proof.
  intros st pa j j' inp pages Hj H J P S Q Ho Hn. pose proof J as (W & J1 & J2).
  destruct (C70_accepted st pa false j j' Hj H W) as (rs & _ & A & L & W' & Eo & Ep & _ & _ & _ & Epa & _). specialize (A eq_refl). apply Forall_app in A. destruct A as [A _]. rewrite Forall_forall in A.
  assert (L' : forall s a, In s job_settings -> lookup s (j_jobAttrs j') = Some a -> option_map snd (lookup s (j_jobAttrs j)) = Some (snd a) \/ In (s, snd a) (asked_pages st rs) \/ In (s, snd a) (requests st)).
  { intros s a Hs E. specialize (L s (proj1 (C32_job_settings s s Hs Hs))). rewrite E in L. cbn [option_map] in L. symmetry in L. apply after_sets in L. destruct L as [L|(s' & I & Es)]; [left; exact L|right].
    apply in_app_or in I. assert (Hs' : In s' job_settings).
    { destruct I as [I|I]; [|exact (request_setting st s' _ I)]. unfold asked_pages, ask in I. destruct (given st 4); [|destruct I]. destruct I as [I|[]]. injection I as <- _. cbn. tauto. }
    rewrite (proj2 (C32_job_settings s s' Hs Hs') Es). exact I. }
  apply C89_total_partial.
  - split; [exact W'|]. split.
    + intros s a Hs E. destruct (L' s a (read_job s Hs) E) as [K|[K|K]].
      * destruct (lookup s (j_jobAttrs j)) as [b|] eqn:Eb; [|discriminate]. cbn [option_map] in K. injection K as <-. exact (J1 s b Hs Eb).
      * exfalso. unfold asked_pages, ask in K. destruct (given st 4); [|destruct K]. destruct K as [K|[]]. injection K as K _. rewrite <- K in Hs. repeat destruct Hs as [Hs|Hs]; try discriminate Hs. destruct Hs.
      * destruct (A _ K) as [U|[U _]]; [|cbn [fst] in U; subst s].
        -- unfold supports in U. cbn [fst snd] in U. destruct (String.eqb_spec (s_name s) "copies") as [Ec|Ec].
           ++ destruct U as (t & lo & hi & z & _ & Ev & _). rewrite Ev. apply fine_int. repeat destruct Hs as [<-|Hs]; try discriminate Ec; try reflexivity. destruct Hs.
           ++ apply S; [exact Hs| |exact U]. repeat destruct Hs as [<-|Hs]; try (cbn; tauto).
        -- assert (exists z, snd a = VInt z) as [z ->]; [|apply fine_int; reflexivity]. clear - K. unfold requests in K.
           repeat (apply in_app_or in K; destruct K as [K|K]); unfold ask in K; match type of K with In _ (if ?b then _ else _) => destruct b end; try destruct K as [K|K]; try contradiction; try (apply (f_equal fst) in K; discriminate K).
           apply (f_equal snd) in K. cbn [snd] in K. rewrite <- K. eexists. reflexivity.
    + unfold typed, JobProperties.values. destruct (map_get "page-ranges" (j_jobAttrs j')) as [a|] eqn:E; [|constructor].
      destruct (L' s_pageRanges a) as [K|[K|K]]; [cbn; tauto|exact E| | |].
      * unfold typed, JobProperties.values in J2. unfold lookup in K. cbn [s_sub s_name s_pageRanges String.eqb] in K. destruct (map_get "page-ranges" (j_jobAttrs j)) as [b|]; [|discriminate]. cbn [option_map] in K. injection K as K.
        destruct a as [ta va], b as [tb vb]. cbn [snd] in K. subst vb. exact J2.
      * unfold asked_pages, ask in K. destruct (given st 4); [|destruct K]. destruct K as [K|[]]. injection K as K. destruct a as [ta va]. cbn [snd] in K. rewrite <- K. unfold ranges_value.
        apply Forall_forall. intros v Hv. apply in_map_iff in Hv. destruct Hv as (r & <- & _). reflexivity.
      * exfalso. clear - K. unfold requests in K.
        repeat (apply in_app_or in K; destruct K as [K|K]); unfold ask in K; match type of K with In _ (if ?b then _ else _) => destruct b end; try destruct K as [K|K]; try contradiction; apply (f_equal fst) in K; discriminate K.
  - rewrite Epa. exact P.
  - rewrite Ep. exact Q.
  - intros a. rewrite Eo. destruct (given st 15); [|apply Ho].
    rewrite get_set_same. intros E. injection E as <-. reflexivity.
  - exact Hn.
Qed.

(** ** Examples *)
Lemma short_sensible t : (String.length t <= 4)%nat -> sensible_number t.
Proof.
  intros L n d k H. destruct H as [s n H|a b n d Ha Hb].
  - pose proof (number_bound _ _ H) as B. rewrite bytes_of_string_length in B. assert (10 ^ Z.of_nat (String.length s) <= 10 ^ 4) by (apply Z.pow_le_mono_r; lia). lia.
  - pose proof (number_bound _ _ Ha) as B. rewrite bytes_of_string_length in B. rewrite !length_app_s in L. assert (10 ^ Z.of_nat (String.length a) <= 10 ^ 4) by (apply Z.pow_le_mono_r; lia). lia.
Qed.
Lemma short_size s w h u : match_paper_size s = Some (w, h, u) -> (String.length w <= 4)%nat -> (String.length h <= 4)%nat -> sensible_size s.
Proof.
  intros E Lw Lh w' h' i (H1 & H2 & H3). assert (E' : match_paper_size s = Some (w', h', unit_string i)) by (apply match_paper_size_spec; exists i; auto).
  rewrite E in E'. injection E' as <- <- _. split; apply short_sensible; assumption.
Qed.
Ltac by_short := eapply short_size; [vm_compute; reflexivity|vm_compute; lia|vm_compute; lia].
Ltac fine_tac := split; [reflexivity|]; split; [first [discriminate|intros _ ? X; injection X as <-; by_short]|]; split; [first [discriminate|intros _; vm_compute; repeat split; discriminate]|first [discriminate|intros _ ? X; injection X as <-; vm_compute; tauto]].
Lemma example_fine : job_fine example_attrs.
Proof.
  split; [exact example_wf|]. split; [|vm_compute; repeat constructor]. intros s a Hs H.
  repeat destruct Hs as [<-|Hs]; try contradiction; vm_compute in H; try discriminate H; injection H as <-; fine_tac.
Qed.
Lemma example_printer_fine : printer_fine example_printer.
Proof.
  split; [|split; [|split; [|split; [|split; [|split]]]]].
  - intros s a Hs _ H. repeat destruct Hs as [<-|Hs]; try contradiction; vm_compute in H; try discriminate H; injection H as <-; fine_tac.
  - intros a H. vm_compute in H. injection H as <-. reflexivity.
  - intros a H. vm_compute in H. injection H as <-. reflexivity.
  - intros a H. vm_compute in H. discriminate.
  - intros k Hk. repeat destruct Hk as [<-|Hk]; try contradiction; vm_compute; repeat constructor.
  - intros v H. vm_compute in H. repeat destruct H as [<-|H]; try contradiction; vm_compute; repeat split; discriminate.
  - intros s H. vm_compute in H. repeat destruct H as [H|H]; try contradiction; injection H as <-; intros r E; try discriminate E. injection E as <-.
    exists ["300"; "600"]%string, [300; 600]. split; [reflexivity|]. split; [discriminate|]. split; [repeat constructor|repeat constructor].
    + apply (number_more [bZ 51; bZ 48] 30 0); [apply (number_more [bZ 51] 3 0); [apply (number_one 3); lia|lia]|lia].
    + apply (number_more [bZ 54; bZ 48] 60 0); [apply (number_more [bZ 54] 6 0); [apply (number_one 6); lia|lia]|lia].
Qed.
Lemma new_params_fine : params_fine default_params.
Proof. split; [by_short|vm_compute; repeat split; discriminate]. Qed.
Example C89_example : job_fine (j_jobAttrs example_job) /\ printer_fine (j_printerAttrs example_job) /\ params_fine (j_params example_job) /\
  (exists j', finalize example_job mPDF 10 = Ok (None, j')) /\ (exists j', finalize (with_op example_job [("document-format", (tMimeMediaType, VStr "image/urf"))]%string) mPDF 10 = Ok (None, j')) /\
  (exists j' e, finalize (with_job example_job [("media", kw "letter")]%string) mPDF 10 = Ok (Some e, j')) /\ job_fine [("media", kw "letter")]%string.
Proof.
  split; [exact example_fine|]. split; [exact example_printer_fine|]. split; [exact new_params_fine|].
  split; [exists (result (finalize example_job mPDF 10)); vm_compute; reflexivity|].
  split; [eexists; vm_compute; reflexivity|]. split; [eexists; eexists; vm_compute; reflexivity|].
  split; [split; [vm_compute; repeat constructor|vm_compute; discriminate]|]. split; [|constructor]. intros s a Hs H.
  repeat destruct Hs as [<-|Hs]; try contradiction; vm_compute in H; try discriminate H; injection H as <-. split; [reflexivity|]. split; [|split; discriminate].
  intros _ n E. injection E as <-. intros w h i (H & H2 & H3). assert (X : match_paper_size "letter" = Some (w, h, unit_string i)) by (apply match_paper_size_spec; exists i; auto). discriminate X.
Qed.
Example C89_print_example : exists j', apply_options (parsed ["-p"; "1-3,5-"; "--copies"; "2"; "--format"; "image/urf"]%string) example_printer false example_job = Ok (Some j') /\
  supported_fine example_printer /\ exists j'', finalize j' mPDF 10 = Ok (None, j'').
Proof.
  eexists. split; [vm_compute; reflexivity|]. split.
  - intros s v Hs Hc H. repeat destruct Hs as [<-|Hs]; try contradiction; vm_compute in H; try contradiction; repeat destruct H as [<-|H]; try contradiction;
      first [fine_tac|exfalso; repeat destruct Hc as [Hc|Hc]; try discriminate Hc; contradiction].
  - eexists. vm_compute. reflexivity.
Qed.

(** ** Refutations *)
Definition media_col (l : ipp_attrs) : ipp_attrs := [("media-col", (tBeginCollection, VColl l))]%string.
(** What is missing cannot be had: a tray that the program has no number for (they are
    the printer's to name), an entry of urf-supported without a resolution, a paper size
    with a number of more than 64 bits and a printer's default of another type end the
    preparation with an exception; a paper of 100 km is undefined behaviour. *)
Theorem C89_refuted :
  (exists j, wf_job (j_jobAttrs j) /\ printer_fine (j_printerAttrs j) /\ params_fine (j_params j) /\ lookup s_mediaSource (j_jobAttrs j) = Some (kw "tray-21") /\ finalize j mPDF 1 = Throw OutOfRange) /\
  (exists j, job_fine (j_jobAttrs j) /\ params_fine (j_params j) /\ In (VStr "RS") (JobProperties.values "urf-supported" (j_printerAttrs j)) /\ finalize j mPDF 1 = Throw InvalidArgument) /\
  (exists j, wf_job (j_jobAttrs j) /\ printer_fine (j_printerAttrs j) /\ params_fine (j_params j) /\ map_get "media" (j_jobAttrs j) = Some (kw "custom_long_18446744073709551616x1mm") /\ finalize j mPDF 1 = Throw OutOfRange) /\
  (exists j, job_fine (j_jobAttrs j) /\ params_fine (j_params j) /\ map_get "sides-default" (j_printerAttrs j) = Some (tInteger, VInt 1) /\ finalize j mPDF 1 = Throw BadVariant) /\
  (exists j, wf_job (j_jobAttrs j) /\ printer_fine (j_printerAttrs j) /\ params_fine (j_params j) /\ map_get "media" (j_jobAttrs j) = Some (kw "custom_long_100000000x1mm") /\ finalize j mPDF 1 = UB).
Proof.
  split; [|split; [|split; [|split]]].
  - exists (with_job (new_job example_printer []) (media_col [("media-source", kw "tray-21")]%string)).
    split; [split; [vm_compute; repeat constructor|intros a H; vm_compute in H; injection H as <-; eexists; split; [reflexivity|]; split; [vm_compute; repeat constructor|discriminate]]|].
    split; [exact example_printer_fine|]. split; [exact new_params_fine|]. split; vm_compute; reflexivity.
  - exists (with_job (new_job (map_set "document-format-supported" (tMimeMediaType, VStr "image/urf") (map_set "urf-supported" (tKeyword, VSet [VStr "W8"; VStr "RS"]) example_printer)) []) example_attrs).
    split; [exact example_fine|]. split; [exact new_params_fine|]. split; [vm_compute; tauto|vm_compute; reflexivity].
  - exists (with_job (new_job example_printer []) [("media", kw "custom_long_18446744073709551616x1mm")]%string).
    split; [split; [vm_compute; repeat constructor|vm_compute; discriminate]|]. split; [exact example_printer_fine|]. split; [exact new_params_fine|]. split; vm_compute; reflexivity.
  - exists (new_job (map_set "sides-default" (tInteger, VInt 1) example_printer) []).
    split; [split; [split; [exact I|discriminate]|]; split; [|constructor]; intros s a Hs H; repeat destruct Hs as [<-|Hs]; try contradiction; vm_compute in H; discriminate|].
    split; [exact new_params_fine|]. split; vm_compute; reflexivity.
  - exists (with_job (new_job example_printer []) (map_set "media" (kw "custom_long_100000000x1mm") (media_col [("media-source", kw "tray-2")]%string))).
    split; [split; [vm_compute; repeat constructor|intros a H; vm_compute in H; injection H as <-; eexists; split; [reflexivity|]; split; [vm_compute; repeat constructor|discriminate]]|].
    split; [exact example_printer_fine|]. split; [exact new_params_fine|]. split; vm_compute; reflexivity.
Qed.

Print Assumptions C89_total_partial.
Print Assumptions C89_print_partial.
Print Assumptions C89_refuted.
