(** C112: whatever the arguments, the files and the printer's answers, ippclient ends with
    an exit code or an exception. *)
From Verif Require Import Base BaseLemmas MapModel MapProofs FloatModel StringModel StringSpec StringProofs StringProperties ParamsModel ParamsSpec ParamsProperties IppModel IppEncProofs IppMsgProofs IppProperties JsonModel ArgModel ArgProperties SettingModel ConverterModel JobModel JobProofs JobProperties PrinterModel SettingsModel SettingsProofs ClientModel SupplyProperties TotalProperties.
From Coq Require Import Lia ZifyBool ZifyNat.
Local Open Scope Z_scope.
Local Notation plain := IppEncProofs.plain.

(** ** Specification *)
(** a computation that comes to an end in a defined way: with a result or an exception *)
Definition defined {A} (x : outcome A) : Prop := (exists a, x = Ok a) \/ (exists e, x = Throw e).
(** An attribute whose paper size is sensible (C89) and whose resolutions are below 2^30, if
    it is one that names them *)
Definition mild (e : string * ipp_attr) : Prop :=
  (In (fst e) ["media"; "media-default"]%string -> forall s, snd (snd e) = VStr s -> sensible_size s) /\
  (In (fst e) ["printer-resolution"; "printer-resolution-default"; "pwg-raster-document-resolution-supported"]%string ->
   forall x y u, In (VRes x y u) (as_list (snd (snd e))) -> 0 <= x < 2 ^ 30 /\ 0 <= y < 2 ^ 30).
(** a level that has a percentage *)
Definition level_fits (s : supply) : Prop :=
  int32 (sp_level s) /\ int32 (sp_high s) /\ int32 (Z.quot (100 * sp_level s) (if sp_high s =? 0 then 100 else sp_high s)).
(** What the client finds: USER is set; no answer and no file holds a collection that is cut
    off in the way of C26; the conversions end. *)
Definition sound_world (e : client_env) : Prop :=
  w_user (e_world e) <> None /\
  (forall a b body, w_post (e_world e) a b = Response body -> decodeMsg body <> UB) /\
  (forall a h c k f j body, w_await (e_world e) a h c k f j = Response body -> decodeMsg body <> UB) /\
  (forall f text, e_files e f = Some text -> decodeMsg text <> UB) /\
  (forall k f j, defined (w_convert (e_world e) k f j)).
(** The number of pages of a document is one that poppler counts with an int *)
Definition sound_pages (e : client_env) : Prop := forall f n, e_pages e f = Some n -> 0 <= n < 2 ^ 31.
(** the job attributes of every settings file are mild *)
Definition sound_settings (e : client_env) : Prop :=
  forall f text o jobs m, e_files e f = Some text -> parse_opt e text = Some o -> map_get "job-attrs" (object_items o) = Some jobs ->
  attrsfromJSON (object_items jobs) [] = Ok m -> Forall mild m.
(** the paper size and the resolutions of the command line, if given *)
Definition sound_options (st : astate) : Prop :=
  (a_set st 7%nat = true -> sensible_size (as_str (a_val st 7%nat))) /\
  (forall i, In i [8; 9; 10]%nat -> a_set st i = true -> 0 <= as_int (a_val st i) < 2 ^ 30).

(** ** Proofs *)
Lemma defined_plain {A} (x : outcome A) : defined x <-> plain x.
Proof. split; [intros [[a ->]|[e ->]]; exact I|destruct x; intros []; [left|right]; eexists; reflexivity]. Qed.
Lemma plain_ebind {A B} (x : list event * outcome A) (k : A -> list event * outcome B) : plain (snd x) -> (forall a, snd x = Ok a -> plain (snd (k a))) -> plain (snd (ebind x k)).
Proof. unfold ebind. destruct (snd x) as [a| | | |]; intros P H; try destruct P; [apply H; reflexivity|exact I]. Qed.
Lemma plain_if {A} (b : bool) (x y : outcome A) : plain x -> plain y -> plain (if b then x else y).
Proof. destruct b; auto. Qed.

(** *** Attributes and settings *)
Lemma get_as_plain t v : plain (get_as t v). Proof. unfold get_as. destruct (has_type t v); exact I. Qed.
Lemma get_coll_plain v : plain (get_coll v). Proof. destruct v; exact I. Qed.
Lemma at_plain k m : plain (attrs_at k m). Proof. unfold attrs_at. destruct (map_get k m); exact I. Qed.
Lemma get_plain t k d m : plain (attrs_get t k d m).
Proof. unfold attrs_get, attrs_at. destruct (map_get k m) as [a|]; cbn [bind]; [|exact I]. unfold get_as. destruct (has_type t (snd a)); exact I. Qed.
Lemma each_plain t l : plain (get_each t l).
Proof. induction l as [|v l IH]; [exact I|]. cbn [get_each]. apply plain_bind; [apply get_as_plain|]. intros. apply plain_bind; [exact IH|]. intros; exact I. Qed.
Lemma list_plain t k m : plain (attrs_getList t k m).
Proof. unfold attrs_getList. destruct (map_get k m); [apply each_plain|exact I]. Qed.
Lemma isSet_plain s m : plain (setting_isSet s m).
Proof. unfold setting_isSet. destruct (String.eqb _ _); [exact I|]. destruct (map_get _ _); [|exact I]. apply plain_bind; [apply get_coll_plain|]. intros; exact I. Qed.
Lemma sub_plain s m : plain (sub_coll s m).
Proof. unfold sub_coll. destruct (map_get _ _); [apply get_coll_plain|exact I]. Qed.
Lemma set_plain s v m : plain (setting_set s v m).
Proof. unfold setting_set. destruct (String.eqb _ _); [exact I|]. apply plain_bind; [apply sub_plain|]. intros; exact I. Qed.
Lemma unset_plain s m : plain (setting_unset s m).
Proof. unfold setting_unset. destruct (String.eqb _ _); [exact I|]. apply plain_bind; [apply sub_plain|]. intros c _. destruct (map_erase _ c); exact I. Qed.
Lemma sget_plain pa s m fb : plain (setting_get pa s m fb).
Proof.
  unfold setting_get. apply plain_bind; [apply isSet_plain|]. intros [] _; [|apply get_plain]. apply plain_if.
  - apply plain_bind; [apply at_plain|]. intros. apply get_as_plain.
  - apply plain_bind; [apply at_plain|]. intros. apply plain_bind; [apply get_coll_plain|]. intros. apply plain_bind; [apply at_plain|]. intros. apply get_as_plain.
Qed.
Create HintDb pl.
#[local] Hint Resolve get_as_plain get_coll_plain at_plain get_plain each_plain list_plain isSet_plain sub_plain set_plain unset_plain sget_plain : pl.
Ltac pl := repeat first [ exact I | solve [auto with pl] | apply plain_bind; [|intros ? _] | apply plain_if
  | match goal with |- plain (let (_, _) := ?p in _) => destruct p end | match goal with |- plain (match ?x with _ => _ end) => destruct x end ].
Lemma set_job_plain j s v : plain (set_job j s v). Proof. unfold set_job. pl. Qed.
Lemma set_op_plain j s v : plain (set_op j s v). Proof. unfold set_op. pl. Qed.
Lemma unset_job_plain j s : plain (unset_job j s). Proof. unfold unset_job. pl. Qed.
Lemma get_job_plain j s fb : plain (get_job j s fb). Proof. unfold get_job. pl. Qed.
Lemma get_op_plain j s fb : plain (get_op j s fb). Proof. unfold get_op. pl. Qed.
Lemma get_job_str_plain j s : plain (get_job_str j s). Proof. unfold get_job_str, get_job. pl. Qed.
Lemma supported_plain j s : plain (supported_strs j s). Proof. unfold supported_strs, getSupported. pl. Qed.
Lemma getSupported_plain pa s : plain (getSupported pa s). Proof. unfold getSupported. pl. Qed.
Lemma printer_strs_plain j k : plain (printer_strs j k). Proof. unfold printer_strs. pl. Qed.
Lemma str_list_plain k pa : plain (str_list k pa). Proof. unfold str_list. pl. Qed.
Lemma int_list_plain k pa : plain (int_list k pa). Proof. unfold int_list. pl. Qed.
Lemma get_str_attr_plain k d pa : plain (get_str_attr k d pa). Proof. unfold get_str_attr. pl. Qed.
Lemma get_int_attr_plain k pa : plain (get_int_attr k pa). Proof. unfold get_int_attr. pl. Qed.
#[local] Hint Resolve set_job_plain set_op_plain unset_job_plain get_job_plain get_op_plain get_job_str_plain supported_plain getSupported_plain printer_strs_plain str_list_plain int_list_plain get_str_attr_plain get_int_attr_plain : pl.
Lemma stoi_plain s : plain (stoi s).
Proof. unfold stoi. cbv zeta. destruct (match skip_space s with String c s' => _ | EmptyString => _ end) as [neg r]. pl. Qed.
Lemma stoul_plain s : plain (stoul s).
Proof. unfold stoul. cbv zeta. destruct (match skip_space s with String c s' => _ | EmptyString => _ end) as [neg r]. pl. Qed.
#[local] Hint Resolve stoi_plain stoul_plain : pl.
Lemma pieces_plain l : forall p acc, plain (parse_pieces l p acc).
Proof. induction l as [|s l IH]; intros p acc; cbn [parse_pieces]; pl; apply IH. Qed.
Lemma range_plain s : plain (parsePageRange s). Proof. apply pieces_plain. Qed.
Lemma paper_plain p s : plain (setPaperSize p s).
Proof. pose proof (C20_accepts_exactly_partial p s) as A. destruct (setPaperSize p s) as [[b p']|e| | |]; try contradiction; exact I. Qed.
#[local] Hint Resolve range_plain paper_plain : pl.

(** *** Mild attributes *)
Lemma mild_set k a m : mild (k, a) -> Forall mild m -> Forall mild (map_set k a m).
Proof. intros H M. apply Forall_forall. intros e He. apply set_keys in He. destruct He as [->|He]; [exact H|]. rewrite Forall_forall in M. apply M, He. Qed.
Lemma mild_erase k m : Forall mild m -> Forall mild (map_erase k m).
Proof. intros M. apply Forall_forall. intros e He. apply erase_keys in He. rewrite Forall_forall in M. apply M, He. Qed.
Lemma mild_other k a : ~ In k ["media"; "media-default"; "printer-resolution"; "printer-resolution-default"; "pwg-raster-document-resolution-supported"]%string -> mild (k, a).
Proof. intros N. split; intros H; exfalso; apply N; cbn [fst In] in *; tauto. Qed.
Definition own (s : setting) : Prop := s_sub s = ""%string \/ s_sub s = "media-col"%string.
Lemma col_mild a : mild ("media-col"%string, a).
Proof. apply mild_other. cbn. intuition discriminate. Qed.
Lemma mild_setting s v m m' : own s -> (s_sub s = ""%string -> mild (s_name s, (s_tag s, v))) -> Forall mild m -> setting_set s v m = Ok m' -> Forall mild m'.
Proof.
  intros O V M H. unfold setting_set in H. destruct (String.eqb_spec (s_sub s) "") as [E|E].
  - injection H as <-. apply mild_set; [apply V, E|exact M].
  - destruct O as [O|O]; [contradiction|]. destruct (sub_coll s m); try discriminate H. cbn [bind] in H. injection H as <-. rewrite O. apply mild_set; [apply col_mild|exact M].
Qed.
Lemma mild_unset s m m' : own s -> Forall mild m -> setting_unset s m = Ok m' -> Forall mild m'.
Proof.
  intros O M H. unfold setting_unset in H. destruct (String.eqb_spec (s_sub s) "") as [E|E].
  - injection H as <-. apply mild_erase, M.
  - destruct O as [O|O]; [contradiction|]. destruct (sub_coll s m) as [c| | | |]; try discriminate H. cbn [bind] in H. rewrite O in H. destruct (map_erase (s_name s) c); injection H as <-; [apply mild_erase, M|apply mild_set; [apply col_mild|exact M]].
Qed.
(** what a setting of the job is read as *)
Lemma read_from pa s m fb v : s_sub s = ""%string -> setting_get pa s m fb = Ok v -> v = fb \/ exists k t, In k [s_name s; s_name s ++ "-default"]%string /\ (In (k, (t, v)) m \/ In (k, (t, v)) pa).
Proof.
  intros E H. unfold setting_get, setting_isSet in H. rewrite E in H. cbn [String.eqb bind] in H. unfold map_has in H.
  destruct (map_get (s_name s) m) as [[t w]|] eqn:G.
  - unfold attrs_at in H. rewrite G in H. cbn [bind snd] in H. unfold get_as in H. destruct (has_type _ w); [|discriminate]. injection H as <-. right. exists (s_name s), t. split; [left; reflexivity|]. left. apply map_get_In, G.
  - unfold getDefault, attrs_get, attrs_at in H. destruct (map_get (s_name s ++ "-default") pa) as [[t w]|] eqn:D; cbn [bind snd] in H; [|injection H as <-; left; reflexivity].
    unfold get_as in H. destruct (has_type _ w); [|discriminate]. injection H as <-. right. exists (s_name s ++ "-default")%string, t. split; [right; left; reflexivity|]. right. apply map_get_In, D.
Qed.

(** *** Preparing a job *)
Definition mild_job (j : job) : Prop := Forall mild (j_jobAttrs j) /\ Forall mild (j_printerAttrs j).
Lemma mild_unset_job j s j' : own s -> mild_job j -> unset_job j s = Ok j' -> mild_job j' /\ j_params j' = j_params j.
Proof.
  intros O [M P] H. unfold unset_job in H. destruct (setting_unset s (j_jobAttrs j)) as [m| | | |] eqn:E; try discriminate H. injection H as <-. split; [|reflexivity]. split; [|exact P]. exact (mild_unset s _ _ O M E).
Qed.
Lemma own_listed s : In s [s_sides; s_copies; s_resolution; s_media; s_topMargin; s_bottomMargin; s_leftMargin; s_rightMargin; s_pageRanges] -> own s.
Proof. intros H. repeat destruct H as [<-|H]; try (left; reflexivity); try (right; reflexivity). destruct H. Qed.
Ltac own := apply own_listed; cbn; tauto.
Definition keeps (j j' : job) : Prop := j_jobAttrs j' = j_jobAttrs j /\ j_printerAttrs j' = j_printerAttrs j.
Lemma keeps_mild j j' : keeps j j' -> mild_job j -> mild_job j'.
Proof. intros [E1 E2] [M P]. unfold mild_job. rewrite E1, E2. split; assumption. Qed.
Lemma format_safe j inp : plain (choose_format j inp) /\ (forall j', choose_format j inp = Ok j' -> keeps j j' /\ j_params j' = j_params j).
Proof.
  split.
  - unfold choose_format, determineTargetFormat. pl.
  - intros j' H. unfold choose_format in H. apply bind_ok in H. destruct H as (t & _ & H). apply bind_ok in H. destruct H as (l & _ & H). unfold set_op in H. apply bind_ok in H. destruct H as (m & _ & H). injection H as <-.
    split; [split|]; reflexivity.
Qed.
Lemma compression_safe j : plain (choose_compression j) /\ (forall j', choose_compression j = Ok j' -> keeps j j' /\ j_params j' = j_params j).
Proof.
  split.
  - unfold choose_compression. pl.
  - assert (D : keeps j j /\ j_params j = j_params j) by (split; [split|]; reflexivity). intros j' H. unfold choose_compression in H. destruct (isPrinterRaster _); [|injection H as <-; exact D].
    apply bind_ok in H. destruct H as (l & _ & H). unfold set_op in H.
    destruct (contains l "gzip"); [|destruct (contains l "deflate"); [|injection H as <-; exact D]]; apply bind_ok in H; destruct H as (m & _ & H); injection H as <-; split; [split|..]; reflexivity || (split; reflexivity).
Qed.
Lemma no_size : sensible_size "".
Proof. intros w h i ((name & u & N & _ & _ & E) & _). destruct name; [contradiction|discriminate E]. Qed.
Lemma media_sensible j v : mild_job j -> sensible_size (p_paperSizeName (j_params j)) -> get_job j s_media (VStr (p_paperSizeName (j_params j))) = Ok v -> sensible_size (v_str v).
Proof.
  intros [M P] S H. unfold get_job in H. apply read_from in H; [|reflexivity]. destruct H as [->|(k & t & Hk & H)]; [exact S|].
  assert (E : mild (k, (t, v))) by (rewrite Forall_forall in M, P; destruct H as [H|H]; [apply M, H|apply P, H]). destruct E as [E _]. cbn [fst snd] in E.
  destruct v; cbn [v_str]; try exact no_size. apply (E Hk). reflexivity.
Qed.

Definition sized (p : params) : Prop := (exists x, hundredths (getPaperSizeWInMillimeters p) = Ok x) /\ (exists y, hundredths (getPaperSizeHInMillimeters p) = Ok y).
Definition small_params (p : params) : Prop := 0 <= p_hwResW p < 2 ^ 30 /\ 0 <= p_hwResH p < 2 ^ 30.
Lemma choose_paper_safe j : mild_job j -> sensible_size (p_paperSizeName (j_params j)) -> plain (choose_paper j) /\
  (forall b j', choose_paper j = Ok (b, j') -> keeps j j' /\ (small_params (j_params j) -> small_params (j_params j')) /\ (b = true -> sized (j_params j'))).
Proof.
  intros M S. split.
  - unfold choose_paper. pl.
  - intros b j' H. unfold choose_paper in H. apply bind_ok in H. destruct H as (v & Hv & H). apply bind_ok in H. destruct H as ([ok p] & Hp & H). injection H as <- <-. split; [split; reflexivity|]. split.
    + intros R. destruct (setPaperSize_kept _ _ _ _ Hp) as (_ & _ & Rw & Rh & _). unfold small_params. cbn [with_params j_params]. rewrite Rw, Rh. exact R.
    + intros ->. pose proof (media_sensible j v M S Hv) as Sv. destruct (paper_total (j_params j) (v_str v) Sv) as [E|(p' & x & y & E & Hx & Hy)]; rewrite E in Hp; [discriminate|]. injection Hp as <-.
      split; eexists; eassumption.
Qed.
Lemma margins_safe j : mild_job j -> plain (take_margins j) /\ (forall j', take_margins j = Ok j' -> mild_job j' /\ j_params j' = j_params j).
Proof.
  intros M. split.
  - unfold take_margins. pl.
  - intros j' H. unfold take_margins in H. destruct (negb _); [|injection H as <-; split; [exact M|reflexivity]].
    do 4 (apply bind_ok in H; destruct H as (? & _ & H)). set (j0 := with_margins j _) in *. assert (M0 : mild_job j0) by exact M. assert (E0 : j_params j0 = j_params j) by reflexivity. clearbody j0.
    do 3 (let j1 := fresh "j" in let U := fresh "U" in apply bind_ok in H; destruct H as (j1 & U & H); apply mild_unset_job in U; [|own|assumption]; destruct U).
    apply mild_unset_job in H; [|own|assumption]. destruct H as [K1 K2]. split; [exact K1|congruence].
Qed.
Lemma size_safe j : mild_job j -> sized (j_params j) -> plain (move_media_size j) /\ (forall j', move_media_size j = Ok j' -> mild_job j' /\ j_params j' = j_params j).
Proof.
  intros M [[x Hx] [y Hy]]. unfold move_media_size. rewrite Hx, Hy. split; [pl|]. intros j' H. apply bind_ok in H. destruct H as (b & _ & H). destruct (_ && _); [|injection H as <-; split; [exact M|reflexivity]].
  cbn [bind] in H. apply bind_ok in H. destruct H as (v & _ & H). apply bind_ok in H. destruct H as (c & _ & H). apply mild_unset_job in H; [|own|]; [exact H|]. destruct M as [M P]. split; [apply mild_set; [apply col_mild|exact M]|exact P].
Qed.
Lemma resolution_safe j : mild_job j -> small_params (j_params j) -> plain (choose_resolution j) /\ (forall j', choose_resolution j = Ok j' -> mild_job j' /\ small_params (j_params j')).
Proof.
  intros M R. split; [unfold choose_resolution; pl|]. intros j' H. unfold choose_resolution in H. apply bind_ok in H. destruct H as (v & Hv & H). injection H as <-.
  destruct v as [| | | |x y u| | |]; try (split; assumption). split; [exact M|]. unfold get_job in Hv. apply read_from in Hv; [|reflexivity]. destruct Hv as [E|(k & t & Hk & Hi)]; [injection E as -> -> _; exact R|].
  destruct M as [M P]. assert (E : mild (k, (t, VRes x y u))) by (rewrite Forall_forall in M, P; destruct Hi as [H|H]; [apply M, H|apply P, H]).
  destruct E as [_ E]. apply (E ltac:(cbn [fst]; cbn in Hk |- *; tauto) x y u). left. reflexivity.
Qed.
Lemma ranges_safe j inp : mild_job j -> plain (take_ranges j inp) /\ (forall j', take_ranges j inp = Ok j' -> mild_job j' /\ (small_params (j_params j) -> small_params (j_params j'))).
Proof.
  intros M. split; [unfold take_ranges; pl|]. intros j' H. unfold take_ranges in H. destruct (String.eqb _ _); [|injection H as <-; auto].
  apply bind_ok in H. destruct H as (l & _ & H). apply mild_unset_job in H; [|own|exact M]. destruct H as [H1 H2]. split; [exact H1|]. rewrite H2. exact (fun x => x).
Qed.
(** *** Raster resolutions *)
Lemma scan_nonneg s : forall a, 0 <= a -> 0 <= scan_digits s a.
Proof.
  induction s as [|c s IH]; intros a Ha; cbn [scan_digits]; [exact Ha|]. destruct (is_digit c) eqn:E; [|exact Ha]. apply IH.
  assert (0 <= digit_val c) by (unfold is_digit, digit_val in *; lia). lia.
Qed.
Lemma stoi_positive s z : ~ occurs "-" s -> stoi s = Ok z -> 0 <= z < 2147483648.
Proof.
  intros N H. unfold stoi in H. cbv zeta in H. destruct (skip_space_split s) as (gap & E & _).
  assert (K : forall r, (if starts_digit r then if (-2147483648 <=? scan_digits r 0) && (scan_digits r 0 <? 2147483648) then Ok (scan_digits r 0) else Throw OutOfRange else Throw InvalidArgument) = Ok z -> 0 <= z < 2147483648).
  { intros r. destruct (starts_digit r); [|discriminate]. destruct (_ && _) eqn:B; [|discriminate]. intros Q. injection Q as <-. pose proof (scan_nonneg r 0 ltac:(lia)). lia. }
  destruct (skip_space s) as [|c r]; [apply (K ""%string); exact H|]. destruct (Z.eqb_spec (Zb c) 45) as [Ec|Ec].
  - exfalso. apply N. exists gap, r. rewrite E. f_equal. cbn [String.append]. f_equal. rewrite <- (bZ_Zb c), Ec. reflexivity.
  - destruct (Zb c =? 43); [apply (K r); exact H|apply (K (String c r)); exact H].
Qed.
Lemma abs_diff_ok w z : 0 <= w < 2 ^ 30 -> 0 <= z < 2147483648 -> abs_diff w z = Ok (Z.abs (w - z)).
Proof.
  intros Hw Hz. unfold abs_diff. change two32 with 4294967296. rewrite to_s32_id by lia. destruct (Z.eqb_spec (w - z) (-2147483648)); [lia|reflexivity].
Qed.
Lemma urf_plain w l : 0 <= w < 2 ^ 30 -> plain (urf_resolution w l).
Proof.
  intros Hw. induction l as [|s l IH]; [exact I|]. cbn [urf_resolution]. destruct (string_starts_with s "RS"); [|exact IH].
  destruct (C22_split_join_partial (drop 2 s) "-") as (_ & _ & F). generalize (two32 - 1). intros d. assert (K : forall x, plain (nearest_urf w (split_string (drop 2 s) "-") d x)); [|apply K].
  revert d. induction F as [|r rs Hr F IHF]; intros d x; [exact I|]. cbn [nearest_urf]. apply plain_bind; [apply stoi_plain|]. intros z Hz. rewrite abs_diff_ok; [|exact Hw|exact (stoi_positive r z Hr Hz)]. cbn [bind]. destruct (_ <? _); apply IHF.
Qed.
Lemma each_types t l : forall r, get_each t l = Ok r -> r = l /\ Forall (fun v => has_type t v = true) l.
Proof.
  induction l as [|v l IH]; intros r H; cbn [get_each] in H; [injection H as <-; split; [reflexivity|constructor]|]. apply bind_ok in H. destruct H as (x & Hx & H). apply bind_ok in H. destruct H as (q & Hq & H). injection H as <-.
  unfold get_as in Hx. destruct (has_type t v) eqn:E; [|discriminate]. injection Hx as <-. destruct (IH _ Hq) as [-> F]. split; [reflexivity|]. constructor; assumption.
Qed.
Lemma adjust_safe j : mild_job j -> small_params (j_params j) -> plain (adjust_resolution j) /\ (forall j', adjust_resolution j = Ok j' -> keeps j j').
Proof.
  intros [M P] [Rw Rh]. split.
  - unfold adjust_resolution. destruct (p_format (j_params j)); try exact I.
    + apply plain_bind; [apply list_plain|]. intros l Hl. assert (F : Forall small_res l).
      { unfold attrs_getList in Hl. destruct (map_get _ _) as [[t v]|] eqn:G; [|injection Hl as <-; constructor]. apply each_types in Hl. destruct Hl as [-> F]. cbn [snd] in *.
        apply map_get_In in G. rewrite Forall_forall in P. destruct (P _ G) as [_ K]. cbn [fst snd] in K. rewrite Forall_forall in F |- *. intros r Hr. specialize (F r Hr). destruct r; try discriminate F.
        cbn [small_res]. eapply K; [cbn; tauto|exact Hr]. }
      destruct (nearest_pwg_spec (p_hwResW (j_params j)) (p_hwResH (j_params j)) l Rw Rh F (two32 - 1) (p_hwResW (j_params j)) (p_hwResH (j_params j))) as (x & y & -> & _). exact I.
    + apply plain_bind; [apply printer_strs_plain|]. intros l _. apply plain_bind; [apply urf_plain; lia|]. intros; exact I.
  - intros j' H. unfold adjust_resolution in H. destruct (p_format (j_params j)); try (injection H as <-; split; reflexivity).
    + apply bind_ok in H. destruct H as (l & _ & H). apply bind_ok in H. destruct H as ([x y] & _ & H). injection H as <-. split; reflexivity.
    + apply bind_ok in H. destruct H as (l & _ & H). apply bind_ok in H. destruct H as (x & _ & H). injection H as <-. split; reflexivity.
Qed.
Lemma back_plain j : plain (back_side j).
Proof. unfold back_side. destruct (p_format (j_params j)); pl. Qed.
Lemma copies_plain j pages : 0 <= pages < 2 ^ 31 -> plain (take_copies j pages).
Proof.
  intros Hn. assert (Q : forall p, plain (getPageSequence p (pages mod two64))).
  { intros p. rewrite Z.mod_small by (unfold two64; lia). destruct (sequence_total p pages ltac:(unfold two64; lia)) as [l ->]. exact I. }
  unfold take_copies, printer_copies. pl.
Qed.
Lemma raster_safe j pages : mild_job j -> small_params (j_params j) -> 0 <= pages < 2 ^ 31 -> plain (adjustRasterSettings j pages).
Proof.
  intros M R Hn. unfold adjustRasterSettings.
  assert (K : plain (let! j := unset_job j s_resolution in let! j := adjust_resolution j in let! j := back_side j in take_copies j pages)).
  { apply plain_bind; [pl|]. intros j1 H1. apply mild_unset_job in H1; [|own|exact M]. destruct H1 as [M1 E1]. apply plain_bind; [apply adjust_safe; [exact M1|rewrite E1; exact R]|]. intros j2 _. apply plain_bind; [apply back_plain|]. intros j3 _. apply copies_plain, Hn. }
  destruct (p_format (j_params j)); exact I || exact K.
Qed.
Lemma finalize_plain j inp pages : mild_job j -> small_params (j_params j) -> sensible_size (p_paperSizeName (j_params j)) -> 0 <= pages < 2 ^ 31 -> plain (finalize j inp pages).
Proof.
  intros M R S Hn. unfold finalize. destruct (format_safe j inp) as [F1 F2]. apply plain_bind; [exact F1|]. intros j1 H1. destruct (F2 j1 H1) as [K1 E1]. apply (keeps_mild _ _ K1) in M. rewrite <- E1 in R, S. clear F1 F2.
  destruct (_ || _); [exact I|]. destruct (compression_safe j1) as [F1 F2]. apply plain_bind; [exact F1|]. intros j2 H2. destruct (F2 j2 H2) as [K2 E2]. apply (keeps_mild _ _ K2) in M. rewrite <- E2 in R, S. clear F1 F2.
  destruct (choose_paper_safe j2 M S) as [F1 F2]. apply plain_bind; [exact F1|]. intros [b j3] H3. destruct (F2 b j3 H3) as (K3 & R3 & S3). apply (keeps_mild _ _ K3) in M. specialize (R3 R). clear F1 F2.
  destruct b; [|exact I]. cbn [negb]. specialize (S3 eq_refl). destruct (margins_safe j3 M) as [F1 F2]. apply plain_bind; [exact F1|]. intros j4 H4. destruct (F2 j4 H4) as [M4 E4]. rewrite <- E4 in R3, S3. clear F1 F2.
  destruct (size_safe j4 M4 S3) as [F1 F2]. apply plain_bind; [exact F1|]. intros j5 H5. destruct (F2 j5 H5) as [M5 E5]. rewrite <- E5 in R3. clear F1 F2.
  cbv zeta. match goal with |- plain (bind (choose_resolution ?x) _) => destruct (resolution_safe x M5 R3) as [F1 F2] end. apply plain_bind; [exact F1|]. intros j6 H6. destruct (F2 j6 H6) as [M6 R6]. clear F1 F2.
  destruct (ranges_safe j6 inp M6) as [F1 F2]. apply plain_bind; [exact F1|]. intros j7 H7. destruct (F2 j7 H7) as [M7 R7]. clear F1 F2.
  apply plain_bind; [apply raster_safe; [exact M7|exact (R7 R6)|exact Hn]|]. intros j8 _. unfold choose_sides, choose_quality, choose_color, choose_media. pl.
Qed.

(** *** The options *)
Definition ready (j : job) : Prop := mild_job j /\ small_params (j_params j) /\ sensible_size (p_paperSizeName (j_params j)).
Definition osafe (x : outcome (option job)) : Prop := plain x /\ forall j, x = Ok (Some j) -> ready j.
Lemma osafe_bind x k : osafe x -> (forall j, ready j -> osafe (k j)) -> osafe (obind x k).
Proof.
  intros [P R] K. unfold obind. destruct x as [[j|]| | | |]; try destruct P; cbn [bind]; [apply K, R; reflexivity|split; [exact I|discriminate]..].
Qed.
Lemma osafe_none : osafe (Ok None). Proof. split; [exact I|discriminate]. Qed.
Lemma osafe_some j : ready j -> osafe (Ok (Some j)). Proof. intros R. split; [exact I|]. intros j' E. injection E as <-. exact R. Qed.
Lemma osafe_first {A} (x : outcome A) k : plain x -> (forall a, osafe (k a)) -> osafe (bind x k).
Proof. intros P K. destruct x as [a| | | |]; try destruct P; cbn [bind]; [apply K|split; [exact I|discriminate]]. Qed.
Lemma fail_safe given sup force set j : ready j -> plain sup -> (given = true -> plain (set j) /\ forall j', set j = Ok j' -> ready j') -> osafe (set_or_fail given sup force set j).
Proof.
  intros R P K. unfold set_or_fail. destruct given; [|apply osafe_some, R]. destruct (K eq_refl) as [K1 K2]. apply osafe_first; [exact P|]. intros ok. destruct (ok || force); [|apply osafe_none].
  destruct (set j) as [j'| | | |]; try destruct K1; cbn [bind]; [apply osafe_some, K2; reflexivity|split; [exact I|discriminate]].
Qed.
Lemma set_ready j s v j' : own s -> (s_sub s = ""%string -> mild (s_name s, (s_tag s, v))) -> ready j -> set_job j s v = Ok j' -> ready j'.
Proof.
  intros O V ([M P] & R) H. unfold set_job in H. apply bind_ok in H. destruct H as (m & Hm & H). injection H as <-. split; [|exact R]. split; [|exact P]. exact (mild_setting s v _ _ O V M Hm).
Qed.
Lemma set_op_ready j s v j' : ready j -> set_op j s v = Ok j' -> ready j'.
Proof. intros R H. unfold set_op in H. apply bind_ok in H. destruct H as (m & Hm & H). injection H as <-. exact R. Qed.
Lemma supports_plain pa s v : plain (choice_supports pa s v). Proof. unfold choice_supports. pl. Qed.
Lemma str_safe st i s force j : ready j -> own s -> (a_set st i = true -> s_sub s = ""%string -> mild (s_name s, (s_tag s, VStr (as_str (a_val st i))))) -> osafe (str_option st i s force j).
Proof. intros R O V. apply fail_safe; [exact R|apply supports_plain|]. intros G. split; [apply set_job_plain|]. intros j' H. exact (set_ready _ _ _ _ O (V G) R H). Qed.
Lemma int_safe st i s force j : ready j -> own s -> (s_sub s = ""%string -> mild (s_name s, (s_tag s, VInt (as_int (a_val st i))))) -> osafe (int_option st i s force j).
Proof. intros R O V. apply fail_safe; [exact R|apply supports_plain|]. intros G. split; [apply set_job_plain|]. intros j' H. exact (set_ready _ _ _ _ O V R H). Qed.
Lemma res_safe given x y force j : ready j -> (given = true -> 0 <= x < 2 ^ 30 /\ 0 <= y < 2 ^ 30) -> osafe (res_option given x y force j).
Proof.
  intros R V. apply fail_safe; [exact R|apply supports_plain|]. intros G. split; [apply set_job_plain|]. intros j' H. refine (set_ready _ _ _ _ _ _ R H); [left; reflexivity|]. intros _. split.
  - intros _ s E. discriminate E.
  - intros _ a b u [E|[]]. injection E as <- <- _. exact (V G).
Qed.
Lemma aliases_plain l : plain (aliases l). Proof. induction l; cbn [aliases]; pl. Qed.
#[local] Hint Resolve aliases_plain supports_plain : pl.
Ltac gentle := first [left; reflexivity | right; reflexivity | intros; discriminate | intros _ _; apply mild_other; cbn; intuition discriminate | intros _; apply mild_other; cbn; intuition discriminate].
Lemma options_safe st pa force j : sound_options st -> ready j -> osafe (apply_options st pa force j).
Proof.
  intros [Op Or] R. unfold apply_options. apply osafe_bind.
  { unfold pages_option. destruct (a_set st 4%nat); [|apply osafe_some, R]. apply osafe_first; [apply range_plain|]. intros [|r l]; [apply osafe_none|].
    pose proof (set_job_plain j s_pageRanges (VSet (map (fun r => VRange (pos_clamp (fst r)) (pos_clamp (snd r))) (r :: l)))) as P. destruct (set_job _ _ _) as [j'| | | |] eqn:E; try destruct P; cbn [bind]; [|split; [exact I|discriminate]].
    apply osafe_some. eapply set_ready; [| |exact R|exact E]; gentle. }
  clear j R. intros j R. unfold other_options. apply osafe_bind.
  { unfold copies_option. apply osafe_first; [unfold supportsPrinterRaster; pl|]. intros f. apply fail_safe; [exact R|unfold range_supports; pl|]. intros _. split; [pl|]. intros j' H. eapply set_ready; [| |exact R|exact H]; gentle. }
  clear j R. intros j R. apply osafe_bind.
  { unfold collated_option. apply fail_safe; [exact R|pl|]. intros _. split; [pl|]. intros j' H. eapply set_ready; [| |exact R|exact H]; gentle. }
  clear j R. intros j R. apply osafe_bind.
  { apply str_safe; [exact R|gentle|]. intros G _. split; [|intros H; cbn in H; exfalso; intuition discriminate]. intros _ s E. injection E as <-. exact (Op G). }
  clear j R. intros j R. destruct (negb _); [apply osafe_none|]. unfold later_options. apply osafe_first; [pl|]. intros _. apply osafe_bind.
  { apply res_safe; [exact R|]. intros G. pose proof (Or 8%nat ltac:(cbn; tauto) G). tauto. }
  clear j R. intros j R. apply osafe_bind.
  { apply res_safe; [exact R|]. intros G. apply andb_prop in G. destruct G as [G1 G2]. split; [exact (Or 9%nat ltac:(cbn; tauto) G1)|exact (Or 10%nat ltac:(cbn; tauto) G2)]. }
  clear j R. intros j R. apply osafe_bind; [apply str_safe; [exact R|gentle..]|].
  clear j R. intros j R. apply osafe_bind; [apply str_safe; [exact R|gentle..]|].
  clear j R. intros j R. apply osafe_first; [pl|]. intros _. apply osafe_bind; [apply int_safe; [exact R|gentle..]|].
  clear j R. intros j R. apply osafe_bind; [apply str_safe; [exact R|gentle..]|].
  clear j R. intros j R. apply osafe_bind.
  { unfold format_option. apply fail_safe; [exact R|pl|]. intros _. split; [pl|]. intros j' H. exact (set_op_ready _ _ _ _ R H). }
  do 3 (clear j R; intros j R; apply osafe_bind; [apply str_safe; [exact R|gentle..]|]).
  clear j R. intros j R. apply osafe_bind; [apply int_safe; [exact R|gentle..]|].
  clear j R. intros j R. apply osafe_bind.
  { unfold margin_option. destruct (a_set st 21%nat); [|apply osafe_some, R]. destruct (_ && _); [apply osafe_none|].
    do 3 (apply osafe_bind; [apply int_safe; [exact R|gentle..]|]; clear j R; intros j R). apply int_safe; [exact R|gentle..]. }
  do 3 (clear j R; intros j R; apply osafe_bind; [apply int_safe; [exact R|gentle..]|]).
  clear j R. intros j R. apply int_safe; [exact R|gentle..].
Qed.

(** *** JSON *)
Lemma json_at_plain k m : plain (json_at k m). Proof. unfold json_at. pl. Qed.
#[local] Hint Resolve json_at_plain : pl.
Definition reads (j : json) : Prop := forall t, plain (valuefromJSON t j).
Lemma value_reads j : reads j /\ (forall o, j = JObj o -> Forall (fun e => reads (snd e)) o).
Proof.
  induction j as [j Ha Ho|l IH|m IH] using json_ind2.
  - split; [|intros o ->; exfalso; exact (Ho o eq_refl)]. intros t. destruct j; try exact I; exfalso; [exact (Ha l eq_refl)|exact (Ho m eq_refl)].
  - split; [|discriminate]. intros t. cbn [valuefromJSON]. apply plain_bind; [|intros; exact I]. induction IH as [|x l [Hx _] IH IHl]; [exact I|]. apply plain_bind; [apply Hx|]. intros. apply plain_bind; [exact IHl|]. intros; exact I.
  - split; [|intros o E; injection E as <-; revert IH; apply Forall_impl; intros e [H _]; exact H]. intros t. cbn [valuefromJSON]. apply plain_if; [pl|]. apply plain_if; [pl|]. apply plain_if; [exact I|]. apply plain_if; [|exact I].
    apply plain_bind; [|intros; exact I]. generalize (@nil (string * ipp_attr)). induction IH as [|[k x] m [_ Hx] IH IHm]; intros acc; [exact I|]. cbn [snd] in Hx. apply plain_bind; [|intros a _; apply IHm].
    destruct x as [| | | | |o]; try exact I. apply plain_bind; [apply json_at_plain|]. intros z _. apply plain_bind; [|intros; exact I]. specialize (Hx o eq_refl). induction Hx as [|[k' y] o Hy Hx IHo]; [exact I|]. destruct (String.eqb _ _); [apply Hy|exact IHo].
Qed.
Lemma json_attrs_plain m : forall acc, plain (attrsfromJSON m acc).
Proof.
  induction m as [|[k x] m IH]; intros acc; [exact I|]. cbn [attrsfromJSON]. apply plain_bind; [|intros; apply IH]. unfold attrfromJSON. apply plain_bind; [pl|]. intros. apply plain_bind; [pl|]. intros y _. apply plain_bind; [apply value_reads|]. intros; exact I.
Qed.
#[local] Hint Resolve json_attrs_plain : pl.

(** *** The command line *)
Lemma try_shorter defs st args st' args' : try_switches defs st args = Went st' args' -> (length args' < length args)%nat.
Proof.
  induction defs as [|d defs IH]; cbn [try_switches]; [discriminate|]. destruct (parse_switch d st args) as [|st0 a0|a0] eqn:E; [exact IH| |discriminate]. intros H. injection H as <- <-.
  unfold parse_switch in E. destruct args as [|a rest]; [discriminate|]. destruct (existsb _ _); [|discriminate].
  assert (K : forall k, match rest with [] => ArgModel.Failed [] | v :: rest' => match convert k v with Ok x => Parsed (assign st (sw_id d) x) rest' | _ => ArgModel.Failed rest end end = Parsed st0 a0 -> (length a0 < length (a :: rest))%nat).
  { intros k. destruct rest as [|v rest']; [discriminate|]. destruct (convert k v); try discriminate. intros Q. injection Q as _ <-. cbn [length]. lia. }
  destruct (sw_kind d) as [| | | | | |en] eqn:Ek; [|exact (K KString E)|exact (K KInt E)|exact (K KLong E)|exact (K KUInt E)|exact (K KULong E)|exact (K (KEnum en) E)]. injection E as _ <-. cbn [length]. lia.
Qed.
Lemma loop_plain defs : forall fuel st args, (length args <= fuel)%nat -> plain (switch_loop fuel defs st args).
Proof.
  induction fuel as [|fuel IH]; intros st args L; destruct args as [|a args]; try exact I; [cbn [length] in L; lia|]. cbn [switch_loop]. destruct (try_switches _ _ _) eqn:E; try exact I. apply try_shorter in E. apply IH. cbn [length] in *. lia.
Qed.
Lemma args_plain subs st args : plain (sub_get_args subs st args).
Proof.
  unfold sub_get_args. destruct args as [|n rest]; [exact I|]. destruct (find_sub subs n) as [[defs pos]|]; [|exact I]. apply plain_bind; [|intros [[ok msg] st'] _; exact I].
  unfold get_args. apply plain_bind; [apply loop_plain; lia|]. intros [[st1 r]|[msg st1]] _; [|exact I]. destruct (_ <? _)%nat; [exact I|]. destruct (parse_pos pos st1 r) as [[st2 [|]]|[]]; exact I.
Qed.

(** *** Requests *)
Section World.
Variable e : client_env.
Hypothesis Sound : sound_world e.
Let w := e_world e.
Lemma decode_plain s : decodeMsg s <> UB -> plain (decodeMsg s).
Proof. intros N. pose proof (C26_terminates s) as T. destruct (decodeMsg s); try exact I; try destruct T. exfalso. apply N. reflexivity. Qed.
Lemma mk_msg_plain p op a b c : plain (mk_msg w p op a b c). Proof. unfold mk_msg. pl. Qed.
Lemma request_plain p id req : plain (snd (do_request w p id req)).
Proof.
  destruct Sound as (_ & P & _). unfold do_request. pose proof (encodeMsg_plain id req) as E. destruct (fst (encodeMsg id req)) as [b| | | |]; try destruct E; try exact I. cbn [snd].
  destruct (w_post w (pr_addr p) b) as [t|body] eqn:Q; [exact I|]. pose proof (decode_plain body (P _ _ _ Q)) as D. destruct (decodeMsg body) as [[r s]| | | |]; try destruct D; exact I.
Qed.
Lemma config_plain : plain (config_dir (w_user w)).
Proof. destruct Sound as (U & _). fold w in U. destruct (w_user w); [exact I|contradiction]. Qed.
Lemma set_attributes_plain p id l : plain (snd (set_attributes w p id l)).
Proof.
  unfold set_attributes. assert (C : forall pa acc, plain (collect_settable pa l acc)).
  { intros pa. induction l as [|[n v] l0 IH]; intros acc; cbn [collect_settable]; [exact I|]. destruct (map_get n pa); [|apply IH]. apply plain_bind; [unfold attrFromString; pl|]. intros; apply IH. }
  specialize (C (pr_attrs p) []). destruct (collect_settable _ _ _); try destruct C; [|exact I]. apply plain_ebind; [apply mk_msg_plain|]. intros req _. apply plain_ebind; [apply request_plain|]. intros; exact I.
Qed.
Lemma identify_plain p id : plain (snd (identify w p id)).
Proof. unfold identify. destruct (negb _); [exact I|]. apply plain_ebind; [apply mk_msg_plain|]. intros req _. apply plain_ebind; [apply request_plain|]. intros; exact I. Qed.
Lemma cancel_plain p id n : plain (snd (cancel_job w p id n)).
Proof.
  unfold cancel_job. apply plain_ebind; [apply mk_msg_plain|]. intros req _. apply plain_ebind; [apply request_plain|]. intros y _. destruct (fst y); [exact I|]. destruct (_ <? _); [|exact I].
  apply plain_ebind; [apply get_str_attr_plain|]. intros; exact I.
Qed.
Lemma jobs_plain p id : plain (snd (get_jobs w p id)).
Proof.
  unfold get_jobs. apply plain_ebind; [apply mk_msg_plain|]. intros req _. apply plain_ebind; [apply request_plain|]. intros y _. destruct (fst y); [exact I|]. apply plain_ebind; [|intros; exact I].
  cbn [pure snd]. induction (m_jobAttrs (snd y)) as [|g l IH]; [exact I|]. cbn [job_infos]. pl.
Qed.
Lemma open_plain addr : plain (snd (open_printer e addr)).
Proof.
  unfold open_printer. fold w. destruct (string_starts_with addr "file://").
  - apply plain_ebind; [|intros; exact I]. cbn [pure snd]. unfold refresh_file. assert (F : forall o pa, plain (let! _ := config_dir (w_user w) in Ok (o, applyOverrides (e_overrides e) pa) : outcome (option string * ipp_attrs))) by (intros; apply plain_bind; [apply config_plain|]; intros; exact I).
    assert (C : forall x : outcome ipp_attrs, plain x -> plain (match x with
      | Ok pa' => let! _ := config_dir (w_user w) in Ok (@None string, applyOverrides (e_overrides e) pa')
      | Throw e0 => let! _ := config_dir (w_user w) in Ok (Some (w_what w e0), applyOverrides (e_overrides e) [])
      | UB => UB | Hang => Hang | NoFuel => NoFuel end)).
    { intros x P. destruct x; try destruct P; apply F. }
    destruct (e_files e (drop 7 addr)) as [[|c l]|] eqn:Q; [apply (C (Throw OutOfRange)); exact I| |exact I]. destruct (_ =? 123).
    + destruct (e_parse e (c :: l)); [exact I|]. apply C. pl.
    + apply C. destruct Sound as (_ & _ & _ & D & _). apply plain_bind; [apply decode_plain, (D _ _ Q)|]. intros [m r] _. exact I.
  - apply plain_ebind; [|intros; exact I]. unfold refresh. apply plain_ebind; [apply mk_msg_plain|]. intros req _. apply plain_ebind; [apply request_plain|]. intros y _. apply plain_ebind; [apply config_plain|]. intros; exact I.
Qed.
Lemma info_plain pa : (forall l, supplies pa = Ok l -> Forall level_fits l) -> plain (info_command pa).
Proof.
  intros L. assert (E : forall A (f : string -> outcome A) l, (forall k, plain (f k)) -> plain (each f l)).
  { intros A f l Hf. induction l; cbn [each]; [exact I|]. apply plain_bind; [apply Hf|]. intros; assumption. }
  unfold info_command. do 3 (apply plain_bind; [apply E; intros; pl|]; intros ? _). apply plain_bind; [unfold supplies; pl|]. intros l Hl. specialize (L l Hl). clear Hl. apply plain_bind.
  - induction L as [|s l (H1 & H2 & H3) L IH]; [exact I|]. apply plain_bind; [|intros; assumption]. pose proof (C62_exact s H1 H2) as X. cbv zeta in X. rewrite X. unfold int32 in H3. destruct (_ && _) eqn:B; [exact I|lia].
  - intros ? _. apply plain_bind; [unfold firmware; pl|]. intros ? _. apply plain_bind; [apply E; intros; pl|]. intros ? _. unfold printerInputFormats, additionalDocumentFormats. pl.
Qed.

(** *** Printing *)
Lemma convert_plain k f j : plain (w_convert w k f j).
Proof. destruct Sound as (_ & _ & _ & _ & C). apply defined_plain, C. Qed.
Lemma do_print_plain p j f k h : plain (snd (do_print w p j f k h)).
Proof.
  unfold do_print. cbn [snd]. apply plain_bind; [unfold compression_of; pl|]. intros c _. apply plain_bind; [apply convert_plain|]. intros [|] _; [exact I|].
  destruct (w_await _ _ _ _ _ _ _) as [t|body] eqn:Q; [exact I|]. destruct Sound as (_ & _ & A & _). apply plain_bind; [apply decode_plain, (A _ _ _ _ _ _ _ Q)|]. intros [r s] _. pl.
Qed.
Lemma run_plain p id j f fmt pages : ready j -> 0 <= pages < 2 ^ 31 -> plain (snd (run_job w p id j f fmt pages)).
Proof.
  intros (M & R & S) Hn. unfold run_job. cbn [snd]. assert (B : plain (snd (run_job_body w p id (copy_job j) f fmt pages))); [|destruct (snd _); try destruct B; exact I].
  unfold run_job_body. apply plain_ebind; [apply int_list_plain|]. intros ops _. apply plain_ebind; [apply (finalize_plain (copy_job j)); assumption|]. intros [error j'] _. destruct error; [exact I|].
  destruct (getConvertFun fmt (j_target j')) as [conv|]; [|exact I]. destruct (string_starts_with _ _).
  - apply plain_ebind; [|intros; exact I]. unfold do_print_to_file. apply plain_ebind; [cbn [pure snd]; unfold defaultExtension; pl|]. intros; apply convert_plain.
  - destruct (_ && _).
    + apply plain_ebind; [apply mk_msg_plain|]. intros req _. apply plain_ebind; [apply request_plain|]. intros [er resp] _. destruct er; [exact I|]. cbv zeta. destruct (_ && _).
      * apply plain_ebind; [apply get_int_attr_plain|]. intros n _. apply plain_ebind; [apply mk_msg_plain|]. intros m _. apply plain_ebind; [apply encodeMsg_plain|]. intros h _. apply do_print_plain.
      * apply plain_ebind; [apply get_str_attr_plain|]. intros; exact I.
    + apply plain_ebind; [apply mk_msg_plain|]. intros m _. apply plain_ebind; [apply encodeMsg_plain|]. intros h _. apply do_print_plain.
Qed.
Lemma dir_plain j : plain (settings_file (w_user w) j).
Proof. unfold settings_file, settings_dir. apply plain_bind; [pl|]. intros u _. apply plain_bind; [|intros; exact I]. apply plain_bind; [apply config_plain|]. intros; exact I. Qed.
Lemma overlay_mild l : forall m, Forall mild l -> Forall mild m -> Forall mild (overlay l m).
Proof. induction l as [|[k a] l IH]; intros m Hl Hm; cbn [overlay]; [exact Hm|]. inversion Hl; subst. apply IH; [assumption|]. apply mild_set; assumption. Qed.
Lemma restore_safe j : sound_settings e -> ready j -> plain (restoreSettings (w_user w) (parse_opt e) (e_files e) j) /\ (forall j', restoreSettings (w_user w) (parse_opt e) (e_files e) j = Ok j' -> ready j').
Proof.
  intros SS R. unfold restoreSettings. destruct (canSaveSettings j); [|split; [exact I|intros j' H; injection H as <-; exact R]]. split.
  - apply plain_bind; [apply dir_plain|]. intros path _. destruct (e_files e path) as [text|]; [|exact I]. unfold restore_text. cbv zeta. pl.
  - intros j' H. apply bind_ok in H. destruct H as (path & _ & H). destruct (e_files e path) as [text|] eqn:F; [|injection H as <-; exact R]. unfold restore_text in H. cbv zeta in H.
    apply bind_ok in H. destruct H as (op & _ & H). apply bind_ok in H. destruct H as (jb & Hj & H). injection H as <-. destruct R as ([M P] & R). split; [|exact R]. split; [|exact P]. cbn [with_job with_op j_jobAttrs]. apply overlay_mild; [|exact M].
    destruct (parse_opt e text) as [o|] eqn:E; [|cbn in Hj; injection Hj as <-; constructor]. destruct (map_get "job-attrs" (object_items o)) as [jobs|] eqn:J; [|cbn in Hj; injection Hj as <-; constructor]. exact (SS _ _ _ _ _ F E J Hj).
Qed.
Lemma prepare_safe st pa : sound_settings e -> sound_options st -> Forall mild pa -> plain (prepare e st pa) /\ (forall j fmt, prepare e st pa = Ok (Some (j, fmt)) -> ready j).
Proof.
  intros SS SO P. unfold prepare. fold w. unfold createJob, additionalDocumentFormats.
  assert (B : plain (let! base := str_list "document-format-supported" pa in let! id := get_str_attr "printer-device-id" "" pa in Ok (base, id) : outcome (list string * string))) by pl.
  destruct (str_list "document-format-supported" pa) as [base| | | |]; try destruct B; cbn [bind] in *; [|split; [exact I|discriminate]].
  destruct (get_str_attr "printer-device-id" "" pa) as [id| | | |]; try destruct B; cbn [bind] in *; [|split; [exact I|discriminate]]. set (j0 := new_job pa _).
  assert (R0 : ready j0) by (split; [split; [constructor|exact P]|]; destruct new_params_fine as (S & R1 & R2); split; [split|]; assumption). clearbody j0.
  assert (X : exists x, (if as_bool (a_val st 28%nat) then Ok j0 else restoreSettings (w_user w) (parse_opt e) (e_files e) j0) = x /\ plain x /\ forall j', x = Ok j' -> ready j').
  { eexists. split; [reflexivity|]. destruct (as_bool _); [split; [exact I|intros j' H; injection H as <-; exact R0]|]. exact (restore_safe j0 SS R0). }
  destruct X as (x & -> & X1 & X2). destruct x as [j1| | | |]; try destruct X1; cbn [bind]; [|split; [exact I|discriminate]]. specialize (X2 j1 eq_refl).
  set (j2 := if a_set st 3%nat then _ else j1). assert (R2 : ready j2) by (unfold j2; destruct (a_set st 3%nat); exact X2). clearbody j2.
  set (j3 := if a_set st 26%nat then _ else j2). assert (R3 : ready j3) by (unfold j3; destruct (a_set st 26%nat); exact R2). clearbody j3.
  destruct (input_format e st) as [fmt|]; [|split; [exact I|discriminate]]. destruct (options_safe st pa (as_bool (a_val st 2%nat)) j3 SO R3) as [O1 O2].
  destruct (apply_options _ _ _ _) as [[j4|]| | | |]; try destruct O1; cbn [bind]; split; try exact I; try discriminate. intros j f H. injection H as <- _. apply O2. reflexivity.
Qed.
Lemma print_plain st p id : sound_pages e -> sound_settings e -> sound_options st -> Forall mild (pr_attrs p) -> plain (snd (print_command e st p id)).
Proof.
  intros SP SS SO P. unfold print_command. destruct (prepare_safe st (pr_attrs p) SS SO P) as [P1 P2]. apply plain_ebind; [exact P1|]. intros [[j fmt]|] H; [|exact I]. cbn [pure snd] in H. specialize (P2 _ _ H).
  destruct (count_pages e fmt (as_str (a_val st 32%nat))) as [[inFile pages]|] eqn:C; [|exact I].
  assert (Hn : 0 <= pages < 2 ^ 31).
  { unfold count_pages in C. destruct (String.eqb fmt mPDF); [|injection C as _ <-; lia]. destruct (e_pages e _) as [n|] eqn:Q; [|discriminate]. injection C as _ <-. exact (SP _ _ Q). }
  apply plain_ebind.
  - destruct (as_bool (a_val st 28%nat)); [|exact I]. apply plain_ebind; [|intros [[path text]|] _; exact I]. cbn [pure snd]. unfold saveSettings. destruct (canSaveSettings j); [|exact I]. apply plain_bind; [apply dir_plain|]. intros; exact I.
  - intros saved _. destruct (negb saved); [exact I|]. apply plain_ebind; [apply run_plain; assumption|]. intros; exact I.
Qed.
End World.

(** ** C112 *)
(** what the printer of the command line says of itself *)
Definition printer_says (e : client_env) (junk : nat -> aval) (args : list string) (P : ipp_attrs -> Prop) : Prop :=
  forall ok sub msg st ev err pa id, sub_get_args client_subs (client_init junk) args = Ok (ok, sub, msg, st) ->
  open_printer e (as_str (a_val st 30%nat)) = (ev, Ok (err, pa, id)) -> P pa.
(** Every run of the client ends with an exit code or an exception: it never goes on for
    ever and nothing in it is undefined.  For identify, get-attrs, set-attrs, get-jobs and
    cancel-job (and for what is no command) this needs no more than a sound world; info
    needs levels with a percentage; print needs mild attributes and options.  (Missing:
    what is not sound; see the refutation.  Uninitialised variables are taken as holding any
    value; the insides of the conversions are not part of this.) *)
Theorem C112_client_partial : forall e junk args, sound_world e ->
  (hd ""%string args = "info"%string -> printer_says e junk args (fun pa => forall l, supplies pa = Ok l -> Forall level_fits l)) ->
  (hd ""%string args = "print"%string -> printer_says e junk args (Forall mild) /\ sound_pages e /\ sound_settings e /\
     forall ok sub msg st, sub_get_args client_subs (client_init junk) args = Ok (ok, sub, msg, st) -> sound_options st) ->
  defined (snd (client e junk args)).
Proof.
  intros e junk args Sound Hi Hp. apply defined_plain. unfold client. apply plain_ebind; [apply args_plain|]. intros [[[ok sub] msg] st] H. cbn [pure snd] in H.
  assert (N : hd ""%string args = sub).
  { unfold sub_get_args in H. destruct args as [|n rest]; [injection H as _ <- _ _; reflexivity|]. cbn [hd]. destruct (find_sub client_subs n) as [[defs pos]|]; [|injection H as _ <- _ _; reflexivity].
    apply bind_ok in H. destruct H as ([[r m] s] & _ & H). injection H as _ <- _ _. reflexivity. }
  rewrite N in Hi, Hp. destruct (as_bool _); [exact I|]. destruct (negb ok); [exact I|]. apply plain_ebind; [apply open_plain, Sound|]. intros [[error pa] id] O.
  destruct error; [exact I|]. assert (O' : open_printer e (as_str (a_val st 30%nat)) = (fst (open_printer e (as_str (a_val st 30%nat))), Ok (None, pa, id))) by (rewrite <- O; apply surjective_pairing).
  destruct (String.eqb_spec sub "info") as [E|_]; [exact (info_plain pa (Hi E _ _ _ _ _ _ _ _ H O'))|].
  destruct (String.eqb sub "identify"); [apply plain_ebind; [apply identify_plain, Sound|]; intros; exact I|]. destruct (String.eqb sub "get-attrs"); [exact I|].
  destruct (String.eqb sub "set-attrs"); [unfold set_attrs_command; destruct (key_values _); [|exact I]; apply plain_ebind; [apply set_attributes_plain, Sound|]; intros; exact I|].
  destruct (String.eqb sub "get-jobs"); [apply plain_ebind; [apply jobs_plain, Sound|]; intros; exact I|].
  destruct (String.eqb sub "cancel-job"); [unfold cancel_command; destruct (a_set st 29%nat); [|exact I]; apply plain_ebind; [apply cancel_plain, Sound|]; intros; exact I|].
  destruct (String.eqb_spec sub "print") as [E|_]; [|exact I]. destruct (Hp E) as (P1 & P2 & P3 & P4). apply print_plain; [exact Sound|exact P2|exact P3|exact (P4 _ _ _ _ H)|exact (P1 _ _ _ _ _ _ _ _ H O')].
Qed.
Print Assumptions C112_client_partial.

(** ** Examples *)
(** a printer that answers everything with its attributes, and the document of C70 *)
Definition safe_printer (level : Z) : ipp_attrs :=
  [ ("copies-supported", (tIntegerRange, VRange 1 1));
    ("document-format-default", (tMimeMediaType, VStr "application/octet-stream"));
    ("document-format-supported", (tMimeMediaType, VSet [VStr "application/octet-stream"; VStr "image/pwg-raster"]));
    ("ipp-versions-supported", (tKeyword, VSet [VStr "1.1"; VStr "2.0"]));
    ("marker-colors", (tNameWithoutLanguage, VStr "#000000"));
    ("marker-high-levels", (tInteger, VInt 1));
    ("marker-levels", (tInteger, VInt level));
    ("marker-low-levels", (tInteger, VInt 0));
    ("marker-names", (tNameWithoutLanguage, VStr "Black"));
    ("marker-types", (tKeyword, VStr "toner"));
    ("media-default", (tKeyword, VStr "iso_a4_210x297mm"));
    ("pwg-raster-document-resolution-supported", (tResolution, VSet [VRes 300 300 3; VRes 600 600 3])) ]%string.
Definition answer (pa : ipp_attrs) : list byte :=
  match fst (encodeMsg 1 (mkMsg 0 1 1 [("attributes-charset", (tCharset, VStr "utf-8"))]%string [[("job-id", (tInteger, VInt 42))]]%string pa)) with Ok b => b | _ => [] end.
Definition safe_world (user : option string) (body : list byte) : client_env :=
  mkEnv
    (mkWorld user (fun _ => "what"%string) (fun _ _ => Response body) (fun _ _ _ => Ok None) (fun _ _ _ _ _ _ => Response body) "/tmp")
    (fun f => if String.eqb f "doc.pdf" then Some (bytes_of_string "%PDF-1.4") else None)
    (fun _ => inl "no"%string) JNull "/home/me" (fun f => if String.eqb f "/home/me/doc.pdf" then Some 5 else None).
Definition junk1 (i : nat) : aval := AInt (-7).
Definition me : option string := Some "me"%string.
Definition print_args (options : list string) : list string := ("print" :: options ++ ["ipp://printer/ipp/print"; "doc.pdf"])%string%list.
Lemma safe_world_sound level : decodeMsg (answer (safe_printer level)) <> UB -> sound_world (safe_world me (answer (safe_printer level))).
Proof.
  intros D. split; [discriminate|]. split; [intros a b body E; injection E as <-; exact D|]. split; [intros a h c k f j body E; injection E as <-; exact D|]. split; [|intros k f j; left; eexists; reflexivity].
  intros f text E. cbn [safe_world e_files] in E. destruct (String.eqb f "doc.pdf"); [|discriminate E]. injection E as <-. vm_compute. discriminate.
Qed.
Lemma safe_printer_mild : Forall mild (safe_printer 1).
Proof.
  repeat (first [apply Forall_nil | apply Forall_cons]); split; cbn [fst snd as_list In]; intros H; try (exfalso; intuition discriminate).
  - intros s E. injection E as <-. by_short.
  - intros x y u [E|[E|[]]]; injection E as <- <- _; lia.
Qed.
Definition state_of (x : outcome (bool * string * string * astate)) : astate := match x with Ok (_, _, _, st) => st | _ => client_init junk1 end.
Lemma state_is args ok sub msg st : sub_get_args client_subs (client_init junk1) args = Ok (ok, sub, msg, st) -> st = state_of (sub_get_args client_subs (client_init junk1) args).
Proof. intros ->. reflexivity. Qed.
Lemma opened_is e addr ev err pa id x : open_printer e addr = (ev, Ok (err, pa, id)) -> match snd (open_printer e addr) with Ok (_, p, _) => p = x | _ => False end -> pa = x.
Proof. intros ->. exact (fun H => H). Qed.
(** all the hypotheses hold of a run that prints, of one that is refused and of the
    information; what they do *)
Example C112_example :
  let e := safe_world me (answer (safe_printer 1)) in
  let print := print_args ["-r"; "300"; "-f"; "--paper-size"; "na_letter_8.5x11in"; "-tm"; "300"]%string in
  (sound_world e /\ sound_pages e /\ sound_settings e) /\
  (printer_says e junk1 print (Forall mild) /\ forall ok sub msg st, sub_get_args client_subs (client_init junk1) print = Ok (ok, sub, msg, st) -> sound_options st) /\
  printer_says e junk1 ["info"; "ipp://printer"]%string (fun pa => forall l, supplies pa = Ok l -> Forall level_fits l) /\
  (match client e junk1 print with ([Posted _ _; Streamed _ _], Ok 0) => True | _ => False end) /\
  (match client e junk1 ["info"; "ipp://printer"]%string with ([Posted _ _], Ok 0) => True | _ => False end) /\
  (match client e junk1 ["set-attrs"; "ipp://printer"; "marker-levels=x"]%string with ([Posted _ _], Ok 1) => True | _ => False end).
Proof.
  cbv zeta. split; [split; [apply safe_world_sound; vm_compute; discriminate|split]|].
  - intros f n E. cbn [safe_world e_pages] in E. destruct (String.eqb f _); [|discriminate E]. injection E as <-. lia.
  - intros f text o jobs m _ E. discriminate E.
  - split; [split|split].
    + intros ok sub msg st ev err pa id H O. apply state_is in H. subst st. rewrite (opened_is _ _ _ _ _ _ (safe_printer 1) O ltac:(vm_compute; reflexivity)). exact safe_printer_mild.
    + intros ok sub msg st H. apply state_is in H. subst st. split; [intros _; change (sensible_size "na_letter_8.5x11in"); by_short|]. intros i [<-|[<-|[<-|[]]]]; vm_compute; repeat split; intros; discriminate.
    + intros ok sub msg st ev err pa id H O. apply state_is in H. subst st. rewrite (opened_is _ _ _ _ _ _ (safe_printer 1) O ltac:(vm_compute; reflexivity)). intros l E. vm_compute in E. injection E as <-. repeat constructor; vm_compute; discriminate.
    + split; [vm_compute; exact I|]. split; [vm_compute; exact I|]. vm_compute; exact I.
Qed.
(** What is missing cannot be had: without USER, with an answer that ends within a
    collection, with a large resolution or a large paper size on the command line and with a
    level that is too large for its percentage, the client's behaviour is undefined. *)
Theorem C112_refuted :
  snd (client (safe_world None (answer (safe_printer 1))) junk1 ["identify"; "ipp://printer"]%string) = UB /\
  snd (client (safe_world me cut_off) junk1 ["identify"; "ipp://printer"]%string) = UB /\
  snd (client (safe_world me (answer (safe_printer 1))) junk1 (print_args ["-f"; "-r"; "2147483648"]%string)) = UB /\
  snd (client (safe_world me (answer (safe_printer 1))) junk1 (print_args ["-f"; "--media-type"; "stationery"; "--paper-size"; "custom_long_100000000x1mm"]%string)) = UB /\
  snd (client (safe_world me (answer (safe_printer 100000000))) junk1 ["info"; "ipp://printer"]%string) = UB.
Proof. do 4 (split; [vm_compute; reflexivity|]). vm_compute. reflexivity. Qed.
Print Assumptions C112_refuted.
