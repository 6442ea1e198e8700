(** C79, C80, C81: pdf2printable from the command line. *)
From Verif Require Import Base BaseLemmas StringModel StringSpec StringProofs FloatModel ParamsModel HeaderModel HeaderSpec PpmModel RenderModel ArgModel ArgSpec ArgProperties
  IppEncProofs RenderProperties PpmCmdSpec PpmCmdProperties OptionProofs ParamsProperties PdfCmdModel PdfCmdSpec.
From Verif Require ParamsSpec.
From Coq Require Import Lia ZifyBool ZifyNat.
Local Open Scope Z_scope.

Lemma pdf_described : described pdf_switches pdf_flags pdf_values.
Proof.
  constructor; try (vm_compute; reflexivity). cbn. repeat constructor; cbn; lia.
Qed.
Lemma pdf_fits name value : pdf_takes name value -> fits pdf_switches (name, value).
Proof.
  intros (T1 & T2 & T3 & T4 & T5 & T6 & T7) d Hd Hl Hk. cbn [fst snd] in *. unfold pdf_switches in Hd. cbn [In] in Hd.
  repeat destruct Hd as [<-|Hd]; try destruct Hd; cbn [sw_kind] in Hk |- *; try congruence; cbn in Hl; subst name.
  all: try (exists (AStr value); reflexivity).
  - destruct (entry_exists [("pdf", 0); ("postscript", 1); ("ps", 1); ("pwg", 2); ("urf", 3)]%string value (T1 eq_refl)) as [z Hz]. exists (AInt z), z. auto.
  - destruct (T6 eq_refl) as [z Hz]. exists (AInt z). exact Hz.
  - destruct T7 as [z Hz]; [cbn; tauto|]. exists (AInt z). exact Hz.
  - destruct T7 as [z Hz]; [cbn; tauto|]. exists (AInt z). exact Hz.
  - destruct T7 as [z Hz]; [cbn; tauto|]. exists (AInt z). exact Hz.
  - destruct (entry_exists [("flip", 2); ("manual-tumble", 3); ("rotate", 1)]%string value) as [z Hz]; [specialize (T2 eq_refl); cbn in T2 |- *; tauto|]. exists (AInt z), z. auto.
  - destruct (entry_exists [("black1", 5); ("black8", 3); ("cmyk32", 1); ("gray1", 4); ("gray8", 2); ("srgb24", 0)]%string value) as [z Hz]; [specialize (T5 eq_refl); cbn in T5 |- *; tauto|]. exists (AInt z), z. auto.
  - destruct (entry_exists [("draft", 3); ("high", 5); ("normal", 4)]%string value) as [z Hz]; [specialize (T3 eq_refl); cbn in T3 |- *; tauto|]. exists (AInt z), z. auto.
  - destruct (entry_exists media_positions value) as [z Hz]; [|exists (AInt z), z; auto]. replace (map fst media_positions) with (map fst positions) by (vm_compute; reflexivity). apply T4. reflexivity.
Qed.
Lemma fits_pdf name long value : In (name, long) pdf_values -> fits pdf_switches (long, value) -> pdf_takes long value.
Proof.
  intros Hin Hf. destruct (known_value _ _ _ name long pdf_described Hin) as [d [_ [Hd [Hl Hb]]]]. destruct (Hf d Hd Hl Hb) as [x Hx]. cbn [snd] in Hx. clear Hf Hin.
  unfold pdf_takes, integer, count. unfold pdf_switches in Hd. cbn [In] in Hd. repeat destruct Hd as [<-|Hd]; try destruct Hd; cbn [sw_kind] in Hb, Hx; try congruence; cbn in Hl; subst long.
  all: repeat (split; [intros E; try discriminate E|]); try (intros E; try (repeat destruct E as [E|E]; try discriminate E; destruct E; fail)).
  all: try (destruct Hx as [neg [n [H1 [H2 ->]]]]; eexists; exists neg, n; eauto; fail).
  all: destruct Hx as [z [Hz ->]]; apply entry_in in Hz; apply (in_map fst) in Hz; cbn [fst] in Hz.
  - exact Hz.
  - cbn in Hz |- *. tauto.
  - cbn in Hz |- *. tauto.
  - cbn in Hz |- *. tauto.
  - replace (map fst positions) with (map fst media_positions) by (vm_compute; reflexivity). exact Hz.
Qed.

(** one option after another *)
Definition pdf_switch (n : nat) : switch := nth n pdf_switches (mkSwitch 0 KBool [] "").
Lemma pdf_switch_in n : (n < 17)%nat -> In (pdf_switch n) pdf_switches.
Proof. intros H. apply nth_In. exact H. Qed.
Definition pdf_read (rs : list (string * string)) (st : astate) : Prop := forall d, In d pdf_switches -> option_read rs pdf_init st d.
Lemma read_flag rs st n : pdf_read rs st -> (n < 17)%nat -> sw_kind (pdf_switch n) = KBool -> sw_id (pdf_switch n) = n -> a_val pdf_init n = ABool false ->
  as_bool (a_val st n) = present rs (long_name (pdf_switch n)).
Proof.
  intros R Hn Hk Hi H0. pose proof (R _ (pdf_switch_in n Hn)) as K. unfold option_read, present in *. rewrite Hi in K. destruct (asked rs (long_name (pdf_switch n))).
  - destruct K as [K _]. unfold suits in K. rewrite Hk in K. rewrite K. reflexivity.
  - destruct K as [K _]. rewrite K, H0. reflexivity.
Qed.
Lemma read_text rs st n : pdf_read rs st -> (n < 17)%nat -> sw_kind (pdf_switch n) = KString -> sw_id (pdf_switch n) = n -> a_val pdf_init n = AStr "" ->
  as_str (a_val st n) = match asked rs (long_name (pdf_switch n)) with Some t => t | None => ""%string end /\ a_set st n = present rs (long_name (pdf_switch n)).
Proof.
  intros R Hn Hk Hi H0. pose proof (R _ (pdf_switch_in n Hn)) as K. unfold option_read, present in *. rewrite Hi in K. destruct (asked rs (long_name (pdf_switch n))).
  - destruct K as [K K']. unfold suits in K. rewrite Hk in K. rewrite K. auto.
  - destruct K as [K K']. rewrite K, H0. auto.
Qed.
Lemma read_int rs st n : pdf_read rs st -> (n < 17)%nat -> sw_kind (pdf_switch n) = KInt -> sw_id (pdf_switch n) = n ->
  match asked rs (long_name (pdf_switch n)) with Some t => integer t (as_int (a_val st n)) /\ a_set st n = true | None => a_set st n = false end.
Proof.
  intros R Hn Hk Hi. pose proof (R _ (pdf_switch_in n Hn)) as K. unfold option_read in *. rewrite Hi in K. destruct (asked rs (long_name (pdf_switch n))).
  - destruct K as [K K']. unfold suits in K. rewrite Hk in K. split; [|exact K']. destruct K as [neg [m [H1 [H2 ->]]]]. exists neg, m. auto.
  - destruct K as [_ K']. exact K'.
Qed.
Lemma read_choice {A} rs st n m (table : list (string * A)) (f : Z -> A) d : pdf_read rs st -> (n < 17)%nat -> sw_kind (pdf_switch n) = KEnum m -> sw_id (pdf_switch n) = n ->
  (forall t z, In (t, z) m -> In (t, f z) table) -> f (as_int (a_val pdf_init n)) = d -> choice rs (long_name (pdf_switch n)) table d (f (as_int (a_val st n))).
Proof.
  intros R Hn Hk Hi Hf H0. pose proof (R _ (pdf_switch_in n Hn)) as K. unfold option_read, choice in *. rewrite Hi in K. destruct (asked rs (long_name (pdf_switch n))).
  - destruct K as [K _]. unfold suits in K. rewrite Hk in K. destruct K as [z [Hz ->]]. apply Hf. apply entry_in. exact Hz.
  - destruct K as [-> _]. exact H0.
Qed.
Ltac choices := intros t z Hz; clear - Hz; cbn [In] in Hz; repeat destruct Hz as [Hz|Hz]; try contradiction; injection Hz as <- <-; cbn; auto 12.
Lemma format_by_name_spec out : name_format out (format_by_name out PDF).
Proof.
  unfold format_by_name, name_format, ends. destruct (string_ends_with out ".ps") eqn:E1; [left; split; [apply ends_with_spec; exact E1|reflexivity]|].
  destruct (string_ends_with out ".pwg") eqn:E2; [right; left; split; [apply ends_with_spec; exact E2|reflexivity]|].
  destruct (string_ends_with out ".urf") eqn:E3; [right; right; left; split; [apply ends_with_spec; exact E3|reflexivity]|].
  right; right; right. assert (N : forall e, string_ends_with out e = false -> ~ exists a, out = (a ++ e)%string) by (intros e He Ha; apply ends_with_spec in Ha; congruence).
  split; [apply N; exact E1|]. split; [apply N; exact E2|]. split; [apply N; exact E3|]. destruct (string_ends_with out ".pdf"); reflexivity.
Qed.
Lemma parsed_format rs st o : pdf_read rs st -> a_val st 18 = AStr o ->
  match asked rs "--format" with None => name_format o (p_format (parsed_params st)) | Some t => In (t, p_format (parsed_params st)) pdf_formats end.
Proof.
  intros R V. cbn [parsed_params p_format]. pose proof (R _ (pdf_switch_in 2 (proj1 (Nat.ltb_lt 2 17) eq_refl))) as K. unfold option_read in K. change (long_name (pdf_switch 2)) with "--format"%string in K. change (sw_id (pdf_switch 2)) with 2%nat in K.
  destruct (asked rs "--format") as [t|].
  - destruct K as [K ->]. unfold suits in K. cbn [sw_kind pdf_switch nth pdf_switches] in K. destruct K as [z [Hz ->]]. apply entry_in in Hz. cbn [as_int]. clear - Hz; cbn [In] in Hz; repeat destruct Hz as [Hz|Hz]; try contradiction; injection Hz as <- <-; cbn; auto 12.
  - destruct K as [-> ->]. rewrite V. cbn [as_str pdf_init a_val a_set as_int]. apply format_by_name_spec.
Qed.

(** The parameters, for values of --pages and --paper-size in their grammars *)
Definition selectable (rs : list (string * string)) : Prop :=
  (forall t, asked rs "--pages" = Some t -> exists l, page_list t l) /\ (forall t, asked rs "--paper-size" = Some t -> exists w h inches, paper_name t w h inches).
Lemma urf_refuses_spec rs st p : pdf_read rs st -> p_mediaType p = as_str (a_val st 16) -> urf_refuses st p = true <-> no_urf rs p.
Proof.
  intros R Hm. destruct (read_text rs st 16 R (proj1 (Nat.ltb_lt 16 17) eq_refl) eq_refl eq_refl eq_refl) as [M1 M2].
  change (long_name (pdf_switch 16)) with "--media-type"%string in M1, M2. unfold urf_refuses, no_urf. rewrite Hm, M1, M2. unfold present. clear - p.
  assert (C : (getBitsPerColor p =? 1) || isBlack p = true <-> In (p_colorMode p) [Gray1; Black1; Black8]).
  { unfold getBitsPerColor, isBlack. destruct (p_colorMode p); cbn; intuition discriminate. }
  assert (M : match asked rs "--media-type" with Some _ => true | None => false end && negb (isUrfMediaType match asked rs "--media-type" with Some t => t | None => "" end) = true
              <-> exists t, asked rs "--media-type" = Some t /\ ~ urf_type t).
  { destruct (asked rs "--media-type") as [t|]; [|split; [discriminate|intros [t [K _]]; discriminate K]]. cbn [andb]. pose proof (urf_media_spec t) as U. unfold urf_media in U. unfold urf_type.
    destruct (isUrfMediaType t); cbn [negb].
    - split; [discriminate|]. intros [t' [K N]]. injection K as <-. destruct (N (proj1 U eq_refl)).
    - split; [|reflexivity]. intros _. exists t. split; [reflexivity|]. intros K. apply U in K. discriminate. }
  destruct (p_format p); try (split; [discriminate|intros [K _]; discriminate K]). rewrite orb_true_iff, C, M. tauto.
Qed.
Lemma params_asked rs st o : pdf_read rs st -> a_val st 18 = AStr o -> selectable rs ->
  exists p, pdf_asks rs o p /\ ((no_urf rs p /\ pdf_params st = Ok None) \/ (~ no_urf rs p /\ pdf_params st = Ok (Some p))).
Proof.
  intros R V [Hpages Hpaper]. unfold pdf_params. cbv zeta.
  destruct (read_text rs st 3 R (proj1 (Nat.ltb_lt 3 17) eq_refl) eq_refl eq_refl eq_refl) as [T3 S3]. change (long_name (pdf_switch 3)) with "--pages"%string in *.
  destruct (read_text rs st 5 R (proj1 (Nat.ltb_lt 5 17) eq_refl) eq_refl eq_refl eq_refl) as [T5 S5]. change (long_name (pdf_switch 5)) with "--paper-size"%string in *.
  set (p0 := parsed_params st).
  assert (P1 : exists p1, (if a_set st 3 then setPageRange p0 (as_str (a_val st 3)) else Ok (true, p0)) = Ok (true, p1)
     /\ match asked rs "--pages" with None => p_pageRanges p1 = [] | Some t => page_list t (p_pageRanges p1) end
     /\ ParamsSpec.keeps_rest p0 p1 /\ ParamsSpec.keeps_paper p0 p1).
  { rewrite S3, T3. unfold present. destruct (asked rs "--pages") as [t|].
    - destruct (Hpages t eq_refl) as [l Hl]. destruct (C16_accepts_grammar p0 t l Hl) as [p1 [E1 [E2 [E3 E4]]]]. exists p1. rewrite E2. auto.
    - exists p0. split; [reflexivity|]. split; [reflexivity|]. split; repeat split. }
  destruct P1 as [p1 [-> [F1 [K1 K1']]]]. cbn [bind negb].
  assert (P2 : exists p2, (if a_set st 5 then setPaperSize p1 (as_str (a_val st 5)) else Ok (true, p1)) = Ok (true, p2)
     /\ paper rs p2 /\ ParamsSpec.keeps_rest p1 p2 /\ ParamsSpec.keeps_ranges p1 p2).
  { rewrite S5, T5. unfold present, paper. destruct (asked rs "--paper-size") as [t|].
    - destruct (Hpaper t eq_refl) as [[[n d] k] [[[n' d'] k'] [inches (tw & th & H1 & (H2 & B1 & B2 & B3) & (H3 & B4 & B5 & B6))]]].
      destruct (C20_sets_size_partial p1 t tw th inches n d k n' d' k' H1 H2 H3 B1 B2 B4 B5 B3 B6) as [p2 [E [G1 [G2 [G3 [G4 [G5 G6]]]]]]].
      exists p2. split; [exact E|]. split; [|auto]. split; [exact G4|]. exists (n, d, k), (n', d', k'), inches. split; [exists tw, th; split; [exact H1|]; split; repeat split; assumption|]. split; [exact G3|]. split; [exact G1|exact G2].
    - exists p1. split; [reflexivity|]. destruct K1' as (Q1 & Q2 & Q3 & Q4). rewrite Q1, Q2, Q3, Q4. split; [repeat split|]. split; repeat split. }
  destruct P2 as [p2 [-> [F2 [K2 K2']]]]. cbn [bind negb]. set (p := resolved st p2). exists p.
  assert (A : pdf_asks rs o p).
  { destruct K1 as (A1 & A2 & A3 & A4 & A5 & A6 & A7 & A8 & A9 & A10 & A11 & A12). destruct K2 as (B1 & B2 & B3 & B4 & B5 & B6 & B7 & B8 & B9 & B10 & B11 & B12).
    unfold ParamsSpec.keeps_ranges in K2'. unfold pdf_asks, p, resolved, paper in *. cbv zeta. cbn [with_sides p_format p_colorMode p_quality p_antiAlias p_paperSizeName p_hwResW p_hwResH p_units p_sizeW p_sizeH p_duplexMode p_backXform p_copies p_collated p_pageRanges p_mediaPosition p_mediaType].
    rewrite B1, A1, K2', B9, A9, B5, A5, B6, A6, B7, A7, B8, A8, B2, A2, B3, A3, B4, A4, B11, A11, B12, A12, B10, A10.
    split; [apply parsed_format; assumption|]. split; [exact F1|]. split.
    { cbn [p0 parsed_params p_copies]. pose proof (R _ (pdf_switch_in 4 (proj1 (Nat.ltb_lt 4 17) eq_refl))) as K. unfold option_read in K. change (long_name (pdf_switch 4)) with "--copies"%string in K. change (sw_id (pdf_switch 4)) with 4%nat in K.
      destruct (asked rs "--copies") as [t|]; destruct K as [K K']; [|rewrite K; reflexivity]. unfold suits in K. cbn [sw_kind pdf_switch nth pdf_switches] in K. unfold count.
      destruct K as [neg [m [H1 [H2 ->]]]]. exists neg, m. auto. }
    split; [exact F2|]. split.
    { pose proof (read_int rs st 6 R (proj1 (Nat.ltb_lt 6 17) eq_refl) eq_refl eq_refl) as I6. pose proof (read_int rs st 7 R (proj1 (Nat.ltb_lt 7 17) eq_refl) eq_refl eq_refl) as I7.
      pose proof (read_int rs st 8 R (proj1 (Nat.ltb_lt 8 17) eq_refl) eq_refl eq_refl) as I8.
      change (long_name (pdf_switch 6)) with "--resolution"%string in I6. change (long_name (pdf_switch 7)) with "--resolution-x"%string in I7. change (long_name (pdf_switch 8)) with "--resolution-y"%string in I8.
      change (p_hwResW p0) with 300. change (p_hwResH p0) with 300. change two32 with (2 ^ 32) in *. unfold numeric. clear - I6 I7 I8.
      exists (if a_set st 6 then as_int (a_val st 6) else 300). split; [destruct (asked rs "--resolution"); [destruct I6 as [I6 ->]; exact I6|rewrite I6; reflexivity]|]. split.
      - exists (if a_set st 7 then as_int (a_val st 7) else if a_set st 6 then as_int (a_val st 6) else 300). split.
        + destruct (asked rs "--resolution-x"); [destruct I7 as [I7 ->]; exact I7|rewrite I7; reflexivity].
        + destruct (a_set st 7), (a_set st 6); reflexivity.
      - exists (if a_set st 8 then as_int (a_val st 8) else if a_set st 6 then as_int (a_val st 6) else 300). split.
        + destruct (asked rs "--resolution-y"); [destruct I8 as [I8 ->]; exact I8|rewrite I8; reflexivity].
        + destruct (a_set st 8), (a_set st 6); reflexivity. }
    split.
    { rewrite (read_flag rs st 10 R (proj1 (Nat.ltb_lt 10 17) eq_refl) eq_refl eq_refl eq_refl), (read_flag rs st 9 R (proj1 (Nat.ltb_lt 9 17) eq_refl) eq_refl eq_refl eq_refl). reflexivity. }
    split; [apply (read_choice rs st 11 [("flip", 2); ("manual-tumble", 3); ("rotate", 1)]%string back_sides back_of Normal R (proj1 (Nat.ltb_lt 11 17) eq_refl) eq_refl eq_refl); [choices|reflexivity]|].
    split; [apply (read_choice rs st 12 [("black1", 5); ("black8", 3); ("cmyk32", 1); ("gray1", 4); ("gray8", 2); ("srgb24", 0)]%string color_modes color_of sRGB24 R (proj1 (Nat.ltb_lt 12 17) eq_refl) eq_refl eq_refl); [choices|reflexivity]|].
    split; [apply (read_choice rs st 13 [("draft", 3); ("high", 5); ("normal", 4)]%string qualities quality_of DefaultQuality R (proj1 (Nat.ltb_lt 13 17) eq_refl) eq_refl eq_refl); [choices|reflexivity]|].
    split; [exact (read_flag rs st 14 R (proj1 (Nat.ltb_lt 14 17) eq_refl) eq_refl eq_refl eq_refl)|].
    split; [apply (read_choice rs st 15 media_positions positions (fun z => z) 0 R (proj1 (Nat.ltb_lt 15 17) eq_refl) eq_refl eq_refl); [|reflexivity]|].
    { intros t z Hz. replace positions with media_positions by (vm_compute; reflexivity). exact Hz. }
    split; [exact (proj1 (read_text rs st 16 R (proj1 (Nat.ltb_lt 16 17) eq_refl) eq_refl eq_refl eq_refl))|]. reflexivity. }
  split; [exact A|]. assert (Hm : p_mediaType p = as_str (a_val st 16)).
  { destruct K1 as (_ & _ & _ & _ & _ & _ & _ & _ & _ & _ & _ & E1). destruct K2 as (_ & _ & _ & _ & _ & _ & _ & _ & _ & _ & _ & E2). cbn [p resolved with_sides p_mediaType]. rewrite E2, E1. reflexivity. }
  pose proof (urf_refuses_spec rs st p R Hm) as U. destruct (urf_refuses st p).
  - left. split; [apply U; reflexivity|reflexivity].
  - right. split; [intros K; apply U in K; discriminate|reflexivity].
Qed.
Lemma takes_fits rs : Forall (fun e => pdf_takes (fst e) (snd e)) rs -> Forall (fits pdf_switches) rs.
Proof. intros H. eapply Forall_impl; [|exact H]. intros [n v] Hv. apply pdf_fits. exact Hv. Qed.
Lemma pdf_get_args sw rs i o : reads_as_options pdf_flags pdf_values sw rs -> Forall (fun e => pdf_takes (fst e) (snd e)) rs -> pdf_plain i ->
  exists st, get_args pdf_switches pdf_pos pdf_init (sw ++ [i; o]) = Ok (true, ""%string, st) /\ a_val st 17 = AStr i /\ a_val st 18 = AStr o /\ pdf_read rs st.
Proof.
  intros Hr Ht [Hp1 Hp2]. apply (options_read pdf_switches pdf_flags pdf_values pdf_init sw rs i o 17 18); try assumption.
  - exact pdf_described.
  - discriminate.
  - cbn. lia.
  - cbn. lia.
  - apply takes_fits. exact Ht.
Qed.

(** The options decide the parameters as the help text says, the last value of an option
    counts, and the document is converted with these parameters.  What URF cannot express
    is refused before the output is touched. *)
Theorem C79_options e sw rs i o : reads_as_options pdf_flags pdf_values sw rs -> Forall (fun e => pdf_takes (fst e) (snd e)) rs -> present rs "--help" = false -> pdf_plain i -> selectable rs ->
  exists p, pdf_asks rs o p /\ ((no_urf rs p /\ pdf2printable_cmd e (sw ++ [i; o]) = Ok (1, None)) \/ (~ no_urf rs p /\ pdf2printable_cmd e (sw ++ [i; o]) = convert_file e p i o)).
Proof.
  intros Hr Ht Hh Hi Hsel. destruct (pdf_get_args sw rs i o Hr Ht Hi) as [st [E [V1 [V2 R]]]]. destruct (params_asked rs st o R V2 Hsel) as [p [A Hp]]. exists p. split; [exact A|].
  unfold pdf2printable_cmd. rewrite E. cbn [bind negb]. rewrite (read_flag rs st 0 R (proj1 (Nat.ltb_lt 0 17) eq_refl) eq_refl eq_refl eq_refl).
  change (long_name (pdf_switch 0)) with "--help"%string. rewrite Hh, V1, V2. cbn [as_str].
  destruct Hp as [[H ->]|[H ->]]; [left|right]; (split; [exact H|reflexivity]).
Qed.
(** A value the option does not take: exit code 1, and nothing is written (unless the help
    text was asked for before). *)
Theorem C79_bad_value e sw rs name long value rest : reads_as_options pdf_flags pdf_values sw rs -> Forall (fun e => pdf_takes (fst e) (snd e)) rs -> In (name, long) pdf_values -> ~ pdf_takes long value ->
  pdf2printable_cmd e (sw ++ name :: value :: rest) = Ok (if present rs "--help" then 0 else 1, None).
Proof.
  intros Hr Ht Hn Hv. assert (Hf : ~ fits pdf_switches (long, value)) by (intros K; apply Hv; exact (fits_pdf name long value Hn K)).
  destruct (options_bad _ _ _ pdf_pos pdf_init sw rs name long value rest pdf_described Hr (takes_fits rs Ht) Hn Hf) as [msg [st [E [_ R]]]].
  unfold pdf2printable_cmd. rewrite E. cbn [bind negb]. rewrite (read_flag rs st 0 R (proj1 (Nat.ltb_lt 0 17) eq_refl) eq_refl eq_refl eq_refl).
  change (long_name (pdf_switch 0)) with "--help"%string. destruct (present rs "--help"); reflexivity.
Qed.
(** --help: the help text and nothing else *)
Theorem C79_help e sw rs i o : reads_as_options pdf_flags pdf_values sw rs -> Forall (fun e => pdf_takes (fst e) (snd e)) rs -> present rs "--help" = true -> pdf_plain i ->
  pdf2printable_cmd e (sw ++ [i; o]) = Ok (0, None).
Proof.
  intros Hr Ht Hh Hi. destruct (pdf_get_args sw rs i o Hr Ht Hi) as [st [E [V1 [V2 R]]]].
  unfold pdf2printable_cmd. rewrite E. cbn [bind negb]. rewrite (read_flag rs st 0 R (proj1 (Nat.ltb_lt 0 17) eq_refl) eq_refl eq_refl eq_refl).
  change (long_name (pdf_switch 0)) with "--help"%string. rewrite Hh. reflexivity.
Qed.
(** A page selection or paper size outside of its grammar: exit code 1, nothing is written.
    Missing: numbers of more than 64 bits (below). *)
Definition small_numbers (t : string) : Prop := forall a d b n, t = (a ++ d ++ b)%string -> ParamsSpec.digits_of d n -> n < 2 ^ 64.
Theorem C79_malformed_partial e sw rs i o : reads_as_options pdf_flags pdf_values sw rs -> Forall (fun e => pdf_takes (fst e) (snd e)) rs -> present rs "--help" = false -> pdf_plain i ->
  (forall t, asked rs "--pages" = Some t -> small_numbers t) ->
  ((exists t, asked rs "--pages" = Some t /\ forall l, ~ page_list t l) \/ (exists t, asked rs "--paper-size" = Some t /\ forall w h inches, ~ size_name t w h inches)) ->
  pdf2printable_cmd e (sw ++ [i; o]) = Ok (1, None).
Proof.
  intros Hr Ht Hh Hi Hsm Hbad. destruct (pdf_get_args sw rs i o Hr Ht Hi) as [st [E [V1 [V2 R]]]].
  unfold pdf2printable_cmd. rewrite E. cbn [bind negb]. rewrite (read_flag rs st 0 R (proj1 (Nat.ltb_lt 0 17) eq_refl) eq_refl eq_refl eq_refl).
  change (long_name (pdf_switch 0)) with "--help"%string. rewrite Hh. cbn iota. assert (K : pdf_params st = Ok None); [|rewrite K; reflexivity].
  unfold pdf_params. cbv zeta. set (p0 := parsed_params st).
  destruct (read_text rs st 3 R (proj1 (Nat.ltb_lt 3 17) eq_refl) eq_refl eq_refl eq_refl) as [T3 S3]. change (long_name (pdf_switch 3)) with "--pages"%string in *.
  destruct (read_text rs st 5 R (proj1 (Nat.ltb_lt 5 17) eq_refl) eq_refl eq_refl eq_refl) as [T5 S5]. change (long_name (pdf_switch 5)) with "--paper-size"%string in *.
  rewrite S3, T3, S5, T5. unfold present.
  assert (P : (exists p1, (if match asked rs "--pages" with Some _ => true | None => false end then setPageRange p0 match asked rs "--pages" with Some t => t | None => "" end else Ok (true, p0)) = Ok (true, p1)
               /\ forall t, asked rs "--pages" = Some t -> exists l, page_list t l)
              \/ (exists p1, (if match asked rs "--pages" with Some _ => true | None => false end then setPageRange p0 match asked rs "--pages" with Some t => t | None => "" end else Ok (true, p0)) = Ok (false, p1))).
  { destruct (asked rs "--pages") as [t|]; [|left; exists p0; split; [reflexivity|discriminate]]. pose proof (C16_exact_grammar_partial p0 t) as G.
    destruct (setPageRange p0 t) as [[[|] p1]|x| | |]; try contradiction.
    - left. exists p1. split; [reflexivity|]. intros t' Et. injection Et as <-. exists (p_pageRanges p1). apply G.
    - right. exists p1. reflexivity.
    - exfalso. destruct G as [_ [a [d [b [n [G1 [G2 G3]]]]]]]. pose proof (Hsm t eq_refl a d b n G1 G2). lia. }
  destruct P as [[p1 [-> Hok]]|[p1 ->]]; cbn [bind negb]; [|reflexivity].
  destruct Hbad as [[t [Et Hb]]|[t [Et Hb]]]; [destruct (Hok t Et) as [l Hl]; destruct (Hb l Hl)|]. rewrite Et.
  pose proof (C20_accepts_exactly_partial p1 t) as G. destruct (setPaperSize p1 t) as [[[|] p2]|x| | |]; try contradiction.
  - destruct G as [w [h [inches [G _]]]]. destruct (Hb w h inches G).
  - reflexivity.
  - destruct G as [_ [w [h [inches [G _]]]]]. destruct (Hb w h inches G).
Qed.
(** Finding: a number of more than 64 bits in a page selection or paper size ends the program
    with an uncaught exception. *)
Theorem C79_exception_refuted e :
  pdf2printable_cmd e ["-p"; "18446744073709551616"; "in.pdf"; "out.ps"]%string = Throw OutOfRange
  /\ pdf2printable_cmd e ["--paper-size"; "a_1x18446744073709551616mm"; "in.pdf"; "out.ps"]%string = Throw OutOfRange.
Proof. split; vm_compute; reflexivity. Qed.

(** ** C80: the output file *)
Lemma written_app a b : written (a ++ b) = written a ++ written b.
Proof. induction a as [|[x|i t] a IH]; [reflexivity| |exact IH]. cbn. rewrite IH, app_assoc. reflexivity. Qed.
Lemma written_callbacks bs : forall pre i total, written (callbacks pre i total bs) = match bs with [] => [] | _ => pre ++ concat bs end.
Proof.
  induction bs as [|b bs IH]; intros pre i total; [reflexivity|]. cbn [callbacks written concat]. rewrite IH, <- app_assoc. destruct bs; reflexivity.
Qed.
(** what the output is made of: the header, the pages in order, and for PDF and Postscript
    what cairo writes at the end *)
Definition whole_output (r : renderer) (p : params) (seq : list Z) (out : list byte) : Prop :=
  exists bs, pages_bytes r p 1 seq bs /\ out = file_header p (Z.of_nat (length seq)) ++ concat bs ++ match p_format p with PWG | URF => [] | _ => r_finish r end.
Lemma pages_bytes_empty r p i seq bs : pages_bytes r p i seq bs -> (seq = [] <-> bs = []).
Proof. destruct 1; split; congruence. Qed.
Lemma whole_written r wr p pages seq ev : r_pages r = Some pages -> getPageSequence p pages = Ok seq -> surfaces r p -> p_format p <> Invalid -> (p_format p = URF -> p_hwResW p = p_hwResH p) ->
  pdf_to_printable r wr p = Ok (ev, None) -> whole_output r p seq (written ev).
Proof.
  intros Hpg Hseq Hs Hf Hu Q. destruct (C51_stream r wr p pages seq ev None Hpg Hseq Hs Hf Hu Q) as [bs [Hb Hev]]. exists bs. split; [exact Hb|].
  rewrite Hev, written_app, written_callbacks. unfold leftover. pose proof (pages_bytes_empty _ _ _ _ _ Hb) as Hemp.
  set (fin := match p_format p with PWG | URF => [] | _ => r_finish r end). set (hdr := file_header p (Z.of_nat (length seq))).
  assert (Hw : forall l : list byte, written (match l with [] => [] | _ => [Wrote l] end) = l) by (intros l; destruct l; [reflexivity|cbn; rewrite app_nil_r; reflexivity]).
  rewrite Hw. destruct bs as [|b bs].
  - rewrite (proj2 Hemp eq_refl). reflexivity.
  - destruct seq as [|q seq]; [discriminate (proj1 Hemp eq_refl)|]. rewrite <- app_assoc. reflexivity.
Qed.
(** A conversion with exit code 0 wrote everything, if the output file took everything.
    Missing: that exit code 0 says so (refuted below). *)
Theorem C80_complete_partial e p i o r pages seq n path out : open_document e i o = Ok r -> r_pages r = Some pages -> getPageSequence p pages = Ok seq -> surfaces r p -> p_format p <> Invalid ->
  convert_file e p i o = Ok (0, Some (path, out)) -> e_room e path = Some n -> Z.of_nat (length out) < n -> path = out_path e o /\ whole_output r p seq out.
Proof.
  intros Hd Hpg Hseq Hs Hf Hc Hroom Hlen. unfold convert_file in Hc. destruct (match p_format p with URF => negb (p_hwResW p =? p_hwResH p) | _ => false end) eqn:U.
  - cbn [bind] in Hc. unfold pdf_to_printable in Hc. rewrite U in Hc. discriminate.
  - rewrite Hd in Hc. cbn [bind] in Hc. bind_inv Hc as q Q Hc'. destruct q as [ev err]. injection Hc' as Hcode Hw. destruct err; [discriminate|]. clear Hcode.
    destruct (e_room e (out_path e o)) as [n'|] eqn:Hr; [|discriminate]. injection Hw as <- Hout. rewrite Hr in Hroom. injection Hroom as ->. split; [reflexivity|].
    assert (Hu : p_format p = URF -> p_hwResW p = p_hwResH p) by (intros F; rewrite F in U; destruct (Z.eqb_spec (p_hwResW p) (p_hwResH p)); [assumption|discriminate]).
    assert (Hall : out = written ev). { rewrite <- Hout. apply firstn_all2. rewrite <- Hout in Hlen. rewrite firstn_length in Hlen. lia. }
    rewrite Hall. exact (whole_written r (fun _ _ => true) p pages seq ev Hpg Hseq Hs Hf Hu Q).
Qed.
(** Finding: the exit code does not depend on the output file: whether it could be opened,
    and how much of the output it took. *)
Definition with_room (e : pdf_env) (room : string -> option Z) : pdf_env := mkEnv (e_doc e) (e_cwd e) (e_stdin e) (e_file e) room.
Definition apart (e : pdf_env) (i o : string) : Prop := i = "-"%string \/ forall path path', absolute (e_cwd e) i = Ok path -> unescape path = Some path' -> path' <> out_path e o.
Theorem C80_exit_ignores_output e room p i o code w : apart e i o -> convert_file e p i o = Ok (code, w) ->
  exists w', convert_file (with_room e room) p i o = Ok (code, w') /\ (room (out_path e o) = None -> w' = None).
Proof.
  intros Ha Hc. unfold convert_file in *. assert (Hd : open_document (with_room e room) i o = open_document e i o).
  { unfold open_document. change (out_path (with_room e room) o) with (out_path e o). cbn [with_room e_doc e_cwd e_stdin e_file e_room]. destruct (String.eqb_spec i "-") as [->|Hi]; [reflexivity|].
    destruct Ha as [Ha|Ha]; [contradiction|]. destruct (absolute (e_cwd e) i) as [path| | | |]; try reflexivity. cbn [bind]. destruct (unescape path) as [path'|] eqn:Eu; [|reflexivity].
    rewrite (proj2 (String.eqb_neq _ _) (Ha path path' eq_refl Eu)). destruct (room (out_path e o)), (e_room e (out_path e o)); reflexivity. }
  rewrite Hd. bind_inv Hc as r R Hc'. rewrite R. cbn [bind]. bind_inv Hc' as q Q Hc. destruct q as [ev err]. rewrite Q. cbn [bind]. injection Hc as <- _.
  eexists. split; [reflexivity|]. intros Hr. change (out_path (with_room e room) o) with (out_path e o). cbn [with_room e_room]. rewrite Hr. reflexivity.
Qed.
Definition one_page : renderer := {| r_pages := Some 1; r_size := fun _ => (fofZ 595, fofZ 842); r_draw := fun _ _ => Some []; r_stream := fun _ _ => bytes_of_string "page "; r_finish := bytes_of_string "end" |}.
Definition example_env (room : string -> option Z) : pdf_env :=
  mkEnv (fun b => match b with [] => unopened | _ => one_page end) "/home" [] (fun path => if String.eqb path "/home/in.pdf" then Some (bytes_of_string "%PDF") else None) room.
(** so exit code 0 is also given for a file that cannot be created and for a full disk *)
Theorem C80_exit_refuted :
  pdf2printable_cmd (example_env (fun _ => Some 100)) ["in.pdf"; "out.ps"]%string = Ok (0, Some ("/home/out.ps"%string, bytes_of_string "page end"))
  /\ pdf2printable_cmd (example_env (fun _ => None)) ["in.pdf"; "out.ps"]%string = Ok (0, None)
  /\ pdf2printable_cmd (example_env (fun _ => Some 3)) ["in.pdf"; "out.ps"]%string = Ok (0, Some ("/home/out.ps"%string, bytes_of_string "pag")).
Proof. split; [|split]; vm_compute; reflexivity. Qed.
(** Finding: with the document as the output file the document is lost. *)
Theorem C80_same_file_refuted :
  pdf2printable_cmd (example_env (fun _ => Some 100)) ["in.pdf"; "in.pdf"]%string = Ok (1, Some ("/home/in.pdf"%string, [])).
Proof. vm_compute. reflexivity. Qed.
Example C80_example : exists r seq, let e := example_env (fun _ => Some 100) in open_document e "in.pdf" "out.ps" = Ok r /\ r_pages r = Some 1 /\ getPageSequence default_params 1 = Ok seq
  /\ surfaces r default_params /\ convert_file e default_params "in.pdf" "out.ps" = Ok (0, Some ("/home/out.ps"%string, bytes_of_string "page end")) /\ apart e "in.pdf" "out.ps".
Proof.
  exists one_page, [1]. cbv zeta. split; [vm_compute; reflexivity|]. split; [reflexivity|]. split; [vm_compute; reflexivity|]. split; [intros [K|K]; discriminate K|]. split; [vm_compute; reflexivity|].
  right. intros path path' H H'. vm_compute in H. injection H as <-. vm_compute in H'. injection H' as <-. discriminate.
Qed.

(** ** C81: the document opened is the file named *)
(** characters that stand for themselves *)
Definition literal (s : string) : Prop := ~ In "%"%char (list_ascii_of_string s) /\ ~ In "#"%char (list_ascii_of_string s).
Lemma unescape_literal s : literal s -> unescape s = Some s.
Proof.
  induction s as [|c s IH]; intros [H1 H2]; [reflexivity|]. cbn [unescape]. cbn in H1, H2.
  destruct (Ascii.eqb_spec c "%") as [->|]; [destruct H1; left; reflexivity|]. destruct (Ascii.eqb_spec c "#") as [->|]; [destruct H2; left; reflexivity|].
  rewrite IH; [reflexivity|]. split; intros K; [apply H1|apply H2]; right; exact K.
Qed.
Lemma absolute_names cwd name path : names_file cwd name path -> absolute cwd name = Ok path.
Proof.
  unfold names_file, absolute. destruct name as [|c name]; [contradiction|]. destruct (Ascii.eqb c "/"); [intros ->; reflexivity|]. intros [dir [[->|[-> Hn]] ->]].
  - rewrite (proj2 (ends_with_spec (dir ++ "/") "/")) by (exists dir; reflexivity). f_equal. clear. induction dir as [|x dir IH]; [reflexivity|]. cbn [append]. rewrite IH. reflexivity.
  - destruct (string_ends_with dir "/") eqn:E; [destruct Hn; apply ends_with_spec in E; exact E|reflexivity].
Qed.
(** What is read is the file named (from the working directory), if there is no % and no # in
    its path and it is not the output file.  Missing: these characters. *)
Theorem C81_named_file_partial e i o path : i <> "-"%string -> names_file (e_cwd e) i path -> literal path -> path <> out_path e o ->
  open_document e i o = Ok (match e_file e path with Some b => e_doc e b | None => unopened end).
Proof.
  intros Hi Hn Hl Ho. unfold open_document. rewrite (proj2 (String.eqb_neq _ _) Hi), (absolute_names _ _ _ Hn). cbn [bind]. rewrite (unescape_literal _ Hl), (proj2 (String.eqb_neq _ _) Ho).
  destruct (e_room e (out_path e o)); reflexivity.
Qed.
(** Finding: the path is passed as a URI without escaping: another file is read if there is a %
    followed by two hexadecimal digits, none if there is a # or another %. *)
Theorem C81_other_file_refuted e o a b : ~ In "%"%char (list_ascii_of_string a) -> ~ In "#"%char (list_ascii_of_string a) -> literal b ->
  let name := (String "/" a ++ "%41" ++ b)%string in let other := (String "/" a ++ "A" ++ b)%string in other <> out_path e o ->
  open_document e name o = Ok (match e_file e other with Some b => e_doc e b | None => unopened end).
Proof.
  intros H1 H2 Hb name other Ho. unfold open_document. destruct (String.eqb_spec name "-") as [K|_]; [discriminate|].
  change (absolute (e_cwd e) name) with (@Ok string name). cbn [bind].
  assert (E : unescape name = Some other).
  { subst name other. change (String "/" a ++ ?x)%string with (String "/" (a ++ x)). cbn [append].
    cbn [unescape]. change (Ascii.eqb "/" "%") with false. change (Ascii.eqb "/" "#") with false. cbn iota.
    clear - H1 H2 Hb. assert (K : unescape (a ++ String "%" (String "4" (String "1" b))) = Some (a ++ String "A" b)%string).
    { induction a as [|c a IH]; cbn [append].
      - cbn [unescape]. change (Ascii.eqb "%" "%") with true. change (hex_value "4") with (Some 4). change (hex_value "1") with (Some 1). cbv beta iota zeta.
        change ((16 * 4 + 1 =? 0) || (16 * 4 + 1 =? 47)) with false. cbn iota. rewrite (unescape_literal b Hb). reflexivity.
      - cbn [unescape]. cbn in H1, H2. destruct (Ascii.eqb_spec c "%") as [->|]; [destruct H1; left; reflexivity|]. destruct (Ascii.eqb_spec c "#") as [->|]; [destruct H2; left; reflexivity|].
        rewrite IH; [reflexivity| |]; intros K; [apply H1|apply H2]; right; exact K. }
    rewrite K. reflexivity. }
  rewrite E, (proj2 (String.eqb_neq _ _) Ho). destruct (e_room e (out_path e o)); reflexivity.
Qed.
Theorem C81_no_file_refuted e name o : In "#"%char (list_ascii_of_string name) -> (exists s, name = String "/" s) -> exists r, open_document e name o = Ok r /\ r_pages r = None.
Proof.
  intros Hin [s ->]. exists unopened. split; [|reflexivity]. unfold open_document. destruct (String.eqb_spec (String "/" s) "-") as [K|_]; [discriminate|].
  change (absolute (e_cwd e) (String "/" s)) with (@Ok string (String "/" s)). cbn [bind].
  assert (E : forall t, In "#"%char (list_ascii_of_string t) -> unescape t = None).
  { clear. intros t. assert (G : forall n t, (String.length t <= n)%nat -> In "#"%char (list_ascii_of_string t) -> unescape t = None); [|apply (G (String.length t)); lia].
    clear t. induction n as [|n IH]; intros t Hl Ht; (destruct t as [|c t]; [destruct Ht|]); [cbn in Hl; lia|]. cbn [String.length] in Hl. cbn [unescape]. destruct (Ascii.eqb_spec c "%") as [->|].
    - destruct t as [|a [|b t]]; try reflexivity. cbn in Ht, Hl. destruct Ht as [Ht|[Ht|[Ht|Ht]]]; [discriminate Ht|..].
      + rewrite Ht. reflexivity.
      + rewrite Ht. destruct (hex_value a); reflexivity.
      + destruct (hex_value a), (hex_value b); try reflexivity. destruct ((16 * z + z0 =? 0) || (16 * z + z0 =? 47)); [reflexivity|]. rewrite (IH t); [reflexivity|lia|exact Ht].
    - destruct (Ascii.eqb_spec c "#") as [->|N]; [reflexivity|]. destruct Ht as [Ht|Ht]; [congruence|]. rewrite (IH t); [reflexivity|lia|exact Ht]. }
  rewrite (E _ Hin). reflexivity.
Qed.
Example C81_example : names_file "/home" "in.pdf" "/home/in.pdf" /\ literal "/home/in.pdf" /\ names_file "/" "in.pdf" "/in.pdf".
Proof.
  split; [cbn; exists "/home"%string; split; [right; split; [reflexivity|]|reflexivity]; intros [a K]|].
  { assert (string_ends_with "/home" "/" = true) by (apply ends_with_spec; exists a; exact K). discriminate. }
  split; [split; cbn; intuition discriminate|]. cbn. exists ""%string. split; [left; reflexivity|reflexivity].
Qed.

Definition pdf_words : list string := ["-f"; "urf"; "-r"; "600"; "-f"; "pwg"; "-ry"; "300"; "-c"; "gray8"; "-aa"; "-t"; "-p"; "1,3-5"; "--copies"; "2"; "--paper-size"; "na_letter_8.5x11in"]%string.
Definition pdf_words_read : list (string * string) :=
  [("--format", "urf"); ("--resolution", "600"); ("--format", "pwg"); ("--resolution-y", "300"); ("--color-mode", "gray8"); ("--antialias", ""); ("--tumble", ""); ("--pages", "1,3-5");
   ("--copies", "2"); ("--paper-size", "na_letter_8.5x11in")]%string.
Example C79_example : reads_as_options pdf_flags pdf_values pdf_words pdf_words_read /\ Forall (fun e => pdf_takes (fst e) (snd e)) pdf_words_read /\ present pdf_words_read "--help" = false
  /\ pdf_plain "in.pdf" /\ selectable pdf_words_read.
Proof.
  split.
  { unfold pdf_words, pdf_words_read. repeat first [apply options_flag; [cbn; tauto|]|apply options_value; [cbn; tauto|]]. apply options_none. }
  split.
  { assert (I600 : exists z, integer "600" z) by (exists 600; apply C24_values; vm_compute; reflexivity).
    assert (I300 : exists z, integer "300" z) by (exists 300; apply C24_values; vm_compute; reflexivity).
    assert (I2 : exists z, count "2" z) by (exists 2; apply C24_values; vm_compute; reflexivity).
    unfold pdf_words_read. repeat (apply Forall_cons; [cbn [fst snd]|]); [..|apply Forall_nil];
      (split; [|split; [|split; [|split; [|split; [|split]]]]]); intros E; try discriminate E; try exact I600; try exact I300; try exact I2;
      try (repeat destruct E as [E|E]; try discriminate E; destruct E; fail); apply existsb_name; vm_compute; reflexivity. }
  split; [reflexivity|]. split; [split; cbn; intuition discriminate|]. split.
  - intros t Et. change (asked pdf_words_read "--pages") with (Some "1,3-5"%string) in Et. injection Et as <-.
    pose proof (C16_exact_grammar_partial default_params "1,3-5") as G. destruct (setPageRange default_params "1,3-5") as [[[|] p]|x| | |] eqn:E; try (vm_compute in E; discriminate).
    exists (p_pageRanges p). apply G.
  - intros t Et. change (asked pdf_words_read "--paper-size") with (Some "na_letter_8.5x11in"%string) in Et. injection Et as <-.
    exists (8, 5, 1%nat), (11, 0, 0%nat), true, "8.5"%string, "11"%string.
    destruct C20_example as [p (_ & _ & _ & _ & _ & H1 & H2 & H3)]. split; [exact H1|]. split; (split; [assumption|repeat split; lia]).
Qed.
Example C79_example_result : exists p, pdf_asks pdf_words_read "out" p /\ p_format p = PWG /\ p_hwResW p = 600 /\ p_hwResH p = 300 /\ p_copies p = 2 /\ p_pageRanges p = [(1, 1); (3, 5)]
  /\ p_colorMode p = Gray8 /\ p_duplexMode p = TwoSidedShortEdge /\ p_units p = Inches.
Proof.
  destruct C79_example as [H1 [H2 [_ [H3 H4]]]]. destruct (pdf_get_args pdf_words pdf_words_read "in.pdf" "out" H1 H2 H3) as [st [E [_ [V R]]]].
  destruct (params_asked pdf_words_read st "out" R V H4) as [p [A [[[_ N] K]|[_ K]]]].
  - vm_compute in E. injection E as <-. vm_compute in K. discriminate.
  - exists p. split; [exact A|]. vm_compute in E. injection E as <-. vm_compute in K. injection K as <-. repeat split.
Qed.
Example C79_bad_example : ~ pdf_takes "--color-mode" "color" /\ ~ pdf_takes "--copies" "many".
Proof.
  split; intros (_ & _ & _ & _ & T5 & T6 & _).
  - specialize (T5 eq_refl). cbn in T5. intuition discriminate.
  - destruct (T6 eq_refl) as [z Hz]. unfold count in Hz. apply C24_values in Hz. vm_compute in Hz. discriminate.
Qed.
Example C79_urf_example : forall e, pdf2printable_cmd e ["-c"; "black8"; "in.pdf"; "out.urf"]%string = Ok (1, None) /\ pdf2printable_cmd e ["-mt"; "papyrus"; "in.pdf"; "out.urf"]%string = Ok (1, None).
Proof. intros e. split; vm_compute; reflexivity. Qed.
Example C79_malformed_example : (forall l, ~ page_list "3-1" l) /\ small_numbers "3-1" /\ forall w h inches, ~ size_name "letter" w h inches.
Proof.
  split; [|split].
  - intros l Hl. destruct (C16_accepts_grammar default_params "3-1" l Hl) as [p [E _]]. vm_compute in E. discriminate.
  - intros a d b n E Hd. assert (L : (String.length d <= 3)%nat).
    { assert (A : forall x y, String.length (x ++ y) = (String.length x + String.length y)%nat) by (intros x y; induction x as [|c x IH]; [reflexivity|cbn; rewrite IH; reflexivity]).
      apply (f_equal String.length) in E. rewrite !A in E. change (String.length "3-1") with 3%nat in E. lia. }
    clear - L Hd. unfold ParamsSpec.digits_of in Hd. assert (B : n < 10 ^ Z.of_nat (length (bytes_of_string d))).
    { generalize dependent (bytes_of_string d). clear. induction 1 as [k Hk|l v k Hl IH Hk]; [cbn; lia|]. rewrite app_length, Nat2Z.inj_add, Z.pow_add_r by lia. cbn [length]. change (10 ^ Z.of_nat 1) with 10. lia. }
    assert (Z.of_nat (length (bytes_of_string d)) <= 3) by (assert (A : length (bytes_of_string d) = String.length d) by (clear; induction d as [|c d IH]; [reflexivity|cbn; rewrite <- IH; reflexivity]); rewrite A; lia).
    pose proof (Z.pow_le_mono_r 10 _ 3 ltac:(lia) H). lia.
  - intros w h inches H. pose proof (C20_accepts_exactly_partial default_params "letter") as G. vm_compute in G. destruct G as [_ G]. apply (G w h inches H).
Qed.

Print Assumptions C79_options.
Print Assumptions C79_bad_value.
Print Assumptions C79_help.
Print Assumptions C79_malformed_partial.
Print Assumptions C79_exception_refuted.
Print Assumptions C80_complete_partial.
Print Assumptions C80_exit_ignores_output.
Print Assumptions C80_exit_refuted.
Print Assumptions C80_same_file_refuted.
Print Assumptions C81_named_file_partial.
Print Assumptions C81_other_file_refuted.
Print Assumptions C81_no_file_refuted.
