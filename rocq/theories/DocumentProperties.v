(** C116: what the help text of pdf2printable says of the options from --resolution on: they
    only affect raster output formats (pdf2printable_main.cpp:13). *)
From Verif Require Import Base BaseLemmas StringModel StringSpec FloatModel ParamsModel ParamsSpec HeaderModel RenderModel ArgModel ArgSpec ArgProperties
  IppEncProofs PpmCmdSpec PpmCmdProperties OptionProofs ParamsProperties PdfCmdModel PdfCmdSpec PdfCmdProperties.
From Coq Require Import Lia.
Local Open Scope Z_scope.

(** ** Specification *)
(** the options before --resolution that are not about what is shown *)
Definition document_options : list string := ["--format"; "--pages"; "--copies"; "--paper-size"]%string.
Definition same_document_options (rs rs' : list (string * string)) : Prop := forall name, In name document_options -> asked rs name = asked rs' name.
(** PDF or Postscript is asked for *)
Definition document_format (rs : list (string * string)) (o : string) : Prop :=
  forall f, match asked rs "--format" with None => name_format o f | Some t => In (t, f) pdf_formats end -> f = PDF \/ f = Postscript.
Definition two_sided (rs : list (string * string)) : Prop := present rs "--duplex" = true \/ present rs "--tumble" = true.
Definition single_copy (rs : list (string * string)) : Prop := forall t, asked rs "--copies" = Some t -> forall z, count t z -> z <= 1.

(** ** Proof *)
Definition alike (p p' : params) : Prop :=
  p_format p = p_format p' /\ p_units p = p_units p' /\ p_sizeW p = p_sizeW p' /\ p_sizeH p = p_sizeH p' /\ p_pageRanges p = p_pageRanges p' /\ p_copies p = p_copies p' /\ p_collated p = p_collated p'.
Definition documents (p : params) : Prop := (p_format p = PDF \/ p_format p = Postscript) /\ p_units p <> Pixels.
Lemma scale_alike p p' w h : alike p p' -> documents p -> fixup_scale w h p = fixup_scale w h p'.
Proof.
  intros (F & U & W & H & _) (D & N). unfold fixup_scale, is_raster, out_size. rewrite <- F, <- U, <- W, <- H. destruct D as [-> | ->]; cbn [andb]; unfold sizeInPoints; destruct (p_units p); try congruence; reflexivity.
Qed.
Lemma pages_alike r wr p p' total : alike p p' -> documents p -> forall seq n bmp out seen, print_pages r wr p total seq n bmp out seen = print_pages r wr p' total seq n bmp out seen.
Proof.
  intros A D. assert (R : is_raster p = false /\ is_raster p' = false). { unfold is_raster. destruct A as (F & _). rewrite <- F. destruct D as [[-> | ->] _]; split; reflexivity. }
  induction seq as [|x seq IH]; intros n bmp out seen; cbn [print_pages]; [reflexivity|]. destruct R as [R R']. rewrite R, R'.
  destruct (x =? INVALID_PAGE); cbn [bind].
  - destruct (r_draw r (n + 1) None); [|reflexivity]. destruct (wr _ _); [apply IH|reflexivity].
  - destruct (r_size r x) as [w h]. rewrite (scale_alike p p' w h A D). destruct (fixup_scale w h p'); cbn [bind]; try reflexivity. destruct (r_draw r (n + 1) _); [|reflexivity]. destruct (wr _ _); [apply IH|reflexivity].
Qed.
Lemma sequence_alike p p' pages : alike p p' -> isTwoSided p = isTwoSided p' \/ p_copies p <= 1 -> getPageSequence p pages = getPageSequence p' pages.
Proof.
  intros (_ & _ & _ & _ & R & C & L) T. unfold getPageSequence. rewrite <- R, <- C, <- L. destruct (select_pages _ _); cbn [bind]; try reflexivity.
  destruct T as [T|T]; [rewrite T; reflexivity|]. destruct (Z.gtb_spec (p_copies p) 1); [lia|reflexivity].
Qed.
Lemma conversion_alike r wr p p' : alike p p' -> documents p -> isTwoSided p = isTwoSided p' \/ p_copies p <= 1 -> pdf_to_printable r wr p = pdf_to_printable r wr p'.
Proof.
  intros A D T. unfold pdf_to_printable. assert (R : is_raster p = false /\ is_raster p' = false). { unfold is_raster. destruct A as (F & _). rewrite <- F. destruct D as [[-> | ->] _]; split; reflexivity. }
  destruct R as [R R']. rewrite R, R'. pose proof A as (F & _). rewrite <- F. replace (match p_format p with URF => negb (p_hwResW p =? p_hwResH p) | _ => false end) with false by (destruct D as [[-> | ->] _]; reflexivity).
  replace (match p_format p with URF => negb (p_hwResW p' =? p_hwResH p') | _ => false end) with false by (destruct D as [[-> | ->] _]; reflexivity).
  destruct (r_pages r) as [pages|]; [|reflexivity]. rewrite (sequence_alike p p' pages A T). destruct (getPageSequence p' pages); cbn [bind]; try reflexivity. rewrite (pages_alike r wr p p' _ A D). reflexivity.
Qed.
Definition both {A B} (R : A -> B -> Prop) (x : outcome A) (y : outcome B) : Prop :=
  match x, y with Ok a, Ok b => R a b | Throw e, Throw e' => e = e' | UB, UB | Hang, Hang | NoFuel, NoFuel => True | _, _ => False end.
Lemma both_bind {A B A' B'} (R : A -> B -> Prop) (S : A' -> B' -> Prop) x y f g : both R x y -> (forall a b, R a b -> both S (f a) (g b)) -> both S (bind x f) (bind y g).
Proof. intros H K. destruct x, y; cbn [bind]; try contradiction; try exact H. apply K. exact H. Qed.
(** the same value of an option is read in the same way *)
Lemma read_same rs rs' st st' n : pdf_read rs st -> pdf_read rs' st' -> (n < 17)%nat -> sw_id (pdf_switch n) = n -> asked rs (long_name (pdf_switch n)) = asked rs' (long_name (pdf_switch n)) ->
  a_val st n = a_val st' n /\ a_set st n = a_set st' n.
Proof.
  intros R R' L Hi E. pose proof (R _ (pdf_switch_in n L)) as K. pose proof (R' _ (pdf_switch_in n L)) as K'. unfold option_read in *. rewrite Hi in *. rewrite <- E in K'.
  destruct (asked rs (long_name (pdf_switch n))) as [t|]; destruct K as [K1 K2]; destruct K' as [K1' K2']; [|rewrite K1, K1', K2, K2'; split; reflexivity].
  rewrite K2, K2'. split; [|reflexivity]. unfold suits in K1, K1'. destruct (sw_kind (pdf_switch n)) eqn:Kd; [congruence|..]; apply C24_values in K1; apply C24_values in K1'; congruence.
Qed.
Lemma params_alike rs rs' st st' o : pdf_read rs st -> pdf_read rs' st' -> a_val st 18 = AStr o -> a_val st' 18 = AStr o -> same_document_options rs rs' -> document_format rs o ->
  both (fun x y => match x, y with
  | Some p, Some p' => alike p p' /\ documents p /\ (isTwoSided p = true <-> two_sided rs) /\ (isTwoSided p' = true <-> two_sided rs') /\ p_copies p = as_int (a_val st 4)
  | None, None => True | _, _ => False end) (pdf_params st) (pdf_params st').
Proof.
  intros R R' V V' S D.
  destruct (read_same rs rs' st st' 2 R R' (proj1 (Nat.ltb_lt 2 17) eq_refl) eq_refl (S "--format"%string (or_introl eq_refl))) as [A2 B2].
  destruct (read_same rs rs' st st' 3 R R' (proj1 (Nat.ltb_lt 3 17) eq_refl) eq_refl (S "--pages"%string (or_intror (or_introl eq_refl)))) as [A3 B3].
  destruct (read_same rs rs' st st' 4 R R' (proj1 (Nat.ltb_lt 4 17) eq_refl) eq_refl (S "--copies"%string (or_intror (or_intror (or_introl eq_refl))))) as [A4 B4].
  destruct (read_same rs rs' st st' 5 R R' (proj1 (Nat.ltb_lt 5 17) eq_refl) eq_refl (S "--paper-size"%string (or_intror (or_intror (or_intror (or_introl eq_refl)))))) as [A5 B5].
  pose proof (D _ (parsed_format rs st o R V)) as F.
  assert (F' : p_format (parsed_params st') = p_format (parsed_params st)) by (cbn [parsed_params p_format]; rewrite A2, B2, V, V'; reflexivity).
  assert (C' : p_copies (parsed_params st') = p_copies (parsed_params st)) by (cbn [parsed_params p_copies]; rewrite A4; reflexivity).
  assert (A0 : alike (parsed_params st) (parsed_params st')) by (unfold alike; rewrite F', C'; repeat split).
  assert (Tw : forall rs st p, pdf_read rs st -> p_duplexMode p = OneSided -> isTwoSided (resolved st p) = true <-> two_sided rs).
  { clear. intros rs st p R H. unfold isTwoSided, resolved, two_sided. cbn [with_sides p_duplexMode]. cbv zeta. rewrite H.
    rewrite (read_flag rs st 10 R (proj1 (Nat.ltb_lt 10 17) eq_refl) eq_refl eq_refl eq_refl), (read_flag rs st 9 R (proj1 (Nat.ltb_lt 9 17) eq_refl) eq_refl eq_refl eq_refl).
    change (long_name (pdf_switch 10)) with "--tumble"%string. change (long_name (pdf_switch 9)) with "--duplex"%string. destruct (present rs "--tumble"), (present rs "--duplex"); cbn; intuition discriminate. }
  unfold pdf_params. cbv zeta. rewrite <- A3, <- B3, <- A5, <- B5.
  assert (P : both (fun x y => let '(ok, p) := x in let '(ok', p') := y in ok = ok' /\ alike p p' /\ p_format p = p_format (parsed_params st) /\ p_units p = Millimeters /\ p_duplexMode p = OneSided /\ p_duplexMode p' = OneSided /\ p_copies p = as_int (a_val st 4))
    (if a_set st 3%nat then setPageRange (parsed_params st) (as_str (a_val st 3%nat)) else Ok (true, parsed_params st))
    (if a_set st 3%nat then setPageRange (parsed_params st') (as_str (a_val st 3%nat)) else Ok (true, parsed_params st'))).
  { destruct (a_set st 3%nat).
    - unfold setPageRange. destruct (parsePageRange _) as [l|x| | |]; cbn [bind both]; try reflexivity; try exact I. split; [reflexivity|].
      destruct A0 as (Z1 & Z2 & Z3 & Z4 & Z5 & Z6 & Z7). split; [unfold alike; cbn [p_format p_units p_sizeW p_sizeH p_pageRanges p_copies p_collated]; repeat split; assumption|]. repeat split; reflexivity.
    - split; [reflexivity|]. split; [exact A0|]. repeat split; reflexivity. }
  refine (both_bind _ _ _ _ _ _ P _). clear P. intros [ok p1] [ok' p1'] P. destruct P as (<- & A1 & G1 & G2 & G3 & G4 & G5).
  destruct ok; cbn [negb]; [|exact I].
  assert (Q : both (fun x y => let '(ok, p) := x in let '(ok', p') := y in ok = ok' /\ alike p p' /\ p_format p = p_format (parsed_params st) /\ p_units p <> Pixels /\ p_duplexMode p = OneSided /\ p_duplexMode p' = OneSided /\ p_copies p = as_int (a_val st 4))
    (if a_set st 5%nat then setPaperSize p1 (as_str (a_val st 5%nat)) else Ok (true, p1))
    (if a_set st 5%nat then setPaperSize p1' (as_str (a_val st 5%nat)) else Ok (true, p1'))).
  { destruct (a_set st 5%nat).
    - unfold setPaperSize. destruct (match_paper_size _) as [[[w h] u]|].
      + destruct (from_string w) as [fw|x| | |]; cbn [bind]; try reflexivity; try exact I. destruct (from_string h) as [fh|x| | |]; cbn [bind]; try reflexivity; try exact I. split; [reflexivity|].
        destruct A1 as (Z1 & Z2 & Z3 & Z4 & Z5 & Z6 & Z7). split; [unfold alike; cbn [with_paper p_format p_units p_sizeW p_sizeH p_pageRanges p_copies p_collated]; repeat split; assumption|].
        split; [exact G1|]. split; [cbn; destruct (String.eqb u "in"); discriminate|]. split; [exact G3|]. split; [exact G4|exact G5].
      + split; [reflexivity|]. split; [exact A1|]. split; [exact G1|]. split; [rewrite G2; discriminate|]. split; [exact G3|]. split; [exact G4|exact G5].
    - split; [reflexivity|]. split; [exact A1|]. split; [exact G1|]. split; [rewrite G2; discriminate|]. split; [exact G3|]. split; [exact G4|exact G5]. }
  refine (both_bind _ _ _ _ _ _ Q _). clear Q. intros [ok p2] [ok' p2'] Q. destruct Q as (<- & A6 & H1 & H2 & H3 & H4 & H5).
  destruct ok; cbn [negb]; [|exact I]. pose proof A6 as (Z1 & Z2 & Z3 & Z4 & Z5 & Z6 & Z7). unfold urf_refuses. change (p_format (resolved st p2)) with (p_format p2). change (p_format (resolved st' p2')) with (p_format p2'). rewrite <- Z1, H1.
  assert (X : alike (resolved st p2) (resolved st' p2') /\ documents (resolved st p2) /\ (isTwoSided (resolved st p2) = true <-> two_sided rs) /\ (isTwoSided (resolved st' p2') = true <-> two_sided rs') /\ p_copies (resolved st p2) = as_int (a_val st 4)).
  { split; [unfold alike; cbn [resolved with_sides p_format p_units p_sizeW p_sizeH p_pageRanges p_copies p_collated]; repeat split; assumption|].
    split; [split; [cbn [resolved with_sides p_format]; rewrite H1; exact F|exact H2]|]. split; [apply Tw; assumption|]. split; [apply Tw; assumption|exact H5]. }
  destruct F as [-> | ->]; exact X.
Qed.
(** The options from --resolution on make no difference to PDF and Postscript: exit code, file
    and its content.  Missing: two-sided printing of several copies (below).  The resolution is
    also the one with which cairo draws what the format has no means for
    (cairo_surface_set_fallback_resolution, pdf2printable.cpp:144); the bytes that cairo
    delivers are taken not to depend on it. *)
Theorem C116_documents_partial e sw rs sw' rs' i o : reads_as_options pdf_flags pdf_values sw rs -> reads_as_options pdf_flags pdf_values sw' rs' ->
  Forall (fun e => pdf_takes (fst e) (snd e)) rs -> Forall (fun e => pdf_takes (fst e) (snd e)) rs' -> present rs "--help" = present rs' "--help" -> pdf_plain i ->
  same_document_options rs rs' -> document_format rs o -> (two_sided rs <-> two_sided rs') \/ single_copy rs ->
  pdf2printable_cmd e (sw ++ [i; o]) = pdf2printable_cmd e (sw' ++ [i; o]).
Proof.
  intros Hr Hr' Ht Ht' Hh Hi S D T. destruct (pdf_get_args sw rs i o Hr Ht Hi) as [st [E [V1 [V2 R]]]]. destruct (pdf_get_args sw' rs' i o Hr' Ht' Hi) as [st' [E' [V1' [V2' R']]]].
  unfold pdf2printable_cmd. rewrite E, E'. cbn [bind negb]. rewrite (read_flag rs st 0 R (proj1 (Nat.ltb_lt 0 17) eq_refl) eq_refl eq_refl eq_refl), (read_flag rs' st' 0 R' (proj1 (Nat.ltb_lt 0 17) eq_refl) eq_refl eq_refl eq_refl).
  change (long_name (pdf_switch 0)) with "--help"%string. rewrite <- Hh. destruct (present rs "--help"); [reflexivity|].
  pose proof (params_alike rs rs' st st' o R R' V2 V2' S D) as P. unfold both in P. destruct (pdf_params st) as [[p|]|x| | |], (pdf_params st') as [[p'|]|x'| | |]; cbn [bind]; try contradiction; try reflexivity; [|congruence].
  destruct P as (A & Dp & T1 & T2 & C). rewrite V1, V2, V1', V2'. cbn [as_str].
  assert (K : isTwoSided p = isTwoSided p' \/ p_copies p <= 1).
  { destruct T as [T|T].
    - left. destruct (isTwoSided p), (isTwoSided p'); try reflexivity; exfalso; [enough (false = true) by discriminate; apply T2, T, T1; reflexivity|enough (false = true) by discriminate; apply T1, T, T2; reflexivity].
    - right. rewrite C. pose proof (R _ (pdf_switch_in 4 (proj1 (Nat.ltb_lt 4 17) eq_refl))) as K. unfold option_read in K. change (long_name (pdf_switch 4)) with "--copies"%string in K. change (sw_id (pdf_switch 4)) with 4%nat in K.
      destruct (asked rs "--copies") as [t|] eqn:Ea; [|destruct K as [-> _]; cbn; lia]. destruct K as [K _]. change (value_text KULong t (a_val st 4)) in K. apply (T t Ea). unfold count.
      pose proof K as K'. apply C24_values in K'. destruct (a_val st 4) as [b|z|s]; [|exact K|]; cbn in K'; destruct (stoul t); discriminate. }
  unfold convert_file. pose proof A as (F & _). rewrite <- F.
  replace (match p_format p with URF => negb (p_hwResW p =? p_hwResH p) | _ => false end) with false by (destruct Dp as [[-> | ->] _]; reflexivity).
  replace (match p_format p with URF => negb (p_hwResW p' =? p_hwResH p') | _ => false end) with false by (destruct Dp as [[-> | ->] _]; reflexivity).
  destruct (open_document e i o); cbn [bind]; try reflexivity. rewrite (conversion_alike _ _ p p' A Dp K). reflexivity.
Qed.
Print Assumptions C116_documents_partial.
(** Finding: with several copies of an odd number of pages, --duplex puts blank pages into a
    PDF or Postscript file. *)
Theorem C116_options_refuted : let e := example_env (fun _ => Some 100) in
  pdf2printable_cmd e ["--copies"; "2"; "in.pdf"; "out.ps"]%string = Ok (0, Some ("/home/out.ps"%string, bytes_of_string "page page end"))
  /\ exists out, pdf2printable_cmd e ["--copies"; "2"; "-d"; "in.pdf"; "out.ps"]%string = Ok (0, Some ("/home/out.ps"%string, out)) /\ out <> bytes_of_string "page page end".
Proof. cbv zeta. split; [vm_compute; reflexivity|]. eexists. split; [vm_compute; reflexivity|discriminate]. Qed.
Print Assumptions C116_options_refuted.
(** a resolution, colours and two sides, for one copy of a document for Postscript *)
Example C116_example :
  let rs := [("--pages", "1-"); ("--resolution", "600"); ("--color-mode", "gray8"); ("--duplex", "")]%string in let rs' := [("--pages", "1-")]%string in
  reads_as_options pdf_flags pdf_values ["-p"; "1-"; "-r"; "600"; "-c"; "gray8"; "-d"]%string rs /\ reads_as_options pdf_flags pdf_values ["--pages"; "1-"]%string rs'
  /\ same_document_options rs rs' /\ document_format rs "out.ps" /\ single_copy rs /\ two_sided rs /\ ~ two_sided rs'
  /\ pdf2printable_cmd (example_env (fun _ => Some 100)) ["-p"; "1-"; "-r"; "600"; "-c"; "gray8"; "-d"; "in.pdf"; "out.ps"]%string = Ok (0, Some ("/home/out.ps"%string, bytes_of_string "page end")).
Proof.
  cbv zeta. split; [repeat first [apply options_none|refine (options_value _ _ _ _ _ _ _ _ _); [cbn; tauto|]|refine (options_flag _ _ _ _ _ _ _ _); [cbn; tauto|]]|].
  split; [repeat first [apply options_none|refine (options_value _ _ _ _ _ _ _ _ _); [cbn; tauto|]]|].
  split; [intros n Hn; repeat destruct Hn as [<-|Hn]; try contradiction; reflexivity|].
  split. { intros f [[_ ->]|[[[a K] _]|[[[a K] _]|(K & _)]]]; [right; reflexivity|exfalso|exfalso|exfalso; apply K; exists "out"%string; reflexivity].
    all: do 7 (destruct a as [|? a]; try discriminate K). }
  split; [intros t K; discriminate K|]. split; [left; reflexivity|]. split; [intros [K|K]; discriminate K|]. vm_compute. reflexivity.
Qed.
