(** C86: the classes of formats and their file name extensions. *)
From Verif Require Import Base BaseLemmas MapModel StringModel StringSpec StringProofs StringProperties FloatModel ParamsModel IppModel SettingModel ConverterModel ConverterProperties MimeProperties JobModel JobProperties PrinterModel PrinterSpec PrinterProperties.
From Coq Require Import Lia.
Local Open Scope Z_scope.

(** ** Specification *)
Inductive class := Document | Raster | Picture.
(** the formats the program knows about: class and extension *)
Definition formats : list (string * class * string) :=
  [ ("application/pdf", Document, ".pdf"); ("application/postscript", Document, ".ps"); ("image/pwg-raster", Raster, ".pwg"); ("image/urf", Raster, ".urf");
    ("image/png", Picture, ".png"); ("image/gif", Picture, ".gif"); ("image/jpeg", Picture, ".jpg"); ("image/tiff", Picture, ".tiff") ]%string.

Ltac rows H := unfold formats in H; cbn [In] in H; repeat (destruct H as [H|H]; [try discriminate H; inversion H; subst; clear H|]); [..|destruct H].
Ltac row := unfold formats; cbn [In]; repeat (first [left; reflexivity|right]).

(** ** Theorems *)
Theorem C86_extension t e : defaultExtension t = Ok e <-> exists c, In (t, c, e) formats.
Proof.
  split.
  - unfold defaultExtension. destruct (map_get t extensions) as [y|] eqn:G; [|discriminate]. intros H. injection H as ->.
    assert (M : forall (m : list (string * string)) y, map_get t m = Some y -> In (t, y) m).
    { induction m as [|[k v] m IH]; intros y H; [discriminate|]. cbn [map_get] in H. destruct (String.eqb_spec t k) as [Q|N]; [left; congruence|right; apply IH; exact H]. }
    apply M in G. cbn in G. repeat (destruct G as [G|G]; [injection G as <- <-; eexists; row|]). destruct G.
  - intros [c H]. rows H; reflexivity.
Qed.
(** Any other name raises out_of_range. *)
Theorem C86_no_extension t : (forall c e, ~ In (t, c, e) formats) -> defaultExtension t = Throw OutOfRange.
Proof.
  intros H. destruct (defaultExtension t) as [e|x| | |] eqn:E; unfold defaultExtension in E; destruct (map_get t extensions) as [y|] eqn:G; try discriminate; try congruence.
  exfalso. assert (X : defaultExtension t = Ok y) by (unfold defaultExtension; rewrite G; reflexivity). apply C86_extension in X. destruct X as [c X]. exact (H _ _ X).
Qed.
Theorem C86_classes t :
  (isKnownImageFormat t = true <-> exists e, In (t, Picture, e) formats) /\
  (isPrinterRaster t = true <-> exists e, In (t, Raster, e) formats) /\
  (isMultiPage t = true <-> exists c e, In (t, c, e) formats /\ c <> Picture).
Proof.
  split; [|split].
  - unfold isKnownImageFormat. rewrite contains_in. split; [|intros [e H]; rows H; unfold mPNG, mGIF, mJPEG, mTIFF; cbn; auto 9].
    intros H. cbn in H. repeat (destruct H as [<-|H]; [eexists; row|]). destruct H.
  - unfold isPrinterRaster. rewrite orb_true_iff, !String.eqb_eq. split; [|intros [e H]; rows H; auto].
    intros [->| ->]; eexists; row.
  - unfold isMultiPage. rewrite contains_in. split; [|intros [c [e [H N]]]; rows H; unfold mPDF, mPostscript, mPWG, mURF; cbn; auto 9; congruence].
    intros H. cbn in H. repeat (destruct H as [<-|H]; [eexists; eexists; split; [row|discriminate]|]). destruct H.
Qed.
(** The pictures known are among the images (isImage); printers' rasters are not images. *)
Theorem C86_images t : isKnownImageFormat t = true <-> isImage t = true /\ exists e, defaultExtension t = Ok e.
Proof.
  split.
  - intros H. apply C86_classes in H. destruct H as [e H]. split; [rows H; reflexivity|]. exists e. apply C86_extension. eauto.
  - intros [H [e E]]. apply C86_extension in E. destruct E as [c E]. rows E; try discriminate H; reflexivity.
Qed.
(** What a document of several pages can be converted to has several pages, and the other
    way round. *)
Theorem C86_pages t : isMultiPage t = true <-> In ("application/pdf"%string, t) steps.
Proof.
  unfold isMultiPage. rewrite contains_in. unfold steps. cbn [In]. split.
  - intros [<-|[<-|[<-|[<-|[]]]]]; auto 9.
  - intros H. repeat (destruct H as [H|H]; [try discriminate H; injection H as <-; auto 9|]). destruct H.
Qed.
(** No two formats have the same extension: the name of a file tells its format. *)
Theorem C86_injective t t' e : defaultExtension t = Ok e -> defaultExtension t' = Ok e -> t = t'.
Proof. intros H H'. apply C86_extension in H, H'. destruct H as [c H], H' as [c' H']. rows H; rows H'; try reflexivity; discriminate. Qed.
(** Every file of a detected format has an extension, all but the unknown and empty ones. *)
Theorem C86_detected file t : ~ half_tiff file -> getMimeType file = t -> t <> ""%string -> t <> "application/octet-stream"%string -> exists e, defaultExtension t = Ok e.
Proof.
  intros Hh H N1 N2. apply (C56_detected_partial file t Hh) in H. destruct H as [[_ H]|[[sig [H _]]|[_ [_ H]]]]; [contradiction| |contradiction].
  unfold signatures in H. repeat (destruct H as [H|H]; [injection H as <- <-; eexists; reflexivity|]). destruct H.
Qed.
(** Jobs that end with text cannot be printed to a file: there is no extension for it. *)
Theorem C86_text_refuted : forall w p id job inFile fmt pages j ops, file_printer (pr_addr p) -> int_list "operations-supported" (pr_attrs p) = Ok ops ->
  finalize (copy_job job) fmt pages = Ok (None, j) -> j_target j = "text/plain"%string ->
  exists e, run_job w p id job inFile fmt pages = ([], Ok (Some e)).
Proof.
  intros w p id job inFile fmt pages j ops Hf Ho Hfin Ht. unfold run_job, run_job_body. rewrite ebind_pure, Ho, ebind_pure, Hfin.
  destruct (getConvertFun fmt (j_target j)) as [conv|]; [|eexists; reflexivity]. apply starts_with_spec in Hf. rewrite Hf. unfold do_print_to_file. rewrite ebind_pure, Ht. eexists. reflexivity.
Qed.
Example C86_example : defaultExtension "image/urf" = Ok ".urf"%string /\ isMultiPage "image/urf" = true /\ isImage "image/urf" = false /\ isKnownImageFormat "image/webp" = false /\ isImage "image/webp" = true /\
  defaultExtension "image/webp" = Throw OutOfRange /\ (forall c e, ~ In ("image/webp"%string, c, e) formats).
Proof. repeat split; try reflexivity. intros c e H. unfold formats in H. repeat (destruct H as [H|H]; [discriminate|]). destruct H. Qed.

Print Assumptions C86_extension.
Print Assumptions C86_no_extension.
Print Assumptions C86_classes.
Print Assumptions C86_images.
Print Assumptions C86_pages.
Print Assumptions C86_injective.
Print Assumptions C86_detected.
Print Assumptions C86_text_refuted.
