(** C32: which IPP attribute a setting is (SettingModel.v). *)
From Verif Require Import Base BaseLemmas MapModel MapProofs StringModel IppModel SettingModel SettingProperties.
Local Open Scope Z_scope.

(** An attribute of the given name, syntax (RFC 8010, 3.5.2) and value, and one that is a
    member of media-col (PWG 5100.7). *)
Definition plain (m : ipp_attrs) (name : string) (syntax : Z) (v : ipp_value) : Prop := map_get name m = Some (syntax, v).
Definition member (m : ipp_attrs) (name : string) (syntax : Z) (v : ipp_value) : Prop := exists col, map_get "media-col" m = Some (52, VColl col) /\ plain col name syntax v.
Lemma set_plain s v m m' : s_sub s = ""%string -> wf_job m -> setting_set s v m = Ok m' -> plain m' (s_name s) (s_tag s) v.
Proof. intros S [K _] H. unfold setting_set in H. rewrite S in H. injection H as <-. unfold plain. rewrite map_get_set by exact K. rewrite String.eqb_refl. reflexivity. Qed.
Lemma set_member s v m m' : s_sub s = "media-col"%string -> wf_job m -> setting_set s v m = Ok m' -> member m' (s_name s) (s_tag s) v.
Proof.
  intros S [K C] H. unfold setting_set, sub_coll in H. rewrite S in H. cbn [String.eqb Ascii.eqb Bool.eqb] in H. destruct (map_get "media-col" m) as [a|] eqn:E.
  - destruct (C a eq_refl) as (c & -> & KC & _). cbn [snd get_coll bind] in H. injection H as <-. eexists. unfold plain. rewrite map_get_set by exact K. rewrite String.eqb_refl. split; [reflexivity|]. rewrite map_get_set by exact KC. rewrite String.eqb_refl. reflexivity.
  - cbn [bind] in H. injection H as <-. eexists. unfold plain. rewrite map_get_set by exact K. rewrite String.eqb_refl. split; [reflexivity|]. cbn. rewrite ?String.eqb_refl, ?compare_refl. reflexivity.
Qed.
(** Setting a value puts it where IPP wants it, with the syntax IPP gives it. *)
Theorem C32_places v m m' : wf_job m ->
  (setting_set s_sides v m = Ok m' -> plain m' "sides" 68 v) /\
  (setting_set s_media v m = Ok m' -> plain m' "media" 68 v) /\
  (setting_set s_copies v m = Ok m' -> plain m' "copies" 33 v) /\
  (setting_set s_multipleDocumentHandling v m = Ok m' -> plain m' "multiple-document-handling" 68 v) /\
  (setting_set s_pageRanges v m = Ok m' -> plain m' "page-ranges" 51 v) /\
  (setting_set s_numberUp v m = Ok m' -> plain m' "number-up" 33 v) /\
  (setting_set s_colorMode v m = Ok m' -> plain m' "print-color-mode" 68 v) /\
  (setting_set s_printQuality v m = Ok m' -> plain m' "print-quality" 35 v) /\
  (setting_set s_resolution v m = Ok m' -> plain m' "printer-resolution" 50 v) /\
  (setting_set s_scaling v m = Ok m' -> plain m' "print-scaling" 68 v) /\
  (setting_set s_outputBin v m = Ok m' -> plain m' "output-bin" 68 v) /\
  (setting_set s_finishings v m = Ok m' -> plain m' "finishings" 35 v) /\
  (setting_set s_documentFormat v m = Ok m' -> plain m' "document-format" 73 v) /\
  (setting_set s_compression v m = Ok m' -> plain m' "compression" 68 v) /\
  (setting_set s_mediaType v m = Ok m' -> member m' "media-type" 68 v) /\
  (setting_set s_mediaSource v m = Ok m' -> member m' "media-source" 68 v) /\
  (setting_set s_topMargin v m = Ok m' -> member m' "media-top-margin" 33 v) /\
  (setting_set s_bottomMargin v m = Ok m' -> member m' "media-bottom-margin" 33 v) /\
  (setting_set s_leftMargin v m = Ok m' -> member m' "media-left-margin" 33 v) /\
  (setting_set s_rightMargin v m = Ok m' -> member m' "media-right-margin" 33 v).
Proof.
  intros W. repeat match goal with |- _ /\ _ => split end; intros H; first [eapply set_plain in H; [exact H|reflexivity|exact W]|eapply set_member in H; [exact H|reflexivity|exact W]].
Qed.
Example C32_places_example : wf_job [] /\ exists m', setting_set s_mediaType (VStr "stationery") [] = Ok m' /\ member m' "media-type" 68 (VStr "stationery").
Proof.
  split; [split; [exact I|discriminate]|]. eexists. split; [reflexivity|]. eexists. split; reflexivity.
Qed.

Print Assumptions C32_places.
