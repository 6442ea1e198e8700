(** C101: what minimime prints, for any file and for the files the other programs make. *)
From Verif Require Import Base BaseLemmas StringModel ParamsModel RasterModel HeaderModel PpmModel ArgModel ArgSpec PpmCmdSpec PpmCmdProperties HelpModel ConverterModel IppEncProofs
  FloatModel FileModel FileProperties MimeProperties RenderModel ToolModel.
From Coq Require Import Lia.
Local Open Scope Z_scope.

(** ** Specification *)
(** the line that is printed *)
Definition line_of (t : string) : string := (t ++ String "010" "")%string.
(** the type of the files of a raster format *)
Definition raster_type (f : fmt) (t : string) : Prop := (f = PWG /\ t = "image/pwg-raster"%string) \/ (f = URF /\ t = "image/urf"%string).
(** everything a conversion has passed on *)
Fixpoint written (ev : list event) : list byte := match ev with [] => [] | Wrote b :: l => b ++ written l | Progress _ _ :: l => written l end.

(** ** Proofs *)
Lemma no_half sig t file : In (t, sig) signatures -> begins sig file -> ~ half_tiff file.
Proof.
  intros Hi Hb [[H N]|[H N]]; pose proof (begins_clash _ _ _ Hb H) as E; unfold signatures in Hi;
    repeat (destruct Hi as [Hi|Hi]; [injection Hi as <- <-; first [vm_compute in E; discriminate E|exact (N Hb)]|]); destruct Hi.
Qed.
Lemma signed t sig file : In (t, sig) signatures -> begins sig file -> getMimeType file = t.
Proof. intros Hi Hb. apply C56_detected_partial; [exact (no_half _ _ _ Hi Hb)|]. right. left. exists sig. split; assumption. Qed.
Lemma written_app a b : written (a ++ b) = written a ++ written b.
Proof. induction a as [|[x|x y] a IH]; cbn [app written]; [reflexivity|rewrite IH; apply app_assoc|exact IH]. Qed.
(** the first thing passed on begins with what was there before the pages *)
Lemma print_pages_written r wr p total : forall seq n bmp out seen seen' err out', is_raster p = true ->
  print_pages r wr p total seq n bmp out seen = Ok (seen', err, out') ->
  (seen' = seen /\ out' = out) \/ exists x, written seen' = written seen ++ out ++ x.
Proof.
  induction seq as [|pg seq IH]; intros n bmp out seen seen' err out' Hr H; cbn [print_pages] in H.
  - injection H as <- _ <-. left. split; reflexivity.
  - bind_inv H as pl Hpl H1. destruct (r_draw r (n + 1) pl) as [data|]; [|injection H1 as <- _ <-; left; split; reflexivity].
    rewrite Hr in H1. bind_inv H1 as bo Hbo H2. bind_inv Hbo as bmp' Hb Hbo2. bind_inv Hbo2 as page Hp Hbo3. injection Hbo3 as <-.
    destruct (wr seen (out ++ page)).
    + right. destruct (IH _ _ _ _ _ _ _ Hr H2) as [[-> _]|[x ->]].
      * exists page. rewrite written_app. cbn [written]. rewrite app_nil_r. reflexivity.
      * exists (page ++ x). rewrite written_app. cbn [written app]. rewrite app_nil_r, <- !app_assoc. reflexivity.
    + injection H2 as <- _ _. right. exists page. rewrite written_app. cbn [written]. rewrite app_nil_r. reflexivity.
Qed.
Lemma header_type p n t x : raster_type (p_format p) t -> getMimeType ((match p_format p with URF => make_urf_file_hdr n | _ => make_pwg_file_hdr end) ++ x) = t.
Proof.
  intros [[-> ->]|[-> ->]].
  - apply (signed _ [0x52; 0x61; 0x53; 0x32]); [cbn; tauto|]. exists x. reflexivity.
  - apply (signed _ [0x55; 0x4E; 0x49; 0x52; 0x41; 0x53; 0x54]); [cbn; tauto|]. exists (([bZ 0] ++ be32 n) ++ x). unfold make_urf_file_hdr. rewrite <- !app_assoc. reflexivity.
Qed.

(** ** C101 *)
(** For a file that can be read minimime prints the type of the file, unless it begins with half a
    TIFF signature (C56), and ends with 0. *)
Theorem C101_prints_partial : forall d name f, file d name = Some f -> ~ half_tiff f ->
  exists t, file_type f t /\ minimime_run d [name] = mkPrinted 0 (line_of t) "".
Proof.
  intros d name f Hf Hh. exists (getMimeType f). split; [apply C56_detected_partial; [exact Hh|reflexivity]|].
  cbn [minimime_run]. unfold type_of_name. unfold file in Hf. rewrite Hf. reflexivity.
Qed.
(** Any other number of words: nothing but the usage, and 1. *)
Theorem C101_usage : forall d args, length args <> 1%nat -> minimime_run d args = mkPrinted 1 "" (line_of "Usage: minimime <file>").
Proof. intros d [|a [|b args]] H; [reflexivity|contradiction H; reflexivity|reflexivity]. Qed.
(** "A file that cannot be read is an error" is false: an empty line is printed, as for an empty
    file, and the exit code is 0. *)
Theorem C101_unreadable_refuted : forall d name, file d name = None -> minimime_run d [name] = mkPrinted 0 (line_of "") "".
Proof. intros d name H. cbn [minimime_run]. unfold type_of_name. unfold file in H. rewrite H. reflexivity. Qed.
(** minimime knows the files that ppm2pwg makes, whatever pictures it was given and even if it
    ended with an error after opening the output. *)
Theorem C101_ppm2pwg_partial : forall d stdin sw rs i o p pages input code data t,
  reads sw rs -> Forall (fun e => takes (fst e) (snd e)) rs -> present rs "--help" = false -> plain_name i -> asks rs o p pages ->
  (p_format p = URF -> forall t, asked rs "--media-type" = Some t -> urf_media t) ->
  i <> "-"%string -> o <> "-"%string -> file d i = Some input -> place d i <> place d o ->
  ppm2pwg p pages input = Ok (code, data) -> fits d o data -> raster_type (p_format p) t ->
  exists d', ppm2pwg_run d stdin (sw ++ [i; o]) = Ok (mkEnding code d' []) /\ minimime_run d' [o] = mkPrinted 0 (line_of t) "".
Proof.
  intros d stdin sw rs i o p pages input code data t H1 H2 H3 H4 H5 H6 H7 H8 H9 H10 H11 H12 Ht.
  destruct (C91_ppm2pwg_partial d stdin sw rs i o p pages input code data H1 H2 H3 H4 H5 H6 H7 H8 H9 H10 H11 H12) as (d' & R & [S _] & _).
  exists d'. split; [exact R|]. cbn [minimime_run]. unfold type_of_name. unfold file in S. rewrite S.
  unfold ppm2pwg in H11. bind_inv H11 as co Hco E. destruct co as [c out]. injection E as _ <-. unfold ppm2pwg_file_hdr. rewrite (header_type p pages t out Ht). reflexivity.
Qed.
(** The same of what pdf_to_printable passes on in a raster format: if it is anything at all, its type
    is that of the format, whatever the document, the renderer and the writer's answers. *)
Theorem C101_pdf : forall r wr p ev res t, raster_type (p_format p) t -> pdf_to_printable r wr p = Ok (ev, res) -> written ev <> [] -> getMimeType (written ev) = t.
Proof.
  intros r wr p ev res t Ht H Hne. assert (Hr : is_raster p = true) by (unfold is_raster; destruct Ht as [[-> _]|[-> _]]; reflexivity).
  unfold pdf_to_printable in H. destruct (match p_format p with URF => negb (p_hwResW p =? p_hwResH p) | _ => false end); [injection H as <- _; contradiction Hne; reflexivity|].
  destruct (r_pages r) as [pages|]; [|injection H as <- _; contradiction Hne; reflexivity]. bind_inv H as seq Hseq H1. bind_inv H1 as hdr Hh H2. rewrite Hr in Hh, H2.
  bind_inv Hh as w Hw Hh1. bind_inv Hh1 as h Hh0 Hh2.
  assert (K : exists q, print_pages r wr p (Z.of_nat (length seq)) seq 0 [] hdr [] = Ok q /\ (let '(seen, err, outBts) := q in match err with Some e => Ok (seen, Some e) | None =>
     match outBts with [] => Ok (seen, None) | _ => if wr seen outBts then Ok (seen ++ [Wrote outBts], None) else Ok (seen ++ [Wrote outBts], Some "Write error"%string) end end) = Ok (ev, res)).
  { destruct Ht as [[F _]|[F _]]; rewrite F in H2; bind_inv H2 as q Q1 Q2; exists q; (split; [exact Q1|exact Q2]). }
  destruct K as ([[seen err] out] & Q1 & Q2). apply print_pages_written in Q1; [|exact Hr]. cbn [written app] in Q1.
  assert (X : exists x, written ev = hdr ++ x).
  { destruct err as [e|].
    - injection Q2 as <- _. destruct Q1 as [[-> _]|X]; [contradiction Hne; reflexivity|exact X].
    - assert (Y : ev = seen \/ ev = seen ++ [Wrote out]) by (destruct out as [|b out]; [injection Q2 as <- _; left; reflexivity|destruct (wr seen (b :: out)); injection Q2 as <- _; right; reflexivity]).
      destruct Q1 as [[-> ->]|[x X]].
      + destruct Y as [-> | ->]; [contradiction Hne; reflexivity|]. exists []. reflexivity.
      + destruct Y as [-> | ->]; [exists x; exact X|]. exists (x ++ out). rewrite written_app, X. cbn [written]. rewrite app_nil_r, <- app_assoc. reflexivity. }
  destruct X as [x ->]. injection Hh2 as <-. apply header_type. exact Ht.
Qed.

(** ** Examples *)
Definition note_disk : disk := mkDisk (fun n => if String.eqb n "a.gif" then 1%nat else if String.eqb n "none" then 2%nat else 0%nat)
  (fun q => match q with 1%nat => Some (bytes_of_string "GIF89a...") | _ => None end) (fun _ => true) (fun _ => 1000%nat).
Example C101_example : file note_disk "a.gif" = Some (bytes_of_string "GIF89a...") /\ minimime_run note_disk ["a.gif"]%string = mkPrinted 0 (line_of "image/gif") ""
  /\ file note_disk "none" = None /\ minimime_run note_disk ["none"]%string = mkPrinted 0 (line_of "") "".
Proof. repeat split; vm_compute; reflexivity. Qed.
Example C101_example_half : ~ half_tiff (bytes_of_string "GIF89a...").
Proof. apply (no_half [0x47; 0x49; 0x46; 0x38] "image/gif"); [cbn; tauto|]. eexists. reflexivity. Qed.
(** ppm2pwg and then minimime, on the pictures of C91 *)
Example C101_chain : (let! e := ppm2pwg_run wide_disk [] (ex_words2 ++ ["in.ppm"; "out.urf"]%string) in Ok (e_code e, minimime_run (e_disk e) ["out.urf"]%string))
  = Ok (0, mkPrinted 0 (line_of "image/urf") "").
Proof. vm_compute. reflexivity. Qed.
(** one page on paper of two pixels; the writer accepts the page, or refuses it *)
Definition one_page : renderer := mkRenderer (Some 1) (fun _ => (fofZ 2, fofZ 1)) (fun _ _ => Some [0xFF0000; 0x0000FF]) (fun _ _ => []) [].
Definition urf_params : params := mkParams URF sRGB24 (p_quality default_params) (p_antiAlias default_params) (p_paperSizeName default_params)
  300 300 Pixels (fofZ 2) (fofZ 1) (p_duplexMode default_params) (p_backXform default_params) 1 true [] (p_mediaPosition default_params) "stationery"%string.
Example C101_pdf_example : exists ev, pdf_to_printable one_page (fun _ _ => true) urf_params = Ok (ev, None) /\ length (written ev) = 52%nat /\ getMimeType (written ev) = "image/urf"%string.
Proof. eexists. split; [vm_compute; reflexivity|]. split; vm_compute; reflexivity. Qed.
Example C101_pdf_refused : exists ev, pdf_to_printable one_page (fun _ _ => false) urf_params = Ok (ev, Some "Write error"%string) /\ getMimeType (written ev) = "image/urf"%string.
Proof. eexists. split; [vm_compute; reflexivity|]. vm_compute. reflexivity. Qed.

Print Assumptions C101_prints_partial.
Print Assumptions C101_usage.
Print Assumptions C101_unreadable_refuted.
Print Assumptions C101_ppm2pwg_partial.
Print Assumptions C101_pdf.
