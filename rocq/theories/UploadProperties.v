(** C85: the document a printer gets when printing is reported to have succeeded. *)
From Verif Require Import Base BaseLemmas MapModel MapProofs FloatModel StringModel StringSpec StringProofs StringProperties ParamsModel
  IppModel IppSpec IppEncProofs JsonModel SettingModel SettingProperties ConverterModel ConverterProperties JobModel JobProofs JobProperties JobSummary
  RasterModel HeaderModel PpmModel PpmSpec RenderModel RenderProofs RenderProperties PdfCmdModel PdfCmdProperties ShowProperties
  PrinterModel PrinterSpec PrinterProperties UploadModel.
From Verif Require CurlModel CurlSpec CurlProperties.
From Coq Require Import Lia ZifyBool ZifyNat.
Local Open Scope Z_scope.

(** ** Specification *)
(** the document rendered with the parameters: the whole output for the page sequence, if
    cairo draws on pages of the requested size *)
Definition rendered (D : documents) (p : params) (inFile : string) (doc : list byte) : Prop :=
  exists r n seq, d_pdf D inFile = Ok r /\ r_pages r = Some n /\ getPageSequence p n = Ok seq /\ (surfaces r p -> whole_output r p seq doc).
Definition format_named (f : ParamsModel.fmt) (t : string) : Prop :=
  In (f, t) [(PDF, "application/pdf"); (Postscript, "application/postscript"); (PWG, "image/pwg-raster"); (URF, "image/urf")]%string.
(** what other documents are sent as *)
Definition prepared (D : documents) (fmt inFile : string) (doc : list byte) : Prop :=
  exists b, d_file D inFile = Some b /\
  ((fmt = "image/jpeg"%string /\ d_jpeg D b = Ok doc) \/
   (fmt = "text/plain"%string /\ string_of_bytes doc = expanded (string_of_bytes b)) \/
   (fmt <> "image/jpeg"%string /\ fmt <> "text/plain"%string /\ doc = b)).

(** ** Proofs *)
Lemma ascii_bytes s : string_of_bytes (bytes_of_string s) = s.
Proof. induction s as [|c s IH]; [reflexivity|]. cbn. f_equal. exact IH. Qed.
Lemma taken_all takes ev : (forall a b c, ev = a ++ RenderModel.Wrote b :: c -> upload_writer takes a b = true) -> concat (taken takes [] ev) = written ev.
Proof.
  intros H. assert (G : forall rest seen, ev = seen ++ rest -> concat (taken takes seen rest) = written rest); [|exact (G ev [] eq_refl)].
  induction rest as [|e rest IH]; intros seen E; [reflexivity|]. assert (E' : ev = (seen ++ [e]) ++ rest) by (rewrite <- app_assoc; exact E).
  destruct e as [b|x y]; [|cbn [taken written]; apply IH; exact E']. pose proof (H seen b rest E) as W. destruct b as [|b0 b]; cbn [taken written]; [cbn [app]; apply IH; exact E'|].
  cbn [upload_writer] in W. rewrite W. cbn [app concat]. rewrite (IH _ E'). reflexivity.
Qed.
Lemma pdf_rendered D takes inFile j ev : (exists t, format_named (p_format (j_params j)) t) ->
  convert D (upload_writer takes) Pdf2Printable inFile j = Ok (ev, None) -> rendered D (j_params j) inFile (concat (taken takes [] ev)).
Proof.
  intros [t Ht] H. cbn [convert] in H. bind_inv H as r Hr H. exists r. unfold pdf_to_printable in H.
  destruct (match p_format (j_params j) with URF => negb (p_hwResW (j_params j) =? p_hwResH (j_params j)) | _ => false end) eqn:U; [discriminate|].
  destruct (r_pages r) as [n|] eqn:Hn; [|discriminate]. pose proof H as K. bind_inv K as seq Hseq K'. clear K'. exists n, seq. split; [exact Hr|]. split; [reflexivity|]. split; [exact Hseq|]. intros Hs.
  assert (Q : pdf_to_printable r (upload_writer takes) (j_params j) = Ok (ev, None)) by (unfold pdf_to_printable; rewrite U, Hn; exact H).
  rewrite taken_all.
  - apply (whole_written r (upload_writer takes) (j_params j) n seq ev Hn Hseq Hs); [|intros F; rewrite F in U; lia|exact Q].
    intros F. rewrite F in Ht. unfold format_named in Ht. cbn in Ht. repeat (destruct Ht as [Ht|Ht]; [discriminate|]). exact Ht.
  - intros a b c E. pose proof (C51_first_failure r _ _ _ _ Hs Q a b c E) as F. destruct (upload_writer takes a b); [reflexivity|]. destruct (proj1 F eq_refl) as [_ F2]. discriminate.
Qed.
Lemma once_taken D takes f inFile ev : convert_once D f inFile = Ok (ev, None) -> exists b doc, d_file D inFile = Some b /\ f b = Ok doc /\
  (concat (taken takes [] ev) = doc \/ (taken takes [] ev = [] /\ takes [] doc = false)).
Proof.
  unfold convert_once. intros H. destruct (d_file D inFile) as [b|]; [|discriminate]. bind_inv H as doc Hd H. injection H as <-. exists b, doc. split; [reflexivity|]. split; [exact Hd|].
  destruct doc as [|c doc]; [left; reflexivity|]. cbn [taken app]. destruct (takes [] (c :: doc)); [left; cbn; rewrite app_nil_r; reflexivity|right; split; reflexivity].
Qed.
Lemma convert_steps fmt t conv : getConvertFun fmt t = Some conv ->
  (conv = Pdf2Printable /\ fmt = mPDF /\ In t [mPDF; mPostscript; mPWG; mURF]) \/ (conv = Baselinify /\ fmt = mJPEG /\ t = mJPEG) \/
  (conv = FixupText /\ fmt = "text/plain"%string /\ t = "text/plain"%string) \/
  (conv = JustUpload /\ fmt = t /\ fmt <> mPDF /\ fmt <> mJPEG /\ fmt <> "text/plain"%string).
Proof.
  intros H. destruct (C40_not_raw fmt t) as [A B]. destruct (in_dec (fun a b : string * string => ltac:(decide equality; apply string_dec)) (fmt, t) steps) as [I|N].
  - unfold steps in I. cbn [In] in I. destruct I as [I|[I|[I|[I|[I|[I|[]]]]]]]; injection I as <- <-; injection H as <-.
    1-4: left; split; [reflexivity|]; split; [reflexivity|]; cbn; auto 10.
    + right. left. auto.
    + right. right. left. auto.
  - assert (E : fmt = t). { pose proof (proj1 (C40_can_convert fmt t)) as P. unfold canConvert in P. rewrite H in P. destruct (P eq_refl) as [P'|P']; [contradiction|exact P']. }
    rewrite (B N E) in H. injection H as <-. right. right. right. split; [reflexivity|]. split; [exact E|]. subst t.
    repeat split; intros ->; apply N; cbn; auto 10.
Qed.
Lemma format_of_target t : In t [mPDF; mPostscript; mPWG; mURF] -> format_named (format_for mPDF t) t.
Proof. unfold format_named. cbn [In]. intros [<-|[<-|[<-|[<-|[]]]]]; cbn; auto. Qed.

(** ** C85 *)
(** If printing on a network printer is reported to have succeeded, the printer answered with
    a success status to an upload in which, after the request, it got: for a PDF document,
    the document rendered completely, in the target format, with the parameters the job was
    finalized to; for any other, the document itself (JPEG made baseline, text with its line
    ends changed as in C23).
    Missing: that the upload took the document in the second case (refuted below). *)
Theorem C85_received_partial : forall D O p id job inFile fmt pages,
  sorted_keys (j_opAttrs job) -> wf_job (j_jobAttrs job) -> ~ file_printer (pr_addr p) -> snd (run_job (world_of D O) p id job inFile fmt pages) = Ok None ->
  exists j c hdr chunks body s, finalize (copy_job job) fmt pages = Ok (None, j) /\ compressed_as j c /\
    In (Streamed (pr_addr p) hdr) (fst (run_job (world_of D O) p id job inFile fmt pages)) /\
    o_reply O (pr_addr p) hdr c chunks = Response body /\ has_status body s /\ success s /\
    ((fmt = "application/pdf"%string /\ format_named (p_format (j_params j)) (j_target j) /\ rendered D (j_params j) inFile (concat chunks)) \/
     (fmt <> "application/pdf"%string /\ j_target j = fmt /\ exists doc, prepared D fmt inFile doc /\
       (concat chunks = doc \/ (chunks = [] /\ exists conv, o_takes O conv inFile j [] doc = false)))).
Proof.
  intros D O p id job inFile fmt pages Hso Hwf Hnf H.
  destruct (C59_network_partial _ _ _ _ _ _ _ Hso Hnf H) as (j & conv & hdr & m & given & Hfin & Hconv & (Hc1 & c & body & s & Hcomp & Haw & Hst & Hsu) & Hev).
  assert (Hin : In (Streamed (pr_addr p) hdr) (fst (run_job (world_of D O) p id job inFile fmt pages))).
  { destruct Hev as [[-> _]|(cm & cb & rb & r & rest & t & jobId & s' & -> & _)]; cbn; auto. }
  cbn [world_of w_convert] in Hc1. bind_inv Hc1 as ee Hrun Hc2. destruct ee as [ev err]. injection Hc2 as ->.
  cbn [world_of w_await] in Haw. rewrite Hrun in Haw. set (takes := o_takes O conv inFile j) in *.
  exists j, c, hdr, (taken takes [] ev), body, s. split; [exact Hfin|]. split; [exact Hcomp|]. split; [exact Hin|]. split; [exact Haw|]. split; [exact Hst|]. split; [exact Hsu|].
  assert (Hfmt : p_format (j_params j) = format_for fmt (j_target j)) by (apply (sm_format _ _ _ _ (finalize_summary (copy_job job) fmt pages j Hwf Hfin))).
  destruct (convert_steps _ _ _ Hconv) as [(-> & -> & Ht)|[(-> & -> & Ht)|[(-> & -> & Ht)|(-> & Ht & N1 & N2 & N3)]]].
  - left. split; [reflexivity|]. assert (F : format_named (p_format (j_params j)) (j_target j)) by (rewrite Hfmt; apply format_of_target; exact Ht).
    split; [exact F|]. apply pdf_rendered; [exists (j_target j); exact F|exact Hrun].
  - right. split; [discriminate|]. split; [exact Ht|]. destruct (once_taken D takes _ _ _ Hrun) as (b & doc & H1 & H2 & H3). exists doc. split; [exists b; split; [exact H1|]; left; split; [reflexivity|exact H2]|].
    destruct H3 as [H3|[H3 H4]]; [left; exact H3|right; split; [exact H3|]; exists Baselinify; exact H4].
  - right. split; [discriminate|]. split; [exact Ht|]. destruct (once_taken D takes _ _ _ Hrun) as (b & doc & H1 & H2 & H3). exists doc. injection H2 as <-. split; [exists b; split; [exact H1|]; right; left; split; [reflexivity|]; rewrite ascii_bytes; apply C23_exact_effect|].
    destruct H3 as [H3|[H3 H4]]; [left; exact H3|right; split; [exact H3|]; exists FixupText; exact H4].
  - right. split; [exact N1|]. split; [symmetry; exact Ht|]. destruct (once_taken D takes _ _ _ Hrun) as (b & doc & H1 & H2 & H3). exists doc. injection H2 as <-. split; [exists b; split; [exact H1|]; right; right; split; [exact N2|]; split; [exact N3|reflexivity]|].
    destruct H3 as [H3|[H3 H4]]; [left; exact H3|right; split; [exact H3|]; exists JustUpload; exact H4].
Qed.
(** So if a PDF document was sent as PWG or URF raster with 8 bit samples, what the printer
    got decodes to pictures that show, pixel by pixel, the pages as drawn.
    Missing: as in C84. *)
Theorem C85_raster_shown_partial : forall D O p id job inFile pages j r W H prefix,
  sorted_keys (j_opAttrs job) -> wf_job (j_jobAttrs job) -> ~ file_printer (pr_addr p) -> snd (run_job (world_of D O) p id job inFile "application/pdf" pages) = Ok None ->
  finalize (copy_job job) "application/pdf" pages = Ok (None, j) -> d_pdf D inFile = Ok r -> surfaces r (j_params j) -> viewable (j_params j) W H ->
  exists c hdr chunks body s n seq files, compressed_as j c /\ In (Streamed (pr_addr p) hdr) (fst (run_job (world_of D O) p id job inFile "application/pdf" pages)) /\
    o_reply O (pr_addr p) hdr c chunks = Response body /\ has_status body s /\ success s /\
    format_named (p_format (j_params j)) (j_target j) /\ r_pages r = Some n /\ getPageSequence (j_params j) n = Ok seq /\
    pwg2ppm (concat chunks) prefix = Ok (0, files) /\ shows_pages r (j_params j) W H prefix seq files.
Proof.
  intros D O p id job inFile pages j r W H prefix Hso Hwf Hnf Hrun Hfin Hr Hs Hv.
  destruct (C85_received_partial D O p id job inFile "application/pdf"%string pages Hso Hwf Hnf Hrun) as (j' & c & hdr & chunks & body & s & Hfin' & H1 & H2 & H3 & H4 & H5 & H6).
  rewrite Hfin in Hfin'. injection Hfin' as <-. destruct H6 as [(_ & H6 & r' & n & seq & Hr' & Hn & Hseq & Hw)|(C & _)]; [|contradiction C; reflexivity].
  rewrite Hr in Hr'. injection Hr' as <-. destruct (C84_shows_pages_partial r (j_params j) W H seq (concat chunks) prefix Hv Hs (Hw Hs)) as [files [F1 F2]].
  exists c, hdr, chunks, body, s, n, seq, files. auto 20.
Qed.
(** Finding: when the upload does not take the document (it ended before), JustUpload - and
    likewise the conversions of JPEG and text - report no error: a success status answers
    for a document that was not sent. *)
Theorem C85_not_taken_refuted : forall D O p j inFile hdr b c body r rest, d_file D inFile = Some b -> b <> [] -> o_takes O JustUpload inFile j [] b = false ->
  compression_of j = Ok c -> o_reply O (pr_addr p) hdr c [] = Response body -> decodeMsg body = Ok (r, rest) -> m_opOrStatus r < 255 -> pr_printJobId p = false ->
  snd (do_print (world_of D O) p j inFile JustUpload hdr) = Ok None.
Proof.
  intros D O p j inFile hdr b c body r rest Hf Hb Ht Hc Ha Hd Hs Hp.
  assert (R : convert D (upload_writer (o_takes O JustUpload inFile j)) JustUpload inFile j = Ok ([RenderModel.Wrote b; Progress 1 1], None)) by (cbn [convert]; unfold convert_once; rewrite Hf; reflexivity).
  apply (C59_success_reported (world_of D O) p j inFile JustUpload hdr c body r rest Hp Hc); [| |exact Hd|exact Hs].
  - cbn [world_of w_convert]. rewrite R. reflexivity.
  - cbn [world_of w_await]. rewrite R. destruct b as [|b0 b]; [contradiction|]. cbn [taken app]. rewrite Ht. exact Ha.
Qed.

(** The bytes of an upload: if the transfer has run to its end, the request and all the
    chunks went into it in order, nothing else; the request as it is, and the chunks as they
    are or through the compressor. *)
Lemma until_await (A rest ops : list CurlModel.op) : ~ In CurlModel.Await A -> (forall a c b, A = a ++ CurlModel.SetCompression c :: b -> CurlSpec.compresses a = false) ->
  CurlSpec.up_to_await (A ++ CurlModel.Await :: rest) ops -> ops = A.
Proof.
  intros N1 N2 [H1 [rest' [H2 H3]]]. revert ops rest' H1 H2 H3 N2. induction A as [|a A IH]; intros [|o ops] rest' H1 H2 H3 N2; cbn [app] in *.
  - reflexivity.
  - exfalso. injection H2 as <- _. apply H1. left. reflexivity.
  - exfalso. subst rest'. destruct a as [d|c|]; try contradiction; [discriminate|]. apply N1. left. reflexivity.
  - injection H2 as -> H2. destruct rest' as [|[d|c|] r]; try contradiction.
    + exfalso. assert (K : forall B, A ++ CurlModel.Await :: rest = B ++ CurlModel.SetCompression c :: r -> ~ In CurlModel.Await B -> ~ In CurlModel.Await A -> exists x, A = B ++ CurlModel.SetCompression c :: x).
      { clear. induction A as [|a A IH]; intros [|b B] E N N'; cbn [app] in E; try discriminate.
        - exfalso. injection E as <- _. apply N. left. reflexivity.
        - injection E as -> _. exists A. reflexivity.
        - injection E as -> E. destruct (IH B E) as [x ->]; [intros C; apply N; right; exact C|intros C; apply N'; right; exact C|]. exists x. reflexivity. }
      destruct (K ops H2) as [x ->]; [intros C; apply H1; right; exact C|intros C; apply N1; right; exact C|].
      specialize (N2 (o :: ops) c x eq_refl). congruence.
    + f_equal. apply (IH (fun C => N1 (or_intror C)) ops (CurlModel.Await :: r)); [intros C; apply H1; right; exact C|exact H2|exact I|].
      intros a c b ->. specialize (N2 (o :: a) c b eq_refl). unfold CurlSpec.compresses in *. cbn [existsb] in N2. apply orb_false_elim in N2. apply N2.
Qed.
Theorem C85_on_the_wire : forall z hdr c chunks s, CurlModel.reachable z (CurlSpec.do_print hdr c chunks false) s -> CurlSpec.complete s ->
  flat_map CurlSpec.bytes_in (CurlModel.s_sent s) = hdr ++ concat chunks /\
  (c = CurlModel.NoCompression -> CurlSpec.delivered (CurlModel.s_sent s) = hdr ++ concat chunks) /\
  (c <> CurlModel.NoCompression -> exists out, CurlSpec.delivered (CurlModel.s_sent s) = hdr ++ out).
Proof.
  intros z hdr c chunks s R C. set (ne := filter (fun d : list byte => match d with [] => false | _ => true end) chunks).
  set (A := CurlModel.Write hdr :: (if CurlModel.is_none c then [] else [CurlModel.SetCompression c]) ++ map CurlModel.Write ne).
  assert (E : CurlSpec.do_print hdr c chunks false = A ++ CurlModel.Await :: [CurlModel.Await]). { unfold CurlSpec.do_print, A. fold ne. cbn [app]. rewrite <- app_assoc. reflexivity. }
  assert (NA : ~ In CurlModel.Await A).
  { unfold A. intros [K|K]; [discriminate|]. apply in_app_or in K. destruct K as [K|K]; [destruct (CurlModel.is_none c); [destruct K|destruct K as [K|[]]; discriminate]|]. apply in_map_iff in K. destruct K as [d [K _]]. discriminate. }
  assert (NC : forall l a c0 b, map CurlModel.Write l = a ++ CurlModel.SetCompression c0 :: b -> False).
  { induction l as [|x l IH]; intros [|a0 a] c0 b K; cbn in K; try discriminate. injection K as _ K. exact (IH _ _ _ K). }
  assert (N2 : forall a c0 b, A = a ++ CurlModel.SetCompression c0 :: b -> CurlSpec.compresses a = false).
  { unfold A. intros [|x a] c0 b K; [reflexivity|]. cbn [app] in K. injection K as <- K. destruct (CurlModel.is_none c) eqn:Ec; cbn [app] in K; [destruct (NC _ _ _ _ K)|].
    destruct a as [|y a]; [reflexivity|]. cbn [app] in K. injection K as _ K. destruct (NC _ _ _ _ K). }
  assert (W : forall l, concat (CurlSpec.writes (map CurlModel.Write l)) = concat l) by (induction l as [|x l IH]; [reflexivity|]; unfold CurlSpec.writes in *; cbn; rewrite IH; reflexivity).
  assert (PW : forall l, CurlSpec.plain (map CurlModel.Write l) = concat l) by (induction l as [|x l IH]; [reflexivity|]; cbn; rewrite IH; reflexivity).
  assert (CW : forall l, CurlSpec.coded (map CurlModel.Write l) = []) by (induction l as [|x l IH]; [reflexivity|]; cbn; exact IH).
  assert (F : concat ne = concat chunks) by apply CurlProperties.concat_filter.
  assert (All : flat_map CurlSpec.bytes_in (CurlModel.s_sent s) = hdr ++ concat chunks).
  { destruct (CurlProperties.C49_complete _ _ _ R C) as [ops [U [B _]]]. rewrite E in U. apply until_await in U; [|exact NA|exact N2]. subst ops. rewrite B. unfold A.
    destruct c; cbn [CurlModel.is_none app CurlSpec.plain CurlSpec.coded]; rewrite ?PW, ?CW, ?W, ?app_nil_r, F; reflexivity. }
  split; [exact All|]. split.
  - intros ->. destruct (CurlProperties.C47_complete _ _ _ R) as [ops [rest [U1 [U2 U3]]]].
    + rewrite E. unfold A, CurlSpec.compresses. cbn [CurlModel.is_none app existsb]. rewrite existsb_app. cbn. rewrite orb_false_r. clear. induction ne as [|x l IH]; [reflexivity|exact IH].
    + exact C.
    + rewrite E in U1. assert (ops = A) as -> by (apply (until_await A [CurlModel.Await] ops NA N2); split; [exact U2|]; exists (CurlModel.Await :: rest); split; [exact U1|exact I]).
      rewrite U3. unfold A, CurlSpec.writes. cbn [CurlModel.is_none app flat_map concat]. fold (CurlSpec.writes (map CurlModel.Write ne)). rewrite W, F. reflexivity.
  - intros Nc. destruct (CurlProperties.C49_order _ _ _ R) as (h & doc & fin & S1 & S2 & S3 & S4 & S5 & S6 & S7 & _).
    assert (DR : CurlSpec.delivered h = flat_map CurlSpec.bytes_in h). { clear - S2. induction h as [|[o|x f o] h IH]; inversion S2; subst; [reflexivity| |contradiction]. unfold CurlSpec.delivered in *. cbn. rewrite IH by assumption. reflexivity. }
    assert (P : CurlSpec.plain (CurlSpec.do_print hdr c chunks false) = hdr). { rewrite E. unfold A. destruct c; [contradiction Nc; reflexivity| |]; cbn; apply app_nil_r. }
    destruct (doc ++ fin) as [|x l] eqn:Ed.
    + rewrite S1, app_nil_r in *. exists (concat chunks). rewrite DR. exact All.
    + exists (CurlSpec.delivered (x :: l)). rewrite S1. unfold CurlSpec.delivered in *. rewrite flat_map_app, S7, P by discriminate. reflexivity.
Qed.

(** ** Examples *)
(** a printer taking raster and text, a sheet of two pixels, and a document of two pages *)
Definition up_attrs : ipp_attrs :=
  [ ("compression-supported", (tKeyword, VSet [VStr "none"; VStr "gzip"]));
    ("document-format-default", (tMimeMediaType, VStr "application/octet-stream"));
    ("document-format-supported", (tMimeMediaType, VSet [VStr "image/pwg-raster"; VStr "text/plain"]));
    ("operations-supported", (tEnum, VSet [VInt 2; VInt 5; VInt 6]));
    ("print-color-mode-supported", (tKeyword, VSet [VStr "color"; VStr "monochrome"]));
    ("pwg-raster-document-resolution-supported", (tResolution, VRes 300 300 3)) ]%string.
Definition up_printer : printer := mkPrinter "ipp://printer/ipp/print" false up_attrs.
Definition up_job : job := with_job (new_job up_attrs []) [("media", (tKeyword, VStr "custom_tiny_0.17x0.085mm")); ("print-color-mode", (tKeyword, VStr "color"))]%string.
Definition up_docs : documents := mkDocs (fun _ => Some (bytes_of_string (String "a" (String LF "b"))))%string (fun _ => Ok view_doc) (fun b => Ok b).
(** it answers with success if the chunks are the document expected *)
Definition up_reply (good : list byte -> bool) (chunks : list (list byte)) : reply :=
  match fst (encodeMsg 1 (mkMsg (if good (concat chunks) then 1 else 1280) 1 1 [("attributes-charset", (tCharset, VStr "utf-8"))]%string [[("job-id", (tInteger, VInt 42))]]%string [])) with Ok b => Response b | _ => Failed "" end.
Definition up_outside (good : list byte -> bool) (takes : writer) : outside :=
  mkOutside (Some "me"%string) (fun _ => "what"%string) (fun _ _ => up_reply (fun _ => true) []) (fun _ _ _ => takes) (fun _ _ _ chunks => up_reply good chunks) "/tmp".
Definition good_raster (doc : list byte) : bool :=
  match pwg2ppm doc "x" with
  | Ok (0, [(n1, t1); (n2, t2)]) => String.eqb n1 "x1.ppm" && String.eqb n2 "x2.ppm" && String.eqb (string_of_bytes t1) (string_of_bytes (snd (seen_file "x1.ppm" "P6" [0; 0; 1; 0; 1; 0]))) &&
      String.eqb (string_of_bytes t2) (string_of_bytes (snd (seen_file "x2.ppm" "P6" [0; 0; 2; 0; 2; 0])))
  | _ => false
  end.
Definition good_text (doc : list byte) : bool := String.eqb (string_of_bytes doc) (String "a" (String CR (String LF "b"))).
Definition up_final : job := result (finalize (copy_job up_job) "application/pdf" 2).
Example C85_example : sorted_keys (j_opAttrs up_job) /\ wf_job (j_jobAttrs up_job) /\ ~ file_printer (pr_addr up_printer) /\
  finalize (copy_job up_job) "application/pdf" 2 = Ok (None, up_final) /\ surfaces view_doc (j_params up_final) /\ viewable (j_params up_final) 2 1 /\ compressed_as up_final Gzip /\
  snd (run_job (world_of up_docs (up_outside good_raster accept)) up_printer 7 up_job "a.pdf" "application/pdf" 2) = Ok None /\
  snd (run_job (world_of up_docs (up_outside good_raster accept_once)) up_printer 7 up_job "a.pdf" "application/pdf" 2) = Ok (Some "Write error"%string) /\
  snd (run_job (world_of up_docs (up_outside good_text accept)) up_printer 7 up_job "a.txt" "text/plain" 1) = Ok None /\
  snd (run_job (world_of up_docs (up_outside good_text accept)) up_printer 7 up_job "a.pdf" "application/pdf" 2) = Ok (Some "Print job failed: unknown"%string) /\
  snd (run_job (world_of up_docs (up_outside (fun _ => true) (fun _ _ => false))) up_printer 7 up_job "a.txt" "text/plain" 1) = Ok None.
Proof.
  split; [vm_compute; repeat constructor|]. split; [split; [vm_compute; repeat constructor|]; intros a H; vm_compute in H; discriminate|]. split; [intros [s E]; discriminate E|].
  split; [vm_compute; reflexivity|]. split.
  { intros _. exists 2, 1. split; [split; [vm_compute; reflexivity|]; split; [vm_compute; reflexivity|]; lia|]. intros i [[n t]|] data H; injection H as <-; reflexivity. }
  split.
  { unfold viewable. split; [vm_compute; repeat split; try discriminate; lia|]. split; [vm_compute; repeat split; discriminate|]. split; [vm_compute; reflexivity|]. split; [vm_compute; reflexivity|].
    split; [lia|]. split; [lia|]. split; [left; vm_compute; reflexivity|]. assert (F : p_format (j_params up_final) = PWG) by (vm_compute; reflexivity). rewrite F.
    split; (split; [vm_compute; lia|]; intros H; vm_compute in H; intuition discriminate). }
  split; [vm_compute; reflexivity|]. repeat split; vm_compute; reflexivity.
Qed.
(** an upload without compression *)
Example C85_wire_example : exists s, CurlModel.reachable CurlProperties.stored (CurlSpec.do_print [bZ 1] CurlModel.NoCompression [[bZ 2]; []; [bZ 3]] false) s /\ CurlSpec.complete s /\
  CurlSpec.delivered (CurlModel.s_sent s) = [bZ 1; bZ 2; bZ 3].
Proof.
  rewrite CurlProperties.do_print_plain. destruct (CurlProperties.upload CurlProperties.stored _ [CurlModel.Await] (CurlProperties.chunks_ok [bZ 1] [[bZ 2]; []; [bZ 3]] ltac:(discriminate))) as [s [R [_ [_ [_ [C D]]]]]].
  exists s. split; [exact R|]. split; [exact C|]. rewrite D. reflexivity.
Qed.

Print Assumptions C85_received_partial.
Print Assumptions C85_raster_shown_partial.
Print Assumptions C85_not_taken_refuted.
Print Assumptions C85_on_the_wire.
