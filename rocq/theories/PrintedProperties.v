(** C103: what the printer reads when a print command has ended with 0. *)
From Verif Require Import Base BaseLemmas MapModel MapProofs FloatModel StringModel StringSpec StringProofs StringProperties ParamsModel ParamsSpec ParamsProperties
  IppModel IppSpec IppEncProofs JsonModel JsonSpec ArgModel ArgSpec ArgProperties PpmCmdSpec PpmCmdProperties OptionProofs SettingModel SettingProperties ConverterModel ConverterProperties JobModel JobProofs JobProperties JobSummary
  RasterModel HeaderModel PpmModel PpmSpec RenderModel RenderProofs RenderProperties PdfCmdModel PdfCmdProperties ShowProperties
  PrinterModel PrinterSpec PrinterProperties UploadModel UploadProperties SettingsModel SettingsProperties ClientModel ClientSpec ClientProperties ClientCmdSpec ClientCmdProperties
  WireSpec WireProofs WireProperties PrintedSpec PrintedProofs.
From Verif Require CurlModel CurlSpec CurlProperties.
From Coq Require Import Lia ZifyBool ZifyNat.
Local Open Scope Z_scope.

(** ** The requests *)
(** the last that was sent is a Print-Job request with the job and the document *)
Definition sent_at_once (user : option string) (addr : string) (pa : ipp_attrs) (j : job) (name : string) (ev : list event) (hdr : list byte) (m : ipp_msg) : Prop :=
  exists before given, ev = before ++ [Streamed addr hdr] /\ print_attrs j name given /\ read_as user addr pa 0x0002 given (j_jobAttrs j) m /\ ipp_request user addr 0x0002 2 hdr m.
(** or a Create-Job request [cm] with the job, which was answered with a success status and
    an id, and a Send-Document request for this id *)
Definition sent_in_two (user : option string) (post : string -> list byte -> reply) (addr : string) (pa : ipp_attrs) (j : job) (name : string) (ev : list event) (hdr : list byte) (cm m : ipp_msg) : Prop :=
  exists before given cb rb r rest t jobId s, ev = before ++ [Posted addr cb; Streamed addr hdr] /\
    read_as user addr pa 0x0005 [("job-name"%string, (0x42, VStr name))] (j_jobAttrs j) cm /\ ipp_request user addr 0x0005 2 cb cm /\
    post addr cb = Response rb /\ has_status rb s /\ success s /\ decodeMsg rb = Ok (r, rest) /\ (exists g gs, m_jobAttrs r = g :: gs /\ map_get "job-id" g = Some (t, VInt jobId)) /\
    document_attrs j jobId given /\ read_as user addr pa 0x0006 given [] m /\ ipp_request user addr 0x0006 3 hdr m.

(** the coding of an upload, as the streamer is told *)
Definition coding (c : compression) : CurlModel.compression := match c with NoCompression => CurlModel.NoCompression | Gzip => CurlModel.Gzip | Deflate => CurlModel.Deflate end.

Lemma starts_wf e addr ev id rs pa j0 : saved_sendable e addr -> open_printer e addr = (ev, Ok (None, pa, id)) -> starts_from e rs pa j0 -> wf_job (j_jobAttrs j0).
Proof.
  intros Sv O (jc & C & H). unfold createJob in C. bind_inv C as add A C. injection C as <-. destruct (present rs "--save"); [subst j0; split; [exact I|discriminate]|]. apply (Sv _ _ _ _ _ O H).
Qed.
(** If printing on a network printer from the command line ended with exit code 0: the job
    attributes the printer reads are those of the job the words ask for, finalized - a
    setting that finalizing does not touch has the value the strongest option gives it -, it
    answered the upload with a success status, and the document was made from the file as in
    C85.  Whatever the interleaving of the upload, once it is complete the printer can read
    the request from its bytes, and after it the document, or what zlib made of it.
    Missing: as in C85; documents that begin with two zero bytes (C29). *)
Theorem C103_printed_partial : forall D O e junk args rs addr file ev, line args "print" rs [addr; file] -> present rs "--help" = false -> Forall short args ->
  (forall u, w_user (e_world e) = Some u -> short u) -> saved_sendable e addr -> e_world e = world_of D O -> ~ file_printer addr -> client e junk args = (ev, Ok 0) ->
  exists ev0 pa j0 l lp j fmt inFile pages jf hdr m jm c chunks body s,
    open_printer e addr = (ev0, Ok (None, pa, 2)) /\ starts_from e rs pa j0 /\ demands rs meanings l /\ pages_demanded rs lp /\ job_as_demanded rs l j0 j /\
    input_type e rs file fmt /\ document e fmt file inFile pages /\ finalize (copy_job j) fmt pages = Ok (None, jf) /\
    (sent_at_once (o_user O) addr pa jf (base_name inFile) ev hdr m /\ jm = m \/ sent_in_two (o_user O) (o_post O) addr pa jf (base_name inFile) ev hdr jm m) /\
    (forall s, job_setting s -> ~ In (s_name s) finalized_names ->
       setting_read s jm = option_map one (strongest (lp ++ l) s (option_map snd (lookup s (j_jobAttrs j0))))) /\
    compressed_as jf c /\ o_reply O addr hdr c chunks = Response body /\ has_status body s /\ success s /\
    ((fmt = "application/pdf"%string /\ format_named (p_format (j_params jf)) (j_target jf) /\ rendered D (j_params jf) inFile (concat chunks)) \/
     (fmt <> "application/pdf"%string /\ j_target jf = fmt /\ exists doc, prepared D fmt inFile doc /\
       (concat chunks = doc \/ (chunks = [] /\ exists conv, o_takes O conv inFile jf [] doc = false)))) /\
    (forall z t, CurlModel.reachable z (CurlSpec.do_print hdr (coding c) chunks false) t -> CurlSpec.complete t ->
       exists sent, (c = NoCompression -> sent = concat chunks) /\ CurlSpec.delivered (CurlModel.s_sent t) = hdr ++ sent /\
         (distinct_start sent -> decodeMsg (CurlSpec.delivered (CurlModel.s_sent t)) = Ok (m, sent))).
Proof.
  intros D O e junk args rs addr file ev H Hh A U Sv We Hf Hc.
  destruct (print_done e junk args rs addr file ev H Hh Hc) as (st & ev0 & pa & id & j0 & j & fmt & inFile & pages & ev1 & ev2 & E & V1 & P & C & Ho & S & It & Dc & Dm & _ & Hr & ->).
  pose proof (open_id _ _ _ _ _ Hf Ho) as ->. pose proof (starts_wf _ _ _ _ _ _ _ Sv Ho S) as W0. destruct (Dm W0) as (Wj & l & Dl & _ & Jd). clear Dm.
  assert (A' : Forall (fun s => str_ok s = true) args) by (eapply Forall_impl; [|exact A]; intros s; apply short_iff).
  assert (U' : user_ok (e_world e)) by (unfold user_ok; destruct (w_user (e_world e)); [apply short_iff; apply U; reflexivity|exact I]).
  pose proof (args_ok _ _ _ _ _ _ A' E) as So. destruct (prepare_fits _ _ _ _ _ So (saved_fits _ _ _ _ _ Sv Ho) P) as [[F _] Ff].
  assert (Hfi : str_ok file = true) by (pose proof (str_arg st 32 So (or_intror (or_intror (or_intror (or_introl eq_refl))))) as K; rewrite V1 in K; exact K).
  pose proof (pages_file _ _ _ _ _ C Hfi) as B.
  assert (Ha : str_ok addr = true).
  { destruct H as (fl & vl & n & sw & _ & Ea & _). rewrite Forall_forall in A'. apply A'. rewrite Ea. right. apply in_or_app. right. left. reflexivity. }
  set (p := mkPrinter addr (present rs "--print-job-id") pa) in *.
  assert (Hs : snd (run_job (e_world e) p 2 j inFile fmt pages) = Ok None) by (rewrite Hr; reflexivity).
  destruct (run_job_read (e_world e) p 2 j inFile fmt pages U' Ha ltac:(lia) F Ff B Hf Hs) as (jf & hdr & m & given & Hfin & Sf & Rq).
  rewrite We in Hs. destruct (C85_received_partial D O p 2 j inFile fmt pages ltac:(apply F) Wj Hf Hs) as (jf' & c & hdr' & chunks & body & s & Hfin' & Hcomp & Hin & Hrep & Hst & Hsu & Hdoc).
  rewrite Hfin in Hfin'. injection Hfin' as <-. rewrite <- We, Hr in Hin. cbn [fst] in Hin. rewrite Hr in Rq. cbn [fst] in Rq.
  assert (hdr' = hdr) as ->.
  { destruct Rq as [(-> & _)|(cm & cb & rb & r & rest & t & jobId & s0 & -> & _)]; cbn [In] in Hin; [destruct Hin as [K|[]]|destruct Hin as [K|[K|[]]]]; congruence. }
  cbn [p pr_addr pr_attrs] in *. assert (Wu : w_user (e_world e) = o_user O) by (rewrite We; reflexivity). rewrite Wu in Rq.
  destruct Jd as ((lp & Lp & Jd) & Jd2).
  assert (St : forall s m', job_setting s -> ~ In (s_name s) finalized_names -> m_jobAttrs m' = group (j_jobAttrs jf) ->
     setting_read s m' = option_map one (strongest (lp ++ l) s (option_map snd (lookup s (j_jobAttrs j0))))).
  { intros s' m' Hs' Hn Hg. unfold setting_read. rewrite Hg, group_lookup. pose proof (finalize_summary (copy_job j) fmt pages jf Wj Hfin) as Sm.
    rewrite (lookup_ones s' _ Hs' Sf (sm_wf _ _ _ _ Sm)). rewrite (sm_other_attrs _ _ _ _ Sm s' Hs' (finalized_other _ Hn)). rewrite <- (Jd s' Hs'). reflexivity. }
  exists ev0, pa, j0, l, lp, j, fmt, inFile, pages, jf, hdr, m.
  assert (Q : exists jm, (sent_at_once (o_user O) addr pa jf (base_name inFile) (ev0 ++ ev1 ++ ev2) hdr m /\ jm = m \/ sent_in_two (o_user O) (o_post O) addr pa jf (base_name inFile) (ev0 ++ ev1 ++ ev2) hdr jm m) /\ m_jobAttrs jm = group (j_jobAttrs jf) /\
     forall doc, distinct_start doc -> decodeMsg (hdr ++ doc) = Ok (m, doc)).
  { destruct Rq as [(-> & R1 & R2 & R3)|(cm & cb & rb & r & rest & t & jobId & s0 & -> & R1 & R2 & R3 & R4 & R5 & R6 & R7 & R8 & R9 & R10)].
    - exists m. split; [|split; [apply R2|apply R3]]. left. split; [|reflexivity]. exists (ev0 ++ ev1), given. rewrite app_assoc. auto.
    - exists cm. split; [|split; [apply R1|apply R10]]. right. rewrite We in R3. exists (ev0 ++ ev1), given, cb, rb, r, rest, t, jobId, s0. rewrite app_assoc. auto 15. }
  destruct Q as (jm & Q1 & Q2 & Q3). exists jm, c, chunks, body, s.
  split; [exact Ho|]. split; [exact S|]. split; [exact Dl|]. split; [exact Lp|]. split; [exact (conj (ex_intro _ lp (conj Lp Jd)) Jd2)|]. split; [exact It|]. split; [exact Dc|]. split; [exact Hfin|]. split; [exact Q1|].
  split; [intros s' Hs' Hn; exact (St s' jm Hs' Hn Q2)|]. split; [exact Hcomp|]. split; [exact Hrep|]. split; [exact Hst|]. split; [exact Hsu|]. split; [exact Hdoc|].
  intros z t R Cm. destruct (C85_on_the_wire z hdr (coding c) chunks t R Cm) as (_ & W1 & W2). destruct c.
  1: exists (concat chunks); rewrite (W1 eq_refl); split; [reflexivity|]; split; [reflexivity|]; apply Q3.
  all: destruct (W2 ltac:(discriminate)) as [out Wo]; exists out; rewrite Wo; split; [discriminate|]; split; [reflexivity|]; apply Q3.
Qed.

(** So, as in C85: if the document was sent as raster pages with 8 bit samples and without
    compression, the printer can read the request from the bytes it gets and then decode
    pictures that show, pixel by pixel, the pages as drawn.
    Missing: as in C84. *)
Theorem C103_shown_partial : forall D O e junk args rs addr file ev r W H prefix, line args "print" rs [addr; file] -> present rs "--help" = false -> Forall short args ->
  (forall u, w_user (e_world e) = Some u -> short u) -> saved_sendable e addr -> e_world e = world_of D O -> ~ file_printer addr -> client e junk args = (ev, Ok 0) ->
  exists ev0 pa j0 l j fmt inFile pages jf hdr m c chunks,
    open_printer e addr = (ev0, Ok (None, pa, 2)) /\ starts_from e rs pa j0 /\ demands rs meanings l /\ job_as_demanded rs l j0 j /\
    input_type e rs file fmt /\ document e fmt file inFile pages /\ finalize (copy_job j) fmt pages = Ok (None, jf) /\ In (Streamed addr hdr) ev /\ compressed_as jf c /\
    (fmt = "application/pdf"%string -> d_pdf D inFile = Ok r -> surfaces r (j_params jf) -> viewable (j_params jf) W H -> c = NoCompression ->
     forall z t, CurlModel.reachable z (CurlSpec.do_print hdr (coding c) chunks false) t -> CurlSpec.complete t ->
     exists doc n seq files, decodeMsg (CurlSpec.delivered (CurlModel.s_sent t)) = Ok (m, doc) /\ r_pages r = Some n /\ getPageSequence (j_params jf) n = Ok seq /\
       pwg2ppm doc prefix = Ok (0, files) /\ shows_pages r (j_params jf) W H prefix seq files).
Proof.
  intros D O e junk args rs addr file ev r W H prefix Hl Hh A U Sv We Hf Hc.
  destruct (C103_printed_partial D O e junk args rs addr file ev Hl Hh A U Sv We Hf Hc) as
    (ev0 & pa & j0 & l & lp & j & fmt & inFile & pages & jf & hdr & m & jm & c & chunks & body & s & H1 & H2 & H3 & H4 & H5 & H6 & H7 & H8 & H9 & H10 & H11 & H12 & H13 & H14 & H15 & H16).
  exists ev0, pa, j0, l, j, fmt, inFile, pages, jf, hdr, m, c, chunks. do 7 (split; [assumption|]).
  split. { destruct H9 as [[(b & g & -> & _) _]|(b & g & cb & rb & r' & rest & t & jobId & s0 & -> & _)]; apply in_or_app; right; cbn; auto. }
  split; [exact H11|]. intros -> Hr Hs Hv -> z t R C. destruct (H16 z t R C) as (sent & K1 & _ & K3). specialize (K1 eq_refl). subst sent.
  destruct H15 as [(_ & _ & r' & n & seq & Hr' & Hn & Hseq & Hw)|(K & _)]; [|contradiction K; reflexivity]. rewrite Hr in Hr'. injection Hr' as <-.
  destruct (C84_shows_pages_partial r (j_params jf) W H seq (concat chunks) prefix Hv Hs (Hw Hs)) as [files [F1 F2]].
  exists (concat chunks), n, seq, files. split; [|auto]. apply K3. intros [x Hx]. rewrite Hx in F1. discriminate F1.
Qed.

(** ** Examples *)
(** A printer taking uncompressed raster pages of two pixels (it answers with success if the
    chunks decode to the right pictures), and a document of two pages printed with four
    options. *)
Definition tiny_attrs : ipp_attrs :=
  [ ("document-format-default", (tMimeMediaType, VStr "application/octet-stream"));
    ("document-format-supported", (tMimeMediaType, VSet [VStr "application/octet-stream"; VStr "image/pwg-raster"]));
    ("ipp-versions-supported", (tKeyword, VSet [VStr "1.1"; VStr "2.0"]));
    ("media-supported", (tKeyword, VSet [VStr "custom_tiny_0.17x0.085mm"; VStr "iso_a4_210x297mm"]));
    ("media-type-supported", (tKeyword, VSet [VStr "plain"; VStr "photo"]));
    ("operations-supported", (tEnum, VSet [VInt 2; VInt 5; VInt 6]));
    ("output-bin-supported", (tKeyword, VSet [VStr "face-down"; VStr "face-up"]));
    ("print-color-mode-supported", (tKeyword, VSet [VStr "color"; VStr "monochrome"]));
    ("pwg-raster-document-resolution-supported", (tResolution, VRes 300 300 3)) ]%string.
Definition tiny_answer : reply :=
  match fst (encodeMsg 1 (mkMsg 0 1 1 [("attributes-charset", (tCharset, VStr "utf-8"))]%string [[("job-id", (tInteger, VInt 42))]]%string tiny_attrs)) with Ok b => Response b | _ => Failed "" end.
Definition tiny_outside : outside :=
  mkOutside (Some "me"%string) (fun _ => "what"%string) (fun _ _ => tiny_answer) (fun _ _ _ => accept) (fun _ _ _ chunks => up_reply good_raster chunks) "/tmp".
Definition tiny_env : client_env :=
  mkEnv (world_of up_docs tiny_outside) (fun f => if String.eqb f "a.pdf" then Some (bytes_of_string "%PDF-1.4") else None) (fun _ => inl "no"%string) JNull "/home/me"
    (fun f => if String.eqb f "/home/me/a.pdf" then Some 2 else None).
Definition tiny_options : list string := ["--paper-size"; "custom_tiny_0.17x0.085mm"; "-c"; "color"; "--media-type"; "photo"; "--output-bin"; "face-up"]%string.
Definition tiny_args : list string := ("print" :: tiny_options ++ [cmd_addr; "a.pdf"])%string%list.
Definition tiny_pairs : list (string * string) := [("--paper-size", "custom_tiny_0.17x0.085mm"); ("--color-mode", "color"); ("--media-type", "photo"); ("--output-bin", "face-up")]%string.
Definition tiny_job : job := match prepare tiny_env (match sub_get_args client_subs (client_init junk0) tiny_args with Ok (_, _, _, st) => st | _ => client_init junk0 end) tiny_attrs with Ok (Some (j, _)) => j | _ => new_job [] [] end.
Definition tiny_final : job := result (finalize (copy_job tiny_job) "application/pdf" 2).
Lemma tiny_settings addr : saved_sendable tiny_env addr.
Proof.
  intros ev pa id add j _ H. assert (Ok j = Ok (new_job pa add)) as [= ->]; [|split; [exact sendable_nil|]; split; [reflexivity|]; split; [exact no_base_nil|split; [exact I|discriminate]]].
  rewrite <- H. unfold restoreSettings in *. destruct (canSaveSettings (new_job pa add)) eqn:C; [|reflexivity]. destruct (settings_file (w_user (e_world tiny_env)) (new_job pa add)) as [path| | | |] eqn:F; try discriminate. cbn [bind] in *.
  destruct (e_files tiny_env path); reflexivity.
Qed.
Example C103_example :
  line tiny_args "print" tiny_pairs [cmd_addr; "a.pdf"]%string /\ present tiny_pairs "--help" = false /\ Forall short tiny_args /\ saved_sendable tiny_env cmd_addr /\ ~ file_printer cmd_addr /\
  (match client tiny_env junk0 tiny_args with ([Posted _ _; Posted _ b; Streamed _ c], Ok 0) =>
     (match decodeMsg b with Ok (m, []) => m_jobAttrs m = [[("media-col", (tBeginCollection, VColl [("media-size", (tBeginCollection, VColl [("x-dimension", (tInteger, VInt 17)); ("y-dimension", (tInteger, VInt 8))])); ("media-type", (tKeyword, VStr "photo"))])); ("output-bin", (tKeyword, VStr "face-up"));
        ("print-color-mode", (tKeyword, VStr "color"))]]%string | _ => False end) | _ => False end) /\
  finalize (copy_job tiny_job) "application/pdf" 2 = Ok (None, tiny_final) /\ d_pdf up_docs "/home/me/a.pdf" = Ok view_doc /\ surfaces view_doc (j_params tiny_final) /\ viewable (j_params tiny_final) 2 1 /\ compressed_as tiny_final NoCompression /\
  (forall hdr chunks, hdr <> [] -> exists t, CurlModel.reachable CurlProperties.stored (CurlSpec.do_print hdr (coding NoCompression) chunks false) t /\ CurlSpec.complete t).
Proof.
  split; [line_example print_flags print_values 2%nat tiny_options|]. split; [reflexivity|]. split; [repeat constructor|]. split; [exact (tiny_settings cmd_addr)|]. split; [intros [s K]; discriminate K|]. split; [vm_compute; reflexivity|].
  split; [vm_compute; reflexivity|]. split; [reflexivity|]. split.
  { intros _. exists 2, 1. split; [split; [vm_compute; reflexivity|]; split; [vm_compute; reflexivity|]; lia|]. intros i [[n t]|] data H; injection H as <-; reflexivity. }
  split.
  { unfold viewable. split; [vm_compute; repeat split; try discriminate; lia|]. split; [vm_compute; repeat split; discriminate|]. split; [vm_compute; reflexivity|]. split; [vm_compute; reflexivity|].
    split; [lia|]. split; [lia|]. split; [left; vm_compute; reflexivity|]. assert (F : p_format (j_params tiny_final) = PWG) by (vm_compute; reflexivity). rewrite F.
    split; (split; [vm_compute; lia|]; intros H; vm_compute in H; intuition discriminate). }
  split; [split; vm_compute; discriminate|]. intros hdr chunks Hh. cbn [coding]. rewrite CurlProperties.do_print_plain.
  destruct (CurlProperties.upload CurlProperties.stored _ [CurlModel.Await] (CurlProperties.chunks_ok hdr chunks Hh)) as [s [R [_ [_ [_ [C _]]]]]]. exists s. split; [exact R|exact C].
Qed.

Print Assumptions C103_printed_partial.
Print Assumptions C103_shown_partial.
