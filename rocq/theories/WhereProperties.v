(** Further theorems for C59, C63, C65, C80, C81 and C100: which file is read, which is written,
    what is told of the jobs of a printer, which formats it prints, and which media are ready. *)
From Verif Require Import Base BaseLemmas MapModel FloatModel StringModel StringSpec StringProofs IppModel IppSpec IppEncProofs JsonModel SettingModel ConverterModel ConverterProperties JobModel PrinterModel PrinterSpec PrinterProperties
  ClientModel OutputModel OutputProperties NameProperties FormatProperties SayModel ParamsModel RenderModel PdfCmdModel PdfCmdSpec PdfCmdProperties.
From Coq Require Import Lia ZifyBool ZifyNat.
Local Open Scope Z_scope.

(** ** C81: which file is read *)
(** [stands_for s t]: as the path of a URI the text [s] stands for [t] (RFC 3986, 2.1): a
    percent sign and two hexadecimal digits are the character with that number, and the other
    characters are themselves; a fragment does not belong to the path, and neither a slash
    nor the null character can be written with a percent sign in the name of a file. *)
Inductive stands_for : string -> string -> Prop :=
| sf_end : stands_for "" ""
| sf_self c s t : c <> "%"%char -> c <> "#"%char -> stands_for s t -> stands_for (String c s) (String c t)
| sf_number a b s t v c : hex_byte a b v -> Zb c = v -> v <> 0 -> c <> "/"%char -> stands_for s t -> stands_for (String "%" (String a (String b s))) (String c t).

Lemma uri_hex_spec c : match hex_value c with Some v => hex_digit_of c v | None => forall v, ~ hex_digit_of c v end.
Proof.
  unfold hex_value, hex_digit_of. set (z := Zb c). destruct ((48 <=? z) && (z <=? 57))%Z eqn:E1; [left; lia|]. destruct ((97 <=? z) && (z <=? 102))%Z eqn:E2; [right; right; lia|].
  destruct ((65 <=? z) && (z <=? 70))%Z eqn:E3; [right; left; lia|]. intros v. lia.
Qed.
Lemma stands_number a b s u : stands_for (String "%" (String a (String b s))) u ->
  exists x y c t, hex_digit_of a x /\ hex_digit_of b y /\ Zb c = 16 * x + y /\ Zb c <> 0 /\ c <> "/"%char /\ u = String c t /\ stands_for s t.
Proof.
  intros H. inversion H as [|? ? ? N|? ? ? t v c (x & y & Hx & Hy & Ev) Hv N0 Ns Hs]; [congruence|]. exists x, y, c, t. rewrite Hv, Ev. rewrite Ev in N0. tauto.
Qed.
Lemma unescape_spec n : forall s t, (String.length s <= n)%nat -> unescape s = Some t <-> stands_for s t.
Proof.
  induction n as [|n IH]; intros s t L; (destruct s as [|c s]; [split; [intros H; injection H as <-; constructor|intros H; inversion H; reflexivity]|cbn [String.length] in L; try lia]).
  cbn [unescape]. destruct (Ascii.eqb_spec c "%") as [->|N1].
  - destruct s as [|a [|b s]]; try (split; [discriminate|intros H; inversion H; congruence]). cbn [String.length] in L.
    pose proof (uri_hex_spec a) as A. pose proof (uri_hex_spec b) as B.
    destruct (hex_value a) as [x|]; [destruct (hex_value b) as [y|]|].
    + assert (R : 0 <= 16 * x + y <= 255) by (unfold hex_digit_of in *; lia). assert (Z0 : Zb (bZ (16 * x + y)) = 16 * x + y) by (apply Zb_bZ_small; lia).
      destruct ((16 * x + y =? 0) || (16 * x + y =? 47)) eqn:E.
      * split; [discriminate|]. intros H. apply stands_number in H. destruct H as (x' & y' & c' & t' & Hx & Hy & Ev & N0 & Ns & -> & Hs).
        rewrite <- (hex_digit_fun _ _ _ A Hx), <- (hex_digit_fun _ _ _ B Hy) in Ev. exfalso. apply orb_true_iff in E. destruct E as [E|E]; apply Z.eqb_eq in E; [lia|].
        apply Ns. rewrite <- (bZ_Zb c'), Ev, E. reflexivity.
      * split.
        -- destruct (unescape s) as [t'|] eqn:U; [|discriminate]. cbn [option_map]. intros H. injection H as <-. apply (sf_number a b s t' (16 * x + y)); [exists x, y; auto|exact Z0|lia| |apply IH; [lia|exact U]].
           intros K. apply (f_equal Zb) in K. change (Zb "/"%char) with 47 in K. change (Zb (bZ (16 * x + y)) = 47) in K. lia.
        -- intros H. apply stands_number in H. destruct H as (x' & y' & c' & t' & Hx & Hy & Ev & N0 & Ns & -> & Hs).
           rewrite <- (hex_digit_fun _ _ _ A Hx), <- (hex_digit_fun _ _ _ B Hy) in Ev. apply IH in Hs; [|lia]. rewrite Hs. cbn [option_map]. rewrite <- Ev, bZ_Zb. reflexivity.
    + split; [discriminate|]. intros H. apply stands_number in H. destruct H as (x' & y' & c' & t' & Hx & Hy & Ev & N0 & Ns & -> & Hs). destruct (B _ Hy).
    + split; [discriminate|]. intros H. apply stands_number in H. destruct H as (x' & y' & c' & t' & Hx & Hy & Ev & N0 & Ns & -> & Hs). destruct (A _ Hx).
  - destruct (Ascii.eqb_spec c "#") as [->|N2]; [split; [discriminate|intros H; inversion H; congruence]|]. split.
    + destruct (unescape s) as [t'|] eqn:U; [|discriminate]. cbn [option_map]. intros H. injection H as <-. constructor; [exact N1|exact N2|]. apply IH; [lia|exact U].
    + intros H. inversion H as [|? ? ? ? ? Hs|]; subst; [|congruence]. apply IH in Hs; [|lia]. rewrite Hs. reflexivity.
Qed.

(** [goes_to cwd name path]: what is written with the name of an output goes there *)
Definition goes_to (cwd name path : string) : Prop := (name = "-"%string /\ path = "-"%string) \/ (name <> "-"%string /\ names_file cwd name path).
Lemma out_path_goes e o path : goes_to (e_cwd e) o path -> out_path e o = path.
Proof.
  unfold out_path. intros [[-> ->]|[N H]]; [reflexivity|]. rewrite (proj2 (String.eqb_neq _ _) N), (absolute_names _ _ _ H). reflexivity.
Qed.
(** The document read is the file that the path stands for, whatever its characters are, if
    it is not the output; a path that stands for no file opens none. *)
Theorem C81_read e i o path out : i <> "-"%string -> names_file (e_cwd e) i path -> goes_to (e_cwd e) o out ->
  (forall file, stands_for path file -> file <> out -> open_document e i o = Ok (match e_file e file with Some b => e_doc e b | None => unopened end)) /\
  ((forall file, ~ stands_for path file) -> open_document e i o = Ok unopened).
Proof.
  intros Hi Hn Ho. apply out_path_goes in Ho. unfold open_document. rewrite (proj2 (String.eqb_neq _ _) Hi), (absolute_names _ _ _ Hn), Ho. cbn [bind]. split.
  - intros file Hs N. apply (unescape_spec (String.length path)) in Hs; [|lia]. rewrite Hs, (proj2 (String.eqb_neq _ _) N). destruct (e_room e out); reflexivity.
  - intros H. destruct (unescape path) as [file|] eqn:U; [|reflexivity]. apply (unescape_spec (String.length path)) in U; [|lia]. destruct (H _ U).
Qed.
Example C81_read_example : stands_for "/a%2Bb%20c" "/a+b c" /\ (forall file, ~ stands_for "/50%" file) /\ (forall file, ~ stands_for "/a%2fb" file) /\ names_file "/home" "a%2Bb" "/home/a%2Bb".
Proof.
  split; [apply (unescape_spec 20); [cbn; lia|vm_compute; reflexivity]|]. split; [intros f H; apply (unescape_spec 20) in H; [discriminate H|cbn; lia]|].
  split; [intros f H; apply (unescape_spec 20) in H; [discriminate H|cbn; lia]|]. exists "/home"%string. split; [right; split; [reflexivity|]|reflexivity]. intros E. apply ends_with_spec in E. discriminate E.
Qed.

(** ** C80: which file is written *)
(** What a conversion writes goes to the file named, or to the standard output if that is -;
    nothing else is opened. *)
Theorem C80_where e p i o out code w : goes_to (e_cwd e) o out -> convert_file e p i o = Ok (code, w) ->
  match e_room e out with None => w = None | Some _ => exists bytes, w = Some (out, bytes) end.
Proof.
  intros Ho H. apply out_path_goes in Ho. unfold convert_file in H. bind_inv H as r R H. bind_inv H as q Q H. destruct q as [ev err]. injection H as _ <-. rewrite Ho. destruct (e_room e out); eauto.
Qed.
Example C80_where_example : goes_to "/home" "-" "-" /\ goes_to "/home/" "out.ps" "/home/out.ps" /\ goes_to "/home" "/tmp/x" "/tmp/x" /\
  convert_file (example_env (fun _ => Some 100)) default_params "in.pdf" "-" = Ok (0, Some ("-"%string, bytes_of_string "page end")).
Proof.
  split; [left; split; reflexivity|]. split; [right; split; [discriminate|exists "/home"%string; split; [left; reflexivity|reflexivity]]|]. split; [right; split; [discriminate|reflexivity]|vm_compute; reflexivity].
Qed.

(** ** C59: jobs printed to a file *)
(** A job for a printer that is a file writes one file: in the directory for temporary files,
    named by the last component of the input's path and the extension of the format. *)
Theorem C59_file_where : forall w p id job inFile fmt pages, file_printer (pr_addr p) -> snd (run_job w p id job inFile fmt pages) = Ok None ->
  exists j name c ext, finalize (copy_job job) fmt pages = Ok (None, j) /\ last_component inFile name /\ In (j_target j, c, ext) FormatProperties.formats /\
  fst (run_job w p id job inFile fmt pages) = [PrinterModel.Wrote (w_temp w ++ "/ippclient-debug-" ++ name ++ ext)%string].
Proof.
  intros w p id job inFile fmt pages Hf H. unfold run_job in *. cbn [fst snd] in *.
  assert (B : snd (run_job_body w p id (copy_job job) inFile fmt pages) = Ok None) by (destruct (snd (run_job_body w p id (copy_job job) inFile fmt pages)); congruence).
  clear H. unfold run_job_body in *. rewrite ebind_pure in *. destruct (int_list _ _); try discriminate. rewrite ebind_pure in *. destruct (finalize _ _ _) as [[err j]| | | |]; try discriminate.
  destruct err as [e|]; [discriminate|]. destruct (getConvertFun fmt (j_target j)) as [conv|] eqn:Ec; [|discriminate].
  apply starts_with_spec in Hf. rewrite Hf in *. unfold do_print_to_file in *. rewrite ebind_pure in *. destruct (defaultExtension (j_target j)) as [ext| | | |] eqn:Ee; try discriminate.
  apply C86_extension in Ee. destruct Ee as [c Ee]. apply ebind_ok in B. destruct B as (x & Hx & _ & F).
  exists j, (base_name inFile), c, ext. split; [reflexivity|]. split; [apply C103_job_name|]. split; [exact Ee|]. rewrite F. reflexivity.
Qed.
Example C59_file_where_example :
  run_job refusing (mkPrinter "file:///tmp/fake" false ex_printer_attrs) 7 ex_job "/home/me/a.pdf" "application/pdf" 3 = ([PrinterModel.Wrote "/tmp/ippclient-debug-a.pdf.pdf"%string], Ok None).
Proof. vm_compute. reflexivity. Qed.

(** ** C63: the jobs of a printer *)
(** What is told of the jobs is what the printer said: for each group of the response, in
    order, the values of its four attributes. *)
Definition tells_of (g : ipp_attrs) (i : job_info) : Prop :=
  ji_id i = number_of g "job-id" /\ ji_name i = text_of g "job-name" /\ ji_state i = number_of g "job-state" /\ ji_message i = text_of g "job-printer-state-message".
Lemma infos_tell l : forall r, job_infos l = Ok r -> Forall2 tells_of l r.
Proof.
  induction l as [|g l IH]; intros r H; cbn [job_infos] in H; [injection H as <-; constructor|].
  bind_inv H as i E1 H. bind_inv H as n E2 H. bind_inv H as s E3 H. bind_inv H as m E4 H. bind_inv H as r' E5 H. injection H as <-. constructor; [|apply IH, E5].
  repeat split; cbn [ji_id ji_name ji_state ji_message]; first [apply get_int_number|apply get_str_text]; assumption.
Qed.
Theorem C63_jobs : forall w p id l, snd (get_jobs w p id) = Ok (None, l) ->
  exists b body r rest, fst (get_jobs w p id) = [Posted (pr_addr p) b] /\ w_post w (pr_addr p) b = Response body /\ decodeMsg body = Ok (r, rest) /\ Forall2 tells_of (m_jobAttrs r) l.
Proof.
  intros w p id l H. unfold get_jobs in *. rewrite ebind_pure in *. destruct (mk_msg _ _ _ _ _ _) as [m| | | |]; try discriminate.
  apply ebind_ok in H. destruct H as ([err r] & Hr & H & F). rewrite F. clear F. cbn [fst snd] in *. destruct err as [t|]; [discriminate|].
  rewrite ebind_pure in *. destruct (job_infos (m_jobAttrs r)) as [l'| | | |] eqn:J; try discriminate. cbn [pure fst snd] in *. injection H as ->.
  unfold do_request in *. destruct (fst (encodeMsg id m)) as [b| | | |] eqn:Eb; try discriminate. cbn [fst snd] in *.
  destruct (w_post w (pr_addr p) b) as [t|body] eqn:Ep; [discriminate|]. destruct (decodeMsg body) as [[r' rest]| | | |] eqn:Ed; try discriminate. injection Hr as ->.
  exists b, body, r, rest. rewrite app_nil_r. split; [reflexivity|]. split; [exact Ep|]. split; [exact Ed|]. apply infos_tell, J.
Qed.
Definition two_jobs : list byte :=
  map bZ [1; 1; 0; 0; 0; 0; 0; 7] ++ [bZ 2] ++
  map bZ [0x21; 0; 6] ++ bytes_of_string "job-id" ++ map bZ [0; 4; 0; 0; 0; 42] ++ map bZ [0x23; 0; 9] ++ bytes_of_string "job-state" ++ map bZ [0; 4; 0; 0; 0; 5] ++
  map bZ [0x42; 0; 8] ++ bytes_of_string "job-name" ++ map bZ [0; 5] ++ bytes_of_string "a.pdf" ++ [bZ 2] ++ map bZ [0x21; 0; 6] ++ bytes_of_string "job-id" ++ map bZ [0; 4; 0; 0; 0; 43] ++ [bZ 3].
Example C63_jobs_example :
  snd (get_jobs (mkWorld None (fun _ => ""%string) (fun _ _ => Response two_jobs) (fun _ _ _ => Ok None) (fun _ _ _ _ _ _ => Failed "") "/tmp") ex_printer 7) =
  Ok (None, [mkInfo 42 "a.pdf" 5 ""; mkInfo 43 "" 0 ""]%string).
Proof. vm_compute. reflexivity. Qed.

(** ** C65: the formats that can be printed *)
(** the device id has a keyword for the format *)
Definition hinted_at (pa : ipp_attrs) (f : string) : Prop :=
  exists kw id, tells f kw /\ (map_get "printer-device-id" pa = None /\ id = ""%string \/ exists t, map_get "printer-device-id" pa = Some (t, VStr id)) /\ occurs kw id.
(** The formats that are printed with conversion: those that something can be made of that
    the printer lists or its device id tells of; each is listed once. *)
Theorem C65_inputs pa l : printerInputFormats pa = Ok l ->
  NoDup l /\ forall i, In i l <-> exists t, producible i t /\ (In t (texts_of pa "document-format-supported") \/ hinted_at pa t).
Proof.
  unfold printerInputFormats. intros H. bind_inv H as base Hb H. bind_inv H as add Ha H. injection H as <-. pose proof (str_list_texts _ _ _ Hb) as ->.
  destruct (C40_input_formats (texts_of pa "document-format-supported" ++ add)) as [N I]. split; [exact N|]. intros i. rewrite I. set (all := (_ ++ add)%list) in *.
  assert (A : forall t, In t all <-> In t (texts_of pa "document-format-supported") \/ hinted_at pa t).
  { intros t. unfold all. rewrite in_app_iff, (C65_additional_formats pa add Ha t). split; [intros [K|[_ K]]; auto|]. intros [K|K]; [auto|].
    destruct (in_dec string_dec t (texts_of pa "document-format-supported")) as [J|J]; [auto|]. right. split; [|exact K]. intros V. apply J. unfold texts_of. apply in_map_iff. exists (VStr t). auto. }
  destruct (C40_sound_complete i all) as [S1 S2]. split.
  - intros [t K]. destruct (S1 t K) as [K1 K2]. exists t. split; [exact K2|apply A, K1].
  - intros (t & P & K). apply A in K. destruct (getTargetFormat i all) as [u|]; [exists u; reflexivity|]. destruct (S2 eq_refl t K P).
Qed.
(** A new job knows the printer's attributes and these formats, and asks for nothing. *)
Theorem C65_job pa j : createJob pa = Ok j -> j_printerAttrs j = pa /\ j_jobAttrs j = [] /\ j_opAttrs j = [] /\
  forall f, In f (j_additional j) <-> ~ In (VStr f) (values "document-format-supported" pa) /\ hinted_at pa f.
Proof.
  unfold createJob. intros H. bind_inv H as add Ha H. injection H as <-. split; [reflexivity|]. split; [reflexivity|]. split; [reflexivity|]. intros f. apply (C65_additional_formats pa add Ha f).
Qed.
Definition hinting : ipp_attrs :=
  [("document-format-supported", (0x49, VSet [VStr "application/octet-stream"; VStr "image/jpeg"])); ("printer-device-id", (0x41, VStr "MFG:A;CMD:PWGRaster,AppleRaster;"))]%string.
Example C65_inputs_example : printerInputFormats hinting = Ok ["application/pdf"; "image/jpeg"; "application/octet-stream"; "image/pwg-raster"; "image/urf"]%string /\
  exists j, createJob hinting = Ok j /\ j_additional j = ["image/pwg-raster"; "image/urf"]%string.
Proof. split; [vm_compute; reflexivity|]. eexists. split; vm_compute; reflexivity. Qed.

(** ** C100: which media are ready *)
(** the same value: tags do not count *)
Inductive same : ipp_value -> ipp_value -> Prop :=
| same_plain v : (forall l, v <> VSet l) -> (forall m, v <> VColl m) -> same v v
| same_set l l' : Forall2 same l l' -> same (VSet l) (VSet l')
| same_coll m m' : Forall2 (fun e e' => fst e = fst e' /\ same (snd (snd e)) (snd (snd e'))) m m' -> same (VColl m) (VColl m').
Lemma value_eqb_same a : forall b, value_eqb a b = true <-> same a b.
Proof.
  induction a as [v Hs Hc|l IH|m IH] using value_ind2; intros b.
  - split.
    + intros H. enough (v = b) as <- by (apply same_plain; assumption).
      destruct v, b; cbn in H; try discriminate H; try (destruct (Hs _ eq_refl)); try (destruct (Hc _ eq_refl)); repeat (apply andb_true_iff in H; destruct H as [H ?]);
        repeat match goal with E : _ = true |- _ => first [apply Z.eqb_eq in E|apply String.eqb_eq in E|apply eqb_prop in E] end; try congruence.
      destruct (date_dec d d0); congruence.
    + intros H. inversion H; subst; [|destruct (Hs _ eq_refl)|destruct (Hc _ eq_refl)].
      destruct b; cbn; try (destruct (Hs _ eq_refl)); try (destruct (Hc _ eq_refl)); rewrite ?Z.eqb_refl, ?String.eqb_refl, ?eqb_reflx; try reflexivity. destruct (date_dec d d); congruence.
  - destruct b as [| | | | | |l'|]; try (split; [discriminate|intros H; inversion H; subst; congruence]). transitivity (Forall2 same l l'); [|split; [apply same_set|intros H; inversion H; subst; [congruence|assumption]]].
    cbn [value_eqb]. revert l'. induction IH as [|x l Hx _ IH]; intros [|y l']; try (split; [discriminate|intros H; inversion H]); [split; constructor|].
    rewrite andb_true_iff, Hx, IH. split; [intros [A B]; constructor; assumption|intros H; inversion H; auto].
  - destruct b as [| | | | | | |m']; try (split; [discriminate|intros H; inversion H; subst; congruence]).
    transitivity (Forall2 (fun e e' => fst e = fst e' /\ same (snd (snd e)) (snd (snd e'))) m m'); [|split; [apply same_coll|intros H; inversion H; subst; [congruence|assumption]]].
    cbn [value_eqb]. revert m'. induction IH as [|[k [t x]] m Hx _ IH]; intros [|[k' [t' y]] m']; try (split; [discriminate|intros H; inversion H]); [split; constructor|].
    cbn [snd] in Hx. rewrite !andb_true_iff, String.eqb_eq, Hx, IH. split; [intros [[A B] C]; constructor; [split; assumption|assumption]|intros H; inversion H as [|? ? ? ? [A B] C]; auto].
Qed.
(** In the list of the values of a printer those are marked that are among the ready ones,
    whatever the types of the values are. *)
Definition marked (ready : list ipp_value) (v : ipp_value) (t : string) : Prop :=
  (exists x, In x ready /\ same x v) /\ t = (value_text v ++ "(ready)")%string \/ (forall x, In x ready -> ~ same x v) /\ t = value_text v.
Theorem C100_ready ready l : exists ts, Forall2 (marked ready) l ts /\ preferred_texts ready l = glue ", " ts.
Proof.
  induction l as [|v l (ts & F & E)]; [exists []; split; [constructor|reflexivity]|]. set (b := existsb (fun x => value_eqb x v) ready).
  exists ((value_text v ++ (if b then "(ready)" else ""))%string :: ts). split.
  - constructor; [|exact F]. unfold marked, b. destruct (existsb _ ready) eqn:X; [left|right]; (split; [|rewrite ?append_nil_r; reflexivity]).
    + apply existsb_exists in X. destruct X as (x & I & X). exists x. split; [exact I|apply value_eqb_same, X].
    + intros x I S. rewrite <- not_true_iff_false in X. apply X, existsb_exists. exists x. split; [exact I|apply value_eqb_same, S].
  - cbn [preferred_texts]. fold b. rewrite E. inversion F; subst; cbn [glue]; rewrite ?append_assoc, ?append_nil_r; reflexivity.
Qed.
Example C100_marked_example : same (VColl [("x"%string, (0x21, VInt 1))]) (VColl [("x"%string, (0x23, VInt 1))]) /\ ~ same (VColl [("x"%string, (0x21, VInt 1))]) (VColl [("y"%string, (0x21, VInt 1))]) /\
  preferred_texts [VInt 4; VStr "a5"] [VStr "a4"; VStr "a5"; VInt 4] = "a4, a5(ready), 4(ready)"%string.
Proof.
  split; [apply value_eqb_same; reflexivity|]. split; [intros H; apply value_eqb_same in H; discriminate H|reflexivity].
Qed.

Print Assumptions C65_inputs.
Print Assumptions C65_job.
Print Assumptions C100_ready.
Print Assumptions C81_read.
Print Assumptions C80_where.
Print Assumptions C59_file_where.
Print Assumptions C63_jobs.
