(** C103: lemmas. *)
From Verif Require Import Base BaseLemmas MapModel MapProofs FloatModel StringModel StringSpec StringProofs ParamsModel ParamsSpec ParamsProperties
  IppModel IppSpec IppEncProofs IppDecProofs IppMsgProofs IppProperties JsonModel JsonSpec ArgModel ArgSpec ArgProperties PpmCmdSpec PpmCmdProperties OptionProofs SettingModel SettingProperties ConverterModel ConverterProperties
  JobModel JobProofs JobProperties JobSummary PrinterModel PrinterSpec PrinterProperties SettingsModel SettingsProperties ClientModel ClientSpec ClientProperties ClientCmdSpec ClientCmdProperties
  WireSpec WireProofs WireProperties PrintedSpec.
From Coq Require Import Lia ZifyBool ZifyNat Permutation.
Local Open Scope Z_scope.

Lemma made_read w p op given jobA m : sorted_keys given -> mk_msg w p op given jobA [] = Ok m -> read_as (w_user w) (pr_addr p) (pr_attrs p) op given jobA (wire_msg m).
Proof.
  intros Hs H. pose proof (C58_request _ _ _ _ _ _ _ Hs H) as (R1 & R2 & R3 & R4 & R5). unfold read_as, wire_msg, with_jobs, ones_msg. cbn [m_opOrStatus m_majVsn m_minVsn m_opAttrs m_jobAttrs m_printerAttrs].
  split; [exact R1|]. split; [exact R2|]. split; [|split; [exact R4|exact R5]]. rewrite R3. cbn [map filter]. destruct jobA; reflexivity.
Qed.

(** ** The requests of a job that was printed *)
Lemma run_job_read w p id job inFile fmt pages : user_ok w -> str_ok (pr_addr p) = true -> 0 <= id < 4294967295 -> job_fits job -> str_ok fmt = true -> str_ok (base_name inFile) = true ->
  ~ file_printer (pr_addr p) -> snd (run_job w p id job inFile fmt pages) = Ok None ->
  exists j hdr m given, finalize (copy_job job) fmt pages = Ok (None, j) /\ sendable (j_jobAttrs j) /\
    ((fst (run_job w p id job inFile fmt pages) = [Streamed (pr_addr p) hdr] /\
      print_attrs j (base_name inFile) given /\ read_as (w_user w) (pr_addr p) (pr_attrs p) 0x0002 given (j_jobAttrs j) m /\ ipp_request (w_user w) (pr_addr p) 0x0002 id hdr m)
     \/
     (exists cm cb rb r rest t jobId s,
      fst (run_job w p id job inFile fmt pages) = [Posted (pr_addr p) cb; Streamed (pr_addr p) hdr] /\
      read_as (w_user w) (pr_addr p) (pr_attrs p) 0x0005 [("job-name"%string, (0x42, VStr (base_name inFile)))] (j_jobAttrs j) cm /\ ipp_request (w_user w) (pr_addr p) 0x0005 id cb cm /\
      w_post w (pr_addr p) cb = Response rb /\ has_status rb s /\ success s /\
      decodeMsg rb = Ok (r, rest) /\ (exists g gs, m_jobAttrs r = g :: gs /\ map_get "job-id" g = Some (t, VInt jobId)) /\
      document_attrs j jobId given /\ read_as (w_user w) (pr_addr p) (pr_attrs p) 0x0006 given [] m /\ ipp_request (w_user w) (pr_addr p) 0x0006 (id + 1) hdr m)).
Proof.
  intros Hu Ha Hid F Hf Hn Hnf H. unfold run_job in *. cbn [fst snd] in *.
  assert (B : snd (run_job_body w p id (copy_job job) inFile fmt pages) = Ok None) by (destruct (snd (run_job_body w p id (copy_job job) inFile fmt pages)); congruence).
  clear H. unfold run_job_body in *.
  apply ebind_ok in B. destruct B as (ops & Hops & B & F1). rewrite F1. clear F1. cbn [pure fst app] in *.
  apply ebind_ok in B. destruct B as ([err j] & Hfin & B & F1). rewrite F1. clear F1. cbn [pure fst snd app] in *.
  destruct err as [e|]; [discriminate|]. destruct (getConvertFun fmt (j_target j)) as [conv|] eqn:Hconv; [|discriminate].
  pose proof (finalize_fits (copy_job job) _ _ _ F Hf Hfin) as (G1 & G2 & G3).
  assert (Nm : wf_attr (tNameWithoutLanguage, VStr (base_name inFile)) = true) by (apply str_attr; [reflexivity|exact Hn]).
  destruct (string_starts_with (pr_addr p) "file://") eqn:Hff; [exfalso; apply Hnf, starts_with_spec; exact Hff|].
  exists j. destruct (_ && _ && _) eqn:Htwo.
  - apply ebind_ok in B. destruct B as (cm & Hcm & B & F1). rewrite F1. clear F1. cbn [pure fst snd app] in *.
    apply ebind_ok in B. destruct B as ([err resp] & Hreq & B & F1). rewrite F1. clear F1.
    destruct err as [e|]; [discriminate|]. cbn [pure fst snd] in *. pose proof Hreq as Hreq'.
    unfold do_request in *. destruct (fst (encodeMsg id cm)) as [cb| | | |] eqn:Ecb; try discriminate. cbn [fst snd] in *.
    destruct (w_post w (pr_addr p) cb) as [t|rb] eqn:Epost; [discriminate|]. destruct (decodeMsg rb) as [[r rest]| | | |] eqn:Edec; try discriminate.
    injection Hreq as <-. destruct ((m_opOrStatus r <=? 255) && _) eqn:Eok.
    2:{ apply ebind_ok in B. destruct B as (s & _ & B & _). discriminate. }
    apply andb_prop in Eok. destruct Eok as [Est Ehas].
    apply ebind_ok in B. destruct B as (jobId & Hjid & B & F1). rewrite F1. clear F1. cbn [pure fst snd app] in *.
    apply ebind_ok in B. destruct B as (m & Hm & B & F1). rewrite F1. clear F1. cbn [pure fst snd app] in *.
    apply ebind_ok in B. destruct B as (hdr & Hhdr & B & F1). rewrite F1. clear F1. cbn [pure fst snd app] in *.
    rewrite Z.mod_small in Hhdr by (unfold two32; lia).
    assert (Z : s32_ok jobId = true). { eapply (job_id_ok w p id cm); [unfold do_request; rewrite Ecb; cbn [snd]; rewrite Epost, Edec; reflexivity|reflexivity|exact Hjid]. }
    exists hdr, (wire_msg m). eexists. split; [exact Hfin|]. split; [exact G1|]. right.
    destruct (get_int_some _ _ _ Hjid Ehas) as [t Ht]. pose proof (decode_status _ _ _ Edec) as Hst.
    exists (wire_msg cm), cb, rb, r, rest, t, jobId, (m_opOrStatus r). split; [reflexivity|]. split; [apply made_read; [repeat constructor|exact Hcm]|].
    split. { refine (made_request w p opCreateJob _ (j_jobAttrs j) [] cm id cb Hu Ha _ _ G1 fitting_nil _ _ Hcm Ecb); [apply one_attr_fits; [reflexivity|exact Nm]|unfold no_base; repeat constructor|reflexivity|lia]. }
    split; [first [exact Epost|reflexivity]|].
    split; [exact Hst|]. split; [apply has_status_nonneg in Hst; unfold success; lia|]. split; [first [exact Edec|reflexivity]|].
    split. { destruct (m_jobAttrs r) as [|g gs]; [discriminate Ht|]. exists g, gs. split; [reflexivity|exact Ht]. }
    assert (S1 : sorted_keys (map_set "job-id" (tInteger, VInt jobId) (j_opAttrs j))) by (apply set_sorted; apply G2).
    split; [|split; [apply made_read; [|exact Hm]|]].
    + intros k. rewrite map_get_set by exact S1. rewrite map_get_set by apply G2. reflexivity.
    + apply set_sorted. exact S1.
    + refine (made_request w p opSendDocument _ [] [] m (id + 1) hdr Hu Ha _ _ sendable_nil fitting_nil _ _ Hm Hhdr); [| |reflexivity|lia].
      * apply fitting_set; [apply fitting_set; [exact G2|reflexivity|apply int_attr; [left; reflexivity|exact Z]]|reflexivity|reflexivity].
      * apply no_base_set; [exact S1|not_base|]. apply no_base_set; [apply G2|not_base|exact G3].
  - apply ebind_ok in B. destruct B as (m & Hm & B & F1). rewrite F1. clear F1. cbn [pure fst snd app] in *.
    apply ebind_ok in B. destruct B as (hdr & Hhdr & B & F1). rewrite F1. clear F1. cbn [pure fst snd app] in *.
    exists hdr, (wire_msg m). eexists. split; [exact Hfin|]. split; [exact G1|]. left. split; [reflexivity|].
    split; [|split; [apply made_read; [|exact Hm]|]].
    + intros k. rewrite map_get_set by apply G2. reflexivity.
    + apply set_sorted. apply G2.
    + refine (made_request w p opPrintJob _ (j_jobAttrs j) [] m id hdr Hu Ha _ _ G1 fitting_nil _ _ Hm Hhdr); [| |reflexivity|lia].
      * apply fitting_set; [exact G2|reflexivity|exact Nm].
      * apply no_base_set; [apply G2|not_base|exact G3].
Qed.

(** ** Settings *)
Lemma one_wf t v : wf_attr (t, v) = true -> one v = v.
Proof. destruct v as [x|z|b|lo hi|x y u|d|l|m]; try reflexivity. destruct l as [|x [|y l]]; try reflexivity. cbn. discriminate. Qed.
Lemma get_ones k m : map_get k (ones m) = option_map (fun a => (fst a, one (snd a))) (map_get k m).
Proof. unfold ones. induction m as [|[k' a] m IH]; [reflexivity|]. cbn [map map_get fst snd]. destruct (String.eqb k k'); [reflexivity|exact IH]. Qed.
Lemma lookup_ones s m : job_setting s -> sendable m -> wf_job m -> option_map snd (lookup s (ones m)) = option_map one (option_map snd (lookup s m)).
Proof.
  intros Hs Hm Hw. unfold lookup. destruct Hs as [[E _]|E]; rewrite E; cbn [String.eqb Ascii.eqb Bool.eqb]; rewrite get_ones; [destruct (map_get (s_name s) m) as [[t v]|]; reflexivity|].
  destruct (map_get "media-col" m) as [a|] eqn:M; cbn [option_map fst snd]; [|reflexivity]. destruct (proj2 Hw a M) as (c & -> & _). cbn [fst snd one].
  destruct (map_get (s_name s) c) as [[t v]|] eqn:G; [|reflexivity]. cbn [option_map snd]. f_equal. symmetry. apply (one_wf t).
  apply map_get_In in M. destruct (proj2 (proj1 (sendable_fitting _) Hm) "media-col"%string (tBeginCollection, VColl c)) as [_ W]; [unfold ones; apply in_map_iff; exists ("media-col"%string, (tBeginCollection, VColl c)); split; [reflexivity|exact M]|].
  unfold wf_attr in W. cbn [fst snd wf_val] in W. apply andb_prop in W. destruct W as [_ W]. rewrite forallb_forall in W. apply map_get_In in G. specialize (W _ G). cbn [fst snd] in W. apply andb_prop in W. apply W.
Qed.
Lemma group_lookup s m : option_map snd (lookup s (match group m with g :: _ => g | [] => [] end)) = option_map snd (lookup s (ones m)).
Proof. destruct m; reflexivity. Qed.
Lemma finalized_other s : ~ In (s_name s) finalized_names ->
  existsb (same s) [s_topMargin; s_bottomMargin; s_leftMargin; s_rightMargin; s_media; s_mediaSize; s_pageRanges; s_copies; s_sides; s_resolution] = false.
Proof.
  intros H. unfold finalized_names in H. cbn [In] in H. cbn [existsb]. unfold same. cbn [s_sub s_name s_topMargin s_bottomMargin s_leftMargin s_rightMargin s_media s_mediaSize s_pageRanges s_copies s_sides s_resolution].
  rewrite !orb_false_iff, !andb_false_iff, !String.eqb_neq. repeat split; right; intros E; apply H; rewrite E; tauto.
Qed.

(** ** The client *)
Lemma open_id e addr ev pa id : ~ file_printer addr -> open_printer e addr = (ev, Ok (None, pa, id)) -> id = 2.
Proof.
  intros Hf H. unfold open_printer in H. destruct (string_starts_with addr "file://") eqn:E; [exfalso; apply Hf, starts_with_spec; exact E|].
  assert (K : snd (do! x := refresh (e_world e) (mkPrinter addr false []) 1 (e_overrides e) in pure (Ok (fst x, snd x, 2))) = Ok (None, pa, id)) by (rewrite H; reflexivity).
  apply ebind_ok in K. destruct K as (v & _ & K & _). cbn in K. congruence.
Qed.
Lemma print_done e junk args rs addr file ev : line args "print" rs [addr; file] -> present rs "--help" = false -> client e junk args = (ev, Ok 0) ->
  exists st ev0 pa id j0 j fmt inFile pages ev1 ev2,
    sub_get_args client_subs (client_init junk) args = Ok (true, "print"%string, ""%string, st) /\ a_val st 32 = AStr file /\ prepare e st pa = Ok (Some (j, fmt)) /\ count_pages e fmt file = Some (inFile, pages) /\
    open_printer e addr = (ev0, Ok (None, pa, id)) /\ starts_from e rs pa j0 /\ input_type e rs file fmt /\ document e fmt file inFile pages /\
    (wf_job (j_jobAttrs j0) -> wf_job (j_jobAttrs j) /\ exists l, demands rs meanings l /\ (present rs "--force" = false -> Forall (acceptable pa) (l ++ format_demanded rs)) /\ job_as_demanded rs l j0 j) /\
    (if present rs "--save" then exists path t, saveSettings (w_user (e_world e)) j = Ok (Some (path, t)) /\ ev1 = [Wrote path] else ev1 = []) /\
    run_job (e_world e) (mkPrinter addr (present rs "--print-job-id") pa) id j inFile fmt pages = (ev2, Ok None) /\ ev = ev0 ++ ev1 ++ ev2.
Proof.
  intros H Hh Hc. destruct (line_parsed junk _ _ _ _ H) as (flags & values & n & defs & pos & st & _ & D & _ & E & V & R & _).
  assert (V0 : a_val st 30 = AStr addr). { pose proof D as (_ & _ & _ & L & _ & _ & _ & _ & Hn & Hp). rewrite <- L in Hn. specialize (V 0%nat pAddr Hn). rewrite Hp in V. exact V. }
  pose proof D as (F & _ & _ & _ & _ & _ & _ & Hd & _). assert (Hl : as_bool (a_val st 0) = false) by (rewrite (line_help junk rs st defs Hd R); exact Hh).
  cbn in F. injection F as <- <-. assert (V1 : a_val st 32 = AStr file) by (apply (V 1%nat pAddr); cbn; lia).
  assert (Rd : print_read junk rs st) by exact R.
  unfold client in Hc. rewrite ebind_pure, E, Hl, V0 in Hc. cbn [negb as_str] in Hc.
  assert (Hs : snd (client e junk args) = Ok 0). { unfold client. rewrite ebind_pure, E, Hl, V0. cbn [negb as_str]. rewrite Hc. reflexivity. }
  match type of Hc with ?x = _ => assert (Ev : ev = fst x) by (rewrite Hc; reflexivity); assert (Hz : snd x = Ok 0) by (rewrite Hc; reflexivity) end. clear Hc Hs.
  apply ebind_ok in Hz. destruct Hz as ([[er pa] id] & Ho & Hz & Ev'). rewrite Ev' in Ev. clear Ev'. destruct er as [er|]; [discriminate|]. cbn [String.eqb Ascii.eqb Bool.eqb] in Hz, Ev.
  exists st. exists (fst (open_printer e addr)), pa, id. unfold print_command in *. cbn [pr_attrs pr_addr] in *. rewrite ebind_pure in *. destruct (prepare e st pa) as [[[j fmt]|]| | | |] eqn:P; try discriminate.
  rewrite V1 in *. cbn [as_str] in *. destruct (count_pages e fmt file) as [[inFile pages]|] eqn:C; [|discriminate].
  pose proof P as P'. rewrite prepare_flagged in P'. bind_inv P' as jc Cj P'. bind_inv P' as j0 R0 P'. destruct (input_format e st) as [f|] eqn:I; [|discriminate]. bind_inv P' as r A P'. destruct r as [j'|]; [|discriminate].
  assert (j' = j /\ f = fmt) as [-> ->] by (split; congruence). clear P'.
  pose proof (off28 junk rs st Rd) as G28. pose proof (off27 junk rs st Rd) as G27.
  assert (S : starts_from e rs pa j0). { exists jc. split; [exact Cj|]. rewrite <- G28. destruct (as_bool (a_val st 28)); [congruence|exact R0]. }
  rewrite G28, G27 in *.
  pose proof Hz as Hz'. apply ebind_ok in Hz'. destruct Hz' as (saved & E1 & E2 & E3). rewrite E3 in Ev. clear E3 Hz.
  destruct saved; [|discriminate]. cbn [negb] in *. apply ebind_ok in E2. destruct E2 as (error & E4 & E5 & E6). rewrite E6 in Ev. destruct error; [discriminate|]. cbn [pure fst] in Ev. rewrite app_nil_r in Ev.
  exists j0, j, fmt, inFile, pages. do 2 eexists. split; [first [exact E|reflexivity]|]. split; [reflexivity|]. split; [first [exact P|reflexivity]|]. split; [first [exact C|reflexivity]|].
  split; [rewrite <- Ho; apply surjective_pairing|]. split; [exact S|]. split; [apply (input_format_type junk e rs st file fmt Rd V1); exact I|].
  split; [apply count_pages_document; exact C|]. split.
  { intros Hw. destruct (flagged_job junk rs st j0 Rd) as (F1 & _ & _ & _ & _ & _ & _ & F8 & _). pose proof (starts_attrs _ _ _ _ S) as Hp. split.
    - destruct (C70_accepted st pa _ (flagged st j0) j ltac:(congruence) A ltac:(rewrite F1; exact Hw)) as (_ & _ & _ & _ & W & _). exact W.
    - exists (requests st); split; [apply (print_demands junk); exact Rd|apply (applied_as_demanded junk rs st pa j0 j Rd Hp Hw A)]. }
  split; [|split; [|exact Ev]].
  - destruct (present rs "--save"); [|reflexivity]. rewrite ebind_pure in *. destruct (saveSettings _ j) as [[[path t]|]| | | |]; try discriminate. exists path, t. split; reflexivity.
  - destruct (run_job _ _ _ _ _ _ _) as [ev2 o2]. cbn [fst snd] in *. rewrite E4. reflexivity.
Qed.
