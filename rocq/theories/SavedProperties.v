(** C104: options saved by one print command are used by the following ones. *)
From Verif Require Import Base BaseLemmas MapModel MapProofs FloatModel StringModel StringSpec StringProofs StringProperties ParamsModel ParamsSpec ParamsProperties
  IppModel IppSpec IppEncProofs JsonModel JsonSpec ArgModel ArgSpec ArgProperties PpmCmdSpec PpmCmdProperties OptionProofs SettingModel SettingProperties ConverterModel ConverterProperties JobModel JobProofs JobProperties JobSummary
  RasterModel HeaderModel PpmModel PpmSpec RenderModel RenderProofs RenderProperties PdfCmdModel PdfCmdProperties ShowProperties
  PrinterModel PrinterSpec PrinterProperties UploadModel UploadProperties SettingsModel SettingsProofs SettingsProperties ClientModel ClientSpec ClientProperties ClientCmdSpec ClientCmdProperties
  WireSpec WireProofs WireProperties PrintedSpec PrintedProofs PrintedProperties SavedModel SavedSpec.
From Verif Require CurlModel CurlSpec CurlProperties.
From Coq Require Import Lia ZifyBool ZifyNat.
Local Open Scope Z_scope.

(** ** One command *)
Lemma print_parsed junk args rs p st msg : line args "print" rs p -> sub_get_args client_subs (client_init junk) args = Ok (true, "print"%string, msg, st) ->
  print_read junk rs st /\ exists addr file, p = [addr; file] /\ a_val st 30 = AStr addr /\ a_val st 32 = AStr file.
Proof.
  intros H E. destruct (line_parsed junk _ _ _ _ H) as (flags & values & n & defs & pos & st' & Hc & D & Hl & E' & V & R & _). rewrite E in E'. injection E' as _ <-.
  pose proof D as (F & _ & _ & L & _). cbn in F. injection F as <- <-. cbn in L. rewrite <- L in Hl.
  destruct p as [|addr [|file [|x p]]]; cbn in Hl; try lia. split; [exact R|]. exists addr, file. split; [reflexivity|]. split; [apply (V 0%nat pAddr)|apply (V 1%nat pAddr)]; cbn; lia.
Qed.
Lemma job_saved e junk args j : job_to_save e junk args = Some j -> exists rs addr file ds,
  line args "print" rs [addr; file] /\ present rs "--save" = true /\ options_demand rs ds /\ saved_with args j /\
  (forall s, job_setting s -> option_map snd (lookup s (j_jobAttrs j)) = strongest ds s None) /\
  j_opAttrs j = match asked rs "--format" with Some t => [("document-format"%string, (tMimeMediaType, VStr t))] | None => [] end.
Proof.
  unfold job_to_save. intros H. destruct (sub_get_args client_subs (client_init junk) args) as [[[[ok sub] msg] st]| | | |] eqn:E; try discriminate.
  destruct (as_bool (a_val st 0)); [discriminate|]. destruct ok; [|discriminate]. cbn [orb negb] in H.
  destruct (snd (open_printer e (as_str (a_val st 30)))) as [[[[er|] pa] id]| | | |]; try discriminate.
  destruct (String.eqb_spec sub "print") as [->|]; [|discriminate]. destruct (as_bool (a_val st 28)) eqn:S; [|discriminate]. cbn [andb] in H.
  destruct (prepare e st pa) as [[[j' fmt]|]| | | |] eqn:P; try discriminate. destruct (count_pages e fmt _) as [cp|]; [|discriminate]. injection H as ->.
  destruct (parsed_line _ _ _ _ _ E) as (rs & p & L). destruct (print_parsed _ _ _ _ _ _ L E) as (R & addr & file & -> & _).
  assert (W : saved_with args j) by (exists e, junk, true, msg, st, pa, fmt; auto).
  rewrite prepare_flagged in P. bind_inv P as jc Cj P. rewrite S in P. cbn [bind] in P. destruct (input_format e st) as [f|]; [|discriminate]. bind_inv P as r A P. destruct r as [j2|]; [|discriminate]. injection P as -> ->.
  unfold createJob in Cj. bind_inv Cj as add Hadd Cj. injection Cj as <-.
  destruct (applied_as_demanded junk rs st pa (new_job pa add) j R eq_refl ltac:(split; [exact I|discriminate]) A) as (_ & (lp & Lp & J1) & J2 & _).
  exists rs, addr, file, (lp ++ requests st). split; [exact L|]. split; [rewrite <- (off28 junk rs st R); exact S|]. split; [exists lp, (requests st); split; [exact Lp|]; split; [exact (print_demands junk _ _ R)|reflexivity]|].
  split; [exact W|]. split.
  - intros s Hs. rewrite (J1 s Hs). f_equal. unfold lookup. cbn [new_job j_jobAttrs map_get]. destruct (String.eqb (s_sub s) ""); reflexivity.
  - rewrite J2. destruct (asked rs "--format"); reflexivity.
Qed.
Lemma strongest_app a : forall b s d, strongest (a ++ b) s d = strongest b s (strongest a s d).
Proof. induction a as [|[s' v] a IH]; intros b s d; [reflexivity|]. cbn [app strongest]. apply IH. Qed.
Lemma no_options : options_demand [] [].
Proof.
  exists [], []. split; [reflexivity|]. split; [|reflexivity]. unfold meanings.
  repeat (apply demands_not; [eexists; split; [left; reflexivity|reflexivity]|]). apply demands_none.
Qed.

(** ** The settings files *)
Lemma history_short l : history l -> Forall (fun c => Forall short (c_args c)) l.
Proof. induction 1 as [|l c H IH _ Sh]; [constructor|]. apply Forall_app. split; [exact IH|]. constructor; [exact Sh|constructor]. Qed.
Lemma left_or_not l path : (exists text, left_by l path text) \/ Forall (fun c => forall t, ~ writes c path t) l.
Proof.
  induction l as [|c l IH] using rev_ind; [right; constructor|]. destruct (settings_written (c_env c) (c_junk c) (c_args c)) as [[p t]|] eqn:E.
  - destruct (string_dec p path) as [->|N].
    + left. exists t, l, c, []. split; [reflexivity|]. split; [exact E|constructor].
    + assert (W : forall t, ~ writes c path t) by (intros t' K; unfold writes in K; congruence). destruct IH as [(text & l1 & c1 & l2 & -> & Hw & Hf)|Hf].
      * left. exists text, l1, c1, (l2 ++ [c]). split; [rewrite <- app_assoc; reflexivity|]. split; [exact Hw|]. apply Forall_app. split; [exact Hf|constructor; [exact W|constructor]].
      * right. apply Forall_app. split; [exact Hf|constructor; [exact W|constructor]].
  - assert (W : forall t, ~ writes c path t) by (intros t' K; unfold writes in K; congruence). destruct IH as [(text & l1 & c1 & l2 & -> & Hw & Hf)|Hf].
    + left. exists text, l1, c1, (l2 ++ [c]). split; [rewrite <- app_assoc; reflexivity|]. split; [exact Hw|]. apply Forall_app. split; [exact Hf|constructor; [exact W|constructor]].
    + right. apply Forall_app. split; [exact Hf|constructor; [exact W|constructor]].
Qed.
Lemma plain_path user j t uuid path : map_get "printer-uuid" (j_printerAttrs j) = Some (t, VStr uuid) -> plain_uuid uuid -> settings_file user j = Ok path -> settings_path user uuid path.
Proof.
  intros Hu Hp H. unfold settings_file, get_str_attr, attrs_get, attrs_at in H. rewrite Hu in H. cbn [bind snd] in H. unfold get_as in H. cbn [has_type bind v_str] in H. unfold settings_dir, config_dir in H.
  destruct user as [u|]; [|discriminate]. cbn [bind] in H. exists u. split; [reflexivity|]. split; [exact Hp|].
  assert (path = path_append (path_append ("/home/" ++ u ++ "/.ppm2pwg")%string "saved_settings") uuid) as -> by congruence.
  assert (S : string_starts_with uuid "/" = false).
  { destruct (string_starts_with uuid "/") eqn:E; [|reflexivity]. apply starts_with_spec in E. destruct E as [r ->]. destruct (proj1 Hp). exists ""%string, r. reflexivity. }
  unfold path_append. rewrite S. change (string_starts_with "saved_settings" "/") with false. cbv iota. repeat rewrite append_assoc. reflexivity.
Qed.
Lemma writes_job c path text : writes c path text -> exists j, job_to_save (c_env c) (c_junk c) (c_args c) = Some j /\ text = dump (settings_json j).
Proof.
  unfold writes, settings_written. destruct (job_to_save _ _ _) as [j|]; [|discriminate]. unfold saveSettings. destruct (canSaveSettings j); [|discriminate]. destruct (settings_file _ j) as [p| | | |]; try discriminate. cbn [bind].
  intros H. exists j. split; [reflexivity|congruence].
Qed.
(** what the file of a printer with a plain name holds was written by a command of the history *)
Lemma found l e pa add path text : finds e l -> plainly_named pa -> settings_file (w_user (e_world e)) (new_job pa add) = Ok path -> e_files e path = Some text ->
  canSaveSettings (new_job pa add) = true -> left_by l path text.
Proof.
  intros F Hp Hs Hf C. unfold canSaveSettings, map_has in C. cbn [new_job j_printerAttrs] in C. destruct (map_get "printer-uuid" pa) as [[t v]|] eqn:U; [|discriminate].
  destruct (Hp _ U) as (uuid & Ev & Pu). cbn [snd] in Ev. subst v. apply (F uuid path); [|exact Hf]. exact (plain_path _ (new_job pa add) t uuid path U Pu Hs).
Qed.
Lemma history_saved l e addr : history l -> finds e l -> reads_saved e l -> (forall ev pa id, open_printer e addr = (ev, Ok (None, pa, id)) -> plainly_named pa) ->
  forall ev pa id add path t, open_printer e addr = (ev, Ok (None, pa, id)) -> canSaveSettings (new_job pa add) = true ->
  settings_file (w_user (e_world e)) (new_job pa add) = Ok path -> e_files e path = Some t ->
  exists args saved, Forall short args /\ saved_with args saved /\ t = dump (settings_json saved) /\ parser_for (parse_opt e) (settings_json saved).
Proof.
  intros H F R N ev pa id add path t O C Hs Hf. destruct (found l e pa add path t F (N _ _ _ O) Hs Hf C) as (l1 & c & l2 & -> & W & _). destruct (writes_job _ _ _ W) as (j & J & ->).
  exists (c_args c), j. apply history_short in H. rewrite Forall_forall in H. split; [apply H; apply in_elt|]. destruct (job_saved _ _ _ _ J) as (rs & a & f & ds & _ & _ & _ & Sw & _). split; [exact Sw|]. split; [reflexivity|].
  apply (R c); [apply in_elt|exact J].
Qed.
Lemma history_sendable l e addr : history l -> finds e l -> reads_saved e l -> (forall ev pa id, open_printer e addr = (ev, Ok (None, pa, id)) -> plainly_named pa) -> saved_sendable e addr.
Proof.
  intros H F R N. apply C102_saved. intros ev pa id add path t O C Hs Hf. destruct (history_saved l e addr H F R N ev pa id add path t O C Hs Hf) as (args & saved & A1 & A2 & -> & A4).
  exists args, saved, (length (dump (settings_json saved))). split; [exact A1|]. split; [exact A2|]. split; [symmetry; apply firstn_all|exact A4].
Qed.
(** the options in force: with --save only those of the command count *)
Definition used (l : list command) (user : option string) (pa : ipp_attrs) (rs rs1 : list (string * string)) : Prop :=
  if present rs "--save" then rs1 = [] else in_force l user pa rs1.
Lemma overlay_lookup m : sorted_keys m -> forall s, lookup s (overlay m []) = lookup s m.
Proof.
  intros Hm s. assert (G : forall k, map_get k (overlay m []) = map_get k m) by (intros k; rewrite overlay_get; [|exact Hm|exact I]; destruct (map_get k m); reflexivity).
  unfold lookup. rewrite !G. reflexivity.
Qed.
Lemma nothing_set s : option_map snd (lookup s []) = None.
Proof. unfold lookup. cbn [map_get]. destruct (String.eqb (s_sub s) ""); reflexivity. Qed.
Lemma starts_used l e addr rs pa j0 ev id : history l -> finds e l -> reads_saved e l -> open_printer e addr = (ev, Ok (None, pa, id)) -> plainly_named pa -> starts_from e rs pa j0 ->
  exists rs1 before, used l (w_user (e_world e)) pa rs rs1 /\ options_demand rs1 before /\
    (forall s, job_setting s -> option_map snd (lookup s (j_jobAttrs j0)) = strongest before s None) /\
    j_opAttrs j0 = match asked rs1 "--format" with Some t => [("document-format"%string, (tMimeMediaType, VStr t))] | None => [] end /\
    j_oneStage j0 = false /\ j_params j0 = j_params (new_job pa []).
Proof.
  intros H F R O N (jc & C & S). unfold createJob in C. bind_inv C as add A C. injection C as <-. unfold used.
  assert (Bare : forall j, j = new_job pa add -> exists before, options_demand [] before /\ (forall s, job_setting s -> option_map snd (lookup s (j_jobAttrs j)) = strongest before s None) /\
    j_opAttrs j = match asked [] "--format" with Some t => [("document-format"%string, (tMimeMediaType, VStr t))] | None => [] end /\ j_oneStage j = false /\ j_params j = j_params (new_job pa [])).
  { intros j ->. exists []. split; [exact no_options|]. split; [intros s _; apply nothing_set|]. repeat split. }
  destruct (present rs "--save"); [destruct (Bare j0 S) as [before B]; exists [], before; split; [reflexivity|exact B]|].
  unfold restoreSettings in S. destruct (canSaveSettings (new_job pa add)) eqn:Can.
  2: { injection S as <-. destruct (Bare _ eq_refl) as [before B]. exists [], before. split; [|exact B]. right. split; [|reflexivity]. intros t uuid path U. unfold canSaveSettings, map_has in Can. cbn [new_job j_printerAttrs] in Can. rewrite U in Can. discriminate. }
  bind_inv S as path Hp S.
  pose proof Can as U. unfold canSaveSettings, map_has in U. cbn [new_job j_printerAttrs] in U. destruct (map_get "printer-uuid" pa) as [[t v]|] eqn:Hu; [|discriminate]. clear U.
  destruct (N _ Hu) as (uuid & Ev & Pu). cbn [snd] in Ev. subst v. pose proof (plain_path _ (new_job pa add) t uuid path Hu Pu Hp) as Sp.
  destruct (e_files e path) as [text|] eqn:Ef.
  - destruct (proj1 (F uuid path Sp text) Ef) as (l1 & c & l2 & -> & W & Nw). destruct (writes_job _ _ _ W) as (j & J & ->).
    destruct (job_saved _ _ _ _ J) as (rs1 & a & f & ds & J1 & J2 & J3 & J4 & J5 & J6). exists rs1, ds. split.
    { left. exists t, uuid, path, l1, c, l2, a, f, (dump (settings_json j)). auto 10. }
    apply history_short in H. rewrite Forall_forall in H. specialize (H c (in_elt _ _ _)). destruct (saved_with_fits _ _ H J4) as [[Fs Nd] Wj]. destruct (Nd eq_refl) as [N1 N2].
    pose proof (saves _ (proj1 Fs) N1) as Oj. pose proof (saves_fitting _ (proj1 (proj2 Fs)) N2) as Oo.
    rewrite (restore_whole _ _ _ Fs Oo Oj (proj2 (R c j (in_elt _ _ _) J))) in S. injection S as <-. cbn [with_job with_op j_jobAttrs j_opAttrs j_oneStage j_params new_job].
    split; [exact J3|]. split; [intros s Hs; rewrite (overlay_lookup _ (proj1 Oj)); apply J5; exact Hs|]. split; [rewrite J6; destruct (asked rs1 "--format"); reflexivity|]. split; reflexivity.
  - injection S as <-. destruct (Bare _ eq_refl) as [before B]. exists [], before. split; [|exact B]. right. split; [|reflexivity]. intros t' uuid' path' U Sp'. rewrite Hu in U. injection U as <- <-.
    assert (path' = path) as -> by (destruct Sp as (u & E1 & _ & ->), Sp' as (u' & E2 & _ & ->); congruence).
    destruct (left_or_not l path) as [[text L]|L]; [|exact L]. apply (F uuid path Sp) in L. congruence.
Qed.

(** ** What is written *)
Definition no_file {A} (x : list event * outcome A) : Prop := forall path, ~ In (Wrote path) (fst x).
Lemma no_file_pure {A} (x : outcome A) : no_file (pure x).
Proof. intros path []. Qed.
Lemma no_file_bind {A B} (x : list event * outcome A) (k : A -> list event * outcome B) : no_file x -> (forall v, no_file (k v)) -> no_file (ebind x k).
Proof.
  intros H K path. unfold ebind. destruct (snd x) as [v|er| | |]; cbn [fst]; try apply H. intros I. apply in_app_or in I. destruct I as [I|I]; [exact (H path I)|exact (K v path I)].
Qed.
Lemma no_file_request w p id m : no_file (do_request w p id m).
Proof. intros path. unfold do_request. destruct (fst (encodeMsg id m)); cbn [fst In]; intuition discriminate. Qed.
Lemma no_file_print w p j inFile conv hdr : no_file (do_print w p j inFile conv hdr).
Proof. intros path. unfold do_print. cbn [fst In]. intuition discriminate. Qed.
Ltac no_file := repeat first [apply no_file_pure|apply no_file_request|apply no_file_print|apply no_file_bind; [|intros ?]|match goal with |- no_file (match ?x with _ => _ end) => destruct x end|match goal with |- no_file (if ?x then _ else _) => destruct x end].
Lemma no_file_job w p id j inFile fmt pages : string_starts_with (pr_addr p) "file://" = false -> no_file (run_job w p id j inFile fmt pages).
Proof.
  intros H. assert (B : no_file (run_job_body w p id (copy_job j) inFile fmt pages)); [|exact B]. unfold run_job_body. cbv zeta. rewrite H. no_file.
Qed.
Lemma no_file_open e addr : no_file (open_printer e addr).
Proof. unfold open_printer, refresh. no_file. Qed.
(** [settings_written] is what a command writes: on a network printer, the files that are
    written are those. *)
Theorem C104_written : forall e junk args name rs addr p, line args name rs (addr :: p) -> ~ file_printer addr ->
  forall path, In (Wrote path) (fst (client e junk args)) <-> exists text, settings_written e junk args = Some (path, text).
Proof.
  intros e junk args name rs addr p L Hf path. destruct (line_parsed junk _ _ _ _ L) as (flags & values & n & defs & pos & st & _ & D & _ & E & V & R & _).
  assert (Ad : a_val st 30 = AStr addr). { destruct D as (_ & _ & _ & <- & _ & _ & _ & _ & Hn & Hp). specialize (V 0%nat pAddr Hn). rewrite Hp in V. exact V. }
  assert (Hs : string_starts_with addr "file://" = false). { destruct (string_starts_with addr "file://") eqn:S; [|reflexivity]. apply starts_with_spec in S. destruct S as [s ->]. destruct Hf. exists s. reflexivity. }
  unfold client, settings_written, job_to_save. rewrite ebind_pure, E. destruct (as_bool (a_val st 0)); [cbn [orb fst pure In]; split; [intros []|intros [t K]; discriminate K]|]. cbn [orb negb]. rewrite Ad. cbn [as_str]. pose proof (no_file_open e addr path) as No.
  assert (F : forall text, None <> Some (path, text) :> option (string * list byte)) by discriminate.
  unfold ebind at 1. destruct (snd (open_printer e addr)) as [[[[er|] pa] id]|er| | |]; cbn [fst pure]; rewrite ?app_nil_r; try (split; [intros K; contradiction|intros [t K]; discriminate K]).
  assert (Plain : forall x : list event * outcome Z, no_file x -> In (Wrote path) (fst (open_printer e addr) ++ fst x) <-> exists text, @None (string * list byte) = Some (path, text)).
  { intros x N. split; [|intros [t K]; discriminate K]. intros K. apply in_app_or in K. destruct K as [K|K]; [contradiction|destruct (N _ K)]. }
  destruct (String.eqb_spec name "print") as [->|Np].
  2: { replace (String.eqb name "print" && as_bool (a_val st 28)) with false by (destruct (String.eqb_spec name "print"); [contradiction|reflexivity]). cbn [andb]. apply Plain.
       unfold identify, set_attrs_command, set_attributes, get_jobs, cancel_command, cancel_job. no_file. }
  cbn [String.eqb Ascii.eqb Bool.eqb andb]. unfold print_command. rewrite ebind_pure. cbn [pr_attrs pr_addr].
  destruct (prepare e st pa) as [[[j fmt]|]|er| | |]; cbn [pure fst];
    try (replace (if as_bool (a_val st 28) then @None job else None) with (@None job) by (destruct (as_bool (a_val st 28)); reflexivity); exact (Plain ([], Ok 0) (no_file_pure _))).
  destruct (count_pages e fmt _) as [[inFile pages]|]; [|replace (if as_bool (a_val st 28) then @None job else None) with (@None job) by (destruct (as_bool (a_val st 28)); reflexivity); exact (Plain ([], Ok 0) (no_file_pure _))].
  destruct (as_bool (a_val st 28)).
  - unfold ebind at 1. rewrite ebind_pure. destruct (saveSettings _ j) as [[[path' t]|]|er| | |]; cbn [pure fst snd negb]; try exact (Plain ([], Ok 0) (no_file_pure _)).
    pose proof (no_file_job (e_world e) (mkPrinter addr (as_bool (a_val st 27)) pa) id j inFile fmt pages Hs) as Nj.
    assert (N2 : no_file (do! error := run_job (e_world e) (mkPrinter addr (as_bool (a_val st 27)) pa) id j inFile fmt pages in pure (Ok (exit_code error)))) by (apply no_file_bind; [exact Nj|intros v; apply no_file_pure]).
    rewrite !in_app_iff. cbn [In]. split.
    + intros [K|[[K|[]]|K]]; [contradiction| |destruct (N2 _ K)]. injection K as ->. exists t. reflexivity.
    + intros [t' K]. injection K as -> _. right. left. left. reflexivity.
  - rewrite ebind_pure. cbn [negb]. apply Plain. apply no_file_bind; [apply no_file_job; exact Hs|intros v; apply no_file_pure].
Qed.

(** ** C104 *)
(** A print command that ended with 0, after any commands: the job that was run has, for each
    setting, what the options say that are in force from the last --save for this printer and
    those of the command, the latter being stronger; likewise the format.  A command with
    --save starts afresh, and puts its own options into force.
    Missing: uuids that are not plain names (C67); the switches that are no settings, refuted
    below. *)
Theorem C104_job_partial : forall l e junk args rs addr file ev, history l -> finds e l -> reads_saved e l ->
  line args "print" rs [addr; file] -> present rs "--help" = false -> client e junk args = (ev, Ok 0) ->
  (forall ev0 pa id, open_printer e addr = (ev0, Ok (None, pa, id)) -> plainly_named pa) ->
  exists ev0 pa id rs1 before ds j fmt inFile pages ev1 ev2,
    open_printer e addr = (ev0, Ok (None, pa, id)) /\ used l (w_user (e_world e)) pa rs rs1 /\ options_demand rs1 before /\ options_demand rs ds /\
    (forall s, job_setting s -> option_map snd (lookup s (j_jobAttrs j)) = strongest (before ++ ds) s None) /\
    (forall k, map_get k (j_opAttrs j) = if String.eqb k "document-format" then option_map (fun t => (0x49, VStr t)) (match asked rs "--format" with Some t => Some t | None => asked rs1 "--format" end) else None) /\
    input_type e rs file fmt /\ document e fmt file inFile pages /\
    (if present rs "--save" then exists path text, writes (mkCommand e junk args) path text /\ ev1 = [Wrote path] else ev1 = [] /\ forall path text, ~ writes (mkCommand e junk args) path text) /\
    run_job (e_world e) (mkPrinter addr (present rs "--print-job-id") pa) id j inFile fmt pages = (ev2, Ok None) /\ ev = ev0 ++ ev1 ++ ev2.
Proof.
  intros l e junk args rs addr file ev H F R L Hh Hc N.
  destruct (print_done e junk args rs addr file ev L Hh Hc) as (st & ev0 & pa & id & j0 & j & fmt & inFile & pages & ev1 & ev2 & E & V1 & P & C & Ho & S & It & Dc & Dm & Sv & Hr & ->).
  pose proof (starts_wf _ _ _ _ _ _ _ (history_sendable l e addr H F R N) Ho S) as W0. destruct (Dm W0) as (_ & ls & Dl & _ & Jd). clear Dm. destruct Jd as ((lp & Lp & J1) & J2 & _).
  destruct (starts_used l e addr rs pa j0 ev0 id H F R Ho (N _ _ _ Ho) S) as (rs1 & before & U1 & U2 & U3 & U4 & _).
  destruct (print_parsed _ _ _ _ _ _ L E) as (Rd & addr' & file' & Ep & Va & Vf). injection Ep as <- <-.
  exists ev0, pa, id, rs1, before, (lp ++ ls), j, fmt, inFile, pages, ev1, ev2. split; [exact Ho|]. split; [exact U1|]. split; [exact U2|]. split; [exists lp, ls; auto|].
  split; [intros s Hs; rewrite (J1 s Hs), (U3 s Hs); symmetry; apply strongest_app|]. split.
  { intros k. rewrite J2, U4. destruct (asked rs "--format") as [t|], (asked rs1 "--format") as [t1|]; cbn; destruct (String.eqb k "document-format"); reflexivity. }
  split; [exact It|]. split; [exact Dc|]. split; [|split; [exact Hr|reflexivity]].
  assert (Hw : as_bool (a_val st 0) = false) by (destruct (line_parsed junk _ _ _ _ L) as (flags & values & n & defs & pos & st' & _ & D & _ & E' & _ & Rr & _); rewrite E in E'; injection E' as <-; rewrite (line_help junk rs st defs); [exact Hh|apply D|exact Rr]).
  assert (Jw : settings_written e junk args = if present rs "--save" then match saveSettings (w_user (e_world e)) j with Ok (Some s) => Some s | _ => None end else None).
  { unfold settings_written, job_to_save. rewrite E, Hw. cbn [orb negb]. rewrite Va. cbn [as_str]. rewrite Ho. cbn [snd String.eqb Ascii.eqb Bool.eqb andb]. rewrite (off28 junk rs st Rd). destruct (present rs "--save"); [|reflexivity].
    rewrite P, Vf. cbn [as_str]. rewrite C. reflexivity. }
  destruct (present rs "--save").
  - destruct Sv as (path & t & Sv & ->). exists path, t. split; [|reflexivity]. unfold writes. cbn [c_env c_junk c_args]. rewrite Jw, Sv. reflexivity.
  - split; [exact Sv|]. intros path text K. unfold writes in K. cbn [c_env c_junk c_args] in K. congruence.
Qed.

(** So the printer reads these values: for settings that finalizing does not touch.
    Missing: as before, and what finalizing changes (C35-C39, C61). *)
Theorem C104_read_partial : forall D O l e junk args rs addr file ev, history l -> finds e l -> reads_saved e l ->
  line args "print" rs [addr; file] -> present rs "--help" = false -> Forall short args -> (forall u, w_user (e_world e) = Some u -> short u) ->
  e_world e = world_of D O -> ~ file_printer addr -> client e junk args = (ev, Ok 0) ->
  (forall ev0 pa id, open_printer e addr = (ev0, Ok (None, pa, id)) -> plainly_named pa) ->
  exists pa rs1 before ds jf name hdr m jm,
    used l (w_user (e_world e)) pa rs rs1 /\ options_demand rs1 before /\ options_demand rs ds /\
    (sent_at_once (o_user O) addr pa jf name ev hdr m /\ jm = m \/ sent_in_two (o_user O) (o_post O) addr pa jf name ev hdr jm m) /\
    (forall s, job_setting s -> ~ In (s_name s) finalized_names -> setting_read s jm = option_map one (strongest (before ++ ds) s None)).
Proof.
  intros D O l e junk args rs addr file ev H F R L Hh A U We Hf Hc N.
  destruct (C103_printed_partial D O e junk args rs addr file ev L Hh A U (history_sendable l e addr H F R N) We Hf Hc) as
    (ev0 & pa & j0 & ls & lp & j & fmt & inFile & pages & jf & hdr & m & jm & c & chunks & body & s & Ho & S & Dl & Lp & _ & _ & _ & _ & Q & St & _).
  destruct (starts_used l e addr rs pa j0 ev0 2 H F R Ho (N _ _ _ Ho) S) as (rs1 & before & U1 & U2 & U3 & _).
  exists pa, rs1, before, (lp ++ ls), jf, (base_name inFile), hdr, m, jm. split; [exact U1|]. split; [exact U2|]. split; [exists lp, ls; auto|]. split; [exact Q|].
  intros s' Hs Hn. rewrite (St s' Hs Hn), (U3 s' Hs), <- strongest_app. reflexivity.
Qed.

(** ** Examples *)
(** The printer of C103 with a uuid.  Three commands: one that saves a colour mode and an
    output bin, one that asks for another bin (and for antialiasing), one without options. *)
Definition box_attrs : ipp_attrs := map_set "printer-uuid" (tUri, VStr "urn:uuid:1234") tiny_attrs.
Definition box_answer : reply :=
  match fst (encodeMsg 1 (mkMsg 0 1 1 [("attributes-charset", (tCharset, VStr "utf-8"))]%string [[("job-id", (tInteger, VInt 42))]]%string box_attrs)) with Ok b => Response b | _ => Failed "" end.
Definition box_outside : outside := mkOutside (Some "me"%string) (fun _ => "what"%string) (fun _ _ => box_answer) (fun _ _ _ => accept) (fun _ _ _ chunks => box_answer) "/tmp".
Definition box_env (files : string -> option (list byte)) (parse : list byte -> string + json) : client_env :=
  mkEnv (world_of up_docs box_outside) (fun f => if String.eqb f "a.pdf" then Some (bytes_of_string "%PDF-1.4") else files f) parse JNull "/home/me" (fun f => if String.eqb f "/home/me/a.pdf" then Some 2 else None).
Definition box_options : list string := ["--save"; "--antialias"; "-c"; "monochrome"; "--output-bin"; "face-up"; "--paper-size"; "custom_tiny_0.17x0.085mm"]%string.
Definition box_pairs : list (string * string) := [("--save", ""); ("--antialias", ""); ("--color-mode", "monochrome"); ("--output-bin", "face-up"); ("--paper-size", "custom_tiny_0.17x0.085mm")]%string.
Definition box_first : command := mkCommand (box_env (fun _ => None) (fun _ => inl "no"%string)) junk0 ("print" :: box_options ++ [cmd_addr; "a.pdf"])%string%list.
Definition box_job : job := match job_to_save (c_env box_first) (c_junk box_first) (c_args box_first) with Some j => j | None => new_job [] [] end.
Definition box_path : string := "/home/me/.ppm2pwg/saved_settings/urn:uuid:1234".
Definition box_later : client_env :=
  box_env (fun f => if String.eqb f box_path then Some (dump (settings_json box_job)) else None) (fun t => if list_eq_dec ascii_dec t (dump (settings_json box_job)) then inr (settings_json box_job) else inl "no"%string).
Definition box_args (o : list string) : list string := ("print" :: o ++ [cmd_addr; "a.pdf"])%string%list.
Definition bin_options : list string := ["--output-bin"; "face-down"]%string.
Lemma box_writes path text : writes box_first path text <-> path = box_path /\ text = dump (settings_json box_job).
Proof.
  assert (W : settings_written (c_env box_first) (c_junk box_first) (c_args box_first) = Some (box_path, dump (settings_json box_job))) by (vm_compute; reflexivity).
  unfold writes. rewrite W. split; [intros H; injection H as <- <-; auto|intros [-> ->]; reflexivity].
Qed.
Lemma home_path user uuid path : settings_path user uuid path -> exists s, path = String "/" s.
Proof. intros (u & _ & _ & ->). eexists. reflexivity. Qed.
Lemma box_history : history [box_first].
Proof.
  apply (history_next [] box_first); [constructor| |repeat constructor]. intros uuid path H text. destruct (home_path _ _ _ H) as [s ->]. split.
  - cbn. discriminate.
  - intros (l1 & c & l2 & K & _). destruct l1; discriminate K.
Qed.
Lemma box_finds : finds box_later [box_first].
Proof.
  intros uuid path H text. destruct (home_path _ _ _ H) as [s ->]. unfold box_later, box_env. cbn [e_files]. replace (String.eqb (String "/" s) "a.pdf") with false by reflexivity. destruct (String.eqb_spec (String "/" s) box_path) as [->|N]; split.
  - intros K. exists [], box_first, []. split; [reflexivity|]. split; [apply box_writes; split; congruence|constructor].
  - intros (l1 & c & l2 & K & W & _). destruct l1 as [|x [|y l1]]; try discriminate K. injection K as <- <-. apply box_writes in W. destruct W as [_ ->]. reflexivity.
  - discriminate.
  - intros (l1 & c & l2 & K & W & _). destruct l1 as [|x [|y l1]]; try discriminate K. injection K as <- <-. apply box_writes in W. destruct W as [W _]. contradiction.
Qed.
Lemma box_reads : reads_saved box_later [box_first].
Proof.
  intros c j [<-|[]] J. assert (j = box_job) as -> by (unfold box_job; rewrite J; reflexivity). split.
  - intros t x H. unfold parse_opt, box_later, box_env in H. cbn [e_parse] in H. destruct (list_eq_dec _ _ _) as [->|]; [|discriminate]. apply json_text_dump.
  - unfold parse_opt, box_later, box_env. cbn [e_parse]. destruct (list_eq_dec _ _ _); [reflexivity|contradiction].
Qed.
Lemma box_named ev pa id : open_printer box_later cmd_addr = (ev, Ok (None, pa, id)) -> plainly_named pa.
Proof.
  intros H. assert (E : snd (open_printer box_later cmd_addr) = Ok (None, box_attrs, 2)) by (vm_compute; reflexivity). rewrite H in E. cbn [snd] in E. injection E as -> _. intros a U. vm_compute in U. injection U as <-. eexists. split; [reflexivity|].
  split; [|repeat split; discriminate]. intros (x & y & K). do 13 (destruct x as [|? x]; [discriminate K|cbn in K; injection K as _ K]). destruct x; discriminate K.
Qed.
Definition job_read (x : list event * outcome Z) : list ipp_attrs := match x with ([Posted _ _; Posted _ b; Streamed _ _], Ok 0) => match decodeMsg b with Ok (m, []) => m_jobAttrs m | _ => [] end | _ => [] end.
Example C104_example :
  history [box_first] /\ finds box_later [box_first] /\ reads_saved box_later [box_first] /\ (forall ev pa id, open_printer box_later cmd_addr = (ev, Ok (None, pa, id)) -> plainly_named pa) /\
  line (c_args box_first) "print" box_pairs [cmd_addr; "a.pdf"]%string /\ snd (client (c_env box_first) junk0 (c_args box_first)) = Ok 0 /\
  line (box_args bin_options) "print" [("--output-bin", "face-down")]%string [cmd_addr; "a.pdf"]%string /\
  map (fun k => map_get k (hd [] (job_read (client box_later junk0 (box_args bin_options))))) ["output-bin"; "print-color-mode"]%string = [Some (tKeyword, VStr "face-down"); Some (tKeyword, VStr "monochrome")] /\
  line (box_args []) "print" [] [cmd_addr; "a.pdf"]%string /\
  map (fun k => map_get k (hd [] (job_read (client box_later junk0 (box_args []))))) ["output-bin"; "print-color-mode"]%string = [Some (tKeyword, VStr "face-up"); Some (tKeyword, VStr "monochrome")].
Proof.
  split; [exact box_history|]. split; [exact box_finds|]. split; [exact box_reads|]. split; [exact box_named|]. split; [line_example print_flags print_values 2%nat box_options|]. split; [vm_compute; reflexivity|].
  split; [line_example print_flags print_values 2%nat bin_options|]. split; [vm_compute; reflexivity|]. split; [line_example print_flags print_values 2%nat (@nil string)|vm_compute; reflexivity].
Qed.

Example C104_written_example : In (Wrote box_path) (fst (client (c_env box_first) (c_junk box_first) (c_args box_first))) /\ writes box_first box_path (dump (settings_json box_job)).
Proof. split; [vm_compute; intuition reflexivity|apply box_writes; split; reflexivity]. Qed.

(** Options that are not IPP settings are not saved: after a print command with --save and
    --antialias (help: "Save options as local defaults for future jobs"), the next job is
    drawn without antialiasing. *)
Theorem C104_switches_refuted : exists l e junk rs1 pa j fmt st, history l /\ finds e l /\ reads_saved e l /\ in_force l (w_user (e_world e)) pa rs1 /\ present rs1 "--antialias" = true /\
  (exists ev id, open_printer e cmd_addr = (ev, Ok (None, pa, id))) /\ snd (client e junk (box_args [])) = Ok 0 /\
  (exists ok msg, sub_get_args client_subs (client_init junk) (box_args []) = Ok (ok, "print"%string, msg, st)) /\ prepare e st pa = Ok (Some (j, fmt)) /\ p_antiAlias (j_params j) = false.
Proof.
  set (st := match sub_get_args client_subs (client_init junk0) (box_args []) with Ok (_, _, _, st) => st | _ => client_init junk0 end).
  destruct (prepare box_later st box_attrs) as [[[j fmt]|]| | | |] eqn:P; try (exfalso; vm_compute in P; discriminate P).
  assert (A : match prepare box_later st box_attrs with Ok (Some (j, _)) => p_antiAlias (j_params j) | _ => true end = false) by (vm_compute; reflexivity). rewrite P in A.
  exists [box_first], box_later, junk0, box_pairs, box_attrs, j, fmt, st. split; [exact box_history|]. split; [exact box_finds|]. split; [exact box_reads|]. split.
  { left. exists tUri, "urn:uuid:1234"%string, box_path, [], box_first, [], cmd_addr, "a.pdf"%string, (dump (settings_json box_job)). split; [reflexivity|]. split.
    { exists "me"%string. split; [reflexivity|]. split; [|reflexivity]. split; [|repeat split; discriminate]. intros (x & y & K). do 13 (destruct x as [|? x]; [discriminate K|cbn in K; injection K as _ K]). destruct x; discriminate K. }
    split; [reflexivity|]. split; [line_example print_flags print_values 2%nat box_options|]. split; [reflexivity|]. split; [apply box_writes; auto|constructor]. }
  split; [reflexivity|]. split; [exists (fst (open_printer box_later cmd_addr)), 2; vm_compute; reflexivity|]. split; [vm_compute; reflexivity|]. split; [eexists _, _; unfold st; vm_compute; reflexivity|]. split; [exact P|exact A].
Qed.

Print Assumptions C104_written.
Print Assumptions C104_job_partial.
Print Assumptions C104_read_partial.
Print Assumptions C104_switches_refuted.
