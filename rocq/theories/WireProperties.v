(** C102: what ippclient sends are IPP requests. *)
From Verif Require Import Base BaseLemmas MapModel MapProofs FloatModel StringModel StringSpec StringProofs ParamsModel
  IppModel IppSpec IppEncProofs IppDecProofs IppMsgProofs IppProperties JsonModel JsonSpec JsonProperties ArgModel SettingModel SettingProperties ConverterModel ConverterProperties
  JobModel JobProofs JobProperties PrinterModel PrinterSpec PrinterProperties SettingsModel SettingsProofs SettingsProperties ClientModel ClientSpec ClientProperties ClientCmdSpec ClientCmdProperties WireSpec WireProofs.
From Coq Require Import Lia ZifyBool ZifyNat Permutation.
Local Open Scope Z_scope.

Lemma short_iff s : short s <-> str_ok s = true.
Proof. unfold short, str_ok. lia. Qed.
Lemma saved_fits e addr ev pa id : saved_sendable e addr -> open_printer e addr = (ev, Ok (None, pa, id)) -> saved_fit e pa.
Proof. intros H O add j E. destruct (H _ _ _ _ _ O E) as (H1 & H2 & H3 & _). apply wf_fitting in H2. exact (conj H1 (conj H2 H3)). Qed.
(** Whatever the printer answers, whatever the options are, all that a command sends are IPP
    requests to the printer it names, numbered from 1: the bytes are as RFC 8010 says, and
    the request is read back from them and what follows them.  This is for words and a user
    name below 65536 bytes (C30 is about longer ones) and attributes with a name. *)
Theorem C102_requests e junk args name rs addr p : line args name rs (addr :: p) -> Forall short args ->
  (forall u, w_user (e_world e) = Some u -> short u) -> saved_sendable e addr ->
  (name = "set-attrs"%string -> forall l, nth 0 p ""%string = pairs_text l -> Forall (fun q => plain (fst q) /\ plain (snd q)) l -> Forall (fun q => fst q <> ""%string) l) ->
  all_requests (w_user (e_world e)) addr 1 (fst (client e junk args)).
Proof.
  intros H A U Sv K. destruct (line_parsed junk _ _ _ _ H) as (flags & values & n & defs & pos & st & Hin & D & Hl & E & V & R & _).
  assert (A' : Forall (fun s => str_ok s = true) args) by (eapply Forall_impl; [|exact A]; intros s; apply short_iff).
  assert (U' : user_ok (e_world e)) by (unfold user_ok; destruct (w_user (e_world e)); [apply short_iff; apply U; reflexivity|exact I]).
  assert (Ad : as_str (a_val st 30) = addr).
  { destruct D as (_ & _ & _ & <- & _ & _ & _ & _ & Hn & Hp). specialize (V 0%nat pAddr Hn). rewrite Hp in V. cbn [pa_id pAddr nth] in V. rewrite V. reflexivity. }
  pose proof (client_sent e junk args U' A') as C. rewrite E in C. rewrite <- Ad. apply C; clear C; [intros st' ok sub msg ev pa id Eq; injection Eq as _ _ _ <-; rewrite Ad; apply (saved_fits _ _ _ _ _ Sv)|]. intros st' l ok sub msg Eq Es Kv. injection Eq as _ <- _ <-. subst name. pose proof (args_ok _ _ _ _ _ _ A' E) as So.
  assert (T : as_str (a_val st 31) = nth 0 p ""%string).
  { destruct D as (F & _). cbn in F. injection F as _ <-. specialize (V 1%nat pAddr). cbn [length nth pa_id pAttrs] in V. rewrite V by lia. cbn [as_str]. destruct p; reflexivity. }
  pose proof (key_values_ok _ _ Kv (split_ok _ _ (str_arg _ _ So (or_intror (or_intror (or_introl eq_refl)))))) as L. apply C72_pairs in Kv. destruct Kv as (_ & Kt & Kp). rewrite T in Kt. specialize (K eq_refl l Kt Kp).
  rewrite Forall_forall in *. intros q Hq. specialize (L q Hq). specialize (K q Hq). split; [|apply L]. unfold name_fits. rewrite (proj1 L). destruct (String.eqb_spec (fst q) ""); [contradiction|reflexivity].
Qed.

(** ** Saved settings *)
Lemma wf_u8 v : forall set t, wf_val set t v = true -> u8_ok t = true.
Proof.
  induction v as [v Hs Hc|l IH|m IH] using value_ind2; intros set t W.
  - destruct v as [s|z|b|lo hi|x y u|d|l|m]; cbn [wf_val scalar_ok] in W; try (exfalso; eapply Hs; reflexivity); try (exfalso; eapply Hc; reflexivity); unfold str_tags in W; cbn [existsb] in W; unfold u8_ok; lia.
  - cbn [wf_val] in W. apply andb_prop in W. destruct W as [W F]. destruct l as [|x l]; [cbn [length] in W; lia|]. inversion IH as [|? ? I1 I2]; subst. cbn [forallb] in F. apply andb_prop in F. exact (I1 _ _ (proj1 F)).
  - cbn [wf_val] in W. unfold u8_ok. lia.
Qed.
Lemma wf_json v : forall set t, wf_val set t v = true -> dateless v = true -> json_ok t v = true.
Proof.
  induction v as [v Hs Hc|l IH|m IH] using value_ind2; intros set t W N.
  - destruct v as [s|z|b|lo hi|x y u|d|l|m]; cbn [wf_val scalar_ok json_ok dateless] in *; try (exfalso; eapply Hs; reflexivity); try (exfalso; eapply Hc; reflexivity); try reflexivity; try exact W; try discriminate.
    apply andb_prop in W. apply W.
  - cbn [wf_val json_ok dateless] in *. apply andb_prop in W. destruct W as [_ W]. rewrite forallb_forall in *. intros x Hx. rewrite Forall_forall in IH. exact (IH x Hx _ _ (W x Hx) (N x Hx)).
  - cbn [wf_val json_ok dateless] in *. apply andb_prop in W. destruct W as [W1 W]. rewrite W1. cbn [andb]. rewrite forallb_forall in *. intros x Hx. rewrite Forall_forall in IH.
    specialize (W x Hx). apply andb_prop in W. destruct W as [_ W]. rewrite (wf_u8 _ _ _ W). exact (IH x Hx _ _ W (N x Hx)).
Qed.
Lemma one_json t v : wf_attr (t, one v) = true -> dateless v = true -> u8_ok t = true /\ json_ok t v = true.
Proof.
  unfold wf_attr. cbn [fst snd]. intros W N. split; [exact (wf_u8 _ _ _ W)|]. destruct v as [s|z|b|lo hi|x y u|d|l|m]; try exact (wf_json _ _ _ W N).
  destruct l as [|x [|y l]]; try exact (wf_json _ _ _ W N). destruct x; cbn [one] in W; try exact (wf_json _ _ _ W N);
    cbn [json_ok dateless forallb] in *; rewrite Bool.andb_true_r in *; exact (wf_json _ _ _ W N).
Qed.
Lemma ones_sorted m : sorted_keys (ones m) <-> sorted_keys m.
Proof.
  unfold ones. induction m as [|[k a] m IH]; [reflexivity|]. cbn [map sorted_keys fst]. rewrite IH, Forall_map. reflexivity.
Qed.
Lemma saves m : sendable m -> undated m -> settings_ok m.
Proof.
  intros H N. apply sendable_fitting in H. destruct H as [H1 H2]. split; [apply ones_sorted; exact H1|]. apply Forall_forall. intros [k [t v]] Hin. cbn [fst snd].
  destruct (H2 k (t, one v)) as [_ W]; [unfold ones; apply in_map_iff; exists (k, (t, v)); split; [reflexivity|exact Hin]|]. destruct (one_json t v W (N _ _ Hin)) as [U J]. unfold u8_ok in U. split; [lia|exact J].
Qed.
Lemma saves_fitting m : fitting m -> undated m -> settings_ok m.
Proof.
  intros [H1 H2] N. split; [exact H1|]. apply Forall_forall. intros [k [t v]] Hin. cbn [fst snd]. destruct (H2 _ _ Hin) as [_ W]. pose proof (wf_u8 _ _ _ W) as U. unfold u8_ok in U. cbn [fst] in U. split; [lia|].
  exact (wf_json _ _ _ W (N _ _ Hin)).
Qed.
Lemma overlay_fits l : forall m, (forall k a, In (k, a) l -> name_fits k = true /\ wf_attr a = true) -> fitting m -> fitting (overlay l m).
Proof. induction l as [|[k a] l IH]; intros m L F; [exact F|]. cbn [overlay]. apply IH; [intros; apply L; right; assumption|]. destruct (L k a (or_introl eq_refl)). apply fitting_set; assumption. Qed.
Lemma overlay_sendable l : forall m, (forall k a, In (k, a) l -> name_fits k = true /\ wf_attr (att a) = true) -> sendable m -> sendable (overlay l m).
Proof. induction l as [|[k a] l IH]; intros m L F; [exact F|]. cbn [overlay]. apply IH; [intros; apply L; right; assumption|]. destruct (L k a (or_introl eq_refl)). apply sendable_set; assumption. Qed.
Lemma overlay_job saved : job_fits saved -> sendable (overlay (j_jobAttrs saved) []) /\ fitting (overlay (j_opAttrs saved) []) /\ no_base (overlay (j_opAttrs saved) []).
Proof.
  intros (F1 & F2 & F3). split; [|split].
  - apply overlay_sendable; [|exact sendable_nil]. intros k a Hin. apply sendable_fitting in F1. destruct F1 as [_ F1]. apply (F1 k (att a)). unfold ones. apply in_map_iff. exists (k, a). split; [reflexivity|exact Hin].
  - apply overlay_fits; [apply F2|exact fitting_nil].
  - unfold no_base in *. rewrite Forall_forall in *. intros k Hk. rewrite overlay_get; [|apply F2|exact I]. rewrite (F3 k Hk). reflexivity.
Qed.
Lemma restore_whole parse saved j : job_fits saved -> settings_ok (j_opAttrs saved) -> settings_ok (j_jobAttrs saved) -> parse (dump (settings_json saved)) = Some (settings_json saved) ->
  restore_text parse (dump (settings_json saved)) j = Ok (with_job (with_op j (overlay (j_opAttrs saved) (j_opAttrs j))) (overlay (j_jobAttrs saved) (j_jobAttrs j))).
Proof.
  intros F Ho Hj Hd. unfold restore_text. rewrite Hd.
  assert (M1 : forall o, object_items (match map_get "op-attrs" (object_items (settings_json saved)) with Some x => x | None => JNull end) = o -> attrsfromJSON o [] = Ok (j_opAttrs saved)).
  { intros o E. apply (member_settings _ Ho). rewrite <- E. unfold settings_json. cbn [object_items]. destruct (j_jobAttrs saved), (j_opAttrs saved); reflexivity. }
  assert (M2 : forall o, object_items (match map_get "job-attrs" (object_items (settings_json saved)) with Some x => x | None => JNull end) = o -> attrsfromJSON o [] = Ok (j_jobAttrs saved)).
  { intros o E. apply (member_settings _ Hj). rewrite <- E. unfold settings_json. cbn [object_items]. destruct (j_jobAttrs saved), (j_opAttrs saved); reflexivity. }
  rewrite (M1 _ eq_refl). cbn [bind]. rewrite (M2 _ eq_refl). reflexivity.
Qed.
Lemma saved_with_fits args saved : Forall short args -> saved_with args saved -> okj true saved /\ wf_job (j_jobAttrs saved).
Proof.
  intros A (e & junk & ok & msg & st & pa & fmt & E & B & P). assert (A' : Forall (fun s => str_ok s = true) args) by (eapply Forall_impl; [|exact A]; intros s; apply short_iff).
  pose proof (args_ok _ _ _ _ _ _ A' E) as S.
  unfold prepare in P. bind_inv P as j0 H0 P. unfold createJob in H0. bind_inv H0 as add Hadd H0. injection H0 as <-. rewrite B in P. cbn [bind] in P. cbv zeta in P.
  destruct (input_format e st); [|discriminate]. bind_inv P as r Hr P. destruct r as [j2|]; [|discriminate]. injection P as <- _.
  assert (F : okj true (new_job pa add)) by (split; [split; [exact sendable_nil|]; split; [exact fitting_nil|exact no_base_nil]|intros _; split; intros ? ? []]).
  split.
  - apply (options_fits true _ _ _ _ _ S) in Hr; [exact Hr|]. destruct (a_set st 3), (a_set st 26); exact F.
  - apply C70_accepted in Hr; [destruct Hr as (? & _ & _ & _ & Hr & _); exact Hr|destruct (a_set st 3), (a_set st 26); reflexivity|]. destruct (a_set st 3), (a_set st 26); (split; [exact I|discriminate]).
Qed.
(** Settings files that earlier runs wrote are such: whatever they were told, and if a crash
    tore the file. *)
Theorem C102_saved e addr : only_saved e addr -> saved_sendable e addr.
Proof.
  intros O ev pa id add j Op H. unfold restoreSettings in H.
  assert (F : sendable (j_jobAttrs (new_job pa add)) /\ wf_attrs (j_opAttrs (new_job pa add)) = true /\ no_base (j_opAttrs (new_job pa add)) /\ wf_job (j_jobAttrs (new_job pa add))) by (split; [exact sendable_nil|split; [reflexivity|split; [exact no_base_nil|split; [exact I|discriminate]]]]).
  destruct (canSaveSettings (new_job pa add)) eqn:Can; [|injection H as <-; exact F]. bind_inv H as path Hp H. destruct (e_files e path) as [t|] eqn:Ef; [|injection H as <-; exact F].
  destruct (O _ _ _ _ _ _ Op Can Hp Ef) as (args & saved & n & A & W & -> & P). pose proof (saved_with_fits _ _ A W) as [[Fs N] Wj]. destruct (N eq_refl) as [N1 N2].
  pose proof (saves _ (proj1 Fs) N1) as Oj. pose proof (saves_fitting _ (proj1 (proj2 Fs)) N2) as Oo.
  assert (G : forall t, t = dump (settings_json saved) -> restore_text (parse_opt e) t (new_job pa add) = Ok j -> sendable (j_jobAttrs j) /\ wf_attrs (j_opAttrs j) = true /\ no_base (j_opAttrs j) /\ wf_job (j_jobAttrs j)).
  { intros t -> K. rewrite (restore_whole _ _ _ Fs Oo Oj (proj2 P)) in K. injection K as <-. destruct (overlay_job _ Fs) as (K1 & K2 & K3). cbn [with_job with_op j_jobAttrs j_opAttrs new_job]. split; [exact K1|]. split; [apply wf_fitting; exact K2|]. split; [exact K3|]. split; [apply overlay_sorted; exact I|]. intros a. rewrite overlay_get; [|apply Wj|exact I]. intros G. apply Wj. destruct (map_get "media-col" (j_jobAttrs saved)); [exact G|discriminate]. }
  destruct (Nat.lt_ge_cases n (length (dump (settings_json saved)))) as [Lt|Ge]; [|rewrite firstn_all2 in H by exact Ge; exact (G _ eq_refl H)].
  set (sv := mkJob (j_opAttrs saved) (j_jobAttrs saved) (j_params saved) (j_target saved) (j_oneStage saved) (j_margins saved) pa (j_additional saved)).
  assert (Sv : saveSettings (w_user (e_world e)) sv = Ok (Some (path, dump (settings_json saved)))).
  { unfold saveSettings. change (canSaveSettings sv) with (canSaveSettings (new_job pa add)). rewrite Can. change (settings_file (w_user (e_world e)) sv) with (settings_file (w_user (e_world e)) (new_job pa add)). rewrite Hp. reflexivity. }
  destruct (C60_torn_file (w_user (e_world e)) (parse_opt e) (e_files e) sv path _ (new_job pa add) n Sv P eq_refl Oo Oj I I Ef) as [T _]. specialize (T Lt).
  unfold restoreSettings in T. rewrite Can, Hp in T. cbn [bind] in T. rewrite Ef in T. rewrite T in H. injection H as <-. exact F.
Qed.

(** ** Examples *)
Lemma no_settings q addr : saved_sendable (client_world q) addr.
Proof.
  intros ev pa id add j _ H. assert (Ok j = Ok (new_job pa add)) as [= ->]; [|split; [exact sendable_nil|]; split; [reflexivity|]; split; [exact no_base_nil|split; [exact I|discriminate]]].
  rewrite <- H. unfold restoreSettings. destruct (canSaveSettings (new_job pa add)) eqn:C; [|reflexivity]. unfold restoreSettings in H. rewrite C in H. destruct (settings_file (w_user (e_world (client_world q))) (new_job pa add)) as [path| | | |] eqn:F; try discriminate. cbn [bind] in *.
  destruct (e_files (client_world q) path); reflexivity.
Qed.
Definition good_pairs : list (string * string) :=
  [ ("--pages", "1-3,5-"); ("--copies", "2"); ("--resolution", "300"); ("--top-margin", "300"); ("--sides", "two-sided-long-edge"); ("--format", "image/urf") ]%string.
(** A print command with many options and two requests and a document (C70_example), and
    setting an attribute; other commands are in C92_commands_example. *)
Example C102_example :
  line (ex_args good_options) "print" good_pairs [cmd_addr; "doc.pdf"]%string /\ Forall short (ex_args good_options) /\ short "me" /\ saved_sendable (client_world 4) cmd_addr /\
  (match client (client_world 4) junk0 (ex_args good_options) with ([Posted _ a; Posted _ b; Streamed _ c], Ok 0) => (length a, length b, length c) = (141, 191, 204)%nat | _ => False end) /\
  line ["set-attrs"; cmd_addr; "printer-location=here"]%string "set-attrs" [] [cmd_addr; "printer-location=here"]%string /\
  (forall l, "printer-location=here"%string = pairs_text l -> Forall (fun q => plain (fst q) /\ plain (snd q)) l -> Forall (fun q => fst q <> ""%string) l) /\
  (match client (client_world 4) junk0 ["set-attrs"; cmd_addr; "printer-location=here"]%string with ([Posted _ a; Posted _ b], Ok 0) => True | _ => False end).
Proof.
  split; [line_example print_flags print_values 2%nat good_options|]. split; [repeat constructor|]. split; [reflexivity|]. split; [apply no_settings|]. split; [vm_compute; reflexivity|].
  split; [line_example common_flags (@nil (string * string)) 2%nat (@nil string)|]. split; [|vm_compute; exact I].
  intros l E F. destruct l as [|q l]; [constructor|]. assert (K : key_values (split_string "printer-location=here" ",") = Some (q :: l)) by (apply C72_pairs; split; [discriminate|split; assumption]).
  vm_compute in K. injection K as <- <-. constructor; [discriminate|constructor].
Qed.
(** The settings two options gave, in the file of the printer; the next run takes them. *)
Definition save_args : list string := ex_args ["--save"; "--copies"; "2"; "-tm"; "300"]%string.
Definition saved_job : job := match prepare (client_world 4) (parsed ["--save"; "--copies"; "2"; "-tm"; "300"]%string) (client_printer 4) with Ok (Some (j, _)) => j | _ => new_job [] [] end.
Definition saved_path : string := "/home/me/.ppm2pwg/saved_settings/urn:uuid:1234".
Definition saved_parse (t : list byte) : string + json := if list_eq_dec ascii_dec t (dump (settings_json saved_job)) then inr (settings_json saved_job) else inl "no"%string.
Definition saved_env : client_env :=
  mkEnv (e_world (client_world 4)) (fun f => if String.eqb f saved_path then Some (dump (settings_json saved_job)) else e_files (client_world 4) f) saved_parse JNull "/home/me" (e_pages (client_world 4)).
Example C102_saved_example : only_saved saved_env cmd_addr /\
  (match restoreSettings (Some "me"%string) (parse_opt saved_env) (e_files saved_env) (new_job [("printer-uuid", (tUri, VStr "urn:uuid:1234"))]%string []) with
   | Ok j => j_jobAttrs j = [("copies", (tInteger, VInt 2)); ("media-col", (tBeginCollection, VColl [("media-top-margin", (tInteger, VInt 300))]))]%string
   | _ => False end).
Proof.
  split; [|vm_compute; reflexivity]. intros ev pa id add path t _ _ Hp Hf. cbn [saved_env e_files] in Hf. destruct (String.eqb_spec path saved_path) as [->|N].
  - injection Hf as <-. exists save_args, saved_job, (length (dump (settings_json saved_job))). split; [repeat constructor|]. split.
    + destruct (sub_get_args client_subs (client_init junk0) save_args) as [[[[ok sub] msg] st]| | | |] eqn:E; try (vm_compute in E; discriminate).
      exists (client_world 4), junk0, ok, msg, st, (client_printer 4), "application/pdf"%string.
      assert (st = parsed ["--save"; "--copies"; "2"; "-tm"; "300"]%string) as -> by (unfold parsed; fold save_args; rewrite E; reflexivity).
      assert (sub = "print"%string) as -> by (vm_compute in E; injection E; congruence). split; [exact E|]. split; vm_compute; reflexivity.
    + rewrite firstn_all. split; [reflexivity|]. split.
      * intros t x H. unfold parse_opt, saved_env, saved_parse in H. cbn [e_parse] in H. destruct (list_eq_dec _ _ _) as [->|]; [|discriminate]. apply json_text_dump.
      * unfold parse_opt, saved_env, saved_parse. cbn [e_parse]. destruct (list_eq_dec _ _ _); [reflexivity|contradiction].
  - exfalso. unfold settings_file in Hp. bind_inv Hp as uuid Hu Hp. cbn in Hp. injection Hp as <-. cbn in Hf. destruct (String.eqb_spec (path_append "/home/me/.ppm2pwg/saved_settings" uuid) "doc.pdf") as [K|]; [|discriminate]. unfold path_append in K. destruct (string_starts_with uuid "/") eqn:S; [subst uuid|]; discriminate.
Qed.

Print Assumptions C102_requests.
Print Assumptions C102_saved.
