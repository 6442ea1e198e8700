(** C60: settings files torn by a crash; C67: where they are; C68: without USER; C69:
    printers that are files. *)
From Verif Require Import Base BaseLemmas MapModel MapProofs StringModel StringSpec StringProofs IppModel IppSpec IppProperties JsonModel JsonProperties ArgModel SettingModel ConverterModel JobModel
  PrinterModel PrinterSpec PrinterProperties JsonSpec SettingsModel SettingsProofs.
From Coq Require Import Lia ZifyBool ZifyNat.
Local Open Scope Z_scope.
Ltac Zify.zify_post_hook ::= Z.div_mod_to_equations.

(** What is asked of the JSON parser: it accepts only JSON texts, and reads this value
    back from what was written for it. *)
Definition parser_for (parse : list byte -> option json) (j : json) : Prop :=
  (forall t x, parse t = Some x -> json_text t) /\ parse (dump j) = Some j.
(** settings as the program makes them (C31), no dates *)
Definition settings_ok (m : ipp_attrs) : Prop :=
  sorted_keys m /\ Forall (fun e => 0 <= fst (snd e) < 256 /\ json_ok (fst (snd e)) (snd (snd e)) = true) m.
(** the saved settings [s] over the present ones [m] *)
Definition over (s m r : ipp_attrs) : Prop := forall k, map_get k r = match map_get k s with Some a => Some a | None => map_get k m end.

Lemma restore_refused parse t j : parse t = None -> restore_text parse t j = Ok j.
Proof. intros H. unfold restore_text. rewrite H. destruct j. reflexivity. Qed.
Lemma member_settings m : settings_ok m -> forall o, object_items (match m with [] => JNull | _ => attrsToJSON m end) = o -> attrsfromJSON o [] = Ok m.
Proof.
  intros [Hs Hf] o <-. destruct m as [|e m]; [reflexivity|]. destruct (C31_attrs_round_trip_partial (e :: m) Hs Hf) as (o & E & H). rewrite E. exact H.
Qed.

(** A crash while saving leaves a prefix of the text in the file.  Restoring from it, in
    this or another run, changes nothing unless it is the whole text; then all settings
    are restored.  Nothing is raised either way. *)
Theorem C60_torn_file : forall user parse files saved path text j n,
  saveSettings user saved = Ok (Some (path, text)) -> parser_for parse (settings_json saved) ->
  j_printerAttrs j = j_printerAttrs saved ->
  settings_ok (j_opAttrs saved) -> settings_ok (j_jobAttrs saved) -> sorted_keys (j_opAttrs j) -> sorted_keys (j_jobAttrs j) ->
  files path = Some (firstn n text) ->
  ((n < length text)%nat -> restoreSettings user parse files j = Ok j) /\
  ((length text <= n)%nat -> exists op jb, restoreSettings user parse files j = Ok (with_job (with_op j op) jb) /\
     over (j_opAttrs saved) (j_opAttrs j) op /\ over (j_jobAttrs saved) (j_jobAttrs j) jb).
Proof.
  intros user parse files saved path text j n Hs (Hp & Hd) Hpa Ho Hj So Sj Hf. unfold saveSettings in Hs. unfold restoreSettings.
  unfold canSaveSettings, settings_file in *. rewrite Hpa. destruct (map_has _ _); [|discriminate].
  destruct (get_str_attr _ _ _) as [uuid| | | |]; try discriminate. cbn [bind] in *. destruct (settings_dir user) as [dir| | | |]; try discriminate. cbn [bind] in *.
  assert (path = path_append dir uuid /\ text = dump (settings_json saved)) as [-> ->] by (split; congruence). clear Hs. rewrite Hf. split; intros Hn.
  - apply restore_refused. destruct (parse (firstn n (dump (settings_json saved)))) as [x|] eqn:E; [|reflexivity]. apply Hp in E. exfalso.
    unfold settings_json in *. cbv zeta in *.
    match type of E with json_text (firstn n (dump (JObj ?m))) => pose proof (dump_prefix m (firstn n (dump (JObj m))) (skipn n (dump (JObj m))) (eq_sym (firstn_skipn _ _)) E) as C end.
    apply (f_equal (@length byte)) in C. rewrite skipn_length in C. cbn [length] in C. lia.
  - rewrite firstn_all2 by exact Hn. unfold restore_text. rewrite Hd.
    assert (M1 : forall o, object_items (match map_get "op-attrs" (object_items (settings_json saved)) with Some x => x | None => JNull end) = o -> attrsfromJSON o [] = Ok (j_opAttrs saved)).
    { intros o E. apply (member_settings _ Ho). rewrite <- E. unfold settings_json. cbn [object_items]. destruct (j_jobAttrs saved), (j_opAttrs saved); reflexivity. }
    assert (M2 : forall o, object_items (match map_get "job-attrs" (object_items (settings_json saved)) with Some x => x | None => JNull end) = o -> attrsfromJSON o [] = Ok (j_jobAttrs saved)).
    { intros o E. apply (member_settings _ Hj). rewrite <- E. unfold settings_json. cbn [object_items]. destruct (j_jobAttrs saved), (j_opAttrs saved); reflexivity. }
    rewrite (M1 _ eq_refl). cbn [bind]. rewrite (M2 _ eq_refl). cbn [bind]. eexists. eexists. split; [reflexivity|].
    split; intros k; apply overlay_get; first [exact So|exact Sj|apply Ho|apply Hj].
Qed.
(** What is written is a JSON text, so there are such parsers. *)
Theorem C60_written_text : forall user saved path text, saveSettings user saved = Ok (Some (path, text)) -> json_text text.
Proof.
  intros user saved path text H. unfold saveSettings in H. destruct (canSaveSettings saved); [|discriminate]. destruct (settings_file user saved); try discriminate. assert (text = dump (settings_json saved)) as -> by (cbn [bind] in H; congruence).
  apply json_text_dump.
Qed.
(** All or nothing for any settings, whatever is read back from the whole file. *)
Theorem C60_all_or_nothing : forall user parse files saved path text j n,
  saveSettings user saved = Ok (Some (path, text)) -> (forall t x, parse t = Some x -> json_text t) -> j_printerAttrs j = j_printerAttrs saved ->
  files path = Some (firstn n text) ->
  restoreSettings user parse files j = Ok j \/ restoreSettings user parse files j = restoreSettings user parse (fun _ => Some text) j.
Proof.
  intros user parse files saved path text j n Hs Hp Hpa Hf. unfold saveSettings in Hs. unfold restoreSettings.
  unfold canSaveSettings, settings_file in *. rewrite Hpa. destruct (map_has _ _); [|discriminate].
  destruct (get_str_attr _ _ _) as [uuid| | | |]; try discriminate. cbn [bind] in *. destruct (settings_dir user) as [dir| | | |]; try discriminate. cbn [bind] in *.
  assert (path = path_append dir uuid /\ text = dump (settings_json saved)) as [-> ->] by (split; congruence). clear Hs. rewrite Hf. destruct (Nat.lt_ge_cases n (length (dump (settings_json saved)))) as [Hn|Hn].
  - left. apply restore_refused. destruct (parse (firstn n (dump (settings_json saved)))) as [x|] eqn:E; [|reflexivity]. apply Hp in E. exfalso.
    unfold settings_json in *. cbv zeta in *.
    match type of E with json_text (firstn n (dump (JObj ?m))) => pose proof (dump_prefix m (firstn n (dump (JObj m))) (skipn n (dump (JObj m))) (eq_sym (firstn_skipn _ _)) E) as C end.
    apply (f_equal (@length byte)) in C. rewrite skipn_length in C. cbn [length] in C. lia.
  - right. rewrite firstn_all2 by exact Hn. reflexivity.
Qed.

Definition ex_saved : job :=
  with_job (with_op (new_job [("printer-uuid"%string, (0x45, VStr "urn:uuid:1234"))] []) [("compression"%string, (0x44, VStr "gzip"))])
    [("copies"%string, (0x21, VInt 2)); ("page-ranges"%string, (0x33, VRange 1 7))].
Definition ex_parse (t : list byte) : option json := if list_eq_dec ascii_dec t (dump (settings_json ex_saved)) then Some (settings_json ex_saved) else None.
Example C60_example_text :
  match saveSettings (Some "me"%string) ex_saved with Ok (Some (p, t)) => Some (p, string_of_bytes t) | _ => None end =
  Some ("/home/me/.ppm2pwg/saved_settings/urn:uuid:1234"%string,
        "{""job-attrs"": {""copies"": {""tag"": 33, ""value"": 2}, ""page-ranges"": {""tag"": 51, ""value"": {""high"": 7, ""low"": 1}}}, ""op-attrs"": {""compression"": {""tag"": 68, ""value"": ""gzip""}}}"%string).
Proof. vm_compute. reflexivity. Qed.
Example C60_example :
  parser_for ex_parse (settings_json ex_saved) /\ settings_ok (j_opAttrs ex_saved) /\ settings_ok (j_jobAttrs ex_saved) /\
  (let fresh := new_job (j_printerAttrs ex_saved) [] in
   let t := dump (settings_json ex_saved) in
   restoreSettings (Some "me"%string) ex_parse (fun _ => Some (firstn 100 t)) fresh = Ok fresh /\
   restoreSettings (Some "me"%string) ex_parse (fun _ => Some t) fresh = Ok ex_saved).
Proof.
  split; [|split; [|split]].
  - split; [|unfold ex_parse; destruct (list_eq_dec _ _ _); [reflexivity|contradiction]]. intros t x H. unfold ex_parse in H. destruct (list_eq_dec _ _ _) as [->|]; [|discriminate].
    apply json_text_dump.
  - split; [repeat constructor|]. repeat (constructor; [split; [cbn; lia|reflexivity]|]). constructor.
  - split; [repeat constructor|]. repeat (constructor; [split; [cbn; lia|reflexivity]|]). constructor.
  - vm_compute. split; reflexivity.
Qed.

Lemma append_assoc (a b c : string) : ((a ++ b) ++ c = a ++ (b ++ c))%string.
Proof. induction a as [|x a IH]; [reflexivity|]. cbn [String.append]. f_equal. exact IH. Qed.

(** ** C67: settings are kept in the settings' directory *)
(** the path is that of a file directly in the directory *)
Definition directly_in (dir path : string) : Prop := exists name, path = (dir ++ "/" ++ name)%string /\ ~ occurs "/" name /\ name <> ""%string /\ name <> "."%string /\ name <> ".."%string.
Theorem C67_plain_uuid_partial : forall u t uuid j path text, map_get "printer-uuid" (j_printerAttrs j) = Some (t, VStr uuid) ->
  ~ occurs "/" uuid -> uuid <> ""%string -> uuid <> "."%string -> uuid <> ".."%string ->
  saveSettings (Some u) j = Ok (Some (path, text)) -> directly_in ("/home/" ++ u ++ "/.ppm2pwg/saved_settings") path.
Proof.
  intros u t uuid j path text Hu Hs H1 H2 H3 H. unfold saveSettings, canSaveSettings, map_has, settings_file, get_str_attr, attrs_get, attrs_at in H. rewrite Hu in H. cbn [bind snd get_as has_type v_str] in H.
  unfold get_as in H. cbn [has_type bind v_str] in H. unfold settings_dir, config_dir in H. cbn [bind] in H. assert (path = path_append (path_append ("/home/" ++ u ++ "/.ppm2pwg")%string "saved_settings") uuid) as -> by congruence. clear H. exists uuid. split; [|repeat split; assumption].
  assert (S : string_starts_with uuid "/" = false).
  { destruct (string_starts_with uuid "/") eqn:E; [|reflexivity]. apply starts_with_spec in E. destruct E as [r ->]. destruct Hs. exists ""%string, r. reflexivity. }
  unfold path_append. rewrite S. change (string_starts_with "saved_settings" "/") with false. cbv iota. repeat rewrite append_assoc. reflexivity.
Qed.
(** but the printer chooses the uuid, and with it any file *)
Theorem C67_refuted : forall u file, exists j text, saveSettings (Some u) j = Ok (Some (("/" ++ file)%string, text)) /\ map_get "printer-uuid" (j_printerAttrs j) = Some (0x45, VStr ("/" ++ file)).
Proof.
  intros u file. exists (new_job [("printer-uuid"%string, (0x45, VStr ("/" ++ file)))] []). eexists. split; [|reflexivity].
  unfold saveSettings, settings_file. cbn [canSaveSettings new_job j_printerAttrs map_has map_get String.eqb Ascii.eqb Bool.eqb]. unfold get_str_attr, attrs_get, attrs_at. cbn [map_get String.eqb Ascii.eqb Bool.eqb bind snd get_as has_type v_str].
  unfold get_as. cbn [has_type bind v_str settings_dir config_dir]. unfold path_append at 1.
  assert (E : string_starts_with ("/" ++ file) "/" = true) by (apply starts_with_spec; exists file; reflexivity). rewrite E. reflexivity.
Qed.
Example C67_example : exists text, saveSettings (Some "me"%string) (new_job [("printer-uuid"%string, (0x45, VStr "../../.bashrc"))] []) =
  Ok (Some ("/home/me/.ppm2pwg/saved_settings/../../.bashrc"%string, text)).
Proof. eexists. reflexivity. Qed.

(** ** C68: a missing USER *)
(** Requests are then made for an anonymous user (C58), but settings and refreshing a
    printer build paths from it regardless. *)
Theorem C68_settings_refuted : forall parse files j t uuid, map_get "printer-uuid" (j_printerAttrs j) = Some (t, VStr uuid) ->
  saveSettings None j = UB /\ restoreSettings None parse files j = UB.
Proof.
  intros parse files j t uuid H. unfold saveSettings, restoreSettings, canSaveSettings, map_has, settings_file, get_str_attr, attrs_get, attrs_at. rewrite H. split; reflexivity.
Qed.
Theorem C68_refresh_refuted : forall w p id overrides e r, w_user w = None ->
  (forall m, mk_msg w p 0x000B [] [] [] = Ok m -> snd (do_request w p id m) = Ok (e, r) -> snd (refresh w p id overrides) = UB).
Proof.
  intros w p id overrides e r Hu m Hm Hr. unfold refresh. rewrite ebind_pure. unfold opGetPrinterAttrs. rewrite Hm. unfold ebind. rewrite Hr. cbn [fst snd pure]. rewrite Hu. reflexivity.
Qed.
(** With it they are defined: saving and restoring go well or raise an exception. *)
Definition defined {A} (x : outcome A) : Prop := match x with Ok _ | Throw _ => True | _ => False end.
Lemma defined_bind {A B} (x : outcome A) (k : A -> outcome B) : defined x -> (forall a, x = Ok a -> defined (k a)) -> defined (bind x k).
Proof. intros Hx Hk. destruct x; try contradiction; cbn [bind]; [apply Hk; reflexivity|exact I]. Qed.
Lemma defined_at k m : defined (json_at k m).
Proof. unfold json_at. destruct (map_get k m); exact I. Qed.
Lemma defined_attrs m : Forall (fun e => forall t, defined (valuefromJSON t (snd e))) (flat_map (fun e => object_items (snd e)) m) -> forall acc, defined (attrsfromJSON m acc).
Proof.
  induction m as [|[k x] m IH]; intros H acc; [exact I|]. cbn [flat_map snd] in H. apply Forall_app in H. destruct H as [H1 H2]. cbn [attrsfromJSON]. apply defined_bind; [|intros; apply IH; exact H2].
  unfold attrfromJSON. fold (object_items x). apply defined_bind; [apply defined_at|]. intros t _. apply defined_bind; [apply defined_at|]. intros y Hy. apply defined_bind; [|intros; exact I].
  unfold json_at in Hy. destruct (map_get "value" (object_items x)) as [y'|] eqn:E; [|discriminate]. injection Hy as ->. apply map_get_In in E. rewrite Forall_forall in H1. apply (H1 _ E).
Qed.
Lemma defined_value j : (forall t, defined (valuefromJSON t j)) /\ Forall (fun e => forall t, defined (valuefromJSON t (snd e))) (object_items j).
Proof.
  induction j as [j Ha Ho|l IH|m IH] using json_ind2.
  - destruct j as [|s|z|b|l|m]; try (exfalso; eapply Ha; reflexivity); try (exfalso; eapply Ho; reflexivity); split; try constructor; intros t; exact I.
  - split; [|constructor]. intros t. rewrite valuefromJSON_arr. apply defined_bind; [|intros; exact I]. induction IH as [|x l [Hx _] Hl IHl]; [exact I|]. cbn [eachValue].
    apply defined_bind; [apply Hx|]. intros v _. apply defined_bind; [exact IHl|]. intros; exact I.
  - split; [|cbn [object_items]; eapply Forall_impl; [|exact IH]; intros e He; apply He]. intros t. destruct (Z.eq_dec t 0x34) as [->|Ht].
    + rewrite valuefromJSON_coll. apply defined_bind; [|intros; exact I]. apply defined_attrs. clear - IH. induction IH as [|e m [_ He] Hm IHm]; [constructor|]. cbn [flat_map]. apply Forall_app. split; [exact He|exact IHm].
    + cbn [valuefromJSON]. destruct (t =? tIntegerRange); [repeat (apply defined_bind; [apply defined_at|intros]); exact I|].
      destruct (t =? tResolution); [repeat (apply defined_bind; [apply defined_at|intros]); exact I|]. destruct (t =? tDateTime); [exact I|].
      destruct (Z.eqb_spec t tBeginCollection) as [E|_]; [contradiction|exact I].
Qed.
Lemma defined_attrsfromJSON m : defined (attrsfromJSON m []).
Proof.
  apply defined_attrs. induction m as [|e m IH]; [constructor|]. cbn [flat_map]. apply Forall_app. split; [apply defined_value|exact IH].
Qed.
Theorem C68_with_user_partial : forall u parse files j, defined (saveSettings (Some u) j) /\ defined (restoreSettings (Some u) parse files j).
Proof.
  intros u parse files j.
  assert (F : defined (settings_file (Some u) j)).
  { unfold settings_file. apply defined_bind; [|intros; exact I]. unfold get_str_attr, attrs_get, attrs_at, get_as. destruct (map_get _ _) as [a|]; [cbn [bind]; destruct (has_type _ _); exact I|exact I]. }
  unfold saveSettings, restoreSettings. destruct (canSaveSettings j); [|split; exact I]. split; apply defined_bind; try exact F; intros path _; [exact I|].
  destruct (files path) as [t|]; [|exact I]. unfold restore_text. apply defined_bind; [apply defined_attrsfromJSON|]. intros op _. apply defined_bind; [apply defined_attrsfromJSON|]. intros; exact I.
Qed.
Example C68_example : saveSettings None ex_saved = UB /\ snd (refresh (mkWorld None (fun _ => ""%string) (fun _ _ => Failed "no route") (fun _ _ _ => Ok None) (fun _ _ _ _ _ _ => Failed "") "/tmp")
    (mkPrinter "ipp://p/ipp/print" false []) 1 JNull) = UB.
Proof. vm_compute. split; reflexivity. Qed.

(** ** C69: printers that are files *)
(** Loading attributes that were written as JSON gives them, with the overrides. *)
Theorem C69_json_file : forall w parse u m pa overrides, w_user w = Some u -> settings_ok m -> parse (dump (attrsToJSON m)) = inr (attrsToJSON m) ->
  refresh_file w parse (Some (dump (attrsToJSON m))) pa overrides = Ok (None, applyOverrides overrides m).
Proof.
  intros w parse u m pa overrides Hu [Hs Hf] Hp. destruct (C31_attrs_round_trip_partial m Hs Hf) as (o & E & H). unfold refresh_file. rewrite E in *. cbn [dump] in *.
  change (bytes_of_string "{") with ["{"%char] in *. cbn [app] in *. change (Zb "{"%char =? 123) with true. cbv iota. rewrite Hp. cbn [object_items]. rewrite H, Hu. reflexivity.
Qed.
(** So does a message saved as it was received, of a version below 123. *)
Theorem C69_message_file : forall w parse u id m b pa overrides, w_user w = Some u -> wf_msg m = true -> 0 <= id < 4294967296 -> fst (encodeMsg id m) = Ok b -> m_majVsn m < 123 ->
  refresh_file w parse (Some b) pa overrides = Ok (None, applyOverrides overrides (m_printerAttrs m)).
Proof.
  intros w parse u id m b pa overrides Hu Hw Hid Hb Hv. destruct (C25_round_trip id m Hw Hid) as (b' & Hb' & Hd & Hh). rewrite Hb in Hb'. injection Hb' as <-.
  destruct b as [|c b]; [discriminate Hh|]. cbn [firstn app] in Hh. injection Hh as -> _. unfold refresh_file.
  assert (R : 0 <= m_majVsn m < 256). { unfold wf_msg in Hw. repeat (apply andb_prop in Hw as [Hw ?]). unfold u8_ok, u16_ok in *. lia. }
  rewrite Zb_bZ, Z.mod_small by exact R. destruct (Z.eqb_spec (m_majVsn m) 123) as [E|_]; [lia|]. rewrite Hd. cbn [bind m_printerAttrs]. rewrite Hu. reflexivity.
Qed.
(** A file that cannot be used is reported, and the attributes stay but for overrides. *)
Theorem C69_failure_keeps : forall w parse contents pa overrides e pa', refresh_file w parse contents pa overrides = Ok (Some e, pa') -> pa' = pa \/ pa' = applyOverrides overrides pa.
Proof.
  intros w parse contents pa overrides e pa' H. unfold refresh_file in H. destruct contents as [[|c l]|].
  - destruct (config_dir (w_user w)); try discriminate. cbn [bind] in H. right. congruence.
  - destruct (Zb c =? 123).
    + destruct (parse (c :: l)) as [t|j]; [left; congruence|]. destruct (attrsfromJSON (object_items j) []); try discriminate; destruct (config_dir (w_user w)); try discriminate; cbn [bind] in H; first [discriminate H|right; congruence].
    + destruct (decodeMsg (c :: l)) as [[m r]| | | |]; cbn [bind] in H; try discriminate; destruct (config_dir (w_user w)); try discriminate; cbn [bind] in H; first [discriminate H|right; congruence].
  - left. congruence.
Qed.
Example C69_example : exists b,
  fst (encodeMsg 7 (mkMsg 0 2 0 [("attributes-charset"%string, (0x47, VStr "utf-8")); ("attributes-natural-language"%string, (0x48, VStr "en"))] [] ex_printer_attrs)) = Ok b /\
  refresh_file ex_world (fun _ => inl "no"%string) (Some b) [] JNull = Ok (None, ex_printer_attrs).
Proof.
  destruct (fst (encodeMsg 7 (mkMsg 0 2 0 [("attributes-charset"%string, (0x47, VStr "utf-8")); ("attributes-natural-language"%string, (0x48, VStr "en"))] [] ex_printer_attrs))) as [b| | | |] eqn:E;
    vm_compute in E; try discriminate. injection E as <-. eexists. split; [reflexivity|]. vm_compute. reflexivity.
Qed.

Print Assumptions C60_torn_file.
Print Assumptions C60_written_text.
Print Assumptions C60_all_or_nothing.
Print Assumptions C67_plain_uuid_partial.
Print Assumptions C67_refuted.
Print Assumptions C68_settings_refuted.
Print Assumptions C68_refresh_refuted.
Print Assumptions C68_with_user_partial.
Print Assumptions C69_json_file.
Print Assumptions C69_message_file.
Print Assumptions C69_failure_keeps.
