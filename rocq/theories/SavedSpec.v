(** C104: commands given one after the other. *)
From Verif Require Import Base MapModel StringModel StringSpec IppModel ArgModel SettingModel JsonModel JobModel PrinterModel PpmCmdSpec SettingsModel SettingsProperties ClientModel ClientCmdSpec ClientCmdProperties WireSpec SavedModel.
Local Open Scope Z_scope.

(** a command: what it finds (its [e_files] are all files at that time), the values of
    variables that are not initialised, and its words *)
Record command := mkCommand { c_env : client_env; c_junk : nat -> aval; c_args : list string }.
Definition writes (c : command) (path : string) (text : list byte) : Prop := settings_written (c_env c) (c_junk c) (c_args c) = Some (path, text).
(** a uuid that is a plain name (C67) *)
Definition plain_uuid (uuid : string) : Prop := ~ occurs "/" uuid /\ uuid <> ""%string /\ uuid <> "."%string /\ uuid <> ".."%string.
(** the file with the user's settings for the printer with this uuid *)
Definition settings_path (user : option string) (uuid path : string) : Prop := exists u,
  user = Some u /\ plain_uuid uuid /\ path = ("/home/" ++ u ++ "/.ppm2pwg/saved_settings/" ++ uuid)%string.
(** the last of the commands [l] to write the file left this text in it *)
Definition left_by (l : list command) (path : string) (text : list byte) : Prop :=
  exists l1 c l2, l = l1 ++ c :: l2 /\ writes c path text /\ Forall (fun c' => forall t, ~ writes c' path t) l2.
(** in the settings files there is what the commands [l] left, and nothing else *)
Definition finds (e : client_env) (l : list command) : Prop := forall uuid path, settings_path (w_user (e_world e)) uuid path ->
  forall text, e_files e path = Some text <-> left_by l path text.
(** Commands [l] given one after the other, of short words; nothing else writes settings
    files. *)
Inductive history : list command -> Prop :=
| history_none : history []
| history_next l c : history l -> finds (c_env c) l -> Forall short (c_args c) -> history (l ++ [c]).
(** the parser reads what these commands wrote (and nothing that is not JSON) *)
Definition reads_saved (e : client_env) (l : list command) : Prop := forall c j, In c l -> job_to_save (c_env c) (c_junk c) (c_args c) = Some j -> parser_for (parse_opt e) (settings_json j).
(** the demands of options *)
Definition options_demand (rs : list (string * string)) (ds : list (setting * ipp_value)) : Prop := exists lp l, pages_demanded rs lp /\ demands rs meanings l /\ ds = lp ++ l.
(** the uuid of a printer, if it has one, is a plain name *)
Definition plainly_named (pa : ipp_attrs) : Prop := forall a, map_get "printer-uuid" pa = Some a -> exists uuid, snd a = VStr uuid /\ plain_uuid uuid.
(** The options [rs1] that are in force for a printer after the commands [l]: those of the last
    print command with --save that wrote the settings file of its uuid; none without one. *)
Definition in_force (l : list command) (user : option string) (pa : ipp_attrs) (rs1 : list (string * string)) : Prop :=
  (exists t uuid path l1 c l2 addr file text, map_get "printer-uuid" pa = Some (t, VStr uuid) /\ settings_path user uuid path /\
     l = l1 ++ c :: l2 /\ line (c_args c) "print" rs1 [addr; file] /\ present rs1 "--save" = true /\ writes c path text /\ Forall (fun c' => forall t, ~ writes c' path t) l2) \/
  ((forall t uuid path, map_get "printer-uuid" pa = Some (t, VStr uuid) -> settings_path user uuid path -> Forall (fun c' => forall t, ~ writes c' path t) l) /\ rs1 = []).
