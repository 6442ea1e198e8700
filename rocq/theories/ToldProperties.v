(** Further theorem for C99: what the commands other than print say. *)
From Verif Require Import Base BaseLemmas MapModel StringModel StringSpec StringProperties StringProofs ParamsModel ParamsSpec ParamsProperties PpmCmdSpec IppModel IppEncProofs JsonModel ArgModel ArgSpec ArgProperties PpmCmdProperties OptionProofs HelpModel SettingModel SettingProperties ConverterModel JobModel PrinterModel PrinterSpec JobProperties PrinterProperties SettingsModel ClientModel ClientSpec ClientProperties ClientCmdSpec ClientCmdProperties OutputModel OutputProperties SayModel SayProofs SaySpec SayProperties.
From Coq Require Import Lia ZifyBool ZifyNat ZifyN.
Local Open Scope Z_scope.

Lemma say_command pdf e junk name args cmd rs addr p ev error pa id : line args cmd rs (addr :: p) -> present rs "--help" = false -> open_printer e addr = (ev, Ok (error, pa, id)) ->
  exists st flags values n defs pos, In (cmd, (flags, values, n)) commands /\ defined_as cmd flags values n defs pos
   /\ (forall k d, (k < length pos)%nat -> a_val st (pa_id (nth k pos d)) = AStr (nth k (addr :: p) ""%string))
   /\ (forall d, In d defs -> option_read rs (client_init junk) st d)
   /\ let q := mkPrinter addr false pa in
    say_client pdf e junk name args =
      let r := match error with
        | Some m => pure (Ok (fails ("Could not get printer attributes: " ++ m ++ endl)%string))
        | None =>
          if String.eqb cmd "info" then do! t := pure (info_text pa) in pure (Ok (mkSaid (bytes_of_string t) "" 0))
          else if String.eqb cmd "identify" then do! error := identify (e_world e) q id in pure (Ok (ends "Identify" [] error))
          else if String.eqb cmd "get-attrs" then pure (Ok (mkSaid (attributes_text pa) "" 0))
          else if String.eqb cmd "set-attrs" then say_set_attrs e st q id
          else if String.eqb cmd "get-jobs" then do! r := get_jobs (e_world e) q id in pure (Ok (ends "Get-jobs" (bytes_of_string (jobs_text (snd r))) (fst r)))
          else if String.eqb cmd "cancel-job" then say_cancel e st q id
          else if String.eqb cmd "print" then say_print_command pdf (sub_arg_help name client_docs cmd) e st q id
          else pure (Ok (mkSaid [] "" 0)) end in (ev ++ fst r, snd r)%list.
Proof.
  intros H Hh Ho. destruct (line_parsed junk _ _ _ _ H) as (flags & values & n & defs & pos & st & Hc & D & Hl & E & V & R & _). exists st, flags, values, n, defs, pos.
  split; [exact Hc|]. split; [exact D|]. split; [exact V|]. split; [exact R|]. cbv zeta. unfold say_client. rewrite ebind_pure, E. cbv zeta.
  rewrite (line_help junk rs st defs); [|apply D|exact R]. rewrite Hh. cbn [negb]. destruct D as (_ & _ & _ & <- & _ & _ & _ & _ & Hn & Hp).
  specialize (V 0%nat pAddr Hn). rewrite Hp in V. cbn [pa_id pAddr nth] in V. rewrite V. cbn [as_str]. rewrite Ho. unfold ebind at 1. cbn [fst snd]. destruct error; reflexivity.
Qed.
(** [what] has ended with this error, if any, and this output *)
Definition told_end (what out : string) (error : option string) : said :=
  match error with None => mkSaid (bytes_of_string out) "" 0 | Some m => mkSaid [] (what ++ " failed: " ++ m ++ line_feed) 1 end.
(** If the printer cannot be asked, the reason is said; otherwise each command says why its
    request failed, and get-jobs lists the jobs if it did not. *)
Theorem C99_commands pdf e junk name args cmd rs addr p ev error pa id : line args cmd rs (addr :: p) -> present rs "--help" = false -> open_printer e addr = (ev, Ok (error, pa, id)) ->
  let q := mkPrinter addr false pa in let w := e_world e in let says ev' s := say_client pdf e junk name args = ((ev ++ ev')%list, Ok s) in
  match error with
  | Some m => says [] (mkSaid [] ("Could not get printer attributes: " ++ m ++ line_feed) 1)
  | None =>
      (cmd = "identify"%string -> forall ev' r, identify w q id = (ev', Ok r) -> says ev' (told_end "Identify" "" r)) /\
      (cmd = "get-jobs"%string -> forall ev' r l, get_jobs w q id = (ev', Ok (r, l)) -> says ev' (told_end "Get-jobs" (jobs_text l) r)) /\
      (cmd = "cancel-job"%string -> asked rs "--id" = None -> says [] (mkSaid [] ("Please specify a job id with --id." ++ line_feed) 1)) /\
      (cmd = "cancel-job"%string -> forall t, asked rs "--id" = Some t -> exists z, integer t z /\ forall ev' r, cancel_job w q id z = (ev', Ok r) -> says ev' (told_end "Cancel-job" "" r)) /\
      (cmd = "set-attrs"%string -> forall text p', p = text :: p' -> forall l, l <> [] -> text = pairs_text l -> Forall (fun q => plain (fst q) /\ plain (snd q)) l ->
        forall ev' r, set_attributes w q id l = (ev', Ok r) -> says ev' (told_end "Set attributes" "" r))
  end.
Proof.
  intros H Hh Ho. cbv zeta. destruct (say_command pdf e junk name _ _ _ _ _ _ _ _ _ H Hh Ho) as (st & flags & values & n & defs & pos & Hc & D & V & R & ->). cbv zeta.
  destruct error as [m|]; [reflexivity|]. split; [|split; [|split; [|split]]].
  - intros -> ev' r E. cbn [String.eqb Ascii.eqb Bool.eqb]. unfold ebind. rewrite E. cbn [fst snd pure]. rewrite app_nil_r. destruct r; reflexivity.
  - intros -> ev' r l E. cbn [String.eqb Ascii.eqb Bool.eqb]. unfold ebind. rewrite E. cbn [fst snd pure]. rewrite app_nil_r. destruct r; reflexivity.
  - intros -> A. cbn [String.eqb Ascii.eqb Bool.eqb]. assert (F : In oId defs) by (destruct D as (F & _); cbn in F; injection F as <- _; cbn; tauto).
    specialize (R oId F). unfold option_read in R. change (long_name oId) with "--id"%string in R. change (sw_id oId) with 29%nat in R. rewrite A in R. unfold say_cancel. destruct R as [_ ->]. reflexivity.
  - intros -> t A. cbn [String.eqb Ascii.eqb Bool.eqb]. assert (F : In oId defs) by (destruct D as (F & _); cbn in F; injection F as <- _; cbn; tauto).
    specialize (R oId F). unfold option_read in R. change (long_name oId) with "--id"%string in R. change (sw_id oId) with 29%nat in R. rewrite A in R. unfold say_cancel.
    destruct R as [R ->]. unfold suits in R. cbn [sw_kind oId] in R. destruct (a_val st 29) as [|z|] eqn:B; try (destruct R as (neg & m & _ & _ & R); discriminate).
    exists z. split; [exact R|]. intros ev' r E. cbn [as_int]. unfold ebind. rewrite E. cbn [fst snd pure]. rewrite app_nil_r. destruct r; reflexivity.
  - intros -> text p' -> l N T F ev' r E. cbn [String.eqb Ascii.eqb Bool.eqb].
    assert (A : a_val st 31 = AStr text). { destruct D as (G & _). cbn in G. injection G as _ <-. apply (V 1%nat pAddr). cbn. lia. }
    unfold say_set_attrs. rewrite A. cbn [as_str]. cbv zeta. assert (K : key_values (split_string text ",") = Some l) by (apply C72_pairs; auto). rewrite K.
    pose proof (bad_pair_none (split_string text ",")) as B. destruct (bad_pair _) as [kv|]; [exfalso; rewrite K in B; destruct B as [B1 B2]; first [discriminate (B2 ltac:(discriminate))|specialize (B2 ltac:(congruence)); discriminate]|].
    unfold ebind. rewrite E. cbn [fst snd pure]. rewrite app_nil_r. destruct r; reflexivity.
Qed.

Example C99_commands_example :
  run (client_world 4) ["cancel-job"; "--id"; "17"; cmd_addr]%string = Some ("", "", 0)%string /\
  let e := client_world 4 in let w := e_world e in
  let refusing := mkEnv (mkWorld (w_user w) (w_what w) (fun a b => match nth 3 b "0"%char with "011"%char => w_post w a b | _ => Failed "gone" end) (w_convert w) (w_await w) (w_temp w))
    (e_files e) (e_parse e) (e_overrides e) (e_cwd e) (e_pages e) in
  line ["cancel-job"; "--id"; "17"; cmd_addr]%string "cancel-job" [("--id", "17")]%string [cmd_addr] /\
  run refusing ["cancel-job"; "--id"; "17"; cmd_addr]%string = Some ("", "Cancel-job failed: gone" ++ line_feed, 1)%string.
Proof.
  split; [vm_compute; reflexivity|]. cbv zeta. split; [line_example common_flags [("--id", "--id")]%string 1%nat ["--id"; "17"]%string|]. vm_compute. reflexivity.
Qed.
Print Assumptions C99_commands.
