(** What a run of ippclient leaves in a settings file: the part of ClientModel's print command
    that is done before the job is run, with the text that the event [Wrote] does not have. *)
From Verif Require Import Base StringModel IppModel JsonModel ArgModel JobModel PrinterModel SettingsModel ClientModel.
Local Open Scope Z_scope.

(** ippclient.cpp:158-505 up to the place where the settings are saved: the job, if the run
    gets there and the option --save was given *)
Definition job_to_save (e : client_env) (junk : nat -> aval) (args : list string) : option job :=
  match sub_get_args client_subs (client_init junk) args with
  | Ok (ok, sub, _, st) =>
      if as_bool (a_val st 0%nat) || negb ok then None
      else
        match snd (open_printer e (as_str (a_val st 30%nat))) with
        | Ok (None, pa, _) =>
            if String.eqb sub "print" && as_bool (a_val st 28%nat) then
              match prepare e st pa with
              | Ok (Some (j, fmt)) => match count_pages e fmt (as_str (a_val st 32%nat)) with Some _ => Some j | None => None end
              | _ => None
              end
            else None
        | _ => None
        end
  | _ => None
  end.
(** ippclient.cpp:507-514 with IppPrintJob::saveSettings (ippprintjob.cpp:354-374): the file
    and its new contents *)
Definition settings_written (e : client_env) (junk : nat -> aval) (args : list string) : option (string * list byte) :=
  match job_to_save e junk args with
  | Some j => match saveSettings (w_user (e_world e)) j with Ok (Some s) => Some s | _ => None end
  | None => None
  end.
