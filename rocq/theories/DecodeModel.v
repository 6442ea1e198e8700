(** utils/ippdecode.cpp *)
From Verif Require Import Base StringModel MapModel IppModel JsonModel SettingsModel WarnModel.
Local Open Scope Z_scope.

(** a heading and the attributes below it: ippdecode.cpp:27, 30, 32 *)
Definition attrs_text (heading : string) (m : ipp_attrs) : list byte := line (bytes_of_string heading) ++ line (dump (attrsToJSON m)).
(** ippdecode.cpp:26-32 *)
Definition msg_text (m : ipp_msg) : list byte :=
  line (bytes_of_string ("IPP operation or status: " ++ dec_string (m_opOrStatus m))) ++
  attrs_text "Operation attrs: " (m_opAttrs m) ++
  flat_map (attrs_text "Job attrs: ") (m_jobAttrs m) ++
  attrs_text "Printer attrs: " (m_printerAttrs m).
(** main: ippdecode.cpp:7-38: exit code, standard output, standard error.  [file] gives the
    contents of a file that can be opened, or for - the standard input; all exceptions of
    the decoder are std::exceptions. *)
Definition ippdecode (file : string -> option (list byte)) (args : list string) : outcome (Z * list byte * list byte) :=
  match args with
  | [name] =>
      match file name with
      | None => Ok (1, [], line (bytes_of_string "Failed to open input"))
      | Some b =>
          let (warnings, r) := decodeMsg_w b in
          match r with
          | Ok (m, _) => Ok (0, msg_text m, warnings)
          | Throw _ => Ok (0, [], warnings ++ line (bytes_of_string "Exception caught."))
          | UB => UB
          | Hang => Hang
          | NoFuel => NoFuel
          end
      end
  | _ => Ok (1, [], line (bytes_of_string "Usage: ippdecode [file]"))
  end.
