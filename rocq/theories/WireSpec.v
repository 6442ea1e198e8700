(** C102: what a request is on the wire, and what has to be true of the words, the user's
    name and the saved settings for it to fit there. *)
From Verif Require Import Base MapModel StringModel IppModel IppSpec JsonModel JsonSpec ArgModel SettingModel SettingProperties JobModel PrinterModel PrinterSpec SettingsModel SettingsProperties ClientModel.
From Coq Require Import Permutation.
Local Open Scope Z_scope.

(** RFC 8010, 3.1.5: on the wire an attribute with a set of one value is an attribute with
    that value. *)
Definition one (v : ipp_value) : ipp_value :=
  match v with
  | VSet [x] => match x with VSet _ => v | _ => x end
  | _ => v
  end.
Definition ones (m : ipp_attrs) : ipp_attrs := map (fun e => (fst e, (fst (snd e), one (snd (snd e))))) m.
(** attributes that fit on the wire: names and strings below 65536 bytes, values of the
    types their tags say *)
Definition sendable (m : ipp_attrs) : Prop := wf_attrs (ones m) = true.
Definition short (s : string) : Prop := (Z.of_nat (String.length s) < 65536).
(** none of the attributes every request has *)
Definition no_base (m : ipp_attrs) : Prop :=
  Forall (fun k => map_get k m = None) ["attributes-charset"; "attributes-natural-language"; "printer-uri"; "requesting-user-name"]%string.

(** The bytes [b] are the request [m] with this id: by the format of RFC 8010 3.1.1 (the
    attributes RFC 8011 4.1.4-4.1.5 wants first come first); well formed; whatever document
    follows (but for C29), [m] and the document are read from them; and it has the version,
    operation and base attributes of a request to that printer (RFC 8011 4.1.4-4.1.5, 4.1.8). *)
Record ipp_request (user : option string) (addr : string) (op id : Z) (b : list byte) (m : ipp_msg) : Prop := mkRequest {
  rq_bytes : exists ops, b = msg_bytes id m ops /\ Permutation ops (m_opAttrs m) /\ rank_sorted ops;
  rq_wf : wf_msg m = true;
  rq_read : forall doc, ~ (exists x, doc = bZ 0 :: bZ 0 :: x) -> decodeMsg (b ++ doc) = Ok (m, doc);
  rq_op : m_opOrStatus m = op;
  rq_version : (m_majVsn m, m_minVsn m) = (1, 1) \/ (m_majVsn m, m_minVsn m) = (2, 0);
  rq_base : forall k a, base_attr user addr k = Some a -> map_get k (m_opAttrs m) = Some a }.

(** The operations without a document (RFC 8011 5.4.15: Create-Job, Cancel-Job, Get-Jobs,
    Get-Printer-Attributes, Set-Printer-Attributes, Identify-Printer) and those with one
    (Print-Job, Send-Document). *)
Definition plain_ops : list Z := [0x0005; 0x0008; 0x000A; 0x000B; 0x0013; 0x003C].
Definition document_ops : list Z := [0x0002; 0x0006].
(** all that is sent are such requests to that printer, with consecutive ids *)
Fixpoint all_requests (user : option string) (addr : string) (id : Z) (evs : list event) : Prop :=
  match evs with
  | [] => True
  | Wrote _ :: l => all_requests user addr id l
  | Posted a b :: l => a = addr /\ (exists op m, In op plain_ops /\ ipp_request user addr op id b m) /\ all_requests user addr (id + 1) l
  | Streamed a b :: l => a = addr /\ (exists op m, In op document_ops /\ ipp_request user addr op id b m) /\ all_requests user addr (id + 1) l
  end.

(** The saved settings of the printer at [addr] fit on the wire; media-col is a collection. *)
Definition saved_sendable (e : client_env) (addr : string) : Prop := forall ev pa id add j, open_printer e addr = (ev, Ok (None, pa, id)) ->
  restoreSettings (w_user (e_world e)) (parse_opt e) (e_files e) (new_job pa add) = Ok j ->
  sendable (j_jobAttrs j) /\ wf_attrs (j_opAttrs j) = true /\ no_base (j_opAttrs j) /\ wf_job (j_jobAttrs j).
(** [saved] is a job whose settings a run of ippclient with these words and the option --save
    writes, whatever the printer and the files are *)
Definition saved_with (args : list string) (saved : job) : Prop := exists e junk ok msg st pa fmt,
  sub_get_args client_subs (client_init junk) args = Ok (ok, "print"%string, msg, st) /\ as_bool (a_val st 28%nat) = true /\ prepare e st pa = Ok (Some (saved, fmt)).
(** The settings file of the printer at [addr] was written by such runs with short words, perhaps torn, and the
    JSON parser accepts no other texts than JSON's and reads them right. *)
Definition only_saved (e : client_env) (addr : string) : Prop := forall ev pa id add path t, open_printer e addr = (ev, Ok (None, pa, id)) -> map_has "printer-uuid" pa = true ->
  settings_file (w_user (e_world e)) (new_job pa add) = Ok path -> e_files e path = Some t ->
  exists args saved n, Forall short args /\ saved_with args saved /\ t = firstn n (dump (settings_json saved)) /\ parser_for (parse_opt e) (settings_json saved).
