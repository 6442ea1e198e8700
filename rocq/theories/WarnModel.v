(** lib/ippmsg.cpp again: what reading a message writes to standard error. *)
From Verif Require Import Base MapModel IppModel JsonModel SettingsModel.
Local Open Scope Z_scope.

(** a line of text: what is written before std::endl and the line break *)
Definition line (b : list byte) : list byte := b ++ [bZ 10].
(** ippmsg.cpp:32-38 (not in the fuzzing build).  No line break follows the JSON text. *)
Definition unsupported_warning (attrs : ipp_attrs) : list byte :=
  line (bytes_of_string "WARNING: unsupported attrs reported: ") ++ dump (attrsToJSON attrs).
Definition warned (group : Z) (attrs : ipp_attrs) : list byte :=
  if group =? tUnsupportedAttrs then unsupported_warning attrs else [].
(** the loop of the constructor, [decode_loop], with what it writes: ippmsg.cpp:16-52 *)
Fixpoint decode_loop_w (fuel : nat) (m : ipp_msg) (group : Z) (attrs : ipp_attrs) (s : list byte) : list byte * outcome (ipp_msg * list byte) :=
  match s with
  | [] => ([], Ok (m, []))
  | t :: r =>
      match fuel with
      | O => ([], NoFuel)
      | S fuel' =>
          if Zb t <=? tUnsupportedAttrs then
            let w := warned group attrs in
            let m := store_group m group attrs in
            if Zb t =? tEndAttrs then (w, Ok (m, r))
            else let (w', x) := decode_loop_w fuel' m (Zb t) [] r in (w ++ w', x)
          else
            match consumeAttribute attrs s with
            | Ok (attrs, s') => decode_loop_w fuel' m group attrs s'
            | Throw e => ([], Throw e)
            | UB => ([], UB)
            | Hang => ([], Hang)
            | NoFuel => ([], NoFuel)
            end
      end
  end.
(** IppMsg::IppMsg(Bytestream&): ippmsg.cpp:7-53; what is written, and the message *)
Definition decodeMsg_w (s : list byte) : list byte * outcome (ipp_msg * list byte) :=
  let header := (let! (maj, s) := get_u8 s in
                 let! (min, s) := get_u8 s in
                 let! (op, s) := get_u16 s in
                 let! (_, s) := get_u32 s in
                 Ok (mkMsg op maj min [] [] [], s)) in
  match header with
  | Ok (m, s) => decode_loop_w (length s) m tEndAttrs [] s
  | Throw e => ([], Throw e)
  | UB => ([], UB)
  | Hang => ([], Hang)
  | NoFuel => ([], NoFuel)
  end.
