(** utils/ippdiscover.cpp with lib/udpsocket.h, and the URLs that lib/curlrequester.cpp makes
    of printer addresses. *)
From Verif Require Import Base StringModel ArgModel HelpModel DiscoveryModel.
Local Open Scope Z_scope.

(** ** UdpSocket::receive: udpsocket.h:46-69 *)
(** A datagram, or nothing: two seconds without one, or an error of recvfrom.  That
    setsockopt fails, which throws, is left out. *)
Inductive arrival := Datagram (d : list byte) | Nothing.
(** [size] is BS_REASONABLE_FILE_SIZE, a constant of the bytestream submodule; recvfrom drops
    what does not fit the buffer *)
Definition udp_receive (size : nat) (a : arrival) : list byte :=
  match a with Datagram d => firstn size d | Nothing => [] end.
(** ippdiscovery.cpp:265: the datagrams for which the loop runs.  A Bytestream without bytes
    converts to false.  After the list nothing arrives. *)
Fixpoint heard (size : nat) (l : list arrival) : list (list byte) :=
  match l with
  | [] => []
  | a :: l' => match udp_receive size a with [] => [] | d => d :: heard size l' end
  end.

(** ** main: ippdiscover.cpp:12-41 *)
Definition discover_switches : list documented :=
  [ (mkSwitch 0 KBool ["-h"; "--help"] "", "Print this help text"); (mkSwitch 1 KBool ["-v"; "--verbose"] "", "Be verbose") ]%string.
(** the variables before parsing: ippdiscover.cpp:14-15 *)
Definition discover_init : astate := mkA (fun _ => ABool false) (fun _ => false).
(** exit code, standard output and the queries sent *)
Record discover_run := mkRun { r_code : Z; r_stdout : string; r_queries : list (list byte) }.
(** the callback: ippdiscover.cpp:39 *)
Fixpoint print_found (acts : list action) : string :=
  match acts with
  | [] => ""
  | Reported a :: acts' => (a ++ endl ++ print_found acts')%string
  | Sent _ :: acts' => print_found acts'
  end.
Fixpoint queries (acts : list action) : list (list byte) :=
  match acts with [] => [] | Sent q :: acts' => q :: queries acts' | Reported _ :: acts' => queries acts' end.
(** [name] is argv[0] *)
Definition ippdiscover (size : nat) (clock : nat -> Z) (arrivals : list arrival) (name : string) (args : list string) : outcome discover_run :=
  let! (r, st) := get_args (map fst discover_switches) [] discover_init args in
  let '(ok, _) := r in
  if as_bool (a_val st 0%nat) then Ok (mkRun 0 (arg_help name discover_switches [] ++ endl) [])
  else if negb ok then Ok (mkRun 1 "" [])
  else
    let! (_, acts) := discover clock (heard size arrivals) in
    Ok (mkRun 0 (print_found acts) (queries acts)).

(** ** The URL of a request: curlrequester.cpp:159-160; erase(0, 3) on a shorter string leaves
    nothing *)
Definition request_url (addr : string) : string := ("http" ++ drop 3 addr)%string.
