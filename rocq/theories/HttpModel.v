(** How lib/curlrequester.cpp and lib/ippprinter.cpp set up libcurl for a request. *)
From Verif Require Import Base CurlModel PrinterModel ContactModel.
Local Open Scope Z_scope.

(** A call of curl_easy_setopt.  The callbacks of CURLOPT_READDATA and CURLOPT_WRITEDATA go with
    the functions.  Numbers are what libcurl reads, which are of type long: some calls give it an
    int (curlrequester.cpp:13-15,167), which is taken to arrive as the same number. *)
Inductive setting :=
| URL (u : string)
| VERBOSE (n : Z)
| CONNECTTIMEOUT_MS (n : Z)
| FAILONERROR (n : Z)
| SSL_VERIFYPEER (n : Z)
| SSL_VERIFYHOST (n : Z)
| SSL_VERIFYSTATUS (n : Z)
| POST (n : Z)
| UPLOAD_BUFFERSIZE (n : Z)
| READFUNCTION
| POSTFIELDSIZE (n : Z)
| HTTPHEADER (l : list string)
| WRITEFUNCTION.
(** the calls made, and the list _opts *)
Definition handle : Type := list setting * list string.
Definition setopt (h : handle) (l : list setting) : handle := (fst h ++ l, snd h).
Definition append_opts (h : handle) (l : list string) : handle := (fst h, snd h ++ l).

(** CurlRequester::CurlRequester: curlrequester.cpp:9-29.  [agent] is USER_AGENT, which is always
    defined (curlrequester.h:12-14); [debug] whether debug messages are enabled. *)
Definition requester (agent : string) (debug : bool) (addr : string) (ignore : bool) : handle :=
  let h := setopt ([], []) [URL addr; VERBOSE (if debug then 1 else 0); CONNECTTIMEOUT_MS 2000; FAILONERROR 1] in
  let h := if ignore then setopt h [SSL_VERIFYPEER 0; SSL_VERIFYHOST 0; SSL_VERIFYSTATUS 0] else h in
  append_opts h ["User-Agent: " ++ agent]%string.
(** CurlRequester::doRun: curlrequester.cpp:38-51 *)
Definition do_run (h : handle) : list setting := fst (setopt h [HTTPHEADER (snd h); WRITEFUNCTION]).
(** CurlIppPosterBase::CurlIppPosterBase: curlrequester.cpp:159-173 *)
Definition poster_base (agent : string) (debug : bool) (addr : string) (ignore : bool) : handle :=
  append_opts (setopt (requester agent debug (request_url addr) ignore) [POST 1; UPLOAD_BUFFERSIZE (2 * 1024 * 1024); READFUNCTION])
    ["Expect:"; "Content-Type: application/ipp"; "Accept-Encoding: identity"]%string.
(** size_t read as long *)
Definition as_long (n : Z) : Z := let u := n mod 2 ^ 64 in if u <? 2 ^ 63 then u else u - 2 ^ 64.
(** CurlIppPoster::CurlIppPoster: curlrequester.cpp:188-194; the settings, and what is then done
    with the object (ippprinter.cpp:515-517 and the destructor) *)
Definition poster (agent : string) (debug : bool) (addr : string) (data : list byte) (ignore : bool) : list setting :=
  do_run (setopt (poster_base agent debug addr ignore) [POSTFIELDSIZE (as_long (Z.of_nat (length data)))]).
Definition poster_ops (data : list byte) : list op := [Write data; Await; Await].
(** CurlIppStreamer::CurlIppStreamer: curlrequester.cpp:196-201 *)
Definition streamer (agent : string) (debug : bool) (addr : string) (ignore : bool) : list setting :=
  do_run (append_opts (poster_base agent debug addr ignore) ["Transfer-Encoding: chunked"]%string).

(** The requests of an IppPrinter with this _ignoreSslErrors: ippprinter.cpp:515 and :139 *)
Definition settings_of (agent : string) (debug ignoreSslErrors : bool) (ev : event) : option (list setting) :=
  match ev with
  | Posted addr request => Some (poster agent debug addr request ignoreSslErrors)
  | Streamed addr _ => Some (streamer agent debug addr true)
  | Wrote _ => None
  end.
(** the printer of the client: ippclient.cpp:287, ippprinter.h:41 *)
Definition client_ignores : bool := true.
