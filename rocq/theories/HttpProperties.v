(** C98: the requests over HTTP (HttpSpec.v). *)
From Verif Require Import Base BaseLemmas CurlModel CurlSpec CurlProofs CurlProperties PrinterModel ClientModel ClientCmdSpec ClientCmdProperties ContactModel ContactSpec ContactProperties HttpModel HttpSpec.
From Coq Require Import Lia ZifyBool ZifyNat ZifyN.
Local Open Scope Z_scope.

Lemma as_long_id n : 0 <= n < 2 ^ 63 -> as_long n = n.
Proof. intros H. unfold as_long. rewrite Z.mod_small by lia. destruct (Z.ltb_spec n (2 ^ 63)); lia. Qed.
(** A plain request is a POST of the message to the URL of the printer, with the length of
    the message announced. *)
Theorem C98_posted agent debug ignore addr data : Z.of_nat (length data) < 2 ^ 63 ->
  ipp_request (curl (poster agent debug addr data ignore)) (request_url addr) (Sized (Z.of_nat (length data))).
Proof.
  intros H. unfold poster. rewrite (as_long_id _ (conj (Zle_0_nat _) H)). generalize (Zle_0_nat (length data)). generalize (Z.of_nat (length data)). intros n N.
  unfold ipp_request. destruct ignore; (repeat split); cbn -[Z.leb]; destruct (Z.leb_spec 0 n); first [reflexivity|lia].
Qed.
(** It is as long as announced: when curl has read all of the body, these were the bytes of
    the message, however the threads were scheduled. *)
Theorem C98_length z agent debug ignore addr data s : Z.of_nat (length data) < 2 ^ 63 -> reachable z (poster_ops data) s -> complete s ->
  delivered (s_sent s) = data /\ t_framing (curl (poster agent debug addr data ignore)) = Sized (Z.of_nat (length (delivered (s_sent s)))).
Proof.
  intros L R C. destruct (C47_complete z _ s R eq_refl C) as (ops & rest & E & N & D). assert (D' : delivered (s_sent s) = data).
  { destruct ops as [|o1 [|o2 ops]]; unfold poster_ops in E; injection E; intros; subst.
    - discriminate.
    - rewrite D. cbn. apply app_nil_r.
    - exfalso. apply N. right. left. reflexivity. }
  split; [exact D'|]. rewrite D'. apply C98_posted. exact L.
Qed.
(** The request with the document is a POST in chunks, and nothing is announced. *)
Theorem C98_streamed agent debug ignore addr : ipp_request (curl (streamer agent debug addr ignore)) (request_url addr) Chunked.
Proof. unfold ipp_request. destruct ignore; repeat split. Qed.
(** All requests of any run of the client are such requests. *)
Definition http_request (agent : string) (debug ignore : bool) (addr : string) (ev : event) : Prop :=
  match ev with
  | Posted _ request => Z.of_nat (length request) < 2 ^ 63 -> exists l, settings_of agent debug ignore ev = Some l /\ ipp_request (curl l) (request_url addr) (Sized (Z.of_nat (length request)))
  | Streamed _ _ => exists l, settings_of agent debug ignore ev = Some l /\ ipp_request (curl l) (request_url addr) Chunked
  | Wrote _ => settings_of agent debug ignore ev = None
  end.
Lemma http_goes_to agent debug ignore addr ev : goes_to addr ev -> http_request agent debug ignore addr ev.
Proof.
  destruct ev as [a b|a b|p]; cbn [goes_to http_request]; intros G; [intros L| |reflexivity]; subst; cbn [settings_of]; eexists; (split; [reflexivity|]); [apply C98_posted; exact L|apply C98_streamed].
Qed.
Theorem C98_client agent debug e junk args name rs addr p : line args name rs (addr :: p) ->
  Forall (http_request agent debug client_ignores addr) (fst (client e junk args)).
Proof. intros H. eapply Forall_impl; [|exact (C96_requests e junk args name rs addr p H)]. intros ev. apply http_goes_to. Qed.

(** ** Certificates *)
(** With ignoreSslErrors false plain requests verify the server. *)
Theorem C98_verified_partial agent debug addr data : verified (curl (poster agent debug addr data false)).
Proof. split; reflexivity. Qed.
(** The request with the document does not, whatever ignoreSslErrors is; and no request of the
    client does. *)
Theorem C98_verified_refuted agent debug ignore addr hdr : exists l, settings_of agent debug ignore (Streamed addr hdr) = Some l /\ t_peer (curl l) = false /\ t_host (curl l) = false.
Proof. eexists. split; [reflexivity|]. split; reflexivity. Qed.
Theorem C98_client_refuted agent debug e junk args : Forall (fun ev => forall l, settings_of agent debug client_ignores ev = Some l -> t_peer (curl l) = false /\ t_host (curl l) = false) (fst (client e junk args)).
Proof. apply Forall_forall. intros [a b|a b|q] _ l H; [injection H as <-; split; reflexivity|injection H as <-; split; reflexivity|discriminate]. Qed.

(** ** Examples *)
Example C98_example : curl (poster "" false cmd_addr (bytes_of_string "a message") true) = mkTransfer true (request_url cmd_addr) ["application/ipp"%string] (Sized 9) false true false false.
Proof. vm_compute. reflexivity. Qed.
(** without the lines of curlrequester.cpp:170-172 *)
Example C98_plain_example : curl (do_run (setopt (requester "" false "http://h/" false) [POST 1])) = mkTransfer true "http://h/" ["application/x-www-form-urlencoded"%string] Unsized true true true true.
Proof. vm_compute. reflexivity. Qed.
Example C98_length_example : exists s, reachable stored (poster_ops (bytes_of_string "abc")) s /\ complete s /\ delivered (s_sent s) = bytes_of_string "abc".
Proof.
  destruct (upload stored [bytes_of_string "abc"] [Await]) as [s [R [_ [_ [_ [C D]]]]]]; [constructor; [discriminate|constructor]|]. exists s. split; [exact R|]. split; [exact C|]. exact D.
Qed.
Example C98_client_example : line ["cancel-job"; "--id"; "17"; cmd_addr]%string "cancel-job" [("--id", "17")]%string [cmd_addr] /\
  match client (ClientProperties.client_world 4) ClientProperties.junk0 ["cancel-job"; "--id"; "17"; cmd_addr]%string with ([Posted _ _; Posted _ _], Ok 0) => True | _ => False end.
Proof. exact C96_requests_example. Qed.
Print Assumptions C98_posted.
Print Assumptions C98_length.
Print Assumptions C98_streamed.
Print Assumptions C98_client.
Print Assumptions C98_verified_partial.
Print Assumptions C98_verified_refuted.
Print Assumptions C98_client_refuted.
