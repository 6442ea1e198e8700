(** C93, C94: the messages of a discovery session (MessageSpec.v). *)
From Verif Require Import Base BaseLemmas ListLemmas StringModel StringProofs MapModel MapProofs PpmSpec PpmProofs DiscoveryModel DiscoverySpec RecordSpec DnsProofs DiscoveryProofs DiscoveryProperties MessageSpec MessageProofs.
From Coq Require Import Lia ZifyBool ZifyNat ZifyN.
Ltac Zify.zify_post_hook ::= Z.div_mod_to_equations.
Local Open Scope Z_scope.

(** ** C93 *)
(** Of a message as in the RFC, with any number of questions and records in any sections,
    everything is read. *)
Theorem C93_read d evs : (length d <= Z.to_nat 4096)%nat -> rfc_message d evs -> fst (parse d) = evs /\ exists r, snd (parse d) = Ok r.
Proof. apply message_read. Qed.
(** So the printers described by the messages of a session are reported, however their
    records are distributed over messages, sections and records of other types. *)
Theorem C93_reported clock ds evss st acts owner ptr port target rp ip : Forall2 rfc_message ds evss -> Forall (fun d => (length d <= Z.to_nat 4096)%nat) ds -> discover clock ds = Ok (st, acts) ->
  let evs := concat evss in
  In (EPtr owner ptr) evs -> last_srv ptr evs = Some (port, target) -> last_txt ptr "rp" evs = Some rp -> In (EA target ip) evs ->
  (ends_with owner "_ipps._tcp.local" -> exists a, address "ipps" 443 port ip rp a /\ In a (reported acts)) /\
  (ends_with owner "_ipp._tcp.local" -> exists a, In a (reported acts) /\ (address "ipp" 631 port ip rp a \/ exists port', address "ipps" 443 port' ip rp a)).
Proof.
  intros F L H evs. assert (E : evs = all_events ds).
  { unfold evs, all_events. clear H. induction F as [|d e ds es H F IH]; [reflexivity|]. inversion L; subst. cbn [concat flat_map]. rewrite IH by assumption. f_equal. symmetry. apply message_read; assumption. }
  rewrite E. apply (C43_reported clock ds st acts). exact H.
Qed.

(** ** C94 *)
Definition services : list string := ["_ipp._tcp.local"; "_ipps._tcp.local"]%string.
(** The queries are numbered; the first asks for the services; no question is asked twice; a
    question is asked only when the records received by then point to a name and do not
    answer it; and every such question is asked. *)
Theorem C94_questions clock ds st acts : discover clock ds = Ok (st, acts) -> exists qs,
  sent acts = numbered 0 ((12, services) :: qs) /\ NoDup (single ((12, services) :: qs)) /\ Forall (fun q => snd q <> []) qs /\
  Forall (fun q => exists ds1 ds2, ds = ds1 ++ ds2 /\ wanted (all_events ds1) q) (single qs) /\
  (forall p, pointed (all_events ds) p -> (has_text (all_events ds) p \/ In (16, p) (single qs)) /\ (has_service (all_events ds) p \/ In (33, p) (single qs))) /\
  (forall t, is_target (all_events ds) t -> has_address (all_events ds) t \/ In (1, t) (single qs)).
Proof.
  intros H. unfold discover in H. inv_bind H st1 a1 E1. inv_bind H st2 a2 E2. injection H as <- <-.
  unfold send_query in E1. cbn in E1. injection E1 as <- <-.
  set (st1 := mkDisc _ _ _ _ _ _ _ _ _ _) in E2. assert (I : History [] [(12, services)] st1).
  { unfold History, Knows, Asked, ptr_ok, Followed, st1. cbn [txts ports targets addrs tid outstanding ippPtrs ippsPtrs map_has map_get]. split; [|split; [|split; [|split; [|split; [|split]]]]].
    - repeat (split; [exact I|]). unfold has_text, has_service, has_address, map_has. cbn [map_get In]. split; [|split; [|split]]; try (intros n; split; [discriminate|]); try (intros (x & y & [])); try (intros (x & [])). reflexivity.
    - split; [reflexivity|]. split; [reflexivity|]. split; [|constructor; [discriminate|constructor]]. unfold single. cbn. constructor; [intros [K|[]]; discriminate|]. constructor; [intros []|constructor].
    - intros p. split; [intros []|intros (o & _ & [])].
    - intros p. split; [intros []|intros (o & _ & [])].
    - intros p [].
    - intros p [].
    - intros t (o & p & []). }
  destruct (receive_all_history _ _ _ _ _ _ _ I E2) as (qs & J & T & W). cbn [List.app] in J, W. destruct J as (K & (_ & _ & N & NE) & P1 & P2 & F1 & F2 & G). exists qs.
  assert (Z12 : forall t n, t <> 12 -> In (t, n) (single ((12, services) :: qs)) -> In (t, n) (single qs)). { intros t n Ht Q. unfold single in Q. cbn [flat_map fst snd] in Q. apply in_app_or in Q. destruct Q as [Q|Q]; [|exact Q]. apply in_map_iff in Q. destruct Q as (x & Q & _). exfalso. apply Ht. congruence. }
  split; [|split; [exact N|split; [inversion NE; assumption|split; [exact W|split]]]].
  - rewrite sent_app, T. reflexivity.
  - intros p (owner & O & Q). destruct K as (_ & _ & _ & _ & KT & KV & _). assert (F : (map_has p (txts st2) = true \/ In (16, p) (single ((12, services) :: qs))) /\ (map_has p (targets st2) && map_has p (ports st2) = true \/ In (33, p) (single ((12, services) :: qs)))).
    { destruct O as [O|O]; [apply F1, P1; exists owner; split; [apply is_ipp_spec; exact O|exact Q]|apply F2, P2; exists owner; split; [apply is_ipps_spec; exact O|exact Q]]. }
    destruct F as [[B|B] [B'|B']]; (split; [first [left; apply KT; exact B|right; apply Z12; [lia|exact B]]|first [left; apply KV; exact B'|right; apply Z12; [lia|exact B']]]).
  - intros t Ht. destruct (G t Ht) as [B|B]; [left; exact B|right; apply Z12; [lia|exact B]].
Qed.
Lemma numbered_nth qs : forall i j t names, nth_error qs i = Some (t, names) -> nth_error (numbered j qs) i = Some (make_query (Z.of_nat (j + i) mod 65536) t names).
Proof. induction qs as [|q qs IH]; intros [|i] j t names H; try discriminate; cbn [nth_error numbered] in *; [injection H as ->; rewrite Nat.add_0_r; reflexivity|]. rewrite (IH i (S j) t names H). do 3 f_equal. lia. Qed.
(** Any query for proper names that is not too long can be read: it is a query with its
    number, exactly its questions, and nothing else. *)
Theorem C94_readable qs acts i t names : sent acts = numbered 0 qs -> nth_error qs i = Some (t, names) -> Forall name_ok names -> (length names < Z.to_nat 65536)%nat ->
  (forall q, nth_error (sent acts) i = Some q -> (length q <= Z.to_nat 4096)%nat) ->
  exists q, nth_error (sent acts) i = Some q /\ firstn 12 q = be16 (Z.of_nat i mod 65536) ++ be16 0 ++ be16 (Z.of_nat (length names)) ++ be16 0 ++ be16 0 ++ be16 0 /\ questions_at q t 12 names (length q).
Proof.
  intros S H F N L. pose proof (numbered_nth qs i 0 t names H) as E. rewrite <- S in E. exists (make_query (Z.of_nat (0 + i) mod 65536) t names). split; [exact E|].
  exact (C42_questions _ _ _ F (L _ E) N).
Qed.

(** ** Examples *)
(** a question for x, an address of x among the answers, a record of another type and one
    with a text among the additional ones; the names of the records refer to the question *)
Definition small_message : list byte :=
  map bZ [0; 9; 132; 0; 0; 1; 0; 1; 0; 0; 0; 2] ++ wire ["x"]%string ++ map bZ [0; 1; 0; 1]
  ++ map bZ [192; 12; 0; 1; 0; 1; 0; 0; 0; 9; 0; 4; 10; 0; 0; 1]
  ++ map bZ [192; 12; 0; 47; 0; 1; 0; 0; 0; 9; 0; 2; 7; 7]
  ++ map bZ [192; 12; 0; 16; 0; 1; 0; 0; 0; 9; 0; 4; 3] ++ bytes_of_string "a=b".
Lemma small_name : rfc_name small_message 12 ["x"]%string 15.
Proof. apply (name_label 63 16384 small_message 12 (bZ 1) 1 [] 15); [reflexivity|reflexivity|lia|apply Nat.leb_le; reflexivity|]. apply (name_end 63 16384 small_message 14 (bZ 0)); reflexivity. Qed.
Lemma small_ref p : nth_error small_message p = Some (bZ 192) -> nth_error small_message (S p) = Some (bZ 12) -> rfc_name small_message p ["x"]%string (S (S p)).
Proof. intros A B. apply (name_ptr 63 16384 small_message p (bZ 192) (bZ 12) ["x"]%string 15); [exact A|exact B|cbn; lia|]. replace (Z.to_nat (un16 (bZ 192) (bZ 12) mod 16384)) with 12%nat by reflexivity. exact small_name. Qed.
Ltac small_head p := exists ["x"]%string, (S (S p)); do 11 eexists; split; [apply small_ref; reflexivity|]; repeat split; reflexivity.
Example C93_example : rfc_message small_message [EA "x" "10.0.0.1"; ETxt "x" "a" "b"] /\ (length small_message <= Z.to_nat 4096)%nat.
Proof.
  split; [|apply Nat.leb_le; vm_compute; reflexivity]. do 13 eexists. exists 19%nat, 65%nat. split; [reflexivity|]. split.
  - change (rfc_questions small_message 1 12 19). eapply (questions_more small_message 0 12 ["x"]%string 15 (bZ 0) (bZ 1) (bZ 0) (bZ 1)); [exact small_name|reflexivity|constructor].
  - change (rfc_records small_message 3 19 ([EA "x" "10.0.0.1"] ++ [] ++ [ETxt "x" "a" "b"] ++ []) 65)%string. apply (records_more _ 2 19 _ 35).
    + eapply (record_a small_message 19 "x" 31 (bZ 10) (bZ 0) (bZ 0) (bZ 1)); [small_head 19%nat|reflexivity].
    + apply (records_more _ 1 35 _ 49).
      * apply (record_other small_message 35 "x" 47 2 47); [small_head 35%nat|apply Nat.leb_le; reflexivity|reflexivity|discriminate..].
      * apply (records_more _ 0 49 _ 65); [|constructor]. apply (record_txt small_message 49 "x" 4 61); [small_head 49%nat| |reflexivity].
        apply (text_more small_message "x" 61 (bZ 3) 3 "a" "b" [] 65); [reflexivity|reflexivity|apply Nat.leb_le; reflexivity| |constructor].
        left. split; [reflexivity|]. intros (a & b & E). destruct a as [|? [|? ?]]; discriminate.
Qed.
(** a session with a pointer, then its service; at last its text and the address *)
Definition pointer_message : list byte := datagram 1 [rec_of ipp_service 12 (wire ("P" :: ipp_service)%string)].
Definition service_message : list byte := datagram 1 [rec_of ("P" :: ipp_service)%string 33 (srv_data 631 host)].
Definition rest_message : list byte := datagram 2 [rec_of ("P" :: ipp_service)%string 16 (txt_data "rp=ipp/print"); a_rec].
Example C94_example : match discover still [pointer_message; service_message; pointer_message; rest_message] with
  | Ok (_, acts) => sent acts = numbered 0 [(12, services); (16, ["P._ipp._tcp.local"]); (33, ["P._ipp._tcp.local"]); (1, ["host.local"])]%string /\ reported acts = ["ipp://192.168.0.9/ipp/print"]%string
  | _ => False end.
Proof. vm_compute. split; reflexivity. Qed.
Example C94_readable_example : Forall name_ok ["host.local"]%string /\ (length (make_query 3 1 ["host.local"]%string) <= Z.to_nat 4096)%nat.
Proof.
  split; [|apply Nat.leb_le; vm_compute; reflexivity]. constructor; [|constructor]. exists ["host"; "local"]%string. split; [discriminate|]. split; [|reflexivity].
  assert (ND : forall l, In l ["host"; "local"]%string -> label_ok l).
  { intros l H. split; [repeat (destruct H as [<-|H]; [cbn; lia|]); destruct H|]. intros [a [b E]]. assert (K : In "."%char (bytes_of_string l)) by (rewrite E, bytes_app; apply in_or_app; right; left; reflexivity). repeat (destruct H as [<-|H]; [cbn in K; repeat (destruct K as [K|K]; [discriminate|]); destruct K|]). destruct H. }
  repeat constructor; apply ND; cbn; tauto.
Qed.
Print Assumptions C93_read.
Print Assumptions C93_reported.
Print Assumptions C94_questions.
Print Assumptions C94_readable.
