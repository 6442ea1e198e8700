(** C41-C46: printer discovery (DiscoveryModel.v, DiscoverySpec.v, RecordSpec.v). *)
From Verif Require Import Base BaseLemmas ListLemmas StringModel StringProofs MapModel MapProofs PpmSpec PpmProofs DiscoveryModel DiscoverySpec RecordSpec DnsProofs DiscoveryProofs.
From Coq Require Import Lia ZifyBool ZifyNat ZifyN.
Ltac Zify.zify_post_hook ::= Z.div_mod_to_equations.
Local Open Scope Z_scope.

(** ** Datagrams for the examples *)
Fixpoint wire (ls : list string) : list byte := match ls with [] => [bZ 0] | l :: r => bZ (Z.of_nat (String.length l)) :: bytes_of_string l ++ wire r end.
Definition record (owner : list string) (type len : Z) (data : list byte) : list byte := wire owner ++ be16 type ++ be16 1 ++ [bZ 0; bZ 0; bZ 0; bZ 9] ++ be16 len ++ data.
Definition rec_of (owner : list string) (type : Z) (data : list byte) : list byte := record owner type (Z.of_nat (length data)) data.
Definition datagram (n : Z) (recs : list (list byte)) : list byte := be16 7 ++ be16 33792 ++ be16 0 ++ be16 n ++ be16 0 ++ be16 0 ++ concat recs.
Definition ipp_service : list string := ["_ipp"; "_tcp"; "local"]%string.
Definition ipps_service : list string := ["_ipps"; "_tcp"; "local"]%string.
Definition txt_data (t : string) : list byte := bZ (Z.of_nat (String.length t)) :: bytes_of_string t.
Definition srv_data (port : Z) (target : list string) : list byte := be16 0 ++ be16 0 ++ be16 port ++ wire target.
Definition host : list string := ["host"; "local"]%string.
Definition a_rec : list byte := rec_of host 1 (map bZ [192; 168; 0; 9]).
(** an ipps printer on the default port, and an ipp one on port 8631 *)
Definition ipps_packet : list byte :=
  datagram 4 [rec_of ipps_service 12 (wire ("P" :: ipps_service)%string); rec_of ("P" :: ipps_service)%string 33 (srv_data 443 host);
              rec_of ("P" :: ipps_service)%string 16 (txt_data "txtvers=1" ++ txt_data "rp=ipp/print"); a_rec].
Definition ipp_packet : list byte :=
  datagram 4 [rec_of ipp_service 12 (wire ("P" :: ipp_service)%string); rec_of ("P" :: ipp_service)%string 33 (srv_data 8631 host);
              rec_of ("P" :: ipp_service)%string 16 (txt_data "rp=ipp/print"); a_rec].

(** ** C41 *)
(** Decoding a name anywhere in any datagram gives a name and advances within the datagram,
    or an exception. *)
Theorem C41_total d p : (p <= length d)%nat ->
  (exists n e, get_addr_str d (skipn p d) = Ok (n, skipn e d) /\ (p < e <= length d)%nat) \/ (exists x, get_addr_str d (skipn p d) = Throw x).
Proof.
  intros P. destruct (addr_str_total d (skipn p d)) as [T _]. destruct (get_addr_str d (skipn p d)) as [[n r]|x| | |] eqn:E; try contradiction; [left|right; eexists; reflexivity].
  apply addr_str_sound in E; [|exact P]. destruct E as [ls [e [_ [_ [-> B]]]]]. exists n, e. auto.
Qed.
(** The whole of any datagram is handled in the end. *)
Theorem C41_parse_total d : (exists r, snd (parse d) = Ok r) \/ (exists x, snd (parse d) = Throw x).
Proof. pose proof (parse_total d) as T. destruct (snd (parse d)); try contradiction; [left|right]; eexists; reflexivity. Qed.
(** The name is one that is there ... *)
Theorem C41_sound d p n r : (p <= length d)%nat -> get_addr_str d (skipn p d) = Ok (n, r) -> exists ls e, name_at 191 4096 d p ls e /\ n = dotted ls /\ r = skipn e d.
Proof. intros P H. apply addr_str_sound in H; [|exact P]. destruct H as [ls [e [H1 [H2 [H3 _]]]]]. exists ls, e. auto. Qed.
(** ... and in datagrams no longer than 4096 bytes every name is read. *)
Theorem C41_complete d p ls e : (length d <= Z.to_nat 4096)%nat -> rfc_name d p ls e -> get_addr_str d (skipn p d) = Ok (dotted ls, skipn e d).
Proof. intros D H. unfold get_addr_str. rewrite (rfc_decoded _ _ _ _ D H). cbn [bind]. rewrite dotted_join. reflexivity. Qed.
(** a name of two parts, the second by reference; and a reference to itself *)
Definition two_parts : list byte := bytes_of_string "xx" ++ wire ["local"]%string ++ bZ 4 :: bytes_of_string "host" ++ map bZ [192; 2] ++ bytes_of_string "rest".
Example C41_example : get_addr_str two_parts (skipn 9 two_parts) = Ok ("host.local"%string, bytes_of_string "rest").
Proof. vm_compute. reflexivity. Qed.
Example C41_rfc_example : exists e, rfc_name two_parts 9 ["host"; "local"]%string e /\ (length two_parts <= Z.to_nat 4096)%nat.
Proof.
  eexists. split; [|apply Nat.leb_le; vm_compute; reflexivity]. apply (name_label 63 16384 two_parts 9 (bZ 4) 4); [reflexivity|reflexivity|lia|apply Nat.leb_le; reflexivity|].
  eapply (name_ptr 63 16384 two_parts 14 (bZ 192) (bZ 2)); [reflexivity|reflexivity|reflexivity||(cbn; lia)|].
  replace (Z.to_nat (un16 (bZ 192) (bZ 2) mod 16384)) with 2%nat by reflexivity.
  apply (name_label 63 16384 two_parts 2 (bZ 5) 5); [reflexivity|reflexivity|lia|apply Nat.leb_le; reflexivity|]. apply (name_end 63 16384 two_parts 8 (bZ 0)); reflexivity.
Qed.
Example C41_cycle_example : get_addr_str (map bZ [1; 97; 192; 0]) (map bZ [1; 97; 192; 0]) = Throw LogicError /\ get_addr_str (map bZ [192; 0]) (map bZ [192; 0]) = Throw LogicError.
Proof. vm_compute. split; reflexivity. Qed.

(** ** C42 *)
(** The query consists of the header and, as the RFC has it, the questions. *)
Theorem C42_questions tid qtype names : Forall name_ok names -> (length (make_query tid qtype names) <= Z.to_nat 4096)%nat -> (length names < Z.to_nat 65536)%nat ->
  firstn 12 (make_query tid qtype names) = be16 tid ++ be16 0 ++ be16 (Z.of_nat (length names)) ++ be16 0 ++ be16 0 ++ be16 0 /\
  questions_at (make_query tid qtype names) qtype 12 names (length (make_query tid qtype names)).
Proof.
  intros F L N. split; [|exact (make_query_correct _ _ _ F L)]. unfold make_query. destruct (put_questions_grows qtype names (be16 tid ++ be16 0 ++ be16 (Z.of_nat (length names) mod two16) ++ be16 0 ++ be16 0 ++ be16 0) []) as [x ->].
  rewrite firstn_app. cbn [length app be16]. rewrite Nat.sub_diag. cbn [firstn]. rewrite app_nil_r. rewrite Z.mod_small by (unfold two16; lia). reflexivity.
Qed.
(** There is no other reading of it. *)
Theorem C42_unique d qtype p names e qtype' names' e' : questions_at d qtype p names e -> questions_at d qtype' p names' e' -> length names = length names' ->
  names = names' /\ e = e' /\ (names <> [] -> be16 qtype = be16 qtype').
Proof.
  intros H. revert qtype' names' e'. induction H as [p|p ls e rest e1 N Q _ IH]; intros qtype' names' e' K L; inversion K as [|p' ls' e0' rest' e1' N' Q' R']; subst; try discriminate L; [split; [reflexivity|split; [reflexivity|congruence]]|].
  destruct (name_det 63 16384 _ _ _ _ _ _ ltac:(lia) N N') as [<- <-]. destruct (IH _ _ _ R' ltac:(cbn in L; congruence)) as [-> [-> _]]. split; [reflexivity|]. split; [reflexivity|]. intros _. rewrite Q in Q'. unfold be16 in *. cbn [app] in Q'. congruence.
Qed.
(** The code's own reader takes it, too. *)
Theorem C42_own_reader tid qtype names : Forall name_ok names -> (length (make_query tid qtype names) <= Z.to_nat 4096)%nat ->
  questions (length names) (make_query tid qtype names) (skipn 12 (make_query tid qtype names)) = Ok [].
Proof. intros F L. rewrite (questions_read _ _ _ _ _ L (make_query_correct tid qtype names F L)), skipn_all. reflexivity. Qed.
Definition service_names : list string := ["_ipp._tcp.local"; "_ipps._tcp.local"]%string.
Example C42_example : Forall name_ok service_names /\ length (make_query 1 12 service_names) = 45%nat /\ skipn 36 (make_query 1 12 service_names) = bytes_of_string "pps" ++ map bZ [192; 17; 0; 12; 0; 1].
Proof.
  split; [|split; vm_compute; reflexivity].
  assert (ND : forall l, In l ["_ipp"; "_ipps"; "_tcp"; "local"]%string -> label_ok l).
  { intros l H. split; [repeat (destruct H as [<-|H]; [cbn; lia|]); destruct H|]. intros [a [b E]]. assert (K : In "."%char (bytes_of_string l)) by (rewrite E, bytes_app; apply in_or_app; right; left; reflexivity). repeat (destruct H as [<-|H]; [cbn in K; repeat (destruct K as [K|K]; [discriminate|]); destruct K|]). destruct H. }
  constructor; [exists ipp_service|constructor; [exists ipps_service|constructor]]; (split; [discriminate|]); (split; [|reflexivity]); repeat constructor; apply ND; cbn; tauto.
Qed.

(** ** C43 *)
(** No address is reported twice in a session. *)
Theorem C43_once clock ds st acts : discover clock ds = Ok (st, acts) -> NoDup (reported acts).
Proof. intros H. apply (discover_spec _ _ _ _ H). Qed.
Lemma printer_backed (service : string -> bool) tail scheme default ds evs rest port ip rp : (forall s, service s = true -> ends_with s tail) -> all_events ds = evs ++ rest ->
  printer service evs port ip rp -> backed tail scheme default (received ds) ip rp (make_addr scheme default port ip rp) /\ free stop_char ip.
Proof.
  intros S E [owner [ptr [O1 [O2 [target [R1 [R2 R3]]]]]]]. apply last_srv_In in R1. apply last_txt_In in R2. apply ips_of_In in R3.
  assert (IN : forall e, In e evs -> received ds e) by (intros e K; apply events_received; rewrite E; apply in_or_app; left; exact K).
  apply IN in O2, R1, R2, R3. split; [|destruct R3 as [d [p [_ R3]]]; inversion R3; eapply ip_text_free; eassumption].
  exists owner, ptr, port, target. split; [exact O2|]. split; [exact (S _ O1)|]. split; [exact R1|]. split; [exact R2|]. split; [exact R3|]. apply make_addr_address.
  destruct R1 as [d [p [_ R1]]]. inversion R1. pose proof (Zb_range p1). pose proof (Zb_range p2). unfold un16. lia.
Qed.
(** Every address reported is the address of a printer made up by records received. *)
Theorem C43_backed clock ds st acts a : discover clock ds = Ok (st, acts) -> In a (reported acts) -> exists ip rp, ipp_backed (received ds) ip rp a \/ ipps_backed (received ds) ip rp a.
Proof.
  intros H K. destruct (discover_spec _ _ _ _ H) as [_ [B _]]. rewrite Forall_forall in B. destruct (B a K) as [evs [rest [port [ip [rp [E [[P ->]|[P ->]]]]]]]]; exists ip, rp; [left|right].
  - eapply printer_backed in P; [exact (proj1 P)|intros s; apply is_ipp_spec|exact E].
  - eapply printer_backed in P; [exact (proj1 P)|intros s; apply is_ipps_spec|exact E].
Qed.
(** Every printer is reported which the latest records make up: an ipps one under its ipps
    address, an ipp one under its ipp address or, for the same host and path, an ipps address. *)
Theorem C43_reported clock ds st acts owner ptr port target rp ip : discover clock ds = Ok (st, acts) ->
  In (EPtr owner ptr) (all_events ds) -> last_srv ptr (all_events ds) = Some (port, target) -> last_txt ptr "rp" (all_events ds) = Some rp -> In (EA target ip) (all_events ds) ->
  (ends_with owner "_ipps._tcp.local" -> exists a, address "ipps" 443 port ip rp a /\ In a (reported acts)) /\
  (ends_with owner "_ipp._tcp.local" -> exists a, In a (reported acts) /\ (address "ipp" 631 port ip rp a \/ exists port', address "ipps" 443 port' ip rp a)).
Proof.
  intros H P S T A. destruct (discover_spec _ _ _ _ H) as [_ [_ [C1 C2]]]. apply ips_of_In in A.
  assert (R : resolved (all_events ds) ptr port ip rp) by (exists target; auto).
  assert (PP : forall ptr' port' ip' rp', resolved (all_events ds) ptr' port' ip' rp' -> 0 <= port'). { intros ptr' port' ip' rp' [t [K _]]. apply last_srv_In, events_received in K. destruct K as [d [p [_ K]]]. inversion K. pose proof (Zb_range p1). pose proof (Zb_range p2). unfold un16. lia. }
  split; intros O.
  - exists (make_ipps_addr port ip rp). split; [apply make_addr_address, (PP _ _ _ _ R)|]. apply C1. exists owner, ptr. split; [apply is_ipps_spec, O|auto].
  - destruct (C2 port ip rp) as [K|[port' [K [o [q [_ [_ R']]]]]]]; [exists owner, ptr; split; [apply is_ipp_spec, O|auto]|exists (make_ipp_addr port ip rp)|exists (make_ipps_addr port' ip rp)]; (split; [exact K|]); [left; apply make_addr_address, (PP _ _ _ _ R)|right; exists port'; apply make_addr_address, (PP _ _ _ _ R')].
Qed.
Definition still : nat -> Z := fun _ => 100.
(** both printers are heard of twice and are reported once *)
Example C43_example : match discover still [ipp_packet; ipp_packet; ipp_packet] with Ok (_, acts) => reported acts = ["ipp://192.168.0.9:8631/ipp/print"]%string | _ => False end.
Proof. vm_compute. reflexivity. Qed.
Example C43_reported_example : In (EPtr "_ipp._tcp.local" "P._ipp._tcp.local") (all_events [ipp_packet]) /\ last_srv "P._ipp._tcp.local" (all_events [ipp_packet]) = Some (8631, "host.local"%string) /\
  last_txt "P._ipp._tcp.local" "rp" (all_events [ipp_packet]) = Some "ipp/print"%string /\ In (EA "host.local" "192.168.0.9") (all_events [ipp_packet]).
Proof. vm_compute. split; [left; reflexivity|]. split; [reflexivity|]. split; [reflexivity|]. do 3 right. left. reflexivity. Qed.

(** ** C44 *)
(** An ipps printer heard of in one datagram, and over ipp in the next: reported twice for
    the same host and path. *)
Theorem C44_refuted : exists ds st acts ip rp a1 a2, discover still ds = Ok (st, acts) /\ reported acts = [a1; a2] /\ address "ipps" 443 443 ip rp a1 /\ address "ipp" 631 8631 ip rp a2.
Proof.
  assert (E : exists st acts, discover still [ipps_packet; ipp_packet] = Ok (st, acts) /\ reported acts = ["ipps://192.168.0.9/ipp/print"; "ipp://192.168.0.9:8631/ipp/print"]%string).
  { assert (K : match discover still [ipps_packet; ipp_packet] with Ok (_, acts) => reported acts | _ => [] end = ["ipps://192.168.0.9/ipp/print"; "ipp://192.168.0.9:8631/ipp/print"]%string) by (vm_compute; reflexivity).
    destruct (discover still [ipps_packet; ipp_packet]) as [[st acts]| | | |]; try discriminate K. exists st, acts. split; [reflexivity|exact K]. }
  destruct E as [st [acts [E R]]]. exists [ipps_packet; ipp_packet], st, acts, "192.168.0.9"%string, "ipp/print"%string, "ipps://192.168.0.9/ipp/print"%string, "ipp://192.168.0.9:8631/ipp/print"%string.
  split; [exact E|]. split; [exact R|]. split; [exact (make_addr_address "ipps" 443 443 "192.168.0.9" "ipp/print" ltac:(lia))|exact (make_addr_address "ipp" 631 8631 "192.168.0.9" "ipp/print" ltac:(lia))].
Qed.
(** a session up to some point *)
Definition session (clock : nat -> Z) (ds : list (list byte)) (st : disc) : Prop := exists acts, discover clock ds = Ok (st, acts).
Lemma session_inv clock ds st : session clock ds st -> Inv (all_events ds) st.
Proof.
  intros [acts H]. unfold discover in H. inv_bind H st1 a1 E1. inv_bind H st2 a2 E2. injection H as <- <-. destruct (start_inv _ _ _ E1) as [I [F R]]. destruct (receive_all_spec _ _ _ _ _ _ I E2) as [I2 _]. exact I2.
Qed.
(** Missing: across datagrams this fails (C44_refuted).  What is reported after one datagram
    never has an ipps and an ipp address for the same host and path. *)
Theorem C44_one_datagram_partial clock ds st d st' acts port1 port2 ip rp a1 a2 : session clock ds st -> receive clock st d = Ok (st', acts) ->
  In a1 (reported acts) -> In a2 (reported acts) -> ~ (exists x y, ip = (x ++ ":" ++ y)%string \/ ip = (x ++ "/" ++ y)%string) -> address "ipps" 443 port1 ip rp a1 -> address "ipp" 631 port2 ip rp a2 -> False.
Proof.
  intros S H A1 A2 F D1 D2. apply session_inv in S. destruct (receive_spec _ _ _ _ _ _ S H) as [st3 [a4 [I3 [F3 [U RA]]]]]. destruct (update_spec _ _ _ _ I3 U) as [_ [_ [_ [_ [s [p [E [B1 [B2 _]]]]]]]]]. rewrite RA, E in A1, A2.
  assert (EV : all_events ds ++ fst (parse d) = all_events (ds ++ [d])) by (unfold all_events; rewrite flat_map_app; cbn; rewrite app_nil_r; reflexivity). rewrite EV in *.
  assert (FI : free stop_char ip).
  { unfold free. apply Forall_forall. intros c C. destruct (stop_char c) eqn:SC; [|reflexivity]. exfalso. apply F. assert (SP : exists x y, ip = (x ++ String c y)%string). { clear - C. unfold bytes_of_string in C. induction ip as [|b ip IH]; [destruct C|]. destruct C as [->|C]; [exists ""%string, ip; reflexivity|]. destruct (IH C) as [x [y ->]]. exists (String b x), y. reflexivity. }
    destruct SP as [x [y ->]]. exists x, y. unfold stop_char in SC. apply orb_prop in SC. destruct SC as [SC|SC]; apply Ascii.eqb_eq in SC; subst c; auto. }
  assert (X2 : exists port, In (port, ip, rp) p).
  { apply in_app_or in A2. destruct A2 as [A2|A2]; apply in_map_iff in A2; destruct A2 as [[[port ip'] rp'] [<- K]]; cbn [fst snd] in *.
    - exfalso. pose proof (B1 _ _ _ K) as PR. eapply (printer_backed is_ipps "_ipps._tcp.local" "ipps" 443 _ _ []) in PR; [|intros x; apply is_ipps_spec|rewrite app_nil_r; reflexivity]. destruct PR as [[o [q [po [t [_ [_ [_ [_ [_ AD]]]]]]]]] _]. exact (scheme_disjoint _ _ _ _ _ _ _ _ _ D2 AD).
    - pose proof (proj1 (B2 _ _ _ K)) as PR. eapply (printer_backed is_ipp "_ipp._tcp.local" "ipp" 631 _ _ []) in PR; [|intros x; apply is_ipp_spec|rewrite app_nil_r; reflexivity]. destruct PR as [[o [q [po [t [_ [_ [_ [_ [_ AD]]]]]]]]] FR]. destruct (address_unique _ _ _ _ _ _ _ _ _ _ D2 AD FI FR) as [-> ->]. exists port. exact K. }
  assert (X1 : exists port, In (port, ip, rp) s).
  { apply in_app_or in A1. destruct A1 as [A1|A1]; apply in_map_iff in A1; destruct A1 as [[[port ip'] rp'] [<- K]]; cbn [fst snd] in *.
    - pose proof (B1 _ _ _ K) as PR. eapply (printer_backed is_ipps "_ipps._tcp.local" "ipps" 443 _ _ []) in PR; [|intros x; apply is_ipps_spec|rewrite app_nil_r; reflexivity]. destruct PR as [[o [q [po [t [_ [_ [_ [_ [_ AD]]]]]]]]] FR]. destruct (address_unique _ _ _ _ _ _ _ _ _ _ D1 AD FI FR) as [-> ->]. exists port. exact K.
    - exfalso. pose proof (proj1 (B2 _ _ _ K)) as PR. eapply (printer_backed is_ipp "_ipp._tcp.local" "ipp" 631 _ _ []) in PR; [|intros x; apply is_ipp_spec|rewrite app_nil_r; reflexivity]. destruct PR as [[o [q [po [t [_ [_ [_ [_ [_ AD]]]]]]]]] _]. exact (scheme_disjoint _ _ _ _ _ _ _ _ _ AD D1). }
  destruct X1 as [q1 X1]. destruct X2 as [q2 X2]. exact (proj2 (B2 _ _ _ X2) _ X1).
Qed.
(** both services in one datagram: the ipp address is left out *)
Example C44_example : match discover still [datagram 8 [skipn 12 ipp_packet; skipn 12 ipps_packet]] with Ok (_, acts) => reported acts = ["ipps://192.168.0.9/ipp/print"]%string | _ => False end.
Proof. vm_compute. reflexivity. Qed.

(** ** C45 *)
(** A query has been outstanding for longer than two seconds when the next one is sent. *)
Theorem C45_refuted : exists clock ds, (forall i j, (i <= j)%nat -> clock i <= clock j) /\ discover clock ds = UB.
Proof.
  exists (fun i => 3 * Z.of_nat i), [datagram 1 [rec_of ipp_service 12 (wire ("P" :: ipp_service)%string)]]. split; [intros; lia|]. vm_compute. reflexivity.
Qed.
(** Missing: any slower session (C45_refuted).  If no two queries are sent more than two seconds
    apart, every session comes to its end. *)
Theorem C45_prompt_partial clock ds : (forall i j, (i <= j)%nat -> clock j <= clock i + 2) -> exists st acts, discover clock ds = Ok (st, acts).
Proof. apply discover_prompt. Qed.
(** Nothing else goes wrong, in any session. *)
Theorem C45_only_expiry_partial clock ds : (exists st acts, discover clock ds = Ok (st, acts)) \/ discover clock ds = UB.
Proof.
  assert (SQ : forall st qtype names, (exists st' a, send_query clock st qtype names = Ok (st', a)) \/ send_query clock st qtype names = UB).
  { intros st qtype names. unfold send_query. destruct (existsb _ _); [auto|]. destruct (filter _ names); left; eexists; eexists; reflexivity. }
  assert (UQ : forall secure news st, (exists st' a, update_and_query clock secure st news = Ok (st', a)) \/ update_and_query clock secure st news = UB).
  { intros secure. induction news as [|n news IH]; intros st; cbn [update_and_query]; [left; eexists; eexists; reflexivity|]. destruct (mem _ _); [apply IH|]. cbv zeta. generalize (add_ptr secure st n). intros st0.
    assert (G : forall (b : bool) st qtype, (exists st' a, (if b then Ok (st, []) else send_query clock st qtype [n]) = Ok (st', a)) \/ (if b then Ok (st, []) else send_query clock st qtype [n]) = UB) by (intros [|] st1 qtype; [left; eexists; eexists; reflexivity|apply SQ]).
    destruct (G (map_has n (txts st0)) st0 16) as [[st1 [a1 ->]]| -> ]; [cbn [bind]|right; reflexivity]. destruct (G (map_has n (targets st1) && map_has n (ports st1))%bool st1 33) as [[st2 [a2 ->]]| -> ]; [cbn [bind]|right; reflexivity]. destruct (IH st2) as [[st3 [a3 ->]]| -> ]; [left; eexists; eexists; reflexivity|right; reflexivity]. }
  assert (RC : forall d st, (exists st' a, receive clock st d = Ok (st', a)) \/ receive clock st d = UB).
  { intros d st. unfold receive. pose proof (parse_total d) as PT. destruct (parse d) as [ev o]. cbn [snd] in PT. destruct o; try contradiction.
    all: destruct (UQ true (new_ptrs is_ipps ev) (fold_left store ev st)) as [[st1 [a1 ->]]| -> ]; [cbn [bind]|right; reflexivity]; destruct (UQ false (new_ptrs is_ipp ev) st1) as [[st2 [a2 ->]]| -> ]; [cbn [bind]|right; reflexivity]; cbv zeta;
      destruct (filter _ _) as [|t l]; cbn [bind]; [destruct (update st2); left; eexists; eexists; reflexivity|]; destruct (SQ st2 1 (t :: l)) as [[st3 [a3 ->]]| -> ]; [cbn [bind]; destruct (update st3); left; eexists; eexists; reflexivity|right; reflexivity]. }
  assert (RA : forall ds st, (exists st' a, receive_all clock st ds = Ok (st', a)) \/ receive_all clock st ds = UB).
  { induction ds0 as [|d r IH]; intros st; cbn [receive_all]; [left; eexists; eexists; reflexivity|]. destruct (RC d st) as [[st1 [a1 ->]]| -> ]; [cbn [bind]|right; reflexivity]. destruct (IH st1) as [[st2 [a2 ->]]| -> ]; [left; eexists; eexists; reflexivity|right; reflexivity]. }
  unfold discover. destruct (SQ start 12 ["_ipp._tcp.local"; "_ipps._tcp.local"]%string) as [[st1 [a1 ->]]| -> ]; [cbn [bind]|right; reflexivity]. destruct (RA ds st1) as [[st2 [a2 ->]]| -> ]; [left; eexists; eexists; reflexivity|right; reflexivity].
Qed.
Example C45_example : (forall i j, (i <= j)%nat -> (fun i => Z.min 2 (Z.of_nat i)) j <= (fun i => Z.min 2 (Z.of_nat i)) i + 2) /\
  match discover (fun i => Z.min 2 (Z.of_nat i)) [ipps_packet; ipp_packet] with Ok (st, _) => clock_calls st = 1%nat | _ => False end.
Proof. split; [intros; lia|]. vm_compute. reflexivity. Qed.

(** ** C46 *)
(** An address record that says it has 27 bytes of data: the bytes after the first four are taken
    for a record of their own. *)
Definition forged : list byte := record host 1 (Z.of_nat (4 + length a_rec)) (map bZ [10; 0; 0; 1] ++ a_rec).
Theorem C46_refuted : ~ (forall d p owner type len e ev s, (length d < Z.to_nat 65536)%nat -> header_at d p owner type len e -> rr d (skipn p d) = (ev, Ok s) -> s = skipn (e + Z.to_nat len) d).
Proof.
  intros H. assert (E : rr forged (skipn 0 forged) = ([EA "host.local" "10.0.0.1"], Ok a_rec)) by (vm_compute; reflexivity).
  destruct (rr_header forged (skipn 0 forged)) as [[[[owner type] len] r]| | | |] eqn:R; [|unfold rr in E; rewrite R in E; discriminate..].
  assert (L : len = 30) by (vm_compute in R; congruence). apply header_sound in R; [|lia]. destruct R as [e [R1 [R2 R3]]].
  pose proof (H forged 0%nat owner type len e _ _ ltac:(apply Nat.ltb_lt; vm_compute; reflexivity) R1 E) as K. subst len. apply (f_equal (@length byte)) in K. rewrite skipn_length in K.
  assert (LA : length a_rec = 26%nat) by reflexivity. assert (LF : length forged = 52%nat) by reflexivity. rewrite LA, LF in K. lia.
Qed.
(** both records count: the address 192.168.0.9 comes from inside the other record *)
Theorem C46_forged_refuted : parse (datagram 2 [forged]) = ([EA "host.local" "10.0.0.1"; EA "host.local" "192.168.0.9"], Ok []).
Proof. vm_compute. reflexivity. Qed.
(** Missing: rejection of other records (C46_refuted).  If the content of a record agrees with
    its length, decoding goes on at the end of the record. *)
Theorem C46_consistent_partial d p owner type len e ev s : (length d < Z.to_nat 65536)%nat -> (p <= length d)%nat -> header_at d p owner type len e -> content_at d type e (e + Z.to_nat len) ->
  rr d (skipn p d) = (ev, Ok s) -> s = skipn (e + Z.to_nat len) d.
Proof.
  intros D P H C E. unfold rr in E. destruct (rr_header d (skipn p d)) as [[[[owner' type'] len'] r]| | | |] eqn:R; try discriminate E. cbn [out] in E. apply header_sound in R; [|exact P]. destruct R as [e' [R1 [-> R3]]].
  destruct (header_det _ _ _ _ _ _ _ _ _ _ H R1) as [<- [<- [<- <-]]]. assert (L : 0 <= len < 65536). { destruct H as [ls [e0 [t1 [t2 [c1 [c2 [l1 [l2 [l3 [l4 [n1 [n2 [rest [_ [_ [_ [_ [-> _]]]]]]]]]]]]]]]]]]. pose proof (Zb_range n1). pose proof (Zb_range n2). unfold un16. lia. }
  unfold rr_data in E. rewrite position_skipn in E by lia. rewrite Z.mod_small in E by (unfold two16; lia). remember (e + Z.to_nat len)%nat as e1. destruct C as [q ls e1 C|q e1 C|q ls e1 C|q|t q e1 C1 C2 C3 C4]; cbn [Z.eqb Pos.eqb] in E.
  - destruct (get_addr_str d (skipn q d)) as [[n r]| | | |] eqn:G; try discriminate E. cbn [out] in E. apply addr_str_sound in G; [|lia]. destruct G as [ls' [e2 [G1 [G2 [-> _]]]]]. destruct (name_det 191 4096 _ _ _ _ _ _ ltac:(lia) C G1) as [_ <-]. congruence.
  - apply txt_end in E; [|lia|lia]. destruct E as [e2 [-> [_ [_ [_ E]]]]]. f_equal. apply E; [exact C|lia].
  - match type of E with out _ ?x = _ => destruct x as [[[port target] r]| | | |] eqn:G; try discriminate E end. cbn [out] in E. inv_bind G v1 s1 G1. apply u16_inv in G1. destruct G1 as [x1 [x2 [G1 _]]]. inv_bind G v2 s2 G2. apply u16_inv in G2. destruct G2 as [x3 [x4 [-> _]]]. inv_bind G v3 s3 G3. apply u16_inv in G3. destruct G3 as [x5 [x6 [-> _]]].
    change ([x1; x2] ++ [x3; x4] ++ [x5; x6] ++ s3) with ([x1; x2; x3; x4; x5; x6] ++ s3) in G1. destruct (skipn_more _ _ _ _ G1) as [M [B|B]]; [|discriminate]. cbn [length] in M, B. rewrite <- M in G. inv_bind G v4 s4 G4. injection G as <- <- <-. apply addr_str_sound in G4; [|lia]. destruct G4 as [ls' [e2 [G4 [_ [-> _]]]]]. destruct (name_det 191 4096 _ _ _ _ _ _ ltac:(lia) C G4) as [_ <-]. congruence.
  - destruct (get_u32 (skipn q d)) as [[ip r]| | | |] eqn:G; try discriminate E. cbn [out] in E. apply u32_inv in G. destruct G as [a [b [c [f [G _]]]]]. destruct (skipn_more _ _ _ _ G) as [M _]. cbn [length] in M. congruence.
  - destruct (Z.eqb_spec t 12); [contradiction|]. destruct (Z.eqb_spec t 16); [contradiction|]. destruct (Z.eqb_spec t 33); [contradiction|]. destruct (Z.eqb_spec t 1); [contradiction|].
    destruct (get_bytes_cases len (skipn q d) ltac:(lia)) as [[G _]|[G _]]; rewrite G in E; [discriminate|]. cbn [out] in E. injection E as <- <-. rewrite ListLemmas.skipn_skipn. congruence.
Qed.
(** A text record is read at least to its end, and to less than 256 bytes beyond. *)
Theorem C46_txt_partial d p owner len e ev s : (length d < Z.to_nat 65536)%nat -> (p <= length d)%nat -> header_at d p owner 16 len e -> rr d (skipn p d) = (ev, Ok s) ->
  exists e', s = skipn e' d /\ (e' <= length d)%nat /\ Z.of_nat e + len <= Z.of_nat e' < Z.of_nat e + len + 256 /\ strings_at d e e'.
Proof.
  intros D P H E. unfold rr in E. destruct (rr_header d (skipn p d)) as [[[[owner' type'] len'] r]| | | |] eqn:R; try discriminate E. cbn [out] in E. apply header_sound in R; [|exact P]. destruct R as [e' [R1 [-> R3]]].
  destruct (header_det _ _ _ _ _ _ _ _ _ _ H R1) as [<- [<- [<- <-]]]. assert (L : 0 <= len < 65536). { destruct H as [ls [e0 [t1 [t2 [c1 [c2 [l1 [l2 [l3 [l4 [n1 [n2 [rest [_ [_ [_ [_ [-> _]]]]]]]]]]]]]]]]]]. pose proof (Zb_range n1). pose proof (Zb_range n2). unfold un16. lia. }
  unfold rr_data in E. cbn [Z.eqb Pos.eqb] in E. rewrite position_skipn in E by lia. rewrite Z.mod_small in E by (unfold two16; lia). apply txt_end in E; [|lia|lia]. destruct E as [e2 [E1 [E2 [E3 [E4 _]]]]]. exists e2. auto.
Qed.
(** a text record of two strings and an address record, both as long as they say *)
Definition good_txt : list byte := rec_of host 16 (txt_data "txtvers=1" ++ txt_data "rp=ipp/print").
Example C46_example : rr (good_txt ++ a_rec) (good_txt ++ a_rec) = ([ETxt "host.local" "txtvers" "1"; ETxt "host.local" "rp" "ipp/print"], Ok a_rec) /\ rr a_rec a_rec = ([EA "host.local" "192.168.0.9"], Ok []).
Proof. vm_compute. split; reflexivity. Qed.
Example C46_content_example : content_at (good_txt ++ a_rec) 16 22 (22 + Z.to_nat 23).
Proof.
  constructor. apply (strings_more _ 22 (bZ 9) 9); [reflexivity|reflexivity|apply Nat.leb_le; reflexivity|]. apply (strings_more _ 32 (bZ 12) 12); [reflexivity|reflexivity|apply Nat.leb_le; reflexivity|]. apply strings_none.
Qed.

Print Assumptions C41_total.
Print Assumptions C41_parse_total.
Print Assumptions C41_sound.
Print Assumptions C41_complete.
Print Assumptions C42_questions.
Print Assumptions C42_unique.
Print Assumptions C42_own_reader.
Print Assumptions C43_once.
Print Assumptions C43_backed.
Print Assumptions C43_reported.
Print Assumptions C44_refuted.
Print Assumptions C44_one_datagram_partial.
Print Assumptions C45_refuted.
Print Assumptions C45_prompt_partial.
Print Assumptions C45_only_expiry_partial.
Print Assumptions C46_refuted.
Print Assumptions C46_forged_refuted.
Print Assumptions C46_consistent_partial.
Print Assumptions C46_txt_partial.
