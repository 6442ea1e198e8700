(** C95, C96: ippdiscover, and where the client sends its requests (ContactSpec.v). *)
From Verif Require Import Base BaseLemmas ListLemmas PpmCmdSpec StringModel StringProofs MapModel PpmSpec PpmProofs IppModel JobModel PrinterModel ArgModel ArgSpec ArgProperties HelpModel PrinterProperties ClientModel ClientProperties ClientCmdSpec ClientCmdProperties.
From Verif Require Import DiscoveryModel DiscoverySpec RecordSpec DnsProofs DiscoveryProofs DiscoveryProperties MessageSpec MessageProofs MessageProperties ContactModel ContactSpec.
From Coq Require Import Lia ZifyBool ZifyNat ZifyN.
Local Open Scope Z_scope.

(** ** C95 *)
(** *** What is received *)
Lemma heard_datagrams size ds rest : Forall (fun d => d <> [] /\ (length d <= size)%nat) ds -> match rest with [] | Nothing :: _ | Datagram [] :: _ => True | _ => False end -> heard size (map Datagram ds ++ rest) = ds.
Proof.
  intros F R. induction F as [|d ds [N L] F IH]; cbn [map List.app heard udp_receive].
  - destruct rest as [|[d|] rest]; [reflexivity| |reflexivity]. destruct d; [|destruct R]. cbn [heard udp_receive]. rewrite firstn_nil. reflexivity.
  - rewrite (firstn_all2 d) by exact L. destruct d; [congruence|]. rewrite IH. reflexivity.
Qed.
Lemma heard_prefix size l : exists rest, map (udp_receive size) l = heard size l ++ rest /\ Forall (fun d => d <> []) (heard size l).
Proof.
  induction l as [|a l (rest & IH & F)]; [exists []; split; [reflexivity|constructor]|]. cbn [heard map]. destruct (udp_receive size a) as [|b d]; [exists ([] :: map (udp_receive size) l); split; [reflexivity|constructor]|].
  exists rest. rewrite IH. split; [reflexivity|]. constructor; [discriminate|exact F].
Qed.
(** *** The words *)
Definition help_word (w : string) : Prop := w = "-h"%string \/ w = "--help"%string.
Definition known_word (w : string) : Prop := help_word w \/ w = "-v"%string \/ w = "--verbose"%string.
Lemma discover_args args pre rest st : args = pre ++ rest -> Forall known_word pre -> match rest with [] => True | w :: _ => ~ known_word w end ->
  exists st' msg, get_args (map fst discover_switches) [] st args = Ok (match rest with [] => true | _ => false end, msg, st') /\
  (Exists help_word pre -> a_val st' 0%nat = ABool true) /\ (~ Exists help_word pre -> a_val st' 0%nat = a_val st 0%nat).
Proof.
  intros -> F N.
  assert (L : forall fuel pre st, (length (pre ++ rest) <= fuel)%nat -> Forall known_word pre -> exists st', switch_loop fuel (map fst discover_switches) st (pre ++ rest) = Ok (inl (st', rest)) /\
    (Exists help_word pre -> a_val st' 0%nat = ABool true) /\ (~ Exists help_word pre -> a_val st' 0%nat = a_val st 0%nat) /\ (a_val st 0%nat = ABool true -> a_val st' 0%nat = ABool true)).
  { clear pre F st. induction fuel as [|fuel IH]; intros pre st Hl F.
    - destruct pre; [|cbn in Hl; lia]. destruct rest; [|cbn in Hl; lia]. cbn. exists st. split; [reflexivity|]. split; [intros K; inversion K|]. auto.
    - destruct pre as [|w pre]; cbn [List.app switch_loop] in *.
      + exists st. split; [|split; [intros K; inversion K|auto]]. destruct rest as [|w rest]; [reflexivity|]. unfold known_word, help_word in N.
        cbn [discover_switches map fst try_switches parse_switch sw_names sw_kind existsb]. unfold parse_switch. cbn [sw_names sw_kind existsb].
        destruct (String.eqb_spec w "-h") as [Q|Q1]; [tauto|]. destruct (String.eqb_spec w "--help") as [Q|Q2]; [tauto|]. destruct (String.eqb_spec w "-v") as [Q|Q3]; [tauto|]. destruct (String.eqb_spec w "--verbose") as [Q|Q4]; [tauto|]. reflexivity.
      + inversion F as [|? ? K F']; subst.
        assert (E : exists st1, try_switches (map fst discover_switches) st (w :: pre ++ rest) = Went st1 (pre ++ rest) /\ (help_word w -> a_val st1 0%nat = ABool true) /\ (~ help_word w -> a_val st1 0%nat = a_val st 0%nat) /\ (a_val st 0%nat = ABool true -> a_val st1 0%nat = ABool true)).
        { destruct K as [[-> | ->]|[-> | ->]]; eexists; (split; [reflexivity|]); cbn; (split; [|split]); auto; unfold help_word; intros; try tauto; try (destruct H; discriminate); try (exfalso; apply H; tauto). }
        destruct E as (st1 & E & E1 & E2 & E3). rewrite E. destruct (IH pre st1 ltac:(cbn in Hl; lia) F') as (st' & L & L1 & L2 & L3). exists st'. split; [exact L|]. split; [|split].
        * intros X. inversion X; subst; auto.
        * intros X. rewrite L2; [apply E2; intros Y; apply X; left; exact Y|intros Y; apply X; right; exact Y].
        * auto. }
  destruct (L (length (pre ++ rest)) pre st (le_n _) F) as (st' & E & E1 & E2 & _). unfold get_args. rewrite E. cbn [bind length]. destruct rest as [|w rest].
  - cbn. do 2 eexists. split; [reflexivity|auto].
  - cbn. do 2 eexists. split; [reflexivity|auto].
Qed.
(** The words -h, --help, -v and --verbose are taken; with a help word before any other
    word the help is printed; otherwise any other word makes the program end with 1.  In
    neither case anything is sent.  Without words of either kind printers are looked for. *)
Theorem C95_words size clock arrivals name args pre rest : args = pre ++ rest -> Forall known_word pre -> match rest with [] => True | w :: _ => ~ known_word w end ->
  let r := ippdiscover size clock arrivals name args in
  (Exists help_word pre -> r = Ok (mkRun 0 (arg_help name discover_switches [] ++ line_break)%string [])) /\
  (~ Exists help_word pre -> rest <> [] -> r = Ok (mkRun 1 "" [])) /\
  (~ Exists help_word pre -> rest = [] -> r = let! (_, acts) := discover clock (heard size arrivals) in Ok (mkRun 0 (print_found acts) (queries acts))).
Proof.
  intros E F N r. destruct (discover_args args pre rest discover_init E F N) as (st & msg & G & H1 & H2). unfold r, ippdiscover. rewrite G. cbn [bind].
  split; [|split].
  - intros X. rewrite (H1 X). reflexivity.
  - intros X Y. rewrite (H2 X). destruct rest; [congruence|]. reflexivity.
  - intros X ->. rewrite (H2 X). reflexivity.
Qed.
Example C95_words_example : Forall known_word ["-v"; "--help"]%string /\ Exists help_word ["-v"; "--help"]%string /\ ~ known_word "-x" /\
  ippdiscover 100 still [] "ippdiscover" ["-v"; "--help"; "-x"]%string = Ok (mkRun 0 ("Usage: ippdiscover [options]" ++ line_break ++ "  -h, --help       Print this help text" ++ line_break ++ "  -v, --verbose    Be verbose" ++ line_break ++ line_break)%string []).
Proof.
  unfold known_word, help_word. split; [repeat constructor; tauto|]. split; [right; left; tauto|]. split; [intros [[K|K]|[K|K]]; discriminate|]. vm_compute. reflexivity.
Qed.

(** *** The lines *)
Lemma found_text acts : Forall one_line (reported acts) -> text_of (reported acts) (print_found acts).
Proof.
  induction acts as [|[q|a] acts IH]; intros F; [constructor| |]; cbn [reported flat_map List.app print_found] in *; [apply IH; exact F|]. inversion F; subst. constructor; [assumption|]. apply IH. assumption.
Qed.
Lemma one_line_free s : one_line s <-> free (fun c => Ascii.eqb c "010") s.
Proof.
  unfold one_line, free. split.
  - intros H. apply Forall_forall. intros c C. destruct (Ascii.eqb_spec c "010") as [Q|Q]; [|reflexivity]. subst c. exfalso. apply H. clear H. induction s as [|x s IH]; [destruct C|]. cbn in C. destruct C as [->|C]; [exists ""%string, s; reflexivity|].
    destruct (IH C) as (a & b & ->). exists (String x a), b. reflexivity.
  - intros F (a & b & ->). rewrite !bytes_app in F. apply Forall_app in F. destruct F as [_ F]. apply Forall_app in F. destruct F as [F _]. cbn in F. inversion F. discriminate.
Qed.
Lemma digit_one_line d : 0 <= d <= 9 -> Ascii.eqb (bZ (48 + d)) "010" = false.
Proof. intros D. assert (C : d = 0 \/ d = 1 \/ d = 2 \/ d = 3 \/ d = 4 \/ d = 5 \/ d = 6 \/ d = 7 \/ d = 8 \/ d = 9) by lia. repeat (destruct C as [->|C]; [reflexivity|]). subst. reflexivity. Qed.
Lemma ip_one_line a b c f ip : ip_text a b c f ip -> one_line ip.
Proof.
  intros (n1 & n2 & n3 & n4 & -> & N1 & N2 & N3 & N4). apply one_line_free. unfold free. rewrite !bytes_app. apply (number_free (fun c => Ascii.eqb c "010")) in N1, N2, N3, N4; try exact digit_one_line.
  repeat (apply Forall_app; split); try assumption; repeat constructor.
Qed.
Lemma address_one_line scheme default port ip rp a : one_line scheme -> one_line ip -> one_line rp -> address scheme default port ip rp a -> one_line a.
Proof.
  rewrite !one_line_free. unfold free. intros S I R (colon & C & ->). rewrite !bytes_app. assert (D : Forall (fun c => Ascii.eqb c "010" = false) (bytes_of_string colon)).
  { destruct (Z.eqb port default); [subst; constructor|]. destruct C as (n & N & ->). rewrite bytes_app. apply Forall_app. split; [repeat constructor|]. eapply number_free; [exact digit_one_line|exact N]. }
  repeat (apply Forall_app; split); try assumption; repeat constructor.
Qed.
Lemma text_of_unique l t : text_of l t -> forall l', text_of l' t -> l = l'.
Proof.
  induction 1 as [|s l t O T IH]; intros l' T'.
  - inversion T' as [|s' l2 t' O' T2 E']; [reflexivity|]. destruct s'; discriminate.
  - remember (s ++ line_break ++ t)%string as u eqn:E. destruct T' as [|s' l2 t' O' T2]; [destruct s; discriminate|].
    change (line_break ++ t)%string with (String "010" t) in E. change (line_break ++ t')%string with (String "010" t') in E.
    apply (app_stop (fun c => Ascii.eqb c "010")) in E; [|apply one_line_free; exact O'|apply one_line_free; exact O|reflexivity|reflexivity]. destruct E as (-> & _ & ->). f_equal. apply IH. exact T2.
Qed.
(** a printer that the latest records make up *)
Definition announced (evs : list event) (service : string) (port : Z) (ip rp : string) : Prop :=
  exists owner ptr target, ends_with owner service /\ In (EPtr owner ptr) evs /\ last_srv ptr evs = Some (port, target) /\ last_txt ptr "rp" evs = Some rp /\ In (EA target ip) evs.
Lemma reported_events clock ds st acts a : discover clock ds = Ok (st, acts) -> In a (reported acts) -> let evs := fun e => In e (all_events ds) in exists ip rp, ipp_backed evs ip rp a \/ ipps_backed evs ip rp a.
Proof.
  intros H K evs. destruct (discover_spec _ _ _ _ H) as [_ [B _]]. rewrite Forall_forall in B. destruct (B a K) as (l & rest & port & ip & rp & E & P). exists ip, rp. unfold evs. rewrite E.
  assert (G : forall service tail scheme default, (forall s, service s = true -> ends_with s tail) -> printer service l port ip rp -> backed tail scheme default (fun e => In e (l ++ rest)) ip rp (make_addr scheme default port ip rp)).
  { intros service tail scheme default S (owner & ptr & O1 & O2 & target & R1 & R2 & R3). apply last_srv_In in R1. apply last_txt_In in R2. apply ips_of_In in R3. exists owner, ptr, port, target.
    assert (X : forall e, In e l -> In e (l ++ rest)) by (intros; apply in_or_app; auto). split; [apply X; assumption|]. split; [exact (S _ O1)|]. split; [apply X; assumption|]. split; [apply X; assumption|]. split; [apply X; assumption|]. apply make_addr_address. apply X in R1. rewrite <- E in R1. apply events_received in R1. destruct R1 as [d [p [_ R1]]]. inversion R1. pose proof (Zb_range p1). pose proof (Zb_range p2). unfold un16. lia. }
  destruct P as [[P ->]|[P ->]]; [left|right]; [apply (G is_ipp)|apply (G is_ipps)]; try exact P; [apply is_ipp_spec|apply is_ipps_spec].
Qed.
(** The output is a list of lines: different addresses of printers that records received
    make up, and all the printers that the latest records make up. *)
Theorem C95_lines_partial size clock ds arrivals name r : Forall (fun d => d <> [] /\ (length d <= size)%nat) ds -> arrive ds arrivals ->
  (forall ptr v, In (ETxt ptr "rp" v) (all_events ds) -> one_line v) ->
  ippdiscover size clock arrivals name [] = Ok r -> r_code r = 0 /\ exists l, text_of l (r_stdout r) /\ (forall l', text_of l' (r_stdout r) -> l' = l) /\ NoDup l /\
    (forall a, In a l -> exists ip rp, ipp_backed (received ds) ip rp a \/ ipps_backed (received ds) ip rp a) /\
    (forall port ip rp, announced (all_events ds) "_ipps._tcp.local" port ip rp -> exists a, address "ipps" 443 port ip rp a /\ In a l) /\
    (forall port ip rp, announced (all_events ds) "_ipp._tcp.local" port ip rp -> exists a, In a l /\ (address "ipp" 631 port ip rp a \/ exists port', address "ipps" 443 port' ip rp a)).
Proof.
  intros Fd Ar On H. destruct (C95_words size clock arrivals name [] [] [] eq_refl (Forall_nil _) I) as (_ & _ & W). specialize (W ltac:(intros K; inversion K) eq_refl). rewrite W in H. clear W.
  assert (Hh : heard size arrivals = ds). { destruct Ar as [->|(rest & ->)]; [rewrite <- (app_nil_r (map Datagram ds)); apply heard_datagrams; [exact Fd|exact I]|apply heard_datagrams; [exact Fd|exact I]]. }
  rewrite Hh in H. destruct (discover clock ds) as [[st acts]| | | |] eqn:D; try discriminate. cbn [bind] in H. injection H as <-. cbn [r_code r_stdout]. split; [reflexivity|].
  assert (B : forall a, In a (reported acts) -> exists ip rp, ipp_backed (received ds) ip rp a \/ ipps_backed (received ds) ip rp a) by (intros a; apply (C43_backed clock ds st acts a D)).
  assert (O : Forall one_line (reported acts)).
  { apply Forall_forall. intros a Ha. assert (K : exists scheme default port ip rp, one_line scheme /\ one_line ip /\ one_line rp /\ address scheme default port ip rp a).
    { destruct (reported_events clock ds st acts a D Ha) as (ip & rp & [K|K]); destruct K as (owner & ptr & port & target & _ & _ & _ & T & A & Ad); apply events_received in A; destruct A as (d & p & _ & A); [exists "ipp"%string, 631, port, ip, rp|exists "ipps"%string, 443, port, ip, rp];
        (split; [apply one_line_free; repeat constructor|]); (split; [inversion A; eapply ip_one_line; eassumption|]); (split; [eapply On; exact T|exact Ad]). }
    destruct K as (scheme & default & port & ip & rp & K1 & K2 & K3 & K4). exact (address_one_line _ _ _ _ _ _ K1 K2 K3 K4). }
  exists (reported acts). pose proof (found_text acts O) as T. split; [exact T|]. split; [intros l' T'; symmetry; exact (text_of_unique _ _ T _ T')|]. split; [exact (C43_once clock ds st acts D)|]. split; [exact B|].
  split; intros port ip rp (owner & ptr & target & E & P & S & X & A); destruct (C43_reported clock ds st acts owner ptr port target rp ip D P S X A) as [G1 G2]; auto.
Qed.
Definition service_packet (port : Z) (path : string) : list byte :=
  datagram 4 [rec_of ipp_service 12 (wire ("P" :: ipp_service)%string); rec_of ("P" :: ipp_service)%string 33 (srv_data port host);
              rec_of ("P" :: ipp_service)%string 16 (txt_data ("rp=" ++ path)); a_rec].
Example C95_lines_example : Forall (fun d => d <> [] /\ (length d <= 4096)%nat) [ipps_packet; ipp_packet] /\ arrive [ipps_packet; ipp_packet] [Datagram ipps_packet; Datagram ipp_packet; Nothing; Datagram (service_packet 80 "x")] /\
  (forall ptr v, In (ETxt ptr "rp" v) (all_events [ipps_packet; ipp_packet]) -> one_line v) /\ announced (all_events [ipps_packet; ipp_packet]) "_ipp._tcp.local" 8631 "192.168.0.9" "ipp/print".
Proof.
  split; [do 2 (apply Forall_cons; [split; [discriminate|apply Nat.leb_le; vm_compute; reflexivity]|]); apply Forall_nil|]. split; [right; exists [Datagram (service_packet 80 "x")]; reflexivity|].
  remember (all_events [ipps_packet; ipp_packet]) as l eqn:E. vm_compute in E. subst l. split.
  - intros ptr v K. apply one_line_free. repeat (destruct K as [K|K]; [try discriminate K; try (injection K; intros; subst; repeat constructor)|]). destruct K.
  - do 3 eexists. split; [exists ""%string; reflexivity|]. split; [cbn; tauto|]. split; [vm_compute; reflexivity|]. split; [vm_compute; reflexivity|]. cbn. tauto.
Qed.
Example C95_example : ippdiscover 4096 still [Datagram ipps_packet; Datagram ipp_packet; Nothing; Datagram (service_packet 80 "x")] "" [] =
  Ok (mkRun 0 ("ipps://192.168.0.9/ipp/print" ++ line_break ++ "ipp://192.168.0.9:8631/ipp/print" ++ line_break)%string [make_query 0 12 services]).
Proof. vm_compute. reflexivity. Qed.
(** A path may contain a line break: the output then has a line that is an address with a
    host for which no record was received. *)
Theorem C95_lines_refuted : exists ds l r, ippdiscover 4096 still (map Datagram ds) "" [] = Ok r /\ text_of l (r_stdout r) /\
  exists a, In a l /\ address "ipp" 631 631 "10.9.9.9" "print" a /\ forall target, ~ In (EA target "10.9.9.9") (all_events ds).
Proof.
  exists [service_packet 631 ("x" ++ line_break ++ "ipp://10.9.9.9/print")], ["ipp://192.168.0.9/x"; "ipp://10.9.9.9/print"]%string, (mkRun 0 ("ipp://192.168.0.9/x" ++ line_break ++ "ipp://10.9.9.9/print" ++ line_break)%string [make_query 0 12 services]).
  split; [vm_compute; reflexivity|]. cbn [r_stdout]. split.
  { change ("ipp://192.168.0.9/x" ++ line_break ++ "ipp://10.9.9.9/print" ++ line_break)%string with ("ipp://192.168.0.9/x" ++ line_break ++ ("ipp://10.9.9.9/print" ++ line_break ++ ""))%string.
    constructor; [apply one_line_free; repeat constructor|]. constructor; [apply one_line_free; repeat constructor|constructor]. }
  exists "ipp://10.9.9.9/print"%string. split; [right; left; reflexivity|]. split; [exists ""%string; split; reflexivity|].
  intros target K. assert (E : all_events [service_packet 631 ("x" ++ line_break ++ "ipp://10.9.9.9/print")] =
    [EPtr "_ipp._tcp.local" "P._ipp._tcp.local"; ESrv "P._ipp._tcp.local" 631 "host.local"; ETxt "P._ipp._tcp.local" "rp" ("x" ++ line_break ++ "ipp://10.9.9.9/print"); EA "host.local" "192.168.0.9"]%string) by (vm_compute; reflexivity).
  rewrite E in K. repeat destruct K as [K|K]; try discriminate K; try destruct K.
Qed.
(** *** The questions *)
(** The program sends, in this order, the questions that C94 speaks of: first the one for the services,
    numbered from 0, none twice, each after the datagrams that made it necessary. *)
Theorem C95_queries size clock ds arrivals name r : Forall (fun d => d <> [] /\ (length d <= size)%nat) ds -> arrive ds arrivals -> ippdiscover size clock arrivals name [] = Ok r ->
  exists qs, r_queries r = numbered 0 ((12, services) :: qs) /\ NoDup (single ((12, services) :: qs)) /\ Forall (fun q => snd q <> []) qs /\
  Forall (fun q => exists ds1 ds2, ds = ds1 ++ ds2 /\ wanted (all_events ds1) q) (single qs) /\
  (forall p, pointed (all_events ds) p -> (has_text (all_events ds) p \/ In (16, p) (single qs)) /\ (has_service (all_events ds) p \/ In (33, p) (single qs))) /\
  (forall t, is_target (all_events ds) t -> has_address (all_events ds) t \/ In (1, t) (single qs)).
Proof.
  intros Fd Ar H. destruct (C95_words size clock arrivals name [] [] [] eq_refl (Forall_nil _) I) as (_ & _ & W). specialize (W ltac:(intros K; inversion K) eq_refl). rewrite W in H. clear W.
  assert (Hh : heard size arrivals = ds). { destruct Ar as [->|(rest & ->)]; [rewrite <- (app_nil_r (map Datagram ds)); apply heard_datagrams; [exact Fd|exact I]|apply heard_datagrams; [exact Fd|exact I]]. }
  rewrite Hh in H. destruct (discover clock ds) as [[st acts]| | | |] eqn:D; try discriminate. cbn [bind] in H. injection H as <-. cbn [r_queries].
  assert (S : queries acts = sent acts) by (clear D; induction acts as [|[q|a] acts IH]; cbn [queries sent flat_map List.app]; [reflexivity|rewrite IH; reflexivity|exact IH]).
  rewrite S. exact (C94_questions clock ds st acts D).
Qed.
Example C95_queries_example : let ds := [pointer_message; service_message; rest_message] in Forall (fun d => d <> [] /\ (length d <= 4096)%nat) ds /\ arrive ds (map Datagram ds) /\
  ippdiscover 4096 still (map Datagram ds) "ippdiscover" [] = Ok (mkRun 0 ("ipp://192.168.0.9/ipp/print" ++ line_break) (numbered 0 [(12, services); (16, ["P._ipp._tcp.local"]); (33, ["P._ipp._tcp.local"]); (1, ["host.local"])]%string)).
Proof.
  cbv zeta. split; [|split; [left; reflexivity|vm_compute; reflexivity]]. repeat (constructor; [split; [discriminate|apply Nat.leb_le; vm_compute; reflexivity]|]). constructor.
Qed.
(** An empty datagram, from anyone, ends the search: what follows is not heard. *)
Theorem C95_silence_refuted size clock name arrivals rest : ippdiscover size clock (arrivals ++ Datagram [] :: rest) name [] = ippdiscover size clock arrivals name [].
Proof.
  assert (H : heard size (arrivals ++ Datagram [] :: rest) = heard size arrivals).
  { induction arrivals as [|a l IH]; cbn [List.app heard udp_receive]; [rewrite firstn_nil; reflexivity|]. rewrite IH. reflexivity. }
  unfold ippdiscover. rewrite H. reflexivity.
Qed.
Example C95_silence_example : ippdiscover 4096 still [Datagram []; Datagram ipp_packet] "" [] = Ok (mkRun 0 "" [make_query 0 12 services]).
Proof. vm_compute. reflexivity. Qed.

(** ** C96 *)
(** *** URLs *)
Lemma host_free h : host_name h -> free stop_char h.
Proof.
  intros [_ H]. apply Forall_forall. intros c C. specialize (H c C). unfold stop_char. destruct (Ascii.eqb_spec c ":") as [Q|Q1]; [exfalso; apply H; subst; cbn; tauto|]. destruct (Ascii.eqb_spec c "/") as [Q|Q2]; [exfalso; apply H; subst; cbn; tauto|]. reflexivity.
Qed.
(** A URL leads to one place only. *)
Lemma append_cancel a : forall b c, (a ++ b)%string = (a ++ c)%string -> b = c.
Proof. induction a as [|x a IH]; cbn [append]; intros b c H; [exact H|]. injection H as H. exact (IH _ _ H). Qed.
Lemma leads_unique scheme default url h p path h' p' path' : leads scheme default url h p path -> leads scheme default url h' p' path' -> h = h' /\ p = p' /\ path = path'.
Proof.
  intros (c & C & Hh & E) (c' & C' & Hh' & E'). rewrite E' in E. apply append_cancel in E. apply append_cancel in E. apply host_free in Hh, Hh'.
  assert (D : forall n v, number (bytes_of_string n) v -> free stop_char n) by (intros n v K; eapply number_free; [exact digit_not_stop|exact K]).
  destruct C as [[-> ->]|(n & N & ->)], C' as [[-> ->]|(n' & N' & ->)]; cbn [append] in E; apply (app_stop stop_char) in E; try assumption; try reflexivity; destruct E as (E1 & E2 & E3); try discriminate.
  - auto.
  - apply (app_stop stop_char) in E3; [|exact (D _ _ N')|exact (D _ _ N)|reflexivity|reflexivity]. destruct E3 as (E3 & _ & E4). subst n'. split; [auto|]. split; [|auto]. exact (number_unique _ _ _ N N').
Qed.
Theorem C96_determined url tls h p path tls' h' p' path' : contacts url tls h p path -> contacts url tls' h' p' path' -> tls = tls' /\ h = h' /\ p = p' /\ path = path'.
Proof.
  intros H H'. assert (tls = tls').
  { destruct H as (c & _ & _ & E), H' as (c' & _ & _ & E'). rewrite E' in E. destruct tls, tls'; try reflexivity; discriminate E. }
  subst tls'. split; [reflexivity|]. exact (leads_unique _ _ _ _ _ _ _ _ _ H H').
Qed.
(** The client contacts the host and port that an ipp or ipps address names; if it names no
    port, not the port that the standards say (C96_refuted) but that of http or https. *)
Theorem C96_url scheme_tls addr host path : forall port, means addr scheme_tls host port path ->
  exists port', contacts (request_url addr) scheme_tls host port' path /\
  ((port' = port /\ exists n, addr = ((if scheme_tls then "ipps" else "ipp") ++ "://" ++ host ++ ":" ++ n ++ "/" ++ path)%string) \/
   (port = 631 /\ port' = (if scheme_tls then 443 else 80) /\ addr = ((if scheme_tls then "ipps" else "ipp") ++ "://" ++ host ++ "/" ++ path)%string)).
Proof.
  intros port (colon & C & Hh & E). assert (U : request_url addr = ((if scheme_tls then "https" else "http") ++ "://" ++ host ++ colon ++ "/" ++ path)%string). { rewrite E. destruct scheme_tls; reflexivity. }
  destruct C as [[-> ->]|(n & N & ->)].
  - exists (if scheme_tls then 443 else 80). split; [|right; auto]. exists ""%string. split; [left; auto|]. split; [exact Hh|]. exact U.
  - exists port. split; [|left; split; [reflexivity|]; exists n; exact E]. exists (":" ++ n)%string. split; [right; exists n; auto|]. split; [exact Hh|]. exact U.
Qed.
Definition some_host : string := "192.168.0.9".
Lemma some_host_name : host_name some_host.
Proof. split; [discriminate|]. intros c C K. unfold some_host in C. cbn in C, K. repeat (destruct C as [<-|C]; [repeat (destruct K as [K|K]; [discriminate|]); destruct K|]). destruct C. Qed.
Theorem C96_refuted : exists addr host path, means addr false host 631 path /\ contacts (request_url addr) false host 80 path /\ ~ contacts (request_url addr) false host 631 path.
Proof.
  exists "ipp://192.168.0.9/ipp/print"%string, some_host, "ipp/print"%string. assert (C : contacts (request_url "ipp://192.168.0.9/ipp/print") false some_host 80 "ipp/print"). { exists ""%string. split; [left; auto|]. split; [exact some_host_name|reflexivity]. }
  split; [|split; [exact C|]].
  - exists ""%string. split; [left; auto|]. split; [exact some_host_name|reflexivity].
  - intros K. destruct (C96_determined _ _ _ _ _ _ _ _ _ C K) as (_ & _ & K' & _). discriminate.
Qed.

(** *** Printers found *)
Lemma ip_host a b c f ip : ip_text a b c f ip -> host_name ip.
Proof.
  intros (n1 & n2 & n3 & n4 & -> & N1 & N2 & N3 & N4). set (bad := fun c => existsb (Ascii.eqb c) [":"; "/"; "?"; "#"; "@"; "["]%char).
  assert (D : forall d, 0 <= d <= 9 -> bad (bZ (48 + d)) = false). { intros d Hd. assert (C : d = 0 \/ d = 1 \/ d = 2 \/ d = 3 \/ d = 4 \/ d = 5 \/ d = 6 \/ d = 7 \/ d = 8 \/ d = 9) by lia. repeat (destruct C as [->|C]; [reflexivity|]). subst. reflexivity. }
  split; [destruct n1; discriminate|]. apply (number_free bad) in N1, N2, N3, N4; try exact D.
  assert (F : Forall (fun c => bad c = false) (bytes_of_string (n1 ++ "." ++ n2 ++ "." ++ n3 ++ "." ++ n4)%string)). { rewrite !bytes_app. repeat (apply Forall_app; split); try assumption; repeat constructor. }
  intros ch C K. rewrite Forall_forall in F. specialize (F ch C). unfold bad in F. assert (T : existsb (Ascii.eqb ch) [":"; "/"; "?"; "#"; "@"; "["]%char = true). { apply existsb_exists. exists ch. split; [exact K|apply Ascii.eqb_refl]. } congruence.
Qed.
Lemma announced_url (tls : bool) port ip rp a : host_name ip -> address (if tls then "ipps" else "ipp") (if tls then 443 else 631) port ip rp a ->
  contacts (request_url a) tls ip (if tls then port else if port =? 631 then 80 else port) rp.
Proof.
  intros Hh (colon & C & ->). exists colon. split; [|split; [exact Hh|destruct tls; reflexivity]].
  destruct tls; [destruct (Z.eqb_spec port 443); [left; auto|right; exact C]|destruct (Z.eqb_spec port 631); [left; auto|right; exact C]].
Qed.
Definition goes_to (a : string) (ev : PrinterModel.event) : Prop := match ev with Posted b _ | Streamed b _ => b = a | Wrote _ => True end.
Lemma to_bind {A B} P (x : list PrinterModel.event * outcome A) (k : A -> list PrinterModel.event * outcome B) : Forall P (fst x) -> (forall a, snd x = Ok a -> Forall P (fst (k a))) -> Forall P (fst (ebind x k)).
Proof. intros H K. unfold ebind. destruct (snd x); try exact H. apply Forall_app. split; [exact H|apply K; reflexivity]. Qed.
Lemma to_pure {A} P (x : outcome A) : Forall P (fst (pure x)).
Proof. constructor. Qed.
Lemma to_request w p id m : Forall (goes_to (pr_addr p)) (fst (do_request w p id m)).
Proof. unfold do_request. destruct (fst (encodeMsg id m)); repeat constructor. Qed.
Ltac to_addr := repeat first [apply to_pure | apply to_request | (apply to_bind; [|intros]) | progress cbn [fst snd] | constructor | match goal with |- Forall _ (fst (if ?b then _ else _)) => destruct b | |- Forall _ (fst (match ?x with _ => _ end)) => destruct x end].
Lemma to_run_job w p id j f fmt n : Forall (goes_to (pr_addr p)) (fst (run_job w p id j f fmt n)).
Proof. unfold run_job. cbv zeta. cbn [fst]. unfold run_job_body, do_print_to_file, do_print. to_addr. Qed.
Lemma to_open e addr : Forall (goes_to addr) (fst (open_printer e addr)).
Proof. unfold open_printer. destruct (string_starts_with addr "file://"); [to_addr|]. apply to_bind; [|intros; apply to_pure]. unfold refresh. apply to_bind; [to_addr|intros]. apply to_bind; [exact (to_request (e_world e) (mkPrinter addr false []) 1 a)|intros; to_addr]. Qed.
(** All requests of a run of the client go to the address on its command line. *)
Theorem C96_requests e junk args name rs addr p : line args name rs (addr :: p) -> Forall (goes_to addr) (fst (client e junk args)).
Proof.
  intros H. destruct (present rs "--help"%string) eqn:Hh; [rewrite (C92_help _ _ _ _ _ _ H Hh); constructor|].
  destruct (line_parsed junk _ _ _ _ H) as (flags & values & n & defs & pos & st & _ & D & _ & E & V & R & _). unfold client. rewrite ebind_pure, E.
  rewrite (line_help junk rs st defs); [|apply D|exact R]. rewrite Hh. cbn [negb]. destruct D as (_ & _ & _ & <- & _ & _ & _ & _ & Hn & Hp).
  specialize (V 0%nat pAddr Hn). rewrite Hp in V. cbn [pa_id pAddr nth] in V. rewrite V. cbn [as_str]. apply to_bind; [apply to_open|]. intros [[error pa] id] _. destruct error; [apply to_pure|].
  set (q := mkPrinter addr false pa). change addr with (pr_addr q) at 1. clearbody q. clear.
  repeat match goal with |- Forall _ (fst (if String.eqb name ?x then _ else _)) => destruct (String.eqb name x) end; try apply to_pure.
  - unfold identify. to_addr.
  - unfold set_attrs_command, set_attributes. to_addr.
  - unfold get_jobs. to_addr.
  - unfold cancel_command, cancel_job. to_addr.
  - unfold print_command. apply to_bind; [apply to_pure|]. intros [[j fmt]|] _; [|apply to_pure]. destruct (count_pages e fmt _) as [[f pages]|]; [|apply to_pure]. apply to_bind; [to_addr|]. intros [|] _; cbn [negb]; [|apply to_pure].
    apply to_bind; [exact (to_run_job (e_world e) (mkPrinter (pr_addr q) _ (pr_attrs q)) id j f fmt pages)|intros; apply to_pure].
Qed.
(** From discovery to printing: for an address that was reported, the client contacts the
    host and the port in the records received, with TLS for an ipps service and without
    for an ipp service — unless that has the port 631. *)
Theorem C96_announced_partial clock ds st acts a : discover clock ds = Ok (st, acts) -> In a (reported acts) ->
  exists (tls : bool) ip rp owner ptr port target, let recs := received ds in
    ends_with owner (if tls then "_ipps._tcp.local" else "_ipp._tcp.local") /\ recs (EPtr owner ptr) /\ recs (ESrv ptr port target) /\ recs (ETxt ptr "rp" rp) /\ recs (EA target ip) /\
    (tls = true \/ port <> 631 -> contacts (request_url a) tls ip port rp).
Proof.
  intros H K. destruct (C43_backed clock ds st acts a H K) as (ip & rp & [B|B]); destruct B as (owner & ptr & port & target & P & S & V & T & A & Ad).
  - exists false, ip, rp, owner, ptr, port, target. cbv zeta. split; [exact S|]. split; [exact P|]. split; [exact V|]. split; [exact T|]. split; [exact A|]. intros [C|C]; [discriminate|].
    destruct A as (d & q & _ & A). assert (Hh : host_name ip) by (inversion A; eapply ip_host; eassumption). pose proof (announced_url false port ip rp a Hh Ad) as U. cbn [negb] in U. destruct (Z.eqb_spec port 631); [contradiction|exact U].
  - exists true, ip, rp, owner, ptr, port, target. cbv zeta. split; [exact S|]. split; [exact P|]. split; [exact V|]. split; [exact T|]. split; [exact A|]. intros _.
    destruct A as (d & q & _ & A). assert (Hh : host_name ip) by (inversion A; eapply ip_host; eassumption). exact (announced_url true port ip rp a Hh Ad).
Qed.
(** a printer that says it is at port 631 is contacted at port 80 *)
Theorem C96_announced_refuted : exists ds st acts ptr target a, discover still ds = Ok (st, acts) /\ reported acts = [a] /\
  last_srv ptr (all_events ds) = Some (631, target) /\ In (EA target some_host) (all_events ds) /\
  contacts (request_url a) false some_host 80 "ipp/print" /\ forall (tls : bool) h p path, contacts (request_url a) tls h p path -> p = 80.
Proof.
  assert (K : match discover still [service_packet 631 "ipp/print"] with Ok (_, acts) => reported acts | _ => [] end = ["ipp://192.168.0.9/ipp/print"]%string) by (vm_compute; reflexivity).
  destruct (discover still [service_packet 631 "ipp/print"]) as [[st acts]| | | |] eqn:D; try discriminate K.
  exists [service_packet 631 "ipp/print"], st, acts, "P._ipp._tcp.local"%string, "host.local"%string, "ipp://192.168.0.9/ipp/print"%string.
  split; [exact D|]. split; [exact K|]. split; [vm_compute; reflexivity|].
  assert (E : all_events [service_packet 631 "ipp/print"] = [EPtr "_ipp._tcp.local" "P._ipp._tcp.local"; ESrv "P._ipp._tcp.local" 631 "host.local"; ETxt "P._ipp._tcp.local" "rp" "ipp/print"; EA "host.local" "192.168.0.9"]%string) by (vm_compute; reflexivity).
  split; [rewrite E; do 3 right; left; reflexivity|]. assert (C : contacts (request_url "ipp://192.168.0.9/ipp/print") false some_host 80 "ipp/print"). { exists ""%string. split; [left; auto|]. split; [exact some_host_name|reflexivity]. }
  split; [exact C|]. intros tls h p path C'. destruct (C96_determined _ _ _ _ _ _ _ _ _ C C') as (_ & _ & <- & _). reflexivity.
Qed.
Example C96_example : means "ipps://192.168.0.9:443/ipp/print" true some_host 443 "ipp/print" /\ contacts (request_url "ipps://192.168.0.9:443/ipp/print") true some_host 443 "ipp/print" /\
  match discover still [ipps_packet] with Ok (_, acts) => map request_url (reported acts) = ["https://192.168.0.9/ipp/print"]%string | _ => False end.
Proof.
  assert (N : number (bytes_of_string "443") 443). { change (bytes_of_string "443") with (([bZ (48 + 4)] ++ [bZ (48 + 4)]) ++ [bZ (48 + 3)]). change 443 with (10 * (10 * 4 + 4) + 3). constructor; [constructor; [constructor|]|]; lia. }
  split; [exists ":443"%string; split; [right; exists "443"%string; auto|]; split; [exact some_host_name|reflexivity]|]. split; [exists ":443"%string; split; [right; exists "443"%string; auto|]; split; [exact some_host_name|reflexivity]|]. vm_compute. reflexivity.
Qed.
Example C96_requests_example : line ["cancel-job"; "--id"; "17"; cmd_addr]%string "cancel-job" [("--id", "17")]%string [cmd_addr] /\
  match client (ClientProperties.client_world 4) ClientProperties.junk0 ["cancel-job"; "--id"; "17"; cmd_addr]%string with ([Posted _ _; Posted _ _], Ok 0) => True | _ => False end.
Proof. pose proof C92_commands_example as H. destruct H as [_ [L [_ [_ [_ [R _]]]]]]. exact (conj L R). Qed.
Print Assumptions C95_words.
Print Assumptions C95_lines_partial.
Print Assumptions C95_lines_refuted.
Print Assumptions C95_queries.
Print Assumptions C95_silence_refuted.
Print Assumptions C96_determined.
Print Assumptions C96_url.
Print Assumptions C96_refuted.
Print Assumptions C96_requests.
Print Assumptions C96_announced_partial.
Print Assumptions C96_announced_refuted.
