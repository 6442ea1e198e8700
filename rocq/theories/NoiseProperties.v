(** C119: datagrams that tell of nothing (DiscoveryModel.v).  On the multicast group everybody
    hears the questions of everybody else, and whatever else is sent to the port. *)
From Verif Require Import Base BaseLemmas ListLemmas StringModel StringProofs MapModel MapProofs PpmSpec PpmProofs DiscoveryModel DiscoverySpec RecordSpec DnsProofs DiscoveryProofs MessageSpec MessageProofs DiscoveryProperties.
From Coq Require Import Lia ZifyBool ZifyNat ZifyN.
Local Open Scope Z_scope.

(** ** What the property talks about *)
(** A datagram that tells of nothing (one without any byte ends the session): too short for the header of a message, or a message of
    questions and of records of other types only, or one that has no record anywhere. *)
Inductive noise (d : list byte) : Prop :=
| noise_short : (0 < length d < 12)%nat -> noise d
| noise_message : (length d <= Z.to_nat 4096)%nat -> rfc_message d [] -> noise d
| noise_nowhere : d <> [] -> (forall p e, ~ record_at d p e) -> noise d.
(** the same datagrams with such ones in between *)
Inductive with_noise : list (list byte) -> list (list byte) -> Prop :=
| noise_end : with_noise [] []
| noise_same d ds ds' : with_noise ds ds' -> with_noise (d :: ds) (d :: ds')
| noise_more d ds ds' : noise d -> with_noise ds ds' -> with_noise ds (d :: ds').
(** an ipp address of a host and path of which there is an ipps address *)
Definition twin (a : string) (l : list string) : Prop :=
  exists port port' ip rp a', address "ipp" 631 port ip rp a /\ address "ipps" 443 port' ip rp a' /\ In a' l.

(** ** Proofs *)
Lemma noise_parse d : noise d -> fst (parse d) = [].
Proof.
  intros [H|H M|_ H].
  - do 12 (destruct d as [|? d]; [reflexivity|]). cbn [length] in H. lia.
  - apply (message_read d [] H M).
  - pose proof (parse_sound d) as P. destruct (fst (parse d)) as [|e l]; [reflexivity|]. inversion P as [|? ? [p K] _]; subst. destruct (H _ _ K).
Qed.
Lemma noise_events ds ds' : with_noise ds ds' -> all_events ds' = all_events ds.
Proof. induction 1 as [|d ds ds' W IH|d ds ds' N W IH]; cbn [all_events flat_map] in *; [reflexivity|f_equal; exact IH|rewrite (noise_parse d N); exact IH]. Qed.

Definition wf (st : disc) (f : list string) : disc := mkDisc (tid st) (ippPtrs st) (ippsPtrs st) (txts st) (ports st) (targets st) (addrs st) (outstanding st) f (clock_calls st).
Definition lift (f : list string) (o : outcome (disc * list action)) : outcome (disc * list action) := let! (st, a) := o in Ok (wf st f, a).
Lemma send_wf clock st f q ns : send_query clock (wf st f) q ns = lift f (send_query clock st q ns).
Proof. unfold send_query. cbn [clock_calls outstanding wf tid]. destruct (existsb _ _); [reflexivity|]. destruct (filter _ ns); reflexivity. Qed.
Lemma store_wf ev f : forall st, fold_left store ev (wf st f) = wf (fold_left store ev st) f.
Proof. induction ev as [|e ev IH]; intros st; [reflexivity|]. cbn [fold_left]. rewrite <- IH. f_equal. destruct e; reflexivity. Qed.
Lemma query_wf clock secure f news : forall st, update_and_query clock secure (wf st f) news = lift f (update_and_query clock secure st news).
Proof.
  induction news as [|p r IH]; intros st; [reflexivity|]. cbn [update_and_query].
  replace (ptrs_of secure (wf st f)) with (ptrs_of secure st) by (destruct secure; reflexivity). destruct (mem p _); [apply IH|].
  change (add_ptr secure (wf st f) p) with (wf (add_ptr secure st p) f). set (s0 := add_ptr secure st p).
  assert (A : forall q (b : disc -> bool) s, (forall s, b (wf s f) = b s) -> (if b (wf s f) then Ok (wf s f, []) else send_query clock (wf s f) q [p]) = lift f (if b s then Ok (s, []) else send_query clock s q [p])).
  { intros q b s B. rewrite B. destruct (b s); [reflexivity|apply send_wf]. }
  rewrite (A 16 (fun s => map_has p (txts s)) s0) by reflexivity. destruct (if map_has p (txts s0) then _ else _) as [[s1 a1]| | | |]; try reflexivity. cbn [lift bind].
  rewrite (A 33 (fun s => map_has p (targets s) && map_has p (ports s)) s1) by reflexivity. destruct (if map_has p (targets s1) && map_has p (ports s1) then _ else _) as [[s2 a2]| | | |]; try reflexivity. cbn [lift bind].
  rewrite IH. destruct (update_and_query clock secure s2 r) as [[s3 a3]| | | |]; reflexivity.
Qed.
(** a datagram up to the last step *)
Definition front (clock : nat -> Z) (st : disc) (ev : list event) : outcome (disc * list action) :=
  let st := fold_left store ev st in
  let! (st, a1) := update_and_query clock true st (new_ptrs is_ipps ev) in
  let! (st, a2) := update_and_query clock false st (new_ptrs is_ipp ev) in
  let unresolved := filter (fun t => negb (map_has t (addrs st))) (new_targets [] ev) in
  let! (st, a3) := match unresolved with [] => Ok (st, []) | _ => send_query clock st 1 unresolved end in
  Ok (st, a1 ++ a2 ++ a3).
Lemma receive_front clock st d : receive clock st d = let! (st, a) := front clock st (fst (parse d)) in let (st, a4) := update st in Ok (st, a ++ a4).
Proof.
  pose proof (parse_total d) as PT. unfold receive, front. destruct (parse d) as [ev o]. cbn [fst snd] in *. destruct o; try contradiction;
  (destruct (update_and_query clock true _ _) as [[s1 a1]| | | |]; try reflexivity; cbn [bind]; destruct (update_and_query clock false _ _) as [[s2 a2]| | | |]; try reflexivity; cbn [bind]; cbv zeta;
   destruct (filter _ _); [cbn [bind]; destruct (update s2); rewrite <- !app_assoc; reflexivity|]; destruct (send_query _ _ _ _) as [[s3 a3]| | | |]; try reflexivity; cbn [bind]; destruct (update s3); rewrite <- !app_assoc; reflexivity).
Qed.
Lemma front_wf clock st f ev : front clock (wf st f) ev = lift f (front clock st ev).
Proof.
  unfold front. rewrite store_wf, query_wf. destruct (update_and_query clock true _ _) as [[s1 a1]| | | |]; try reflexivity. cbn [lift bind]. rewrite query_wf.
  destruct (update_and_query clock false _ _) as [[s2 a2]| | | |]; try reflexivity. cbn [lift bind]. change (addrs (wf s2 f)) with (addrs s2). cbv zeta. destruct (filter _ _); [reflexivity|]. rewrite send_wf.
  destruct (send_query _ _ _ _) as [[s3 a3]| | | |]; reflexivity.
Qed.
Definition upd (st : disc) (f : list string) : list string := let (f', pairs) := ipps_loop st (ippsPtrs st) f [] in ipp_loop st (ippPtrs st) f' pairs.
Lemma loops_wf st g : (forall its f pairs, ipps_loop (wf st g) its f pairs = ipps_loop st its f pairs) /\ forall its f pairs, ipp_loop (wf st g) its f pairs = ipp_loop st its f pairs.
Proof. split; induction its as [|it its IH]; intros f pairs; try reflexivity; cbn [ipps_loop ipp_loop]; change (resolve (wf st g) it) with (resolve st it); destruct (resolve st it) as [[[? ?] ?]|]; try apply IH. destruct (ipps_ips _ _ _ _ _). apply IH. Qed.
Lemma update_wf st f : update (wf st f) = (wf st (upd st f), map Reported (skipn (length f) (upd st f))).
Proof. unfold update, upd. cbn [ippsPtrs ippPtrs found wf]. rewrite (proj1 (loops_wf st f)). destruct (ipps_loop _ _ _ _). rewrite (proj2 (loops_wf st f)). reflexivity. Qed.
Lemma wf_found st : wf st (found st) = st.
Proof. destruct st; reflexivity. Qed.

(** *** more found before, more found after *)
Lemma incl_snoc {A} (a b : list A) x : incl a b -> In x b -> incl (a ++ [x]) b.
Proof. intros H X. apply incl_app; [exact H|]. intros y [<-|[]]. exact X. Qed.
Lemma incl_snoc2 {A} (a b : list A) x : incl a b -> incl (a ++ [x]) (b ++ [x]).
Proof. intros H. apply incl_app; [apply incl_appl, H|apply incl_appr, incl_refl]. Qed.
Lemma mem_mono x f f' : incl f f' -> mem x f = true -> mem x f' = true.
Proof. intros H M. apply mem_In, H, mem_In, M. Qed.
Lemma ipps_ips_mono port rp ips : forall f f' p p', incl f f' -> incl p' p -> incl (fst (ipps_ips port rp ips f p)) (fst (ipps_ips port rp ips f' p')) /\ incl (snd (ipps_ips port rp ips f' p')) (snd (ipps_ips port rp ips f p)).
Proof.
  induction ips as [|ip ips IH]; intros f f' p p' F P; [split; assumption|]. cbn [ipps_ips]. destruct (mem _ f) eqn:M.
  - rewrite (mem_mono _ _ _ F M). apply IH; assumption.
  - destruct (mem _ f') eqn:M'; apply IH; try (apply incl_snoc2; assumption); [apply incl_snoc; [exact F|apply mem_In, M']|apply incl_appl, P].
Qed.
Lemma ipps_loop_mono st its : forall f f' p p', incl f f' -> incl p' p -> incl (fst (ipps_loop st its f p)) (fst (ipps_loop st its f' p')) /\ incl (snd (ipps_loop st its f' p')) (snd (ipps_loop st its f p)).
Proof.
  induction its as [|it its IH]; intros f f' p p' F P; [split; assumption|]. cbn [ipps_loop]. destruct (resolve st it) as [[[port ips] rp]|]; [|apply IH; assumption].
  destruct (ipps_ips_mono port rp ips f f' p p' F P) as [A B]. destruct (ipps_ips port rp ips f p), (ipps_ips port rp ips f' p'). apply IH; assumption.
Qed.
Lemma ipp_ips_mono port rp ips p p' : incl p' p -> forall f f', incl f f' -> incl (ipp_ips port rp ips f p) (ipp_ips port rp ips f' p').
Proof.
  intros P. induction ips as [|ip ips IH]; intros f f' F; [exact F|]. cbn [ipp_ips]. destruct (mem _ f) eqn:M.
  - rewrite (mem_mono _ _ _ F M). apply IH, F.
  - cbn [negb andb]. destruct (pair_mem ip rp p) eqn:PM; cbn [negb].
    + destruct (negb _ && negb _); apply IH; [apply incl_appl, F|exact F].
    + assert (PM' : pair_mem ip rp p' = false). { destruct (pair_mem ip rp p') eqn:E; [|reflexivity]. apply pair_mem_In, P, pair_mem_In in E. congruence. }
      rewrite PM', andb_true_r. destruct (mem _ f') eqn:M'; cbn [negb]; apply IH; [apply incl_snoc; [exact F|apply mem_In, M']|apply incl_snoc2, F].
Qed.
Lemma ipp_loop_mono st its p p' : incl p' p -> forall f f', incl f f' -> incl (ipp_loop st its f p) (ipp_loop st its f' p').
Proof. intros P. induction its as [|it its IH]; intros f f' F; [exact F|]. cbn [ipp_loop]. destruct (resolve st it) as [[[port ips] rp]|]; apply IH; [apply ipp_ips_mono; assumption|exact F]. Qed.
Lemma upd_mono st f f' : incl f f' -> incl (upd st f) (upd st f').
Proof.
  intros F. unfold upd. destruct (ipps_loop_mono st (ippsPtrs st) f f' [] [] F (incl_refl _)) as [A B]. destruct (ipps_loop st (ippsPtrs st) f []), (ipps_loop st (ippsPtrs st) f' []). apply ipp_loop_mono; assumption.
Qed.

(** *** the two sessions side by side *)
Lemma printer_port ds evs service port ip rp : (forall e, In e evs -> In e (all_events ds)) -> printer service evs port ip rp -> 0 <= port.
Proof.
  intros S (o & ptr & _ & _ & target & R & _). apply last_srv_In in R. apply S, events_received in R. destruct R as [d [p [_ R]]]. inversion R. pose proof (Zb_range p1). pose proof (Zb_range p2). unfold un16. lia.
Qed.
Lemma reported_map l : reported (map Reported l) = l /\ sent (map Reported l) = [].
Proof. split; induction l as [|a l IH]; cbn; [reflexivity|f_equal; exact IH|reflexivity|exact IH]. Qed.
Lemma upd_new all evs st f g : (forall e, In e evs -> In e (all_events all)) -> Inv evs (wf st f) -> complete evs g ->
  forall a, In a (upd st f) -> In a f \/ In a g \/ twin a g.
Proof.
  intros S I [C1 C2] a H. destruct (update_spec evs (wf st f) _ _ I (update_wf st f)) as (_ & F & _ & _ & s & p & R & L1 & L2 & _). cbn [found wf] in F. rewrite F, R in H.
  apply in_app_or in H. destruct H as [H|H]; [left; exact H|right]. apply in_app_or in H. destruct H as [H|H]; apply in_map_iff in H; destruct H as [[[port ip] rp] [<- H]]; cbn [fst snd].
  - left. apply C1, L1, H.
  - destruct (L2 _ _ _ H) as [P _]. destruct (C2 _ _ _ P) as [K|[port' [K P']]]; [left; exact K|right]. exists port, port', ip, rp, (make_ipps_addr port' ip rp).
    split; [apply make_addr_address, (printer_port all evs is_ipp port ip rp S P)|]. split; [apply make_addr_address, (printer_port all evs is_ipps port' ip rp S P')|exact K].
Qed.
Lemma inv_wf evs st f : Inv evs st -> NoDup f -> Inv evs (wf st f).
Proof. intros [R [P1 [P2 _]]] N. split; [exact R|]. split; [exact P1|]. split; [exact P2|exact N]. Qed.
Lemma twin_more a l l' : incl l l' -> twin a l -> twin a l'.
Proof. intros I (port & port' & ip & rp & a' & A & B & C). exists port, port', ip, rp, a'. auto. Qed.
Lemma front_inv clock st d st1 a : front clock st (fst (parse d)) = Ok (st1, a) -> forall evs, Inv evs st -> Inv (evs ++ fst (parse d)) st1 /\ found st1 = found st.
Proof.
  intros H evs [R [PI [PS N]]]. unfold front in H. inv_bind H s1 a1 E1. inv_bind H s2 a2 E2. cbv zeta in H. inv_bind H s3 a3 E3. injection H as <- _.
  destruct (store_same (fst (parse d)) st) as [S1 [S2 [S3 _]]]. pose proof (store_all (fst (parse d)) _ _ R) as R0.
  destruct (query_ptrs _ _ _ _ _ _ E1) as [K1 [R1 [O1 P1]]]. destruct (query_ptrs _ _ _ _ _ _ E2) as [K2 [R2 [O2 P2]]]. cbn [negb ptrs_of] in *.
  assert (Q : quiet s2 s3) by (destruct (filter _ _); [injection E3 as <- <-; unfold quiet; auto 10|exact (proj1 (send_quiet _ _ _ _ _ _ E3))]).
  assert (F : found s3 = found st) by (destruct Q as [_ [_ [_ [_ [_ [_ Q7]]]]]]; destruct K1 as [_ [_ [_ [_ K1]]]]; destruct K2 as [_ [_ [_ [_ K2]]]]; rewrite Q7, K2, K1, S3; reflexivity).
  split; [|exact F]. pose proof Q as [Q1 [Q2 [_ [_ [_ [_ Q7]]]]]]. split; [|split; [|split]].
  - apply (recs_known _ s2); [apply quiet_known, Q|]. apply (recs_known _ s1); [exact K2|]. apply (recs_known _ _ s1 K1), R0.
  - rewrite Q1. apply (ptr_ok_snoc _ _ (ippPtrs st)); [exact PI|]. intros p. rewrite P2, O1, S1. reflexivity.
  - rewrite Q2, O2. apply (ptr_ok_snoc _ _ (ippsPtrs st)); [exact PS|]. intros p. rewrite P1, S2. reflexivity.
  - rewrite F. exact N.
Qed.
Lemma upd_keeps evs st f : Inv evs (wf st f) -> NoDup (upd st f) /\ incl f (upd st f).
Proof. intros I. destruct (update_spec evs (wf st f) _ _ I (update_wf st f)) as ((_ & _ & _ & N) & F & _). cbn [found wf] in *. split; [exact N|]. rewrite F. apply incl_appl, incl_refl. Qed.
(** a datagram without records *)
Lemma receive_noise clock st d : noise d -> receive clock st d = let (st, a) := update st in Ok (st, a).
Proof. intros N. rewrite receive_front, (noise_parse d N). reflexivity. Qed.
Lemma noise_sim clock all ds ds' : with_noise ds ds' -> forall evs st f, Inv evs st -> NoDup f -> complete evs (found st) -> (forall e, In e (evs ++ all_events ds) -> In e (all_events all)) ->
  incl (found st) f -> (forall a, In a f -> In a (found st) \/ twin a (found st)) ->
  match receive_all clock st ds with
  | Ok (st1, a) => exists f' a', receive_all clock (wf st f) ds' = Ok (wf st1 f', a') /\ sent a' = sent a /\ incl (found st1) f' /\ forall x, In x f' -> In x (found st1) \/ twin x (found st1)
  | Throw x => receive_all clock (wf st f) ds' = Throw x | UB => receive_all clock (wf st f) ds' = UB | Hang => receive_all clock (wf st f) ds' = Hang | NoFuel => receive_all clock (wf st f) ds' = NoFuel
  end.
Proof.
  induction 1 as [|d ds ds' W IH|d ds ds' N W IH]; intros evs st f I ND C S F T.
  - cbn [receive_all]. exists f, []. auto.
  - cbn [receive_all]. rewrite (receive_front clock st d), (receive_front clock (wf st f) d), front_wf. destruct (front clock st (fst (parse d))) as [[s1 a1]| | | |] eqn:E; try reflexivity. cbn [lift bind].
    destruct (front_inv _ _ _ _ _ E evs I) as [I1 F1]. rewrite update_wf. pose proof (wf_found s1) as WF. rewrite F1 in WF. rewrite <- WF, update_wf. cbn [bind].
    assert (IW : Inv (evs ++ fst (parse d)) (wf s1 f)) by (apply inv_wf; assumption). assert (IS : Inv (evs ++ fst (parse d)) (wf s1 (found st))) by (rewrite WF; exact I1).
    assert (SS : forall e, In e (evs ++ fst (parse d)) -> In e (all_events all)) by (intros e X; apply S; cbn [all_events flat_map]; rewrite app_assoc; apply in_or_app; left; exact X).
    destruct (update_spec _ _ _ _ IS (update_wf s1 (found st))) as (I2 & _ & _ & _ & _ & _ & _ & _ & _ & C1 & C2).
    assert (M : incl (upd s1 (found st)) (upd s1 f)) by (apply upd_mono, F). rewrite WF. fold (wf s1 (upd s1 (found st))).
    assert (T' : forall a, In a (upd s1 f) -> In a (upd s1 (found st)) \/ twin a (upd s1 (found st))).
    { intros a X. destruct (upd_new all _ s1 f (upd s1 (found st)) SS IW (conj C1 C2) a X) as [K|K]; [|exact K]. destruct (upd_keeps _ _ _ IS) as [_ U]. destruct (T a K) as [L|L]; [left; apply U, L|right; exact (twin_more _ _ _ U L)]. }
    specialize (IH (evs ++ fst (parse d)) (wf s1 (upd s1 (found st))) (upd s1 f) I2 (proj1 (upd_keeps _ _ _ IW)) (conj C1 C2)).
    assert (S2 : forall e, In e ((evs ++ fst (parse d)) ++ all_events ds) -> In e (all_events all)) by (intros e X; apply S; cbn [all_events flat_map]; rewrite app_assoc; exact X). specialize (IH S2 M T').
    change (wf (wf s1 (upd s1 (found st))) (upd s1 f)) with (wf s1 (upd s1 f)) in IH.
    destruct (receive_all clock (wf s1 (upd s1 (found st))) ds) as [[st1 b]| | | |]; cbn [bind]; try (rewrite IH; reflexivity).
    destruct IH as (f' & b' & E2 & IS2 & IF & IT). rewrite E2. cbn [bind]. eexists f', _. split; [reflexivity|]. split; [rewrite !sent_app, IS2, !(proj2 (reported_map _)); reflexivity|]. split; assumption.
  - cbn [receive_all]. rewrite (receive_noise clock _ d N), update_wf. cbn [bind]. assert (IW : Inv evs (wf st f)) by (apply inv_wf; assumption). destruct (upd_keeps _ _ _ IW) as [ND' U].
    assert (SS : forall e, In e evs -> In e (all_events all)) by (intros e X; apply S, in_or_app; left; exact X).
    assert (T' : forall a, In a (upd st f) -> In a (found st) \/ twin a (found st)).
    { intros a X. destruct (upd_new all _ st f (found st) SS IW C a X) as [K|K]; [apply T, K|exact K]. }
    specialize (IH evs st (upd st f) I ND' C S (incl_tran F U) T').
    destruct (receive_all clock st ds) as [[st1 b]| | | |]; cbn [bind]; try (rewrite IH; reflexivity).
    destruct IH as (f' & b' & E2 & IS2 & IF & IT). rewrite E2. cbn [bind]. exists f', (map Reported (skipn (length f) (upd st f)) ++ b'). split; [reflexivity|]. split; [rewrite sent_app, (proj2 (reported_map _)); exact IS2|]. split; assumption.
Qed.

(** ** C119 *)
(** Missing: the addresses reported need not be the same (C119_refuted).  Datagrams that tell
    of nothing change none of the questions and none of the records known; all that was
    reported is still reported, and whatever is reported besides is the ipp address of a host
    and path whose ipps address is reported too. *)
Theorem C119_sessions_partial clock ds ds' st acts : with_noise ds ds' -> discover clock ds = Ok (st, acts) -> exists st' acts', discover clock ds' = Ok (st', acts') /\
  sent acts' = sent acts /\ incl (reported acts) (reported acts') /\ (forall a, In a (reported acts') -> In a (reported acts) \/ twin a (reported acts)).
Proof.
  intros W H. unfold discover in *. inv_bind H s1 a1 E1. inv_bind H s2 a2 E2. injection H as <- <-. cbn [bind]. destruct (start_inv _ _ _ E1) as [I [F R]].
  pose proof (noise_sim clock ds ds ds' W [] s1 (found s1) I (proj2 (proj2 (proj2 I))) (complete_nil _) (fun e X => X) (incl_refl _) (fun a X => or_introl X)) as K. rewrite E2 in K. rewrite wf_found in K.
  destruct K as (f' & a' & E' & S & L & T). rewrite E'. cbn [bind]. exists (wf s2 f'), (a1 ++ a'). split; [reflexivity|]. split; [rewrite !sent_app, S; reflexivity|].
  destruct (receive_all_spec _ _ _ _ _ _ I E2) as [_ [F2 _]]. destruct (receive_all_spec _ _ _ _ _ _ I E') as [_ [F3 _]]. rewrite F in F2, F3. cbn [app found wf] in *. rewrite !reported_app, R. cbn [app]. rewrite <- F2, <- F3. split; assumption.
Qed.
(** nor do they make a session undefined, or a session that is undefined defined *)
Theorem C119_undefined clock ds ds' : with_noise ds ds' -> (discover clock ds' = UB <-> discover clock ds = UB).
Proof.
  intros W. unfold discover. destruct (send_query _ _ _ _) as [[s1 a1]| | | |] eqn:E1; cbn [bind]; try tauto. destruct (start_inv _ _ _ E1) as [I [F R]].
  pose proof (noise_sim clock ds ds ds' W [] s1 (found s1) I (proj2 (proj2 (proj2 I))) (complete_nil _) (fun e X => X) (incl_refl _) (fun a X => or_introl X)) as K. rewrite wf_found in K.
  destruct (receive_all clock s1 ds) as [[s2 a2]| | | |]; [destruct K as (f' & a' & -> & _)|rewrite K..]; cbn [bind]; split; (discriminate || reflexivity).
Qed.

(** *** one service only *)
Lemma ipps_ips_ext port rp ips : forall f p, incl f (fst (ipps_ips port rp ips f p)) /\ forall ip, In ip ips -> In (make_ipps_addr port ip rp) (fst (ipps_ips port rp ips f p)).
Proof.
  induction ips as [|ip ips IH]; intros f p; [split; [apply incl_refl|intros ? []]|]. cbn [ipps_ips]. destruct (mem _ f) eqn:M.
  - destruct (IH f p) as [A B]. split; [exact A|]. intros x [<-|X]; [apply A, mem_In, M|apply B, X].
  - destruct (IH (f ++ [make_ipps_addr port ip rp]) (p ++ [(ip, rp)])) as [A B]. split; [intros x X; apply A, in_or_app; left; exact X|]. intros x [<-|X]; [apply A, in_or_app; right; left; reflexivity|apply B, X].
Qed.
Lemma ipp_ips_ext port rp ips : forall f, incl f (ipp_ips port rp ips f []) /\ forall ip, In ip ips -> In (make_ipp_addr port ip rp) (ipp_ips port rp ips f []).
Proof.
  induction ips as [|ip ips IH]; intros f; [split; [apply incl_refl|intros ? []]|]. cbn [ipp_ips pair_mem existsb]. rewrite andb_true_r. destruct (mem _ f) eqn:M; cbn [negb].
  - destruct (IH f) as [A B]. split; [exact A|]. intros x [<-|X]; [apply A, mem_In, M|apply B, X].
  - destruct (IH (f ++ [make_ipp_addr port ip rp])) as [A B]. split; [intros x X; apply A, in_or_app; left; exact X|]. intros x [<-|X]; [apply A, in_or_app; right; left; reflexivity|apply B, X].
Qed.
Definition full (mk : Z -> string -> string -> string) (st : disc) (its : list string) (f : list string) : Prop :=
  forall it port ips rp ip, In it its -> resolve st it = Some (port, ips, rp) -> In ip ips -> In (mk port ip rp) f.
Lemma ipps_loop_full st its : forall f p, incl f (fst (ipps_loop st its f p)) /\ full make_ipps_addr st its (fst (ipps_loop st its f p)).
Proof.
  induction its as [|it its IH]; intros f p; [split; [apply incl_refl|intros ? ? ? ? ? []]|]. cbn [ipps_loop]. destruct (resolve st it) as [[[port ips] rp]|] eqn:R.
  - destruct (ipps_ips_ext port rp ips f p) as [A B]. destruct (ipps_ips port rp ips f p) as [f1 p1]. cbn [fst] in *. destruct (IH f1 p1) as [C D]. split; [exact (incl_tran A C)|].
    intros it' port' ips' rp' ip [<-|X] E Y; [|exact (D _ _ _ _ _ X E Y)]. rewrite R in E. injection E as <- <- <-. apply C, B, Y.
  - destruct (IH f p) as [C D]. split; [exact C|]. intros it' port' ips' rp' ip [<-|X] E Y; [congruence|exact (D _ _ _ _ _ X E Y)].
Qed.
Lemma ipp_loop_full st its : forall f, incl f (ipp_loop st its f []) /\ full make_ipp_addr st its (ipp_loop st its f []).
Proof.
  induction its as [|it its IH]; intros f; [split; [apply incl_refl|intros ? ? ? ? ? []]|]. cbn [ipp_loop]. destruct (resolve st it) as [[[port ips] rp]|] eqn:R.
  - destruct (ipp_ips_ext port rp ips f) as [A B]. destruct (IH (ipp_ips port rp ips f [])) as [C D]. split; [exact (incl_tran A C)|].
    intros it' port' ips' rp' ip [<-|X] E Y; [|exact (D _ _ _ _ _ X E Y)]. rewrite R in E. injection E as <- <- <-. apply C, B, Y.
  - destruct (IH f) as [C D]. split; [exact C|]. intros it' port' ips' rp' ip [<-|X] E Y; [congruence|exact (D _ _ _ _ _ X E Y)].
Qed.
Lemma ipps_loop_idle st its f : full make_ipps_addr st its f -> forall p, ipps_loop st its f p = (f, p).
Proof.
  induction its as [|it its IH]; intros H p; [reflexivity|]. cbn [ipps_loop]. assert (H' : full make_ipps_addr st its f) by (intros it' port ips rp ip X; apply H; right; exact X). destruct (resolve st it) as [[[port ips] rp]|] eqn:R; [|apply IH, H'].
  assert (K : ipps_ips port rp ips f p = (f, p)); [|rewrite K; apply IH, H']. assert (L : forall ip, In ip ips -> mem (make_ipps_addr port ip rp) f = true) by (intros ip X; apply mem_In, (H it port ips rp ip (or_introl eq_refl) R X)).
  clear - L. induction ips as [|ip ips IH]; [reflexivity|]. cbn [ipps_ips]. rewrite (L ip (or_introl eq_refl)). apply IH. intros x X. apply L. right. exact X.
Qed.
Lemma ipp_loop_idle st its f p : full make_ipp_addr st its f -> ipp_loop st its f p = f.
Proof.
  induction its as [|it its IH]; intros H; [reflexivity|]. cbn [ipp_loop]. assert (H' : full make_ipp_addr st its f) by (intros it' port ips rp ip X; apply H; right; exact X). destruct (resolve st it) as [[[port ips] rp]|] eqn:R; [|apply IH, H'].
  assert (K : ipp_ips port rp ips f p = f); [|rewrite K; apply IH, H']. assert (L : forall ip, In ip ips -> mem (make_ipp_addr port ip rp) f = true) by (intros ip X; apply mem_In, (H it port ips rp ip (or_introl eq_refl) R X)).
  clear - L. induction ips as [|ip ips IH]; [reflexivity|]. cbn [ipp_ips]. rewrite (L ip (or_introl eq_refl)). cbn [negb andb]. apply IH. intros x X. apply L. right. exact X.
Qed.
Lemma upd_idle st f : ippsPtrs st = [] \/ ippPtrs st = [] -> upd st (upd st f) = upd st f.
Proof.
  unfold upd. intros [->| ->]; cbn [ipps_loop ipp_loop].
  - apply ipp_loop_idle, ipp_loop_full.
  - pose proof (proj2 (ipps_loop_full st (ippsPtrs st) f [])) as K. destruct (ipps_loop st (ippsPtrs st) f []) as [f1 p1]. cbn [fst] in K. rewrite (ipps_loop_idle _ _ _ K). reflexivity.
Qed.
(** there is no pointer of a service *)
Definition silent (service : string) (evs : list event) : Prop := forall owner name, In (EPtr owner name) evs -> ~ ends_with owner service.
Lemma silent_ptrs service tail evs l : (forall s, service s = true <-> ends_with s tail) -> ptr_ok service evs l -> silent tail evs -> l = [].
Proof.
  intros S P H. destruct l as [|p l]; [reflexivity|]. destruct (proj1 (P p) (or_introl eq_refl)) as [o [O1 O2]]. destruct (H o p O2). apply S, O1.
Qed.
Lemma noise_idle clock ds ds' : with_noise ds ds' -> forall evs st, Inv evs st -> upd st (found st) = found st -> silent "_ipps._tcp.local" (evs ++ all_events ds) \/ silent "_ipp._tcp.local" (evs ++ all_events ds) ->
  receive_all clock st ds' = receive_all clock st ds.
Proof.
  induction 1 as [|d ds ds' W IH|d ds ds' N W IH]; intros evs st I U S; [reflexivity| |].
  - cbn [receive_all]. rewrite (receive_front clock st d). destruct (front clock st (fst (parse d))) as [[s1 a1]| | | |] eqn:E; try reflexivity. cbn [bind].
    destruct (front_inv _ _ _ _ _ E evs I) as [I1 F1]. pose proof (update_wf s1 (found s1)) as UW. rewrite wf_found in UW. rewrite UW. cbn [bind]. destruct (update_spec _ _ _ _ I1 UW) as [I2 _].
    cbn [all_events flat_map] in S. rewrite app_assoc in S. fold (all_events ds) in S. rewrite (IH _ _ I2); [reflexivity| |exact S]. change (found (wf s1 (upd s1 (found s1)))) with (upd s1 (found s1)).
    assert (X : forall f, upd (wf s1 (upd s1 (found s1))) f = upd s1 f). { intros f. unfold upd at 1. cbn [ippsPtrs ippPtrs wf]. rewrite (proj1 (loops_wf s1 _)). unfold upd. destruct (ipps_loop s1 _ f []). rewrite (proj2 (loops_wf s1 _)). reflexivity. }
    rewrite X. apply upd_idle. destruct I1 as [_ [P1 [P2 _]]].
    destruct S as [S|S]; [left; apply (silent_ptrs is_ipps "_ipps._tcp.local" (evs ++ fst (parse d)) _ is_ipps_spec P2)|right; apply (silent_ptrs is_ipp "_ipp._tcp.local" (evs ++ fst (parse d)) _ is_ipp_spec P1)]; intros o n X1; apply (S o n), in_or_app; left; exact X1.
  - cbn [receive_all]. rewrite (receive_noise clock _ d N). pose proof (update_wf st (found st)) as UW. rewrite wf_found in UW. rewrite UW, U, wf_found, skipn_all. cbn [map bind]. rewrite (IH evs st I U S). destruct (receive_all clock st ds) as [[s a]| | | |]; reflexivity.
Qed.
(** Where all the printers heard of are of one service, the session is the same in every
    respect. *)
Theorem C119_one_service clock ds ds' : with_noise ds ds' -> silent "_ipps._tcp.local" (all_events ds) \/ silent "_ipp._tcp.local" (all_events ds) -> discover clock ds' = discover clock ds.
Proof.
  intros W S. unfold discover. destruct (send_query _ _ _ _) as [[s1 a1]| | | |] eqn:E1; try reflexivity. cbn [bind]. destruct (start_inv _ _ _ E1) as [I [F R]]. rewrite (noise_idle clock ds ds' W [] s1 I); [reflexivity| |exact S].
  destruct (send_quiet _ _ _ _ _ _ E1) as [[Q1 [Q2 _]] _]. unfold upd. rewrite Q1, Q2. reflexivity.
Qed.
(** A printer tells of both its services in one datagram, so that its ipp address is left
    out (lib/ippdiscovery.cpp:222-224); the question of somebody else makes the program
    report it after all. *)
Definition both_packet : list byte := datagram 7 [rec_of ipp_service 12 (wire ("P" :: ipp_service)%string); rec_of ("P" :: ipp_service)%string 33 (srv_data 8631 ["host"; "local"]%string);
  rec_of ("P" :: ipp_service)%string 16 (txt_data "rp=ipp/print"); rec_of ipps_service 12 (wire ("P" :: ipps_service)%string); rec_of ("P" :: ipps_service)%string 33 (srv_data 443 ["host"; "local"]%string);
  rec_of ("P" :: ipps_service)%string 16 (txt_data "rp=ipp/print"); rec_of ["host"; "local"]%string 1 [bZ 192; bZ 168; bZ 0; bZ 9]].
Definition question_packet : list byte := be16 0 ++ be16 0 ++ be16 1 ++ be16 0 ++ be16 0 ++ be16 0 ++ wire ipp_service ++ be16 12 ++ be16 1.
Lemma question_noise : noise question_packet.
Proof.
  apply noise_message; [apply Nat.leb_le; vm_compute; reflexivity|]. do 13 eexists. exists 33%nat, 33%nat. split; [reflexivity|]. split; [|constructor].
  change (rfc_questions question_packet 1 12 33). eapply (questions_more question_packet 0 12 ipp_service 29 (bZ 0) (bZ 12) (bZ 0) (bZ 1)); [|reflexivity|constructor].
  apply (name_label 63 16384 question_packet 12 (bZ 4) 4 ["_tcp"; "local"]%string); [reflexivity|reflexivity|lia|apply Nat.leb_le; reflexivity|].
  apply (name_label 63 16384 question_packet 17 (bZ 4) 4 ["local"]%string); [reflexivity|reflexivity|lia|apply Nat.leb_le; reflexivity|].
  apply (name_label 63 16384 question_packet 22 (bZ 5) 5 []); [reflexivity|reflexivity|lia|apply Nat.leb_le; reflexivity|].
  apply (name_end 63 16384 question_packet 28 (bZ 0)); reflexivity.
Qed.
Theorem C119_refuted : exists ds ds' st acts st' acts' a, with_noise ds ds' /\ discover still ds = Ok (st, acts) /\ discover still ds' = Ok (st', acts') /\ In a (reported acts') /\ ~ In a (reported acts).
Proof.
  assert (G : forall ds l, (match discover still ds with Ok (_, acts) => reported acts = l | _ => False end) -> exists st acts, discover still ds = Ok (st, acts) /\ reported acts = l).
  { intros ds l H. destruct (discover still ds) as [[st acts]| | | |]; try contradiction. exists st, acts. split; [reflexivity|exact H]. }
  destruct (G [both_packet] ["ipps://192.168.0.9/ipp/print"]%string ltac:(vm_compute; reflexivity)) as (st & acts & E & R).
  destruct (G [both_packet; question_packet] ["ipps://192.168.0.9/ipp/print"; "ipp://192.168.0.9:8631/ipp/print"]%string ltac:(vm_compute; reflexivity)) as (st' & acts' & E' & R').
  exists [both_packet], [both_packet; question_packet], st, acts, st', acts', "ipp://192.168.0.9:8631/ipp/print"%string. split; [apply noise_same, noise_more; [exact question_noise|apply noise_end]|].
  split; [exact E|]. split; [exact E'|]. rewrite R, R'. split; [right; left; reflexivity|]. intros [K|[]]. discriminate.
Qed.
(** an ipp printer; a question before it, three stray bytes after it *)
Example C119_example : with_noise [ipp_packet] [question_packet; ipp_packet; bytes_of_string "abc"] /\ silent "_ipps._tcp.local" (all_events [ipp_packet]) /\
  match discover still [question_packet; ipp_packet; bytes_of_string "abc"] with Ok (_, acts) => reported acts = ["ipp://192.168.0.9:8631/ipp/print"]%string | _ => False end.
Proof.
  split; [apply noise_more; [exact question_noise|]; apply noise_same, noise_more; [apply noise_short; split; apply Nat.ltb_lt; reflexivity|apply noise_end]|]. split; [|vm_compute; reflexivity].
  intros o n H K. apply is_ipps_spec in K. assert (E : all_events [ipp_packet] = [EPtr "_ipp._tcp.local" "P._ipp._tcp.local"; ESrv "P._ipp._tcp.local" 8631 "host.local"; ETxt "P._ipp._tcp.local" "rp" "ipp/print"; EA "host.local" "192.168.0.9"]%string) by (vm_compute; reflexivity).
  rewrite E in H. destruct H as [H|[H|[H|[H|[]]]]]; try discriminate H. injection H as <- <-. vm_compute in K. discriminate K.
Qed.

Print Assumptions C119_sessions_partial.
Print Assumptions C119_undefined.
Print Assumptions C119_one_service.
Print Assumptions C119_refuted.
