(** C45: in which sessions exactly the loop over the outstanding queries is undefined. *)
From Verif Require Import Base BaseLemmas ListLemmas StringModel MapModel MapProofs DiscoveryModel DiscoverySpec DnsProofs DiscoveryProofs DiscoveryProperties.
From Coq Require Import Lia.
Local Open Scope Z_scope.

(** the same session, but with the times of the queries left aside *)
Record alike (st st0 : disc) : Prop := {
  al_tid : tid st = tid st0; al_ipp : ippPtrs st = ippPtrs st0; al_ipps : ippsPtrs st = ippsPtrs st0; al_txts : txts st = txts st0;
  al_ports : ports st = ports st0; al_targets : targets st = targets st0; al_addrs : addrs st = addrs st0; al_found : found st = found st0;
  al_calls : clock_calls st = clock_calls st0; al_asked : map fst (outstanding st) = map fst (outstanding st0) }.
(** the oldest query is the first one, sent at [t]; in the other session all are of the time 100 *)
Definition quiet (st0 : disc) : Prop := outstanding st0 <> [] /\ forall q, In q (outstanding st0) -> snd q = 100.
Definition since (t : Z) (st st0 : disc) : Prop :=
  alike st st0 /\ (forall q, In q (outstanding st) -> t <= snd q) /\ (exists q, In q (outstanding st) /\ snd q = t) /\ quiet st0.
Definition tracks (clock : nat -> Z) (st0 : disc) (o o0 : outcome (disc * list action)) : Prop :=
  exists s0 a, o0 = Ok (s0, a) /\ quiet s0 /\ (clock_calls st0 <= clock_calls s0)%nat /\
  ((forall i, (clock_calls st0 <= i < clock_calls s0)%nat -> clock i <= clock 0%nat + 2) -> exists s, o = Ok (s, a) /\ since (clock 0%nat) s s0) /\
  ((exists i, (clock_calls st0 <= i < clock_calls s0)%nat /\ clock 0%nat + 2 < clock i) -> o = UB).
Lemma same_keys f (l l0 : list (Z * string * Z)) : map fst l = map fst l0 -> (forall q q0, fst q = fst q0 -> f q = f q0) -> existsb f l = existsb f l0.
Proof. intros H F. revert l0 H. induction l as [|q l IH]; intros [|q0 l0] H; try discriminate; [reflexivity|]. cbn in H. injection H as H1 H2. cbn. rewrite (F _ _ H1), (IH _ H2). reflexivity. Qed.
Lemma same_query_key t a q q0 : fst q = fst q0 -> same_query t a q = same_query t a q0.
Proof. unfold same_query. intros ->. reflexivity. Qed.
Definition add_query (qtype now : Z) (q : list (Z * string * Z)) (a : string) : list (Z * string * Z) := if existsb (same_query qtype a) q then q else q ++ [(qtype, a, now)].
Lemma asked_alike qtype n n0 names : forall l l0, map fst l = map fst l0 -> map fst (fold_left (add_query qtype n) names l) = map fst (fold_left (add_query qtype n0) names l0).
Proof.
  induction names as [|a names IH]; intros l l0 H; [exact H|]. cbn [fold_left]. apply IH. unfold add_query. rewrite (same_keys (same_query qtype a) l l0 H) by (intros; apply same_query_key; assumption).
  destruct (existsb _ l0); [exact H|]. rewrite !map_app, H. reflexivity.
Qed.
Lemma asked_in qtype n names : forall l q, In q (fold_left (add_query qtype n) names l) -> In q l \/ snd q = n.
Proof.
  induction names as [|a names IH]; intros l q H; [left; exact H|]. cbn [fold_left] in H. apply IH in H. destruct H as [H|H]; [|auto]. unfold add_query in H. destruct (existsb _ l); [auto|]. apply in_app_or in H. destruct H as [H|[<-|[]]]; auto.
Qed.
Lemma asked_keeps qtype n names : forall l q, In q l -> In q (fold_left (add_query qtype n) names l).
Proof. induction names as [|a names IH]; intros l q H; [exact H|]. cbn [fold_left]. apply IH. unfold add_query. destruct (existsb _ l); [exact H|apply in_or_app; auto]. Qed.

Definition retime (t : Z) (st : disc) : disc :=
  mkDisc (tid st) (ippPtrs st) (ippsPtrs st) (txts st) (ports st) (targets st) (addrs st) (map (fun q => (fst q, t)) (outstanding st)) (found st) (clock_calls st).
Lemma since_retime t s0 : quiet s0 -> since t (retime t s0) s0.
Proof.
  intros Q. split; [|split; [|split]].
  - split; try reflexivity. cbn [retime outstanding]. rewrite map_map. reflexivity.
  - cbn [retime outstanding]. intros q H. apply in_map_iff in H. destruct H as (x & <- & _). cbn. lia.
  - cbn [retime outstanding]. destruct Q as [N _]. destruct (outstanding s0) as [|q l]; [contradiction|]. exists (fst q, t). split; [left; reflexivity|reflexivity].
  - exact Q.
Qed.
Lemma tracks_ok clock st st0 a : since (clock 0%nat) st st0 -> tracks clock st0 (Ok (st, a)) (Ok (st0, a)).
Proof. intros S. exists st0, a. split; [reflexivity|]. split; [apply S|]. split; [lia|]. split; [intros _; eauto|]. intros (i & H & _). lia. Qed.
Lemma classic_range (clock : nat -> Z) m n : (forall i, (m <= i < n)%nat -> clock i <= clock 0%nat + 2) \/ (exists i, (m <= i < n)%nat /\ clock 0%nat + 2 < clock i).
Proof.
  induction n as [|n IH]; [left; lia|]. destruct IH as [IH|(i & H & L)]; [|right; exists i; split; [lia|exact L]]. destruct (Z_le_gt_dec (clock n) (clock 0%nat + 2)) as [G|G].
  - left. intros i Hi. destruct (Nat.eq_dec i n) as [->|]; [exact G|apply IH; lia].
  - destruct (Nat.le_gt_cases m n); [right; exists n; lia|left; intros; lia].
Qed.
Lemma tracks_bind clock st0 o o0 k k0 : tracks clock st0 o o0 -> (forall s s0 a, since (clock 0%nat) s s0 -> tracks clock s0 (k (s, a)) (k0 (s0, a))) -> tracks clock st0 (let! x := o in k x) (let! x := o0 in k0 x).
Proof.
  intros (s0 & a & -> & Q & C & H1 & H2) K. cbn [bind]. destruct (K _ s0 a (since_retime (clock 0%nat) s0 Q)) as (s1 & b & E & Q1 & C1 & _). exists s1, b. split; [exact E|]. split; [exact Q1|]. split; [lia|]. split.
  - intros F. destruct H1 as (s & -> & S); [intros i Hi; apply F; lia|]. cbn [bind]. destruct (K s s0 a S) as (s1' & b' & E' & _ & _ & G & _). rewrite E in E'. injection E' as <- <-. apply G. intros i Hi. apply F. lia.
  - intros (i & Hi & L). destruct (Nat.lt_ge_cases i (clock_calls s0)) as [T|T]; [rewrite H2; [reflexivity|exists i; split; [lia|exact L]]|].
    destruct (classic_range clock (clock_calls st0) (clock_calls s0)) as [F|B]; [|rewrite H2; [reflexivity|exact B]].
    destruct (H1 F) as (s & -> & S). cbn [bind]. destruct (K s s0 a S) as (s1' & b' & E' & _ & _ & _ & G). rewrite E in E'. injection E' as <- <-. apply G. exists i; split; [lia|exact L].
Qed.
Lemma send_tracks clock st st0 qtype names : (forall i, clock 0%nat <= clock i) -> since (clock 0%nat) st st0 -> tracks clock st0 (send_query clock st qtype names) (send_query still st0 qtype names).
Proof.
  intros M (A & T & (q0 & I0 & E0) & N & Q). unfold send_query. rewrite <- (al_calls _ _ A) in *.
  assert (X0 : existsb (expired (still (clock_calls st0))) (outstanding st0) = false).
  { destruct (existsb _ _) eqn:E; [|reflexivity]. apply existsb_exists in E. destruct E as (q & I & L). unfold expired, still in L. rewrite (Q q I) in L. discriminate. }
  rewrite <- (al_calls _ _ A) in X0. rewrite X0. clear X0. set (now := clock (clock_calls st)). set (f := filter _ names). set (g := filter _ names).
  assert (FG : f = g).
  { unfold f, g. apply filter_ext. intros a. f_equal. apply (same_keys (same_query qtype a) _ _ (al_asked _ _ A)). intros; apply same_query_key; assumption. }
  rewrite <- FG. clearbody g f. subst g.
  assert (EX : existsb (expired now) (outstanding st) = true <-> clock 0%nat + 2 < now).
  { rewrite existsb_exists. unfold expired. split; [intros (q & I & L); specialize (T q I); lia|]. intros L. exists q0. split; [exact I0|lia]. }
  assert (K : forall s s0 a, clock_calls s0 = S (clock_calls st) -> quiet s0 -> since (clock 0%nat) s s0 -> tracks clock st0 (if existsb (expired now) (outstanding st) then UB else Ok (s, a)) (Ok (s0, a))).
  { intros s s0 a C Q0 S0. exists s0, a. split; [reflexivity|]. split; [exact Q0|]. rewrite C, (al_calls _ _ A). split; [lia|]. split.
    - intros F. specialize (F (clock_calls st0) ltac:(lia)). rewrite <- (al_calls _ _ A) in F. fold now in F. destruct (existsb (expired now) (outstanding st)); [specialize (proj1 EX eq_refl); lia|]. eauto.
    - intros (i & Hi & L). assert (i = clock_calls st0) by lia. subst i. rewrite <- (al_calls _ _ A) in L. fold now in L. rewrite (proj2 EX L). reflexivity. }
  destruct f as [|a l].
  - apply K; [reflexivity|split; assumption|]. split; [|split; [exact T|split; [eauto|split; assumption]]]. destruct A. split; cbn; congruence || assumption.
  - change (fun q a0 => if existsb (same_query qtype a0) q then q else q ++ [(qtype, a0, now)]) with (add_query qtype now).
    change (fun q a0 => if existsb (same_query qtype a0) q then q else q ++ [(qtype, a0, still (clock_calls st))]) with (add_query qtype 100).
    assert (QA : quiet (mkDisc ((tid st0 + 1) mod two16) (ippPtrs st0) (ippsPtrs st0) (txts st0) (ports st0) (targets st0) (addrs st0) (fold_left (add_query qtype 100) (a :: l) (outstanding st0)) (found st0) (S (clock_calls st)))).
    { split; cbn [outstanding].
      - destruct (outstanding st0) as [|z l0]; [contradiction|]. pose proof (asked_keeps qtype 100 (a :: l) (z :: l0) z (or_introl eq_refl)) as J. intros B. rewrite B in J. destruct J.
      - intros q J. apply asked_in in J. destruct J as [J|J]; [exact (Q q J)|exact J]. }
    rewrite (al_tid _ _ A). apply K; [reflexivity|exact QA|]. split; [|split; [|split; [|exact QA]]].
    + destruct A. split; cbn [tid ippPtrs ippsPtrs txts ports targets addrs found clock_calls outstanding]; try congruence. apply asked_alike. assumption.
    + cbn [outstanding]. intros q J. apply asked_in in J. destruct J as [J|J]; [exact (T q J)|rewrite J; apply M].
    + cbn [outstanding]. exists q0. split; [apply asked_keeps; exact I0|exact E0].
Qed.
Lemma since_store t ev : forall st st0, since t st st0 -> since t (fold_left store ev st) (fold_left store ev st0).
Proof.
  induction ev as [|e ev IH]; intros st st0 S; [exact S|]. cbn [fold_left]. apply IH. destruct S as (A & T & I & Q). destruct A.
  destruct e; cbn [store]; (split; [|split; [exact T|split; [exact I|exact Q]]]); split; cbn [tid ippPtrs ippsPtrs txts ports targets addrs found clock_calls outstanding]; rewrite ?al_txts0, ?al_ports0, ?al_targets0, ?al_addrs0; congruence.
Qed.
Lemma since_add t secure p st st0 : since t st st0 -> since t (add_ptr secure st p) (add_ptr secure st0 p).
Proof.
  intros (A & T & I & Q). destruct A. (split; [|split; [exact T|split; [exact I|exact Q]]]); split; unfold add_ptr; cbn [tid ippPtrs ippsPtrs txts ports targets addrs found clock_calls outstanding]; destruct secure; congruence.
Qed.
Lemma since_update t st st0 : since t st st0 -> snd (update st) = snd (update st0) /\ since t (fst (update st)) (fst (update st0)).
Proof.
  intros (A & T & I & Q). assert (R : forall it, resolve st it = resolve st0 it) by (intros it; unfold resolve; destruct A; rewrite al_targets0, al_ports0, al_txts0, al_addrs0; reflexivity).
  assert (L1 : forall ptrs f p, ipps_loop st ptrs f p = ipps_loop st0 ptrs f p).
  { induction ptrs as [|x r IH]; intros f p; [reflexivity|]. cbn [ipps_loop]. rewrite R. destruct (resolve st0 x) as [[[a b] c]|]; [destruct (ipps_ips _ _ _ _ _)|]; apply IH. }
  assert (L2 : forall ptrs f p, ipp_loop st ptrs f p = ipp_loop st0 ptrs f p).
  { induction ptrs as [|x r IH]; intros f p; [reflexivity|]. cbn [ipp_loop]. rewrite R. destruct (resolve st0 x) as [[[a b] c]|]; apply IH. }
  unfold update. rewrite L1, (al_ipps _ _ A), (al_found _ _ A). destruct (ipps_loop st0 _ _ _) as [f p]. rewrite L2, (al_ipp _ _ A). split; [reflexivity|]. cbn [fst].
  destruct A. (split; [|split; [exact T|split; [exact I|exact Q]]]). split; cbn [tid ippPtrs ippsPtrs txts ports targets addrs found clock_calls outstanding]; congruence.
Qed.
Lemma query_tracks clock secure : (forall i, clock 0%nat <= clock i) -> forall news st st0, since (clock 0%nat) st st0 -> tracks clock st0 (update_and_query clock secure st news) (update_and_query still secure st0 news).
Proof.
  intros M. induction news as [|p r IH]; intros st st0 S; [apply tracks_ok; exact S|]. cbn [update_and_query].
  assert (P : ptrs_of secure st = ptrs_of secure st0) by (destruct S as [A _]; unfold ptrs_of; destruct A, secure; assumption). rewrite P. destruct (mem p _); [apply IH; exact S|]. cbv zeta.
  apply (since_add _ secure p) in S. change (clock_calls st0) with (clock_calls (add_ptr secure st0 p)) . set (s := add_ptr secure st p) in *. set (s0 := add_ptr secure st0 p) in *.
  assert (TR : tracks clock s0 (let! (st, a1) := if map_has p (txts s) then Ok (s, []) else send_query clock s 16 [p] in
        let! (st, a2) := if map_has p (targets st) && map_has p (ports st) then Ok (st, []) else send_query clock st 33 [p] in
        let! (st, a3) := update_and_query clock secure st r in Ok (st, a1 ++ a2 ++ a3))
     (let! (st, a1) := if map_has p (txts s0) then Ok (s0, []) else send_query still s0 16 [p] in
        let! (st, a2) := if map_has p (targets st) && map_has p (ports st) then Ok (st, []) else send_query still st 33 [p] in
        let! (st, a3) := update_and_query still secure st r in Ok (st, a1 ++ a2 ++ a3))).
  { apply tracks_bind.
    { rewrite (al_txts _ _ (proj1 S)). destruct (map_has p (txts s0)); [apply tracks_ok; exact S|apply send_tracks; assumption]. }
    intros t t0 a1 S1. apply tracks_bind.
    { rewrite (al_targets _ _ (proj1 S1)), (al_ports _ _ (proj1 S1)). destruct (_ && _)%bool; [apply tracks_ok; exact S1|apply send_tracks; assumption]. }
    intros u u0 a2 S2. apply tracks_bind; [apply IH; exact S2|]. intros v v0 a3 S3. apply tracks_ok. exact S3. }
  exact TR.
Qed.
Lemma receive_tracks clock d st st0 : (forall i, clock 0%nat <= clock i) -> since (clock 0%nat) st st0 -> tracks clock st0 (receive clock st d) (receive still st0 d).
Proof.
  intros M S. unfold receive. pose proof (parse_total d) as PT. destruct (parse d) as [ev o]. cbn [snd] in PT. apply (since_store _ ev) in S.
  assert (CC : forall ev st0, clock_calls (fold_left store ev st0) = clock_calls st0) by (clear; induction ev as [|e ev IH]; intros st0; [reflexivity|]; cbn [fold_left]; rewrite IH; destruct e; reflexivity).
  set (s := fold_left store ev st) in *. set (s0 := fold_left store ev st0) in *.
  assert (TR : tracks clock s0
     (let! (st, a1) := update_and_query clock true s (new_ptrs is_ipps ev) in let! (st, a2) := update_and_query clock false st (new_ptrs is_ipp ev) in
      let! (st, a3) := match filter (fun t => negb (map_has t (addrs st))) (new_targets [] ev) with [] => Ok (st, []) | _ => send_query clock st 1 (filter (fun t => negb (map_has t (addrs st))) (new_targets [] ev)) end in
      let (st, a4) := update st in Ok (st, a1 ++ a2 ++ a3 ++ a4))
     (let! (st, a1) := update_and_query still true s0 (new_ptrs is_ipps ev) in let! (st, a2) := update_and_query still false st (new_ptrs is_ipp ev) in
      let! (st, a3) := match filter (fun t => negb (map_has t (addrs st))) (new_targets [] ev) with [] => Ok (st, []) | _ => send_query still st 1 (filter (fun t => negb (map_has t (addrs st))) (new_targets [] ev)) end in
      let (st, a4) := update st in Ok (st, a1 ++ a2 ++ a3 ++ a4))).
  { apply tracks_bind; [apply query_tracks; assumption|]. intros t t0 a1 S1. apply tracks_bind; [apply query_tracks; assumption|]. intros u u0 a2 S2. apply tracks_bind.
    { rewrite (al_addrs _ _ (proj1 S2)). destruct (filter _ _) as [|x l]; [apply tracks_ok; exact S2|apply send_tracks; assumption]. }
    intros v v0 a3 S3. destruct (since_update _ _ _ S3) as [E S4]. destruct (update v) as [w b]. destruct (update v0) as [w0 b0] eqn:U0. cbn [fst snd] in E, S4. subst b0.
    assert (C4 : clock_calls w0 = clock_calls v0) by (unfold update in U0; destruct (ipps_loop _ _ _ _); injection U0 as <- _; reflexivity).
    pose proof (tracks_ok clock w w0 (a1 ++ a2 ++ a3 ++ b) S4) as TK. unfold tracks in *. rewrite C4 in TK. exact TK. }
  unfold tracks in TR |- *. unfold s0 in TR at 2 3 4. rewrite CC in TR. destruct o; try contradiction; exact TR.
Qed.
Lemma all_tracks clock : (forall i, clock 0%nat <= clock i) -> forall ds st st0, since (clock 0%nat) st st0 -> tracks clock st0 (receive_all clock st ds) (receive_all still st0 ds).
Proof.
  intros M. induction ds as [|d r IH]; intros st st0 S; [apply tracks_ok; exact S|]. cbn [receive_all]. apply tracks_bind; [apply receive_tracks; assumption|]. intros t t0 a S1. apply tracks_bind; [apply IH; exact S1|]. intros u u0 b S2. apply tracks_ok. exact S2.
Qed.

(** ** C45 *)
(** The number of times a session reads the clock (whenever it wants to ask something) does
    not depend on the clock.  The session is undefined exactly if one of these times is more
    than two seconds after its start, and otherwise does what it would do at once. *)
Theorem C45_exactly : forall ds, exists n acts, (exists st, discover still ds = Ok (st, acts) /\ clock_calls st = n) /\
  forall clock, (forall i, clock 0%nat <= clock i) ->
  (discover clock ds = UB <-> exists i, (i < n)%nat /\ clock 0%nat + 2 < clock i) /\
  ((forall i, (i < n)%nat -> clock i <= clock 0%nat + 2) <-> exists st, discover clock ds = Ok (st, acts)).
Proof.
  intros ds. assert (B : forall clock, (forall i, clock 0%nat <= clock i) -> tracks clock start (discover clock ds) (discover still ds)).
  { intros clock M. unfold discover. apply tracks_bind; [|intros t t0 a S; apply tracks_bind; [apply all_tracks; assumption|intros u u0 b S2; apply tracks_ok; exact S2]].
    unfold send_query. cbn [start outstanding clock_calls existsb filter negb]. eexists. eexists. split; [reflexivity|]. split; [split; [discriminate|intros q [<-|[<-|[]]]; reflexivity]|]. split; [cbn; lia|].
    cbn [clock_calls]. split; [|intros (i & Hi & L); assert (i = 0%nat) by lia; subst i; lia]. intros _. eexists. split; [reflexivity|]. split; [split; reflexivity|]. split; [intros q [<-|[<-|[]]]; cbn; lia|]. split; [|split; [discriminate|intros q [<-|[<-|[]]]; reflexivity]].
    eexists. split; [left; reflexivity|reflexivity]. }
  destruct (B still ltac:(intros; unfold still; lia)) as (s0 & a & E & _). exists (clock_calls s0), a. split; [eauto|]. intros clock M. destruct (B clock M) as (s0' & a' & E' & _ & _ & H1 & H2). rewrite E in E'. injection E' as <- <-. cbn [start clock_calls] in H1, H2. split; split.
  - intros U. destruct (classic_range clock 0 (clock_calls s0)) as [F|(i & Hi & L)]; [destruct (H1 F) as (s & E1 & _); congruence|]. exists i. split; [lia|exact L].
  - intros (i & Hi & L). apply H2. exists i. split; [lia|exact L].
  - intros F. destruct H1 as (s & E1 & _); [intros i Hi; apply F; lia|]. eauto.
  - intros (s & E1) i Hi. destruct (Z_le_gt_dec (clock i) (clock 0%nat + 2)) as [|G]; [assumption|]. rewrite H2 in E1; [discriminate|]. exists i. split; lia.
Qed.
(** A session that asks three times: for the services, then for the text and the port of the printer it was told of *)
Example C45_exactly_example : let ds := [datagram 1 [rec_of ipp_service 12 (wire ("P" :: ipp_service)%string)]] in
  match discover still ds with Ok (st, acts) => clock_calls st = 3%nat /\ length acts = 3%nat | _ => False end /\
  discover (fun i => 2 * Z.of_nat i) ds = UB /\ discover (fun i => Z.of_nat i) ds <> UB.
Proof. cbv zeta. split; [vm_compute; split; reflexivity|]. split; [vm_compute; reflexivity|]. vm_compute. discriminate. Qed.
Print Assumptions C45_exactly.
