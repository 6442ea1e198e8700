(** C47-C50: streamed uploads (lib/curlrequester.cpp). *)
From Verif Require Import Base BaseLemmas CurlModel CurlSpec CurlProofs CurlLiveProofs.
From Coq Require Import Lia.

(** ** C47 *)
(** The members _data, _compression and _done are never accessed by both threads at a time:
    the worker uses them at Produce and Check, the producer at the positions below. *)
Theorem C47_exclusive : forall z prog s, reachable z prog s ->
  match s_work s with Produce _ | Check _ _ => True | _ => False end ->
  match s_prod s with WStore _ | WComp | ADone | AClear => False | _ => True end.
Proof.
  intros z prog s H W. destruct (Tok_reachable _ _ _ H) as [_ [A _]]. unfold alive, w_ok, w_holds, one in A. destruct (s_work s); try contradiction; destruct (A eq_refl) as [A1 [A2 _]]; rewrite A2 in A1; cbn [orb Nat.b2n] in A1; destruct (s_prod s); try exact I; cbn in A1; lia.
Qed.
Lemma plain_only p : compresses p = false -> plain p = concat (writes p) /\ coded p = [].
Proof.
  induction p as [|[d|c|] p IH]; intros H; [split; reflexivity|..]; cbn [compresses existsb] in H.
  - destruct (IH H) as [I1 I2]. cbn [plain coded writes flat_map concat app]. rewrite I1. auto.
  - destruct c; [|discriminate|discriminate]. apply IH, H.
  - apply IH, H.
Qed.
Lemma raw_delivered l : has_def l = false -> delivered l = raw_taken l.
Proof. unfold delivered, raw_taken, has_def. induction l as [|[o|c f o] l IH]; cbn; intros H; [reflexivity| |discriminate]. rewrite IH by exact H. reflexivity. Qed.
Lemma no_deflate z prog s : reachable z prog s -> compresses prog = false -> has_def (s_sent s) = false.
Proof.
  intros H N. destruct (has_def (s_sent s)) eqn:D; [|reflexivity]. exfalso. destruct (Pre_reachable _ _ _ H) as [_ _]. clear - H N D.
  induction H as [|s l s' H IH St]; [discriminate|]. destruct (has_def (s_sent s)) eqn:D0; [apply IH; reflexivity|].
  assert (C : s_complete s = false -> compressing (s_log s) = false).
  { intros C. pose proof (Prog_reachable _ _ _ H) as P. destruct (alive_log z prog s H C) as [NR _]. destruct (covered prog s P NR C) as [ops [rest [tl [K0 [K1 K2]]]]]. rewrite <- compresses_log, K1, compresses_app. rewrite K0, compresses_app in N. apply orb_false_elim in N. destruct N as [-> _]. destruct K2 as [-> | ->]; reflexivity. }
  destruct St; fields; try congruence. destruct (produce_bytes _ _ _ _ _ H1) as [x [X1 [_ [_ [_ X4]]]]]. rewrite X1, has_def_snoc, D0 in D. assert (AL : alive s = true) by (unfold alive; rewrite H0; reflexivity).
  specialize (C (alive_open s (Tok_reachable _ _ _ H) AL)). destruct (Sent_reachable _ _ _ H) as [S1 _]. rewrite C in S1. destruct (Ord_reachable _ _ _ H) as [_ [_ [_ [_ [_ [_ [_ [_ [_ O7]]]]]]]]]. destruct (is_none (s_comp s)); [destruct x; [discriminate|contradiction]|]. rewrite O7 in S1 by reflexivity. discriminate.
Qed.
(** At every moment the transfer has got a prefix of what the program writes ... *)
Theorem C47_prefix : forall z prog s, reachable z prog s -> compresses prog = false -> prefix (delivered (s_sent s)) (concat (writes prog)).
Proof.
  intros z prog s H N. rewrite raw_delivered by (eapply no_deflate; eassumption). destruct (plain_only _ N) as [E _]. rewrite <- E. apply (Pre_reachable _ _ _ H).
Qed.
(** ... and all of what was written before await once requestWrite has returned 0 *)
Theorem C47_complete : forall z prog s, reachable z prog s -> compresses prog = false -> complete s ->
  exists ops rest, prog = ops ++ Await :: rest /\ ~ In Await ops /\ delivered (s_sent s) = concat (writes ops).
Proof.
  intros z prog s H N E. destruct (Fin_split z prog s H (or_introl E)) as [ops [[U1 [rest [U2 U3]]] [E1 _]]]. rewrite raw_delivered by (eapply no_deflate; eassumption).
  rewrite U2, compresses_app in N. apply orb_false_elim in N. destruct N as [N1 N2]. destruct rest as [|[d|c|] rest]; try contradiction; [congruence|]. exists ops, rest. split; [exact U2|]. split; [exact U1|]. rewrite E1. apply plain_only, N1.
Qed.
(** A write is refused only when the worker has ended. *)
Theorem C47_refused : forall z prog s d, reachable z prog s -> In (Refused d) (s_log s) -> s_work s = Dead.
Proof. intros z prog s d H K. destruct (Prog_reachable _ _ _ H) as [_ [P _]]. apply (Tok_reachable _ _ _ H). exact (P d K). Qed.

(** ** C49 *)
(** What was sent is plain bytes, then bytes from the compressor, then what it gave while
    being flushed (Z_FINISH).  The plain bytes are those written before compression was
    requested, unchanged; later ones went into the compressor in order, and the flushing
    starts only after the last byte before await. *)
Theorem C49_order : forall z prog s, reachable z prog s -> exists hdr doc fin, s_sent s = hdr ++ doc ++ fin /\
  Forall is_raw hdr /\ Forall (is_deflate false) doc /\ Forall (fun x => is_deflate true x /\ bytes_in x = []) fin /\
  prefix (delivered hdr) (plain prog) /\ prefix (flat_map bytes_in doc) (coded prog) /\ (doc ++ fin <> [] -> delivered hdr = plain prog) /\
  (fin <> [] -> exists ops, up_to_await prog ops /\ delivered hdr = plain ops /\ flat_map bytes_in doc = coded ops).
Proof.
  intros z prog s H. destruct (Ord_reachable _ _ _ H) as [R [F [T [O1 [O2 [O3 [O4 _]]]]]]]. destruct (taken_split R F T O2 O3 O4) as [T1 [T2 [T3 [T4 _]]]]. rewrite <- O1 in *.
  assert (DR : delivered R = flat_map bytes_in R). { clear - O2. induction R as [|[o|c f o] R IH]; inversion O2; subst; [reflexivity| |contradiction]. unfold delivered in *. cbn. rewrite IH by assumption. reflexivity. }
  exists R, F, T. destruct (Pre_reachable _ _ _ H) as [P1 [P2 P3]]. rewrite DR. split; [exact O1|]. split; [exact O2|]. split; [exact O3|]. split; [exact O4|]. rewrite <- T1, <- T2. split; [exact P1|]. split; [exact P2|]. split.
  - intros K. apply P3. destruct (has_def (s_sent s)) eqn:HD; [reflexivity|]. destruct (T3 eq_refl) as [-> ->]. exfalso. apply K. reflexivity.
  - intros K. destruct (has_fin (s_sent s)) eqn:HF; [|rewrite (T4 eq_refl) in K; contradiction]. exact (Fin_split z prog s H (or_intror HF)).
Qed.
(** Once requestWrite has returned 0, all written before await was sent this way, and if
    there was a document, the compressor was flushed until it gave nothing more. *)
Theorem C49_complete : forall z prog s, reachable z prog s -> complete s -> exists ops, up_to_await prog ops /\
  flat_map bytes_in (s_sent s) = plain ops ++ coded ops /\ (coded ops <> [] -> exists sent, s_sent s = sent ++ [Deflated [] true []]).
Proof.
  intros z prog s H E. destruct (Fin_split z prog s H (or_introl E)) as [ops [U [E1 E2]]]. exists ops. split; [exact U|]. split; [rewrite (split_taken _ (Ord_reachable _ _ _ H)), E1, E2; reflexivity|]. intros K.
  destruct (Last_reachable _ _ _ H) as [_ L]. destruct (L E) as [pre [x [L1 [L2 L3]]]]. destruct (is_none (s_comp s)) eqn:N; [destruct (raw_only _ (Ord_reachable _ _ _ H) N) as [D _]; congruence|].
  specialize (L3 eq_refl). destruct x as [|c f o]; [contradiction|]. cbn in L2, L3. subst f o. exists pre. rewrite L1. f_equal. f_equal. f_equal.
  destruct (Ord_reachable _ _ _ H) as [R [F [T [O1 [O2 [O3 [O4 _]]]]]]]. assert (I : In (Deflated c true []) (R ++ F ++ T)) by (rewrite <- O1, L1; apply in_or_app; right; left; reflexivity).
  apply in_app_or in I. destruct I as [I|I]; [rewrite Forall_forall in O2; destruct (O2 _ I)|]. apply in_app_or in I. destruct I as [I|I]; [rewrite Forall_forall in O3; specialize (O3 _ I); discriminate|]. rewrite Forall_forall in O4. apply (O4 _ I).
Qed.

(** ** C48 *)
(** Assumed of the program: it ends with await, as every one does because of the
    destructor; and of zlib: see [zlib_ok]. *)

(** In every reachable state all is over, or a thread can do something other than waiting,
    at most after the producer has gone round its waiting loop. *)
Theorem C48_progress : forall z ops s, reachable z (ops ++ [Await]) s ->
  finished s \/ (exists l s', l <> Spin /\ step z l s s') \/ (exists s1 s2, step z Spin s s1 /\ step z Prod s1 s2).
Proof.
  intros z ops s H. destruct (progress z ops s H) as [X|[X|[[s' X]|[s1 [s2 X]]]]]; [auto| | |right; right; eauto].
  - destruct (work_step z s X) as [s' Y]. right; left. exists Work, s'. split; [discriminate|exact Y].
  - right; left. exists Prod, s'. split; [discriminate|exact X].
Qed.
(** However the threads are scheduled, they take only so many steps other than waiting. *)
Theorem C48_bounded : forall z B ops ls s, zlib_ok z B -> run z (init (ops ++ [Await])) ls s ->
  let total := length (concat (writes ops)) in
  (working ls <= 80 * (length ops + 1) + 20 * (total + B total) + 17)%nat.
Proof.
  intros z B ops ls s Z H total. pose proof (run_measure z B ops ls s Z H) as M. cbv zeta in M. unfold measure at 2 in M. unfold to_come, token, rank_w, init, w_holds in M. fields. cbn [in_op rank_p orb Nat.b2n raw_taken def_out flat_map length] in M.
  rewrite !Nat.sub_0_r in M. assert (W : length (concat (writes (ops ++ [Await]))) = total). { unfold total, writes. rewrite flat_map_app. cbn [flat_map app]. rewrite app_nil_r. reflexivity. }
  rewrite W, app_length in M. cbn [length] in M. lia.
Qed.
(** Hence, if the worker is not starved, no execution goes on for ever.  With
    C48_progress: every execution comes to the end of both threads, also when the transfer
    ends early. *)
Theorem C48_terminates : forall z B ops (f : nat -> state) (l : nat -> label), zlib_ok z B ->
  f 0%nat = init (ops ++ [Await]) -> (forall i, step z (l i) (f i) (f (S i))) ->
  (forall i, exists j, (i <= j)%nat /\ (l j = Work \/ ~ exists s', step z Work (f j) s')) -> False.
Proof. intros z B ops f l Z F0 FS FAIR. exact (fair_ends z B ops f l Z F0 FS FAIR). Qed.
(** ** C50 *)
(** The upload after a failed conversion can complete normally: for every header, chunks
    written so far and compressor, there is an execution in which both threads end,
    requestWrite has returned 0 and the truncated document was sent as if whole. *)
Definition between (r : list op) (lg : list act) (snt : list sent) : state :=
  mkState [] NoCompression NoCompression true false false false false [] Ready r Idle false lg snt.
Ltac fwd R c := eapply reach_step in R; [|eapply c; first [eassumption|reflexivity|discriminate|lia]]; fields.
Lemma one_write z prog d r lg snt : d <> [] -> reachable z prog (between (Write d :: r) lg snt) -> reachable z prog (between r (lg ++ [Accepted d]) (snt ++ [Raw d])).
Proof.
  intros N R. unfold between in *.
  fwd R step_write. fwd R step_wtry. fwd R step_wstore. fwd R step_wcomp. fwd R step_wunlock.
  assert (L : (0 < length d)%nat) by (destruct d; [congruence|cbn; lia]).
  fwd R (fun s => step_callback z s (length d)). fwd R step_enter. fwd R step_lock. fwd R step_take.
  match type of R with reachable _ _ ?s => assert (P : produce z s (length d) = (mkState [] NoCompression NoCompression false false true false false [] Ready r (Produce (length d)) false (lg ++ [Accepted d]) (snt ++ [Raw d]), d)) by (unfold produce, send, set_data; fields; cbn [is_none]; rewrite firstn_all, skipn_all; reflexivity) end.
  fwd R step_produce. fwd R step_check_end. fwd R step_release. fwd R step_decide. fwd R step_returns. exact R.
Qed.
Lemma all_writes z prog ds : Forall (fun d => d <> []) ds -> forall r lg snt, reachable z prog (between (map Write ds ++ r) lg snt) -> reachable z prog (between r (lg ++ map Accepted ds) (snt ++ map Raw ds)).
Proof.
  induction 1 as [|d ds N _ IH]; intros r lg snt R; [cbn; rewrite !app_nil_r; exact R|]. cbn [map app] in *. apply (one_write _ _ _ _ _ _ N) in R. apply IH in R. rewrite <- !app_assoc in R. exact R.
Qed.
Lemma delivered_raw ds : delivered (map Raw ds) = concat ds.
Proof. induction ds as [|d ds IH]; [reflexivity|]. cbn. unfold delivered in IH. rewrite IH. reflexivity. Qed.
Lemma concat_filter ds : concat (filter (fun d : list byte => match d with [] => false | _ => true end) ds) = concat ds.
Proof. induction ds as [|[|b d] ds IH]; [reflexivity|exact IH|]. cbn. rewrite IH. reflexivity. Qed.
Lemma upload z ds r : Forall (fun d => d <> []) ds -> exists s, reachable z (map Write ds ++ Await :: r) s /\ s_prod s = Ready /\ s_prog s = r /\ s_work s = Dead /\ complete s /\ delivered (s_sent s) = concat ds.
Proof.
  intros N. pose proof (reach_init z (map Write ds ++ Await :: r)) as R. change (init (map Write ds ++ Await :: r)) with (between (map Write ds ++ Await :: r) [] []) in R. apply all_writes in R; [|exact N].
  cbn [app] in R. unfold between in R.
  fwd R step_await. fwd R step_acheck_fail. fwd R step_atry. fwd R step_adone. fwd R step_aclear. fwd R step_aunlock.
  fwd R (fun s => step_callback z s 1%nat). fwd R step_enter. fwd R step_lock. fwd R step_take.
  match type of R with reachable _ _ ?s => assert (P : produce z s 1 = (mkState [] NoCompression NoCompression false false true true false [] AJoin r (Produce 1) false (map Accepted ds ++ [Awaited]) (map Raw ds ++ [Raw []]), [])) by reflexivity end.
  fwd R step_produce. fwd R step_check_done. fwd R step_returns_0. fwd R step_return. fwd R step_complete. fwd R step_ajoin.
  eexists. split; [exact R|]. unfold complete. fields. do 4 (split; [reflexivity|]). unfold delivered. rewrite flat_map_app. cbn [flat_map bytes_out app]. rewrite app_nil_r. fold (delivered (map Raw ds)). apply delivered_raw.
Qed.
Lemma chunks_ok hdr chunks : hdr <> [] -> Forall (fun d : list byte => d <> []) (hdr :: filter (fun d => match d with [] => false | _ => true end) chunks).
Proof. intros N. constructor; [exact N|]. apply Forall_forall. intros d I. apply filter_In in I. destruct I as [_ I]. destruct d; discriminate. Qed.
Lemma do_print_plain hdr chunks failed : do_print hdr NoCompression chunks failed = map Write (hdr :: filter (fun d => match d with [] => false | _ => true end) chunks) ++ Await :: (if failed then [] else [Await]).
Proof. destruct failed; reflexivity. Qed.
Theorem C50_refuted : forall z hdr chunks, hdr <> [] -> exists s, reachable z (do_print hdr NoCompression chunks true) s /\ finished s /\ complete s /\ delivered (s_sent s) = hdr ++ concat chunks.
Proof.
  intros z hdr chunks N. rewrite do_print_plain. destruct (upload z _ [] (chunks_ok hdr chunks N)) as [s [R [P [G [W [C D]]]]]]. exists s. split; [exact R|]. split; [split; [exact P|auto]|]. split; [exact C|]. rewrite D. cbn [concat]. rewrite concat_filter. reflexivity.
Qed.
(** The printer cannot tell: a successful conversion of just those chunks is sent alike. *)
Theorem C50_indistinguishable : forall z hdr chunks, hdr <> [] -> exists s s',
  reachable z (do_print hdr NoCompression chunks true) s /\ complete s /\ reachable z (do_print hdr NoCompression chunks false) s' /\ complete s' /\ delivered (s_sent s) = delivered (s_sent s').
Proof.
  intros z hdr chunks N. rewrite !do_print_plain. destruct (upload z _ [] (chunks_ok hdr chunks N)) as [s [R [_ [_ [_ [C D]]]]]]. destruct (upload z _ [Await] (chunks_ok hdr chunks N)) as [s' [R' [_ [_ [_ [C' D']]]]]].
  exists s, s'. rewrite D, D'. auto.
Qed.

(** ** Examples *)
(** a compressor that stores its input *)
Definition stored : zlib := fun _ c => let '(inp, n, _) := c in (Nat.min n (length inp), firstn n inp).
Lemma stored_ok : zlib_ok stored (fun n => n).
Proof.
  split; [auto|]. split.
  - intros h inp n fin _ N. cbn. rewrite firstn_length. split; [lia|]. split; lia.
  - intros h _. apply Nat.eq_le_incl. generalize (@nil call). induction h as [|[[inp n] fin] h IH]; intros pre; [reflexivity|]. cbn. rewrite firstn_length, IH. reflexivity.
Qed.

(** Fairness is needed in C48_terminates: the producer may wait for a transfer that never calls back. *)
Example C48_fairness_needed : forall z a b, exists f : nat -> state, reachable z [Write a; Write b; Await] (f 0%nat) /\ forall i, step z Spin (f i) (f (S i)).
Proof.
  intros z a b. set (f := fun i => mkState a NoCompression NoCompression false true false false false [] (if Nat.even i then WTry b else WCheck b) [Await] Idle false [Accepted a] []). exists f. split.
  - pose proof (reach_init z [Write a; Write b; Await]) as R. unfold init in R. fwd R step_write. fwd R step_wtry. fwd R step_wstore. fwd R step_wcomp. fwd R step_wunlock. fwd R step_write. exact R.
  - intros i. unfold f. rewrite Nat.even_succ, <- Nat.negb_even. destruct (Nat.even i); cbn [negb].
    + exact (step_wtry_fail z (mkState a NoCompression NoCompression false true false false false [] (WTry b) [Await] Idle false [Accepted a] []) b eq_refl eq_refl).
    + exact (step_wcheck z (mkState a NoCompression NoCompression false true false false false [] (WCheck b) [Await] Idle false [Accepted a] []) b eq_refl eq_refl).
Qed.
(** a job with header 01 02 and document 03 04 05, sent with gzip by a transfer asking for two
    bytes at a time *)
Definition job : list op := do_print (map bZ [1; 2]%Z) Gzip [map bZ [3; 4; 5]%Z] false.
Ltac fwdp R n := match type of R with reachable ?z _ ?s => let v := eval vm_compute in (produce z s n) in assert (P : produce z s n = v) by reflexivity; fwd R step_produce; clear P end.
Example job_sent : exists s, reachable stored job s /\ finished s /\ complete s /\
  s_sent s = [Raw (map bZ [1; 2]%Z); Deflated (map bZ [3; 4]%Z) false (map bZ [3; 4]%Z); Deflated (map bZ [5]%Z) false (map bZ [5]%Z); Deflated [] true []].
Proof.
  pose proof (reach_init stored job) as R. unfold init, job, do_print in R. cbn [is_none filter map app] in R.
  fwd R step_write. fwd R step_wtry. fwd R step_wstore. fwd R step_wcomp. fwd R step_wunlock. fwd R (fun s => step_callback stored s 2). fwd R step_enter. fwd R step_lock. fwd R step_take. fwdp R 2%nat. fwd R step_check_end. fwd R step_release. fwd R step_decide. fwd R step_returns.
  fwd R step_compression. fwd R step_write. fwd R step_wtry. fwd R step_wstore. fwd R step_wcomp. fwd R step_wunlock. fwd R (fun s => step_callback stored s 2). fwd R step_enter. fwd R step_lock. fwd R step_take. fwdp R 2%nat. fwd R step_check. fwd R step_decide. fwd R step_returns.
  fwd R (fun s => step_callback stored s 2). fwd R step_enter_reading. fwdp R 2%nat. fwd R step_check_end. fwd R step_release. fwd R step_decide. fwd R step_returns.
  fwd R step_await. fwd R step_acheck_fail. fwd R step_atry. fwd R step_adone. fwd R step_aclear. fwd R step_aunlock. fwd R (fun s => step_callback stored s 2). fwd R step_enter. fwd R step_lock. fwd R step_take. fwdp R 2%nat. fwd R step_check_done. fwd R step_returns_0. fwd R step_return. fwd R step_complete. fwd R step_ajoin.
  fwd R step_await. fwd R step_acheck. fwd R step_adone. fwd R step_aclear. fwd R step_aunlock. fwd R step_ajoin.
  eexists. split; [exact R|]. unfold finished, complete. fields. split; [auto|]. split; reflexivity.
Qed.
(** the theorems about it *)
Example C47_example : forall z, exists s, reachable z (map Write [map bZ [1; 2]%Z; map bZ [3]%Z] ++ [Await]) s /\ complete s /\ delivered (s_sent s) = map bZ [1; 2; 3]%Z.
Proof. intros z. destruct (upload z [map bZ [1; 2]%Z; map bZ [3]%Z] []) as [s [R [_ [_ [_ [C D]]]]]]; [repeat constructor; discriminate|]. exists s. auto. Qed.
Example C49_example : exists s, reachable stored job s /\ complete s /\ exists ops, up_to_await job ops /\ plain ops = map bZ [1; 2]%Z /\ coded ops = map bZ [3; 4; 5]%Z.
Proof.
  destruct job_sent as [s [R [_ [C _]]]]. exists s. split; [exact R|]. split; [exact C|]. exists [Write (map bZ [1; 2]%Z); SetCompression Gzip; Write (map bZ [3; 4; 5]%Z)].
  split; [|split; reflexivity]. split; [intros [X|[X|[X|[]]]]; discriminate|]. exists [Await; Await]. split; [reflexivity|exact I].
Qed.
Example C48_example : exists ops, job = ops ++ [Await] /\ zlib_ok stored (fun n => n) /\ forall ls s, run stored (init job) ls s -> (working ls <= 617)%nat.
Proof.
  exists [Write (map bZ [1; 2]%Z); SetCompression Gzip; Write (map bZ [3; 4; 5]%Z); Await]. split; [reflexivity|]. split; [exact stored_ok|]. intros ls s H.
  pose proof (C48_bounded stored (fun n => n) [Write (map bZ [1; 2]%Z); SetCompression Gzip; Write (map bZ [3; 4; 5]%Z); Await] ls s stored_ok H) as M. exact M.
Qed.

Print Assumptions C47_exclusive.
Print Assumptions C47_prefix.
Print Assumptions C47_complete.
Print Assumptions C47_refused.
Print Assumptions C49_order.
Print Assumptions C49_complete.
Print Assumptions C48_progress.
Print Assumptions C48_bounded.
Print Assumptions C48_terminates.
Print Assumptions C50_refuted.
Print Assumptions C50_indistinguishable.
