(** C107: data races and mutexes in streamed uploads (lib/curlrequester.cpp). *)
From Verif Require Import Base BaseLemmas CurlModel CurlSpec CurlProofs CurlLiveProofs CurlProperties RaceModel RaceSpec.
From Coq Require Import Lia ZifyBool.

Lemma traced_reachable z prog ops s : traced z prog ops s -> reachable z prog s.
Proof. induction 1; [constructor|econstructor; eassumption]. Qed.
Lemma reachable_traced z prog s : reachable z prog s -> exists ops, traced z prog ops s.
Proof. induction 1 as [|s l s' H [ops IH] St]; [exists []; constructor|]. exists (ops ++ mutex_ops l s). econstructor; eassumption. Qed.

Ltac fls := try match goal with K : False |- _ => destruct K end.
Ltac parts := cbn in *; repeat match goal with
  | K : _ \/ _ |- _ => destruct K
  | K : False |- _ => destruct K
  | K : (_, _) = (_, _) |- _ => inversion K; clear K; subst
  | K : In _ (match ?x with _ => _ end) |- _ => destruct x; cbn in K
  | K : _ = _ |- _ => discriminate K
  end.

(** In no execution do the threads race for a member, except that the worker sets _complete
    while the producer asks whether it is running. *)
Theorem C107_races_partial : forall z prog s m, reachable z prog s -> race m s ->
  m = MComplete /\ s_work s = Returned /\ (s_prod s = ACheck \/ exists d, s_prod s = WCheck d).
Proof.
  intros z prog s m H [w [w' [P [W WW]]]]. unfold prod_access in P. unfold work_access in W.
  pose proof (C47_exclusive z prog s H) as E. destruct (Ord_reachable _ _ _ H) as [R [F [T [_ [_ [_ [_ [_ [_ O]]]]]]]]].
  destruct (s_work s) eqn:EW; cbn in W; fls.
  - parts; parts.
  - parts; parts.
  - specialize (E Logic.I). destruct (s_prod s); fls; cbn in P; fls; [|destruct (is_none (s_comp s)); parts..].
    destruct (s_prog s) as [|[]]; cbn in P; fls. destruct (is_none (s_next s)) eqn:EN.
    + destruct (is_none (s_comp s)) eqn:EC; [parts|discriminate (O eq_refl)].
    + destruct (is_none (s_comp s)); parts.
  - specialize (E Logic.I). destruct (s_prod s); fls; cbn in P; fls; [|destruct (s_done s); parts..].
    destruct (s_prog s) as [|[]]; cbn in P; fls. destruct (is_none (s_next s)), (s_done s); parts.
  - parts; parts; (split; [reflexivity|]; split; [reflexivity|]; eauto).
Qed.
Print Assumptions C107_races_partial.

Ltac go R c := eapply reach_step in R; [|eapply c; first [eassumption|reflexivity|discriminate|lia]];
  cbv [s_data s_comp s_next s_canWrite s_canRead s_reading s_done s_complete s_calls s_prod s_prog s_work s_eof s_log s_sent
  set_prod set_prog log set_next set_canWrite set_canRead set_data set_comp set_done set_work set_reading set_complete set_eof send set_calls] in R.
(** Every print job can run into that race. *)
Theorem C107_complete_refuted : forall z hdr c chunks failed, exists s, reachable z (do_print hdr c chunks failed) s /\ race MComplete s.
Proof.
  intros z hdr c chunks failed. assert (R : forall P, P = do_print hdr c chunks failed -> exists s, reachable z P s /\ race MComplete s); [|exact (R _ eq_refl)].
  intros P EP. pose proof (reach_init z P) as R. unfold init in R. rewrite EP in R at 2. unfold do_print in R. clear EP.
  go R step_write. go R step_wtry. go R step_wstore. go R step_wcomp. go R step_wunlock. go R step_return.
  set (ds := filter _ chunks) in R. set (tl := (if failed then [] else [Await]) ++ [Await]) in R.
  assert (X : forall next lg, (exists d r, tl = d :: r /\ d = Await) -> reachable z P (mkState hdr NoCompression next false true false false false [] Ready (map Write ds ++ tl) Returned false lg []) ->
     exists s, reachable z P s /\ race MComplete s).
  { intros next lg [d [r [E D]]] Q. destruct ds as [|b ds'].
    - cbn [map app] in Q. rewrite E, D in Q. go Q step_await. eexists. split; [exact Q|]. exists false, true. split; [left; reflexivity|]. split; [left; reflexivity|]. right. reflexivity.
    - cbn [map app] in Q. go Q step_write. go Q step_wtry_fail. eexists. split; [exact Q|]. exists false, true. split; [left; reflexivity|]. split; [left; reflexivity|]. right. reflexivity. }
  assert (T : exists d r, tl = d :: r /\ d = Await) by (unfold tl; destruct failed; do 2 eexists; split; reflexivity).
  destruct (is_none c) eqn:EC; cbn [app] in R.
  - exact (X _ _ T R).
  - go R step_compression. exact (X _ _ T R).
Qed.
Print Assumptions C107_complete_refuted.

(** ** Mutexes *)
Definition locks (ops : list mop) : nat := length (filter (fun x => match x with Locks _ CanWrite => true | _ => false end) ops).
Definition releases (ops : list mop) : nat := length (filter (fun x => match x with Unlocks _ CanWrite => true | _ => false end) ops).
Lemma locks_app a b : locks (a ++ b) = (locks a + locks b)%nat.
Proof. unfold locks. rewrite filter_app, app_length. reflexivity. Qed.
Lemma releases_app a b : releases (a ++ b) = (releases a + releases b)%nat.
Proof. unfold releases. rewrite filter_app, app_length. reflexivity. Qed.
Lemma accepted_length l a : length (accepted (l ++ [a])) = (length (accepted l) + match a with Accepted _ => 1 | _ => 0 end)%nat.
Proof. rewrite accepted_snoc, app_length. destruct a; reflexivity. Qed.

(** what is locked is accepted; what is locked again was released, by the worker *)
Definition counted (ops : list mop) (s : state) : Prop :=
  (length (accepted (s_log s)) + match s_prod s with WStore _ => 1 | _ => 0 end <= locks ops)%nat /\
  (locks ops + Nat.b2n (s_canWrite s) <= releases ops + 1)%nat /\
  Forall (fun x => match x with Unlocks Producer CanWrite | Locks Worker CanWrite => False | _ => True end) ops.
Lemma counted_traced z prog ops s : traced z prog ops s -> counted ops s.
Proof.
  induction 1 as [|ops l s s' H IH St]; [split; [cbn; lia|]; split; [cbn; lia|constructor]|]. destruct IH as [I1 [I2 I3]].
  assert (I4 : Forall (fun x => match x with Unlocks Producer CanWrite | Locks Worker CanWrite => False | _ => True end) (ops ++ mutex_ops l s)).
  { apply Forall_app. split; [exact I3|]. unfold mutex_ops. destruct l; [constructor| |]; [destruct (s_prod s)|destruct (s_work s)]; repeat constructor. }
  split; [|split; [|exact I4]]; rewrite ?locks_app, ?releases_app; clear I3 I4 H.
  - destruct St; try (match goal with K : produce _ _ _ = _ |- _ => rewrite (produce_eq _ _ _ _ _ K) end); fields; unfold mutex_ops;
      repeat match goal with K : s_prod _ = _ |- _ => rewrite K in *; clear K | K : s_work _ = _ |- _ => rewrite K in *; clear K end; rewrite ?accepted_length; cbn in *; try lia.
  - destruct St; try (match goal with K : produce _ _ _ = _ |- _ => rewrite (produce_eq _ _ _ _ _ K) end); fields; unfold mutex_ops;
      repeat match goal with K : s_prod _ = _ |- _ => rewrite K in *; clear K | K : s_work _ = _ |- _ => rewrite K in *; clear K | K : s_canWrite _ = _ |- _ => rewrite K in *; clear K end; cbn in *; try lia.
Qed.

(** the worker releases only what it has not locked *)
Lemma unlawful : forall ops o, Forall (fun x => match x with Unlocks Producer CanWrite | Locks Worker CanWrite => False | _ => True end) ops -> o CanWrite <> Some Worker ->
  (1 <= releases ops)%nat -> lawful o ops = false.
Proof.
  induction ops as [|x ops IH]; intros o F O R; [cbn in R; lia|]. inversion F as [|a b F1 F2]; subst. destruct x as [t m|t m]; cbn [lawful].
  - destruct (o m); [reflexivity|]. apply IH; [exact F2| |destruct m; exact R]. unfold update. destruct m; cbn [mutex_eqb]; [destruct t; [discriminate|contradiction]|exact O].
  - destruct (o m) as [t'|] eqn:E; [|reflexivity]. destruct m.
    + destruct t; [contradiction|]. destruct t'; [reflexivity|]. destruct (O E).
    + rewrite IH; [apply andb_false_r|exact F2|exact O|exact R].
Qed.
(** An upload of more than one chunk has a thread unlock a mutex that the other has locked, even
    if the constructor's own use of the mutexes (it unlocks one that is not locked) is put right. *)
Theorem C107_mutex_refuted : (forall ops, lawful fresh (constructor ++ ops) = false) /\
  forall z prog ops s, traced z prog ops s -> (2 <= length (accepted (s_log s)))%nat -> lawful meant ops = false.
Proof.
  split; [reflexivity|]. intros z prog ops s H A. destruct (counted_traced _ _ _ _ H) as [C1 [C2 C3]]. apply unlawful; [exact C3|discriminate|]. lia.
Qed.
Print Assumptions C107_mutex_refuted.
(** As binary semaphores the two would be used properly: while the transfer goes on, only what is
    taken is given back, and one thread at a time has the turn. *)
Theorem C107_semaphores_partial : forall z prog s, reachable z prog s -> s_complete s = false -> s_work s <> Returned ->
  (In (Unlocks Producer CanRead) (mutex_ops Prod s) -> s_canRead s = false /\ s_canWrite s = false) /\
  (In (Unlocks Worker CanWrite) (mutex_ops Work s) -> s_canWrite s = false /\ s_canRead s = false) /\
  (s_canWrite s = true -> s_canRead s = false).
Proof.
  intros z prog s H C W. destruct (Tok_reachable _ _ _ H) as [T1 [T2 _]].
  assert (A : alive s = true).
  { unfold alive. destruct (s_work s) eqn:E; try reflexivity; [contradiction|]. destruct T1 as [_ T1]. rewrite (T1 eq_refl) in C. discriminate. }
  destruct (T2 A) as [O [_ _]]. unfold one, w_holds in O. unfold mutex_ops.
  split; [|split].
  - intros I. destruct (s_prod s); cbn in I; fls; try (destruct I as [I|[]]; discriminate I); cbn [p_holds] in O; destruct (s_canRead s), (s_canWrite s); cbn in O; try lia; split; reflexivity.
  - intros I. destruct (s_work s); cbn in I; fls; try (destruct I as [I|[]]; discriminate I); rewrite orb_true_r in O; destruct (s_canRead s), (s_canWrite s); cbn in O; try lia; split; reflexivity.
  - intros K. rewrite K in O. destruct (s_canRead s); [cbn in O; lia|reflexivity].
Qed.
Print Assumptions C107_semaphores_partial.

(** ** Examples *)
(** two chunks that are sent whole: what the threads do to the mutexes is not lawful *)
Example C107_example : forall z, exists ops s, traced z [Write [bZ 1%Z]; Write [bZ 2%Z; bZ 3%Z]; Await] ops s /\ delivered (s_sent s) = map bZ [1; 2; 3]%Z /\ (2 <= length (accepted (s_log s)))%nat /\ lawful meant ops = false.
Proof.
  intros z. pose proof (all_writes z [Write [bZ 1%Z]; Write [bZ 2%Z; bZ 3%Z]; Await] [[bZ 1%Z]; [bZ 2%Z; bZ 3%Z]] ltac:(repeat constructor; discriminate) [Await] [] [] (reach_init z _)) as R.
  destruct (reachable_traced _ _ _ R) as [ops T]. exists ops. eexists. split; [exact T|]. split; [reflexivity|]. split; [cbn; lia|]. eapply C107_mutex_refuted; [exact T|]. cbn. lia.
Qed.
(** the producer gives back what the worker is to take *)
Example C107_example_semaphores : forall z d, exists s, reachable z [Write d; Await] s /\ s_complete s = false /\ s_work s <> Returned /\ In (Unlocks Producer CanRead) (mutex_ops Prod s).
Proof.
  intros z d. pose proof (reach_init z [Write d; Await]) as R. unfold init in R. go R step_write. go R step_wtry. go R step_wstore. go R step_wcomp.
  eexists. split; [exact R|]. split; [reflexivity|]. split; [discriminate|]. left. reflexivity.
Qed.
