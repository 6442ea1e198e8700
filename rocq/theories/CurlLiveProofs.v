(** Progress of the streamed upload (CurlModel.v): a measure that every step but waiting
    decreases. *)
From Verif Require Import Base BaseLemmas CurlModel CurlSpec CurlProofs.
From Coq Require Import Lia.

Lemma total_in_snoc z pre h c : total_in z pre (h ++ [c]) = total_in z pre h + fst (z (pre ++ h) c).
Proof. revert pre. induction h as [|a h IH]; intros pre; cbn; [rewrite app_nil_r; lia|]. rewrite IH, <- app_assoc. cbn. lia. Qed.
Lemma total_out_snoc z pre h c : total_out z pre (h ++ [c]) = total_out z pre h + length (snd (z (pre ++ h) c)).
Proof. revert pre. induction h as [|a h IH]; intros pre; cbn; [rewrite app_nil_r; lia|]. rewrite IH, <- app_assoc. cbn. lia. Qed.
Lemma proper_snoc h inp n fin : proper h -> (fin = false -> Forall (fun c => snd c = false) h) -> (fin = true -> inp = []) -> proper (h ++ [(inp, n, fin)]).
Proof.
  intros [F [T [-> [HF HT]]]] H1 H2. destruct fin.
  - exists F, (T ++ [(inp, n, true)]). rewrite app_assoc. split; [reflexivity|]. split; [exact HF|]. apply Forall_app. split; [exact HT|]. constructor; [|constructor]. cbn. auto.
  - exists ((F ++ T) ++ [(inp, n, false)]), []. rewrite app_nil_r. split; [reflexivity|]. split; [|constructor]. apply Forall_app. split; [apply H1; reflexivity|]. constructor; [reflexivity|constructor].
Qed.
Lemma produce_full z s n s' out : produce z s n = (s', out) ->
  (is_none (s_comp s) = true /\ s_calls s' = s_calls s /\ s_data s' = skipn n (s_data s) /\ out = firstn n (s_data s) /\ s_sent s' = s_sent s ++ [Raw out]) \/
  (is_none (s_comp s) = false /\ s_calls s' = s_calls s ++ [(s_data s, n, s_done s)] /\ exists k, z (s_calls s) (s_data s, n, s_done s) = (k, out) /\ s_data s' = skipn k (s_data s) /\ s_sent s' = s_sent s ++ [Deflated (firstn k (s_data s)) (s_done s) out]).
Proof.
  unfold produce. destruct (is_none (s_comp s)).
  - intros H. left. injection H as <- <-. repeat split.
  - destruct (z _ _) as [k o] eqn:E. intros H. injection H as <- <-. right. split; [reflexivity|]. split; [reflexivity|]. exists k. repeat split.
Qed.
Definition def_out (l : list sent) : list byte := flat_map (fun x => match x with Deflated _ _ o => o | _ => [] end) l.
Lemma def_out_snoc l x : def_out (l ++ [x]) = def_out l ++ match x with Deflated _ _ o => o | _ => [] end.
Proof. unfold def_out. rewrite flat_map_app. cbn. rewrite app_nil_r. reflexivity. Qed.
(** sizes asked for are positive *)
Definition w_size (s : state) : Prop := match s_work s with Enter n | Lock n | Take n | Produce n | Check n _ | Release n _ | Decide n _ => 0 < n | _ => True end.
Definition Calls (z : zlib) (s : state) : Prop :=
  proper (s_calls s) /\ (s_done s = false -> Forall (fun c => snd c = false) (s_calls s)) /\ total_in z [] (s_calls s) = length (def_taken (s_sent s)) /\ total_out z [] (s_calls s) = length (def_out (s_sent s)) /\ w_size s.
(** nothing was put out only if everything was taken *)
Definition Dry (s : state) : Prop := match s_work s with Check _ [] => s_data s = [] | _ => True end.
Lemma Calls_step z B l s s' : zlib_ok z B -> Tok s -> Data s -> Calls z s -> step z l s s' -> Calls z s'.
Proof.
  intros Z T D C H. destruct C as [C1 [C2 [C3 [C4 C5]]]].
  destruct H as [s d r Hp Hg|s r Hp Hg|s c r Hp Hg Hn|s c r Hp Hg Hn|s d Hp Hc|s d Hp Hc|s d Hp Hc|s d Hp Hc|s d Hp Hc|s d Hp|s Hp|s Hp|s Hp Hc|s Hp Hc|s Hp Hc|s Hp Hc|s Hp|s Hp|s Hp|s Hp Hc
    |s n Hw He Hn|s Hw|s Hw|s n Hw Hr|s n Hw Hr|s n Hw Hr|s n Hw|s n s' out Hw Hq|s n out Hw Hd|s n out Hw Hd He|s n out Hw Hd He|s n out Hw|s n Hw|s n out Hw Ho|s out Hw Ho|s Hw].
  28: { unfold w_size in C5. rewrite Hw in C5. assert (W : s_done s' = s_done s) by (rewrite (produce_eq _ _ _ _ _ Hq); reflexivity). unfold Calls, w_size. fields. rewrite W.
    destruct D as [D1 _]. destruct (D1 ltac:(unfold alive; rewrite Hw; reflexivity)) as [_ D5].
    destruct (produce_full _ _ _ _ _ Hq) as [[N [E1 [E2 [E3 E4]]]]|[N [E1 [k [E2 [E3 E4]]]]]]; rewrite E1, E4.
    - rewrite def_taken_snoc, def_out_snoc, !app_nil_r. auto.
    - assert (PR : proper (s_calls s ++ [(s_data s, n, s_done s)])). { apply proper_snoc; [exact C1|exact C2|]. intros K. apply D5. unfold emptied. rewrite K. orbs. }
      destruct Z as [_ [Z2 _]]. specialize (Z2 (s_calls s) (s_data s) n (s_done s) PR C5). rewrite E2 in Z2. rewrite def_taken_snoc, def_out_snoc, total_in_snoc, total_out_snoc, !app_length. cbn [app]. rewrite E2. cbn [fst snd]. rewrite firstn_length.
      split; [exact PR|]. split; [intros K; apply Forall_app; split; [apply C2, K|constructor; [exact K|constructor]]|]. split; [lia|]. split; [lia|exact C5]. }
  all: unfold Calls, w_size in *; fields; try rewrite Hw in *; try (split; [exact C1|split; [exact C2|split; [exact C3|split; [exact C4|first [exact C5|exact I|assumption]]]]]; fail).
  split; [exact C1|]. split; [discriminate|]. auto.
Qed.
Lemma Calls_reachable z B prog s : zlib_ok z B -> reachable z prog s -> Calls z s.
Proof.
  intros Z. induction 1; [|eapply Calls_step; [eassumption|eapply Tok_reachable|eapply Data_reachable|..]; eassumption]. unfold Calls, w_size, init. fields. split; [exists [], []; repeat constructor|]. repeat constructor.
Qed.
Lemma Dry_step z B l s s' : zlib_ok z B -> Tok s -> Data s -> Calls z s -> Dry s -> step z l s s' -> Dry s'.
Proof.
  intros Z T D C Y H.
  destruct H as [s d r Hp Hg|s r Hp Hg|s c r Hp Hg Hn|s c r Hp Hg Hn|s d Hp Hc|s d Hp Hc|s d Hp Hc|s d Hp Hc|s d Hp Hc|s d Hp|s Hp|s Hp|s Hp Hc|s Hp Hc|s Hp Hc|s Hp Hc|s Hp|s Hp|s Hp|s Hp Hc
    |s n Hw He Hn|s Hw|s Hw|s n Hw Hr|s n Hw Hr|s n Hw Hr|s n Hw|s n s' out Hw Hq|s n out Hw Hd|s n out Hw Hd He|s n out Hw Hd He|s n out Hw|s n Hw|s n out Hw Ho|s out Hw Ho|s Hw].
  28: { unfold Dry. fields. destruct out as [|o out]; [|exact I]. destruct C as [C1 [C2 [_ [_ C5]]]]. unfold w_size in C5. rewrite Hw in C5. destruct D as [D1 _]. destruct (D1 ltac:(unfold alive; rewrite Hw; reflexivity)) as [_ D5].
    destruct (produce_full _ _ _ _ _ Hq) as [[N [E1 [E2 [E3 E4]]]]|[N [E1 [k [E2 [E3 E4]]]]]].
    - rewrite E2. destruct (s_data s) as [|a l]; [apply skipn_nil|]. destruct n; [lia|discriminate].
    - assert (PR : proper (s_calls s ++ [(s_data s, n, s_done s)])). { apply proper_snoc; [exact C1|exact C2|]. intros K. apply D5. unfold emptied. rewrite K. orbs. }
      destruct Z as [_ [Z2 _]]. specialize (Z2 (s_calls s) (s_data s) n (s_done s) PR C5). rewrite E2 in Z2. destruct Z2 as [_ [_ Z2]]. rewrite E3, Z2 by (cbn; lia). apply skipn_all. }
  all: unfold Dry in *; fields; try rewrite Hw in *; try exact Y; try exact I.
  - destruct T as [_ [A _]]. unfold alive, w_ok, w_holds, one in A. destruct (s_work s); try exact I. rewrite Hp in A. destruct (A eq_refl) as [A1 [A2 _]]. rewrite A2 in A1. cbn in A1. lia.
  - destruct (s_work s); try exact I. destruct out; [reflexivity|exact I].
Qed.
Lemma Dry_reachable z B prog s : zlib_ok z B -> reachable z prog s -> Dry s.
Proof. intros Z. induction 1; [exact I|eapply Dry_step; [eassumption|eapply Tok_reachable|eapply Data_reachable|eapply Calls_reachable|..]; eassumption]. Qed.

(** ** The measure *)
Definition in_op (pc : prod_pc) : nat := match pc with Ready | AJoin => 0 | _ => 1 end.
Definition token (s : state) : nat := Nat.b2n (s_canRead s || w_holds s).
Definition rank_p (pc : prod_pc) : nat :=
  match pc with AJoin => 9 | Ready => 8 | WTry _ | WCheck _ | ACheck | ATry => 7 | WStore _ | ADone => 6 | WComp | AClear => 5 | WUnlock | AUnlock => 4 end.
Definition rank_w (s : state) : nat :=
  match s_work s with
  | Check _ (_ :: _) => 13 | Release _ (_ :: _) => 12 | Decide _ (_ :: _) => 11 | Return (_ :: _) => 10
  | Idle => if s_eof s then 2 else 9
  | Decide _ [] => 9 | Enter _ => 8 | Lock _ => 7 | Take _ => 6 | Produce _ => 5 | Check _ [] => 4 | Release _ [] | Return [] => 3
  | Returned => 1 | Dead => 0
  end.
(** bytes that may still come out *)
Definition to_come (B : nat -> nat) (w : nat) (s : state) : nat := (w - length (raw_taken (s_sent s))) + (B w - length (def_out (s_sent s))).
Definition measure (B : nat -> nat) (w : nat) (s : state) : nat :=
  40 * (2 * (length (s_prog s) + in_op (s_prod s)) + token s) + 20 * to_come B w s + rank_p (s_prod s) + rank_w s.
(** the program always ends with an await *)
Definition Ends (s : state) : Prop :=
  (exists ops, s_prog s = ops ++ [Await]) \/ (s_prog s = [] /\ match s_prod s with ACheck | ATry | ADone | AClear | AUnlock | AJoin => True | Ready => s_complete s = true | _ => False end).
Lemma ends_tail o r ops : o :: r = ops ++ [Await] -> (exists ops', r = ops' ++ [Await]) \/ (r = [] /\ o = Await).
Proof. destruct ops as [|a ops]; cbn; intros H; injection H as -> ->; [auto|]. left. exists ops. reflexivity. Qed.
Lemma Ends_step z l s s' : Ends s -> step z l s s' -> Ends s'.
Proof.
  intros E H. unfold Ends in *.
  destruct H as [s d r Hp Hg|s r Hp Hg|s c r Hp Hg Hn|s c r Hp Hg Hn|s d Hp Hc|s d Hp Hc|s d Hp Hc|s d Hp Hc|s d Hp Hc|s d Hp|s Hp|s Hp|s Hp Hc|s Hp Hc|s Hp Hc|s Hp Hc|s Hp|s Hp|s Hp|s Hp Hc
    |s n Hw He Hn|s Hw|s Hw|s n Hw Hr|s n Hw Hr|s n Hw Hr|s n Hw|s n s' out Hw Hq|s n out Hw Hd|s n out Hw Hd He|s n out Hw Hd He|s n out Hw|s n Hw|s n out Hw Ho|s out Hw Ho|s Hw].
  28: rewrite (produce_eq _ _ _ _ _ Hq).
  all: fields; try (rewrite Hg in E); try (rewrite Hp in E); try exact E.
  all: first [ left; exists []; reflexivity
    | destruct E as [[ops E]|[E _]]; [|discriminate]; apply ends_tail in E; destruct E as [E|[-> E]]; [left; exact E|first [discriminate|right; auto]]
    | destruct E as [E|[E1 E2]]; [left; exact E|right; split; [exact E1|]; first [exact I|assumption|contradiction|destruct (s_prod s); auto]] ].
Qed.
Lemma Ends_reachable z ops s : reachable z (ops ++ [Await]) s -> Ends s.
Proof. induction 1; [left; exists ops; reflexivity|eapply Ends_step; eassumption]. Qed.

(** what is accepted comes from the program *)
Definition todo (s : state) : nat :=
  length (concat (writes (s_prog s))) + match s_prod s with WTry d | WCheck d | WStore d => length d | _ => 0 end.
Lemma todo_step z l s s' : step z l s s' -> length (concat (accepted (s_log s'))) + todo s' <= length (concat (accepted (s_log s))) + todo s.
Proof.
  intros H. unfold todo, writes.
  destruct H as [s d r Hp Hg|s r Hp Hg|s c r Hp Hg Hn|s c r Hp Hg Hn|s d Hp Hc|s d Hp Hc|s d Hp Hc|s d Hp Hc|s d Hp Hc|s d Hp|s Hp|s Hp|s Hp Hc|s Hp Hc|s Hp Hc|s Hp Hc|s Hp|s Hp|s Hp|s Hp Hc
    |s n Hw He Hn|s Hw|s Hw|s n Hw Hr|s n Hw Hr|s n Hw Hr|s n Hw|s n s' out Hw Hq|s n out Hw Hd|s n out Hw Hd He|s n out Hw Hd He|s n out Hw|s n Hw|s n out Hw Ho|s out Hw Ho|s Hw].
  28: rewrite (produce_eq _ _ _ _ _ Hq).
  all: fields; try rewrite Hp; try rewrite Hg; rewrite ?concat_accepted_snoc, ?app_nil_r; cbn [writes flat_map app concat]; rewrite ?app_length; cbn [length]; lia.
Qed.
Lemma todo_reachable z prog s : reachable z prog s -> length (concat (accepted (s_log s))) <= length (concat (writes prog)).
Proof.
  intros H. enough (length (concat (accepted (s_log s))) + todo s <= length (concat (writes prog))) by lia.
  induction H as [|s l s' H IH S]; [unfold todo, init; fields; cbn [accepted flat_map concat length]; lia|]. pose proof (todo_step _ _ _ _ S). lia.
Qed.
Lemma taken_lengths l : length (flat_map bytes_in l) = length (raw_taken l) + length (def_taken l).
Proof. induction l as [|[o|c f o] l IH]; [reflexivity|..]; unfold raw_taken, def_taken in *; cbn [flat_map bytes_in app]; rewrite !app_length, IH; lia. Qed.
(** the budget is never exceeded *)
Lemma budget z B prog s : zlib_ok z B -> reachable z prog s -> let w := length (concat (writes prog)) in length (raw_taken (s_sent s)) <= w /\ length (def_out (s_sent s)) <= B w.
Proof.
  intros Z R w. destruct (Data_reachable _ _ _ R) as [_ [[r D] _]]. pose proof (todo_reachable _ _ _ R) as T. fold w in T. rewrite D, app_length, taken_lengths in T.
  destruct (Calls_reachable _ _ _ _ Z R) as [C1 [_ [C3 [C4 _]]]]. destruct Z as [Z1 [_ Z3]]. specialize (Z3 _ C1). rewrite C3, C4 in Z3. split; [lia|]. etransitivity; [exact Z3|]. apply Z1. lia.
Qed.

(** ** Every step but waiting decreases the measure *)
Lemma measure_step z B ops s l s' : zlib_ok z B -> reachable z (ops ++ [Await]) s -> step z l s s' ->
  let w := length (concat (writes (ops ++ [Await]))) in
  match l with Spin => measure B w s' = measure B w s | _ => measure B w s' < measure B w s end.
Proof.
  intros Z R H w. pose proof (budget _ _ _ _ Z (reach_step _ _ _ _ _ R H)) as BU. cbv zeta in BU. fold w in BU.
  pose proof (Tok_reachable _ _ _ R) as [TC [TA TE]]. pose proof (Ends_reachable _ _ _ R) as E. pose proof (Dry_reachable _ _ _ _ Z R) as Y.
  unfold measure, to_come, token, rank_w, alive, one in *. clearbody w.
  destruct H as [s d r Hp Hg|s r Hp Hg|s c r Hp Hg Hn|s c r Hp Hg Hn|s d Hp Hc|s d Hp Hc|s d Hp Hc|s d Hp Hc|s d Hp Hc|s d Hp|s Hp|s Hp|s Hp Hc|s Hp Hc|s Hp Hc|s Hp Hc|s Hp|s Hp|s Hp|s Hp Hc
    |s n Hw He Hn|s Hw|s Hw|s n Hw Hr|s n Hw Hr|s n Hw Hr|s n Hw|s n s' out Hw Hq|s n out Hw Hd|s n out Hw Hd He|s n out Hw Hd He|s n out Hw|s n Hw|s n out Hw Ho|s out Hw Ho|s Hw].
  28: { assert (X : s_sent s' = s_sent s ++ [Raw out] \/ exists c f, s_sent s' = s_sent s ++ [Deflated c f out]).
    { destruct (produce_full _ _ _ _ _ Hq) as [[_ [_ [_ [_ ->]]]]|[_ [_ [k [_ [_ ->]]]]]]; [left; reflexivity|right; eauto]. }
    rewrite (produce_eq _ _ _ _ _ Hq) in BU |- *. fields. unfold w_holds. fields. rewrite Hw. clear - X BU.
    assert (20 * (w - length (raw_taken (s_sent s')) + (B w - length (def_out (s_sent s')))) + 20 * length out <= 20 * (w - length (raw_taken (s_sent s)) + (B w - length (def_out (s_sent s))))).
    { destruct X as [X|[c [f X]]]; rewrite X in *; rewrite raw_taken_snoc, def_out_snoc, ?app_nil_r, ?app_length in *; lia. }
    destruct out; cbn [length] in *; lia. }
  all: fields; unfold w_holds in *; fields; try rewrite Hp; try rewrite Hg; try rewrite Hw; cbn [in_op rank_p length].
  all: try lia.
  all: repeat match goal with |- context [Nat.b2n ?b] => lazymatch goal with K : Nat.b2n b <= 1 |- _ => fail | _ => assert (Nat.b2n b <= 1) by (destruct b; cbn; lia) end end.
  all: try (destruct out as [|o out]; try congruence; lia).
  all: try (match goal with |- context [s_eof ?t] => destruct (s_eof t) end; lia).
  - assert (1 <= length r); [|lia]. clear - E Hg. destruct E as [[ops E]|[E _]]; rewrite Hg in E; [|discriminate]. apply ends_tail in E. destruct E as [[o ->]|[_ E]]; [rewrite app_length; cbn; lia|discriminate].
  - assert (1 <= length (s_prog s)); [|lia]. clear - E Hp. destruct E as [[ops E]|[_ E]]; [rewrite E, app_length; cbn; lia|]. rewrite Hp in E. contradiction.
  - rewrite Hr. cbn [orb] in *. rewrite !orb_true_r. lia.
  - unfold Tok, w_ok in TA. rewrite Hw in TA. destruct (TA eq_refl) as [_ [-> _]]. cbn [orb]. rewrite orb_true_r. destruct out; lia.
  - unfold Dry in Y. rewrite Hw in Y. destruct out; [congruence|lia].
  - rewrite Hw in TA. destruct (TA eq_refl) as [A1 [A2 _]]. unfold w_ok in A2. rewrite Hw in A2. destruct A2 as [-> _]. cbn [orb] in *. rewrite orb_true_r. cbn [Nat.b2n] in *.
    assert (s_canRead s = false) as -> by (destruct (s_canRead s); [cbn in A1; lia|reflexivity]). cbn [orb Nat.b2n]. destruct out; lia.
  - destruct out; [congruence|]. destruct (s_eof s); lia.
Qed.

(** ** No state is stuck *)
(** once done, the buffer is not handed back *)
Definition Over (s : state) : Prop :=
  (awaiting (s_prod s) = true -> s_done s = true) /\ (alive s = true -> s_done s = true -> s_canWrite s = false).
Lemma Over_step z l s s' : Tok s -> Over s -> step z l s s' -> Over s'.
Proof.
  intros [TC [TA TE]] [O1 O2] H. unfold Over, alive, one in *.
  destruct H as [s d r Hp Hg|s r Hp Hg|s c r Hp Hg Hn|s c r Hp Hg Hn|s d Hp Hc|s d Hp Hc|s d Hp Hc|s d Hp Hc|s d Hp Hc|s d Hp|s Hp|s Hp|s Hp Hc|s Hp Hc|s Hp Hc|s Hp Hc|s Hp|s Hp|s Hp|s Hp Hc
    |s n Hw He Hn|s Hw|s Hw|s n Hw Hr|s n Hw Hr|s n Hw Hr|s n Hw|s n s' out Hw Hq|s n out Hw Hd|s n out Hw Hd He|s n out Hw Hd He|s n out Hw|s n Hw|s n out Hw Ho|s out Hw Ho|s Hw].
  28: rewrite (produce_eq _ _ _ _ _ Hq).
  all: fields; try rewrite Hp in *; try rewrite Hw in *; cbn [awaiting p_holds Nat.b2n] in *.
  all: try (split; [first [discriminate|exact O1|intros _; apply O1; reflexivity]|first [exact O2|discriminate|reflexivity|intros _; apply O2; reflexivity|intros; apply O2; assumption]]; fail).
  - split; [reflexivity|]. intros A _. destruct (TA A) as [A1 _]. destruct (s_canWrite s); [cbn in A1; lia|reflexivity].
  - split; [exact O1|]. intros _ K. destruct (TA eq_refl) as [_ [A2 _]]. unfold w_ok in A2. rewrite Hw in A2. destruct A2. congruence.
Qed.
Lemma Over_reachable z prog s : reachable z prog s -> Over s.
Proof. induction 1; [split; discriminate|eapply Over_step; [eapply Tok_reachable|..]; eassumption]. Qed.

Definition work_enabled (s : state) : bool := match s_work s with Lock _ => s_canRead s | Dead => false | _ => true end.
Lemma work_step z s : work_enabled s = true -> exists s', step z Work s s'.
Proof.
  unfold work_enabled. destruct (s_work s) as [|n|n|n|n|n out|n out|n out|out| |] eqn:W; intros E; try discriminate.
  - eexists. apply step_return, W.
  - destruct (s_reading s) eqn:R; eexists; [eapply step_enter_reading|eapply step_enter]; eassumption.
  - eexists. eapply step_lock; eassumption.
  - eexists. eapply step_take; eassumption.
  - destruct (produce z s n) as [s' out] eqn:P. eexists. eapply step_produce; eassumption.
  - destruct (s_done s) eqn:D; [eexists; eapply step_check_done; eassumption|]. destruct (s_data s) eqn:A; eexists; [eapply step_check_end|eapply step_check]; try eassumption. congruence.
  - eexists. eapply step_release; eassumption.
  - destruct out as [|o out]; eexists; [eapply step_again|eapply step_decide]; try eassumption. discriminate.
  - destruct out as [|o out]; eexists; [eapply step_returns_0|eapply step_returns]; try eassumption. discriminate.
  - eexists. eapply step_complete; eassumption.
Qed.
Lemma work_only z s s' : step z Work s s' -> work_enabled s = true.
Proof. intros H. unfold work_enabled. inversion H; subst; rewrite H0 || (match goal with K : s_work s = _ |- _ => rewrite K end); auto. Qed.
Lemma spin_keeps z s s' : step z Spin s s' -> work_enabled s' = work_enabled s.
Proof. intros H. inversion H; reflexivity. Qed.
Lemma spin_det z s s1 s2 : step z Spin s s1 -> step z Spin s s2 -> s1 = s2.
Proof. intros H K. inversion H; inversion K; subst; try congruence; match goal with A : s_prod s = _, B : s_prod s = _ |- _ => rewrite A in B; injection B as ->; reflexivity end. Qed.
Lemma prod_or_spin z s s1 s2 : step z Prod s s1 -> step z Spin s s2 -> False.
Proof. intros H K. inversion H; inversion K; subst; congruence. Qed.

Definition ready_step z s : s_prod s = Ready -> s_prog s <> [] -> exists s', step z Prod s s'.
Proof.
  intros P N. destruct (s_prog s) as [|o r] eqn:G; [congruence|]. destruct o as [d|c|].
  - eexists. eapply step_write; eassumption.
  - destruct (s_next s) eqn:E; eexists; [eapply step_compression|eapply step_logic_error|eapply step_logic_error]; try eassumption; congruence.
  - eexists. eapply step_await; eassumption.
Qed.
Lemma progress z ops s : reachable z (ops ++ [Await]) s ->
  finished s \/ work_enabled s = true \/ (exists s', step z Prod s s') \/ (exists s1 s2, step z Spin s s1 /\ step z Prod s1 s2).
Proof.
  intros R. destruct (work_enabled s) eqn:WE; [auto|]. pose proof (Tok_reachable _ _ _ R) as [TC [TA TE]]. pose proof (Over_reachable _ _ _ R) as [O1 O2]. pose proof (Ends_reachable _ _ _ R) as E.
  unfold work_enabled in WE.
  (* steps the producer can always take *)
  assert (A : p_holds (s_prod s) = true -> exists s', step z Prod s s').
  { destruct (s_prod s) eqn:P; try discriminate; intros _; eexists; [eapply step_wstore|eapply step_wcomp|eapply step_wunlock|eapply step_adone|eapply step_aclear|eapply step_aunlock]; eassumption. }
  destruct (p_holds (s_prod s)) eqn:PH; [right; right; left; auto|]. clear A.
  destruct (s_work s) as [|n|n|n|n|n out|n out|n out|out| |] eqn:W; try discriminate.
  - (* the worker waits for data, so the producer may write *)
    assert (AL : alive s = true) by (unfold alive; rewrite W; reflexivity). destruct (TA AL) as [A1 [A2 _]]. unfold one, w_holds, w_ok in A1, A2. rewrite W in A1, A2. rewrite A2, WE in A1. cbn in A1.
    assert (CW : s_canWrite s = true) by (destruct (s_canWrite s); [reflexivity|cbn in A1; lia]).
    assert (CP : s_complete s = false) by (destruct (s_complete s); [destruct TC as [TC _]; specialize (TC eq_refl); congruence|reflexivity]).
    destruct (s_prod s) as [|d|d|d| | | | | | | |] eqn:P; try discriminate.
    + right; right; left. apply ready_step; [exact P|]. destruct E as [[o ->]|[_ E]]; [destruct o; discriminate|]. rewrite P in E. congruence.
    + right; right; left. eexists. eapply step_wtry; eassumption.
    + right; right; right. do 2 eexists. split; [eapply step_wcheck; eassumption|eapply step_wtry; [reflexivity|exact CW]].
    + right; right; right. do 2 eexists. split; [eapply step_acheck_fail; eassumption|eapply step_atry; [reflexivity|exact CW]].
    + right; right; left. eexists. eapply step_atry; eassumption.
    + exfalso. specialize (O2 AL (O1 eq_refl)). congruence.
  - (* the worker is gone *)
    assert (CP : s_complete s = true) by (apply TC; reflexivity).
    destruct (s_prod s) as [|d|d|d| | | | | | | |] eqn:P; try discriminate.
    + destruct (s_prog s) as [|o r] eqn:G; [left; unfold finished; auto|]. right; right; left. apply ready_step; [exact P|rewrite G; discriminate].
    + destruct (s_canWrite s) eqn:CW; [right; right; left; eexists; eapply step_wtry; eassumption|]. right; right; right. do 2 eexists. split; [eapply step_wtry_fail; eassumption|eapply step_wfalse; [reflexivity|exact CP]].
    + right; right; left. eexists. eapply step_wfalse; eassumption.
    + right; right; left. eexists. eapply step_acheck; eassumption.
    + destruct (s_canWrite s) eqn:CW; [right; right; left; eexists; eapply step_atry; eassumption|]. right; right; right. do 2 eexists. split; [eapply step_atry_fail; eassumption|eapply step_acheck; [reflexivity|exact CP]].
    + right; right; left. eexists. eapply step_ajoin; eassumption.
Qed.

(** ** Executions *)
Lemma run_reachable z prog ls s : run z (init prog) ls s -> reachable z prog s.
Proof. induction 1; [apply reach_init|eapply reach_step; eassumption]. Qed.
Lemma run_measure z B ops ls s : zlib_ok z B -> run z (init (ops ++ [Await])) ls s ->
  let w := length (concat (writes (ops ++ [Await]))) in working ls + measure B w s <= measure B w (init (ops ++ [Await])).
Proof.
  intros Z H w. induction H as [|ls l s1 s2 H IH S]; [cbn; lia|]. pose proof (measure_step z B ops s1 l s2 Z (run_reachable _ _ _ _ H) S) as M. cbv zeta in M. fold w in M.
  unfold working in *. rewrite filter_app, app_length. destruct l; cbn [filter length] in *; lia.
Qed.

(** no execution goes on for ever, if the worker is not starved *)
Section Fair.
Variables (z : zlib) (B : nat -> nat) (ops : list op) (f : nat -> state) (l : nat -> label).
Hypothesis (Z : zlib_ok z B) (F0 : f 0 = init (ops ++ [Await])) (FS : forall i, step z (l i) (f i) (f (S i))).
Hypothesis (FAIR : forall i, exists j, i <= j /\ (l j = Work \/ ~ exists s', step z Work (f j) s')).
Let w := length (concat (writes (ops ++ [Await]))).
Lemma fair_reachable i : reachable z (ops ++ [Await]) (f i).
Proof. induction i; [rewrite F0; apply reach_init|eapply reach_step; [eassumption|apply FS]]. Qed.
Lemma fair_down i : match l i with Spin => measure B w (f (S i)) = measure B w (f i) | _ => measure B w (f (S i)) < measure B w (f i) end.
Proof. exact (measure_step z B ops _ _ _ Z (fair_reachable i) (FS i)). Qed.
Lemma fair_le i j : i <= j -> measure B w (f j) <= measure B w (f i).
Proof. induction 1 as [|j _ IH]; [lia|]. pose proof (fair_down j). destruct (l j); lia. Qed.
Lemma fair_drops i : exists j, measure B w (f j) < measure B w (f i).
Proof.
  assert (NS : forall k, i <= k -> l k <> Spin -> exists j, measure B w (f j) < measure B w (f i)).
  { intros k K N. exists (S k). pose proof (fair_le i k K). pose proof (fair_down k). destruct (l k); [congruence|lia|lia]. }
  destruct (l i) eqn:L; [|apply (NS i); [lia|congruence]|apply (NS i); [lia|congruence]].
  pose proof (FS i) as S0. rewrite L in S0.
  destruct (progress z ops (f i) (fair_reachable i)) as [X|[X|[[s' X]|[s1 [s2 [X1 X2]]]]]].
  - exfalso. destruct X as [X1 [X2 X3]]. inversion S0; congruence.
  - (* the worker can move; it is not starved *)
    destruct (FAIR i) as [j [J K]].
    assert (Q : forall k, i <= k -> (exists j, measure B w (f j) < measure B w (f i)) \/ work_enabled (f k) = true).
    { induction 1 as [|k I IH]; [auto|]. destruct IH as [IH|IH]; [auto|]. destruct (l k) eqn:LK; [|left; apply (NS k); [lia|congruence]|left; apply (NS k); [lia|congruence]].
      right. pose proof (FS k) as SK. rewrite LK in SK. rewrite (spin_keeps _ _ _ SK). exact IH. }
    destruct (Q j J) as [G|G]; [exact G|]. destruct K as [K|K]; [|exfalso; apply K, work_step, G]. apply (NS j); [exact J|congruence].
  - exfalso. eapply prod_or_spin; eassumption.
  - rewrite (spin_det _ _ _ _ X1 S0) in X2. apply (NS (S i)); [lia|]. intros L1. pose proof (FS (S i)) as S1. rewrite L1 in S1. eapply prod_or_spin; eassumption.
Qed.
Lemma fair_ends : False.
Proof.
  assert (Q : forall m i, measure B w (f i) < m -> False). { induction m as [|m IH]; intros i H; [lia|]. destruct (fair_drops i) as [j J]. apply (IH j). lia. }
  exact (Q (S (measure B w (f 0))) 0 ltac:(lia)).
Qed.
End Fair.
