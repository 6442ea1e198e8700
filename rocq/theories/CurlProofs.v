(** Invariants of the streamed upload (CurlModel.v). *)
From Verif Require Import Base BaseLemmas CurlModel CurlSpec.
From Coq Require Import Lia.

(** ** Who holds the buffer *)
Definition p_holds (pc : prod_pc) : bool :=
  match pc with WStore _ | WComp | WUnlock | ADone | AClear | AUnlock => true | _ => false end.
Definition w_holds (s : state) : bool :=
  s_reading s || match s_work s with Take _ | Release _ _ => true | _ => false end.
Definition alive (s : state) : bool := match s_work s with Returned | Dead => false | _ => true end.
Definition awaiting (pc : prod_pc) : bool := match pc with AClear | AUnlock | AJoin => true | _ => false end.
Definition one (a b c d : bool) : Prop := (Nat.b2n a + Nat.b2n b + Nat.b2n c + Nat.b2n d = 1)%nat.
(** the worker's position fits _reading *)
Definition w_ok (s : state) : Prop :=
  match s_work s with
  | Produce _ | Check _ _ => s_reading s = true
  | Lock _ | Take _ => s_reading s = false
  | Release _ _ => s_reading s = false /\ s_done s = false
  | Return [] => s_reading s = true /\ s_done s = true
  | _ => True
  end.
Definition Tok (s : state) : Prop :=
  (s_complete s = true <-> s_work s = Dead) /\
  (alive s = true -> one (s_canWrite s) (p_holds (s_prod s)) (s_canRead s) (w_holds s) /\ w_ok s /\ (s_done s = true -> awaiting (s_prod s) = true)) /\
  (s_eof s = true -> s_canWrite s = false /\ s_done s = true /\ (s_work s = Idle -> s_reading s = true) /\ match s_work s with Idle | Returned | Dead => True | _ => False end /\
     match s_prod s with WStore _ | WComp | WUnlock => False | _ => True end).

Ltac st s := destruct s as [data comp next canW canR rd dn cpl calls pc prog wk eof lg snt]; cbn [s_data s_comp s_next s_canWrite s_canRead s_reading s_done s_complete s_calls s_prod s_prog s_work s_eof s_log s_sent] in *.
Ltac fields := cbn [s_data s_comp s_next s_canWrite s_canRead s_reading s_done s_complete s_calls s_prod s_prog s_work s_eof s_log s_sent
  set_prod set_prog log set_next set_canWrite set_canRead set_data set_comp set_done set_work set_reading set_complete set_eof send set_calls] in *.

Lemma produce_eq z s n s' out : produce z s n = (s', out) ->
  s' = mkState (s_data s') (s_comp s) (s_next s) (s_canWrite s) (s_canRead s) (s_reading s) (s_done s) (s_complete s) (s_calls s') (s_prod s) (s_prog s) (s_work s) (s_eof s) (s_log s) (s_sent s').
Proof.
  unfold produce. destruct (is_none (s_comp s)).
  - intros H. injection H as <- <-. reflexivity.
  - destruct (z _ _) as [k o]. intros H. injection H as <- <-. reflexivity.
Qed.
Lemma Tok_init prog : Tok (init prog).
Proof. unfold Tok, one, alive, w_ok, w_holds, init. fields. split; [split; discriminate|]. split; [|discriminate]. intros _. cbn. repeat split. discriminate. Qed.
Ltac bools := repeat match goal with b : bool |- _ => destruct b end.
Ltac tokstep := unfold Tok, one, alive, w_ok, w_holds in *; fields; subst; cbn in *; 
  let C := fresh in let A := fresh in let E := fresh in
  match goal with H : _ /\ _ /\ _ |- _ => destruct H as [C [A E]] end;
  repeat match goal with H : _ /\ _ |- _ => destruct H end.
Lemma Tok_step z l s s' : Tok s -> step z l s s' -> Tok s'.
Proof.
  intros T H. destruct H as [s d r Hp Hg|s r Hp Hg|s c r Hp Hg Hn|s c r Hp Hg Hn|s d Hp Hc|s d Hp Hc|s d Hp Hc|s d Hp Hc|s d Hp Hc|s d Hp|s Hp|s Hp|s Hp Hc|s Hp Hc|s Hp Hc|s Hp Hc|s Hp|s Hp|s Hp|s Hp Hc
    |s n Hw He Hn|s Hw|s Hw|s n Hw Hr|s n Hw Hr|s n Hw Hr|s n Hw|s n s' out Hw Hq|s n out Hw Hd|s n out Hw Hd He|s n out Hw Hd He|s n out Hw|s n Hw|s n out Hw Ho|s out Hw Ho|s Hw].
  (* the producer; in the 17th case it sets _done *)
  17: st s; subst; unfold Tok, alive, w_ok, w_holds in *; fields; cbn [p_holds awaiting] in *; destruct T as [C [A E]]; split; [exact C|split];
    [intros X; destruct (A X) as [A1 [A2 A3]]; split; [exact A1|split; [|reflexivity]]; destruct wk; try exact A2; [exfalso; unfold one in A1; rewrite orb_true_r in A1; cbn in A1; lia|destruct out; [split; [apply A2|reflexivity]|exact I]]
    |intros X; destruct (E X) as [E1 [E2 [E3 [E4 E5]]]]; tauto].
  all: try (match goal with H : s_prod _ = _ |- _ => idtac end; st s; subst; unfold Tok, alive, w_ok, w_holds in *; fields; destruct T as [C [A E]]; split; [exact C|split];
    [intros X; destruct (A X) as [A1 [A2 A3]]; split; [unfold one in *; cbn [Nat.b2n p_holds] in *; lia|split; [exact A2|]];
     intros K; try (exfalso; apply A3 in K; discriminate); try (subst; cbn in A3 |- *; auto; fail); try (exfalso; subst; destruct wk; try discriminate X; destruct C as [C1 C2]; specialize (C1 eq_refl); discriminate)
    |intros X; destruct (E X) as [E1 [E2 [E3 [E4 E5]]]]; try discriminate; try contradiction; repeat split; auto]; fail).
  (* the worker *)
  all: try (match goal with H : s_work _ = _ |- _ => idtac end; st s; subst; unfold Tok, alive, w_ok, w_holds in *; fields; subst; destruct T as [C [A E]]; try (destruct (A eq_refl) as [A1 [A2 A3]]; clear A);
    split; [split; intros K; try discriminate; try reflexivity; apply C in K; discriminate|clear C; split];
    [intros X; try discriminate X; split; [unfold one in *; cbn [Nat.b2n orb] in *; subst; rewrite ?orb_true_r, ?orb_false_r in *; cbn [Nat.b2n orb] in *; lia|split; [auto; fail|exact A3]]
    |intros X; destruct (E X) as [E1 [E2 [E3 [E4 E5]]]]; try contradiction; try discriminate; repeat split; auto; discriminate]; fail).
  - st s. subst. unfold Tok, alive, w_ok, w_holds in *. fields. destruct T as [C [A E]]. split; [exact C|]. assert (wk = Dead) by (apply C; reflexivity). subst wk. split; [discriminate|]. intros X. destruct (E X) as [E1 [E2 [E3 [E4 E5]]]]. repeat split; auto.
  - st s. subst. unfold Tok, alive, w_ok, w_holds in *. fields. destruct T as [C [A E]]. split; [split; [intros K; apply C in K; discriminate|discriminate]|]. split; [discriminate|]. intros X. destruct (E X) as [E1 [E2 [E3 [E4 E5]]]]. repeat split; auto; discriminate.
  - st s. subst. unfold Tok, alive, w_ok, w_holds in *. fields. destruct T as [C [A E]]. split; [tauto|]. split; [discriminate|]. intros X. destruct (E X) as [E1 [E2 [E3 [E4 E5]]]]. repeat split; auto; discriminate.
  - rewrite (produce_eq _ _ _ _ _ Hq). st s. subst. unfold Tok, alive, w_ok, w_holds in *. fields. destruct T as [C [A E]]. destruct (A eq_refl) as [A1 [A2 A3]]. split; [split; [intros K; apply C in K; discriminate|discriminate]|].
    split; [intros _; auto|]. intros X. destruct (E X) as [E1 [E2 [E3 [E4 E5]]]]. contradiction.
  - st s. subst. unfold Tok, alive, w_ok, w_holds in *. fields. destruct T as [C [A E]]. destruct (A eq_refl) as [A1 [A2 A3]]. split; [split; [intros K; apply C in K; discriminate|discriminate]|].
    split; [intros _|intros X; destruct (E X) as [E1 [E2 [E3 [E4 E5]]]]; contradiction]. split; [exact A1|]. split; [|exact A3]. destruct out; [auto|exact I].
  - st s. subst. unfold Tok, alive, w_ok, w_holds in *. fields. destruct T as [C [A E]]. destruct (A eq_refl) as [A1 [[-> ->] A3]]. split; [split; [intros K; apply C in K; discriminate|discriminate]|].
    split; [intros _|intros X; destruct (E X) as [E1 [E2 [E3 [E4 E5]]]]; contradiction]. split; [unfold one in *; cbn in *; destruct canW, canR, (p_holds pc); cbn in *; lia|]. split; [exact I|exact A3].
  - st s. subst. unfold Tok, alive, w_ok, w_holds in *. fields. destruct T as [C [A E]]. destruct (A eq_refl) as [A1 [A2 A3]]. split; [split; [intros K; apply C in K; discriminate|discriminate]|].
    split; [intros _|intros X; destruct (E X) as [E1 [E2 [E3 [E4 E5]]]]; contradiction]. split; [exact A1|]. split; [|exact A3]. destruct out; [contradiction|exact I].
  - st s. subst. unfold Tok, alive, w_ok, w_holds in *. fields. destruct T as [C [A E]]. destruct (A eq_refl) as [A1 [A2 A3]]. split; [split; [intros K; apply C in K; discriminate|discriminate]|]. destruct A2 as [-> ->]. cbn [orb] in A1.
    specialize (A3 eq_refl). split; [intros _; auto|intros _]. split; [destruct canW; [exfalso; unfold one in A1; destruct (p_holds pc), canR; discriminate|reflexivity]|]. split; [reflexivity|]. split; [reflexivity|]. split; [exact I|].
    destruct pc; try exact I; discriminate.
Qed.
Lemma Tok_reachable z prog s : reachable z prog s -> Tok s.
Proof. induction 1; [apply Tok_init|eapply Tok_step; eassumption]. Qed.

(** ** Where the bytes are *)
Lemma accepted_snoc l a : accepted (l ++ [a]) = accepted l ++ match a with Accepted d => [d] | _ => [] end.
Proof. unfold accepted. rewrite flat_map_app. cbn. rewrite app_nil_r. reflexivity. Qed.
Lemma concat_accepted_snoc l a : concat (accepted (l ++ [a])) = concat (accepted l) ++ match a with Accepted d => d | _ => [] end.
Proof. rewrite accepted_snoc, concat_app. destruct a; cbn; rewrite ?app_nil_r; reflexivity. Qed.
Lemma taken_snoc l x : flat_map bytes_in (l ++ [x]) = flat_map bytes_in l ++ bytes_in x.
Proof. rewrite flat_map_app. cbn. rewrite app_nil_r. reflexivity. Qed.
(** nothing is left over *)
Definition emptied (s : state) : bool :=
  s_canWrite s || s_done s || match s_prod s with WStore _ | ADone | AClear | AUnlock => true | _ => false end || match s_work s with Release _ _ => true | _ => false end.
Definition Data (s : state) : Prop :=
  (alive s = true -> concat (accepted (s_log s)) = flat_map bytes_in (s_sent s) ++ s_data s /\ (emptied s = true -> s_data s = [])) /\
  prefix (flat_map bytes_in (s_sent s)) (concat (accepted (s_log s))) /\
  (s_eof s = true -> concat (accepted (s_log s)) = flat_map bytes_in (s_sent s)).
Lemma prefix_app a b c : prefix a b -> prefix a (b ++ c).
Proof. intros [r ->]. exists (r ++ c). rewrite app_assoc. reflexivity. Qed.
Lemma produce_bytes z s n s' out : produce z s n = (s', out) -> exists x, s_sent s' = s_sent s ++ [x] /\ bytes_in x ++ s_data s' = s_data s /\ bytes_out x = out /\ (s_data s = [] -> s_data s' = []) /\
  (if is_none (s_comp s) then is_raw x else is_deflate (s_done s) x).
Proof.
  unfold produce. destruct (is_none (s_comp s)).
  - intros H. injection H as <- <-. eexists. split; [reflexivity|]. cbn. split; [apply firstn_skipn|]. split; [reflexivity|]. split; [intros ->; apply skipn_nil|exact I].
  - destruct (z _ _) as [k o]. intros H. injection H as <- <-. eexists. split; [reflexivity|]. cbn. split; [apply firstn_skipn|]. split; [reflexivity|]. split; [intros ->; apply skipn_nil|reflexivity].
Qed.
Ltac orbs := rewrite ?orb_true_r; cbn [orb]; rewrite ?orb_true_r; reflexivity.
Lemma Data_step z l s s' : Tok s -> Data s -> step z l s s' -> Data s'.
Proof.
  intros T D H. destruct H as [s d r Hp Hg|s r Hp Hg|s c r Hp Hg Hn|s c r Hp Hg Hn|s d Hp Hc|s d Hp Hc|s d Hp Hc|s d Hp Hc|s d Hp Hc|s d Hp|s Hp|s Hp|s Hp Hc|s Hp Hc|s Hp Hc|s Hp Hc|s Hp|s Hp|s Hp|s Hp Hc
    |s n Hw He Hn|s Hw|s Hw|s n Hw Hr|s n Hw Hr|s n Hw Hr|s n Hw|s n s' out Hw Hq|s n out Hw Hd|s n out Hw Hd He|s n out Hw Hd He|s n out Hw|s n Hw|s n out Hw Ho|s out Hw Ho|s Hw].
  28: { destruct (produce_bytes _ _ _ _ _ Hq) as [x [X1 [X2 [_ [X3 _]]]]]. rewrite (produce_eq _ _ _ _ _ Hq). unfold Tok, Data, alive, emptied, w_ok, w_holds in *. fields. rewrite Hw in *. fields.
    destruct T as [_ [A E]]. destruct (A eq_refl) as [A1 [A2 A3]]. destruct D as [D1 [D2 D3]]. destruct (D1 eq_refl) as [D4 D5]. rewrite X1, taken_snoc. split; [intros _; split|split].
    - rewrite <- app_assoc, X2. exact D4.
    - intros K. apply X3, D5, K.
    - rewrite D4. exists (s_data s'). rewrite <- app_assoc, X2. reflexivity.
    - intros K. destruct (E K) as [_ [_ [_ [E4 _]]]]. contradiction. }
  all: st s; subst; unfold Tok, Data, alive, emptied, w_ok, w_holds in *; fields; destruct D as [D1 [D2 D3]]; rewrite ?concat_accepted_snoc, ?app_nil_r in *.
  all: try (split; [exact D1|split; [exact D2|exact D3]]; fail).
  all: try (split; [intros X; destruct (D1 X) as [D4 D5]; split; [exact D4|intros K; apply D5; rewrite ?orb_true_r, ?orb_false_r in *; cbn [orb] in *; first [exact K|reflexivity]]|split; [exact D2|exact D3]]; fail).
  - destruct T as [_ [A E]]. split; [|split].
    + intros X. destruct (A X) as [A1 [_ A3]]. destruct (D1 X) as [D4 D5]. rewrite D5 in D4 by orbs. rewrite app_nil_r in D4. split; [rewrite D4; reflexivity|].
      unfold one in A1. cbn [p_holds Nat.b2n] in A1. destruct canW; [exfalso; cbn in A1; lia|]. destruct dn; [specialize (A3 eq_refl); discriminate|]. destruct wk; try discriminate. rewrite orb_true_r in A1. cbn in A1. lia.
    + apply prefix_app, D2.
    + intros X. destruct (E X) as [_ [_ [_ [_ []]]]].
  - destruct T as [C _]. assert (wk = Dead) by (apply C; reflexivity). subst wk. split; [discriminate|split; assumption].
  - split; [|split; assumption]. intros X. destruct (D1 X) as [D4 D5]. rewrite D5 in D4 by orbs. rewrite app_nil_r in D4. split; [exact D4|reflexivity].
  - split; [discriminate|]. split; assumption.
  - split; [|split; assumption]. intros _. destruct (D1 eq_refl) as [D4 D5]. split; [exact D4|reflexivity].
  - destruct (D1 eq_refl) as [D4 D5]. destruct T as [_ [A E]]. destruct (A eq_refl) as [A1 [[_ ->] A3]]. rewrite D5 in D4 by orbs. rewrite app_nil_r in D4.
    split; [intros _; split; [rewrite D5, app_nil_r by orbs; exact D4|intros _; apply D5; orbs]|]. split; [exact D2|intros _; exact D4].
Qed.
Lemma Data_reachable z prog s : reachable z prog s -> Data s.
Proof.
  induction 1; [|eapply Data_step; [eapply Tok_reachable|..]; eassumption]. unfold Data, init, alive, emptied. fields. cbn. split; [auto|]. split; [exists []; reflexivity|discriminate].
Qed.

(** ** What was sent how *)
Definition raw_taken (l : list sent) : list byte := flat_map (fun x => match x with Raw o => o | _ => [] end) l.
Definition def_taken (l : list sent) : list byte := flat_map (fun x => match x with Deflated c _ _ => c | _ => [] end) l.
Definition has_def (l : list sent) : bool := existsb (fun x => match x with Deflated _ _ _ => true | _ => false end) l.
Definition has_fin (l : list sent) : bool := existsb (fun x => match x with Deflated _ f _ => f | _ => false end) l.
Lemma raw_taken_snoc l x : raw_taken (l ++ [x]) = raw_taken l ++ match x with Raw o => o | _ => [] end.
Proof. unfold raw_taken. rewrite flat_map_app. cbn. rewrite app_nil_r. reflexivity. Qed.
Lemma def_taken_snoc l x : def_taken (l ++ [x]) = def_taken l ++ match x with Deflated c _ _ => c | _ => [] end.
Proof. unfold def_taken. rewrite flat_map_app. cbn. rewrite app_nil_r. reflexivity. Qed.
Lemma has_def_snoc l x : has_def (l ++ [x]) = has_def l || match x with Deflated _ _ _ => true | _ => false end.
Proof. unfold has_def. rewrite existsb_app. cbn. rewrite orb_false_r. reflexivity. Qed.
Lemma has_fin_snoc l x : has_fin (l ++ [x]) = has_fin l || match x with Deflated _ f _ => f | _ => false end.
Proof. unfold has_fin. rewrite existsb_app. cbn. rewrite orb_false_r. reflexivity. Qed.
Lemma compressing_snoc l a : compressing (l ++ [a]) = compressing l || match a with Compressing (Deflate | Gzip) => true | _ => false end.
Proof. unfold compressing. rewrite existsb_app. cbn. rewrite orb_false_r. reflexivity. Qed.
Lemma header_snoc l a : header (l ++ [a]) = header l ++ (if compressing l then [] else match a with Accepted d => d | _ => [] end).
Proof.
  induction l as [|b l IH]; [destruct a as [d|d|c|]; cbn; rewrite ?app_nil_r; try reflexivity; destruct c; reflexivity|].
  destruct b as [d|d|c|]; cbn [app header compressing existsb orb]; try exact IH.
  - rewrite IH, app_assoc. reflexivity.
  - destruct c; cbn [orb]; [exact IH|reflexivity|reflexivity].
Qed.
Lemma document_snoc l a : document (l ++ [a]) = document l ++ (if compressing l then match a with Accepted d => d | _ => [] end else []).
Proof.
  induction l as [|b l IH]; [destruct a as [d|d|c|]; cbn; try reflexivity; destruct c; reflexivity|].
  destruct b as [d|d|c|]; cbn [app document compressing existsb orb]; try exact IH.
  destruct c; cbn [orb]; [exact IH|..]; rewrite concat_accepted_snoc; reflexivity.
Qed.
Lemma header_document l : header l ++ document l = concat (accepted l).
Proof. induction l as [|[d|d|c|] l IH]; try exact IH; [reflexivity|..]; [cbn; rewrite <- app_assoc; rewrite IH; reflexivity|]. destruct c; [exact IH|reflexivity|reflexivity]. Qed.
Lemma no_document l : compressing l = false -> document l = [].
Proof. induction l as [|[d|d|c|] l IH]; try exact IH; [reflexivity|]. destruct c; [exact IH|discriminate|discriminate]. Qed.
(** first plain bytes, then compressed ones, then flushing *)
Definition Ord (s : state) : Prop := exists R F T, s_sent s = R ++ F ++ T /\ Forall is_raw R /\ Forall (is_deflate false) F /\ Forall (fun x => is_deflate true x /\ bytes_in x = []) T /\
  (is_none (s_comp s) = true -> F = [] /\ T = []) /\ (s_done s = false -> T = []) /\ (is_none (s_comp s) = false -> is_none (s_next s) = false).
Lemma Ord_step z l s s' : Tok s -> Data s -> Ord s -> step z l s s' -> Ord s'.
Proof.
  intros T D O H. destruct H as [s d r Hp Hg|s r Hp Hg|s c r Hp Hg Hn|s c r Hp Hg Hn|s d Hp Hc|s d Hp Hc|s d Hp Hc|s d Hp Hc|s d Hp Hc|s d Hp|s Hp|s Hp|s Hp Hc|s Hp Hc|s Hp Hc|s Hp Hc|s Hp|s Hp|s Hp|s Hp Hc
    |s n Hw He Hn|s Hw|s Hw|s n Hw Hr|s n Hw Hr|s n Hw Hr|s n Hw|s n s' out Hw Hq|s n out Hw Hd|s n out Hw Hd He|s n out Hw Hd He|s n out Hw|s n Hw|s n out Hw Ho|s out Hw Ho|s Hw].
  28: { destruct (produce_bytes _ _ _ _ _ Hq) as [x [X1 [X2 [_ [X3 X4]]]]]. rewrite (produce_eq _ _ _ _ _ Hq). destruct O as [R [F [T' [O1 [O2 [O3 [O4 [O5 [O6 O7]]]]]]]]]. unfold Ord, Data, emptied in *. fields. rewrite X1, O1.
    destruct D as [D1 _]. destruct (D1 ltac:(unfold alive; rewrite Hw; reflexivity)) as [_ D5]. destruct (is_none (s_comp s)) eqn:N.
    - destruct (O5 eq_refl) as [-> ->]. exists (R ++ [x]), [], []. rewrite !app_nil_r. split; [reflexivity|]. split; [apply Forall_app; split; [exact O2|constructor; [exact X4|constructor]]|]. split; [constructor|]. split; [constructor|]. auto.
    - destruct (s_done s) eqn:Dn.
      + exists R, F, (T' ++ [x]). rewrite !app_assoc. split; [reflexivity|]. split; [exact O2|]. split; [exact O3|]. split; [apply Forall_app; split; [exact O4|constructor; [split; [exact X4|]|constructor]]|].
        * rewrite D5 in X2 by orbs. apply app_eq_nil in X2. apply X2.
        * split; [discriminate|]. split; [discriminate|]. exact O7.
      + rewrite (O6 eq_refl). exists R, (F ++ [x]), []. rewrite !app_nil_r, app_assoc. split; [reflexivity|]. split; [exact O2|]. split; [apply Forall_app; split; [exact O3|constructor; [exact X4|constructor]]|]. split; [constructor|]. split; [discriminate|]. split; [auto|exact O7]. }
  all: destruct O as [R [F [T' [O1 [O2 [O3 [O4 [O5 [O6 O7]]]]]]]]]; exists R, F, T'; st s; subst; fields; try (split; [reflexivity|]; split; [exact O2|]; split; [exact O3|]; split; [exact O4|]; split; [exact O5|]; split; [exact O6|]; exact O7).
  - split; [reflexivity|]. split; [exact O2|]. split; [exact O3|]. split; [exact O4|]. split; [exact O5|]. split; [exact O6|]. intros K. apply O7 in K. discriminate.
  - split; [reflexivity|]. split; [exact O2|]. split; [exact O3|]. split; [exact O4|]. split; [|split; [exact O6|auto]]. intros K. apply O5. destruct (is_none comp) eqn:N; [reflexivity|]. rewrite O7 in K by reflexivity. discriminate.
  - split; [reflexivity|]. split; [exact O2|]. split; [exact O3|]. split; [exact O4|]. split; [exact O5|]. split; [discriminate|exact O7].
Qed.
Lemma Ord_reachable z prog s : reachable z prog s -> Ord s.
Proof.
  induction 1; [|eapply Ord_step; [eapply Tok_reachable|eapply Data_reachable|..]; eassumption]. exists [], [], []. unfold init. fields. cbn. split; [reflexivity|]. split; [constructor|]. split; [constructor|]. split; [constructor|]. auto.
Qed.
Lemma taken_split R F T : Forall is_raw R -> Forall (is_deflate false) F -> Forall (fun x => is_deflate true x /\ bytes_in x = []) T ->
  raw_taken (R ++ F ++ T) = flat_map bytes_in R /\ def_taken (R ++ F ++ T) = flat_map bytes_in F /\ (has_def (R ++ F ++ T) = false -> F = [] /\ T = []) /\ (has_fin (R ++ F ++ T) = false -> T = []) /\ flat_map bytes_in (R ++ F ++ T) = flat_map bytes_in R ++ flat_map bytes_in F.
Proof.
  intros HR HF HT. unfold raw_taken, def_taken, has_def, has_fin. rewrite !flat_map_app, !existsb_app.
  assert (A1 : flat_map (fun x => match x with Raw o => o | _ => [] end) R = flat_map bytes_in R /\ flat_map (fun x => match x with Deflated c _ _ => c | _ => [] end) R = []).
  { clear - HR. induction R as [|[o|c f o] R IH]; [split; reflexivity|..]; inversion HR; subst; [|contradiction]. destruct (IH H2) as [I1 I2]. cbn. rewrite I1, I2. split; reflexivity. }
  assert (A2 : flat_map (fun x => match x with Raw o => o | _ => [] end) F = [] /\ flat_map (fun x => match x with Deflated c _ _ => c | _ => [] end) F = flat_map bytes_in F).
  { clear - HF. induction F as [|[o|c f o] F IH]; [split; reflexivity|..]; inversion HF; subst; [contradiction|]. destruct (IH H2) as [I1 I2]. cbn. rewrite I1, I2. split; reflexivity. }
  assert (A3 : flat_map (fun x => match x with Raw o => o | _ => [] end) T = [] /\ flat_map (fun x => match x with Deflated c _ _ => c | _ => [] end) T = [] /\ flat_map bytes_in T = []).
  { clear - HT. induction T as [|[o|c f o] T IH]; [repeat split; reflexivity|..]; inversion HT; subst; [destruct H1; contradiction|]. destruct H1 as [_ E]. cbn in E. subst c. destruct (IH H2) as [I1 [I2 I3]]. cbn. rewrite I1, I2, I3. repeat split. }
  destruct A1 as [A1 A1'], A2 as [A2 A2'], A3 as [A3 [A3' A3'']]. rewrite A1, A1', A2, A2', A3, A3', A3''. cbn. rewrite !app_nil_r. split; [reflexivity|]. split; [reflexivity|]. split; [|split; [|reflexivity]].
  - intros H. apply orb_false_elim in H. destruct H as [_ H]. apply orb_false_elim in H. destruct H as [H1 H2]. split.
    + destruct F as [|[o|c f o] F]; [reflexivity|..]; inversion HF; subst; [contradiction|discriminate].
    + destruct T as [|[o|c f o] T]; [reflexivity|..]; inversion HT; subst; [match goal with K : is_deflate _ _ /\ _ |- _ => destruct K; contradiction end|discriminate].
  - intros H. apply orb_false_elim in H. destruct H as [_ H]. apply orb_false_elim in H. destruct H as [H1 H2].
    destruct T as [|[o|c f o] T]; [reflexivity|..]; inversion HT; subst; [match goal with K : is_deflate _ _ /\ _ |- _ => destruct K; contradiction end|]. match goal with K : is_deflate _ _ /\ _ |- _ => destruct K as [K _]; cbn in K; subst f end. discriminate.
Qed.

Definition frozen (s : state) : Prop := s_canWrite s = false /\ (alive s = true -> s_done s = true) /\ match s_prod s with WStore _ | WComp | WUnlock => False | _ => True end.
Definition phase (s : state) : Prop :=
  if is_none (s_comp s) then
    match s_prod s with
    | WComp => if compressing (s_log s) then raw_taken (s_sent s) = header (s_log s) else document (s_log s) = []
    | _ => document (s_log s) = []
    end
  else raw_taken (s_sent s) = header (s_log s).
Definition Sent (s : state) : Prop :=
  is_none (s_next s) = negb (compressing (s_log s)) /\
  (has_def (s_sent s) = true -> compressing (s_log s) = true /\ raw_taken (s_sent s) = header (s_log s)) /\
  prefix (raw_taken (s_sent s)) (header (s_log s)) /\ prefix (def_taken (s_sent s)) (document (s_log s)) /\
  (has_fin (s_sent s) = true -> def_taken (s_sent s) = document (s_log s) /\ frozen s) /\
  (alive s = true -> phase s).
(** the bytes on their way, given the order *)
Lemma split_taken s : Ord s -> flat_map bytes_in (s_sent s) = raw_taken (s_sent s) ++ def_taken (s_sent s).
Proof. intros [R [F [T [O1 [O2 [O3 [O4 _]]]]]]]. destruct (taken_split R F T O2 O3 O4) as [E1 [E2 [_ [_ E3]]]]. rewrite O1, E1, E2, E3. reflexivity. Qed.
Lemma raw_only s : Ord s -> is_none (s_comp s) = true -> def_taken (s_sent s) = [] /\ has_def (s_sent s) = false /\ has_fin (s_sent s) = false.
Proof.
  intros [R [F [T [O1 [O2 [O3 [O4 [O5 _]]]]]]]] N. destruct (O5 N) as [-> ->]. destruct (taken_split R [] [] O2 O3 O4) as [E1 [E2 _]]. rewrite O1, E2. rewrite !app_nil_r. split; [reflexivity|]. clear - O2. unfold has_def, has_fin.
  induction R as [|[o|c f o] R IH]; [split; reflexivity|..]; inversion O2; subst; [apply IH; assumption|contradiction].
Qed.
Lemma frozen_step z l s s' : Tok s -> frozen s -> step z l s s' -> frozen s'.
Proof.
  intros T F H. destruct H as [s d r Hp Hg|s r Hp Hg|s c r Hp Hg Hn|s c r Hp Hg Hn|s d Hp Hc|s d Hp Hc|s d Hp Hc|s d Hp Hc|s d Hp Hc|s d Hp|s Hp|s Hp|s Hp Hc|s Hp Hc|s Hp Hc|s Hp Hc|s Hp|s Hp|s Hp|s Hp Hc
    |s n Hw He Hn|s Hw|s Hw|s n Hw Hr|s n Hw Hr|s n Hw Hr|s n Hw|s n s' out Hw Hq|s n out Hw Hd|s n out Hw Hd He|s n out Hw Hd He|s n out Hw|s n Hw|s n out Hw Ho|s out Hw Ho|s Hw].
  28: rewrite (produce_eq _ _ _ _ _ Hq).
  all: st s; subst; unfold frozen, Tok, alive, w_ok in *; fields; destruct F as [F1 [F2 F3]]; subst; try discriminate; try contradiction.
  all: try (split; [reflexivity|]; split; [first [exact F2|discriminate|intros _; reflexivity|intros _; apply F2; reflexivity]|first [exact F3|exact I]]; fail).
  destruct T as [_ [A _]]. destruct (A eq_refl) as [_ [[_ K] _]]. specialize (F2 eq_refl). congruence.
Qed.
Lemma Sent_produce z s n s' out : Tok s -> Data s -> Ord s -> Sent s -> s_work s = Produce n -> produce z s n = (s', out) -> Sent (set_work s' (Check n out)).
Proof.
  intros T D O S Hw Hq. pose proof (split_taken _ O) as ST. destruct (produce_bytes _ _ _ _ _ Hq) as [x [X1 [X2 [_ [X3 X4]]]]]. rewrite (produce_eq _ _ _ _ _ Hq).
  assert (AL : alive s = true) by (unfold alive; rewrite Hw; reflexivity).
  destruct T as [_ [A _]]. destruct (A AL) as [A1 [A2 A3]]. destruct D as [D1 _]. destruct (D1 AL) as [D4 D5]. destruct S as [S1 [S2 [S3 [S4 [S5 S6]]]]]. specialize (S6 AL).
  unfold w_ok in A2. rewrite Hw in A2. unfold w_holds in A1. rewrite A2 in A1. cbn [orb] in A1.
  assert (NP : p_holds (s_prod s) = false /\ s_canWrite s = false) by (unfold one in A1; destruct (p_holds (s_prod s)), (s_canWrite s), (s_canRead s); cbn in A1; try lia; auto).
  destruct NP as [NP NW]. unfold phase in S6. assert (NC : forall A (u v : A), match s_prod s with WComp => u | _ => v end = v) by (intros; destruct (s_prod s); try reflexivity; discriminate). rewrite NC in S6.
  rewrite <- header_document in D4. rewrite ST in D4. unfold Sent, phase, frozen, alive. fields. rewrite NC, X1, raw_taken_snoc, def_taken_snoc, has_def_snoc, has_fin_snoc.
  destruct (is_none (s_comp s)) eqn:N.
  - destruct (raw_only _ O N) as [E1 [E2 E3]]. rewrite E1, E2, E3 in *. rewrite S6 in D4. destruct x as [o|]; [|contradiction]. cbn [bytes_in orb] in *. rewrite !app_nil_r in *. rewrite S6 in *.
    split; [exact S1|]. split; [discriminate|]. split; [exists (s_data s'); rewrite D4, <- X2, app_assoc; reflexivity|]. split; [exact S4|]. split; [discriminate|reflexivity].
  - destruct x as [|c f o]; [contradiction|]. cbn [bytes_in is_deflate] in *. rewrite S6 in *. rewrite <- app_assoc in D4. apply app_inv_head in D4. rewrite !app_nil_r, !orb_true_r in *.
    assert (CM : compressing (s_log s) = true). { destruct O as [R [F [T' [_ [_ [_ [_ [_ [_ O7]]]]]]]]]. specialize (O7 N). rewrite O7 in S1. destruct (compressing (s_log s)); [reflexivity|discriminate]. }
    split; [exact S1|]. split; [intros _; auto|]. split; [exists []; rewrite app_nil_r; reflexivity|]. split; [exists (s_data s'); rewrite D4, <- X2, app_assoc; reflexivity|]. split; [|reflexivity].
    intros K. assert (FI : f = true \/ has_fin (s_sent s) = true) by (destruct f; auto; rewrite orb_false_r in K; auto).
    assert (DN : s_done s = true) by (destruct FI as [-> | FI]; [symmetry; exact X4|destruct (S5 FI) as [_ [_ [F2 _]]]; apply F2, AL]).
    assert (DE : s_data s = []) by (apply D5; unfold emptied; rewrite DN; orbs). rewrite DE in *. rewrite app_nil_r in D4. apply app_eq_nil in X2. destruct X2 as [-> X2]. rewrite app_nil_r. split; [auto|]. split; [exact NW|]. split; [intros _; exact DN|].
    specialize (A3 DN). destruct (s_prod s); try exact I; discriminate.
Qed.
Lemma Sent_step z l s s' : Tok s -> Data s -> Ord s -> Sent s -> step z l s s' -> Sent s'.
Proof.
  intros T D O S H. pose proof (fun F => frozen_step z l s s' T F H) as FS. destruct H as [s d r Hp Hg|s r Hp Hg|s c r Hp Hg Hn|s c r Hp Hg Hn|s d Hp Hc|s d Hp Hc|s d Hp Hc|s d Hp Hc|s d Hp Hc|s d Hp|s Hp|s Hp|s Hp Hc|s Hp Hc|s Hp Hc|s Hp Hc|s Hp|s Hp|s Hp|s Hp Hc
    |s n Hw He Hn|s Hw|s Hw|s n Hw Hr|s n Hw Hr|s n Hw Hr|s n Hw|s n s' out Hw Hq|s n out Hw Hd|s n out Hw Hd He|s n out Hw Hd He|s n out Hw|s n Hw|s n out Hw Ho|s out Hw Ho|s Hw].
  28: eapply Sent_produce; eassumption.
  (* setCompression *)
  3: { destruct S as [S1 [S2 [S3 [S4 [S5 S6]]]]]. rewrite Hn in S1. assert (CF : compressing (s_log s) = false) by (destruct (compressing (s_log s)); [discriminate|reflexivity]). unfold Sent, phase, alive in *. fields. rewrite header_snoc, document_snoc, compressing_snoc, CF, !app_nil_r. cbn [orb]. rewrite Hp in *.
    split; [destruct c; reflexivity|]. split; [intros K; destruct (S2 K); congruence|]. split; [exact S3|]. split; [exact S4|]. split; [intros K; destruct (S5 K) as [K1 K2]; split; [exact K1|apply FS, K2]|exact S6]. }
  (* write stores its data *)
  9: { pose proof (split_taken _ O) as ST. destruct S as [S1 [S2 [S3 [S4 [S5 S6]]]]]. destruct D as [D1 _]. unfold Sent, phase in *. fields. rewrite header_snoc, document_snoc, compressing_snoc, orb_false_r. rewrite Hp in *.
    assert (HS : compressing (s_log s) = true -> header (s_log s) ++ (if compressing (s_log s) then [] else d) = header (s_log s)) by (intros ->; apply app_nil_r).
    split; [exact S1|]. split; [intros K; destruct (S2 K) as [K1 K2]; split; [exact K1|rewrite HS by exact K1; exact K2]|]. split; [apply prefix_app, S3|]. split; [apply prefix_app, S4|].
    split; [intros K; destruct (S5 K) as [_ [_ [_ K2]]]; rewrite Hp in K2; contradiction|]. intros X. change (alive s = true) in X. specialize (S6 X). destruct (D1 X) as [D4 D5]. destruct (is_none (s_comp s)) eqn:N.
    - destruct (raw_only _ O N) as [E1 _]. rewrite E1, app_nil_r in ST. destruct (compressing (s_log s)) eqn:CM; [|rewrite S6; reflexivity]. rewrite <- header_document, S6, D5, !app_nil_r in D4 by (unfold emptied; rewrite Hp; orbs). rewrite app_nil_r. congruence.
    - destruct O as [_ [_ [_ [_ [_ [_ [_ [_ [_ O7]]]]]]]]]. specialize (O7 N). rewrite HS; [exact S6|]. rewrite O7 in S1. destruct (compressing (s_log s)); [reflexivity|discriminate]. }
  (* _compression = _nextCompression *)
  9: { destruct S as [S1 [S2 [S3 [S4 [S5 S6]]]]]. unfold Sent, phase in *. fields. rewrite Hp in *. split; [exact S1|]. split; [exact S2|]. split; [exact S3|]. split; [exact S4|]. split; [intros K; destruct (S5 K) as [K1 K2]; split; [exact K1|apply FS, K2]|].
    intros X. change (alive s = true) in X. specialize (S6 X). destruct O as [_ [_ [_ [_ [_ [_ [_ [_ [_ O7]]]]]]]]]. destruct (is_none (s_next s)) eqn:N.
    - apply no_document. destruct (compressing (s_log s)); [discriminate|reflexivity].
    - assert (CM : compressing (s_log s) = true) by (destruct (compressing (s_log s)); [reflexivity|discriminate]). rewrite CM in S6. destruct (is_none (s_comp s)); exact S6. }
  all: destruct S as [S1 [S2 [S3 [S4 [S5 S6]]]]]; unfold Sent in *; fields; rewrite ?header_snoc, ?document_snoc, ?compressing_snoc, ?orb_false_r; try (replace (if compressing (s_log s) then [] else []) with (@nil byte) by (destruct (compressing (s_log s)); reflexivity)); rewrite ?app_nil_r.
  all: split; [exact S1|split; [exact S2|split; [exact S3|split; [exact S4|split; [intros K; destruct (S5 K) as [K1 K2]; split; [exact K1|apply FS, K2]|]]]]].
  all: intros X; try discriminate X; unfold phase, alive in *; fields; rewrite ?document_snoc, ?header_snoc, ?compressing_snoc, ?orb_false_r in *; try (replace (if compressing (s_log s) then [] else []) with (@nil byte) by (destruct (compressing (s_log s)); reflexivity)); rewrite ?app_nil_r in *.
  all: try match goal with H : s_prod _ = _ |- _ => rewrite H in S6 end; try match goal with H : s_work _ = _ |- _ => rewrite H in S6 end; try (apply S6; first [exact X|reflexivity]; fail).
Qed.
Lemma Sent_reachable z prog s : reachable z prog s -> Sent s.
Proof.
  induction 1; [|eapply Sent_step; [eapply Tok_reachable|eapply Data_reachable|eapply Ord_reachable|..]; eassumption]. unfold Sent, phase, init. fields. cbn. split; [reflexivity|]. split; [discriminate|]. split; [exists []; reflexivity|]. split; [exists []; reflexivity|]. split; [discriminate|reflexivity].
Qed.
(** what is about to be returned was sent last *)
Definition last_sent (s : state) (out : list byte) (fin : bool) : Prop := exists pre x, s_sent s = pre ++ [x] /\ bytes_out x = out /\ (is_none (s_comp s) = false -> is_deflate fin x).
Definition Last (s : state) : Prop :=
  match s_work s with Check _ out => last_sent s out (s_done s) | Return [] => last_sent s [] true | _ => True end /\ (s_eof s = true -> last_sent s [] true).
Lemma Last_step z l s s' : Tok s -> Last s -> step z l s s' -> Last s'.
Proof.
  intros T L H. destruct H as [s d r Hp Hg|s r Hp Hg|s c r Hp Hg Hn|s c r Hp Hg Hn|s d Hp Hc|s d Hp Hc|s d Hp Hc|s d Hp Hc|s d Hp Hc|s d Hp|s Hp|s Hp|s Hp Hc|s Hp Hc|s Hp Hc|s Hp Hc|s Hp|s Hp|s Hp|s Hp Hc
    |s n Hw He Hn|s Hw|s Hw|s n Hw Hr|s n Hw Hr|s n Hw Hr|s n Hw|s n s' out Hw Hq|s n out Hw Hd|s n out Hw Hd He|s n out Hw Hd He|s n out Hw|s n Hw|s n out Hw Ho|s out Hw Ho|s Hw].
  28: { destruct (produce_bytes _ _ _ _ _ Hq) as [x [X1 [X2 [X0 [X3 X4]]]]]. rewrite (produce_eq _ _ _ _ _ Hq). destruct L as [_ L]. destruct T as [_ [_ E]]. unfold Last, last_sent in *. fields. split.
    - exists (s_sent s), x. split; [exact X1|]. split; [exact X0|]. intros K. rewrite K in X4. exact X4.
    - intros X. destruct (E X) as [_ [_ [_ [K _]]]]. rewrite Hw in K. contradiction. }
  all: unfold Last, last_sent in *; fields; try (rewrite Hw in L); try exact L; try (destruct L as [L1 L2]; split; [exact I|exact L2]).
  - (* _compression changes *) destruct T as [_ [A E]]. destruct L as [L1 L2]. unfold alive, w_ok, w_holds, one in A. rewrite Hp in A. cbn [p_holds Nat.b2n] in A. split.
    + destruct (s_work s) eqn:W; try exact I.
      * destruct (A eq_refl) as [A1 [A2 _]]. rewrite A2 in A1. cbn in A1. lia.
      * destruct out; [|exact I]. destruct (A eq_refl) as [A1 [[A2 _] _]]. rewrite A2 in A1. cbn in A1. lia.
    + intros X. destruct (E X) as [_ [_ [_ [_ K]]]]. rewrite Hp in K. contradiction.
  - (* _done changes *) destruct T as [_ [A E]]. destruct L as [L1 L2]. unfold alive, w_ok, w_holds, one in A. rewrite Hp in A. cbn [p_holds Nat.b2n] in A. split; [|exact L2].
    destruct (s_work s) eqn:W; try exact I; try exact L1. destruct (A eq_refl) as [A1 [A2 _]]. rewrite A2 in A1. cbn in A1. lia.
  - destruct L as [L1 L2]. split; [|exact L2]. destruct out; [|exact I]. rewrite Hd in L1. exact L1.
  - destruct L as [L1 L2]. split; [|exact L2]. destruct out; [contradiction|exact I].
  - destruct L as [L1 L2]. split; [exact I|]. intros _. exact L1.
Qed.
Lemma Last_reachable z prog s : reachable z prog s -> Last s.
Proof. induction 1; [split; [exact I|discriminate]|eapply Last_step; [eapply Tok_reachable|..]; eassumption]. Qed.

(** ** The program *)
Definition op_of (a : act) : op := match a with Accepted d | Refused d => Write d | Compressing c => SetCompression c | Awaited => Await end.
Definition pending (pc : prod_pc) : list op := match pc with WTry d | WCheck d | WStore d => [Write d] | ACheck | ATry | ADone => [Await] | _ => [] end.
Definition throws (ops r : list op) : Prop := match r with SetCompression _ :: _ => compresses ops = true | _ => False end.
Definition Prog (prog : list op) (s : state) : Prop :=
  (map op_of (s_log s) ++ pending (s_prod s) ++ s_prog s = prog \/
   exists ops t r, prog = ops ++ r /\ map op_of (s_log s) = ops ++ t /\ t ++ pending (s_prod s) ++ s_prog s = [Await] /\ (s_complete s = true \/ throws ops r)) /\
  (forall d, In (Refused d) (s_log s) -> s_complete s = true) /\ (In Awaited (s_log s) -> s_done s = true) /\ (alive s = true -> s_done s = true -> frozen s).
Lemma compresses_log l : compresses (map op_of l) = compressing l.
Proof. induction l as [|[d|d|c|] l IH]; [reflexivity|exact IH|exact IH| |exact IH]. unfold compresses, compressing in *. cbn [map op_of existsb]. rewrite IH. reflexivity. Qed.
Lemma one_await t (o : op) p : t ++ o :: p = [Await] -> t = [] /\ o = Await /\ p = [].
Proof. destruct t as [|x t]; cbn; intros H; [injection H as -> ->; auto|]. injection H as _ H. destruct t; discriminate. Qed.
Lemma Prog_step z l prog s s' : Tok s -> Sent s -> Prog prog s -> step z l s s' -> Prog prog s'.
Proof.
  intros T S P H. destruct P as [P1 [P2 [P3 P4]]].
  assert (FS : alive s = true -> s_done s = true -> frozen s') by (intros K1 K2; exact (frozen_step z l s s' T (P4 K1 K2) H)).
  destruct H as [s d r Hp Hg|s r Hp Hg|s c r Hp Hg Hn|s c r Hp Hg Hn|s d Hp Hc|s d Hp Hc|s d Hp Hc|s d Hp Hc|s d Hp Hc|s d Hp|s Hp|s Hp|s Hp Hc|s Hp Hc|s Hp Hc|s Hp Hc|s Hp|s Hp|s Hp|s Hp Hc
    |s n Hw He Hn|s Hw|s Hw|s n Hw Hr|s n Hw Hr|s n Hw Hr|s n Hw|s n s' out Hw Hq|s n out Hw Hd|s n out Hw Hd He|s n out Hw Hd He|s n out Hw|s n Hw|s n out Hw Ho|s out Hw Ho|s Hw].
  28: revert FS; rewrite (produce_eq _ _ _ _ _ Hq); intros FS.
  (* the exception *)
  4: { unfold Prog in *. fields. rewrite Hp, Hg in P1. cbn [pending app] in P1. split; [right|split; [exact P2|split; [exact P3|exact FS]]]. destruct P1 as [P1|[ops [t [r0 [_ [_ [K _]]]]]]]; [|apply one_await in K; destruct K as [_ [K _]]; discriminate].
    exists (map op_of (s_log s)), [], (SetCompression c :: r). split; [symmetry; exact P1|]. split; [rewrite app_nil_r; reflexivity|]. split; [reflexivity|]. right. cbn. rewrite compresses_log. destruct S as [S1 _]. destruct (compressing (s_log s)); [reflexivity|]. destruct (s_next s); try discriminate. contradiction. }
  (* the caller gives up *)
  8: { unfold Prog in *. fields. rewrite Hp in P1. cbn [pending app] in P1. rewrite map_app. cbn [map op_of]. split; [right|split].
    - destruct P1 as [P1|[ops [t [r0 [_ [_ [K _]]]]]]]; [|apply one_await in K; destruct K as [_ [K _]]; discriminate]. exists (map op_of (s_log s) ++ [Write d]), [], (s_prog s). rewrite <- app_assoc. split; [symmetry; exact P1|]. split; [rewrite app_nil_r; reflexivity|]. split; [reflexivity|left; exact Hc].
    - intros d0 _. exact Hc.
    - split; [|exact FS]. intros K. apply in_app_or in K. destruct K as [K|[K|[]]]; [auto|discriminate]. }
  7: { unfold Prog in *. fields. rewrite Hp in P1. cbn [pending app] in P1. rewrite map_app. cbn [map op_of pending app]. split; [|split].
    - destruct P1 as [P1|[ops [t [r0 [_ [_ [K _]]]]]]]; [left|apply one_await in K; destruct K as [_ [K _]]; discriminate]. rewrite <- app_assoc. exact P1.
    - intros d0 _. exact Hc.
    - split; [|exact FS]. intros K. apply in_app_or in K. destruct K as [K|[K|[]]]; [auto|discriminate]. }
  (* the steps that log *)
  3: { unfold Prog in *. fields. rewrite Hp, Hg in P1. cbn [pending app] in P1. rewrite map_app. cbn [map op_of pending app]. rewrite ?Hp. cbn [pending app]. split; [|split].
    - destruct P1 as [P1|[ops [t [r0 [_ [_ [K _]]]]]]]; [left|apply one_await in K; destruct K as [_ [K _]]; discriminate]. rewrite <- app_assoc. exact P1.
    - intros d0 K. apply in_app_or in K. destruct K as [K|[K|[]]]; [eauto|discriminate].
    - split; [|exact FS]. intros K. apply in_app_or in K. destruct K as [K|[K|[]]]; [auto|discriminate]. }
  6: { unfold Prog in *. fields. rewrite Hp in P1. cbn [pending app] in P1. rewrite map_app. cbn [map op_of pending app]. split; [|split].
    - destruct P1 as [P1|[ops [t [r0 [_ [_ [K _]]]]]]]; [left|apply one_await in K; destruct K as [_ [K _]]; discriminate]. rewrite <- app_assoc. exact P1.
    - intros d0 K. apply in_app_or in K. destruct K as [K|[K|[]]]; [eauto|discriminate].
    - split; [|exact FS]. intros K. apply in_app_or in K. destruct K as [K|[K|[]]]; [auto|discriminate]. }
  12: { unfold Prog in *. fields. rewrite Hp in P1. cbn [pending app] in P1. rewrite map_app. cbn [map op_of pending app]. split; [|split].
    - destruct P1 as [P1|[ops [t [r0 [K0 [K1 [K K2]]]]]]]; [left; rewrite <- app_assoc; exact P1|right]. exists ops, (t ++ [Await]), r0. split; [exact K0|]. split; [rewrite K1, app_assoc; reflexivity|]. split; [rewrite <- app_assoc; exact K|exact K2].
    - intros d0 K. apply in_app_or in K. destruct K as [K|[K|[]]]; [eauto|discriminate].
    - split; [reflexivity|]. intros X _. destruct T as [_ [A _]]. unfold alive, one, frozen in *. fields. rewrite Hp in A. destruct (A X) as [A1 _]. cbn [p_holds Nat.b2n] in A1. split; [destruct (s_canWrite s); [exfalso; cbn in A1; lia|reflexivity]|]. split; [reflexivity|exact I]. }
  (* the others *)
  all: unfold Prog in *; fields.
  all: try (rewrite Hp in P1); try (rewrite Hg in P1); cbn [pending app] in *; try (split; [exact P1|split; [exact P2|split; [exact P3|exact FS]]]; fail).
  all: try (assert (AL : alive s = true) by (unfold alive; rewrite Hw; reflexivity); split; [exact P1|split; [exact P2|split; [exact P3|intros _ K2; exact (FS AL K2)]]]; fail).
  split; [|split; [reflexivity|split; [exact P3|discriminate]]]. destruct P1 as [P1|[ops [t [r0 [K0 [K1 [K K2]]]]]]]; [left; exact P1|right]. exists ops, t, r0. auto.
Qed.
Lemma Prog_reachable z prog s : reachable z prog s -> Prog prog s.
Proof.
  induction 1; [|eapply Prog_step; [eapply Tok_reachable|eapply Sent_reachable|..]; eassumption]. unfold Prog, init. fields. split; [left; reflexivity|]. split; [intros d []|]. split; [intros []|discriminate].
Qed.

(** what the log says about the program while no write was refused *)
Definition no_refusal (l : list act) : Prop := forall d, ~ In (Refused d) l.
Lemma no_refusal_cons a l : no_refusal (a :: l) -> no_refusal l.
Proof. intros H d K. apply (H d). right. exact K. Qed.
Lemma log_writes l : no_refusal l -> accepted l = writes (map op_of l).
Proof.
  induction l as [|a l IH]; intros H; [reflexivity|]. specialize (IH (no_refusal_cons _ _ H)). unfold accepted, writes in *. cbn [map flat_map]. rewrite IH. destruct a as [d|d|c|]; try reflexivity. exfalso. apply (H d). left. reflexivity.
Qed.
Lemma log_plain l : no_refusal l -> header l = plain (map op_of l) /\ document l = coded (map op_of l).
Proof.
  induction l as [|a l IH]; intros H; [split; reflexivity|]. pose proof (no_refusal_cons _ _ H) as H'. destruct (IH H') as [I1 I2]. destruct a as [d|d|c|]; cbn [map op_of header document plain coded].
  - rewrite I1. auto.
  - exfalso. apply (H d). left. reflexivity.
  - destruct c; [auto|..]; rewrite log_writes by exact H'; auto.
  - auto.
Qed.
Lemma writes_app a b : writes (a ++ b) = writes a ++ writes b.
Proof. apply flat_map_app. Qed.
Lemma compresses_app a b : compresses (a ++ b) = compresses a || compresses b.
Proof. apply existsb_app. Qed.
Lemma plain_app a b : plain (a ++ b) = plain a ++ (if compresses a then [] else plain b).
Proof.
  induction a as [|[d|c|] a IH]; cbn [app plain compresses existsb orb]; [reflexivity|..].
  - rewrite IH, app_assoc. reflexivity.
  - destruct c; cbn [orb]; [exact IH|reflexivity|reflexivity].
  - exact IH.
Qed.
Lemma coded_app a b : coded (a ++ b) = coded a ++ (if compresses a then concat (writes b) else coded b).
Proof.
  induction a as [|[d|c|] a IH]; cbn [app coded compresses existsb orb]; [reflexivity|..]; try exact IH.
  destruct c; cbn [orb]; [exact IH|..]; rewrite writes_app, concat_app; reflexivity.
Qed.
(** The part of the program that the log, free of refusals, covers *)
Lemma covered prog s : Prog prog s -> no_refusal (s_log s) -> s_complete s = false ->
  exists ops rest tl, prog = ops ++ rest /\ map op_of (s_log s) = ops ++ tl /\ (tl = [] \/ tl = [Await]).
Proof.
  intros [P1 _] N C. destruct P1 as [P1|[ops [t [r [K0 [K1 [K2 _]]]]]]].
  - exists (map op_of (s_log s)), (pending (s_prod s) ++ s_prog s), []. rewrite app_nil_r. auto.
  - exists ops, r, t. split; [exact K0|]. split; [exact K1|]. destruct t as [|x t]; [auto|]. right. cbn in K2. injection K2 as -> K2. destruct t; [reflexivity|discriminate].
Qed.
Lemma alive_open s : Tok s -> alive s = true -> s_complete s = false.
Proof. intros [C _] A. destruct (s_complete s); [|reflexivity]. assert (W : s_work s = Dead) by (apply C; reflexivity). unfold alive in A. rewrite W in A. discriminate. Qed.
Lemma prefix_refl a : prefix a a.
Proof. exists []. rewrite app_nil_r. reflexivity. Qed.
(** While the worker is alive the log is part of the program *)
Lemma alive_log z prog s : reachable z prog s -> s_complete s = false -> no_refusal (s_log s) /\ prefix (header (s_log s)) (plain prog) /\ prefix (document (s_log s)) (coded prog) /\ (compressing (s_log s) = true -> header (s_log s) = plain prog).
Proof.
  intros H C. pose proof (Prog_reachable _ _ _ H) as P. assert (N : no_refusal (s_log s)). { intros d K. destruct P as [_ [P2 _]]. rewrite (P2 d K) in C. discriminate. }
  split; [exact N|]. destruct (log_plain _ N) as [E1 E2]. rewrite E1, E2. rewrite <- compresses_log. destruct (covered prog s P N C) as [ops [rest [tl [K0 [K1 K2]]]]]. rewrite K0, K1, !plain_app, !coded_app, compresses_app.
  assert (T1 : plain tl = [] /\ coded tl = [] /\ writes tl = [] /\ compresses tl = false) by (destruct K2 as [-> | ->]; repeat split). destruct T1 as [T1 [T2 [T3 T4]]]. rewrite T1, T2, T3, T4, orb_false_r. cbn [concat].
  replace (if compresses ops then [] else []) with (@nil byte) by (destruct (compresses ops); reflexivity). rewrite !app_nil_r.
  split; [exists (if compresses ops then [] else plain rest); reflexivity|]. split; [eexists; reflexivity|]. intros ->. rewrite app_nil_r. reflexivity.
Qed.
(** What was sent relates to the program also after the worker has ended *)
Definition Pre (prog : list op) (s : state) : Prop :=
  prefix (raw_taken (s_sent s)) (plain prog) /\ prefix (def_taken (s_sent s)) (coded prog) /\ (has_def (s_sent s) = true -> raw_taken (s_sent s) = plain prog).
Lemma prefix_trans a b c : prefix a b -> prefix b c -> prefix a c.
Proof. intros [x ->] [y ->]. exists (x ++ y). rewrite app_assoc. reflexivity. Qed.
Lemma Pre_alive z prog s : reachable z prog s -> s_complete s = false -> Pre prog s.
Proof.
  intros H C. destruct (alive_log z prog s H C) as [_ [A1 [A2 A3]]]. destruct (Sent_reachable _ _ _ H) as [_ [S2 [S3 [S4 _]]]]. split; [eapply prefix_trans; eassumption|]. split; [eapply prefix_trans; eassumption|].
  intros K. destruct (S2 K) as [K1 K2]. rewrite K2. apply A3, K1.
Qed.
Lemma dead_sent z l s s' : Tok s -> step z l s s' -> s_complete s = true -> s_sent s' = s_sent s /\ s_comp s' = s_comp s \/ s_sent s' = s_sent s /\ s_prod s = WComp.
Proof.
  intros T H C. assert (W : s_work s = Dead) by (apply T, C). destruct H; try congruence; fields; auto.
Qed.
Lemma Pre_reachable z prog s : reachable z prog s -> Pre prog s.
Proof.
  induction 1 as [|s l s' H IH St]; [apply (Pre_alive z); [apply reach_init|reflexivity]|].
  destruct (s_complete s') eqn:C'; [|apply (Pre_alive z); [eapply reach_step; eassumption|exact C']].
  assert (E : s_sent s' = s_sent s).
  { destruct (s_complete s) eqn:C; [destruct (dead_sent z l s s' (Tok_reachable _ _ _ H) St C) as [[E _]|[E _]]; exact E|].
    destruct St; fields; try reflexivity; try congruence. destruct (produce_bytes _ _ _ _ _ H1) as [x _]. rewrite (produce_eq _ _ _ _ _ H1) in C'. fields. congruence. }
  unfold Pre. rewrite E. exact IH.
Qed.
(** The end of the input *)
Definition Fin (prog : list op) (s : state) : Prop :=
  (s_eof s = true \/ has_fin (s_sent s) = true \/ (alive s = true /\ s_done s = true)) ->
  exists A B, s_log s = A ++ Awaited :: B /\ no_refusal A /\ ~ In Awaited A /\ accepted B = [] /\ exists rest, prog = map op_of A ++ rest /\ match rest with Await :: _ => True | r => throws (map op_of A) r end.
Definition ending (s : state) : Prop := s_eof s = true \/ has_fin (s_sent s) = true \/ (alive s = true /\ s_done s = true).
Lemma ending_back z l s s' : Tok s -> step z l s s' -> ending s' -> ending s \/ (s_prod s = ADone /\ alive s = true /\ s_log s' = s_log s ++ [Awaited]).
Proof.
  intros T H E. unfold ending, alive in *.
  destruct H as [s d r Hp Hg|s r Hp Hg|s c r Hp Hg Hn|s c r Hp Hg Hn|s d Hp Hc|s d Hp Hc|s d Hp Hc|s d Hp Hc|s d Hp Hc|s d Hp|s Hp|s Hp|s Hp Hc|s Hp Hc|s Hp Hc|s Hp Hc|s Hp|s Hp|s Hp|s Hp Hc
    |s n Hw He Hn|s Hw|s Hw|s n Hw Hr|s n Hw Hr|s n Hw Hr|s n Hw|s n s' out Hw Hq|s n out Hw Hd|s n out Hw Hd He|s n out Hw Hd He|s n out Hw|s n Hw|s n out Hw Ho|s out Hw Ho|s Hw].
  28: { destruct (produce_bytes _ _ _ _ _ Hq) as [x [X1 [X2 [X0 [X3 X4]]]]]. rewrite (produce_eq _ _ _ _ _ Hq) in E. fields. left. rewrite Hw. destruct E as [E|[E|[_ E]]]; [auto| |auto].
    rewrite X1, has_fin_snoc in E. apply orb_true_iff in E. destruct E as [E|E]; [auto|]. right; right. split; [reflexivity|]. destruct (is_none (s_comp s)); destruct x; try contradiction; try discriminate. cbn in X4. congruence. }
  all: fields; try rewrite Hw; try (left; exact E); try (left; destruct E as [E|[E|[E E']]]; try discriminate; auto; fail).
  - destruct (match s_work s with Returned | Dead => false | _ => true end) eqn:A; [right; auto|]. left. destruct E as [E|[E|[E _]]]; auto. congruence.
  - left. right; right. split; [reflexivity|]. destruct T as [_ [A _]]. unfold alive, w_ok in A. rewrite Hw in A. apply A. reflexivity.
Qed.
Lemma ending_quiet z prog s d : reachable z prog s -> ending s -> s_prod s <> WStore d.
Proof.
  intros H E K. destruct (Tok_reachable _ _ _ H) as [_ [_ T]]. destruct (Sent_reachable _ _ _ H) as [_ [_ [_ [_ [S _]]]]]. destruct (Prog_reachable _ _ _ H) as [_ [_ [_ P]]]. destruct E as [E|[E|[E1 E2]]].
  - destruct (T E) as [_ [_ [_ [_ X]]]]. rewrite K in X. exact X.
  - destruct (S E) as [_ [_ [_ X]]]. rewrite K in X. exact X.
  - destruct (P E1 E2) as [_ [_ X]]. rewrite K in X. exact X.
Qed.
Lemma log_step z l s s' : step z l s s' -> s_log s' = s_log s \/ exists a, s_log s' = s_log s ++ [a] /\ (accepted [a] = [] \/ exists d, s_prod s = WStore d).
Proof.
  intros H. destruct H; fields; auto; try (right; eexists; split; [reflexivity|]; first [left; reflexivity|right; eexists; eassumption]).
  left. rewrite (produce_eq _ _ _ _ _ H0). reflexivity.
Qed.
Lemma Fin_reachable z prog s : reachable z prog s -> Fin prog s.
Proof.
  induction 1 as [|s l s' H IH St]; [intros [K|[K|[_ K]]]; discriminate|]. intros E. change (ending s') in E.
  destruct (ending_back z l s s' (Tok_reachable _ _ _ H) St E) as [E0|[E0 [AL E1]]].
  - destruct (IH E0) as [A [B [K1 [K2 [K3 [K4 K5]]]]]]. destruct (log_step z l s s' St) as [L|[a [L La]]]; [rewrite L; exists A, B; auto|].
    exists A, (B ++ [a]). rewrite L, K1, <- app_assoc. split; [reflexivity|]. split; [exact K2|]. split; [exact K3|]. split; [|exact K5]. rewrite accepted_snoc, K4. destruct La as [La|[d La]]; [|exfalso; exact (ending_quiet z prog s d H E0 La)].
    destruct a; try reflexivity. discriminate.
  - pose proof (Tok_reachable _ _ _ H) as T. pose proof (Prog_reachable _ _ _ H) as P. pose proof (alive_open s T AL) as C. destruct P as [P1 [P2 [P3 _]]].
    assert (N : no_refusal (s_log s)) by (intros d K; rewrite (P2 d K) in C; discriminate). exists (s_log s), []. split; [exact E1|]. split; [exact N|]. split.
    + intros K. destruct T as [_ [A _]]. destruct (A AL) as [_ [_ A3]]. specialize (A3 (P3 K)). rewrite E0 in A3. discriminate.
    + split; [reflexivity|]. rewrite E0 in P1. cbn [pending app] in P1. destruct P1 as [P1|[ops [t [r [K0 [K1 [K2 K3]]]]]]].
      * exists (Await :: s_prog s). split; [symmetry; exact P1|exact I].
      * apply one_await in K2. destruct K2 as [-> _]. rewrite app_nil_r in K1. exists r. rewrite K1. split; [exact K0|]. destruct K3 as [K3|K3]; [congruence|]. destruct r as [|[d|c|] r]; try contradiction. exact K3.
Qed.
Lemma app_cut_awaited A : ~ In Awaited A -> ~ In Await (map op_of A).
Proof. intros H K. apply in_map_iff in K. destruct K as [a [Ka Ia]]. destruct a; try discriminate. auto. Qed.
Lemma document_app A B : accepted B = [] -> document (A ++ Awaited :: B) = document A /\ header (A ++ Awaited :: B) = header A.
Proof.
  intros HB. assert (ZB : document B = [] /\ header B = []). { clear A. assert (C : header B ++ document B = []) by (rewrite header_document, HB; reflexivity). apply app_eq_nil in C. tauto. }
  induction A as [|[d|d|c|] A [I1 I2]]; cbn [app document header].
  - exact ZB.
  - rewrite I2. auto.
  - auto.
  - destruct c; [auto|..]; split; try reflexivity; unfold accepted; rewrite flat_map_app; cbn [flat_map app]; fold (accepted B); rewrite HB, app_nil_r; reflexivity.
  - auto.
Qed.
(** everything that was written before await has gone out *)
Lemma Fin_split z prog s : reachable z prog s -> s_eof s = true \/ has_fin (s_sent s) = true ->
  exists ops, up_to_await prog ops /\ raw_taken (s_sent s) = plain ops /\ def_taken (s_sent s) = coded ops.
Proof.
  intros H E. destruct (Fin_reachable z prog s H ltac:(unfold ending; tauto)) as [A [B [K1 [K2 [K3 [K4 [rest [K5 K6]]]]]]]]. exists (map op_of A). split.
  - split; [apply (app_cut_awaited A K3)|]. exists rest. split; [exact K5|]. destruct rest as [|[d|c|] r]; try contradiction; auto.
  - destruct (log_plain A K2) as [E1 E2]. destruct (document_app A B K4) as [D1 D2]. rewrite <- E1, <- E2, <- D1, <- D2, <- K1. clear - H E. destruct (Sent_reachable _ _ _ H) as [_ [S2 [[x S3] [[y S4] [S5 _]]]]]. destruct E as [E|E].
    + destruct (Data_reachable _ _ _ H) as [_ [_ D]]. specialize (D E). rewrite <- header_document, (split_taken _ (Ord_reachable _ _ _ H)), S3, S4 in D.
      destruct (has_def (s_sent s)) eqn:HD.
      * destruct (S2 eq_refl) as [_ S2']. rewrite S3 in S2'. rewrite <- S2', S4 in *. rewrite S3, S2' in *. apply app_inv_head in D. auto.
      * destruct (Ord_reachable _ _ _ H) as [R [F [T [O1 [O2 [O3 [O4 _]]]]]]]. destruct (taken_split R F T O2 O3 O4) as [T1 [T2 [T3 _]]]. rewrite <- O1 in *. destruct (T3 HD) as [-> ->]. cbn in T2. rewrite T2 in *. rewrite app_nil_r in D. cbn [app] in *.
        rewrite <- app_assoc in D. rewrite <- (app_nil_r (raw_taken (s_sent s))) in D at 2. apply app_inv_head in D. apply app_eq_nil in D. destruct D as [-> ->]. rewrite app_nil_r in S3. auto.
    + destruct (S5 E) as [S5' _]. split; [|exact S5']. apply S2. unfold has_fin, has_def in *. apply existsb_exists in E. destruct E as [e [I1 I2]]. apply existsb_exists. exists e. split; [exact I1|]. destruct e; [discriminate|reflexivity].
Qed.
