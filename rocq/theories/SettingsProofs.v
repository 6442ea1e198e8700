(** The text of an object cannot be cut short: no proper prefix of it is a JSON text. *)
From Verif Require Import Base BaseLemmas MapModel StringModel IppModel JsonModel PpmSpec PpmProofs JsonSpec SettingsModel.
From Coq Require Import Lia ZifyBool ZifyNat.
Local Open Scope Z_scope.
Ltac Zify.zify_post_hook ::= Z.div_mod_to_equations.

(** ** Scanning: the depth of nesting, and whether in a string or after a backslash *)
Inductive mode := Out | In_string | Escaped.
Definition scan1 (s : Z * mode) (c : byte) : Z * mode :=
  let (d, m) := s in
  let z := Zb c in
  match m with
  | Out => if (z =? 0x7b) || (z =? 0x5b) then (d + 1, Out) else if (z =? 0x7d) || (z =? 0x5d) then (d - 1, Out) else if z =? 0x22 then (d, In_string) else (d, Out)
  | In_string => if z =? 0x22 then (d, Out) else if z =? 0x5c then (d, Escaped) else (d, In_string)
  | Escaped => (d, In_string)
  end.
Definition scan (s : Z * mode) (l : list byte) : Z * mode := fold_left scan1 l s.
Lemma scan_app s a b : scan s (a ++ b) = scan (scan s a) b.
Proof. apply fold_left_app. Qed.

(** [l] ends at the depth it started with and is never above it *)
Definition bal (l : list byte) : Prop :=
  forall d, scan (d, Out) l = (d, Out) /\ forall a b, l = a ++ b -> d <= fst (scan (d, Out) a).
Lemma bal_nil : bal [].
Proof. intros d. split; [reflexivity|]. intros a b E. symmetry in E. apply app_eq_nil in E. destruct E as [-> _]. cbn. lia. Qed.
Lemma app_split {A} (x y a b : list A) : x ++ y = a ++ b -> (exists z, x = a ++ z) \/ (exists z, a = x ++ z /\ y = z ++ b).
Proof.
  revert a. induction x as [|c x IH]; intros a E; [right; exists a; split; [reflexivity|exact E]|].
  destruct a as [|c' a]; [left; exists (c :: x); reflexivity|]. cbn [app] in E. injection E as -> E. destruct (IH a E) as [[z ->]|(z & -> & ->)]; [left|right]; exists z; [reflexivity|split; reflexivity].
Qed.
Lemma bal_app a b : bal a -> bal b -> bal (a ++ b).
Proof.
  intros Ha Hb d. destruct (Ha d) as [A1 A2], (Hb d) as [B1 B2]. split; [rewrite scan_app, A1; exact B1|].
  intros x y E. apply app_split in E. destruct E as [[z E]|(z & -> & E)]; [apply (A2 x z E)|]. rewrite scan_app, A1. apply (B2 z y E).
Qed.
Lemma bal_char c : ~ In (Zb c) [0x7b; 0x5b; 0x7d; 0x5d; 0x22] -> bal [c].
Proof.
  intros H d. assert (E : scan1 (d, Out) c = (d, Out)).
  { unfold scan1. cbn [In] in H. destruct ((Zb c =? 123) || (Zb c =? 91)) eqn:E1; [lia|]. destruct ((Zb c =? 125) || (Zb c =? 93)) eqn:E2; [lia|]. destruct (Zb c =? 34) eqn:E3; [lia|reflexivity]. }
  split; [exact E|]. intros [|x a] b Eq; [cbn; lia|]. cbn in Eq. injection Eq as <- Eq. symmetry in Eq. apply app_eq_nil in Eq. destruct Eq as [-> _]. cbn [scan fold_left]. rewrite E. cbn. lia.
Qed.
Lemma bal_chars l : Forall (fun c => ~ In (Zb c) [0x7b; 0x5b; 0x7d; 0x5d; 0x22]) l -> bal l.
Proof. induction 1 as [|c l Hc Hl IH]; [apply bal_nil|]. change (c :: l) with ([c] ++ l). apply bal_app; [apply bal_char; exact Hc|exact IH]. Qed.
Lemma bal_bracket o c l : Zb o = 0x7b \/ Zb o = 0x5b -> Zb c = 0x7d \/ Zb c = 0x5d -> bal l -> bal ([o] ++ l ++ [c]).
Proof.
  intros Ho Hc Hl d. assert (Eo : forall d, scan1 (d, Out) o = (d + 1, Out)) by (intros; unfold scan1; destruct ((Zb o =? 123) || (Zb o =? 91)) eqn:E; [reflexivity|lia]).
  assert (Ec : forall d, scan1 (d, Out) c = (d - 1, Out)) by (intros; unfold scan1; destruct ((Zb c =? 123) || (Zb c =? 91)) eqn:E; [lia|]; destruct ((Zb c =? 125) || (Zb c =? 93)) eqn:E'; [reflexivity|lia]).
  destruct (Hl (d + 1)) as [L1 L2]. split.
  - rewrite scan_app. cbn [scan fold_left]. rewrite Eo. change (fold_left scan1 (l ++ [c]) ?s) with (scan s (l ++ [c])). rewrite scan_app, L1. cbn [scan fold_left]. rewrite Ec. f_equal. lia.
  - intros [|x a] b E; [cbn; lia|]. cbn [app] in E. injection E as <- E. cbn [scan fold_left]. rewrite Eo. change (fold_left scan1 a ?s) with (scan s a).
    apply app_split in E. destruct E as [[z E]|(z & -> & E)]; [specialize (L2 a z E); lia|]. rewrite scan_app, L1. destruct z as [|x z]; [cbn; lia|].
    cbn [app] in E. injection E as <- E. symmetry in E. apply app_eq_nil in E. destruct E as [-> _]. cbn [scan fold_left]. rewrite Ec. cbn. lia.
Qed.
Lemma bal_jstring l : jstring l -> bal l.
Proof.
  intros (s & Hs & ->). assert (Q : forall d, scan1 (d, Out) (bZ 0x22) = (d, In_string)) by (intros; reflexivity).
  assert (H : forall d, scan (d, In_string) s = (d, In_string) /\ forall a b, s = a ++ b -> fst (scan (d, In_string) a) = d).
  { intros d.
    induction Hs as [|c l H1 H2 H3 Hl IH|c l Hc Hl IH|x y z w l Hx Hy Hz Hw Hl IH].
    - split; [reflexivity|]. intros a b E. symmetry in E. apply app_eq_nil in E. destruct E as [-> _]. reflexivity.
    - assert (E1 : scan1 (d, In_string) c = (d, In_string)) by (unfold scan1; destruct (Zb c =? 34) eqn:?; [lia|]; destruct (Zb c =? 92) eqn:?; [lia|reflexivity]).
      split; [cbn [scan fold_left]; rewrite E1; apply IH|]. intros [|a0 a] b E; [reflexivity|]. cbn [app] in E. injection E as <- E. cbn [scan fold_left]. rewrite E1. apply (proj2 IH a b E).
    - assert (E1 : scan1 (d, In_string) (bZ 92) = (d, Escaped)) by reflexivity. assert (E2 : forall c, scan1 (d, Escaped) c = (d, In_string)) by reflexivity.
      split; [cbn [scan fold_left]; rewrite E1, E2; apply IH|]. intros [|a0 [|a1 a]] b E; [reflexivity| |].
      + cbn [app] in E. injection E as <- E. cbn [scan fold_left]. rewrite E1. reflexivity.
      + cbn [app] in E. injection E as <- <- E. cbn [scan fold_left]. rewrite E1, E2. apply (proj2 IH a b E).
    - assert (E1 : scan1 (d, In_string) (bZ 92) = (d, Escaped)) by reflexivity. assert (E2 : forall c, scan1 (d, Escaped) c = (d, In_string)) by reflexivity.
      assert (E3 : forall c, hex c -> scan1 (d, In_string) c = (d, In_string)) by (intros c Hc; unfold hex in Hc; unfold scan1; destruct (Zb c =? 34) eqn:?; [lia|]; destruct (Zb c =? 92) eqn:?; [lia|reflexivity]).
      split; [cbn [scan fold_left]; rewrite E1, E2, !E3 by assumption; apply IH|].
      intros [|a0 [|a1 [|a2 [|a3 [|a4 [|a5 a]]]]]] b E; cbn [app] in E; try reflexivity.
      + injection E as <- E. cbn [scan fold_left]. rewrite E1. reflexivity.
      + injection E as <- <- E. cbn [scan fold_left]. rewrite E1, E2. reflexivity.
      + injection E as <- <- <- E. cbn [scan fold_left]. rewrite E1, E2, !E3 by assumption. reflexivity.
      + injection E as <- <- <- <- E. cbn [scan fold_left]. rewrite E1, E2, !E3 by assumption. reflexivity.
      + injection E as <- <- <- <- <- E. cbn [scan fold_left]. rewrite E1, E2, !E3 by assumption. reflexivity.
      + injection E as <- <- <- <- <- <- E. cbn [scan fold_left]. rewrite E1, E2, !E3 by assumption. apply (proj2 IH a b E). }
  unfold is. intros d. destruct (H d) as [S1 S2]. split.
  - rewrite !scan_app. cbn [scan fold_left]. rewrite Q. change (fold_left scan1 s ?x) with (scan x s). rewrite S1. reflexivity.
  - intros [|x a] b E; [cbn; lia|]. cbn [app] in E. injection E as <- E. cbn [scan fold_left]. rewrite Q. change (fold_left scan1 a ?s) with (scan s a).
    apply app_split in E. destruct E as [[z E]|(z & -> & E)]; [rewrite (S2 a z E); lia|]. rewrite scan_app, S1. destruct z as [|x z]; [cbn; lia|].
    cbn [app] in E. injection E as <- E. symmetry in E. apply app_eq_nil in E. destruct E as [-> _]. cbn. lia.
Qed.
Lemma bal_ws l : ws l -> bal l.
Proof. intros H. apply bal_chars. eapply Forall_impl; [|exact H]. cbn beta. intros c Hc. cbn [In] in *. lia. Qed.
Lemma digits_plain l : digits l -> Forall (fun c => ~ In (Zb c) [0x7b; 0x5b; 0x7d; 0x5d; 0x22]) l.
Proof. intros [_ H]. eapply Forall_impl; [|exact H]. cbn beta. intros c Hc. cbn [In]. lia. Qed.
Lemma is_plain z : 0 <= z < 256 -> ~ In z [0x7b; 0x5b; 0x7d; 0x5d; 0x22] -> Forall (fun c => ~ In (Zb c) [0x7b; 0x5b; 0x7d; 0x5d; 0x22]) (is z).
Proof. intros Hz H. constructor; [|constructor]. rewrite Zb_bZ, Z.mod_small by exact Hz. exact H. Qed.
Lemma bal_jnumber l : jnumber l -> bal l.
Proof.
  intros (m & i & f & e & Hm & Hi & Hf & He & ->). apply bal_chars. rewrite !Forall_app. split; [|split; [|split]].
  - destruct Hm as [->| ->]; [constructor|apply is_plain; [lia|cbn; lia]].
  - destruct Hi as [->|(c & l' & -> & Hc & Hl)]; [apply is_plain; [lia|cbn; lia]|]. constructor; [cbn; lia|]. destruct Hl as [->|Hl]; [constructor|apply digits_plain; exact Hl].
  - destruct Hf as [->|(d & Hd & ->)]; [constructor|]. apply Forall_app. split; [apply is_plain; [lia|cbn; lia]|apply digits_plain; exact Hd].
  - destruct He as [->|(e0 & s & d & He & Hs & Hd & ->)]; [constructor|]. constructor; [cbn; lia|]. apply Forall_app. split; [|apply digits_plain; exact Hd].
    destruct Hs as [->|[->| ->]]; [constructor|apply is_plain; [lia|cbn; lia]|apply is_plain; [lia|cbn; lia]].
Qed.
Scheme jvalue_mut := Minimality for jvalue Sort Prop with jelements_mut := Minimality for jelements Sort Prop with jmembers_mut := Minimality for jmembers Sort Prop.
Lemma bal_is z : 0 <= z < 256 -> ~ In z [0x7b; 0x5b; 0x7d; 0x5d; 0x22] -> bal (is z).
Proof. intros H H'. apply bal_chars, is_plain; assumption. Qed.
Lemma bal_jvalue l : jvalue l -> bal l.
Proof.
  apply (jvalue_mut bal bal bal).
  - intros x Hx. apply bal_chars. destruct Hx as [<-|[<-|[<-|[]]]]; repeat (constructor; [vm_compute; lia|]); constructor.
  - exact bal_jnumber.
  - exact bal_jstring.
  - intros w Hw. apply bal_bracket; [right; reflexivity|right; reflexivity|apply bal_ws; exact Hw].
  - intros x _ Hx. apply bal_bracket; [right; reflexivity|right; reflexivity|exact Hx].
  - intros w Hw. apply bal_bracket; [left; reflexivity|left; reflexivity|apply bal_ws; exact Hw].
  - intros x _ Hx. apply bal_bracket; [left; reflexivity|left; reflexivity|exact Hx].
  - intros w1 v w2 H1 _ Hv H2. auto using bal_app, bal_ws.
  - intros w1 v w2 x H1 _ Hv H2 _ Hx. repeat apply bal_app; auto using bal_ws. apply bal_is; [lia|cbn; lia].
  - intros w1 k w2 w3 v w4 H1 Hk H2 H3 _ Hv H4. repeat apply bal_app; auto using bal_ws, bal_jstring. apply bal_is; [lia|cbn; lia].
  - intros w1 k w2 w3 v w4 x H1 Hk H2 H3 _ Hv H4 _ Hx. repeat apply bal_app; auto using bal_ws, bal_jstring; apply bal_is; first [lia|cbn; lia].
Qed.
Lemma jvalue_nonempty l : jvalue l -> l <> [].
Proof.
  intros H. destruct H as [l H|l H|l H| | | |]; try discriminate.
  - destruct H as [<-|[<-|[<-|[]]]]; discriminate.
  - destruct H as (m & i & f & e & _ & Hi & _ & _ & ->). destruct Hi as [->|(c & l' & -> & _)]; intros E; apply app_eq_nil in E; destruct E as [_ E]; discriminate.
  - destruct H as (s & _ & ->). discriminate.
Qed.
(** ** No proper prefix of a balanced object text is a JSON text *)
Lemma no_proper_prefix body a b : bal body -> is 0x7b ++ body ++ is 0x7d = a ++ b -> json_text a -> b = [].
Proof.
  intros Hb E (w1 & v & w2 & H1 & Hv & H2 & ->).
  assert (W : w1 = []).
  { destruct w1 as [|c w1]; [reflexivity|]. cbn [app] in E. injection E as Ec _. subst c. inversion H1 as [|? ? Hc]; subst. vm_compute in Hc. lia. }
  subst w1. cbn [app] in E. destruct v as [|c v]; [destruct (jvalue_nonempty _ Hv); reflexivity|]. pose proof (bal_jvalue _ Hv) as Bv. pose proof (bal_ws _ H2) as Bw.
  cbn [is app] in E. injection E as <- E. destruct (bal_app _ _ Bv Bw 0) as [S _]. cbn [app scan fold_left] in S. change (scan1 (0, Out) (bZ 0x7b)) with (1, Out) in S.
  change (fold_left scan1 (v ++ w2) (1, Out)) with (scan (1, Out) (v ++ w2)) in S.
  apply app_split in E. destruct E as [[z E]|(z & Ez & E)].
  - destruct (Hb 1) as [_ B]. specialize (B _ _ E). rewrite S in B. cbn in B. lia.
  - rewrite Ez, scan_app, (proj1 (Hb 1)) in S. destruct z as [|x z]; [discriminate S|]. cbn [app] in E. injection E as _ E. symmetry in E. apply app_eq_nil in E. apply E.
Qed.

(** ** What json11 writes is a JSON text *)
Section Json_induction.
Variable P : json -> Prop.
Hypothesis Hscalar : forall j, (forall l, j <> JArr l) -> (forall m, j <> JObj m) -> P j.
Hypothesis Harr : forall l, Forall P l -> P (JArr l).
Hypothesis Hobj : forall m, Forall (fun e => P (snd e)) m -> P (JObj m).
Fixpoint json_ind2 (j : json) : P j :=
  match j with
  | JArr l => Harr l ((fix f l : Forall P l := match l with [] => Forall_nil _ | x :: l' => Forall_cons _ (json_ind2 x) (f l') end) l)
  | JObj m => Hobj m ((fix f l : Forall (fun e => P (snd e)) l := match l with [] => Forall_nil _ | x :: l' => Forall_cons _ (json_ind2 (snd x)) (f l') end) m)
  | j' => Hscalar j' ltac:(discriminate) ltac:(discriminate)
  end.
End Json_induction.

Lemma hex_digit_hex z : 0 <= z < 16 -> hex (hex_digit z).
Proof. intros H. unfold hex, hex_digit. destruct (Z.ltb_spec z 10); rewrite Zb_bZ by lia; lia. Qed.
Lemma chars_dump s : chars (dump_chars s).
Proof.
  assert (G : forall n s, (length s <= n)%nat -> chars (dump_chars s)); [|apply (G (length s)); lia].
  induction n as [|n IH]; intros [|c t] L; cbn [length] in L; try lia; try constructor. cbn [dump_chars].
  assert (IHt : chars (dump_chars t)) by (apply IH; lia). pose proof (Zb_range c) as R.
  destruct (Zb c =? 92) eqn:E1; [apply chars_escape; [cbn; tauto|exact IHt]|].
  destruct (Zb c =? 34) eqn:E2; [apply chars_escape; [cbn; tauto|exact IHt]|].
  destruct (Zb c =? 8) eqn:E3; [apply chars_escape; [cbn; tauto|exact IHt]|].
  destruct (Zb c =? 12) eqn:E4; [apply chars_escape; [cbn; tauto|exact IHt]|].
  destruct (Zb c =? 10) eqn:E5; [apply chars_escape; [cbn; tauto|exact IHt]|].
  destruct (Zb c =? 13) eqn:E6; [apply chars_escape; [cbn; tauto|exact IHt]|].
  destruct (Zb c =? 9) eqn:E7; [apply chars_escape; [cbn; tauto|exact IHt]|].
  destruct (Zb c <=? 31) eqn:E8.
  { apply (chars_unicode "0"%char "0"%char); [left; vm_compute; split; discriminate|left; vm_compute; split; discriminate|apply hex_digit_hex; lia|apply hex_digit_hex; lia|exact IHt]. }
  assert (P : chars (c :: dump_chars t)) by (apply chars_plain; [lia|lia|lia|exact IHt]).
  destruct t as [|d [|e t]]; try exact P. assert (IHt' : chars (dump_chars t)) by (apply IH; cbn [length] in L; lia).
  assert (H2 : hex "2"%char) by (left; vm_compute; split; discriminate). assert (H0 : hex "0"%char) by (left; vm_compute; split; discriminate).
  assert (H8 : hex "8"%char) by (left; vm_compute; split; discriminate). assert (H9 : hex "9"%char) by (left; vm_compute; split; discriminate).
  destruct (_ && _ && (Zb e =? 168)); [apply (chars_unicode "2"%char "0"%char "2"%char "8"%char); assumption|].
  destruct (_ && _ && (Zb e =? 169)); [apply (chars_unicode "2"%char "0"%char "2"%char "9"%char); assumption|]. exact P.
Qed.
Lemma jstring_dump s : jstring (dump_string s).
Proof. exists (dump_chars (bytes_of_string s)). split; [apply chars_dump|reflexivity]. Qed.

Lemma dec_digits_shape fuel : forall z acc, 0 <= z < 10 ^ Z.of_nat fuel -> (1 <= fuel)%nat ->
  exists c l, bytes_of_string (dec_digits fuel z acc) = c :: l ++ bytes_of_string acc /\ 48 <= Zb c <= 57 /\ Forall (fun c => 48 <= Zb c <= 57) l /\ (0 < z -> 49 <= Zb c) /\ (z = 0 -> l = []).
Proof.
  induction fuel as [|f IH]; intros z acc Hz Hf; [lia|]. cbn [dec_digits]. destruct (Z.ltb_spec z 10) as [L|L].
  - exists (digit_char (z mod 10)), []. split; [reflexivity|]. unfold digit_char. rewrite Zb_bZ by lia. repeat split; try lia. constructor.
  - destruct f as [|f']; [change (Z.of_nat 1) with 1 in Hz; lia|].
    destruct (IH (z / 10) (String (digit_char (z mod 10)) acc)) as (c & l & E & H1 & H2 & H3 & H4); [rewrite (Nat2Z.inj_succ (S f')), Z.pow_succ_r in Hz by lia; lia|lia|].
    exists c, (l ++ [digit_char (z mod 10)]). rewrite E, <- app_assoc. split; [reflexivity|]. split; [exact H1|]. split; [|split; [intros; apply H3; lia|lia]].
    apply Forall_app. split; [exact H2|]. constructor; [unfold digit_char; rewrite Zb_bZ; lia|constructor].
Qed.
Lemma jint_dec z : 0 <= z -> jint (bytes_of_string (dec_string z)).
Proof.
  intros Hz. unfold dec_string. destruct (dec_digits_shape (S (Z.to_nat (Z.log2 z))) z "") as (c & l & E & H1 & H2 & H3 & H4); [|lia|].
  - split; [exact Hz|]. rewrite Nat2Z.inj_succ, Z2Nat.id by apply Z.log2_nonneg. destruct (Z.eq_dec z 0) as [->|N]; [reflexivity|].
    destruct (Z.log2_spec z ltac:(lia)) as [_ L]. eapply Z.lt_le_trans; [exact L|]. apply Z.pow_le_mono_l. lia.
  - rewrite E. cbn [bytes_of_string list_ascii_of_string]. rewrite app_nil_r. destruct (Z.eq_dec z 0) as [->|N].
    + left. rewrite (H4 eq_refl) in *. vm_compute in E. injection E as <-. reflexivity.
    + right. exists c, l. split; [reflexivity|]. split; [specialize (H3 ltac:(lia)); lia|]. destruct l as [|x l]; [left; reflexivity|right]. split; [discriminate|exact H2].
Qed.
Lemma jnumber_dump z : jnumber (dump_int z).
Proof.
  unfold dump_int. destruct (Z.ltb_spec z 0) as [L|L].
  - exists (is 0x2d), (bytes_of_string (dec_string (- z))), [], []. split; [right; reflexivity|]. split; [apply jint_dec; lia|]. split; [left; reflexivity|]. split; [left; reflexivity|]. rewrite !app_nil_r. reflexivity.
  - exists [], (bytes_of_string (dec_string z)), [], []. split; [left; reflexivity|]. split; [apply jint_dec; lia|]. split; [left; reflexivity|]. split; [left; reflexivity|]. rewrite !app_nil_r. reflexivity.
Qed.
Lemma ws_nil : ws []. Proof. constructor. Qed.
Lemma ws_space : ws (is 0x20). Proof. constructor; [left; reflexivity|constructor]. Qed.
Lemma jelements_ws w l : ws w -> jelements l -> jelements (w ++ l).
Proof.
  intros Hw H. destruct H as [w1 v w2 H1 Hv H2|w1 v w2 l H1 Hv H2 Hl]; rewrite app_assoc; [apply je_one|apply je_more]; try assumption; apply Forall_app; split; assumption.
Qed.
Lemma jmembers_ws w l : ws w -> jmembers l -> jmembers (w ++ l).
Proof.
  intros Hw H. destruct H as [w1 k w2 w3 v w4 H1|w1 k w2 w3 v w4 l H1]; rewrite app_assoc; [apply jm_one|apply jm_more]; try assumption; apply Forall_app; split; assumption.
Qed.
Lemma jelements_dump x l : Forall jvalue (x :: l) -> jelements (dump_list (x :: l)).
Proof.
  revert x. induction l as [|y l IH]; intros x H; inversion H as [|? ? Hx Hl]; subst.
  - cbn [dump_list]. rewrite <- (app_nil_r x). apply (je_one [] x []); [apply ws_nil|exact Hx|apply ws_nil].
  - change (dump_list (x :: y :: l)) with ([] ++ x ++ [] ++ is 0x2c ++ is 0x20 ++ dump_list (y :: l)). apply je_more; [apply ws_nil|exact Hx|apply ws_nil|]. apply jelements_ws; [apply ws_space|apply IH; exact Hl].
Qed.
Definition member_text (e : string * json) : list byte := dump_string (fst e) ++ bytes_of_string ": " ++ dump (snd e).
Lemma jmembers_dump x l : Forall (fun e => jvalue (dump (snd e))) (x :: l) -> jmembers (dump_list (map member_text (x :: l))).
Proof.
  revert x. induction l as [|y l IH]; intros x H; inversion H as [|? ? Hx Hl]; subst.
  - change (dump_list (map member_text [x])) with (member_text x). unfold member_text.
    replace (dump_string (fst x) ++ bytes_of_string ": " ++ dump (snd x)) with ([] ++ dump_string (fst x) ++ [] ++ is 0x3a ++ is 0x20 ++ dump (snd x) ++ []) by (rewrite app_nil_r; reflexivity).
    apply jm_one; auto using ws_nil, ws_space, jstring_dump.
  - replace (dump_list (map member_text (x :: y :: l))) with ([] ++ dump_string (fst x) ++ [] ++ is 0x3a ++ is 0x20 ++ dump (snd x) ++ [] ++ is 0x2c ++ is 0x20 ++ dump_list (map member_text (y :: l))).
    + apply jm_more; auto using ws_nil, ws_space, jstring_dump. apply jmembers_ws; [apply ws_space|apply IH; exact Hl].
    + change (dump_list (map member_text (x :: y :: l))) with (member_text x ++ bytes_of_string ", " ++ dump_list (map member_text (y :: l))). unfold member_text at 2. rewrite <- !app_assoc. reflexivity.
Qed.
Lemma jvalue_dump j : jvalue (dump j).
Proof.
  induction j as [j Ha Ho|l IH|m IH] using json_ind2.
  - destruct j as [|s|z|[|]|l|m]; try (exfalso; eapply Ha; reflexivity); try (exfalso; eapply Ho; reflexivity).
    + apply jv_literal. cbn. tauto.
    + apply jv_string, jstring_dump.
    + apply jv_number, jnumber_dump.
    + apply jv_literal. cbn. tauto.
    + apply jv_literal. cbn. tauto.
  - cbn [dump]. destruct l as [|x l]; [apply (jv_array_empty [] ws_nil)|]. apply (jv_array (dump_list (map dump (x :: l)))). change (map dump (x :: l)) with (dump x :: map dump l). apply jelements_dump. change (Forall jvalue (map dump (x :: l))). apply Forall_map. exact IH.
  - cbn [dump]. destruct m as [|x m]; [apply (jv_object_empty [] ws_nil)|]. apply (jv_object (dump_list (map member_text (x :: m)))). apply jmembers_dump. exact IH.
Qed.
Lemma bal_object_body m : bal (dump_list (map member_text m)).
Proof.
  destruct m as [|x m]; [apply bal_nil|]. assert (H : jmembers (dump_list (map member_text (x :: m)))) by (apply jmembers_dump; apply Forall_forall; intros; apply jvalue_dump).
  revert H. generalize (dump_list (map member_text (x :: m))). intros l H. destruct H as [w1 k w2 w3 v w4 H1 Hk H2 H3 Hv H4|w1 k w2 w3 v w4 l H1 Hk H2 H3 Hv H4 Hl].
  - repeat apply bal_app; auto using bal_ws, bal_jstring, bal_jvalue. apply bal_is; [lia|cbn; lia].
  - pose proof (jv_object _ Hl) as Ho. clear Ho. repeat apply bal_app; auto using bal_ws, bal_jstring, bal_jvalue; try (apply bal_is; [lia|cbn; lia]).
    revert l Hl. fix IHl 2. intros l [w1' k' w2' w3' v' w4' A1 A2 A3 A4 A5 A6|w1' k' w2' w3' v' w4' l' A1 A2 A3 A4 A5 A6 A7]; repeat apply bal_app; auto using bal_ws, bal_jstring, bal_jvalue; try (apply bal_is; [lia|cbn; lia]).
Qed.
Lemma dump_prefix m a b : dump (JObj m) = a ++ b -> json_text a -> b = [].
Proof. intros E H. apply (no_proper_prefix (dump_list (map member_text m)) a b); [apply bal_object_body|exact E|exact H]. Qed.
Lemma json_text_dump j : json_text (dump j).
Proof.
  exists [], (dump j), []. split; [constructor|]. split; [apply jvalue_dump|]. split; [constructor|]. rewrite app_nil_r. reflexivity.
Qed.
