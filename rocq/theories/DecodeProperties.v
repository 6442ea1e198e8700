(** C87: what ippdecode writes. *)
From Verif Require Import Base BaseLemmas MapModel StringModel IppModel JsonModel IppSpec IppEncProofs IppProperties SettingsModel DumpProofs WarnModel WarnProofs DecodeModel DecodeProofs DateProofs.
From Coq Require Import Lia ZifyBool ZifyNat.
Local Open Scope Z_scope.

(** no date in any attribute, also inside collections *)
Definition dateless (m : ipp_msg) : Prop := forall g k a, In g (m_opAttrs m :: m_printerAttrs m :: m_jobAttrs m) -> In (k, a) g -> no_date (snd a) = true.
Lemma dateless_group m g : dateless m -> In g (m_opAttrs m :: m_printerAttrs m :: m_jobAttrs m) -> group_ok no_date g = true.
Proof. intros D H. unfold group_ok. apply forallb_forall. intros [k a] Ha. exact (D g k a H Ha). Qed.
Lemma groups_inj : forall l l', Forall (fun g => group_ok res_ok g = true) l -> Forall (fun g => group_ok res_ok g = true) l' ->
  (forall g, In g l -> group_ok no_date g = true) -> (forall g, In g l' -> group_ok no_date g = true) -> map attrsToJSON l = map attrsToJSON l' -> l = l'.
Proof.
  induction l as [|g l IH]; intros [|g' l'] R R' D D' E; try discriminate E; [reflexivity|]. inversion R; subst. inversion R'; subst. cbn [map] in E.
  assert (E1 : attrsToJSON g = attrsToJSON g') by congruence. assert (E2 : map attrsToJSON l = map attrsToJSON l') by congruence.
  f_equal; [apply attrs_json_inj; try assumption; [apply D|apply D']; left; reflexivity|]. apply IH; try assumption; intros x Hx; [apply D|apply D']; right; exact Hx.
Qed.

Lemma decode_shown file n b m r out err : file n = Some b -> decodeMsg b = Ok (m, r) -> ippdecode file [n] = Ok (0, out, err) -> msg_text m = out.
Proof. intros F D H. cbn [ippdecode] in H. rewrite F in H. rewrite <- decodeMsg_w_snd in D. destruct (decodeMsg_w b) as [w x]. cbn [snd] in D. subst x. congruence. Qed.

(** Two files whose messages have no dates and for which ippdecode writes the same have
    the same operation or status and the same attributes in the same groups.  (Missing:
    messages with dates, see below.) *)
Theorem C87_output_determines_partial file n1 n2 b1 b2 m1 m2 r1 r2 out err1 err2 :
  file n1 = Some b1 -> file n2 = Some b2 -> decodeMsg b1 = Ok (m1, r1) -> decodeMsg b2 = Ok (m2, r2) -> dateless m1 -> dateless m2 ->
  ippdecode file [n1] = Ok (0, out, err1) -> ippdecode file [n2] = Ok (0, out, err2) ->
  m_opOrStatus m1 = m_opOrStatus m2 /\ m_opAttrs m1 = m_opAttrs m2 /\ m_jobAttrs m1 = m_jobAttrs m2 /\ m_printerAttrs m1 = m_printerAttrs m2.
Proof.
  intros F1 F2 D1 D2 L1 L2 H1 H2. pose proof (decode_shown _ _ _ _ _ _ _ F1 D1 H1) as T1. pose proof (decode_shown _ _ _ _ _ _ _ F2 D2 H2) as T2. rewrite <- T2 in T1. clear H1 H2 T2.
  destruct (decodeMsg_res _ _ _ D1) as [[R1 [R2 R3]] S1]. destruct (decodeMsg_res _ _ _ D2) as [[R1' [R2' R3']] S2].
  destruct (msg_text_inj _ _ S1 S2 T1) as [E1 [E2 [E3 E4]]]. split; [exact E1|].
  split; [apply attrs_json_inj; try assumption; [apply (dateless_group _ _ L1)|apply (dateless_group _ _ L2)]; left; reflexivity|].
  split; [apply groups_inj; try assumption; intros g Hg; [apply (dateless_group _ _ L1)|apply (dateless_group _ _ L2)]; right; right; exact Hg|].
  apply attrs_json_inj; try assumption; [apply (dateless_group _ _ L1)|apply (dateless_group _ _ L2)]; right; left; reflexivity.
Qed.
(** For what IppMsg::encode writes, dates included, the output shows the message that was
    sent.  (Missing: dates whose offsets from UTC have three digits, see below.) *)
Definition clock_dates (m : ipp_msg) : Prop := forall g k a, In g (m_opAttrs m :: m_printerAttrs m :: m_jobAttrs m) -> In (k, a) g -> short_offsets (snd a) = true.
Lemma clock_group m g : clock_dates m -> In g (m_opAttrs m :: m_printerAttrs m :: m_jobAttrs m) -> group_ok short_offsets g = true.
Proof. intros D H. unfold group_ok. apply forallb_forall. intros [k a] Ha. exact (D g k a H Ha). Qed.
Lemma typed_groups_inj : forall l l', forallb wf_attrs l = true -> forallb wf_attrs l' = true ->
  (forall g, In g l -> group_ok short_offsets g = true) -> (forall g, In g l' -> group_ok short_offsets g = true) -> map attrsToJSON l = map attrsToJSON l' -> l = l'.
Proof.
  induction l as [|g l IH]; intros [|g' l'] R R' D D' E; try discriminate E; [reflexivity|]. cbn [map forallb] in *. apply andb_prop in R as [R1 R2], R' as [R1' R2'].
  assert (E1 : attrsToJSON g = attrsToJSON g') by congruence. assert (E2 : map attrsToJSON l = map attrsToJSON l') by congruence.
  f_equal; [apply typed_attrs_inj; try assumption; [apply D|apply D']; left; reflexivity|]. apply IH; try assumption; intros x Hx; [apply D|apply D']; right; exact Hx.
Qed.
Theorem C87_encoded_partial file n1 n2 id1 id2 b1 b2 m1 m2 out err1 err2 :
  wf_msg m1 = true -> wf_msg m2 = true -> 0 <= id1 < 4294967296 -> 0 <= id2 < 4294967296 -> fst (encodeMsg id1 m1) = Ok b1 -> fst (encodeMsg id2 m2) = Ok b2 ->
  file n1 = Some b1 -> file n2 = Some b2 -> clock_dates m1 -> clock_dates m2 ->
  ippdecode file [n1] = Ok (0, out, err1) -> ippdecode file [n2] = Ok (0, out, err2) ->
  out <> [] /\ m_opOrStatus m1 = m_opOrStatus m2 /\ m_opAttrs m1 = m_opAttrs m2 /\ filter nonempty (m_jobAttrs m1) = filter nonempty (m_jobAttrs m2) /\ m_printerAttrs m1 = m_printerAttrs m2.
Proof.
  intros W1 W2 I1 I2 E1 E2 F1 F2 L1 L2 H1 H2.
  destruct (C25_round_trip id1 m1 W1 I1) as [c1 [C1 [D1 _]]]. rewrite E1 in C1. injection C1 as <-.
  destruct (C25_round_trip id2 m2 W2 I2) as [c2 [C2 [D2 _]]]. rewrite E2 in C2. injection C2 as <-.
  pose proof (decode_shown _ _ _ _ _ _ _ F1 D1 H1) as T1. pose proof (decode_shown _ _ _ _ _ _ _ F2 D2 H2) as T2.
  match type of T1 with msg_text ?a = _ => set (n1' := a) in * end. match type of T2 with msg_text ?a = _ => set (n2' := a) in * end. split; [rewrite <- T1; discriminate|].
  rewrite <- T2 in T1. clear H1 H2 T2.
  unfold wf_msg in W1, W2. repeat (apply andb_prop in W1 as [W1 ?]; apply andb_prop in W2 as [W2 ?]). unfold u16_ok in *.
  destruct (msg_text_inj n1' n2') as [Q1 [Q2 [Q3 Q4]]]; [cbn; lia|cbn; lia|exact T1|]. cbn in Q1, Q2, Q3, Q4. split; [exact Q1|].
  split; [apply typed_attrs_inj; try assumption; [apply (clock_group _ _ L1)|apply (clock_group _ _ L2)]; left; reflexivity|].
  assert (K : forall l, forallb wf_attrs l = true -> forallb wf_attrs (filter nonempty l) = true). { intros l. rewrite !forallb_forall. intros A x X. apply filter_In in X. apply A. tauto. }
  split; [apply typed_groups_inj; [apply K; assumption|apply K; assumption| | |exact Q3]; intros g Hg; apply filter_In in Hg; [apply (clock_group _ _ L1)|apply (clock_group _ _ L2)]; right; right; tauto|].
  apply typed_attrs_inj; try assumption; [apply (clock_group _ _ L1)|apply (clock_group _ _ L2)]; right; left; reflexivity.
Qed.
(** Dates: the offsets of hours and minutes are written next to each other. *)
Definition with_date (d : list Z) : list byte := map bZ ([1; 1; 0; 0; 0; 0; 0; 1; 4; 0x31; 0; 1; 97; 0; 11] ++ d ++ [3]).
Theorem C87_dates_refuted : exists b1 b2 m1 m2, decodeMsg b1 = Ok (m1, []) /\ decodeMsg b2 = Ok (m2, []) /\ m_printerAttrs m1 <> m_printerAttrs m2 /\
  forall file n1 n2, file n1 = Some b1 -> file n2 = Some b2 -> exists out, ippdecode file [n1] = Ok (0, out, []) /\ ippdecode file [n2] = Ok (0, out, []) /\ out <> [].
Proof.
  exists (with_date [7; 208; 1; 2; 3; 4; 5; 6; 43; 12; 120]), (with_date [7; 208; 1; 2; 3; 4; 5; 6; 43; 121; 20]). eexists. eexists.
  split; [vm_compute; reflexivity|]. split; [vm_compute; reflexivity|]. split; [discriminate|]. intros file n1 n2 H1 H2. cbn [ippdecode]. rewrite H1, H2. eexists. split; [vm_compute; reflexivity|]. split; [vm_compute; reflexivity|discriminate].
Qed.
(** Nothing is written to the standard output exactly if the message is malformed, and then
    standard error ends with a line that says so; the exit code is 0 all the same. *)
Theorem C87_malformed_refuted file name b c out err : file name = Some b -> ippdecode file [name] = Ok (c, out, err) ->
  c = 0 /\ (out = [] <-> exists e, decodeMsg b = Throw e) /\ ((exists w, err = w ++ bytes_of_string "Exception caught." ++ [bZ 10]) <-> exists e, decodeMsg b = Throw e).
Proof.
  intros F H. cbn [ippdecode] in H. rewrite F in H. rewrite <- decodeMsg_w_snd. pose proof (decodeMsg_w_braced b) as B. destruct (decodeMsg_w b) as [w [[m r]|e| | |]] eqn:D; try discriminate; cbn [fst snd] in *.
  - assert (c = 0) as -> by congruence. assert (msg_text m = out) as <- by congruence. assert (err = w) as -> by congruence. repeat split.
    + intros E. discriminate E.
    + intros [e E]. discriminate.
    + intros [x E]. exfalso. destruct B as [->|[y ->]].
      * symmetry in E. apply app_eq_nil in E. destruct E as [_ E]. discriminate E.
      * rewrite app_assoc in E. apply app_inj_tail in E. destruct E as [_ E]. discriminate E.
    + intros [e E]. discriminate.
  - assert (c = 0) as -> by congruence. assert (out = []) as -> by congruence. assert (w ++ line (bytes_of_string "Exception caught.") = err) as <- by congruence. repeat split; eauto.
Qed.
(** Other than that the exit code tells whether there was a file to decode. *)
Theorem C87_exit_code file args c out err : ippdecode file args = Ok (c, out, err) ->
  (c = 0 <-> exists name b, args = [name] /\ file name = Some b) /\ (c <> 0 -> c = 1 /\ out = [] /\ err <> []).
Proof.
  intros H. assert (N : (~ exists name b, args = [name] /\ file name = Some b) -> c = 1 /\ out = [] /\ err <> []).
  { intros N. destruct args as [|name [|x l]]; cbn [ippdecode] in H; try (injection H as <- <- <-; split; [reflexivity|split; [reflexivity|discriminate]]).
    destruct (file name) as [b|] eqn:F; [exfalso; apply N; eauto|]. injection H as <- <- <-. split; [reflexivity|split; [reflexivity|discriminate]]. }
  assert (Y : (exists name b, args = [name] /\ file name = Some b) -> c = 0). { intros [name [b [-> F]]]. eapply C87_malformed_refuted; eassumption. }
  assert (X : (exists name b, args = [name] /\ file name = Some b) \/ ~ exists name b, args = [name] /\ file name = Some b).
  { destruct args as [|name [|x l]]; try (right; intros [n' [b' [E _]]]; discriminate E). destruct (file name) as [b|] eqn:F; [left; eauto|]. right. intros [n' [b' [E F']]]. injection E as <-. congruence. }
  destruct X as [X|X].
  - split; [split; [intros _; exact X|exact Y]|]. intros C. exfalso. apply C. apply Y. exact X.
  - destruct (N X) as [-> N']. split; [split; [discriminate|contradiction]|]. intros _. split; [reflexivity|exact N'].
Qed.
Definition status_msg : ipp_msg := mkMsg 0x0b 2 0 [("attributes-charset", (tCharset, VStr "utf-8"))]%string [[("copies"%string, (tInteger, VInt (-2)))]]
  [("media-supported", (tKeyword, VSet [VStr "iso_a4"; VStr "\"])); ("printer-current-time", (tDateTime, VDate (mkDate 2024 2 29 23 59 60 9 45 13 59)))]%string.
Example C87_example : wf_msg status_msg = true /\ clock_dates status_msg /\
  match fst (encodeMsg 1 status_msg) with
  | Ok b =>
      match ippdecode (fun _ => Some b) ["-"%string] with
      | Ok (c, out, err) => c = 0 /\ err = [] /\ firstn 44 out = bytes_of_string "IPP operation or status: 11" ++ bZ 10 :: bytes_of_string "Operation attrs:"
      | _ => False
      end
  | _ => False
  end.
Proof.
  split; [vm_compute; reflexivity|]. split.
  - intros g k a H. cbn in H. destruct H as [<-|[<-|[<-|[]]]]; cbn; intros H; repeat (destruct H as [E|H]; [injection E as <- <-; reflexivity|]); destruct H.
  - vm_compute. repeat split.
Qed.
Example C87_malformed_example : ippdecode (fun _ => Some (map bZ [1; 1; 0])) ["x"%string] = Ok (0, [], line (bytes_of_string "Exception caught.")).
Proof. vm_compute. reflexivity. Qed.

Print Assumptions C87_output_determines_partial.
Print Assumptions C87_encoded_partial.
Print Assumptions C87_dates_refuted.
Print Assumptions C87_malformed_refuted.
Print Assumptions C87_exit_code.
