(** C70-C76: the command line client. *)
From Verif Require Import Base BaseLemmas MapModel MapProofs FloatModel StringModel StringSpec StringProofs StringProperties ParamsModel ParamsSpec ParamsProofs ParamsProperties
  IppModel IppEncProofs JsonModel ArgModel ArgSpec ArgProperties SettingModel SettingProperties ConverterModel ConverterProperties JobModel JobProofs JobProperties
  PrinterModel PrinterProperties SettingsModel ClientModel ClientSpec.
From Coq Require Import Lia ZifyBool.
Local Open Scope Z_scope.

(** ** Steps of the option list *)
(** [j'] is [j] after some settings were made *)
Definition sets (l : list (setting * ipp_value)) : list op := map (fun e => Set_ (fst e) (snd e)) l.
Definition made (l lo : list (setting * ipp_value)) (j j' : job) : Prop :=
  run_ops (sets l) (j_jobAttrs j) = Ok (j_jobAttrs j') /\ run_ops (sets lo) (j_opAttrs j) = Ok (j_opAttrs j') /\
  j_params j' = j_params j /\ j_target j' = j_target j /\ j_oneStage j' = j_oneStage j /\ j_margins j' = j_margins j /\
  j_printerAttrs j' = j_printerAttrs j /\ j_additional j' = j_additional j.
Lemma run_ops_app l1 : forall l2 m m', run_ops l1 m = Ok m' -> run_ops (l1 ++ l2) m = run_ops l2 m'.
Proof.
  induction l1 as [|o l1 IH]; intros l2 m m' H; cbn [run_ops app] in *; [congruence|].
  destruct o; bind_inv H as m1 E H; rewrite E; cbn [bind]; apply IH; exact H.
Qed.
Lemma made_refl j : made [] [] j j.
Proof. repeat split; reflexivity. Qed.
Lemma made_trans l1 o1 l2 o2 j1 j2 j3 : made l1 o1 j1 j2 -> made l2 o2 j2 j3 -> made (l1 ++ l2) (o1 ++ o2) j1 j3.
Proof.
  intros (A1 & A2 & A3 & A4 & A5 & A6 & A7 & A8) (B1 & B2 & B3 & B4 & B5 & B6 & B7 & B8). unfold made, sets in *. rewrite !map_app.
  rewrite (run_ops_app _ _ _ _ A1), (run_ops_app _ _ _ _ A2). repeat split; congruence.
Qed.
Lemma made_job s v j j' : set_job j s v = Ok j' -> made [(s, v)] [] j j'.
Proof.
  unfold set_job. intros H. bind_inv H as m E H. injection H as <-. unfold made. cbn [sets map run_ops fst snd with_job j_jobAttrs j_opAttrs j_params j_target j_oneStage j_margins j_printerAttrs j_additional].
  rewrite E. repeat split; reflexivity.
Qed.
Lemma made_op s v j j' : set_op j s v = Ok j' -> made [] [(s, v)] j j'.
Proof.
  unfold set_op. intros H. bind_inv H as m E H. injection H as <-. unfold made. cbn [sets map run_ops fst snd with_op j_jobAttrs j_opAttrs j_params j_target j_oneStage j_margins j_printerAttrs j_additional].
  rewrite E. repeat split; reflexivity.
Qed.
Lemma obind_some x k j : obind x k = Ok (Some j) -> exists j1, x = Ok (Some j1) /\ k j1 = Ok (Some j).
Proof. unfold obind. intros H. bind_inv H as o E H. destruct o as [j1|]; [|discriminate]. exists j1. split; assumption. Qed.
Lemma made_attrs l lo j j' : made l lo j j' -> j_printerAttrs j' = j_printerAttrs j.
Proof. intros (_ & _ & _ & _ & _ & _ & H & _). exact H. Qed.
Definition of_job (l : list (setting * ipp_value)) : Prop := Forall (fun e => job_setting (fst e)) l.
Lemma made_wf l lo j j' : of_job l -> made l lo j j' -> wf_job (j_jobAttrs j) ->
  wf_job (j_jobAttrs j') /\ forall s, job_setting s -> option_map snd (lookup s (j_jobAttrs j')) = value_after (sets l) s (option_map snd (lookup s (j_jobAttrs j))).
Proof.
  intros Hl (H & _) Hw. destruct (run_ops_lookup (sets l) (j_jobAttrs j) Hw) as (m & E & W & L).
  { unfold sets. apply Forall_map. exact Hl. }
  rewrite H in E. injection E as E. rewrite <- E in *. split; assumption.
Qed.

Definition stage (pa : ipp_attrs) (force : bool) (l lo : list (setting * ipp_value)) (f : job -> outcome (option job)) : Prop :=
  of_job l /\ forall j j', j_printerAttrs j = pa -> f j = Ok (Some j') -> made l lo j j' /\ (force = false -> Forall (acceptable pa) (l ++ lo)).
Definition decided (pa : ipp_attrs) (force : bool) (l lo : list (setting * ipp_value)) (f : job -> outcome (option job)) : Prop :=
  forall j, j_printerAttrs j = pa -> wf_job (j_jobAttrs j) ->
    (f j = Ok None /\ force = false /\ ~ Forall (acceptable pa) (l ++ lo)) \/ exists j', f j = Ok (Some j').
Lemma stage_go pa force l1 o1 l2 o2 f g : stage pa force l1 o1 f -> stage pa force l2 o2 g -> stage pa force (l1 ++ l2) (o1 ++ o2) (fun j => obind (f j) g).
Proof.
  intros [F1 F2] [G1 G2]. split; [apply Forall_app; split; assumption|]. intros j j' Hj H. apply obind_some in H. destruct H as (j1 & E1 & E2).
  destruct (F2 j j1 Hj E1) as [M1 A1]. destruct (G2 j1 j' (eq_trans (made_attrs _ _ _ _ M1) Hj) E2) as [M2 A2].
  split; [eapply made_trans; eassumption|]. intros Hf. specialize (A1 Hf). specialize (A2 Hf). rewrite !Forall_app in *. tauto.
Qed.
Lemma decided_go pa force l1 o1 l2 o2 f g : stage pa force l1 o1 f -> decided pa force l1 o1 f -> decided pa force l2 o2 g ->
  decided pa force (l1 ++ l2) (o1 ++ o2) (fun j => obind (f j) g).
Proof.
  intros [F1 F2] D1 D2 j Hj Hw. destruct (D1 j Hj Hw) as [(E & Hf & N)|(j1 & E)]; unfold obind; rewrite E; cbn [bind].
  - left. split; [reflexivity|]. split; [exact Hf|]. intros K. apply N. rewrite !Forall_app in *. tauto.
  - destruct (F2 j j1 Hj E) as [M1 A1]. destruct (made_wf _ _ _ _ F1 M1 Hw) as [W1 _].
    destruct (D2 j1 (eq_trans (made_attrs _ _ _ _ M1) Hj) W1) as [(E2 & Hf & N)|R]; [left|right; exact R].
    split; [exact E2|]. split; [exact Hf|]. intros K. apply N. rewrite !Forall_app in *. tauto.
Qed.

(** *** Single options *)
Lemma basic_eqb_eq a b : basic_eqb a b = true -> a = b.
Proof.
  destruct a, b; cbn [basic_eqb]; try discriminate; intros H.
  - apply String.eqb_eq in H. congruence.
  - apply Z.eqb_eq in H. congruence.
  - apply andb_prop in H. destruct H as [H H3]. apply andb_prop in H. destruct H as [H1 H2]. apply Z.eqb_eq in H1. apply Z.eqb_eq in H2. apply Z.eqb_eq in H3. congruence.
Qed.
Definition basic (v : ipp_value) : Prop := basic_eqb v v = true.
Lemma basic_str s : basic (VStr s). Proof. apply String.eqb_refl. Qed.
Lemma basic_int z : basic (VInt z). Proof. apply Z.eqb_refl. Qed.
Lemma basic_res x y u : basic (VRes x y u). Proof. unfold basic. cbn [basic_eqb]. rewrite !Z.eqb_refl. reflexivity. Qed.
Lemma choice_spec pa s v b : basic v -> choice_supports pa s v = Ok b -> b = true <-> In v (values (s_name s ++ "-supported") pa).
Proof.
  intros Hv H. unfold choice_supports, getSupported in H. bind_inv H as l E H. injection H as <-. apply getList_values in E. destruct E as [-> _].
  rewrite existsb_exists. split.
  - intros (x & Hx & E). apply basic_eqb_eq in E. congruence.
  - intros K. exists v. split; [exact K|exact Hv].
Qed.
Lemma choice_total pa s v : well_typed pa -> In s choices -> exists b, choice_supports pa s v = Ok b.
Proof.
  intros [H _] Hs. unfold choice_supports, getSupported. rewrite (getList_total _ _ _ (H s Hs)). eexists. reflexivity.
Qed.
Lemma choice_jobs s : In s choices -> job_setting s.
Proof. intros H. repeat destruct H as [<-|H]; try (left; split; [reflexivity|discriminate]); try (right; reflexivity). destruct H. Qed.
Lemma choice_not_copies s : In s choices -> String.eqb (s_name s) "copies" = false.
Proof. intros H. repeat destruct H as [<-|H]; try reflexivity. destruct H. Qed.
Lemma acceptable_choice pa s v : In s choices -> acceptable pa (s, v) <-> In v (values (s_name s ++ "-supported") pa).
Proof.
  intros H. unfold acceptable, supports. cbn [fst snd]. rewrite (choice_not_copies s H). split; [|tauto]. intros [K|[-> _]]; [exact K|].
  apply choice_not_copies in H. discriminate.
Qed.
Lemma set_job_total j s v : wf_job (j_jobAttrs j) -> job_setting s -> exists j', set_job j s v = Ok j'.
Proof. intros Hw Hs. unfold set_job. destruct (set_lookup s v _ Hs Hw) as (m & E & _). rewrite E. eexists. reflexivity. Qed.
Lemma Forall_one (A : Type) (P : A -> Prop) x : Forall P [x] <-> P x.
Proof. split; [intros H; inversion H; assumption|intros H; constructor; [exact H|constructor]]. Qed.

Lemma stage_choice pa force g s v : basic v -> In s choices ->
  stage pa force (ask g s v) [] (fun j => set_or_fail g (choice_supports (j_printerAttrs j) s v) force (fun j => set_job j s v) j).
Proof.
  intros Hb Hs. split; [destruct g; constructor; [exact (choice_jobs s Hs)|constructor]|]. intros j j' <- H. unfold set_or_fail in H. destruct g.
  - bind_inv H as ok E H. destruct (ok || force) eqn:K; [|discriminate]. bind_inv H as j1 E1 H. injection H as <-. split; [apply made_job; exact E1|].
    intros ->. rewrite orb_false_r in K. subst ok. cbn [ask List.app]. apply Forall_one, acceptable_choice; [exact Hs|]. apply (choice_spec _ _ _ _ Hb E). reflexivity.
  - injection H as <-. split; [apply made_refl|]. constructor.
Qed.
Lemma decided_choice pa force g s v : well_typed pa -> basic v -> In s choices ->
  decided pa force (ask g s v) [] (fun j => set_or_fail g (choice_supports (j_printerAttrs j) s v) force (fun j => set_job j s v) j).
Proof.
  intros Ht Hb Hs j <- Hw. unfold set_or_fail. destruct g; [|right; eexists; reflexivity].
  destruct (choice_total _ s v Ht Hs) as [b E]. rewrite E. cbn [bind]. pose proof (choice_spec _ _ _ _ Hb E) as S. destruct (b || force) eqn:K.
  - right. destruct (set_job_total j s v Hw (choice_jobs s Hs)) as [j' ->]. eexists. reflexivity.
  - left. apply orb_false_elim in K. destruct K as [-> ->]. split; [reflexivity|]. split; [reflexivity|]. cbn [ask List.app]. rewrite Forall_one, acceptable_choice by exact Hs.
    intros X. apply S in X. discriminate.
Qed.
Lemma stage_format st pa force : stage pa force [] (format_request st) (format_option st force).
Proof.
  split; [constructor|]. intros j j' <- H. unfold format_option, set_or_fail in H. unfold format_request, given. destruct (a_set st 15).
  - bind_inv H as ok E H. destruct (ok || force) eqn:K; [|discriminate]. bind_inv H as j1 E1 H. injection H as <-. split; [apply made_op; exact E1|].
    intros ->. rewrite orb_false_r in K. subst ok. cbn [ask List.app]. apply Forall_one, acceptable_choice; [cbn; tauto|]. apply (choice_spec _ _ _ _ (basic_str _) E). reflexivity.
  - injection H as <-. split; [apply made_refl|]. constructor.
Qed.
Lemma decided_format st pa force : well_typed pa -> decided pa force [] (format_request st) (format_option st force).
Proof.
  intros Ht j <- Hw. unfold format_option, set_or_fail, format_request, given. destruct (a_set st 15); [|right; eexists; reflexivity].
  assert (Hs : In s_documentFormat choices) by (cbn; tauto). set (v := VStr _). assert (Hb : basic v) by apply basic_str.
  destruct (choice_total _ s_documentFormat v Ht Hs) as [b E]. rewrite E. cbn [bind]. pose proof (choice_spec _ _ _ _ Hb E) as S. destruct (b || force) eqn:K.
  - right. eexists. reflexivity.
  - left. apply orb_false_elim in K. destruct K as [-> ->]. split; [reflexivity|]. split; [reflexivity|]. cbn [ask List.app]. change (text st 15) with v. rewrite Forall_one, acceptable_choice by exact Hs.
    intros X. apply S in X. discriminate.
Qed.
Lemma raster_printer_spec pa b : supportsPrinterRaster pa = Ok b -> b = true <-> raster_printer pa.
Proof.
  unfold supportsPrinterRaster, str_list. intros H. bind_inv H as l E H. bind_inv E as vs E2 E. injection E as <-. injection H as <-.
  apply getList_values in E2. destruct E2 as [-> E2]. unfold raster_printer. rewrite orb_true_iff, !(strs_in _ _ E2). reflexivity.
Qed.
Lemma range_spec pa v b : range_supports pa s_copies v = Ok b -> b = true <-> supports pa s_copies v.
Proof.
  unfold range_supports, isSupported, supports, map_has, attrs_get, attrs_at. cbn [s_name s_copies String.append String.eqb Ascii.eqb Bool.eqb].
  destruct (map_get "copies-supported" pa) as [[t r]|]; cbn [bind snd].
  - unfold get_as. destruct r; cbn [has_type]; try discriminate. intros H. injection H as <-. split.
    + intros K. destruct v; try discriminate. apply andb_prop in K. exists t, low, high, z. split; [reflexivity|]. split; [reflexivity|]. lia.
    + intros (t' & lo & hi & z & E & -> & K). injection E as <- <- <-. apply andb_true_intro. lia.
  - intros H. injection H as <-. split; [discriminate|]. intros (t' & lo & hi & z & E & _). discriminate.
Qed.
Lemma range_total pa v : well_typed pa -> exists b, range_supports pa s_copies v = Ok b.
Proof.
  intros [_ H]. unfold range_supports, isSupported, map_has, attrs_get, attrs_at. cbn [s_name s_copies String.append].
  destruct (map_get "copies-supported" pa) as [[t r]|]; [|eexists; reflexivity]. specialize (H _ eq_refl). cbn [bind snd] in *. unfold get_as. rewrite H. eexists. reflexivity.
Qed.
Lemma stage_copies st pa force : stage pa force (ask (given st 5) s_copies (number st 5)) [] (copies_option st pa force).
Proof.
  split; [unfold given; destruct (a_set st 5); constructor; [left; split; [reflexivity|discriminate]|constructor]|].
  intros j j' <- H. unfold copies_option in H. bind_inv H as f' Ef H. unfold set_or_fail in H. unfold given. destruct (a_set st 5).
  - bind_inv H as ok E H. destruct (ok || f') eqn:K; [|discriminate]. bind_inv H as j1 E1 H. injection H as <-. split; [apply made_job; exact E1|].
    intros ->. cbn [ask List.app]. apply Forall_one. unfold acceptable. cbn [fst snd]. apply orb_prop in K. destruct K as [K|K]; subst.
    + left. apply (range_spec _ _ _ E). reflexivity.
    + right. split; [reflexivity|]. apply (raster_printer_spec _ _ Ef). reflexivity.
  - injection H as <-. split; [apply made_refl|]. constructor.
Qed.
Lemma decided_copies st pa force : well_typed pa -> decided pa force (ask (given st 5) s_copies (number st 5)) [] (copies_option st pa force).
Proof.
  intros Ht j <- Hw. unfold copies_option. destruct (range_total _ (number st 5) Ht) as [b E].
  assert (Hf : exists f', (if force then Ok true else supportsPrinterRaster (j_printerAttrs j)) = Ok f').
  { destruct force; [eexists; reflexivity|]. unfold supportsPrinterRaster, str_list.
    rewrite (getList_total TStr "document-format-supported" _ (proj1 Ht s_documentFormat ltac:(cbn; tauto))). eexists. reflexivity. }
  destruct Hf as [f' Ef]. rewrite Ef. cbn [bind]. unfold set_or_fail, given. destruct (a_set st 5); [|right; eexists; reflexivity].
  change (VInt (as_int (a_val st 5))) with (number st 5). rewrite E. cbn [bind]. destruct (b || f') eqn:K.
  - right. destruct (set_job_total j s_copies (number st 5) Hw ltac:(left; split; [reflexivity|discriminate])) as [j' ->]. eexists. reflexivity.
  - left. apply orb_false_elim in K. destruct K as [-> ->]. split; [reflexivity|]. destruct force; [discriminate|]. split; [reflexivity|]. cbn [ask List.app]. rewrite Forall_one.
    intros [X|[_ X]]; [apply (range_spec _ _ _ E) in X|apply (raster_printer_spec _ _ Ef) in X]; discriminate.
Qed.
Lemma stage_none pa force : stage pa force [] [] (fun j => Ok (Some j)).
Proof. split; [constructor|]. intros j j' _ H. injection H as <-. split; [apply made_refl|constructor]. Qed.
Lemma decided_none pa force : decided pa force [] [] (fun j => Ok (Some j)).
Proof. intros j _ _. right. eexists. reflexivity. Qed.

(** *** All options *)
Lemma stage_guard pa force l lo (f : job -> outcome (option job)) {A} (x : job -> outcome A) : stage pa force l lo f -> stage pa force l lo (fun j => bind (x j) (fun _ => f j)).
Proof. intros [F1 F2]. split; [exact F1|]. intros j j' Hj H. bind_inv H as a E H. exact (F2 j j' Hj H). Qed.
Lemma decided_guard pa force l lo (f : job -> outcome (option job)) {A} (x : job -> outcome A) : (forall j, j_printerAttrs j = pa -> exists a, x j = Ok a) ->
  decided pa force l lo f -> decided pa force l lo (fun j => bind (x j) (fun _ => f j)).
Proof. intros Hx D j Hj Hw. destruct (Hx j Hj) as [a ->]. exact (D j Hj Hw). Qed.
Ltac is_choice := cbn; tauto.
Lemma stage_str st pa force i s : In s choices -> stage pa force (ask (given st i) s (text st i)) [] (str_option st i s force).
Proof. intros H. apply stage_choice; [apply basic_str|exact H]. Qed.
Lemma stage_int st pa force i s : In s choices -> stage pa force (ask (given st i) s (number st i)) [] (int_option st i s force).
Proof. intros H. apply stage_choice; [apply basic_int|exact H]. Qed.
Lemma decided_str st pa force i s : well_typed pa -> In s choices -> decided pa force (ask (given st i) s (text st i)) [] (str_option st i s force).
Proof. intros T H. apply decided_choice; [exact T|apply basic_str|exact H]. Qed.
Lemma decided_int st pa force i s : well_typed pa -> In s choices -> decided pa force (ask (given st i) s (number st i)) [] (int_option st i s force).
Proof. intros T H. apply decided_choice; [exact T|apply basic_int|exact H]. Qed.

Definition margin_requests (st : astate) : list (setting * ipp_value) :=
  ask (given st 21) s_topMargin (number st 21) ++ ask (given st 21) s_bottomMargin (number st 21) ++ ask (given st 21) s_leftMargin (number st 21) ++ ask (given st 21) s_rightMargin (number st 21).
Definition four (st : astate) (force : bool) (j : job) : outcome (option job) :=
  obind (int_option st 21 s_topMargin force j) (fun j => obind (int_option st 21 s_bottomMargin force j) (fun j =>
    obind (int_option st 21 s_leftMargin force j) (fun j => int_option st 21 s_rightMargin force j))).
Lemma stage_four st pa force : stage pa force (margin_requests st) [] (four st force).
Proof.
  unfold margin_requests, four. apply (stage_go pa force _ [] _ []); [apply stage_int; is_choice|]. apply (stage_go pa force _ [] _ []); [apply stage_int; is_choice|].
  apply (stage_go pa force _ [] _ []); [apply stage_int; is_choice|]. apply stage_int; is_choice.
Qed.
Lemma decided_four st pa force : well_typed pa -> decided pa force (margin_requests st) [] (four st force).
Proof.
  intros T. unfold margin_requests, four. do 3 (apply (decided_go pa force _ [] _ []); [apply stage_int; is_choice|apply decided_int; [exact T|is_choice]|]). apply decided_int; [exact T|is_choice].
Qed.
Lemma stage_margin st pa force : stage pa force (margin_requests st) [] (margin_option st force).
Proof.
  destruct (stage_four st pa force) as [F1 F2]. split; [exact F1|]. intros j j' Hj H. unfold margin_option in H. unfold margin_requests, given in *. destruct (a_set st 21).
  - destruct (negb force && _); [discriminate|]. exact (F2 j j' Hj H).
  - injection H as <-. split; [apply made_refl|constructor].
Qed.
Lemma unsupported_values pa s : isSupported pa s = false -> values (s_name s ++ "-supported") pa = [].
Proof. unfold isSupported, map_has, values. destruct (map_get _ pa); [discriminate|reflexivity]. Qed.
Lemma decided_margin st pa force : well_typed pa -> decided pa force (margin_requests st) [] (margin_option st force).
Proof.
  intros T j Hj Hw. destruct (decided_four st pa force T j Hj Hw) as [D|D]; unfold margin_option, margin_requests, given in *; destruct (a_set st 21); try (right; eexists; reflexivity).
  - destruct (negb force && _); [|left; exact D]. left. destruct D as (_ & D). split; [reflexivity|exact D].
  - destruct (negb force && _) eqn:K; [|right; exact D]. left. split; [reflexivity|]. apply andb_prop in K. destruct K as [K1 K2]. split; [destruct force; [discriminate|reflexivity]|].
    rewrite Hj in K2. cbn [ask List.app]. intros X. inversion_clear X as [|? ? X1 Y]. inversion_clear Y as [|? ? X2 Y1]. inversion_clear Y1 as [|? ? X3 Y]. inversion_clear Y as [|? ? X4 _].
    apply acceptable_choice in X1; [|is_choice]. apply acceptable_choice in X2; [|is_choice]. apply acceptable_choice in X3; [|is_choice]. apply acceptable_choice in X4; [|is_choice].
    rewrite !orb_true_iff, !negb_true_iff in K2. destruct K2 as [[[K2|K2]|K2]|K2]; apply unsupported_values in K2; [rewrite K2 in X1; destruct X1|rewrite K2 in X2; destruct X2|rewrite K2 in X3; destruct X3|rewrite K2 in X4; destruct X4].
Qed.


Definition later_requests (st : astate) : list (setting * ipp_value) :=
  ask (given st 8) s_resolution (VRes (as_int (a_val st 8%nat)) (as_int (a_val st 8%nat)) 3)
  ++ ask (given st 9 && given st 10) s_resolution (VRes (as_int (a_val st 9%nat)) (as_int (a_val st 10%nat)) 3)
  ++ ask (given st 11) s_sides (text st 11)
  ++ ask (given st 12) s_colorMode (text st 12)
  ++ ask (given st 13) s_printQuality (number st 13)
  ++ ask (given st 14) s_scaling (text st 14)
  ++ ask (given st 17) s_mediaType (text st 17)
  ++ ask (given st 18) s_mediaSource (text st 18)
  ++ ask (given st 19) s_outputBin (text st 19)
  ++ ask (given st 20) s_finishings (number st 20)
  ++ margin_requests st
  ++ ask (given st 22) s_topMargin (number st 22)
  ++ ask (given st 23) s_bottomMargin (number st 23)
  ++ ask (given st 24) s_leftMargin (number st 24)
  ++ ask (given st 25) s_rightMargin (number st 25).
Lemma requests_split st : requests st = ask (given st 5) s_copies (number st 5)
  ++ ask (given st 6) s_multipleDocumentHandling
       (VStr (if as_int (a_val st 6%nat) =? 1 then "separate-documents-collated-copies" else "separate-documents-uncollated-copies"))
  ++ ask (given st 7) s_media (text st 7) ++ later_requests st.
Proof. unfold requests, later_requests, margin_requests. rewrite <- !app_assoc. reflexivity. Qed.
Lemma stage_later st pa force : stage pa force (later_requests st) (format_request st) (later_options st force).
Proof.
  unfold later_requests, later_options. apply stage_guard.
  apply (stage_go pa force _ [] _ (format_request st)); [apply stage_choice; [apply basic_res|is_choice]|].
  apply (stage_go pa force _ [] _ (format_request st)); [apply stage_choice; [apply basic_res|is_choice]|].
  do 2 (apply (stage_go pa force _ [] _ (format_request st)); [apply stage_str; is_choice|]).
  apply (stage_guard _ _ _ _ (fun j => obind (int_option st 13 s_printQuality force j) _)).
  apply (stage_go pa force _ [] _ (format_request st)); [apply stage_int; is_choice|].
  apply (stage_go pa force _ [] _ (format_request st)); [apply stage_str; is_choice|].
  rewrite <- (app_nil_r (format_request st)). apply (stage_go pa force [] (format_request st)); [apply stage_format|].
  do 3 (apply (stage_go pa force _ [] _ []); [apply stage_str; is_choice|]). apply (stage_go pa force _ [] _ []); [apply stage_int; is_choice|].
  apply (stage_go pa force _ [] _ []); [apply stage_margin|]. do 3 (apply (stage_go pa force _ [] _ []); [apply stage_int; is_choice|]). apply stage_int; is_choice.
Qed.
Lemma aliases_total l : (forall v, In v l -> v = VInt 3 \/ v = VInt 4 \/ v = VInt 5) -> exists a, aliases l = Ok a.
Proof.
  induction l as [|v l IH]; intros H; [eexists; reflexivity|]. destruct (IH (fun v Hv => H v (or_intror Hv))) as [a E]. cbn [aliases].
  destruct (H v (or_introl eq_refl)) as [-> | [-> | ->]]; cbn [v_int]; rewrite E; eexists; reflexivity.
Qed.
Lemma decided_later st pa force : well_typed pa -> known_qualities pa -> decided pa force (later_requests st) (format_request st) (later_options st force).
Proof.
  intros T Q. unfold later_requests, later_options. apply decided_guard.
  { intros j ->. unfold getSupported. rewrite (getList_total _ _ _ (proj1 T s_resolution ltac:(is_choice))). eexists. reflexivity. }
  do 2 (apply (decided_go pa force _ [] _ (format_request st)); [apply stage_choice; [apply basic_res|is_choice]|apply decided_choice; [exact T|apply basic_res|is_choice]|]).
  do 2 (apply (decided_go pa force _ [] _ (format_request st)); [apply stage_str; is_choice|apply decided_str; [exact T|is_choice]|]).
  apply (decided_guard _ _ _ _ (fun j => obind (int_option st 13 s_printQuality force j) _)).
  { intros j ->. unfold getSupported. rewrite (getList_total _ _ _ (proj1 T s_printQuality ltac:(is_choice))). cbn [bind]. apply aliases_total. exact Q. }
  apply (decided_go pa force _ [] _ (format_request st)); [apply stage_int; is_choice|apply decided_int; [exact T|is_choice]|].
  apply (decided_go pa force _ [] _ (format_request st)); [apply stage_str; is_choice|apply decided_str; [exact T|is_choice]|].
  rewrite <- (app_nil_r (format_request st)). apply (decided_go pa force [] (format_request st)); [apply stage_format|apply decided_format; exact T|].
  do 3 (apply (decided_go pa force _ [] _ []); [apply stage_str; is_choice|apply decided_str; [exact T|is_choice]|]).
  apply (decided_go pa force _ [] _ []); [apply stage_int; is_choice|apply decided_int; [exact T|is_choice]|].
  apply (decided_go pa force _ [] _ []); [apply stage_margin|apply decided_margin; exact T|].
  do 3 (apply (decided_go pa force _ [] _ []); [apply stage_int; is_choice|apply decided_int; [exact T|is_choice]|]). apply decided_int; [exact T|is_choice].
Qed.
Lemma stage_other st pa force : stage pa force (requests st) (format_request st) (other_options st pa force).
Proof.
  rewrite requests_split. unfold other_options. apply (stage_go pa force _ [] _ (format_request st)); [apply stage_copies|].
  apply (stage_go pa force _ [] _ (format_request st)); [apply stage_choice; [apply basic_str|is_choice]|].
  apply (stage_go pa force _ [] _ (format_request st)); [apply stage_str; is_choice|]. destruct (stage_later st pa force) as [F1 F2]. split; [exact F1|].
  intros j j' Hj H. destruct (negb _); [discriminate|]. exact (F2 j j' Hj H).
Qed.
Lemma decided_other st pa force : well_typed pa -> known_qualities pa -> given st 9 = given st 10 -> decided pa force (requests st) (format_request st) (other_options st pa force).
Proof.
  intros T Q G. rewrite requests_split. unfold other_options. apply (decided_go pa force _ [] _ (format_request st)); [apply stage_copies|apply decided_copies; exact T|].
  apply (decided_go pa force _ [] _ (format_request st)); [apply stage_choice; [apply basic_str|is_choice]|apply decided_choice; [exact T|apply basic_str|is_choice]|].
  apply (decided_go pa force _ [] _ (format_request st)); [apply stage_str; is_choice|apply decided_str; [exact T|is_choice]|].
  unfold given in G. rewrite G, Bool.eqb_reflx. cbn [negb]. apply decided_later; assumption.
Qed.
Lemma other_axes st pa force j : well_typed pa -> j_printerAttrs j = pa -> wf_job (j_jobAttrs j) -> given st 9 <> given st 10 -> other_options st pa force j = Ok None.
Proof.
  intros T Hj Hw G. unfold other_options. unfold given in G. destruct (Bool.eqb (a_set st 9) (a_set st 10)) eqn:E; [apply Bool.eqb_prop in E; contradiction|].
  cbn [negb].
  assert (K : forall l f, stage pa force l [] f -> decided pa force l [] f -> forall j, j_printerAttrs j = pa -> wf_job (j_jobAttrs j) ->
            f j = Ok None \/ exists j', f j = Ok (Some j') /\ j_printerAttrs j' = pa /\ wf_job (j_jobAttrs j')).
  { intros l f [F1 F2] D j0 H0 W0. destruct (D j0 H0 W0) as [(X & _)|(j' & X)]; [left; exact X|]. right. exists j'. destruct (F2 j0 j' H0 X) as [M _].
    split; [exact X|]. split; [rewrite (made_attrs _ _ _ _ M); exact H0|]. exact (proj1 (made_wf _ _ _ _ F1 M W0)). }
  destruct (K _ _ (stage_copies st pa force) (decided_copies st pa force T) j Hj Hw) as [X|(j1 & X & H1 & W1)]; rewrite X; [reflexivity|]. unfold obind at 1. cbn [bind].
  set (v := VStr (if as_int (a_val st 6%nat) =? 1 then "separate-documents-collated-copies" else "separate-documents-uncollated-copies")).
  destruct (K _ _ (stage_choice pa force (a_set st 6) s_multipleDocumentHandling v (basic_str _) ltac:(is_choice)) (decided_choice pa force (a_set st 6) s_multipleDocumentHandling v T (basic_str _) ltac:(is_choice)) j1 H1 W1)
    as [X1|(j2 & X1 & H2 & W2)]; unfold collated_option; fold v; rewrite X1; [reflexivity|]. unfold obind at 1. cbn [bind].
  destruct (K _ _ (stage_str st pa force 7 s_media ltac:(is_choice)) (decided_str st pa force 7 s_media T ltac:(is_choice)) j2 H2 W2) as [X2|(j3 & X2 & _)]; rewrite X2; reflexivity.
Qed.

(** page ranges *)
Lemma limited_clamp z : pos_clamp z = limited z.
Proof. unfold pos_clamp, limited. change (2 ^ 31) with 2147483648. destruct (Z.ltb_spec z 2147483648); lia. Qed.
Definition asked_pages (st : astate) (rs : list (Z * Z)) : list (setting * ipp_value) := ask (given st 4) s_pageRanges (ranges_value rs).
Lemma parse_spec s : match parsePageRange s with
  | Ok [] => forall rs, ~ range_list s rs
  | Ok rs => range_list s rs
  | Throw e => e = OutOfRange /\ exists a d b n, s = (a ++ d ++ b)%string /\ digits_of d n /\ 2 ^ 64 <= n
  | _ => False
  end.
Proof.
  pose proof (C16_exact_grammar_partial default_params s) as H. unfold setPageRange in H. destruct (parsePageRange s) as [l|e| | |]; cbn [bind] in H; try contradiction; [|exact H].
  destruct l as [|r l]; apply H.
Qed.
Lemma pages_some st j j' : pages_option st j = Ok (Some j') -> exists rs, (given st 4 = true -> range_list (as_str (a_val st 4)) rs) /\ made (asked_pages st rs) [] j j'.
Proof.
  unfold pages_option, asked_pages, given. destruct (a_set st 4).
  - intros H. bind_inv H as l E H. pose proof (parse_spec (as_str (a_val st 4))) as P. rewrite E in P. destruct l as [|r l]; [discriminate|]. bind_inv H as j1 E1 H. injection H as <-.
    exists (r :: l). split; [intros _; exact P|]. cbn [ask]. unfold ranges_value. apply made_job in E1.
    replace (map (fun x => VRange (limited (fst x)) (limited (snd x))) (r :: l)) with (map (fun x => VRange (pos_clamp (fst x)) (pos_clamp (snd x))) (r :: l)); [exact E1|].
    apply List.map_ext. intros x. rewrite !limited_clamp. reflexivity.
  - intros H. injection H as <-. exists []. split; [discriminate|]. apply made_refl.
Qed.
Lemma pages_total st j : wf_job (j_jobAttrs j) -> (given st 4 = true -> forall a d b n, as_str (a_val st 4) = (a ++ d ++ b)%string -> digits_of d n -> n < 2 ^ 64) ->
  (pages_option st j = Ok None /\ given st 4 = true /\ forall rs, ~ range_list (as_str (a_val st 4)) rs) \/ exists j', pages_option st j = Ok (Some j').
Proof.
  intros Hw Hn. unfold pages_option, given in *. destruct (a_set st 4); [|right; eexists; reflexivity].
  pose proof (parse_spec (as_str (a_val st 4))) as P. destruct (parsePageRange _) as [l|e| | |]; try contradiction; cbn [bind].
  - destruct l as [|r l]; [left; split; [reflexivity|]; split; [reflexivity|exact P]|]. right.
    match goal with |- exists j', bind (set_job j s_pageRanges ?v) _ = _ => destruct (set_job_total j s_pageRanges v Hw ltac:(left; split; [reflexivity|discriminate])) as [j' ->] end. eexists. reflexivity.
  - exfalso. destruct P as (_ & a & d & b & n & E & D & N). specialize (Hn eq_refl a d b n E D). lia.
Qed.
Lemma pages_of_job st rs : of_job (asked_pages st rs).
Proof. unfold asked_pages, ask. destruct (given st 4); constructor; [left; split; [reflexivity|discriminate]|constructor]. Qed.

(** ** C70 *)
(** Accepted options: the job holds, for each setting, what the last option asking for it
    says, or what it held; the other members of the job are as before.  Unless forced,
    each value is one the printer lists (or the number of copies of a printer that takes
    raster pages). *)
Theorem C70_accepted : forall st pa force j j', j_printerAttrs j = pa -> apply_options st pa force j = Ok (Some j') -> wf_job (j_jobAttrs j) ->
  exists rs, (given st 4 = true -> range_list (as_str (a_val st 4)) rs) /\
    (force = false -> Forall (acceptable pa) (requests st ++ format_request st)) /\
    (forall s, job_setting s -> option_map snd (lookup s (j_jobAttrs j')) =
       value_after (sets (asked_pages st rs ++ requests st)) s (option_map snd (lookup s (j_jobAttrs j)))) /\
    wf_job (j_jobAttrs j') /\
    j_opAttrs j' = (if given st 15 then map_set "document-format" (tMimeMediaType, text st 15) (j_opAttrs j) else j_opAttrs j) /\
    j_params j' = j_params j /\ j_target j' = j_target j /\ j_oneStage j' = j_oneStage j /\ j_margins j' = j_margins j /\
    j_printerAttrs j' = pa /\ j_additional j' = j_additional j.
Proof.
  intros st pa force j j' Hj H Hw. unfold apply_options in H. apply obind_some in H. destruct H as (j1 & E1 & E2). apply pages_some in E1. destruct E1 as (rs & R & M1).
  destruct (stage_other st pa force) as [F1 F2]. destruct (F2 j1 j' (eq_trans (made_attrs _ _ _ _ M1) Hj) E2) as [M2 A]. exists rs. split; [exact R|]. split; [exact A|].
  pose proof (made_trans _ _ _ _ _ _ _ M1 M2) as M. assert (O : of_job (asked_pages st rs ++ requests st)) by (apply Forall_app; split; [apply pages_of_job|exact F1]).
  destruct (made_wf _ _ _ _ O M Hw) as [W L]. split; [exact L|]. split; [exact W|].
  destruct M as (_ & M & M3 & M4 & M5 & M6 & M7 & M8). split; [|subst pa; repeat split; assumption].
  unfold format_request, ask, sets in M. cbn [List.app] in M. destruct (given st 15); cbn in M; [|congruence]. injection M as M. symmetry. exact M.
Qed.
(** When the printer's attributes have the types and the qualities of the standard, and no
    page number has more than 64 bits: the options are refused exactly when the page ranges
    are wrong, one axis of the resolution is missing, or something asked for is not
    supported and not forced. *)
Theorem C70_refused_partial : forall st pa force j, j_printerAttrs j = pa -> wf_job (j_jobAttrs j) -> well_typed pa -> known_qualities pa ->
  (given st 4 = true -> forall a d b n, as_str (a_val st 4) = (a ++ d ++ b)%string -> digits_of d n -> n < 2 ^ 64) ->
  let bad := (given st 4 = true /\ forall rs, ~ range_list (as_str (a_val st 4)) rs) \/ given st 9 <> given st 10 \/
             (force = false /\ ~ Forall (acceptable pa) (requests st ++ format_request st)) in
  (apply_options st pa force j = Ok None /\ bad) \/ (exists j', apply_options st pa force j = Ok (Some j') /\ ~ bad).
Proof.
  intros st pa force j Hj Hw T Q Hn bad. unfold apply_options.
  destruct (pages_total st j Hw Hn) as [(E & G & N)|(j1 & E)]; unfold obind; rewrite E; cbn [bind]; [left; split; [reflexivity|left; split; assumption]|].
  apply pages_some in E. destruct E as (rs & R & M1). pose proof (eq_trans (made_attrs _ _ _ _ M1) Hj) as Hj1. destruct (made_wf _ _ _ _ (pages_of_job st rs) M1 Hw) as [W1 _].
  destruct (Bool.eqb (given st 9) (given st 10)) eqn:Ax.
  - apply Bool.eqb_prop in Ax. destruct (decided_other st pa force T Q Ax j1 Hj1 W1) as [(E & Hf & N)|(j' & E)].
    + left. split; [exact E|]. right. right. split; assumption.
    + right. exists j'. split; [exact E|]. destruct (stage_other st pa force) as [_ F2]. destruct (F2 j1 j' Hj1 E) as [_ A].
      intros [[G N]|[N|[Hf N]]]; [exact (N rs (R G))|contradiction|exact (N (A Hf))].
  - assert (G : given st 9 <> given st 10) by (intros X; rewrite X, Bool.eqb_reflx in Ax; discriminate). left. split; [apply other_axes; assumption|]. right. left. exact G.
Qed.

(** For the client as a whole: refused options end it with 1, and nothing was sent but the
    requests that opened the printer. *)
Theorem C70_nothing_sent_partial : forall e junk args st msg ev pa id j0 j,
  sub_get_args client_subs (client_init junk) args = Ok (true, "print"%string, msg, st) -> as_bool (a_val st 0) = false ->
  open_printer e (as_str (a_val st 30)) = (ev, Ok (None, pa, id)) -> createJob pa = Ok j0 ->
  (if as_bool (a_val st 28) then j = j0 else restoreSettings (w_user (e_world e)) (parse_opt e) (e_files e) j0 = Ok j) -> wf_job (j_jobAttrs j) -> j_printerAttrs j = pa ->
  well_typed pa -> known_qualities pa ->
  (given st 4 = true -> forall a d b n, as_str (a_val st 4) = (a ++ d ++ b)%string -> digits_of d n -> n < 2 ^ 64) ->
  (given st 4 = true /\ forall rs, ~ range_list (as_str (a_val st 4)) rs) \/ given st 9 <> given st 10 \/
     (as_bool (a_val st 2) = false /\ ~ Forall (acceptable pa) (requests st ++ format_request st)) ->
  client e junk args = (ev, Ok 1).
Proof.
  intros e junk args st msg ev pa id j0 j Ha Hh Ho Hc Hr Hw Hp T Q Hn Hbad. unfold client. rewrite ebind_pure, Ha, Hh. cbn [negb]. rewrite Ho. cbn [ebind fst snd String.eqb Ascii.eqb Bool.eqb].
  assert (P : prepare e st pa = Ok None).
  { unfold prepare. rewrite Hc. cbn [bind].
    replace (if as_bool (a_val st 28) then Ok j0 else restoreSettings (w_user (e_world e)) (parse_opt e) (e_files e) j0) with (Ok j) by (destruct (as_bool (a_val st 28)); congruence).
    cbn [bind]. set (j1 := if a_set st 3%nat then _ else j). set (j2 := if a_set st 26%nat then _ else j1).
    assert (E1 : j_jobAttrs j2 = j_jobAttrs j /\ j_printerAttrs j2 = j_printerAttrs j) by (unfold j2, j1; destruct (a_set st 26), (a_set st 3); split; reflexivity).
    destruct E1 as [E1 E2]. destruct (input_format e st); [|reflexivity].
    destruct (C70_refused_partial st pa (as_bool (a_val st 2)) j2) as [[-> _]|(j' & _ & N)]; try assumption; try congruence; try reflexivity. }
  unfold print_command. cbn [pr_attrs]. rewrite ebind_pure, P. cbn [pure fst snd]. rewrite app_nil_r. reflexivity.
Qed.
(** The client ends with 0 only if the job was run without an error. *)
Theorem C70_success : forall e junk args st msg ev pa id,
  sub_get_args client_subs (client_init junk) args = Ok (true, "print"%string, msg, st) -> as_bool (a_val st 0) = false ->
  open_printer e (as_str (a_val st 30)) = (ev, Ok (None, pa, id)) -> snd (client e junk args) = Ok 0 ->
  exists j fmt inFile pages, prepare e st pa = Ok (Some (j, fmt)) /\ count_pages e fmt (as_str (a_val st 32)) = Some (inFile, pages) /\
    snd (run_job (e_world e) (mkPrinter (as_str (a_val st 30)) (as_bool (a_val st 27)) pa) id j inFile fmt pages) = Ok None.
Proof.
  intros e junk args st msg ev pa id Ha Hh Ho H. unfold client in H. rewrite ebind_pure, Ha, Hh in H. cbn [negb] in H. rewrite Ho in H. cbn [ebind fst snd String.eqb Ascii.eqb Bool.eqb] in H.
  unfold print_command in H. cbn [pr_attrs pr_addr] in H. rewrite ebind_pure in H. destruct (prepare e st pa) as [[[j fmt]|]| | | |]; try discriminate.
  exists j, fmt. destruct (count_pages e fmt _) as [[inFile pages]|]; [|discriminate]. exists inFile, pages. split; [reflexivity|]. split; [reflexivity|].
  apply ebind_ok in H. destruct H as (saved & _ & H & _). destruct saved; [|discriminate]. cbn [negb] in H. apply ebind_ok in H. destruct H as (error & E & H & _).
  destruct error; [discriminate|]. exact E.
Qed.

(** ** C71 *)
Lemma value_after_others l s : Forall (fun e => same s (fst e) = false) l -> forall x, value_after (sets l) s x = x.
Proof. induction 1 as [|e l He Hl IH]; intros x; [reflexivity|]. cbn [sets map value_after]. rewrite He. apply IH. Qed.
Lemma value_after_app l1 : forall l2 s x, value_after (l1 ++ l2) s x = value_after l2 s (value_after l1 s x).
Proof. induction l1 as [|o l1 IH]; intros l2 s x; [reflexivity|]. destruct o; cbn [List.app value_after]; apply IH. Qed.
Lemma ask_other g s s' v : same s' s = false -> Forall (fun e => same s' (fst e) = false) (ask g s v).
Proof. intros H. destruct g; constructor; [exact H|constructor]. Qed.
Lemma requests_no_pages st : Forall (fun e => same s_pageRanges (fst e) = false) (requests st).
Proof. unfold requests. rewrite !Forall_app. repeat split; apply ask_other; reflexivity. Qed.
Lemma limited_selection n rs : 0 <= n < 2 ^ 31 - 1 -> rs <> [] -> selection n (map (fun r => (limited (fst r), limited (snd r))) rs) = selection n rs.
Proof.
  intros Hn Hr. destruct rs as [|r rs]; [congruence|]. cbn [map selection]. change ((limited (fst r), limited (snd r)) :: map (fun r => (limited (fst r), limited (snd r))) rs) with (map (fun r => (limited (fst r), limited (snd r))) (r :: rs)).
  generalize (r :: rs). clear r rs Hr. intros rs. induction rs as [|r rs IH]; [reflexivity|]. cbn [map flat_map]. rewrite IH. f_equal. unfold pages_of. apply filter_ext_in. intros q Hq.
  unfold document in Hq. apply in_map_iff in Hq. destruct Hq as (k & <- & Hk). apply in_seq in Hk. cbn [fst snd]. unfold limited. change (2 ^ 31) with 2147483648 in *.
  destruct (Z.ltb_spec (fst r) 2147483648), (Z.ltb_spec (snd r) 2147483648); lia.
Qed.
(** The pages asked for with -p, of a PDF: exactly those are printed for any document of
    less than 2^31 - 1 pages, although the numbers go through 32-bit attributes; the printer
    is not told.  For other documents the printer is told the ranges, up to its numbers. *)
Theorem C71_pages : forall st pa force j j1 rs inp pages j2,
  j_printerAttrs j = pa -> wf_job (j_jobAttrs j) -> p_pageRanges (j_params j) = [] -> given st 4 = true -> range_list (as_str (a_val st 4)) rs ->
  apply_options st pa force j = Ok (Some j1) -> finalize (copy_job j1) inp pages = Ok (None, j2) ->
  (inp = "application/pdf"%string /\ map_get "page-ranges" (j_jobAttrs j2) = None /\
     forall n, 0 <= n < 2 ^ 31 - 1 -> selection n (p_pageRanges (j_params j2)) = selection n rs) \/
  (inp <> "application/pdf"%string /\ option_map snd (map_get "page-ranges" (j_jobAttrs j2)) = Some (ranges_value rs) /\ p_pageRanges (j_params j2) = []).
Proof.
  intros st pa force j j1 rs inp pages j2 Hj Hw Hp Hg Hr Ha Hf. destruct (C70_accepted st pa force j j1 Hj Ha Hw) as (rs' & R & _ & L & W & _ & P & _). specialize (R Hg).
  assert (rs' = rs) as -> by (eapply range_list_unique; [apply R|apply Hr]).
  specialize (L s_pageRanges ltac:(left; split; [reflexivity|discriminate])). unfold sets in L. rewrite map_app, value_after_app in L.
  change (map (fun e => Set_ (fst e) (snd e)) (requests st)) with (sets (requests st)) in L. rewrite (value_after_others _ _ (requests_no_pages st)) in L.
  unfold asked_pages in L. rewrite Hg in L. cbn in L. change (lookup s_pageRanges (j_jobAttrs j1)) with (map_get "page-ranges" (j_jobAttrs j1)) in L.
  assert (V : values "page-ranges" (j_jobAttrs (copy_job j1)) = map (fun r => VRange (fst r) (snd r)) (map (fun r => (limited (fst r), limited (snd r))) rs)).
  { unfold values. cbn [copy_job j_jobAttrs]. rewrite map_map. cbn [fst snd]. destruct (map_get "page-ranges" (j_jobAttrs j1)) as [[t v]|]; [|discriminate]. cbn [option_map snd] in L. injection L as ->. reflexivity. }
  assert (Hrs : rs <> []) by (destruct Hr as ((t & Ht & _ & Hf2) & _); intros ->; inversion Hf2; congruence).
  assert (B : Forall (fun r => 0 <= fst r < 2 ^ 31 /\ 0 <= snd r < 2 ^ 31) (map (fun r => (limited (fst r), limited (snd r))) rs)).
  { apply Forall_map. destruct Hr as (_ & _ & As). clear -As. assert (G : forall rs prev, 0 <= prev -> ascending prev rs -> Forall (fun r => 0 <= fst r /\ 0 <= snd r) rs).
    { clear. induction rs as [|[f t] rs IH]; intros prev H0 H; [constructor|]. destruct H as (H1 & H2 & H3). constructor; [cbn [fst snd]; lia|]. apply (IH t); [lia|exact H3]. }
    eapply Forall_impl; [|exact (G rs 0 ltac:(lia) As)]. intros r [H1 H2]. cbn [fst snd]. unfold limited. change (2 ^ 31) with 2147483648. destruct (Z.ltb_spec (fst r) 2147483648), (Z.ltb_spec (snd r) 2147483648); lia. }
  assert (Hp1 : p_pageRanges (j_params (copy_job j1)) = []) by (cbn [copy_job j_params]; congruence).
  destruct (C36_page_ranges_once (copy_job j1) inp pages j2 W Hf _ V B) as [(E1 & E2 & E3)|(E1 & E2 & E3)].
  - left. split; [exact E1|]. split; [exact E2|]. intros n Hn. rewrite E3, Hp1. apply limited_selection; assumption.
  - right. split; [exact E1|]. split; [|rewrite E3; exact Hp1]. rewrite E2. exact L.
Qed.

(** ** C72: the pairs of set-attrs *)
Lemma app_length_s a b : String.length (a ++ b) = (String.length a + String.length b)%nat.
Proof. induction a as [|c a IH]; [reflexivity|]. cbn. rewrite IH. reflexivity. Qed.
Lemma take_app a b : take (String.length a) (a ++ b) = a.
Proof. induction a as [|c a IH]; [destruct b; reflexivity|]. cbn. f_equal. exact IH. Qed.
Lemma drop_app a b : drop (String.length a) (a ++ b) = b.
Proof. induction a as [|c a IH]; [destruct b; reflexivity|]. cbn. exact IH. Qed.
Lemma not_contains s w : string_contains s w = false <-> ~ occurs w s.
Proof.
  pose proof (contains_spec s w) as H. fold (occurs w s) in H. destruct (string_contains s w); split; intros X; try discriminate; try reflexivity.
  - contradiction X. apply H. reflexivity.
  - intros Y. apply H in Y. discriminate.
Qed.
Lemma char_occurs c s : has_char c s -> occurs (String c "") s.
Proof. induction s as [|d s IH]; [intros []|]. intros [->|K]; [exists ""%string, s; reflexivity|]. destruct (IH K) as (x & y & ->). exists (String d x), y. reflexivity. Qed.
Lemma occurs_in_app c a b : occurs (String c "") (a ++ b) -> occurs (String c "") a \/ occurs (String c "") b.
Proof. intros H. apply has_char_occurs in H. apply has_char_app in H. destruct H as [H|H]; [left|right]; apply char_occurs; exact H. Qed.
Lemma key_value_spec kv k v : key_value kv = Some (k, v) <-> kv = (k ++ "=" ++ v)%string /\ ~ occurs "=" k /\ ~ occurs "=" v.
Proof.
  unfold key_value. pose proof (find_str_spec "=" kv) as F. split.
  - destruct (find_str "=" kv) as [n|]; [|discriminate]. destruct F as [(a & b & -> & L) F]. destruct (string_contains _ _) eqn:C; [discriminate|]. intros H.
    assert (H1 : take n (a ++ "=" ++ b) = k) by congruence. assert (H2 : drop (S n) (a ++ "=" ++ b) = v) by congruence. clear H.
    assert (E : (a ++ "=" ++ b = (a ++ "=") ++ b)%string) by (rewrite <- app_s_assoc; reflexivity). rewrite <- L, take_app in H1. subst a.
    assert (D : drop (S n) (k ++ "=" ++ b) = b). { rewrite E. replace (S n) with (String.length (k ++ "=")); [apply drop_app|]. rewrite app_length_s. cbn. lia. }
    rewrite D in H2, C. subst b. split; [reflexivity|]. split; [|apply not_contains; exact C]. intros (x & y & ->). apply (F (String.length x)).
    + rewrite <- L, app_length_s. cbn. lia.
    + exists x, (y ++ "=" ++ v)%string. split; [rewrite !app_s_assoc; reflexivity|reflexivity].
  - intros (-> & Hk & Hv). destruct (find_str "=" (k ++ "=" ++ v)) as [n|]; [|contradiction (F (String.length k)); exists k, v; split; reflexivity].
    destruct F as [(a & b & E & L) F].
    assert (n = String.length k) as ->.
    { destruct (Nat.lt_trichotomy n (String.length k)) as [X|[X|X]]; [|exact X|].
      - exfalso. clear F. revert a n E L X. induction k as [|c k IH]; intros a n E L X; [cbn in X; lia|]. destruct a as [|d a].
        + cbn in E. injection E as -> E. apply Hk. exists ""%string, k. reflexivity.
        + cbn in E. injection E as -> E. apply (IH ltac:(intros (x & y & ->); apply Hk; exists (String d x), y; reflexivity) a (String.length a) E eq_refl). cbn in L, X. lia.
      - contradiction (F _ X). exists k, v. split; reflexivity. }
    rewrite take_app. assert (D : drop (S (String.length k)) (k ++ "=" ++ v) = v).
    { replace (k ++ "=" ++ v)%string with ((k ++ "=") ++ v)%string by (rewrite app_s_assoc; reflexivity). replace (S (String.length k)) with (String.length (k ++ "=")); [apply drop_app|]. rewrite app_length_s. cbn. lia. }
    rewrite D, (proj2 (not_contains v "=") Hv). reflexivity.
Qed.
Lemma key_values_spec l : forall r, key_values l = Some r <-> l = map (fun p => (fst p ++ "=" ++ snd p)%string) r /\ Forall (fun p => ~ occurs "=" (fst p) /\ ~ occurs "=" (snd p)) r.
Proof.
  induction l as [|kv l IH]; intros r; cbn [key_values].
  - split; [intros H; injection H as <-; split; [reflexivity|constructor]|]. intros [H _]. destruct r; [reflexivity|discriminate].
  - destruct (key_value kv) as [[k v]|] eqn:K.
    + apply key_value_spec in K. destruct K as (-> & K1 & K2). split.
      * destruct (key_values l) as [r'|]; [|discriminate]. intros H. injection H as <-. destruct (proj1 (IH r') eq_refl) as [-> H2]. split; [reflexivity|]. constructor; [split; assumption|exact H2].
      * intros [H1 H2]. destruct r as [|[k' v'] r]; [discriminate|]. cbn [map fst snd] in H1. inversion_clear H2 as [|? ? [A B] H3].
        assert (E : (k ++ "=" ++ v)%string = (k' ++ "=" ++ v')%string /\ l = map (fun p => (fst p ++ "=" ++ snd p)%string) r) by (split; congruence). destruct E as [E ->].
        assert (X : key_value (k ++ "=" ++ v) = Some (k', v')) by (rewrite E; apply key_value_spec; cbn [fst snd] in *; split; [reflexivity|split; assumption]).
        assert (Y : key_value (k ++ "=" ++ v) = Some (k, v)) by (apply key_value_spec; split; [reflexivity|split; assumption]). rewrite X in Y. injection Y as -> ->.
        rewrite (proj2 (IH r) (conj eq_refl H3)). reflexivity.
    + split; [discriminate|]. intros [H1 H2]. destruct r as [|[k' v'] r]; [discriminate|]. cbn [map fst snd] in H1. inversion_clear H2 as [|? ? [A B] H3].
      assert (kv = (k' ++ "=" ++ v')%string) as -> by congruence. rewrite (proj2 (key_value_spec _ k' v') (conj eq_refl (conj A B))) in K. discriminate.
Qed.
(** set-attrs sends exactly the pairs that were written, when the text is a list of pairs
    without the separators inside; any other text ends the client with 1 and nothing is
    sent. *)
Theorem C72_pairs : forall text l, key_values (split_string text ",") = Some l <-> l <> [] /\ text = pairs_text l /\ Forall (fun p => plain (fst p) /\ plain (snd p)) l.
Proof.
  intros text l. rewrite key_values_spec. destruct (C22_split_join_partial text ",") as (S1 & S2 & S3). unfold pairs_text, plain. split.
  - intros [E F]. split; [intros ->; destruct (split_pieces text) as [_ N]; apply N; exact E|]. rewrite <- E. split; [symmetry; exact S1|].
    rewrite E in S3. rewrite Forall_map in S3. rewrite Forall_forall in *. intros p Hp. specialize (F p Hp). specialize (S3 p Hp). cbn beta in S3.
    split; split; try (apply F); intros (x & y & Ex); apply S3; rewrite Ex.
    + exists x, (y ++ "=" ++ snd p)%string. rewrite !app_s_assoc. reflexivity.
    + exists (fst p ++ "=" ++ x)%string, y. rewrite !app_s_assoc. reflexivity.
  - intros (Hl & -> & F). split.
    + rewrite <- C22_join_is_glue. apply C22_join_split_partial; [destruct l; [congruence|discriminate]|]. rewrite Forall_map. eapply Forall_impl; [|exact F].
      intros p [[_ H1] [_ H2]] O. apply occurs_in_app in O. destruct O as [O|O]; [contradiction|]. change ("=" ++ snd p)%string with (String "="%char (snd p)) in O.
      apply has_char_occurs in O. destruct O as [O|O]; [discriminate|]. apply H2. apply char_occurs. exact O.
    + eapply Forall_impl; [|exact F]. intros p [[H1 _] [H2 _]]. split; assumption.
Qed.
Theorem C72_other_text : forall e junk args st msg ev pa id,
  sub_get_args client_subs (client_init junk) args = Ok (true, "set-attrs"%string, msg, st) -> as_bool (a_val st 0) = false ->
  open_printer e (as_str (a_val st 30)) = (ev, Ok (None, pa, id)) ->
  (forall l, ~ (l <> [] /\ as_str (a_val st 31) = pairs_text l /\ Forall (fun p => plain (fst p) /\ plain (snd p)) l)) ->
  client e junk args = (ev, Ok 1).
Proof.
  intros e junk args st msg ev pa id Ha Hh Ho N. unfold client. rewrite ebind_pure, Ha, Hh. cbn [negb]. rewrite Ho. cbn [ebind fst snd String.eqb Ascii.eqb Bool.eqb].
  unfold set_attrs_command. destruct (key_values _) as [l|] eqn:K; [apply C72_pairs in K; contradiction (N l K)|]. cbn [pure fst snd]. rewrite app_nil_r. reflexivity.
Qed.
(** Finding: a value with a comma or an equals sign, such as the location "Room 1, 2nd
    floor", cannot be set. *)
Theorem C73_any_value_refuted : forall k v, occurs "," v \/ occurs "=" v -> forall text l, key_values (split_string text ",") = Some l -> ~ In (k, v) l.
Proof.
  intros k v Hv text l H Hin. apply C72_pairs in H. destruct H as (_ & _ & F). rewrite Forall_forall in F. destruct (F _ Hin) as [_ [H1 H2]]. cbn [snd] in *. tauto.
Qed.

(** ** C74: the list of resolutions in the message *)
Definition dpi (v : ipp_value) : bool := match v with VRes _ _ u => u =? 3 | _ => false end.
Definition as_text (v : ipp_value) : string := match v with VRes x y _ => (dec_string x ++ "x" ++ dec_string y ++ "dpi")%string | _ => ""%string end.
Lemma texts_concat l : resolution_texts true l = String.concat "" (map as_text (filter dpi l)).
Proof.
  induction l as [|v l IH]; [reflexivity|]. destruct v; cbn [resolution_texts filter dpi]; try exact IH. match goal with |- context [negb (?u =? 3)] => destruct (u =? 3) eqn:U; cbn [negb]; [|exact IH] end.
  cbn [map]. rewrite IH. cbn [as_text]. unfold resolution_text. rewrite U. generalize (dec_string x ++ "x" ++ dec_string y ++ "dpi")%string. intros t. destruct (map as_text (filter dpi l)) as [|q r]; [cbn; rewrite app_s_nil; reflexivity|]. reflexivity.
Qed.
(** Finding: the separator never appears, the resolutions run together. *)
Theorem C74_refuted : forall l, resolution_texts true l = String.concat "" (map as_text (filter dpi l)) /\
  resolution_list [VRes 300 300 3; VRes 600 600 3] = "300x300dpi600x600dpi"%string.
Proof. intros l. split; [apply texts_concat|reflexivity]. Qed.
(** True with at most one resolution in DPI. *)
Theorem C74_single_partial : forall l, (length (filter dpi l) <= 1)%nat -> resolution_texts true l = glue "," (map as_text (filter dpi l)).
Proof. intros l H. rewrite texts_concat. destruct (filter dpi l) as [|v [|w r]]; [reflexivity|reflexivity|cbn in H; lia]. Qed.

(** ** C75: printing to any printer without an exception *)
(** With the types and qualities of the standard the options raise no exception. *)
Theorem C75_standard_partial : forall st pa force j, j_printerAttrs j = pa -> wf_job (j_jobAttrs j) -> well_typed pa -> known_qualities pa ->
  (given st 4 = true -> forall a d b n, as_str (a_val st 4) = (a ++ d ++ b)%string -> digits_of d n -> n < 2 ^ 64) ->
  exists r, apply_options st pa force j = Ok r.
Proof.
  intros st pa force j Hj Hw T Q Hn. destruct (C70_refused_partial st pa force j Hj Hw T Q Hn) as [[E _]|(j' & E & _)]; eexists; exact E.
Qed.
(** Finding: a printer with another quality (here the only one) cannot be printed to at
    all, whatever the options and even with --force: the options are refused, or
    std::out_of_range ends the program. *)
Theorem C75_quality_refuted : forall st pa force j z, j_printerAttrs j = pa -> values "print-quality-supported" pa = [VInt z] -> z <> 3 -> z <> 4 -> z <> 5 ->
  forall j', apply_options st pa force j <> Ok (Some j').
Proof.
  intros st pa force j z Hj Hv H3 H4 H5 j' H. unfold apply_options in H. apply obind_some in H. destruct H as (j1 & E1 & H). apply pages_some in E1. destruct E1 as (rs & _ & M1).
  pose proof (eq_trans (made_attrs _ _ _ _ M1) Hj) as P. clear M1. unfold other_options in H.
  apply obind_some in H. destruct H as (j2 & E & H). apply (proj2 (stage_copies st pa force) _ _ P) in E. destruct E as [E _]. apply made_attrs in E. rewrite P in E. clear P.
  apply obind_some in H. destruct H as (j3 & E3 & H). apply (proj2 (stage_choice pa force _ s_multipleDocumentHandling _ (basic_str _) ltac:(is_choice)) _ _ E) in E3. destruct E3 as [E3 _]. apply made_attrs in E3. rewrite E in E3. clear E.
  apply obind_some in H. destruct H as (j4 & E4 & H). apply (proj2 (stage_str st pa force 7 s_media ltac:(is_choice)) _ _ E3) in E4. destruct E4 as [E4 _]. apply made_attrs in E4. rewrite E3 in E4. clear E3.
  destruct (negb _); [discriminate|]. unfold later_options in H. bind_inv H as r0 R0 H.
  apply obind_some in H. destruct H as (j5 & E5 & H). apply (proj2 (stage_choice pa force _ s_resolution _ (basic_res _ _ _) ltac:(is_choice)) _ _ E4) in E5. destruct E5 as [E5 _]. apply made_attrs in E5. rewrite E4 in E5.
  apply obind_some in H. destruct H as (j6 & E6 & H). apply (proj2 (stage_choice pa force _ s_resolution _ (basic_res _ _ _) ltac:(is_choice)) _ _ E5) in E6. destruct E6 as [E6 _]. apply made_attrs in E6. rewrite E5 in E6.
  apply obind_some in H. destruct H as (j7 & E7 & H). apply (proj2 (stage_str st pa force 11 s_sides ltac:(is_choice)) _ _ E6) in E7. destruct E7 as [E7 _]. apply made_attrs in E7. rewrite E6 in E7.
  apply obind_some in H. destruct H as (j8 & E8 & H). apply (proj2 (stage_str st pa force 12 s_colorMode ltac:(is_choice)) _ _ E7) in E8. destruct E8 as [E8 _]. apply made_attrs in E8. rewrite E7 in E8.
  bind_inv H as al A H. bind_inv A as q Q A. rewrite E8 in Q. unfold getSupported in Q. apply getList_values in Q. destruct Q as [-> _].
  change (s_name s_printQuality ++ "-supported")%string with "print-quality-supported"%string in A. rewrite Hv in A. cbn [aliases v_int] in A.
  rewrite (proj2 (Z.eqb_neq z 3) H3), (proj2 (Z.eqb_neq z 4) H4), (proj2 (Z.eqb_neq z 5) H5) in A. discriminate.
Qed.

(** ** C76: the range of a setting *)
Lemma ints_from_in n : forall i v, In v (ints_from n i) <-> exists z, v = VInt z /\ i <= z < i + Z.of_nat n.
Proof.
  induction n as [|n IH]; intros i v; cbn [ints_from In].
  - split; [intros []|intros (z & _ & H); lia].
  - rewrite IH. split.
    + intros [<-|(z & -> & H)]; [exists i; split; [reflexivity|lia]|exists z; split; [reflexivity|lia]].
    + intros (z & -> & H). destruct (Z.eq_dec z i) as [->|]; [left; reflexivity|right; exists z; split; [reflexivity|lia]].
Qed.
(** The values of a range that does not end at the largest int are exactly its members. *)
Theorem C76_members_partial : forall (pa : ipp_attrs) s t lo hi, map_get (s_name s ++ "-supported") pa = Some (t, VRange lo hi) -> hi < 2147483647 ->
  exists l, choice_range pa s = Ok l /\ forall v, In v l <-> exists z, v = VInt z /\ lo <= z <= hi.
Proof.
  intros pa s t lo hi H Hh. unfold choice_range. rewrite H. rewrite (proj2 (Z.eqb_neq hi 2147483647)) by lia. rewrite andb_false_r. eexists. split; [reflexivity|].
  intros v. rewrite ints_from_in. split; intros (z & -> & K); exists z; (split; [reflexivity|lia]).
Qed.
(** Finding: with a range up to the largest int the loop variable overflows. *)
Theorem C76_refuted : forall (pa : ipp_attrs) s t lo, map_get (s_name s ++ "-supported") pa = Some (t, VRange lo 2147483647) -> lo <= 2147483647 -> choice_range pa s = UB.
Proof. intros pa s t lo H Hl. unfold choice_range. rewrite H, (proj2 (Z.leb_le lo 2147483647) Hl). reflexivity. Qed.

(** ** Examples *)
Definition client_printer (quality : Z) : ipp_attrs :=
  [ ("copies-supported", (tIntegerRange, VRange 1 1));
    ("document-format-default", (tMimeMediaType, VStr "application/octet-stream"));
    ("document-format-supported", (tMimeMediaType, VSet [VStr "application/octet-stream"; VStr "image/urf"]));
    ("ipp-versions-supported", (tKeyword, VSet [VStr "1.1"; VStr "2.0"]));
    ("media-top-margin-supported", (tInteger, VSet [VInt 0; VInt 300]));
    ("operations-supported", (tEnum, VSet [VInt 2; VInt 5; VInt 6]));
    ("print-quality-supported", (tEnum, VInt quality));
    ("printer-resolution-supported", (tResolution, VSet [VRes 300 300 3; VRes 600 600 3]));
    ("sides-supported", (tKeyword, VSet [VStr "one-sided"; VStr "two-sided-long-edge"])) ]%string.
Definition client_world (quality : Z) : client_env :=
  mkEnv
    (mkWorld (Some "me"%string) (fun _ => "what"%string)
      (fun _ _ => match fst (encodeMsg 1 (mkMsg 0 1 1 [("attributes-charset", (tCharset, VStr "utf-8"))]%string [[("job-id", (tInteger, VInt 42))]]%string (client_printer quality))) with Ok b => Response b | _ => Failed "" end)
      (fun _ _ _ => Ok None)
      (fun _ _ _ _ _ _ => match fst (encodeMsg 1 (mkMsg 1 1 1 [("attributes-charset", (tCharset, VStr "utf-8"))]%string [] [])) with Ok b => Response b | _ => Failed "" end)
      "/tmp")
    (fun f => if String.eqb f "doc.pdf" then Some (bytes_of_string "%PDF-1.4") else None)
    (fun _ => inl "no"%string) JNull "/home/me" (fun f => if String.eqb f "/home/me/doc.pdf" then Some 5 else None).
Definition junk0 (i : nat) : aval := AInt (-7).
Definition ex_args (options : list string) : list string := ("print" :: options ++ ["ipp://printer/ipp/print"; "doc.pdf"])%string%list.
Definition parsed (options : list string) : astate := match sub_get_args client_subs (client_init junk0) (ex_args options) with Ok (_, _, _, st) => st | _ => client_init junk0 end.
(** options that are accepted: the hypotheses of the theorems hold and the document is sent *)
Definition good_options : list string := ["-p"; "1-3,5-"; "--copies"; "2"; "-r"; "300"; "-tm"; "300"; "-s"; "two-sided-long-edge"; "--format"; "image/urf"]%string.
Example C70_example : let j := new_job (client_printer 4) [] in
  wf_job (j_jobAttrs j) /\ well_typed (client_printer 4) /\ known_qualities (client_printer 4) /\
  requests (parsed good_options) = [(s_copies, VInt 2); (s_resolution, VRes 300 300 3); (s_sides, VStr "two-sided-long-edge"); (s_topMargin, VInt 300)] /\
  (match apply_options (parsed good_options) (client_printer 4) false j with
   | Ok (Some j') => j_jobAttrs j' = [ ("copies", (tInteger, VInt 2)); ("media-col", (tBeginCollection, VColl [("media-top-margin", (tInteger, VInt 300))]));
       ("page-ranges", (tIntegerRange, VSet [VRange 1 3; VRange 5 2147483647])); ("printer-resolution", (tResolution, VRes 300 300 3)); ("sides", (tKeyword, VStr "two-sided-long-edge")) ]%string
       /\ j_opAttrs j' = [("document-format", (tMimeMediaType, VStr "image/urf"))]%string
   | _ => False end) /\
  (match client (client_world 4) junk0 (ex_args good_options) with ([Posted _ _; Posted _ _; Streamed _ _], Ok 0) => True | _ => False end).
Proof.
  cbv zeta. split; [split; [exact I|discriminate]|]. split.
  { split; [|intros a H; injection H as <-; reflexivity]. intros s H. unfold typed. apply Forall_forall. repeat destruct H as [<-|H]; try (vm_compute; intros x []; fail); try destruct H;
      (intros x Hx; vm_compute in Hx; repeat destruct Hx as [<-|Hx]; try reflexivity; destruct Hx). }
  split; [intros v H; vm_compute in H; destruct H as [<-|[]]; tauto|]. split; [vm_compute; reflexivity|]. split; vm_compute; [split; reflexivity|exact I].
Qed.
(** refused: one value of many is not supported; with --force it is sent *)
Example C70_refused_example :
  (match client (client_world 4) junk0 (ex_args (good_options ++ ["-c"; "color"]%string)%list) with ([Posted _ _], Ok 1) => True | _ => False end) /\
  (match client (client_world 4) junk0 (ex_args (good_options ++ ["-c"; "color"; "-f"]%string)%list) with ([Posted _ _; Posted _ _; Streamed _ _], Ok 0) => True | _ => False end) /\
  (match client (client_world 4) junk0 (ex_args ["-rx"; "300"]%string) with ([Posted _ _], Ok 1) => True | _ => False end) /\
  (match client (client_world 4) junk0 (ex_args ["-p"; "3,1"]%string) with ([Posted _ _], Ok 1) => True | _ => False end).
Proof. vm_compute. repeat split. Qed.
(** pages beyond 2^31 select nothing from a document of five pages, as asked *)
Example C71_example : match apply_options (parsed ["-p"; "2,4294967298-"]%string) (client_printer 4) false (new_job (client_printer 4) []) with
  | Ok (Some j1) => match finalize (copy_job j1) "application/pdf" 5 with
                    | Ok (None, j2) => p_pageRanges (j_params j2) = [(2, 2); (2147483647, 2147483647)] /\ selection 5 (p_pageRanges (j_params j2)) = [2]
                    | _ => False end
  | _ => False end.
Proof. vm_compute. split; reflexivity. Qed.
Example C72_example : key_values (split_string "printer-location=here,printer-name=" ",") = Some [("printer-location", "here"); ("printer-name", "")]%string /\
  key_values (split_string "a=b=c" ",") = None /\ key_values (split_string "a=b,c" ",") = None.
Proof. repeat split. Qed.
(** no option given, quality 7 *)
Example C75_example : match client (client_world 7) junk0 (ex_args []) with ([Posted _ _], Throw OutOfRange) => True | _ => False end.
Proof. vm_compute. exact I. Qed.
Example C76_example : choice_range [("number-up-supported", (tIntegerRange, VRange 1 3))]%string s_numberUp = Ok [VInt 1; VInt 2; VInt 3].
Proof. reflexivity. Qed.

Print Assumptions C70_accepted.
Print Assumptions C70_refused_partial.
Print Assumptions C70_nothing_sent_partial.
Print Assumptions C70_success.
Print Assumptions C71_pages.
Print Assumptions C72_pairs.
Print Assumptions C72_other_text.
Print Assumptions C73_any_value_refuted.
Print Assumptions C74_refuted.
Print Assumptions C74_single_partial.
Print Assumptions C75_standard_partial.
Print Assumptions C75_quality_refuted.
Print Assumptions C76_members_partial.
Print Assumptions C76_refuted.
