(** C40: the choice of conversions. *)
From Verif Require Import Base BaseLemmas StringModel ConverterModel.
From Coq Require Import Lia Permutation.
Local Open Scope string_scope.

(** ** Specification *)
(** The conversions in priority order, and "nothing" last. *)
Definition steps : list (string * string) :=
  [ ("application/pdf", "application/pdf"); ("application/pdf", "application/postscript"); ("application/pdf", "image/pwg-raster");
    ("application/pdf", "image/urf"); ("image/jpeg", "image/jpeg"); ("text/plain", "text/plain") ].
Definition producible (i t : string) : Prop := In (i, t) steps \/ i = t.
(** the steps possible for an input, in order *)
Definition options (i : string) (supported : list string) : list string :=
  (map snd (filter (fun s => String.eqb (fst s) i && if in_dec string_dec (snd s) supported then true else false) steps)
   ++ (if in_dec string_dec i supported then [i] else []))%list.

(** ** Proofs *)
Lemma contains_in l s : contains l s = true <-> In s l.
Proof.
  unfold contains. rewrite existsb_exists. split.
  - intros [x [H1 H2]]. apply String.eqb_eq in H2. congruence.
  - intros H. exists s. split; [exact H|apply String.eqb_refl].
Qed.
Lemma contains_dec l s : contains l s = if in_dec string_dec s l then true else false.
Proof. destruct (in_dec string_dec s l) as [H|H]; [apply contains_in; exact H|]. destruct (contains l s) eqn:E; [apply contains_in in E; contradiction|reflexivity]. Qed.
Lemma find_target_hd l i sup :
  find_target l i sup = hd_error (map snd (filter (fun s => String.eqb (fst s) i && if in_dec string_dec (snd s) sup then true else false) (map fst l))).
Proof.
  induction l as [|[[a b] c] l IH]; [reflexivity|]. cbn [find_target map filter fst snd]. rewrite contains_dec.
  destruct (String.eqb a i && _); [reflexivity|exact IH].
Qed.

(** the converter picks the first possible step *)
Theorem C40_first : forall i supported, getTargetFormat i supported = hd_error (options i supported).
Proof.
  intros i sup. unfold getTargetFormat, options. rewrite find_target_hd, contains_dec. change (map fst Pipelines) with steps.
  destruct (map snd _) as [|x r]; [|reflexivity]. destruct (in_dec string_dec i sup); reflexivity.
Qed.
(** it picks one exactly when some supported format can be produced, and then one that is
    supported and can be produced *)
Theorem C40_sound_complete : forall i supported,
  (forall t, getTargetFormat i supported = Some t -> In t supported /\ producible i t) /\
  (getTargetFormat i supported = None -> forall t, In t supported -> ~ producible i t).
Proof.
  intros i sup. rewrite C40_first. unfold options, producible. set (f := fun s : string * string => _ && _).
  assert (F : forall t, In t (map snd (filter f steps)) <-> In (i, t) steps /\ In t sup).
  { intros t. rewrite in_map_iff. split.
    - intros [[a b] [E H]]. cbn in E. subst b. apply filter_In in H. destruct H as [H1 H2]. unfold f in H2. cbn [fst snd] in H2.
      apply andb_true_iff in H2. destruct H2 as [H2 H3]. apply String.eqb_eq in H2. subst a. destruct (in_dec string_dec t sup); [|discriminate]. split; assumption.
    - intros [H1 H2]. exists (i, t). split; [reflexivity|]. apply filter_In. split; [exact H1|]. unfold f. cbn [fst snd]. rewrite String.eqb_refl.
      destruct (in_dec string_dec t sup); [reflexivity|contradiction]. }
  split.
  - intros t H. assert (In t (map snd (filter f steps) ++ (if in_dec string_dec i sup then [i] else []))%list) as Hi.
    { destruct ((map snd (filter f steps) ++ _)%list); [discriminate|]. cbn in H. injection H as ->. left. reflexivity. }
    apply in_app_or in Hi. destruct Hi as [Hi|Hi].
    + apply F in Hi. destruct Hi as [H1 H2]. split; [exact H2|left; exact H1].
    + destruct (in_dec string_dec i sup); [|contradiction]. destruct Hi as [<-|[]]. split; [assumption|right; reflexivity].
  - intros H t Ht [Hp|Hp].
    + assert (In t (map snd (filter f steps))) as Hi by (apply F; split; assumption). destruct (map snd (filter f steps)); [contradiction|discriminate].
    + subst t. destruct (map snd (filter f steps)); [|discriminate]. destruct (in_dec string_dec i sup); [discriminate|contradiction].
Qed.
Lemma canConvert_producible i t : canConvert i t = true <-> producible i t.
Proof.
  unfold canConvert, getConvertFun, producible.
  assert (F : forall l, match find_pipeline l i t with Some _ => true | None => false end = true <-> In (i, t) (map fst l)).
  { induction l as [|[[a b] c] l IH]; [split; [discriminate|contradiction]|]. cbn [find_pipeline map fst].
    destruct (String.eqb_spec a i); destruct (String.eqb_spec b t); cbn [andb In].
    - subst. split; [left; reflexivity|reflexivity].
    - rewrite IH. split; [right; assumption|]. intros [K|K]; [congruence|exact K].
    - rewrite IH. split; [right; assumption|]. intros [K|K]; [congruence|exact K].
    - rewrite IH. split; [right; assumption|]. intros [K|K]; [congruence|exact K]. }
  specialize (F Pipelines). change (map fst Pipelines) with steps in F. destruct (find_pipeline Pipelines i t).
  - split; [intros _; left; apply F; reflexivity|reflexivity].
  - destruct (String.eqb_spec i t) as [E|E].
    + split; [intros _; right; exact E|reflexivity].
    + split; [discriminate|]. intros [K|K]; [apply F in K; discriminate|contradiction].
Qed.

(** a conversion exists exactly for the listed steps and for passing a document on *)
Theorem C40_can_convert : forall i t, canConvert i t = true <-> producible i t.
Proof. exact canConvert_producible. Qed.

(** who does the step: PDF is rendered, JPEG made baseline, text gets its line endings *)
Definition worker (i : string) (c : conversion) : Prop :=
  (i = "application/pdf" /\ c = Pdf2Printable) \/ (i = "image/jpeg" /\ c = Baselinify) \/ (i = "text/plain" /\ c = FixupText).
(** and a document that has a step of its own is never passed on as it is, even when the
    format does not change *)
Theorem C40_not_raw : forall i t, (In (i, t) steps -> exists c, getConvertFun i t = Some c /\ worker i c) /\
  (~ In (i, t) steps -> i = t -> getConvertFun i t = Some JustUpload).
Proof.
  intros i t. split.
  - intros H. cbn [In steps] in H. unfold worker.
    repeat (destruct H as [H|H]; [injection H as <- <-; eexists; split; [reflexivity|auto]|]). contradiction.
  - intros H ->. unfold getConvertFun. destruct (find_pipeline Pipelines t t) eqn:E; [|rewrite String.eqb_refl; reflexivity].
    exfalso. apply H. clear H. revert E. change steps with (map fst Pipelines). generalize Pipelines. induction l as [|[[a b] d] l IH]; [discriminate|].
    cbn [find_pipeline map fst In]. destruct (String.eqb_spec a t); destruct (String.eqb_spec b t); cbn [andb]; intros E; try (right; apply IH; exact E). left. congruence.
Qed.

Lemma add_if_NoDup (acc : list string) f : NoDup acc -> contains acc f = false -> NoDup (acc ++ [f])%list.
Proof.
  intros H1 H2. apply (Permutation_NoDup (Permutation_cons_append acc f)). constructor; [|exact H1]. intros K. apply contains_in in K. congruence.
Qed.
Lemma add_formats_spec l : forall acc, NoDup acc -> NoDup (add_formats l acc) /\ forall i, In i (add_formats l acc) <-> In i acc \/ In i l.
Proof.
  induction l as [|f l IH]; intros acc Ha; cbn [add_formats]; [split; [exact Ha|]; intros i; cbn [In]; tauto|].
  destruct (contains acc f) eqn:E.
  - destruct (IH acc Ha) as [I1 I2]. split; [exact I1|]. intros i. rewrite I2. apply contains_in in E. cbn [In]. split; [tauto|]. intros [K|[K|K]]; [tauto| |tauto]. subst. tauto.
  - destruct (IH _ (add_if_NoDup acc f Ha E)) as [I1 I2]. split; [exact I1|]. intros i. rewrite I2, in_app_iff. cbn [In]. tauto.
Qed.
Lemma pipeline_inputs_spec sup l : forall acc, NoDup acc -> NoDup (pipeline_inputs l sup acc) /\
  forall i, In i (pipeline_inputs l sup acc) <-> In i acc \/ exists t, In (i, t) (map fst l) /\ In t sup.
Proof.
  induction l as [|[[a b] c] l IH]; intros acc Ha; cbn [pipeline_inputs]; [split; [exact Ha|]; intros i; split; [tauto|]; intros [K|[t [[] _]]]; exact K|].
  destruct (contains sup b) eqn:Eb; [destruct (contains acc a) eqn:Ea|]; cbn [negb andb].
  - destruct (IH acc Ha) as [I1 I2]. split; [exact I1|]. intros i. rewrite I2. cbn [map fst In]. split.
    + intros [K|[t [K1 K2]]]; [tauto|]. right. exists t. tauto.
    + intros [K|[t [[K1|K1] K2]]]; [tauto| |right; exists t; tauto]. injection K1 as -> ->. left. apply contains_in. exact Ea.
  - destruct (IH _ (add_if_NoDup acc a Ha Ea)) as [I1 I2]. split; [exact I1|]. intros i. rewrite I2, in_app_iff. cbn [map fst In]. apply contains_in in Eb. split.
    + intros [[K|[K|[]]]|[t [K1 K2]]]; [tauto| |right; exists t; tauto]. subst. right. exists b. tauto.
    + intros [K|[t [[K1|K1] K2]]]; [tauto| |right; exists t; tauto]. injection K1 as -> ->. tauto.
  - destruct (IH acc Ha) as [I1 I2]. split; [exact I1|]. intros i. rewrite I2. cbn [map fst In]. split.
    + intros [K|[t [K1 K2]]]; [tauto|]. right. exists t. tauto.
    + intros [K|[t [[K1|K1] K2]]]; [tauto| |right; exists t; tauto]. injection K1 as -> ->. apply contains_in in K2. congruence.
Qed.
(** the advertised input formats: those for which a target exists, each once *)
Theorem C40_input_formats : forall supported, NoDup (possibleInputFormats supported) /\
  forall i, In i (possibleInputFormats supported) <-> exists t, getTargetFormat i supported = Some t.
Proof.
  intros sup. unfold possibleInputFormats. destruct (pipeline_inputs_spec sup Pipelines [] (NoDup_nil _)) as [P1 P2].
  destruct (add_formats_spec sup _ P1) as [A1 A2]. split; [exact A1|]. intros i. rewrite A2, P2. change (map fst Pipelines) with steps. destruct (C40_sound_complete i sup) as [S1 S2]. split.
  - intros K. destruct (getTargetFormat i sup) as [t|]; [exists t; reflexivity|]. exfalso. specialize (S2 eq_refl).
    destruct K as [[[]|[t [K1 K2]]]|K]; [apply (S2 t K2); left; exact K1|apply (S2 i K); right; reflexivity].
  - intros [t K]. destruct (S1 t K) as [K1 [K2|K2]]; [left; right; exists t; tauto|]. subst. right. exact K1.
Qed.

Example C40_example : getTargetFormat mPDF [mURF; mJPEG; mPWG] = Some mPWG /\ getTargetFormat mJPEG [mURF; mJPEG; mPWG] = Some mJPEG /\
  getTargetFormat mPNG [mURF; mJPEG; mPWG] = None /\ possibleInputFormats [mURF; mJPEG; mPWG] = [mPDF; mJPEG; mURF; mPWG].
Proof. vm_compute. auto. Qed.
Print Assumptions C40_first.
Print Assumptions C40_sound_complete.
Print Assumptions C40_can_convert.
Print Assumptions C40_not_raw.
Print Assumptions C40_input_formats.
