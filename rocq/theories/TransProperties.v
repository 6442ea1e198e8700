(** C105: baselinify recodes a JPEG file without changing the picture. *)
From Coq Require Import Lia ZifyBool ZifyNat.
From Verif Require Import Base TransModel TransSpec.
Local Open Scope Z_scope.

Lemma kept_all ms : Forall (fun m => Z.of_nat (length (mk_data m)) <= 65533) ms -> kept [(0xe1, 0xffff); (0xe0, 0xffff)] ms = filter app01 ms.
Proof.
  intros H. induction H as [|m ms L H IH]; [reflexivity|]. unfold kept in *. cbn [flat_map filter]. rewrite IH. unfold app01, limit_for. cbn [find fst snd]. rewrite !(Z.eqb_sym _ (mk_code m)).
  destruct m as [c d]. cbn [mk_code mk_data] in *. assert (F : firstn (Z.to_nat 0xffff) d = d) by (apply firstn_all2; lia).
  destruct (c =? 0xe1) eqn:E1; destruct (c =? 0xe0) eqn:E0; try lia; cbn [orb snd]; change (0xffff =? 0) with false; change (0 =? 0) with true; cbv iota; rewrite ?F; reflexivity.
Qed.
Lemma write_markers df f ms : forall d src dst lim m par wj wa wr res, Forall (fun m => Z.of_nat (length (mk_data m)) <= 65533) ms ->
  make_calls (step df f) (calls_markers ms) (mkLib d CWriting src dst lim m par wj wa wr res) = Some (mkLib d CWriting src dst lim m par wj wa (wr ++ ms) res).
Proof.
  induction ms as [|x ms IH]; intros d src dst lim m par wj wa wr res H; [cbn; rewrite app_nil_r; reflexivity|]. inversion H as [|y l Hx Hl]; subst. cbn [calls_markers map make_calls step].
  destruct (Z.leb_spec (Z.of_nat (length (mk_data x))) 65533); [|lia]. fold (calls_markers ms). rewrite (IH _ _ _ _ _ _ _ _ _ _ Hl), <- app_assoc. destruct x. reflexivity.
Qed.
Lemma result df f : valid_jpeg f ->
  exists s, baselinify (step df f) l_markers lib_start = Some s /\ l_d s = DGone /\ l_c s = CGone /\ l_result s = Some (mkJpeg (filter app01 (j_markers f)) (j_comps f) (j_quant f) (j_coefs f) false).
Proof.
  intros H. unfold baselinify. cbn [calls_before make_calls step lib_start]. cbn [l_markers app]. rewrite (kept_all _ H). rewrite write_markers.
  - cbn [calls_after make_calls step app]. eexists. repeat split.
  - apply Forall_forall. intros m I. apply filter_In in I. exact (proj1 (Forall_forall _ _) H m (proj1 I)).
Qed.
(** For every file libjpeg can read the calls are allowed, all is released at the end, and there
    is one output: the same picture, coded sequentially, with the JFIF and EXIF data as they
    were, each once.  It is baseline unless it has quantization tables of 16 bits. *)
Theorem C105_same_picture : forall df f, valid_jpeg f ->
  exists out, (forall o, made df f o <-> o = out) /\ same_picture f out /\ j_markers out = filter app01 (j_markers f) /\ (baseline out <-> Forall (Forall (fun q => q <= 255)) (j_quant f)).
Proof.
  intros df f H. destruct (result df f H) as (s & E & D & C & R). eexists. split.
  - intros o. split.
    + intros (s' & E' & R' & _). rewrite E in E'. injection E' as <-. rewrite R in R'. injection R' as <-. reflexivity.
    + intros ->. exists s. repeat split; assumption.
  - unfold same_picture, baseline. cbn. intuition.
Qed.

(** ** Colours *)
Lemma segment_one m t t' : adobe_segment m t -> adobe_segment m t' -> t = t'.
Proof.
  intros (_ & six & rest & b & E & L & ->) (_ & six' & rest' & b' & E' & L' & ->). rewrite E in E'. apply app_inv_head in E'.
  do 7 (destruct six as [|? six]; try discriminate L). do 7 (destruct six' as [|? six']; try discriminate L'). cbn in E'. injection E'. congruence.
Qed.
Lemma adobe_one f t t' : adobe f t -> adobe f t' -> t = t'.
Proof.
  intros (l & m & r & E & A & N) (l' & m' & r' & E' & A' & N'). rewrite E in E'. clear E. revert l' E'. induction l as [|x l IH]; intros [|y l'] E'; cbn in E'; injection E' as X E'.
  - subst m'. exact (segment_one _ _ _ A A').
  - subst r. destruct (N m' t'); [apply in_or_app; right; left; reflexivity|exact A'].
  - subst r'. destruct (N' m t); [apply in_or_app; right; left; reflexivity|exact A].
  - exact (IH l' E').
Qed.
Lemma adobe_not f t : adobe f t -> ~ no_adobe f.
Proof. intros (l & m & r & E & A & _) N. apply (N m t); [rewrite E; apply in_or_app; right; left; reflexivity|exact A]. Qed.
(** the files whose colours only the Adobe marker tells *)
Definition adobe_needed (f : jpeg) : Prop :=
  (length (j_comps f) = 3%nat /\ ~ jfif f /\ (adobe f 0 /\ ~ letters_rgb f \/ exists t, adobe f t /\ t <> 0 /\ letters_rgb f)) \/
  (length (j_comps f) = 4%nat /\ exists t, adobe f t /\ t <> 0).
Ltac one_adobe := match goal with
  | A : adobe ?f ?t, B : adobe ?f ?t' |- _ => first [constr_eq t t'; fail 1|pose proof (adobe_one _ _ _ A B); clear B; subst]
  | A : adobe ?f _, B : no_adobe ?f |- _ => destruct (adobe_not _ _ A B)
  end.
(** The output shows the colours of the file, exactly if they can be told without the Adobe
    marker, which is not written.  PARTIAL: the claim is that it always does. *)
Theorem C105_colours_partial : forall df f out c, valid_jpeg f -> made df f out -> shows f c -> (shows out c <-> ~ adobe_needed f).
Proof.
  intros df f out c V M Sh. destruct (C105_same_picture df f V) as (out' & U & (C & _) & Mk & _). apply U in M. subst out'. clear U.
  assert (Na : no_adobe out). { intros m t I (Hc & _). rewrite Mk in I. apply filter_In in I. destruct I as [_ I]. unfold app01 in I. rewrite Hc in I. discriminate I. }
  assert (J : jfif out <-> jfif f).
  { unfold jfif. rewrite Mk. split; intros (m & r & I & Hc & E); exists m, r; (split; [|split; [exact Hc|exact E]]); [apply filter_In in I; apply I|]. apply filter_In. split; [exact I|]. unfold app01. rewrite Hc. reflexivity. }
  assert (Lt : letters_rgb out <-> letters_rgb f) by (unfold letters_rgb; rewrite C; reflexivity).
  assert (Dec : letters_rgb f \/ ~ letters_rgb f) by (unfold letters_rgb; destruct (list_eq_dec Z.eq_dec (j_comps f) [82; 71; 66]); tauto).
  split.
  - intros So [(L & Nj & A)|(L & t & A & T)].
    + destruct A as [[A Nl]|(t & A & T & Hl)].
      * inversion Sh; subst; try congruence; try tauto; try (match goal with E : j_comps f = _ |- _ => rewrite E in L; discriminate L end); repeat one_adobe; try congruence.
        -- inversion So; subst; try tauto; try (match goal with A : adobe out _ |- _ => destruct (adobe_not _ _ A Na) end).
        -- cbn in *. rewrite L in *. tauto.
      * inversion Sh; subst; try congruence; try tauto; try (match goal with E : j_comps f = _ |- _ => rewrite E in L; discriminate L end); repeat one_adobe; try congruence.
        -- inversion So; subst; try tauto; try (match goal with A : adobe out _ |- _ => destruct (adobe_not _ _ A Na) end).
        -- cbn in *. rewrite L in *. tauto.
    + inversion Sh; subst; try (match goal with E : j_comps f = _ |- _ => rewrite E in L; discriminate L end); try (unfold letters_rgb in *; match goal with E : j_comps f = _ |- _ => rewrite E in L; discriminate L end); repeat one_adobe; try congruence.
      * inversion So; subst; try (match goal with A : adobe out _ |- _ => destruct (adobe_not _ _ A Na) end).
      * cbn in *. rewrite L in *. tauto.
  - intros N. inversion Sh; subst.
    + apply (shows_grey _ a). congruence.
    + apply (shows_jfif _ a b c0); [congruence|tauto].
    + destruct Dec as [Dl|Dl]; [|destruct N; left; rewrite H; split; [reflexivity|]; split; [assumption|]; left; split; assumption]. apply shows_letters; tauto.
    + destruct Dec as [Dl|Dl]; [destruct N; left; rewrite H; split; [reflexivity|]; split; [assumption|]; right; exists t; repeat split; assumption|]. apply (shows_ycc _ a b c0); [congruence|tauto|tauto|assumption].
    + apply shows_letters; tauto.
    + apply (shows_ycc _ a b c0); [congruence|tauto|tauto|assumption].
    + apply (shows_cmyk _ a b c0 d); [congruence|assumption].
    + destruct N. right. rewrite H. split; [reflexivity|]. exists t. split; assumption.
    + apply (shows_cmyk _ a b c0 d); [congruence|assumption].
    + apply shows_unknown. rewrite C. assumption.
Qed.

(** ** Examples *)
Definition ex_jfif : marker := mkMarker 0xe0 (bytes_of_string "JFIF" ++ map bZ [0; 1; 1; 1; 0; 72; 0; 72; 0; 0]).
Definition ex_exif : marker := mkMarker 0xe1 (bytes_of_string "Exif" ++ map bZ [0; 0; 1; 2; 3]).
Definition ex_adobe (t : Z) : marker := mkMarker 0xee (bytes_of_string "Adobe" ++ map bZ [0; 100; 0; 0; 0; 0; t]).
Definition ex_photo : jpeg := mkJpeg [ex_jfif; mkMarker 0xfe (bytes_of_string "a comment"); ex_exif] [1; 2; 3] [[16; 11; 10]; [17; 18; 24]] [[5; 0; -1]; [0; 2]; [3]] true.
Definition ex_defaults : defaults := mkDefaults true false (mk_data ex_jfif) (mk_data (ex_adobe 1)).
Example C105_example : valid_jpeg ex_photo /\ shows ex_photo YCbCr /\ ~ adobe_needed ex_photo /\
  made ex_defaults ex_photo (mkJpeg [ex_jfif; ex_exif] [1; 2; 3] [[16; 11; 10]; [17; 18; 24]] [[5; 0; -1]; [0; 2]; [3]] false).
Proof.
  assert (J : jfif ex_photo) by (exists ex_jfif; eexists; split; [left; reflexivity|]; split; [reflexivity|]; split; [reflexivity|cbn; lia]).
  split; [repeat (apply Forall_cons; [vm_compute; discriminate|]); apply Forall_nil|]. split; [apply (shows_jfif _ 1 2 3); [reflexivity|exact J]|]. split; [|eexists; split; [vm_compute; reflexivity|repeat split]].
  intros [(_ & N & _)|(L & _)]; [exact (N J)|discriminate L].
Qed.
(** Finding: a picture of four inks in Adobe's YCCK coding comes out as CMYK with the numbers
    of YCCK. *)
Definition ex_inks : jpeg := mkJpeg [ex_adobe 2] [1; 2; 3; 4] [[16; 11; 10]] [[5; 0]; [1]; [2]; [3]] false.
Theorem C105_colours_refuted : exists df f out, valid_jpeg f /\ shows f YCCK /\ made df f out /\ shows out CMYK.
Proof.
  exists ex_defaults, ex_inks, (mkJpeg [] [1; 2; 3; 4] [[16; 11; 10]] [[5; 0]; [1]; [2]; [3]] false).
  split; [repeat (apply Forall_cons; [vm_compute; discriminate|]); apply Forall_nil|]. split; [|split; [eexists; split; [vm_compute; reflexivity|repeat split]|]].
  - apply (shows_adobe_ycck _ 1 2 3 4 2); [reflexivity| |discriminate]. exists [], (ex_adobe 2), []. split; [reflexivity|]. split; [|intros m' t []]. split; [reflexivity|]. exists (map bZ [0; 100; 0; 0; 0; 0]), [], (bZ 2). repeat split.
  - apply (shows_cmyk _ 1 2 3 4); [reflexivity|]. intros m t [].
Qed.

Print Assumptions C105_same_picture.
Print Assumptions C105_colours_partial.
Print Assumptions C105_colours_refuted.
