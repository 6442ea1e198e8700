(** C31: attributes to JSON and back. *)
From Verif Require Import Base BaseLemmas MapModel MapProofs StringModel IppModel IppSpec IppEncProofs IppDecProofs JsonModel.
From Coq Require Import Lia ZifyBool ZifyNat Permutation.
Local Open Scope Z_scope.
Ltac Zify.zify_post_hook ::= Z.div_mod_to_equations.

(** Attributes as the program makes them: members within their C++ types, the
    alternatives that need their tag with their tag, keys of collections in order.
    Dates are left out, see below. *)
Fixpoint json_ok (t : Z) (v : ipp_value) {struct v} : bool :=
  match v with
  | VStr _ | VBool _ => true
  | VInt z => s32_ok z
  | VRange lo hi => (t =? 0x33) && s32_ok lo && s32_ok hi
  | VRes x y u => (t =? 0x32) && u32_ok x && u32_ok y && u8_ok u
  | VDate _ => false
  | VSet l => forallb (json_ok t) l
  | VColl m => (t =? 0x34) && keys_sorted m && forallb (fun e => u8_ok (fst (snd e)) && json_ok (fst (snd e)) (snd (snd e))) m
  end.

(** the loops of valuefromJSON *)
Fixpoint eachValue (tag : Z) (l : list json) : outcome (list ipp_value) :=
  match l with
  | [] => Ok []
  | x :: l' =>
      let! v := valuefromJSON tag x in
      let! vs := eachValue tag l' in
      Ok (v :: vs)
  end.
Lemma valuefromJSON_arr t l : valuefromJSON t (JArr l) = let! vs := eachValue t l in Ok (VSet vs).
Proof.
  cbn [valuefromJSON]. f_equal. induction l as [|x l IH]; [reflexivity|]. cbn [eachValue]. destruct (valuefromJSON t x); try reflexivity.
  cbn [bind]. rewrite IH. reflexivity.
Qed.
Lemma map_get_value_fix t o :
  (fix value (o : list (string * json)) : outcome ipp_value :=
     match o with
     | [] => Throw OutOfRange
     | (k', y) :: o' => if String.eqb "value" k' then valuefromJSON t y else value o'
     end) o = let! x := json_at "value" o in valuefromJSON t x.
Proof.
  unfold json_at. induction o as [|[k y] o IH]; [reflexivity|]. cbn [map_get]. destruct (String.eqb "value" k); [reflexivity|exact IH].
Qed.
Lemma valuefromJSON_coll m : valuefromJSON 0x34 (JObj m) = let! c := attrsfromJSON m [] in Ok (VColl c).
Proof.
  cbn [valuefromJSON]. change (0x34 =? tIntegerRange) with false. change (0x34 =? tResolution) with false. change (0x34 =? tDateTime) with false.
  change (0x34 =? tBeginCollection) with true. cbv iota. f_equal. generalize (@nil (string * ipp_attr)).
  induction m as [|[k x] m IH]; intros acc; [reflexivity|]. cbn [attrsfromJSON].
  assert (E : attrfromJSON x = match x with
                 | JObj o =>
                     let! t := json_at "tag" o in
                     let t := int_value t mod two8 in
                     let! v := (fix value (o : list (string * json)) : outcome ipp_value :=
                       match o with
                       | [] => Throw OutOfRange
                       | (k', y) :: o' => if String.eqb "value" k' then valuefromJSON t y else value o'
                       end) o in
                     Ok (t, v)
                 | _ => Throw OutOfRange
                 end).
  { unfold attrfromJSON. destruct x as [|s|z|b|l|o]; try reflexivity. destruct (json_at "tag" o) as [t| | | |]; try reflexivity. cbn [bind]. cbv zeta.
    rewrite map_get_value_fix. destruct (json_at "value" o); reflexivity. }
  rewrite E. destruct (match x with JObj _ => _ | _ => _ end) as [a| | | |]; try reflexivity. cbn [bind]. apply IH.
Qed.

Definition json_P (v : ipp_value) : Prop := forall t, json_ok t v = true -> valuefromJSON t (valueToJSON v) = Ok v.
Lemma attr_json t v : json_P v -> u8_ok t = true -> json_ok t v = true -> attrfromJSON (attrToJSON (t, v)) = Ok (t, v).
Proof.
  intros H Ht Hv. unfold attrfromJSON, attrToJSON, json_at. cbn [map_get fst snd String.eqb Ascii.eqb Bool.eqb]. cbn [bind int_value]. unfold u8_ok in Ht.
  unfold two8. replace (t mod 256) with t by lia. cbv zeta. rewrite (H t Hv). reflexivity.
Qed.
Lemma set_gt k v (m : ipp_attrs) : Forall (fun e => String.compare (fst e) k = Lt) m -> map_set k v m = m ++ [(k, v)].
Proof.
  induction 1 as [|[k' v'] m H Hm IH]; [reflexivity|]. cbn [map_set fst] in *. rewrite String.compare_antisym, H. cbn [CompOpp app]. rewrite IH. reflexivity.
Qed.
Lemma attrs_json m : Forall (fun e => json_P (snd (snd e))) m ->
  forallb (fun e => u8_ok (fst (snd e)) && json_ok (fst (snd e)) (snd (snd e))) m = true -> sorted_keys m ->
  forall acc, (forall e e', In e acc -> In e' m -> String.compare (fst e) (fst e') = Lt) ->
  attrsfromJSON (map (fun e => (fst e, attrToJSON (snd e))) m) acc = Ok (acc ++ m).
Proof.
  induction 1 as [|[k [t v]] m H Hm IH]; intros Hf Hs acc Hacc; cbn [map attrsfromJSON]; [rewrite app_nil_r; reflexivity|].
  cbn [forallb fst snd] in Hf. apply andb_prop in Hf as [Hv Hf]. apply andb_prop in Hv as [Ht Hv]. cbn [fst snd] in *. destruct Hs as [Hs1 Hs2].
  rewrite (attr_json t v H Ht Hv). cbn [bind]. rewrite set_gt.
  - rewrite IH; [rewrite <- app_assoc; reflexivity|exact Hf|exact Hs2|]. intros e e' He He'. apply in_app_or in He. destruct He as [He|[<-|[]]].
    + apply Hacc; [exact He|right; exact He'].
    + rewrite Forall_forall in Hs1. apply Hs1. exact He'.
  - apply Forall_forall. intros e He. apply (Hacc e (k, (t, v)) He). left. reflexivity.
Qed.
Lemma json_all v : json_P v.
Proof.
  induction v as [v Hs Hc|l IH|m IH] using value_ind2; intros t H.
  - destruct v as [s|z|b|lo hi|x y u|d|l|m]; try reflexivity; try discriminate; try (exfalso; eapply Hs; reflexivity); try (exfalso; eapply Hc; reflexivity).
    + cbn [json_ok] in H. apply andb_prop in H as [H _]. apply andb_prop in H as [H _]. apply Z.eqb_eq in H. subst t. reflexivity.
    + cbn [json_ok] in H. apply andb_prop in H as [H H3]. apply andb_prop in H as [H H2]. apply andb_prop in H as [H H1]. apply Z.eqb_eq in H. subst t.
      unfold u32_ok, u8_ok in *. cbn. unfold to_s32, two32, two8. f_equal. destruct (x <? 2147483648) eqn:?; destruct (y <? 2147483648) eqn:?; f_equal; lia.
  - cbn [json_ok] in H. cbn [valueToJSON]. rewrite valuefromJSON_arr. assert (E : eachValue t (map valueToJSON l) = Ok l).
    { induction IH as [|v l Hv Hl IHl]; [reflexivity|]. cbn [forallb] in H. apply andb_prop in H as [H1 H2]. cbn [map eachValue]. rewrite (Hv t H1). cbn [bind].
      rewrite (IHl H2). reflexivity. }
    rewrite E. reflexivity.
  - cbn [json_ok] in H. apply andb_prop in H as [H Hf]. apply andb_prop in H as [Ht Hk]. apply Z.eqb_eq in Ht. subst t. cbn [valueToJSON].
    rewrite valuefromJSON_coll. change (map _ m) with (map (fun e => (fst e, attrToJSON (snd e))) m).
    rewrite (attrs_json m IH Hf (keys_sorted_prop m Hk) []); [reflexivity|]. intros e e' [].
Qed.

(** ** C31 *)
(** Reading back what an attribute without dates was saved as gives the attribute,
    however nested. *)
Theorem C31_round_trip_partial t v : 0 <= t < 256 -> json_ok t v = true -> attrfromJSON (attrToJSON (t, v)) = Ok (t, v).
Proof. intros Ht Hv. apply attr_json; [apply json_all|unfold u8_ok; lia|exact Hv]. Qed.
(** the same for whole sets of attributes (saved printer attributes) *)
Theorem C31_attrs_round_trip_partial (m : ipp_attrs) : sorted_keys m ->
  Forall (fun e => 0 <= fst (snd e) < 256 /\ json_ok (fst (snd e)) (snd (snd e)) = true) m ->
  exists o, attrsToJSON m = JObj o /\ attrsfromJSON o [] = Ok m.
Proof.
  intros Hs Hf. eexists. split; [reflexivity|]. apply (attrs_json m) with (acc := []).
  - apply Forall_forall. intros. apply json_all.
  - apply forallb_forall. rewrite Forall_forall in Hf. intros e He. destruct (Hf e He) as [H1 H2]. rewrite H2. unfold u8_ok. lia.
  - exact Hs.
  - intros e e' [].
Qed.
(** every attribute that can be sent (C25) and has no date is among these *)
Fixpoint has_date (v : ipp_value) : bool :=
  match v with
  | VDate _ => true
  | VSet l => existsb has_date l
  | VColl m => existsb (fun e => has_date (snd (snd e))) m
  | _ => false
  end.
Theorem C31_wire_attributes_partial t v : wf_attr (t, v) = true -> has_date v = false -> attrfromJSON (attrToJSON (t, v)) = Ok (t, v).
Proof.
  assert (Hj : forall v s t, wf_val s t v = true -> has_date v = false -> json_ok t v = true).
  { intros w. induction w as [w Hs Hc|l IH|m IH] using value_ind2; intros s t' H Hd.
    - destruct w as [x|z|b|lo hi|x y u|d|l|m]; try reflexivity; try discriminate; try (exfalso; eapply Hs; reflexivity); try (exfalso; eapply Hc; reflexivity); try exact H.
      cbn [wf_val scalar_ok] in H. apply andb_prop in H. cbn. tauto.
    - cbn [wf_val] in H. apply andb_prop in H as [_ H]. cbn [has_date] in Hd. cbn [json_ok]. induction IH as [|v' l Hv Hl IHl]; [reflexivity|].
      cbn [forallb existsb] in *. apply andb_prop in H as [H1 H2]. apply orb_false_elim in Hd as [D1 D2]. rewrite (Hv _ _ H1 D1). apply IHl; assumption.
    - cbn [wf_val] in H. apply andb_prop in H as [H Hf]. apply andb_prop in H as [Ht Hk]. cbn [json_ok has_date] in *. rewrite Ht, Hk. cbn [andb]. clear Hk.
      induction IH as [|e l Hv Hl IHl]; [reflexivity|].
      cbn [forallb existsb] in *. apply andb_prop in Hf as [H1 H2]. apply andb_prop in H1 as [_ H1]. apply orb_false_elim in Hd as [D1 D2]. rewrite (Hv _ _ H1 D1).
      rewrite (IHl H2 D2). assert (T : 0x21 <= fst (snd e) <= 0x49).
      { clear - H1. destruct e as [k [t w]]. cbn [fst snd] in *. destruct w as [x|z|b|lo hi|x y u|d|l|m]; cbn [wf_val] in H1; try (apply scalar_tag in H1; lia).
        - apply andb_prop in H1 as [H0 H1]. destruct l as [|w l]; [cbn in H0; lia|]. cbn [forallb] in H1. apply andb_prop in H1 as [H1 _].
          destruct w; try (cbn [wf_val] in H1; apply scalar_tag in H1; lia); try discriminate H1; apply wf_val_coll in H1; lia.
        - apply andb_prop in H1 as [H1 _]. apply andb_prop in H1 as [H1 _]. lia. }
      unfold u8_ok. replace ((0 <=? fst (snd e)) && (fst (snd e) <? 256))%bool with true by lia. reflexivity. }
  intros H Hd. unfold wf_attr in H. cbn [fst snd] in H. apply C31_round_trip_partial; [|eapply Hj; eassumption].
  destruct v as [x|z|b|lo hi|x y u|d|l|m]; cbn [wf_val] in H; try (apply scalar_tag in H; lia).
  - apply andb_prop in H as [H0 H1]. destruct l as [|w l]; [cbn in H0; lia|]. cbn [forallb] in H1. apply andb_prop in H1 as [H1 _].
    destruct w; try (cbn [wf_val] in H1; apply scalar_tag in H1; lia); try discriminate H1; apply wf_val_coll in H1; lia.
  - apply andb_prop in H as [H _]. apply andb_prop in H as [H _]. lia.
Qed.
(** A date comes back as a string, whichever date it is. *)
Theorem C31_date_refuted t d : 0 <= t < 256 -> exists s, attrfromJSON (attrToJSON (t, VDate d)) = Ok (t, VStr s) /\ VStr s <> VDate d.
Proof.
  intros Ht. exists (date_str d). split; [|discriminate]. unfold attrfromJSON, attrToJSON, json_at. cbn [map_get fst snd String.eqb Ascii.eqb Bool.eqb].
  cbn [bind int_value]. unfold two8. replace (t mod 256) with t by lia. reflexivity.
Qed.
Example C31_example :
  let a := (tBeginCollection, VColl
        [ ("media-size", (tBeginCollection, VColl [ ("x-dimension", (tInteger, VInt 21000)); ("y-dimension", (tIntegerRange, VRange (-1) 29700)) ]));
          ("media-type", (tKeyword, VSet [VStr "a"; VStr "b"; VStr ""]));
          ("resolution", (tResolution, VSet [VRes 600 4294967295 3])) ]%string) in
  json_ok (fst a) (snd a) = true /\ attrfromJSON (attrToJSON a) = Ok a.
Proof. split; vm_compute; reflexivity. Qed.
Example C31_date_example : attrfromJSON (attrToJSON (tDateTime, VDate (mkDate 2000 1 2 0 0 57 3 43 2 0))) = Ok (tDateTime, VStr "2000-01-02T00:00:57.300 GMT+0200").
Proof. vm_compute. reflexivity. Qed.

Print Assumptions C31_round_trip_partial.
Print Assumptions C31_attrs_round_trip_partial.
Print Assumptions C31_wire_attributes_partial.
Print Assumptions C31_date_refuted.
