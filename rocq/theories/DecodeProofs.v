(** What decoding yields can be told from the text ippdecode writes. *)
From Verif Require Import Base BaseLemmas MapModel StringModel IppModel JsonModel IppSpec IppEncProofs PpmSpec PpmProofs JsonSpec SettingsModel SettingsProofs DumpProofs WarnModel DecodeModel.
From Coq Require Import Lia ZifyBool ZifyNat.
Local Open Scope Z_scope.

(** the numbers of resolutions fit into 32 bits *)
Fixpoint res_ok (v : ipp_value) : bool :=
  match v with
  | VRes x y _ => (0 <=? x) && (x <? 4294967296) && (0 <=? y) && (y <? 4294967296)
  | VSet l => forallb res_ok l
  | VColl m => forallb (fun e => res_ok (snd (snd e))) m
  | _ => true
  end.
Fixpoint no_date (v : ipp_value) : bool :=
  match v with
  | VDate _ => false
  | VSet l => forallb no_date l
  | VColl m => forallb (fun e => no_date (snd (snd e))) m
  | _ => true
  end.
Lemma to_s32_inj x y : 0 <= x < 4294967296 -> 0 <= y < 4294967296 -> to_s32 x = to_s32 y -> x = y.
Proof. unfold to_s32. intros. destruct (Z.ltb_spec x 2147483648), (Z.ltb_spec y 2147483648); lia. Qed.
Lemma value_json_inj v : forall w, res_ok v = true -> res_ok w = true -> no_date v = true -> no_date w = true -> valueToJSON v = valueToJSON w -> v = w.
Proof.
  induction v as [v Hs Hc|l IH|m IH] using value_ind2; intros w R R' D D' E.
  - destruct v as [x|z|b|lo hi|x y u|d|l|m]; try discriminate D; try (exfalso; eapply Hs; reflexivity); try (exfalso; eapply Hc; reflexivity);
      destruct w as [x'|z'|b'|lo' hi'|x' y' u'|d'|l'|m']; try discriminate D'; try discriminate E; try (injection E; intros; congruence).
    + exfalso. cbn [valueToJSON] in E. destruct m' as [|[k [t v]] m']; [discriminate|]. cbn in E. discriminate.
    + cbn [valueToJSON] in E. injection E as Eu Ex Ey. cbn [res_ok] in R, R'. apply to_s32_inj in Ex; [|lia|lia]. apply to_s32_inj in Ey; [|lia|lia]. congruence.
    + exfalso. cbn [valueToJSON] in E. destruct m' as [|[k [t v]] m']; [discriminate|]. cbn in E. discriminate.
  - destruct w as [x'|z'|b'|lo' hi'|x' y' u'|d'|l'|m']; try discriminate D'; try discriminate E. cbn [valueToJSON] in E. injection E as E. f_equal.
    cbn [res_ok no_date] in *. revert l' R' D' E. induction IH as [|v l Hv Hl IHl]; intros [|v' l'] R' D' E; try discriminate E; [reflexivity|].
    cbn [forallb map] in *. apply andb_prop in R as [R1 R2], R' as [R1' R2'], D as [D1 D2], D' as [D1' D2']. injection E as E1 E2. f_equal; [apply Hv; assumption|apply IHl; assumption].
  - destruct w as [x'|z'|b'|lo' hi'|x' y' u'|d'|l'|m']; try discriminate D'; try discriminate E.
    + exfalso. cbn [valueToJSON] in E. destruct m as [|[k [t v]] m]; [discriminate|]. cbn in E. discriminate.
    + exfalso. cbn [valueToJSON] in E. destruct m as [|[k [t v]] m]; [discriminate|]. cbn in E. discriminate.
    + cbn [valueToJSON] in E. injection E as E. f_equal. cbn [res_ok no_date] in *. revert m' R' D' E. induction IH as [|v l Hv Hl IHl]; intros [|v' l'] R' D' E; try discriminate E; [reflexivity|].
      cbn [forallb map] in *. apply andb_prop in R as [R1 R2], R' as [R1' R2'], D as [D1 D2], D' as [D1' D2']. injection E as E0 E1 E2 E3.
      f_equal; [|apply IHl; assumption]. destruct v as [k [t v]], v' as [k' [t' v']]. cbn [fst snd] in *. f_equal; [exact E0|]. f_equal; [exact E1|]. apply Hv; assumption.
Qed.
Definition group_ok (p : ipp_value -> bool) (m : ipp_attrs) : bool := forallb (fun e => p (snd (snd e))) m.
Lemma attrs_json_inj m m' : group_ok res_ok m = true -> group_ok res_ok m' = true -> group_ok no_date m = true -> group_ok no_date m' = true -> attrsToJSON m = attrsToJSON m' -> m = m'.
Proof.
  intros R R' D D' E. assert (VColl m = VColl m') as X; [|injection X; trivial]. apply value_json_inj; [exact R|exact R'|exact D|exact D'|]. exact E.
Qed.

(** ** The text *)
Lemma line_app b r : line b ++ r = b ++ bZ 10 :: r.
Proof. unfold line. rewrite <- app_assoc. reflexivity. Qed.
Lemma nl_no_digit r : no_digit (bZ 10 :: r).
Proof. cbn. lia. Qed.
Lemma attrs_text_inj h m m' r r' : attrs_text h m ++ r = attrs_text h m' ++ r' -> attrsToJSON m = attrsToJSON m' /\ r = r'.
Proof.
  unfold attrs_text. rewrite <- !app_assoc. intros E. apply app_inv_head in E. rewrite !line_app in E. apply dump_determines in E; [|apply nl_no_digit|apply nl_no_digit].
  destruct E as [E1 E2]. split; [exact E1|]. injection E2; trivial.
Qed.
Lemma jobs_text_inj : forall l l' p p', flat_map (attrs_text "Job attrs: ") l ++ attrs_text "Printer attrs: " p = flat_map (attrs_text "Job attrs: ") l' ++ attrs_text "Printer attrs: " p' ->
  map attrsToJSON l = map attrsToJSON l' /\ attrsToJSON p = attrsToJSON p'.
Proof.
  induction l as [|m l IH]; intros [|m' l'] p p' E; cbn [flat_map] in E.
  - cbn [app] in E. rewrite <- (app_nil_r (attrs_text _ p)), <- (app_nil_r (attrs_text _ p')) in E. apply attrs_text_inj in E. split; [reflexivity|tauto].
  - exfalso. unfold attrs_text in E. cbn in E. discriminate.
  - exfalso. unfold attrs_text in E. cbn in E. discriminate.
  - rewrite <- !app_assoc in E. apply attrs_text_inj in E. destruct E as [E1 E2]. apply IH in E2. destruct E2 as [E2 E3]. split; [cbn [map]; congruence|exact E3].
Qed.
Lemma bytes_append s t : bytes_of_string (s ++ t)%string = bytes_of_string s ++ bytes_of_string t.
Proof. induction s as [|c s IH]; [reflexivity|]. cbn. f_equal. exact IH. Qed.
Lemma msg_text_inj m m' : 0 <= m_opOrStatus m -> 0 <= m_opOrStatus m' -> msg_text m = msg_text m' ->
  m_opOrStatus m = m_opOrStatus m' /\ attrsToJSON (m_opAttrs m) = attrsToJSON (m_opAttrs m') /\ map attrsToJSON (m_jobAttrs m) = map attrsToJSON (m_jobAttrs m') /\
  attrsToJSON (m_printerAttrs m) = attrsToJSON (m_printerAttrs m').
Proof.
  intros H H' E. unfold msg_text in E. rewrite !line_app, !bytes_append, <- !app_assoc in E. apply app_inv_head in E.
  pose proof (read_dec _ (bZ 10 :: attrs_text "Operation attrs: " (m_opAttrs m) ++ flat_map (attrs_text "Job attrs: ") (m_jobAttrs m) ++ attrs_text "Printer attrs: " (m_printerAttrs m)) H (nl_no_digit _)) as A.
  rewrite E in A. rewrite (read_dec _ _ H' (nl_no_digit _)) in A. apply pair_equal_spec in A. destruct A as [A1 A2]. apply (f_equal (@tl byte)) in A2. cbn [tl] in A2. apply attrs_text_inj in A2. destruct A2 as [A2 A3]. apply jobs_text_inj in A3. destruct A3. auto.
Qed.

(** ** What the decoder yields *)
Lemma get_u32_range s z r : get_u32 s = Ok (z, r) -> 0 <= z < 4294967296.
Proof. destruct s as [|a [|b [|c [|d s]]]]; try discriminate. cbn [get_u32]. intros H. injection H as <- _. apply un32_range. Qed.
Lemma decodeValue_res t s v r : decodeValue t s = Ok (v, r) -> res_ok v = true.
Proof.
  unfold decodeValue. intros H.
  repeat match type of H with (if ?c then _ else _) = _ => destruct c; [try discriminate|] end.
  all: try (destruct (next_zero s); [injection H as <- _; reflexivity|]).
  4: { bind_inv H as s1 E1 H. bind_inv H as p E2 H. destruct p as [x s2]. bind_inv H as p E3 H. destruct p as [y s3]. bind_inv H as p E4 H. destruct p as [u s4]. injection H as <- _.
       apply get_u32_range in E2. apply get_u32_range in E3. cbn [res_ok]. lia. }
  all: repeat match type of H with
    | bind ?e _ = Ok _ => let p := fresh in let E := fresh in bind_inv H as p E H; try clear E
    | (let (_, _) := ?p in _) = _ => destruct p
    end.
  all: injection H as <- _; reflexivity.
Qed.
Definition all_res (l : list ipp_attr) : Prop := Forall (fun a => res_ok (snd a) = true) l.
Lemma getUnnamed_res fuel : forall s l r, getUnnamed fuel s = Ok (l, r) -> all_res l.
Proof.
  induction fuel as [|fuel IH]; intros [|t s] l r H; cbn [getUnnamed] in H.
  - injection H as <- _. constructor.
  - destruct (next_zero s); [discriminate|]. injection H as <- _. constructor.
  - injection H as <- _. constructor.
  - destruct (next_zero s) as [s'|]; [|injection H as <- _; constructor]. bind_inv H as p E1 H. destruct p as [v s1]. bind_inv H as p E2 H. destruct p as [l' s2]. injection H as <- _.
    constructor; [eapply decodeValue_res; exact E1|eapply IH; exact E2].
Qed.
Lemma takeSame_res t l : forall vs r, all_res l -> takeSame t l = Ok (vs, r) -> forallb res_ok vs = true /\ all_res r.
Proof.
  induction l as [|[t' v] l IH]; intros vs r A H; cbn [takeSame] in H; [discriminate|]. inversion A as [|? ? A1 A2]; subst. cbn [snd] in A1. destruct (t' =? t).
  - bind_inv H as p E H. destruct p as [vs' r']. injection H as <- <-. destruct (IH _ _ A2 E) as [B1 B2]. split; [cbn [forallb]; rewrite A1, B1; reflexivity|exact B2].
  - injection H as <- <-. split; [reflexivity|exact A].
Qed.
Lemma map_insert_res k a m : res_ok (snd a) = true -> group_ok res_ok m = true -> group_ok res_ok (map_insert k a m) = true.
Proof.
  intros Ha. unfold group_ok. induction m as [|[k' a'] m IH]; intros H; cbn [map_insert].
  - cbn [forallb snd]. rewrite Ha. reflexivity.
  - cbn [forallb snd] in H. apply andb_prop in H as [H1 H2]. destruct (String.compare k k'); cbn [forallb snd]; rewrite ?Ha, ?H1, ?H2, ?(IH H2); reflexivity.
Qed.
Lemma collapse_res l : forallb res_ok l = true -> res_ok (collapse l) = true.
Proof. destruct l as [|v [|w l]]; intros H; try exact H. cbn [forallb] in H. cbn [collapse]. apply andb_prop in H. tauto. Qed.
Lemma collect_res fuel : forall l arr m v r, all_res l -> forallb res_ok arr = true -> group_ok res_ok m = true -> collect fuel l arr m = Ok (v, r) -> res_ok v = true /\ all_res r.
Proof.
  induction fuel as [|fuel IH]; intros l arr m v r A B C H; cbn [collect] in H; [discriminate|]. destruct l as [|[t w] l].
  - injection H as <- <-. split; [apply collapse_res; exact B|constructor].
  - inversion A as [|? ? A1 A2]; subst. destruct (t =? tMemberName).
    + destruct w as [key|z|b|lo hi|x y u|d|l0|m0]; try discriminate. destruct l as [|[t1 v1] l]; [discriminate|]. inversion A2 as [|? ? A3 A4]; subst. cbn [snd] in A3. destruct (t1 =? tBeginCollection).
      * bind_inv H as p E H. destruct p as [cv rest]. destruct (IH _ [] [] _ _ A4 eq_refl eq_refl E) as [D1 D2]. apply (IH _ _ _ _ _ D2 B) in H; [exact H|]. apply map_insert_res; [exact D1|exact C].
      * bind_inv H as p E H. destruct p as [more rest]. destruct (takeSame_res _ _ _ _ A4 E) as [D1 D2]. apply (IH _ _ _ _ _ D2 B) in H; [exact H|]. apply map_insert_res; [|exact C].
        cbn [snd]. destruct more as [|v2 more]; [exact A3|]. cbn [res_ok forallb] in *. rewrite A3. exact D1.
    + destruct (t =? tEndCollection); [|discriminate].
      assert (B' : forallb res_ok (arr ++ [VColl m]) = true). { rewrite forallb_app, B. cbn [forallb res_ok]. unfold group_ok in C. rewrite C. reflexivity. }
      destruct l as [|[t1 v1] l]; [injection H as <- <-; split; [apply collapse_res; exact B'|constructor]|].
      destruct (t1 =? tBeginCollection); [|injection H as <- <-; split; [apply collapse_res; exact B'|exact A2]]. inversion A2 as [|? ? A3 A4]; subst. apply (IH _ _ [] _ _ A4 B' eq_refl H).
Qed.
Lemma consume_res attrs s attrs' r : group_ok res_ok attrs = true -> consumeAttribute attrs s = Ok (attrs', r) -> group_ok res_ok attrs' = true.
Proof.
  intros A H. unfold consumeAttribute in H. bind_inv H as p E1 H. destruct p as [t s1]. bind_inv H as p E2 H. destruct p as [name s2]. bind_inv H as p E3 H. destruct p as [v s3]. bind_inv H as p E4 H. destruct p as [un s4].
  bind_inv H as p E5 H. destruct p as [v' un']. injection H as <- _. apply decodeValue_res in E3. apply getUnnamed_res in E4.
  assert (F : res_ok v' = true /\ all_res un'). { destruct (t =? tBeginCollection); [apply (collect_res _ _ [] [] _ _ E4 eq_refl eq_refl E5)|]. injection E5 as <- <-. split; assumption. }
  destruct F as [F1 F2]. apply map_insert_res; [|exact A]. cbn [snd]. destruct un' as [|u un']; [exact F1|]. cbn [res_ok forallb]. rewrite F1. cbn [andb].
  change (forallb res_ok (map snd (u :: un')) = true). apply forallb_forall. intros w Hw. apply in_map_iff in Hw. destruct Hw as [a [<- Ha]]. unfold all_res in F2. rewrite Forall_forall in F2. apply F2. exact Ha.
Qed.
Definition msg_res (m : ipp_msg) : Prop := group_ok res_ok (m_opAttrs m) = true /\ Forall (fun g => group_ok res_ok g = true) (m_jobAttrs m) /\ group_ok res_ok (m_printerAttrs m) = true.
Lemma decode_loop_res fuel : forall m g attrs s m' r, msg_res m -> group_ok res_ok attrs = true -> decode_loop fuel m g attrs s = Ok (m', r) -> msg_res m' /\ m_opOrStatus m' = m_opOrStatus m.
Proof.
  induction fuel as [|fuel IH]; intros m g attrs [|t s] m' r M A H; cbn [decode_loop] in H; try discriminate; try (injection H as <- _; split; [exact M|reflexivity]).
  destruct (Zb t <=? tUnsupportedAttrs).
  - assert (S : msg_res (store_group m g attrs) /\ m_opOrStatus (store_group m g attrs) = m_opOrStatus m).
    { destruct M as [M1 [M2 M3]]. unfold store_group. destruct (g =? tOpAttrs); [|destruct (g =? tJobAttrs); [|destruct (g =? tPrinterAttrs)]]; (split; [|reflexivity]); unfold msg_res; cbn; repeat split; try assumption.
      apply Forall_app. split; [exact M2|]. constructor; [exact A|constructor]. }
    destruct S as [S1 S2]. destruct (Zb t =? tEndAttrs); [injection H as <- _; split; assumption|]. rewrite <- S2. apply (IH _ _ [] _ _ _ S1 eq_refl H).
  - bind_inv H as p E H. destruct p as [attrs' s']. apply (IH _ _ _ _ _ _ M (consume_res _ _ _ _ A E) H).
Qed.
Lemma decodeMsg_res s m r : decodeMsg s = Ok (m, r) -> msg_res m /\ 0 <= m_opOrStatus m.
Proof.
  unfold decodeMsg. intros H. bind_inv H as p E1 H. destruct p as [maj s1]. bind_inv H as p E2 H. destruct p as [min s2]. bind_inv H as p E3 H. destruct p as [op s3]. bind_inv H as p E4 H. destruct p as [id s4].
  apply decode_loop_res in H; [|repeat split; constructor|reflexivity]. destruct H as [H1 H2]. split; [exact H1|]. rewrite H2. cbn [m_opOrStatus].
  destruct s2 as [|a [|b s2]]; try discriminate. cbn [get_u16] in E3. injection E3 as <- _. unfold un16. pose proof (Zb_range a). pose proof (Zb_range b). lia.
Qed.
