(** C57-C59: supplies, requests and running a job. *)
From Verif Require Import Base BaseLemmas MapModel MapProofs FloatModel StringModel StringSpec StringProofs StringProperties ParamsModel
  IppModel IppSpec IppEncProofs IppDecProofs IppMsgProofs IppProperties JsonModel ArgModel
  SettingModel SettingProperties ConverterModel ConverterProperties JobModel JobProofs JobProperties PrinterModel PrinterSpec.
From Coq Require Import Lia ZifyBool ZifyNat.
Local Open Scope Z_scope.

(** ** C57 *)
Lemma str_list_values k pa l : str_list k pa = Ok l -> map VStr l = values k pa.
Proof.
  unfold str_list. intros H. bind_inv H as vs Hv H. injection H as <-. apply getList_values in Hv. destruct Hv as [-> Hf]. change (JobProperties.values k pa) with (values k pa) in *.
  rewrite map_map. rewrite <- (map_id (values k pa)) at 2. apply map_ext_in. intros v Hin. rewrite Forall_forall in Hf. specialize (Hf v Hin). destruct v; try discriminate. reflexivity.
Qed.
Lemma int_list_values k pa l : int_list k pa = Ok l -> map VInt l = values k pa.
Proof.
  unfold int_list. intros H. bind_inv H as vs Hv H. injection H as <-. apply getList_values in Hv. destruct Hv as [-> Hf]. change (JobProperties.values k pa) with (values k pa) in *.
  rewrite map_map. rewrite <- (map_id (values k pa)) at 2. apply map_ext_in. intros v Hin. rewrite Forall_forall in Hf. specialize (Hf v Hin). destruct v; try discriminate. reflexivity.
Qed.
Lemma getList_total t k pa : Forall (fun v => has_type t v = true) (values k pa) -> attrs_getList t k pa = Ok (values k pa).
Proof.
  intros H. unfold attrs_getList, values in *. destruct (map_get k pa) as [[tag v]|]; [|reflexivity]. cbn [snd].
  assert (G : forall l, Forall (fun v => has_type t v = true) l -> get_each t l = Ok l).
  { induction 1 as [|x l Hx Hl IH]; cbn [get_each]; [reflexivity|]. unfold get_as. rewrite Hx. cbn [bind]. rewrite IH. reflexivity. }
  unfold as_list. destruct v; apply G; exact H.
Qed.
Lemma color_list_colours c : colours c (color_list c).
Proof.
  pose proof (C22_split_join_partial c "#"%char) as (H1 & _ & H3). exists (split_string c "#"). split; [exact H1|]. split.
  { rewrite split_string_pieces. unfold pieces_list. destruct (pieces _ _). discriminate. }
  split; [exact H3|]. unfold color_list. clear. induction (split_string c "#") as [|p l IH]; [reflexivity|]. cbn [flat_map filter].
  destruct (String.eqb p ""); cbn [negb]; [exact IH|]. cbn [app map]. rewrite IH. reflexivity.
Qed.
Lemma zip_nth names : forall types colors levels lows highs i,
  nth_error (zip_supplies names types colors levels lows highs) i =
  match nth_error names i, nth_error types i, nth_error colors i, nth_error levels i, nth_error lows i, nth_error highs i with
  | Some n, Some t, Some c, Some l, Some lo, Some hi => Some (mkSupply n t (color_list c) l lo hi)
  | _, _, _, _, _, _ => None
  end.
Proof.
  induction names as [|n names IH]; intros types colors levels lows highs i.
  { destruct i; reflexivity. }
  destruct types as [|t types], colors as [|c colors], levels as [|l levels], lows as [|lo lows], highs as [|hi highs]; cbn [zip_supplies];
    try (destruct i as [|i]; cbn [nth_error]; repeat match goal with |- context [match nth_error ?l ?i with _ => _ end] => destruct (nth_error l i) end; reflexivity).
  destruct i as [|i]; [reflexivity|]. cbn [nth_error]. apply IH.
Qed.
Lemma zip_length names : forall types colors levels lows highs,
  length (zip_supplies names types colors levels lows highs) =
  Nat.min (length names) (Nat.min (length types) (Nat.min (length colors) (Nat.min (length levels) (Nat.min (length lows) (length highs))))).
Proof.
  induction names as [|n names IH]; intros types colors levels lows highs; [reflexivity|].
  destruct types as [|t types], colors as [|c colors], levels as [|l levels], lows as [|lo lows], highs as [|hi highs]; cbn [zip_supplies length]; try lia. rewrite IH. lia.
Qed.
(** The i-th supply is made of the i-th values of the six attributes; there are as many as
    the shortest of them has values. *)
Theorem C57_supplies : forall pa l, supplies pa = Ok l ->
  length l = fold_right Nat.min (length (values "marker-names" pa))
               (map (fun k => length (values k pa)) ["marker-types"; "marker-colors"; "marker-levels"; "marker-low-levels"; "marker-high-levels"]%string) /\
  forall i s, nth_error l i = Some s ->
    nth_error (values "marker-names" pa) i = Some (VStr (sp_name s)) /\ nth_error (values "marker-types" pa) i = Some (VStr (sp_type s)) /\
    nth_error (values "marker-levels" pa) i = Some (VInt (sp_level s)) /\ nth_error (values "marker-low-levels" pa) i = Some (VInt (sp_low s)) /\
    nth_error (values "marker-high-levels" pa) i = Some (VInt (sp_high s)) /\
    exists c, nth_error (values "marker-colors" pa) i = Some (VStr c) /\ colours c (sp_colors s).
Proof.
  intros pa l H. unfold supplies in H. bind_inv H as names H1 H. bind_inv H as types H2 H. bind_inv H as colors H3 H. bind_inv H as levels H4 H.
  bind_inv H as lows H5 H. bind_inv H as highs H6 H. injection H as <-.
  apply str_list_values in H1, H2, H3. apply int_list_values in H4, H5, H6. rewrite <- H1, <- H2, <- H3, <- H4, <- H5, <- H6. split.
  - rewrite zip_length. cbn [fold_right map]. rewrite <- H2, <- H3, <- H4, <- H5, <- H6, !map_length. lia.
  - intros i s. rewrite zip_nth, !nth_error_map.
    destruct (nth_error names i) as [n|]; [|discriminate]. destruct (nth_error types i) as [t|]; [|discriminate]. destruct (nth_error colors i) as [c|]; [|discriminate].
    destruct (nth_error levels i) as [lv|]; [|discriminate]. destruct (nth_error lows i) as [lo|]; [|discriminate]. destruct (nth_error highs i) as [hi|]; [|discriminate].
    intros E. injection E as <-. cbn [sp_name sp_type sp_level sp_low sp_high sp_colors option_map]. repeat (split; [reflexivity|]). exists c. split; [reflexivity|]. apply color_list_colours.
Qed.
(** Nothing goes wrong if the values have their types; otherwise an exception is thrown. *)
Theorem C57_total : forall pa,
  ((exists l, supplies pa = Ok l) \/ supplies pa = Throw BadVariant) /\
  (Forall (fun v => exists s, v = VStr s) (values "marker-names" pa ++ values "marker-types" pa ++ values "marker-colors" pa) ->
   Forall (fun v => exists z, v = VInt z) (values "marker-levels" pa ++ values "marker-low-levels" pa ++ values "marker-high-levels" pa) ->
   exists l, supplies pa = Ok l).
Proof.
  intros pa.
  assert (G : forall t k, (exists l, attrs_getList t k pa = Ok l) \/ attrs_getList t k pa = Throw BadVariant).
  { intros t k. unfold attrs_getList. destruct (map_get k pa) as [[tag v]|]; [|left; eexists; reflexivity]. generalize (as_list (snd (tag, v))). intros l.
    induction l as [|x l IH]; cbn [get_each]; [left; eexists; reflexivity|]. unfold get_as. destruct (has_type t x); [|right; reflexivity]. cbn [bind].
    destruct IH as [[r ->]| -> ]; [left; eexists; reflexivity|right; reflexivity]. }
  split.
  - unfold supplies, str_list, int_list.
    repeat match goal with |- context [attrs_getList ?t ?k pa] => let E := fresh in destruct (G t k) as [[? E]|E]; rewrite E; cbn [bind]; [|right; reflexivity] end.
    left. eexists. reflexivity.
  - intros Hs Hi. rewrite !Forall_app in Hs, Hi.
    assert (Gs : forall k, Forall (fun v => exists s, v = VStr s) (values k pa) -> attrs_getList TStr k pa = Ok (values k pa)).
    { intros k H. apply getList_total. eapply Forall_impl; [|exact H]. intros v [s ->]. reflexivity. }
    assert (Gi : forall k, Forall (fun v => exists s, v = VInt s) (values k pa) -> attrs_getList TInt k pa = Ok (values k pa)).
    { intros k H. apply getList_total. eapply Forall_impl; [|exact H]. intros v [s ->]. reflexivity. }
    destruct Hs as (S1 & S2 & S3), Hi as (I1 & I2 & I3). unfold supplies, str_list, int_list.
    rewrite (Gs _ S1), (Gs _ S2), (Gs _ S3), (Gi _ I1), (Gi _ I2), (Gi _ I3). eexists. reflexivity.
Qed.
(** The firmware likewise. *)
Theorem C57_firmware : forall pa l, firmware pa = Ok l ->
  length l = Nat.min (length (values "printer-firmware-name" pa)) (length (values "printer-firmware-string-version" pa)) /\
  forall i n v, nth_error l i = Some (n, v) ->
    nth_error (values "printer-firmware-name" pa) i = Some (VStr n) /\ nth_error (values "printer-firmware-string-version" pa) i = Some (VStr v).
Proof.
  intros pa l H. unfold firmware in H. bind_inv H as names H1 H. bind_inv H as vs H2 H. injection H as <-. apply str_list_values in H1, H2. rewrite <- H1, <- H2. split.
  - rewrite combine_length, !map_length. reflexivity.
  - intros i n v. rewrite !nth_error_map. clear. revert vs i. induction names as [|x names IH]; intros vs i; [destruct i; discriminate|].
    destruct vs as [|y vs]; [destruct i; discriminate|]. destruct i as [|i]; cbn [nth_error combine]; [|apply IH]. intros E. injection E as -> ->. split; reflexivity.
Qed.
Definition ex_printer_attrs : ipp_attrs :=
  [ ("document-format-default", (tMimeMediaType, VStr "application/octet-stream"));
    ("document-format-supported", (tMimeMediaType, VSet [VStr "application/pdf"; VStr "image/urf"]));
    ("ipp-versions-supported", (tKeyword, VSet [VStr "1.1"; VStr "2.0"]));
    ("marker-colors", (tNameWithoutLanguage, VSet [VStr "#00FFFF#FF00FF"; VStr "none"; VStr "#000000"]));
    ("marker-high-levels", (tInteger, VSet [VInt 100; VInt 90]));
    ("marker-levels", (tInteger, VSet [VInt 50; VInt 20]));
    ("marker-low-levels", (tInteger, VSet [VInt 10; VInt 20]));
    ("marker-names", (tNameWithoutLanguage, VSet [VStr "CM"; VStr "waste"; VStr "K"]));
    ("marker-types", (tKeyword, VSet [VStr "ink"; VStr "waste-ink"; VStr "ink"]));
    ("operations-supported", (tEnum, VSet [VInt 2; VInt 5; VInt 6])) ]%string.
Example C57_example : supplies ex_printer_attrs =
  Ok [ mkSupply "CM" "ink" ["#00FFFF"; "#FF00FF"] 50 10 100; mkSupply "waste" "waste-ink" ["none"] 20 20 90 ]%string.
Proof. vm_compute. reflexivity. Qed.
Example C57_firmware_example :
  firmware [("printer-firmware-name", (tNameWithoutLanguage, VSet [VStr "a"; VStr "b"])); ("printer-firmware-string-version", (tTextWithoutLanguage, VStr "1"))]%string = Ok [("a", "1")]%string.
Proof. vm_compute. reflexivity. Qed.

(** ** C58 *)
Lemma makeRequest_request two user addr pa op given jobA prn : sorted_keys given ->
  (two = true <-> In (VStr "2.0") (values "ipp-versions-supported" pa)) ->
  request user addr pa op given jobA prn (makeRequest two user addr op given jobA prn).
Proof.
  intros Hs Ht. unfold makeRequest. set (op' := fold_left _ _ _).
  assert (E : forall k, map_get k op' = match map_get k given with Some a => Some a | None => base_attr user addr k end).
  { intros k. unfold op'. cbn [fold_left baseOpAttrs fst snd]. set (nm := match user with Some u => u | None => _ end).
    assert (S1 : forall k v (m : ipp_attrs), sorted_keys m -> sorted_keys (map_insert k v m)) by (intros; apply insert_sorted; assumption).
    rewrite !map_get_insert by (repeat apply S1; exact Hs). unfold base_attr. cbn [String.eqb Ascii.eqb Bool.eqb].
    destruct (String.eqb_spec k "requesting-user-name") as [->|N4]; [cbn; destruct (map_get _ given); reflexivity|].
    destruct (String.eqb_spec k "printer-uri") as [->|N3]; [cbn; destruct (map_get _ given); reflexivity|].
    destruct (String.eqb_spec k "attributes-natural-language") as [->|N2]; [cbn; destruct (map_get _ given); reflexivity|].
    destruct (String.eqb_spec k "attributes-charset") as [->|N1]; [cbn; destruct (map_get _ given); reflexivity|].
    destruct (map_get k given); reflexivity. }
  destruct two; unfold setVersion, new_msg; unfold request; cbn [m_opOrStatus m_opAttrs m_jobAttrs m_printerAttrs m_majVsn m_minVsn].
  - repeat split; [exact E|]. left. split; [reflexivity|]. apply Ht. reflexivity.
  - repeat split; [exact E|]. right. split; [reflexivity|]. intros H. apply Ht in H. discriminate.
Qed.
(** Every message made for the printer is the request it should be. *)
Theorem C58_request : forall w p op given jobA prn m, sorted_keys given -> mk_msg w p op given jobA prn = Ok m ->
  request (w_user w) (pr_addr p) (pr_attrs p) op given jobA prn m.
Proof.
  intros w p op given jobA prn m Hs H. unfold mk_msg in H. bind_inv H as vs Hv H. injection H as <-. apply makeRequest_request; [exact Hs|].
  apply str_list_values in Hv. rewrite <- Hv. rewrite contains_in, in_map_iff. split.
  - intros Hin. exists "2.0"%string. split; [reflexivity|exact Hin].
  - intros [x [E Hin]]. injection E as ->. exact Hin.
Qed.
(** and what the printer reads is that request *)
Theorem C58_on_the_wire : forall w p op given jobA prn m id, sorted_keys given -> mk_msg w p op given jobA prn = Ok m -> wf_msg m = true -> 0 <= id < 4294967296 ->
  exists b m', fst (encodeMsg id m) = Ok b /\ decodeMsg b = Ok (m', []) /\ m_opOrStatus m' = op /\
    (forall k, map_get k (m_opAttrs m') = match map_get k given with Some a => Some a | None => base_attr (w_user w) (pr_addr p) k end) /\
    m_jobAttrs m' = (match jobA with [] => [] | _ => [jobA] end) /\ m_printerAttrs m' = prn /\
    (m_majVsn m' = 2 -> In (VStr "2.0") (values "ipp-versions-supported" (pr_attrs p))).
Proof.
  intros w p op given jobA prn m id Hs H Hwf Hid. destruct (C58_request _ _ _ _ _ _ _ Hs H) as (R1 & R2 & R3 & R4 & R5).
  destruct (C25_round_trip id m Hwf Hid) as [b [Eb [Ed _]]]. exists b. eexists. split; [exact Eb|]. split; [exact Ed|]. cbn [m_opOrStatus m_opAttrs m_jobAttrs m_printerAttrs m_majVsn].
  split; [exact R1|]. split; [exact R2|]. split; [rewrite R3; destruct jobA; reflexivity|]. split; [exact R4|].
  intros E. destruct R5 as [[_ R5]|[R5 _]]; [exact R5|]. exfalso. injection R5 as R5 _. lia.
Qed.
Definition ex_world : world :=
  mkWorld (Some "me"%string) (fun _ => "what"%string)
    (fun _ b => match fst (encodeMsg 1 (mkMsg 0 1 1 [("attributes-charset", (tCharset, VStr "utf-8"))]%string [[("job-id", (tInteger, VInt 42))]]%string [])) with Ok b => Response b | _ => Failed "" end)
    (fun _ _ _ => Ok None)
    (fun _ _ _ _ _ _ => match fst (encodeMsg 1 (mkMsg 1 1 1 [("attributes-charset", (tCharset, VStr "utf-8"))]%string [] [])) with Ok b => Response b | _ => Failed "" end)
    "/tmp".
Definition ex_printer : printer := mkPrinter "ipp://printer/ipp/print" false ex_printer_attrs.
Example C58_example : match mk_msg ex_world ex_printer 0x0B [("requesting-user-name", (tNameWithoutLanguage, VStr "root"))]%string [] [] with
  | Ok m => m_opAttrs m = [ ("attributes-charset", (tCharset, VStr "utf-8")); ("attributes-natural-language", (tNaturalLanguage, VStr "en-us"));
      ("printer-uri", (tUri, VStr "ipp://printer/ipp/print")); ("requesting-user-name", (tNameWithoutLanguage, VStr "root")) ]%string
      /\ m_majVsn m = 2 /\ wf_msg m = true
  | _ => False end.
Proof. vm_compute. repeat split. Qed.

(** ** C59 *)
(** Finalizing keeps the attributes in order. *)
Lemma unset_job_op j s j' : unset_job j s = Ok j' -> j_opAttrs j' = j_opAttrs j.
Proof. unfold unset_job. intros H. bind_inv H as m Hm H. injection H as <-. reflexivity. Qed.
Lemma set_job_op j s v j' : set_job j s v = Ok j' -> j_opAttrs j' = j_opAttrs j.
Proof. unfold set_job. intros H. bind_inv H as m Hm H. injection H as <-. reflexivity. Qed.
Ltac stage H := repeat first [progress (cbn [fst snd] in H)
  | match type of H with
    | bind _ _ = Ok _ => let x := fresh "x" in let E := fresh "E" in bind_inv H as x E H
    | (if ?b then _ else _) = Ok _ => destruct b
    | (match ?x with _ => _ end) = Ok _ => destruct x
    | (let (_, _) := ?x in _) = Ok _ => destruct x
    | Ok _ = Ok _ => injection H; intros; subst; clear H
    | _ => discriminate H
    end].
Ltac keeps := repeat match goal with
  | E : unset_job ?j ?s = Ok ?k |- _ => apply unset_job_op in E
  | E : set_job ?j ?s ?v = Ok ?k |- _ => apply set_job_op in E
  end; cbn [with_params with_job with_margins with_op with_target j_opAttrs] in *; congruence.
Lemma take_margins_op j j' : take_margins j = Ok j' -> j_opAttrs j' = j_opAttrs j.
Proof. unfold take_margins. intros H. destruct (negb _); [|congruence]. stage H. keeps. Qed.
Lemma move_media_size_op j j' : move_media_size j = Ok j' -> j_opAttrs j' = j_opAttrs j.
Proof. unfold move_media_size. intros H. stage H; keeps. Qed.
Lemma take_ranges_op j inp j' : take_ranges j inp = Ok j' -> j_opAttrs j' = j_opAttrs j.
Proof. unfold take_ranges. intros H. stage H; keeps. Qed.
Lemma take_copies_op j pages j' : take_copies j pages = Ok j' -> j_opAttrs j' = j_opAttrs j.
Proof. unfold take_copies. intros H. stage H; keeps. Qed.
Lemma adjust_op j pages j' : adjustRasterSettings j pages = Ok j' -> j_opAttrs j' = j_opAttrs j.
Proof.
  unfold adjustRasterSettings. intros H. destruct (p_format (j_params j)); try congruence.
  all: bind_inv H as j1 H1 H; bind_inv H as j2 H2 H; bind_inv H as j3 H3 H; apply unset_job_op in H1; apply adjust_resolution_inv in H2; destruct H2 as (x & y & ->);
    apply back_side_inv in H3; destruct H3 as (b & ->); apply take_copies_op in H; cbn [with_params j_opAttrs] in *; congruence.
Qed.
Lemma finalize_op_sorted j inp pages j' : sorted_keys (j_opAttrs j) -> finalize j inp pages = Ok (None, j') -> sorted_keys (j_opAttrs j').
Proof.
  intros Hs H. apply finalize_stages in H. destruct H as [j1 [j2 [j3 [j4 [j5 [j6 [j7 [j8 [j9 [j10 [j11 (H1 & _ & H2 & H3 & H4 & H5 & H6 & H7 & H8 & H9 & H10 & H11 & H12)]]]]]]]]]]].
  apply choose_format_inv in H1. destruct H1 as [t [sup [_ [_ ->]]]].
  assert (S2 : sorted_keys (j_opAttrs j2)).
  { apply choose_compression_inv in H2. destruct H2 as [m [E2 [-> |[v ->]]]].
    - cbn [with_op with_target j_opAttrs]. apply set_sorted. exact Hs.
    - subst j2. cbn [with_op with_target j_opAttrs]. apply set_sorted, set_sorted. exact Hs. }
  apply choose_paper_inv in H3. destruct H3 as [nm [p [_ [_ ->]]]]. apply take_margins_op in H4. apply move_media_size_op in H5.
  apply choose_resolution_inv in H6. destruct H6 as (x & y & -> & _). apply take_ranges_op in H7. apply adjust_op in H8.
  apply choose_sides_inv in H9. destruct H9 as [d ->]. apply choose_quality_inv in H10. destruct H10 as [q ->]. apply choose_color_inv in H11. destruct H11 as [c ->].
  apply choose_media_inv in H12. destruct H12 as (u & v & ->). cbn [with_params with_op with_target j_opAttrs] in *. congruence.
Qed.

Lemma decode_loop_status fuel : forall m g a s m' r, decode_loop fuel m g a s = Ok (m', r) -> m_opOrStatus m' = m_opOrStatus m.
Proof.
  induction fuel as [|fuel IH]; intros m g a s m' r H; destruct s as [|t s]; cbn [decode_loop] in H; try (injection H as <- <-; reflexivity); try discriminate.
  assert (S0 : m_opOrStatus (store_group m g a) = m_opOrStatus m) by (unfold store_group; destruct (g =? tOpAttrs), (g =? tJobAttrs), (g =? tPrinterAttrs); reflexivity).
  destruct (_ <=? _).
  - destruct (_ =? tEndAttrs); [injection H as <- <-; exact S0|]. apply IH in H. congruence.
  - bind_inv H as q Hq H. destruct q as [a' s']. apply IH in H. exact H.
Qed.
Lemma decode_status body m r : decodeMsg body = Ok (m, r) -> has_status body (m_opOrStatus m).
Proof.
  unfold decodeMsg. intros H. bind_inv H as q1 Q1 H. destruct q1 as [maj s1]. bind_inv H as q2 Q2 H. destruct q2 as [mi s2]. bind_inv H as q3 Q3 H. destruct q3 as [op s3].
  bind_inv H as q4 Q4 H. destruct q4 as [rid s4]. apply decode_loop_status in H. cbn [m_opOrStatus] in H. rewrite H. clear H Q4.
  destruct body as [|v1 body]; [discriminate|]. cbn in Q1. injection Q1 as _ <-. destruct body as [|v2 body]; [discriminate|]. cbn in Q2. injection Q2 as _ <-.
  destruct body as [|a [|b body]]; try discriminate. cbn in Q3. injection Q3 as <- <-. exists v1, v2, a, b, body. split; [reflexivity|]. unfold un16. lia.
Qed.
Lemma has_status_nonneg body s : has_status body s -> 0 <= s.
Proof. intros (v1 & v2 & a & b & rest & _ & ->). pose proof (Zb_range a). pose proof (Zb_range b). lia. Qed.

Lemma ebind_ok {A B} (x : list event * outcome A) (k : A -> list event * outcome B) b : snd (ebind x k) = Ok b ->
  exists a, snd x = Ok a /\ snd (k a) = Ok b /\ fst (ebind x k) = (fst x ++ fst (k a))%list.
Proof. unfold ebind. destruct (snd x) as [a|e| | |] eqn:E; cbn [fst snd]; intros H; try discriminate. exists a. repeat split. exact H. Qed.
Lemma ebind_pure {A B} (x : outcome A) (k : A -> list event * outcome B) : ebind (pure x) k =
  match x with Ok a => k a | Throw e => ([], Throw e) | UB => ([], UB) | Hang => ([], Hang) | NoFuel => ([], NoFuel) end.
Proof. unfold ebind, pure. cbn [fst snd]. destruct x; try reflexivity. cbn [app]. destruct (k a); reflexivity. Qed.
Lemma get_int_some k m z : get_int_attr k m = Ok z -> map_has k m = true -> exists t, map_get k m = Some (t, VInt z).
Proof.
  unfold get_int_attr, attrs_get, attrs_at, map_has. destruct (map_get k m) as [[t v]|]; [|discriminate]. cbn [bind snd get_as]. intros H _. exists t.
  destruct v; cbn in H; try discriminate. injection H as ->. reflexivity.
Qed.

(** the compression is the job's, or else the printer's default *)
Definition compressed_as (j : job) (c : compression) : Prop :=
  let v := effective "compression" (map_get "compression" (j_opAttrs j)) (j_printerAttrs j) (VStr "") in
  match c with
  | Gzip => v = VStr "gzip"
  | Deflate => v = VStr "deflate"
  | NoCompression => v <> VStr "gzip" /\ v <> VStr "deflate"
  end.
Lemma compression_spec j c : compression_of j = Ok c -> compressed_as j c.
Proof.
  unfold compression_of, compressed_as, get_op, setting_get, setting_isSet, getDefault, attrs_get, attrs_at, map_has, effective. cbn [s_sub s_compression String.eqb s_name s_type bind].
  intros H. bind_inv H as v Hv H.
  assert (E : v = match map_get "compression" (j_opAttrs j) with Some a => snd a | None => match map_get ("compression" ++ "-default") (j_printerAttrs j) with Some a => snd a | None => VStr "" end end /\ exists s, v = VStr s).
  { destruct (map_get "compression" (j_opAttrs j)) as [a|].
    - cbn [bind] in Hv. unfold get_as in Hv. destruct (snd a); try discriminate Hv. injection Hv as <-. split; [reflexivity|]. eexists. reflexivity.
    - destruct (map_get ("compression" ++ "-default") (j_printerAttrs j)) as [a|]; cbn [bind] in Hv.
      + unfold get_as in Hv. destruct (snd a); try discriminate Hv. injection Hv as <-. split; [reflexivity|]. eexists. reflexivity.
      + injection Hv as <-. split; [reflexivity|]. eexists. reflexivity. }
  destruct E as [E [s Es]]. cbv zeta. change ipp_attr with (Z * ipp_value)%type in *. rewrite <- E, Es. clear E Hv. subst v. cbn [v_str] in H. destruct (String.eqb_spec s "gzip") as [Q|N]; [injection H as <-; congruence|].
  destruct (String.eqb_spec s "deflate") as [Q|N']; injection H as <-; [congruence|]. split; congruence.
Qed.
(** the document went out, and the printer answered with success *)
Definition accepted (w : world) (p : printer) (hdr : list byte) (j : job) (conv : conversion) (inFile : string) : Prop :=
  w_convert w conv inFile j = Ok None /\
  exists c body s, compressed_as j c /\ w_await w (pr_addr p) hdr c conv inFile j = Response body /\ has_status body s /\ success s.
Lemma do_print_ok w p j inFile conv hdr : snd (do_print w p j inFile conv hdr) = Ok None -> accepted w p hdr j conv inFile.
Proof.
  unfold do_print. cbn [snd]. intros H. bind_inv H as c Hc H. bind_inv H as e He H. destruct e as [e|]; [discriminate|]. split; [exact He|]. exists c.
  destruct (w_await w (pr_addr p) hdr c conv inFile j) as [t|body]; [discriminate|]. bind_inv H as q Hq H. destruct q as [r rest]. exists body, (m_opOrStatus r).
  pose proof (decode_status _ _ _ Hq) as Hs. split; [apply compression_spec; exact Hc|]. split; [reflexivity|]. split; [exact Hs|]. apply has_status_nonneg in Hs. unfold success.
  destruct (m_opOrStatus r <? 255) eqn:E; [lia|]. bind_inv H as s Hs' H. discriminate.
Qed.

(** What a job's request is made of. *)
Definition print_attrs (j : job) (name : string) (given : ipp_attrs) : Prop :=
  forall k, map_get k given = if String.eqb k "job-name" then Some (0x42, VStr name) else map_get k (j_opAttrs j).
Definition document_attrs (j : job) (jobId : Z) (given : ipp_attrs) : Prop :=
  forall k, map_get k given =
    if String.eqb k "last-document" then Some (0x22, VBool true)
    else if String.eqb k "job-id" then Some (0x21, VInt jobId)
    else map_get k (j_opAttrs j).

(** For printers on the network, success means: the job was finalized, the document was
    converted without an error and sent in a Print-Job request, or in a Send-Document
    request for the job that a successful Create-Job request created; and the final
    response has a success status. *)
Theorem C59_network_partial : forall w p id job inFile fmt pages,
  sorted_keys (j_opAttrs job) -> ~ file_printer (pr_addr p) -> snd (run_job w p id job inFile fmt pages) = Ok None ->
  exists j conv hdr m given,
    finalize (copy_job job) fmt pages = Ok (None, j) /\ getConvertFun fmt (j_target j) = Some conv /\ accepted w p hdr j conv inFile /\
    ((fst (run_job w p id job inFile fmt pages) = [Streamed (pr_addr p) hdr] /\
      print_attrs j (base_name inFile) given /\ request (w_user w) (pr_addr p) (pr_attrs p) 0x0002 given (j_jobAttrs j) [] m /\ fst (encodeMsg id m) = Ok hdr)
     \/
     (exists cm cb rb r rest t jobId s,
      fst (run_job w p id job inFile fmt pages) = [Posted (pr_addr p) cb; Streamed (pr_addr p) hdr] /\
      request (w_user w) (pr_addr p) (pr_attrs p) 0x0005 [("job-name"%string, (0x42, VStr (base_name inFile)))] (j_jobAttrs j) [] cm /\ fst (encodeMsg id cm) = Ok cb /\
      w_post w (pr_addr p) cb = Response rb /\ has_status rb s /\ success s /\
      decodeMsg rb = Ok (r, rest) /\ (exists g gs, m_jobAttrs r = g :: gs /\ map_get "job-id" g = Some (t, VInt jobId)) /\
      document_attrs j jobId given /\ request (w_user w) (pr_addr p) (pr_attrs p) 0x0006 given [] [] m /\ fst (encodeMsg ((id + 1) mod two32) m) = Ok hdr)).
Proof.
  intros w p id job inFile fmt pages Hs Hf H. unfold run_job in *. cbn [fst snd] in *.
  assert (B : snd (run_job_body w p id (copy_job job) inFile fmt pages) = Ok None) by (destruct (snd (run_job_body w p id (copy_job job) inFile fmt pages)); congruence).
  clear H. unfold run_job_body in *.
  apply ebind_ok in B. destruct B as (ops & Hops & B & F1). rewrite F1. clear F1. cbn [pure fst app] in *.
  apply ebind_ok in B. destruct B as ([err j] & Hfin & B & F1). rewrite F1. clear F1. cbn [pure fst snd app] in *.
  destruct err as [e|]; [discriminate|]. destruct (getConvertFun fmt (j_target j)) as [conv|] eqn:Hconv; [|discriminate].
  assert (Hj : sorted_keys (j_opAttrs j)) by (apply (finalize_op_sorted (copy_job job) fmt pages); [exact Hs|exact Hfin]).
  destruct (string_starts_with (pr_addr p) "file://") eqn:Hff; [exfalso; apply Hf, starts_with_spec; exact Hff|].
  exists j, conv. destruct (_ && _ && _) eqn:Htwo.
  - apply ebind_ok in B. destruct B as (cm & Hcm & B & F1). rewrite F1. clear F1. cbn [pure fst snd app] in *.
    apply ebind_ok in B. destruct B as ([err resp] & Hreq & B & F1). rewrite F1. clear F1.
    destruct err as [e|]; [discriminate|]. cbn [pure fst snd] in *.
    unfold do_request in *. destruct (fst (encodeMsg id cm)) as [cb| | | |] eqn:Ecb; try discriminate. cbn [fst snd] in *.
    destruct (w_post w (pr_addr p) cb) as [t|rb] eqn:Epost; [discriminate|]. destruct (decodeMsg rb) as [[r rest]| | | |] eqn:Edec; try discriminate.
    injection Hreq as <-. destruct ((m_opOrStatus r <=? 255) && _) eqn:Eok.
    2:{ apply ebind_ok in B. destruct B as (s & _ & B & _). discriminate. }
    apply andb_prop in Eok. destruct Eok as [Est Ehas].
    apply ebind_ok in B. destruct B as (jobId & Hjid & B & F1). rewrite F1. clear F1. cbn [pure fst snd app] in *.
    apply ebind_ok in B. destruct B as (m & Hm & B & F1). rewrite F1. clear F1. cbn [pure fst snd app] in *.
    apply ebind_ok in B. destruct B as (hdr & Hhdr & B & F1). rewrite F1. clear F1. cbn [pure fst snd app] in *.
    exists hdr, m. eexists. split; [exact Hfin|]. split; [exact Hconv|]. split; [apply do_print_ok; exact B|]. right.
    destruct (get_int_some _ _ _ Hjid Ehas) as [t Ht]. pose proof (decode_status _ _ _ Edec) as Hst.
    exists cm, cb, rb, r, rest, t, jobId, (m_opOrStatus r). split; [reflexivity|]. split; [apply C58_request; [repeat constructor|exact Hcm]|]. split; [exact Ecb|]. split; [first [exact Epost|reflexivity]|].
    split; [exact Hst|]. split; [apply has_status_nonneg in Hst; unfold success; lia|]. split; [first [exact Edec|reflexivity]|].
    split. { destruct (m_jobAttrs r) as [|g gs]; [discriminate Ht|]. exists g, gs. split; [reflexivity|exact Ht]. }
    split; [|split; [apply C58_request; [|exact Hm]|exact Hhdr]].
    + intros k. rewrite map_get_set by (apply set_sorted; exact Hj). rewrite map_get_set by exact Hj. reflexivity.
    + apply set_sorted, set_sorted. exact Hj.
  - apply ebind_ok in B. destruct B as (m & Hm & B & F1). rewrite F1. clear F1. cbn [pure fst snd app] in *.
    apply ebind_ok in B. destruct B as (hdr & Hhdr & B & F1). rewrite F1. clear F1. cbn [pure fst snd app] in *.
    exists hdr, m. eexists. split; [exact Hfin|]. split; [exact Hconv|]. split; [apply do_print_ok; exact B|]. left. split; [reflexivity|].
    split; [|split; [apply C58_request; [|exact Hm]|exact Hhdr]].
    + intros k. rewrite map_get_set by exact Hj. reflexivity.
    + apply set_sorted. exact Hj.
Qed.

(** No exception gets out of runJob. *)
Theorem C59_no_exception : forall w p id job inFile fmt pages e, snd (run_job w p id job inFile fmt pages) <> Throw e.
Proof. intros w p id job inFile fmt pages e. unfold run_job. cbn [snd]. destruct (snd (run_job_body _ _ _ _ _ _ _)); discriminate. Qed.

(** If the printer refuses to create the job, or its answer cannot be read or has no job id,
    that is reported and no document is sent. *)
Theorem C59_create_failure : forall w p id job inFile fmt pages addr b,
  In (Posted addr b) (fst (run_job w p id job inFile fmt pages)) ->
  (forall body r rest, w_post w addr b = Response body -> decodeMsg body = Ok (r, rest) ->
     ~ (success (m_opOrStatus r) /\ exists g gs, m_jobAttrs r = g :: gs /\ map_get "job-id" g <> None)) ->
  fst (run_job w p id job inFile fmt pages) = [Posted addr b] /\ snd (run_job w p id job inFile fmt pages) <> Ok None.
Proof.
  intros w p id job inFile fmt pages addr b Hin Hbad. unfold run_job in *. cbn [fst snd] in *.
  assert (D : forall q j i c h, fst (do_print w q j i c h) = [Streamed (pr_addr q) h]) by reflexivity.
  pose (P := fun x : list event * outcome (option string) => fst x = [Posted addr b] /\ snd x <> Ok None).
  assert (G : P (run_job_body w p id (copy_job job) inFile fmt pages)).
  2:{ destruct G as [G1 G2]. split; [exact G1|]. destruct (snd (run_job_body w p id (copy_job job) inFile fmt pages)); congruence. }
  unfold run_job_body in *. rewrite ebind_pure in *. destruct (int_list _ _) as [ops| | | |]; try (destruct Hin; fail).
  rewrite ebind_pure in *. destruct (finalize _ _ _) as [[err j]| | | |]; try (destruct Hin; fail).
  destruct err as [e|]; [destruct Hin|]. destruct (getConvertFun fmt (j_target j)) as [conv|]; [|destruct Hin].
  destruct (string_starts_with (pr_addr p) "file://").
  { exfalso. unfold do_print_to_file in Hin. rewrite ebind_pure in Hin. destruct (defaultExtension (j_target j)); try (destruct Hin; fail).
    unfold ebind, pure in Hin. cbn [fst snd] in Hin. destruct (w_convert w conv inFile j); cbn [fst snd app] in Hin; (destruct Hin as [Hin|[]]; discriminate Hin). }
  destruct (_ && _ && _).
  2:{ exfalso. rewrite ebind_pure in Hin. destruct (mk_msg _ _ _ _ _ _); try (destruct Hin; fail).
      rewrite ebind_pure in Hin. destruct (fst (encodeMsg id a)); try (destruct Hin; fail). destruct Hin as [Hin|[]]; discriminate Hin. }
  rewrite ebind_pure in *. destruct (mk_msg _ _ _ _ _ _) as [cm| | | |]; try (destruct Hin; fail).
  assert (L : forall body r rest, decodeMsg body = Ok (r, rest) ->
     (m_opOrStatus r <=? 255) && map_has "job-id" (match m_jobAttrs r with g :: _ => g | [] => [] end) = true ->
     success (m_opOrStatus r) /\ exists g gs, m_jobAttrs r = g :: gs /\ map_get "job-id" g <> None).
  { intros body r rest Ed Eb. apply andb_prop in Eb. destruct Eb as [E1 E2]. split.
    - apply decode_status, has_status_nonneg in Ed. unfold success. lia.
    - destruct (m_jobAttrs r) as [|g gs]; [discriminate E2|]. exists g, gs. split; [reflexivity|]. intros N. unfold map_has in E2. rewrite N in E2. discriminate E2. }
  unfold do_request in *. destruct (fst (encodeMsg id cm)) as [cb| | | |]; try (destruct Hin; fail).
  assert (T : forall x k, fst (@ebind (option string * ipp_msg) (option string) ([Posted (pr_addr p) cb], x) k) =
     Posted (pr_addr p) cb :: match x with Ok a => fst (k a) | _ => [] end) by (intros x k; unfold ebind; cbn [fst snd]; destruct x; reflexivity).
  assert (S : forall x k, snd (@ebind (option string * ipp_msg) (option string) ([Posted (pr_addr p) cb], x) k) =
     match x with Ok a => snd (k a) | Throw e => Throw e | UB => UB | Hang => Hang | NoFuel => NoFuel end) by (intros x k; unfold ebind; cbn [fst snd]; destruct x; reflexivity).
  unfold P. rewrite S, T in *. clear S T.
  assert (E : Posted (pr_addr p) cb = Posted addr b).
  { destruct Hin as [Hin|Hin]; [exact Hin|]. exfalso. destruct (w_post w (pr_addr p) cb) as [t|body]; [destruct Hin|]. destruct (decodeMsg body) as [[r rest]| | | |]; try (destruct Hin; fail).
    destruct (_ && _).
    + rewrite ebind_pure in Hin. destruct (get_int_attr _ _); try (destruct Hin; fail). rewrite ebind_pure in Hin. destruct (mk_msg _ _ _ _ _ _); try (destruct Hin; fail).
      rewrite ebind_pure in Hin. destruct (fst (encodeMsg _ _)); try (destruct Hin; fail). destruct Hin as [Hin|[]]; discriminate Hin.
    + rewrite ebind_pure in Hin. destruct (get_str_attr _ _ _); destruct Hin. }
  injection E as -> ->. clear Hin. destruct (w_post w addr b) as [t|body] eqn:Ep; [split; [reflexivity|discriminate]|].
  destruct (decodeMsg body) as [[r rest]| | | |] eqn:Ed; try (split; [reflexivity|discriminate]).
  destruct ((m_opOrStatus r <=? 255) && map_has "job-id" _) eqn:Eb.
  - exfalso. apply (Hbad body r rest eq_refl Ed). apply (L body r rest Ed Eb).
  - rewrite ebind_pure. destruct (get_str_attr _ _ _); split; try reflexivity; discriminate.
Qed.

(** Printers that are files: the error of the conversion is not used.  Success is
    reported whatever it is. *)
Theorem C59_file_refuted : forall w p id job inFile fmt pages j conv ext ops e,
  file_printer (pr_addr p) -> int_list "operations-supported" (pr_attrs p) = Ok ops -> finalize (copy_job job) fmt pages = Ok (None, j) ->
  getConvertFun fmt (j_target j) = Some conv -> defaultExtension (j_target j) = Ok ext ->
  w_convert w conv inFile j = Ok (Some e) -> snd (run_job w p id job inFile fmt pages) = Ok None.
Proof.
  intros w p id job inFile fmt pages j conv ext ops e Hf Ho Hfin Hc He Hw. unfold run_job, run_job_body. rewrite ebind_pure, Ho, ebind_pure, Hfin, Hc.
  apply starts_with_spec in Hf. rewrite Hf. unfold do_print_to_file. rewrite ebind_pure, He. unfold ebind. cbn [fst snd]. rewrite Hw. reflexivity.
Qed.
(** What success means for them. *)
Theorem C59_file_partial : forall w p id job inFile fmt pages, file_printer (pr_addr p) -> snd (run_job w p id job inFile fmt pages) = Ok None ->
  exists j conv e, finalize (copy_job job) fmt pages = Ok (None, j) /\ getConvertFun fmt (j_target j) = Some conv /\ w_convert w conv inFile j = Ok e.
Proof.
  intros w p id job inFile fmt pages Hf H. unfold run_job in *. cbn [fst snd] in *.
  assert (B : snd (run_job_body w p id (copy_job job) inFile fmt pages) = Ok None) by (destruct (snd (run_job_body w p id (copy_job job) inFile fmt pages)); congruence).
  clear H. unfold run_job_body in *. rewrite ebind_pure in B. destruct (int_list _ _); try discriminate. rewrite ebind_pure in B. destruct (finalize _ _ _) as [[err j]| | | |]; try discriminate.
  destruct err as [e|]; [discriminate|]. destruct (getConvertFun fmt (j_target j)) as [conv|] eqn:Ec; [|discriminate].
  apply starts_with_spec in Hf. rewrite Hf in B. unfold do_print_to_file in B. rewrite ebind_pure in B. destruct (defaultExtension (j_target j)); try discriminate.
  apply ebind_ok in B. destruct B as (x & Hx & _). cbn [snd] in Hx. exists j, conv, x. repeat split; [exact Ec|exact Hx].
Qed.
(** The success code 0x00ff is reported as a failure. *)
Theorem C59_last_success_refuted : forall w p j inFile conv hdr c body r rest, compression_of j = Ok c -> w_convert w conv inFile j = Ok None ->
  w_await w (pr_addr p) hdr c conv inFile j = Response body -> decodeMsg body = Ok (r, rest) -> m_opOrStatus r = 0xff ->
  success (m_opOrStatus r) /\ snd (do_print w p j inFile conv hdr) <> Ok None.
Proof.
  intros w p j inFile conv hdr c body r rest Hc Hw Ha Hd Hs. rewrite Hs. split; [unfold success; lia|]. unfold do_print. cbn [snd]. rewrite Hc. cbn [bind]. rewrite Hw. cbn [bind].
  rewrite Ha, Hd. cbn [bind]. rewrite Hs. change (255 <? 255) with false. cbv iota. destruct (get_str_attr _ _ _); discriminate.
Qed.
(** And the statuses below it are not: everything before having gone well, a response with
    such a status is a success. *)
Theorem C59_success_reported : forall w p j inFile conv hdr c body r rest, pr_printJobId p = false -> compression_of j = Ok c -> w_convert w conv inFile j = Ok None ->
  w_await w (pr_addr p) hdr c conv inFile j = Response body -> decodeMsg body = Ok (r, rest) ->
  snd (do_print w p j inFile conv hdr) = Ok None <-> m_opOrStatus r < 0xff.
Proof.
  intros w p j inFile conv hdr c body r rest Hp Hc Hw Ha Hd. unfold do_print. cbn [snd]. rewrite Hc. cbn [bind]. rewrite Hw. cbn [bind].
  rewrite Ha, Hd. cbn [bind]. destruct (Z.ltb_spec (m_opOrStatus r) 255) as [L|L].
  - split; [intros _; exact L|intros _]. rewrite Hp. destruct (m_jobAttrs r); reflexivity.
  - split; [|lia]. destruct (get_str_attr _ _ _); discriminate.
Qed.

Definition ex_job : job := new_job ex_printer_attrs [].
Example C59_example :
  ~ file_printer (pr_addr ex_printer) /\
  snd (run_job ex_world ex_printer 7 ex_job "/home/me/doc.pdf" "application/pdf" 3) = Ok None /\
  match fst (run_job ex_world ex_printer 7 ex_job "/home/me/doc.pdf" "application/pdf" 3) with
  | [Posted _ b1; Streamed _ b2] =>
      match decodeMsg b1, decodeMsg b2 with
      | Ok (m1, _), Ok (m2, _) => m_opOrStatus m1 = 5 /\ map_get "job-name" (m_opAttrs m1) = Some (0x42, VStr "doc.pdf") /\
                        m_opOrStatus m2 = 6 /\ map_get "job-id" (m_opAttrs m2) = Some (0x21, VInt 42)
      | _, _ => False
      end
  | _ => False
  end.
Proof. split; [intros [s E]; discriminate E|]. vm_compute. repeat split. Qed.
Definition refusing : world := mkWorld (Some "me"%string) (fun _ => ""%string)
  (fun _ _ => Response (map bZ [1; 1; 4; 0; 0; 0; 0; 1; 3])) (fun _ _ _ => Ok (Some "cannot render"%string)) (fun _ _ _ _ _ _ => Failed "timeout") "/tmp".
Example C59_create_failure_example :
  snd (run_job refusing ex_printer 7 ex_job "a.pdf" "application/pdf" 3) = Ok (Some "Create job failed: unknown"%string) /\
  length (fst (run_job refusing ex_printer 7 ex_job "a.pdf" "application/pdf" 3)) = 1%nat.
Proof. vm_compute. split; reflexivity. Qed.
Example C59_file_example :
  snd (run_job refusing (mkPrinter "file:///tmp/fake" false ex_printer_attrs) 7 ex_job "a.pdf" "application/pdf" 3) = Ok None.
Proof. vm_compute. reflexivity. Qed.

(** ** C63: the other operations *)
(** Cancelling a job succeeds only if the printer says so. *)
Theorem C63_cancel : forall w p id jobId, snd (cancel_job w p id jobId) = Ok None ->
  exists m b body s, request (w_user w) (pr_addr p) (pr_attrs p) 0x0008 [("job-id"%string, (0x21, VInt jobId))] [] [] m /\ fst (encodeMsg id m) = Ok b /\
    fst (cancel_job w p id jobId) = [Posted (pr_addr p) b] /\ w_post w (pr_addr p) b = Response body /\ has_status body s /\ success s.
Proof.
  intros w p id jobId H. unfold cancel_job in *. rewrite ebind_pure in *. destruct (mk_msg _ _ _ _ _ _) as [m| | | |] eqn:Em; try discriminate.
  apply ebind_ok in H. destruct H as ([err r] & Hr & H & F). rewrite F. clear F. cbn [fst snd] in *. destruct err as [e|]; [discriminate|].
  unfold do_request in *. destruct (fst (encodeMsg id m)) as [b| | | |] eqn:Eb; try discriminate. cbn [fst snd] in *.
  destruct (w_post w (pr_addr p) b) as [t|body] eqn:Ep; [discriminate|]. destruct (decodeMsg body) as [[r' rest]| | | |] eqn:Ed; try discriminate. injection Hr as ->.
  destruct (255 <? m_opOrStatus r) eqn:Es. { rewrite ebind_pure in H. destruct (get_str_attr _ _ _); discriminate. }
  exists m, b, body, (m_opOrStatus r). split; [apply C58_request; [repeat constructor|exact Em]|]. split; [exact Eb|]. split; [reflexivity|]. split; [first [exact Ep|reflexivity]|].
  pose proof (decode_status _ _ _ Ed) as Hs. split; [exact Hs|]. apply has_status_nonneg in Hs. unfold success. lia.
Qed.
Example C63_cancel_example : snd (cancel_job ex_world ex_printer 7 42) = Ok None /\ snd (cancel_job refusing ex_printer 7 42) = Ok (Some "unknown"%string).
Proof. vm_compute. split; reflexivity. Qed.
(** The status of the responses to the others is not looked at: a printer answering every
    request with the same decodable message, whatever its status, makes them succeed. *)
Definition always (w : world) (body : list byte) : Prop := forall addr b, w_post w addr b = Response body.
Lemma do_request_always w p id m b body r rest : always w body -> decodeMsg body = Ok (r, rest) -> fst (encodeMsg id m) = Ok b -> do_request w p id m = ([Posted (pr_addr p) b], Ok (None, r)).
Proof. intros Hp Hd Hb. unfold do_request. rewrite Hb, Hp, Hd. reflexivity. Qed.
Theorem C63_status_ignored_refuted : forall w p id body r rest, always w body -> decodeMsg body = Ok (r, rest) ->
  (forall m b, map_has "identify-actions-supported" (pr_attrs p) = true -> mk_msg w p 0x003C [] [] [] = Ok m -> fst (encodeMsg id m) = Ok b -> snd (identify w p id) = Ok None) /\
  (forall l attrs m b, collect_settable (pr_attrs p) l [] = Ok attrs -> mk_msg w p 0x0013 [] [] attrs = Ok m -> fst (encodeMsg id m) = Ok b -> snd (set_attributes w p id l) = Ok None) /\
  (forall m b, m_jobAttrs r = [] -> mk_msg w p 0x000A [("requested-attributes"%string, (0x44, VStr "all"))] [] [] = Ok m -> fst (encodeMsg id m) = Ok b -> snd (get_jobs w p id) = Ok (None, [])) /\
  (forall m b, mk_msg w p 0x000B [] [] [] = Ok m -> fst (encodeMsg id m) = Ok b -> w_user w <> None -> snd (refresh w p id JNull) = Ok (None, m_printerAttrs r)).
Proof.
  intros w p id body r rest Ha Hd. repeat split.
  - intros m b Hi Hm Hb. unfold identify. rewrite Hi. cbn [negb]. rewrite ebind_pure. unfold opIdentifyPrinter. rewrite Hm, (do_request_always _ _ _ _ _ _ _ _ Ha Hd Hb). reflexivity.
  - intros l attrs m b Hc Hm Hb. unfold set_attributes. rewrite Hc, ebind_pure. unfold opSetPrinterAttrs. rewrite Hm, (do_request_always _ _ _ _ _ _ _ _ Ha Hd Hb). reflexivity.
  - intros m b Hj Hm Hb. unfold get_jobs. rewrite ebind_pure. unfold opGetJobs, tKeyword. rewrite Hm, (do_request_always _ _ _ _ _ _ _ _ Ha Hd Hb). unfold ebind. cbn [fst snd]. rewrite Hj. reflexivity.
  - intros m b Hm Hb Hu. unfold refresh. rewrite ebind_pure. unfold opGetPrinterAttrs. rewrite Hm, (do_request_always _ _ _ _ _ _ _ _ Ha Hd Hb). unfold ebind. cbn [fst snd pure]. destruct (w_user w); [reflexivity|contradiction].
Qed.
(** What their success does say: the request was sent and answered by an IPP message. *)
Theorem C63_answered_partial : forall w p id,
  (snd (identify w p id) = Ok None -> exists m b body r rest, request (w_user w) (pr_addr p) (pr_attrs p) 0x003C [] [] [] m /\ fst (encodeMsg id m) = Ok b /\
     fst (identify w p id) = [Posted (pr_addr p) b] /\ w_post w (pr_addr p) b = Response body /\ decodeMsg body = Ok (r, rest)) /\
  (forall l, snd (set_attributes w p id l) = Ok None -> exists attrs m b body r rest, request (w_user w) (pr_addr p) (pr_attrs p) 0x0013 [] [] attrs m /\ fst (encodeMsg id m) = Ok b /\
     fst (set_attributes w p id l) = [Posted (pr_addr p) b] /\ w_post w (pr_addr p) b = Response body /\ decodeMsg body = Ok (r, rest) /\
     forall k, In k (map fst attrs) -> In k (map fst l) /\ map_has k (pr_attrs p) = true).
Proof.
  intros w p id. split.
  - intros H. unfold identify in *. destruct (negb _); [discriminate|]. rewrite ebind_pure in *. destruct (mk_msg _ _ _ _ _ _) as [m| | | |] eqn:Em; try discriminate.
    apply ebind_ok in H. destruct H as ([err r] & Hr & H & F). rewrite F. clear F. cbn [fst snd pure] in *. injection H as ->.
    unfold do_request in *. destruct (fst (encodeMsg id m)) as [b| | | |] eqn:Eb; try discriminate. cbn [fst snd] in *.
    destruct (w_post w (pr_addr p) b) as [t|body] eqn:Ep; [discriminate|]. destruct (decodeMsg body) as [[r' rest]| | | |] eqn:Ed; try discriminate. injection Hr as ->.
    exists m, b, body, r, rest. split; [apply C58_request; [repeat constructor|exact Em]|]. repeat split; first [exact Ep|exact Ed|exact Eb|reflexivity].
  - intros l H. unfold set_attributes in *. destruct (collect_settable _ _ _) as [attrs| | | |] eqn:Ec; try discriminate. rewrite ebind_pure in *.
    destruct (mk_msg _ _ _ _ _ _) as [m| | | |] eqn:Em; try discriminate.
    apply ebind_ok in H. destruct H as ([err r] & Hr & H & F). rewrite F. clear F. cbn [fst snd pure] in *. injection H as ->.
    unfold do_request in *. destruct (fst (encodeMsg id m)) as [b| | | |] eqn:Eb; try discriminate. cbn [fst snd] in *.
    destruct (w_post w (pr_addr p) b) as [t|body] eqn:Ep; [discriminate|]. destruct (decodeMsg body) as [[r' rest]| | | |] eqn:Ed; try discriminate. injection Hr as ->.
    exists attrs, m, b, body, r, rest. split; [apply C58_request; [repeat constructor|exact Em]|]. do 4 (split; [first [exact Ep|exact Ed|exact Eb|reflexivity]|]).
    assert (G : forall l acc, collect_settable (pr_attrs p) l acc = Ok attrs -> forall k, In k (map fst attrs) -> In k (map fst acc) \/ In k (map fst l) /\ map_has k (pr_attrs p) = true).
    { clear. induction l as [|[n v] l IH]; cbn [collect_settable map fst]; intros acc H k Hk; [injection H as ->; left; exact Hk|].
      destruct (map_get n (pr_attrs p)) as [a|] eqn:En.
      - bind_inv H as x Hx H. destruct (IH _ H k Hk) as [Hi|[Hi Hh]]; [|right; split; [right; exact Hi|exact Hh]].
        apply in_map_iff in Hi. destruct Hi as (e & <- & Hi). apply set_keys in Hi. destruct Hi as [->|Hi]; [right|left; apply in_map; exact Hi]. split; [left; reflexivity|]. unfold map_has. cbn [fst]. rewrite En. reflexivity.
      - destruct (IH _ H k Hk) as [Hi|[Hi Hh]]; [left; exact Hi|right; split; [right; exact Hi|exact Hh]]. }
    intros k Hk. destruct (G _ _ Ec k Hk) as [[]|R]. exact R.
Qed.
Example C63_status_ignored_example :
  (exists r rest, decodeMsg (map bZ [1; 1; 4; 0; 0; 0; 0; 1; 3]) = Ok (r, rest) /\ m_opOrStatus r = 0x400) /\
  snd (identify refusing (mkPrinter "ipp://p/ipp/print" false [("identify-actions-supported"%string, (0x44, VStr "flash"))]) 7) = Ok None.
Proof. split; [do 2 eexists; split; [vm_compute; reflexivity|reflexivity]|vm_compute; reflexivity]. Qed.

(** ** C64: overrides *)
Definition matches (overrides : json) (pa : ipp_attrs) (obj : json) : Prop :=
  exists file name per value t, overrides = JObj file /\ In (name, JObj per) file /\ In (value, obj) per /\ map_get name pa = Some (t, VStr value).
Lemma override_values_none name l (pa : ipp_attrs) : (forall value obj t, In (value, obj) l -> map_get name pa <> Some (t, VStr value)) -> fst (override_values name l pa) = pa.
Proof.
  induction l as [|[v o] l IH]; intros H; [reflexivity|]. cbn [override_values].
  assert (IH' : fst (override_values name l pa) = pa) by (apply IH; intros value obj t Hi; apply H with obj; right; exact Hi).
  destruct (map_get name pa) as [[t a]|] eqn:E; [|exact IH']. cbn [snd]. destruct a; try reflexivity.
  destruct (String.eqb_spec s v) as [->|]; [|exact IH']. destruct (H v o t (or_introl eq_refl) eq_refl).
Qed.
Theorem C64_no_match : forall overrides pa, (forall obj, ~ matches overrides pa obj) -> applyOverrides overrides pa = pa.
Proof.
  intros overrides pa H. unfold applyOverrides. destruct overrides as [| | | | |file]; try reflexivity. cbn [object_items].
  assert (G : forall l, (forall e, In e l -> In e file) -> override_all l pa = pa).
  { induction l as [|[name j] l IH]; intros Hl; [reflexivity|]. cbn [override_all].
    pose proof (override_values_none name (object_items j) pa) as N. destruct (override_values name (object_items j) pa) as [pa' go]. cbn [fst] in N.
    rewrite N; [destruct go; [apply IH; intros e He; apply Hl; right; exact He|reflexivity]|].
    intros value obj t Hi Hm. destruct j as [| | | | |per]; try contradiction. apply (H obj). exists file, name, per, value, t. split; [reflexivity|]. split; [apply Hl; left; reflexivity|]. split; [exact Hi|exact Hm]. }
  apply G. auto.
Qed.
Lemma overlay_sorted l : forall m, sorted_keys m -> sorted_keys (overlay l m).
Proof. induction l as [|[k a] l IH]; intros m H; [exact H|]. apply IH, set_sorted, H. Qed.
Lemma overlay_get l : forall m k, sorted_keys l -> sorted_keys m -> map_get k (overlay l m) = match map_get k l with Some a => Some a | None => map_get k m end.
Proof.
  induction l as [|[k1 a] l IH]; intros m k Hl Hm; [reflexivity|]. destruct Hl as [Hf Hl]. cbn [overlay map_get]. rewrite IH by (auto using set_sorted). rewrite map_get_set by exact Hm.
  destruct (String.eqb_spec k k1) as [->|]; [|reflexivity]. rewrite (map_get_lt k1 l Hf). reflexivity.
Qed.

Lemma attrsfromJSON_sorted m : forall acc o, sorted_keys acc -> attrsfromJSON m acc = Ok o -> sorted_keys o.
Proof.
  induction m as [|[k x] m IH]; intros acc o Ha H; cbn [attrsfromJSON] in H; [injection H as <-; exact Ha|]. bind_inv H as a Hx H. apply (IH _ _ (set_sorted _ _ _ Ha) H).
Qed.
(** Nothing but the attributes of the file's objects is put in. *)
Theorem C64_only_listed : forall overrides pa k, sorted_keys pa ->
  map_get k (applyOverrides overrides pa) = map_get k pa \/
  exists file name per value members o, overrides = JObj file /\ In (name, JObj per) file /\ In (value, JObj members) per /\
    attrsfromJSON members [] = Ok o /\ map_get k o <> None /\ map_get k (applyOverrides overrides pa) = map_get k o.
Proof.
  intros overrides pa k Hpa. unfold applyOverrides. destruct overrides as [| | | | |file]; try (left; reflexivity). cbn [object_items].
  set (from := fun r : option ipp_attr => exists name per value members o, In (name, JObj per) file /\ In (value, JObj members) per /\ attrsfromJSON members [] = Ok o /\ r <> None /\ r = map_get k o).
  assert (V : forall name per l, In (name, JObj per) file -> (forall e, In e l -> In e per) -> forall m, sorted_keys m -> map_get k m = map_get k pa \/ from (map_get k m) ->
    let m' := fst (override_values name l m) in sorted_keys m' /\ (map_get k m' = map_get k pa \/ from (map_get k m'))).
  { intros name per l Hn. induction l as [|[v o] l IH]; intros Hl m Hs Hm; [split; assumption|]. cbn [override_values].
    assert (IH' := IH (fun e He => Hl e (or_intror He))).
    destruct (map_get name m) as [[t a]|]; [|apply IH'; assumption]. cbn [snd]. destruct a; try (split; assumption).
    destruct (String.eqb s v); [|apply IH'; assumption]. destruct (attrsfromJSON (object_items o) []) as [oa| | | |] eqn:Eo; try (split; assumption).
    pose proof (attrsfromJSON_sorted _ [] _ I Eo) as Hoa. apply IH'; [apply overlay_sorted; exact Hs|]. rewrite overlay_get by assumption.
    destruct (map_get k oa) as [x|] eqn:Ek; [|exact Hm]. right. destruct o as [| | | | |members]; try (injection Eo as <-; discriminate Ek).
    exists name, per, v, members, oa. split; [exact Hn|]. split; [apply Hl; left; reflexivity|]. split; [exact Eo|]. split; [discriminate|symmetry; exact Ek]. }
  assert (G : forall l, (forall e, In e l -> In e file) -> forall m, sorted_keys m -> map_get k m = map_get k pa \/ from (map_get k m) ->
    map_get k (override_all l m) = map_get k pa \/ from (map_get k (override_all l m))).
  { induction l as [|[name j] l IH]; intros Hl m Hs Hm; [exact Hm|]. cbn [override_all].
    assert (Q : let m' := fst (override_values name (object_items j) m) in sorted_keys m' /\ (map_get k m' = map_get k pa \/ from (map_get k m'))).
    { destruct j as [| | | | |per]; cbn [object_items override_values]; try (split; assumption).
      apply (V name per per); [apply Hl; left; reflexivity|auto|exact Hs|exact Hm]. }
    destruct (override_values name (object_items j) m) as [m' go]. cbn [fst] in Q. destruct Q as [Q1 Q2]. destruct go; [|exact Q2]. apply IH; [intros e He; apply Hl; right; exact He|exact Q1|exact Q2]. }
  destruct (G file (fun e H => H) pa Hpa (or_introl eq_refl)) as [E|(name & per & value & members & o & H1 & H2 & H3 & H4 & H5)]; [left; exact E|right].
  exists file, name, per, value, members, o. rewrite <- H5. repeat split; assumption.
Qed.
(** The attributes of an object whose condition holds replace the printer's, when no other
    condition is about the same printer. *)
Theorem C64_applied : forall file name per value members (o : ipp_attrs) t (pa : ipp_attrs), sorted_keys pa -> sorted_keys file -> sorted_keys per ->
  In (name, JObj per) file -> In (value, JObj members) per -> attrsfromJSON members [] = Ok o ->
  map_get name pa = Some (t, VStr value) -> map_get name o = None ->
  (forall name' j, In (name', j) file -> name' <> name -> map_get name' pa = None /\ map_get name' o = None) ->
  forall k, map_get k (applyOverrides (JObj file) pa) = match map_get k o with Some a => Some a | None => map_get k pa end.
Proof.
  intros file name per value members o t pa Hpa Hfile Hper Hn Hv Ho Hm Hno Hother.
  pose proof (attrsfromJSON_sorted _ [] _ I Ho) as Hso.
  assert (W : forall l (m : ipp_attrs), map_get name m = Some (t, VStr value) -> (forall j, ~ In (value, j) l) -> override_values name l m = (m, true)).
  { induction l as [|[v j] l IH]; intros m Hm' Hl; [reflexivity|]. cbn [override_values]. rewrite Hm'. cbn [snd].
    destruct (String.eqb_spec value v) as [->|]; [destruct (Hl j); left; reflexivity|]. apply IH; [exact Hm'|]. intros j' Hj. apply (Hl j'). right. exact Hj. }
  assert (A : override_values name per pa = (overlay o pa, true)).
  { assert (Gv : map_get name (overlay o pa) = Some (t, VStr value)) by (rewrite overlay_get, Hno by assumption; exact Hm).
    clear Hn Hother. induction per as [|[v j] l IH]; [contradiction|]. destruct Hper as [Hf Hs]. cbn [override_values]. rewrite Hm. cbn [snd].
    destruct (String.eqb_spec value v) as [->|Hne].
    - assert (j = JObj members) as ->.
      { destruct Hv as [E|Hv]; [injection E as ->; reflexivity|]. rewrite Forall_forall in Hf. specialize (Hf _ Hv). cbn [fst] in Hf. rewrite compare_refl in Hf. discriminate. }
      cbn [object_items]. rewrite Ho. apply W; [exact Gv|]. intros j Hj. rewrite Forall_forall in Hf. specialize (Hf _ Hj). cbn [fst] in Hf. rewrite compare_refl in Hf. discriminate.
    - destruct Hv as [E|Hv]; [injection E as -> _; contradiction Hne; reflexivity|]. apply (IH Hs Hv). }
  assert (B : forall l (m : ipp_attrs), (forall e, In e l -> map_get (fst e) m = None) -> override_all l m = m).
  { induction l as [|[n j] l IH]; intros m Hl; [reflexivity|]. cbn [override_all].
    assert (N : override_values n (object_items j) m = (m, true)).
    { pose proof (Hl _ (or_introl eq_refl)) as E. cbn [fst] in E. induction (object_items j) as [|[v x] q IHq]; [reflexivity|]. cbn [override_values]. rewrite E. exact IHq. }
    rewrite N. apply IH. intros e He. apply Hl. right. exact He. }
  assert (R : override_all file pa = overlay o pa).
  { clear Hv. induction file as [|[n j] l IH]; [contradiction|]. destruct Hfile as [Hf Hs]. cbn [override_all]. destruct (String.eqb_spec n name) as [->|Hne].
    - assert (j = JObj per) as ->.
      { destruct Hn as [E|Hn]; [injection E as ->; reflexivity|]. rewrite Forall_forall in Hf. specialize (Hf _ Hn). cbn [fst] in Hf. rewrite compare_refl in Hf. discriminate. }
      cbn [object_items]. rewrite A. apply B. intros [n' j'] He. cbn [fst]. assert (n' <> name).
      { intros ->. rewrite Forall_forall in Hf. specialize (Hf _ He). cbn [fst] in Hf. rewrite compare_refl in Hf. discriminate. }
      destruct (Hother n' j' (or_intror He) H) as [E1 E2]. rewrite overlay_get, E2 by assumption. exact E1.
    - destruct Hn as [E|Hn]; [injection E as -> _; contradiction Hne; reflexivity|].
      assert (N : override_values n (object_items j) pa = (pa, true)).
      { destruct (Hother n j (or_introl eq_refl) Hne) as [E _]. induction (object_items j) as [|[v x] q IHq]; [reflexivity|]. cbn [override_values]. rewrite E. exact IHq. }
      rewrite N. apply (IH Hs Hn). intros n' j' Hi. apply (Hother n' j'). right. exact Hi. }
  intros k. unfold applyOverrides. cbn [object_items]. rewrite R. apply overlay_get; assumption.
Qed.
Definition ex_overrides : json :=
  JObj [("printer-make-and-model"%string, JObj [("Brand A"%string, JObj [("copies-supported"%string, JObj [("tag"%string, JInt 0x21); ("value"%string, JInt 9)])]);
                                         ("Brand B"%string, JObj [("pdf-versions-supported"%string, JObj [("tag"%string, JInt 0x44); ("value"%string, JStr "none")])])])].
Example C64_example :
  (forall t a, t = (0x42, VStr a) -> a <> "Brand A"%string -> a <> "Brand B"%string -> applyOverrides ex_overrides [("printer-make-and-model"%string, t)] = [("printer-make-and-model"%string, t)]) /\
  applyOverrides ex_overrides [("copies-supported"%string, (0x21, VInt 1)); ("printer-make-and-model"%string, (0x42, VStr "Brand A"))] =
    [("copies-supported"%string, (0x21, VInt 9)); ("printer-make-and-model"%string, (0x42, VStr "Brand A"))].
Proof.
  split; [|vm_compute; reflexivity]. intros t a -> Ha Hb. apply C64_no_match. intros obj (file & name & per & value & t & E & Hn & Hv & Hm).
  injection E as <-. destruct Hn as [E|[]]. injection E as <- <-. cbn in Hm. injection Hm as _ Hm. destruct Hv as [E|[E|[]]]; injection E as E _; congruence.
Qed.

(** ** C65: document formats of the device id *)
(** IEEE 1284 device ids name command sets; the ones telling a format *)
Definition tells (format keyword : string) : Prop :=
  In (format, keyword)
     [ ("application/pdf", "PDF"); ("application/postscript", "POSTSCRIPT"); ("application/postscript", "PostScript"); ("image/pwg-raster", "PWG");
       ("image/urf", "URF"); ("image/urf", "AppleRaster") ]%string.
Theorem C65_additional_formats : forall pa l, additionalDocumentFormats pa = Ok l ->
  forall f, In f l <-> ~ In (VStr f) (values "document-format-supported" pa) /\
    exists kw id, tells f kw /\ (map_get "printer-device-id" pa = None /\ id = ""%string \/ exists t, map_get "printer-device-id" pa = Some (t, VStr id)) /\ occurs kw id.
Proof.
  intros pa l H f. unfold additionalDocumentFormats in H. bind_inv H as base Hb H. bind_inv H as id Hid H. injection H as <-.
  assert (Hbase : forall x, contains base x = true <-> In (VStr x) (values "document-format-supported" pa)).
  { intros x. rewrite contains_in. apply str_list_values in Hb. rewrite <- Hb, in_map_iff. split; [intros Hx; exists x; split; [reflexivity|exact Hx]|intros (y & E & Hy); injection E as ->; exact Hy]. }
  assert (Hdev : forall d, (map_get "printer-device-id" pa = None /\ d = ""%string \/ exists t, map_get "printer-device-id" pa = Some (t, VStr d)) <-> d = id).
  { unfold get_str_attr in Hid. bind_inv Hid as v Hv Hid. injection Hid as <-. unfold attrs_get, attrs_at in Hv. destruct (map_get "printer-device-id" pa) as [[t a]|].
    - intros d. unfold get_as in Hv. cbn [snd bind] in Hv. destruct a; cbn [has_type] in Hv; try discriminate. injection Hv as <-. cbn [v_str]. split; [intros [[E _]|[t' E]]; [discriminate|injection E as _ ->; reflexivity]|intros ->; right; eauto].
    - cbn [bind] in Hv. injection Hv as <-. cbn [v_str]. intros d. split; [intros [[_ E]|[t' E]]; [exact E|discriminate]|intros ->; left; split; reflexivity]. }
  assert (Hadd : forall g b, In f (if negb (contains base g) && b then [g] else []) <-> f = g /\ ~ In (VStr f) (values "document-format-supported" pa) /\ b = true).
  { intros g b. destruct (negb (contains base g) && b) eqn:E.
    - apply andb_prop in E. destruct E as [E ->]. split; [intros [<-|[]]|intros (-> & _); left; reflexivity]. split; [reflexivity|]. split; [|reflexivity].
      intros Hi. apply Hbase in Hi. rewrite Hi in E. discriminate.
    - split; [intros []|]. intros (-> & Hn & ->). rewrite <- Hbase in Hn. destruct (contains base g); [contradiction Hn; reflexivity|discriminate]. }
  rewrite !in_app_iff, !Hadd, !orb_true_iff, !contains_spec. fold (occurs "PDF" id) (occurs "POSTSCRIPT" id) (occurs "PostScript" id) (occurs "PWG" id) (occurs "URF" id) (occurs "AppleRaster" id).
  split.
  - intros H. assert (Hn : ~ In (VStr f) (values "document-format-supported" pa)) by tauto. split; [exact Hn|].
    assert (K : forall kw, tells f kw -> occurs kw id -> exists kw id, tells f kw /\ (map_get "printer-device-id" pa = None /\ id = ""%string \/ exists t, map_get "printer-device-id" pa = Some (t, VStr id)) /\ occurs kw id).
    { intros kw Ht Hoc. exists kw, id. split; [exact Ht|]. split; [apply Hdev; reflexivity|exact Hoc]. }
    destruct H as [(-> & _ & H)|[(-> & _ & [H|H])|[(-> & _ & H)|(-> & _ & [H|H])]]]; (eapply K; [|exact H]; unfold tells; cbn; tauto).
  - intros (Hn & kw & d & Ht & Hd & Hoc). apply Hdev in Hd. subst d. unfold tells in Ht. cbn in Ht.
    repeat (destruct Ht as [Ht|Ht]; [injection Ht as <- <-; unfold mPDF, mPostscript, mPWG, mURF; tauto|]). contradiction.
Qed.
Example C65_example :
  additionalDocumentFormats [("document-format-supported"%string, (0x49, VSet [VStr "application/octet-stream"; VStr "image/urf"]));
                             ("printer-device-id"%string, (0x41, VStr "MFG:X;CMD:PDF,URF,PWGRaster;"))] = Ok ["application/pdf"; "image/pwg-raster"]%string.
Proof. vm_compute. reflexivity. Qed.

(** ** C66: a printer needing attention: stopped, or a state reason more serious than a
    report (RFC 8011 5.4.11, 5.4.12: pending, idle, processing are 3, 4 - stopped is 5). *)
Theorem C66_warning : forall pa b, isWarningState pa = Ok b ->
  b = true <->
  (exists t s, map_get "printer-state" pa = Some (t, VInt s) /\ 5 <= s) \/
  exists r, In (VStr r) (values "printer-state-reasons" pa) /\ r <> "none"%string /\ ~ exists x, r = (x ++ "-report")%string.
Proof.
  intros pa b H. unfold isWarningState in H. bind_inv H as st Hst H.
  assert (Hs : (exists t s, map_get "printer-state" pa = Some (t, VInt s) /\ 5 <= s) <-> 5 <= st).
  { unfold get_int_attr in Hst. bind_inv Hst as v Hv Hst. injection Hst as <-. unfold attrs_get, attrs_at in Hv. destruct (map_get "printer-state" pa) as [[t a]|].
    - unfold get_as in Hv. cbn [snd bind] in Hv. destruct a; cbn [has_type] in Hv; try discriminate. injection Hv as <-. cbn [v_int]. split; [intros (? & ? & E & L); injection E as _ <-; exact L|eauto].
    - cbn [bind] in Hv. injection Hv as <-. cbn [v_int]. split; [intros (? & ? & E & L); discriminate|lia]. }
  rewrite Hs. clear Hs. destruct (Z.ltb_spec 4 st) as [L|L].
  - injection H as <-. split; [intros _; left; lia|reflexivity].
  - bind_inv H as rs Hr H. injection H as <-. apply str_list_values in Hr. rewrite <- Hr, existsb_exists. split.
    + intros (r & Hi & E). right. exists r. apply andb_prop in E. destruct E as [E1 E2]. split; [apply in_map; exact Hi|]. split; [intros ->; discriminate E1|].
      intros (x & Ex). assert (C : string_ends_with r "-report" = true) by (apply ends_with_spec; exists x; exact Ex). rewrite C in E2. discriminate E2.
    + intros [C|(r & Hi & E1 & E2)]; [lia|]. apply in_map_iff in Hi. destruct Hi as (y & Ey & Hi). injection Ey as ->. exists r. split; [exact Hi|].
      destruct (String.eqb_spec r "none") as [E|_]; [contradiction|]. destruct (string_ends_with r "-report") eqn:E; [|reflexivity]. destruct E2. apply ends_with_spec. exact E.
Qed.
Example C66_example :
  isWarningState [("printer-state"%string, (0x23, VInt 3)); ("printer-state-reasons"%string, (0x44, VSet [VStr "none"; VStr "toner-low-report"]))] = Ok false /\
  isWarningState [("printer-state"%string, (0x23, VInt 4)); ("printer-state-reasons"%string, (0x44, VStr "media-empty-warning"))] = Ok true.
Proof. vm_compute. split; reflexivity. Qed.

Print Assumptions C57_supplies.
Print Assumptions C57_total.
Print Assumptions C57_firmware.
Print Assumptions C58_request.
Print Assumptions C58_on_the_wire.
Print Assumptions C59_network_partial.
Print Assumptions C59_no_exception.
Print Assumptions C59_create_failure.
Print Assumptions C59_file_refuted.
Print Assumptions C59_file_partial.
Print Assumptions C59_last_success_refuted.
Print Assumptions C59_success_reported.
Print Assumptions C63_cancel.
Print Assumptions C63_status_ignored_refuted.
Print Assumptions C63_answered_partial.
Print Assumptions C64_no_match.
Print Assumptions C64_only_listed.
Print Assumptions C64_applied.
Print Assumptions C65_additional_formats.
Print Assumptions C66_warning.
