(** C25-C30: IPP messages. *)
From Verif Require Import Base BaseLemmas MapModel MapProofs IppModel IppSpec IppEncProofs IppDecProofs IppMsgProofs.
From Coq Require Import Lia ZifyBool ZifyNat Permutation.
Local Open Scope Z_scope.
Ltac Zify.zify_post_hook ::= Z.div_mod_to_equations.

(** a message with all kinds of values, sets, and nested collections *)
Definition ex_msg : ipp_msg := mkMsg 0x0002 2 0
  [ ("attributes-charset", (tCharset, VStr "utf-8"));
    ("attributes-natural-language", (tNaturalLanguage, VStr "en-us"));
    ("compression", (tKeyword, VStr "none"));
    ("job-id", (tInteger, VInt (-3)));
    ("printer-uri", (tUri, VStr "ipp://p/ipp/print")) ]%string
  [ []; [ ("copies", (tInteger, VInt 2));
      ("date", (tDateTime, VDate (mkDate 2024 1 2 3 4 5 6 43 1 30)));
      ("media-col", (tBeginCollection, VColl
        [ ("media-size", (tBeginCollection, VColl [ ("x-dimension", (tInteger, VInt 21000)); ("y-dimension", (tInteger, VInt 29700)) ]));
          ("media-type", (tKeyword, VSet [VStr "a"; VStr "b"; VStr ""]));
          ("sizes", (tBeginCollection, VSet [VColl [("k", (tBoolean, VBool true))]; VColl []])) ]));
      ("page-ranges", (tIntegerRange, VSet [VRange 1 3; VRange 5 2147483647]));
      ("printer-resolution", (tResolution, VRes 600 600 3)) ] ]%string
  [ ("all", (tBeginCollection, VSet [VColl []; VColl [("", (tEnum, VInt 4))]])) ]%string.
Example ex_msg_wf : wf_msg ex_msg = true.
Proof. reflexivity. Qed.

(** ** C25 *)
(** Every well-formed message is encoded, with the request id given, and decoding the
    bytes gives it back, but for job groups without attributes (which are not sent).
    The decoder discards the request id. *)
Theorem C25_round_trip id m : wf_msg m = true -> 0 <= id < 4294967296 ->
  exists b, fst (encodeMsg id m) = Ok b /\
    decodeMsg b = Ok (mkMsg (m_opOrStatus m) (m_majVsn m) (m_minVsn m) (m_opAttrs m) (filter nonempty (m_jobAttrs m)) (m_printerAttrs m), []) /\
    firstn 8 b = [bZ (m_majVsn m); bZ (m_minVsn m)] ++ be16 (m_opOrStatus m) ++ be32 id.
Proof.
  intros Hwf Hid. destruct (wfe_msg id m Hwf) as [b Eb]. exists b. split; [exact Eb|]. split.
  - rewrite <- (app_nil_r b). apply decode_encode with id; [exact Hwf|exact Hid|exact Eb|]. intros [x E]. discriminate.
  - apply encodeMsg_bytes in Eb. subst b. reflexivity.
Qed.
Example C25_example : match fst (encodeMsg 7 ex_msg) with
  | Ok b => decodeMsg b = Ok (mkMsg 2 2 0 (m_opAttrs ex_msg) (tl (m_jobAttrs ex_msg)) (m_printerAttrs ex_msg), [])
  | _ => False end.
Proof. vm_compute. reflexivity. Qed.
(** Equal bytes mean equal messages. *)
Theorem C25_injective id1 id2 m1 m2 b : wf_msg m1 = true -> wf_msg m2 = true -> 0 <= id1 < 4294967296 -> 0 <= id2 < 4294967296 ->
  (forall g, In g (m_jobAttrs m1 ++ m_jobAttrs m2) -> g <> []) ->
  fst (encodeMsg id1 m1) = Ok b -> fst (encodeMsg id2 m2) = Ok b -> m1 = m2 /\ id1 = id2.
Proof.
  intros W1 W2 I1 I2 Hg E1 E2.
  assert (Hn : no00 []) by (intros [x E]; discriminate).
  pose proof (decode_encode id1 m1 b [] W1 I1 E1 Hn) as D1. pose proof (decode_encode id2 m2 b [] W2 I2 E2 Hn) as D2.
  rewrite D1 in D2. assert (E : with_jobs m1 = with_jobs m2) by congruence. clear D1 D2. split.
  - assert (F : forall m, (forall g, In g (m_jobAttrs m) -> g <> []) -> with_jobs m = m).
    { intros m H. unfold with_jobs. destruct m as [op ma mi o j p]. cbn in *. f_equal. induction j as [|g j IH]; [reflexivity|]. cbn [filter].
      destruct g as [|e g]; [exfalso; apply (H []); [left|]; reflexivity|]. cbn [nonempty]. f_equal. apply IH. intros; apply H; right; assumption. }
    rewrite <- (F m1), <- (F m2); [exact E| |]; intros g Hin; apply Hg; apply in_or_app; auto.
  - apply encodeMsg_bytes in E1. apply encodeMsg_bytes in E2. rewrite E1 in E2. unfold msg_bytes in E2. cbn [app] in E2. unfold be16 in E2. cbn [app] in E2.
    unfold be32 in E2. cbn [app] in E2. injection E2 as _ _ _ _ A1 A2 A3 A4 _.
    pose proof (un32_be32 id1 [] I1) as U1. pose proof (un32_be32 id2 [] I2) as U2. unfold be32 in U1, U2. cbn [app] in U1, U2. rewrite A1, A2, A3, A4 in U1.
    rewrite U1 in U2. injection U2 as U2. exact U2.
Qed.

(** ** C26 *)
(** Decoding any bytes ends. *)
Theorem C26_terminates s : match decodeMsg s with Ok _ | Throw _ | UB => True | Hang | NoFuel => False end.
Proof.
  change (ends (decodeMsg s)). unfold decodeMsg. apply ends_bind; [destruct s; exact I|]. intros [maj s1] _.
  apply ends_bind; [destruct s1; exact I|]. intros [min s2] _. apply ends_bind; [destruct s2 as [|? [|]]; exact I|]. intros [op s3] _.
  apply ends_bind; [destruct s3 as [|? [|? [|? [|]]]]; exact I|]. intros [id s4] _. apply decode_loop_ends. lia.
Qed.
(** Undefined behaviour needs a member name in a collection that is followed by one or
    more unnamed values with the same tag (not a collection) and no further unnamed item. *)
Theorem C26_undefined_only_when_cut_off_partial s : decodeMsg s = UB ->
  exists pre i1 i2 more r, s = pre ++ flat_map item_bytes (i1 :: i2 :: more) ++ r /\ In (bZ 0x34) pre /\
    Forall (fun i => i_name i = []) (i1 :: i2 :: more) /\
    i_tag i1 = 0x4A /\ i_tag i2 <> 0x34 /\ Forall (fun i => i_tag i = i_tag i2) more /\ (forall t x, r <> t :: bZ 0 :: bZ 0 :: x).
Proof. apply decodeMsg_ub. Qed.
Theorem C26_safe_without_collections s : ~ In (bZ 0x34) s -> match decodeMsg s with Ok _ | Throw _ => True | _ => False end.
Proof.
  intros H. pose proof (C26_terminates s) as E. destruct (decodeMsg s) as [x|e| | |] eqn:D; try exact E.
  apply C26_undefined_only_when_cut_off_partial in D. destruct D as (pre & i1 & i2 & more & r & -> & Hin & _). apply H. apply in_or_app. left. exact Hin.
Qed.
Definition cut_off : list byte := map bZ
  [1;1; 0;0; 0;0;0;1;  4;  0x34;0;1;97;0;0;  0x4A;0;0;0;1;120;  0x21;0;0;0;4;0;0;0;1;  3].
Theorem C26_safe_refuted : ~ forall s, decodeMsg s <> UB.
Proof. intros H. apply (H cut_off). vm_compute. reflexivity. Qed.
Example C26_example : decodeMsg (map bZ [1;1; 0;0; 0;0;0;1; 4; 0x21;0;1;97;0;4;0;0]) = Throw OutOfRange /\
  decodeMsg (map bZ [1;1; 0;0; 0;0;0;1; 4; 0x34;0;1;97;0;0; 0x21;0;0;0;4;0;0;0;1; 3]) = Throw LogicError.
Proof. split; vm_compute; reflexivity. Qed.

(** ** C27 *)
(** The operation group comes first; it has each operation attribute exactly once, in
    the order of RFC 8011, and is followed by another group or the end. *)
Theorem C27_order id m b : sorted_keys (m_opAttrs m) -> fst (encodeMsg id m) = Ok b ->
  exists ops rest g, b = [bZ (m_majVsn m); bZ (m_minVsn m)] ++ be16 (m_opOrStatus m) ++ be32 id ++ [bZ 1] ++ group_bytes ops ++ bZ g :: rest /\
    Permutation ops (m_opAttrs m) /\ NoDup (map fst ops) /\ rank_sorted ops /\ (g = 2 \/ g = 3 \/ g = 4).
Proof.
  intros Hs Hb. apply encodeMsg_bytes in Hb. subst b. exists (op_order (m_opAttrs m)). unfold msg_bytes.
  assert (E : exists g rest, flat_map (fun g => bZ 2 :: group_bytes g) (filter nonempty (m_jobAttrs m)) ++
     flat_map (fun g => bZ 4 :: group_bytes g) (filter nonempty [m_printerAttrs m]) ++ [bZ 3] = bZ g :: rest /\ (g = 2 \/ g = 3 \/ g = 4)).
  { destruct (filter nonempty (m_jobAttrs m)) as [|x l]; [|exists 2; eexists; split; [reflexivity|auto]].
    destruct (filter nonempty [m_printerAttrs m]) as [|x l]; [exists 3|exists 4]; eexists; split; try reflexivity; auto. }
  destruct E as [g [rest [E Hg]]]. exists rest, g. split; [rewrite E; reflexivity|].
  split; [apply op_order_perm; exact Hs|]. split; [|split; [apply op_order_rank; exact Hs|exact Hg]].
  eapply Permutation_NoDup; [|apply (sorted_nodup (m_opAttrs m)); exact Hs]. apply Permutation_map. apply Permutation_sym. apply op_order_perm. exact Hs.
Qed.
(** Requests have the two mandatory attributes first, then the printer's URI. *)
Lemma rank_head (l : list (string * ipp_attr)) k r : rank_sorted l -> op_rank k = r -> (r < 5)%nat -> In k (map fst l) ->
  Forall (fun e => (r <= op_rank (fst e))%nat) l -> exists a l', l = (k, a) :: l'.
Proof.
  intros Hs Hk Hr Hin Hf. destruct l as [|[k0 a0] l]; [destruct Hin|]. destruct Hs as [H1 H2]. inversion Hf as [|? ? F1 F2]; subst. cbn [fst] in *.
  destruct Hin as [E0|Hin]; [cbn [fst] in E0; rewrite E0; eexists; eexists; reflexivity|]. apply in_map_iff in Hin. destruct Hin as [e [E He]].
  rewrite Forall_forall in H1. pose proof (H1 e He) as Hle. rewrite E in Hle. cbn [fst] in Hle.
  assert (k0 = k) by (apply op_rank_inj; lia). subst. eexists. eexists. reflexivity.
Qed.
Lemma base_has k v (l : list (string * ipp_attr)) : forall m : ipp_attrs, sorted_keys m -> In (k, v) l -> In k (map fst (insert_all l m)).
Proof.
  assert (Hkeep : forall l (m : ipp_attrs), sorted_keys m -> In k (map fst m) -> In k (map fst (insert_all l m))).
  { intros l0. induction l0 as [|e l0 IH]; intros m Hs Hin; [exact Hin|]. apply (IH (map_insert (fst e) (snd e) m)); [apply insert_sorted; exact Hs|].
    destruct (in_dec string_dec k (map fst (map_insert (fst e) (snd e) m))) as [|Hno]; [assumption|]. exfalso.
    apply map_get_none in Hno. rewrite map_get_insert in Hno by exact Hs. destruct (map_get (fst e) m) eqn:E; destruct (String.eqb_spec k (fst e)) as [Ek|Ek]; try discriminate;
    apply map_get_none in Hno; contradiction. }
  induction l as [|e l IH]; intros m Hs Hin; [destruct Hin|]. destruct Hin as [->|Hin].
  - apply (Hkeep l (map_insert k v m)); [apply insert_sorted; exact Hs|].
    destruct (in_dec string_dec k (map fst (map_insert k v m))) as [|Hno]; [assumption|]. exfalso.
    apply map_get_none in Hno. rewrite map_get_insert in Hno by exact Hs. rewrite String.eqb_refl in Hno. destruct (map_get k m); discriminate.
  - apply (IH (map_insert (fst e) (snd e) m)); [apply insert_sorted; exact Hs|exact Hin].
Qed.
Theorem C27_mandatory_first two user addr op opAttrs jobAttrs printerAttrs id b : sorted_keys opAttrs ->
  fst (encodeMsg id (makeRequest two user addr op opAttrs jobAttrs printerAttrs)) = Ok b ->
  exists c l u others rest, b = [bZ (if two then 2 else 1); bZ (if two then 0 else 1)] ++ be16 op ++ be32 id ++ [bZ 1] ++
    group_bytes (("attributes-charset", c) :: ("attributes-natural-language", l) :: ("printer-uri", u) :: others)%string ++ rest.
Proof.
  intros Hs Hb. set (m := makeRequest two user addr op opAttrs jobAttrs printerAttrs) in *.
  assert (Ho : m_opAttrs m = insert_all (baseOpAttrs user addr) opAttrs) by (unfold m, makeRequest; destruct two; reflexivity).
  assert (Hso : sorted_keys (m_opAttrs m)) by (rewrite Ho; apply insert_all_sorted; exact Hs).
  destruct (C27_order id m b Hso Hb) as [ops [rest [g [E [Hp [Hn [Hr _]]]]]]].
  assert (Hin : forall k v, In (k, v) (baseOpAttrs user addr) -> In k (map fst ops)).
  { intros k v H. eapply Permutation_in; [apply Permutation_map; apply Permutation_sym; exact Hp|]. rewrite Ho. eapply base_has; eassumption. }
  assert (Hh : exists c l u others, ops = (("attributes-charset", c) :: ("attributes-natural-language", l) :: ("printer-uri", u) :: others)%string).
  { destruct (rank_head ops "attributes-charset" 0 Hr eq_refl ltac:(lia)) as [c [ops1 E1]].
    { eapply Hin. left. reflexivity. } { apply Forall_forall. intros. lia. }
    assert (Hrem : forall k v, In (k, v) (baseOpAttrs user addr) -> k <> "attributes-charset"%string -> In k (map fst ops1)).
    { intros k v H Hk. specialize (Hin k v H). rewrite E1 in Hin. destruct Hin as [E'|]; [cbn in E'; congruence|assumption]. }
    subst ops. destruct Hr as [Hr0 Hr1]. cbn [map fst] in Hn. inversion Hn as [|? ? Hn0 Hn1]; subst.
    assert (Hup : forall (k0 : string) r l, op_rank k0 = r -> (r < 5)%nat -> ~ In k0 (map fst l) -> Forall (fun e : string * ipp_attr => (op_rank k0 <= op_rank (fst e))%nat) l ->
              Forall (fun e : string * ipp_attr => (S r <= op_rank (fst e))%nat) l).
    { intros k0 r l0 E0 Hr5 Hni Hf. apply Forall_forall. intros e He. rewrite Forall_forall in Hf. specialize (Hf e He).
      destruct (Nat.eq_dec (op_rank (fst e)) r) as [Ee|]; [|lia]. exfalso. apply Hni. replace k0 with (fst e); [apply in_map; exact He|]. apply op_rank_inj; lia. }
    destruct (rank_head ops1 "attributes-natural-language" 1 Hr1 eq_refl ltac:(lia)) as [l [ops2 E2]].
    { eapply Hrem; [right; left; reflexivity|discriminate]. } { eapply (Hup "attributes-charset"%string 0%nat); [reflexivity|lia|exact Hn0|exact Hr0]. }
    assert (Hrem2 : In "printer-uri"%string (map fst ops2)).
    { assert (K : In "printer-uri"%string (map fst ops1)) by (eapply Hrem; [right; right; left; reflexivity|discriminate]).
      rewrite E2 in K. destruct K as [K|K]; [discriminate|exact K]. }
    subst ops1. destruct Hr1 as [Hr1 Hr2]. cbn [map fst] in Hn1. inversion Hn1 as [|? ? Hn2 Hn3]; subst.
    destruct (rank_head ops2 "printer-uri" 2 Hr2 eq_refl ltac:(lia) Hrem2) as [u [ops3 E3]].
    { eapply (Hup "attributes-natural-language"%string 1%nat); [reflexivity|lia|exact Hn2|exact Hr1]. }
    subst ops2. exists c, l, u, ops3. reflexivity. }
  destruct Hh as [c [l [u [others Eo]]]]. exists c, l, u, others, (bZ g :: rest). rewrite E, Eo.
  unfold m, makeRequest. destruct two; reflexivity.
Qed.
(** the bytes of an encoded message, for examples *)
Definition enc (id : Z) (m : ipp_msg) : list byte := match fst (encodeMsg id m) with Ok b => b | _ => [] end.
Definition ex_request : ipp_msg := makeRequest true None "ipp://x" 2
  [("document-format", (tMimeMediaType, VStr "image/pwg-raster")); ("job-id", (tInteger, VInt 3))]%string [] [].
Example C27_example : fst (encodeMsg 1 ex_request) = Ok (enc 1 ex_request)
  /\ nth 8 (enc 1 ex_request) (bZ 0) = bZ 1 /\ firstn 21 (skipn 9 (enc 1 ex_request)) = bZ 0x47 :: be16 18 ++ bytes_of_string "attributes-charset".
Proof. split; [vm_compute; reflexivity|]. split; vm_compute; reflexivity. Qed.

(** ** C28 *)
(** The i-th message of a session carries the start id plus i. *)
Theorem C28_successive start l i m : 0 <= start < 4294967296 -> nth_error l i = Some m ->
  exists o, nth_error (session start l) i = Some o /\ o = fst (encodeMsg ((start + Z.of_nat i) mod 4294967296) m) /\
  forall b, o = Ok b -> firstn 4 (skipn 4 b) = be32 ((start + Z.of_nat i) mod 4294967296).
Proof.
  revert start l. induction i as [|i IH]; intros start l Hs Hm; (destruct l as [|m0 l]; [discriminate|]); cbn [session nth_error] in *.
  - injection Hm as ->. exists (fst (encodeMsg start m)). split; [reflexivity|]. replace ((start + Z.of_nat 0) mod 4294967296) with start by lia.
    split; [reflexivity|]. intros b Hb. apply encodeMsg_bytes in Hb. subst b. reflexivity.
  - unfold encodeMsg at 1. cbn [nth_error]. unfold two32. destruct (IH ((start + 1) mod 4294967296) l) as [o [E1 [E2 E3]]]; [lia|exact Hm|].
    replace ((start + Z.of_nat (S i)) mod 4294967296) with (((start + 1) mod 4294967296 + Z.of_nat i) mod 4294967296).
    + exists o. split; [exact E1|]. split; [exact E2|exact E3].
    + rewrite Zplus_mod_idemp_l. f_equal. lia.
Qed.
(** So that two messages of a run of at most 2^32 have different ids on the wire. *)
Theorem C28_distinct start l i j bi bj : 0 <= start < 4294967296 -> Z.of_nat (length l) <= 4294967296 -> (i < j)%nat ->
  nth_error (session start l) i = Some (Ok bi) -> nth_error (session start l) j = Some (Ok bj) ->
  firstn 4 (skipn 4 bi) <> firstn 4 (skipn 4 bj).
Proof.
  intros Hs Hl Hij Hi Hj.
  assert (Hlen : forall l s, length (session s l) = length l).
  { intros l0. induction l0 as [|m l0 IH]; intros s; [reflexivity|]. cbn [session length]. rewrite <- (IH ((s + 1) mod two32)). reflexivity. }
  assert (Hjl : (j < length l)%nat) by (rewrite <- (Hlen l start); apply nth_error_Some; congruence).
  destruct (nth_error l i) as [mi|] eqn:Ei; [|apply nth_error_None in Ei; lia].
  destruct (nth_error l j) as [mj|] eqn:Ej; [|apply nth_error_None in Ej; lia].
  destruct (C28_successive start l i mi Hs Ei) as [oi [E1 [_ E3]]]. destruct (C28_successive start l j mj Hs Ej) as [oj [F1 [_ F3]]].
  rewrite Hi in E1. injection E1 as <-. rewrite Hj in F1. injection F1 as <-. rewrite (E3 _ eq_refl), (F3 _ eq_refl). intros E.
  assert (D : (start + Z.of_nat i) mod 4294967296 = (start + Z.of_nat j) mod 4294967296).
  { set (a := (start + Z.of_nat i) mod 4294967296) in *. set (c := (start + Z.of_nat j) mod 4294967296) in *.
    assert (Ha : get_u32 (be32 a ++ []) = Ok (a, [])) by (apply un32_be32; unfold a; lia).
    assert (Hc : get_u32 (be32 c ++ []) = Ok (c, [])) by (apply un32_be32; unfold c; lia). rewrite E, Hc in Ha. injection Ha as <-. reflexivity. }
  lia.
Qed.
Example C28_example : session 4294967295 [empty_msg; empty_msg] =
  [Ok (map bZ [1;1;0;0;255;255;255;255;1;3]); Ok (map bZ [1;1;0;0;0;0;0;0;1;3])].
Proof. vm_compute. reflexivity. Qed.

(** ** C29 *)
(** Whatever follows a message is left unread and does not change it, as long as it does
    not begin with two zero bytes: for any bytes the decoder accepts ... *)
Theorem C29_any_following_partial s d m : d <> [] -> decodeMsg (s ++ d) = Ok (m, d) ->
  forall d', ~ (exists x, d' = bZ 0 :: bZ 0 :: x) -> decodeMsg (s ++ d') = Ok (m, d').
Proof. intros Hd H d' Hd'. eapply decodeMsg_any; [exact Hd|exact H|exact Hd']. Qed.
(** ... and for every encoded message. *)
Theorem C29_encoded_partial id m b : wf_msg m = true -> 0 <= id < 4294967296 -> fst (encodeMsg id m) = Ok b ->
  exists m', decodeMsg b = Ok (m', []) /\
  forall d, ~ (exists x, d = bZ 0 :: bZ 0 :: x) -> decodeMsg (b ++ d) = Ok (m', d).
Proof.
  intros Hwf Hid Hb. exists (with_jobs m). split; [|intros d Hd; eapply decode_encode; eassumption].
  rewrite <- (app_nil_r b). eapply decode_encode; try eassumption. intros [x E]. discriminate.
Qed.
(** With two zero bytes the end-of-attributes tag is taken for an additional value: *)
Theorem C29_refuted : ~ forall id m b d, wf_msg m = true -> 0 <= id < 4294967296 -> fst (encodeMsg id m) = Ok b ->
  exists m', decodeMsg b = Ok (m', []) /\ decodeMsg (b ++ d) = Ok (m', d).
Proof.
  intros H. destruct (H 1 ex_request (enc 1 ex_request) (map bZ [0; 0; 7; 7])) as [m' [_ E]].
  - vm_compute. reflexivity.
  - lia.
  - vm_compute. reflexivity.
  - assert (D : decodeMsg (enc 1 ex_request ++ map bZ [0; 0; 7; 7]) = Throw LogicError) by (vm_compute; reflexivity). congruence.
Qed.
Example C29_example : option_map snd (match decodeMsg (enc 1 ex_request ++ bytes_of_string "%PDF") with Ok x => Some x | _ => None end)
  = Some (bytes_of_string "%PDF").
Proof. vm_compute. reflexivity. Qed.

(** ** C30 *)
(** When names and strings are shorter than 2^16, encoding raises or writes each of them
    in full: the bytes are the items of the message, and tags and lengths fit. *)
Theorem C30_full_or_raises_partial id m : msg_lengths_ok m = true -> sorted_keys (m_opAttrs m) ->
  match fst (encodeMsg id m) with
  | Ok b => exists ops, Permutation ops (m_opAttrs m) /\ b = msg_bytes id m ops /\
              Forall item_fits (group_items ops ++ flat_map group_items (m_jobAttrs m) ++ group_items (m_printerAttrs m))
  | Throw _ => True
  | _ => False
  end.
Proof.
  intros Hl Hs. pose proof (encodeMsg_plain id m) as P. destruct (fst (encodeMsg id m)) as [b|e| | |] eqn:E; try exact P.
  exists (op_order (m_opAttrs m)). split; [apply op_order_perm; exact Hs|]. split; [apply encodeMsg_bytes; exact E|].
  exact (encodeMsg_fits id m b Hl E).
Qed.
(** A longer string is not refused: its length is written modulo 2^16. *)
Lemma be16_mod z : be16 (z mod 65536) = be16 z.
Proof.
  unfold be16. f_equal; [|f_equal].
  - rewrite <- (bZ_mod (z / 256)), <- (bZ_mod (z mod 65536 / 256)). f_equal. lia.
  - rewrite <- (bZ_mod z), <- (bZ_mod (z mod 65536)). f_equal. lia.
Qed.
Theorem C30_overlong_refuted s name : Z.of_nat (String.length s) >= 65536 ->
  exists b, encodeAttribute name (tTextWithoutLanguage, VStr s) = Ok b /\
    b = bZ 0x41 :: be16 (Z.of_nat (String.length name)) ++ bytes_of_string name
        ++ be16 (Z.of_nat (String.length s) mod 65536) ++ bytes_of_string s /\
    Z.of_nat (String.length s) mod 65536 < Z.of_nat (String.length s).
Proof.
  intros H. eexists. split; [reflexivity|]. split; [|lia]. rewrite be16_mod. unfold enc_str. cbn [fst]. rewrite <- !app_assoc. reflexivity.
Qed.
Example C30_overlong_example :
  (let s := string_of_bytes (repeat (bZ 0x41) (Pos.to_nat 65536)) in
   (Z.of_nat (String.length s) =? 65536) &&
   match fst (encodeMsg 1 (mkMsg 2 1 1 [("a", (tTextWithoutLanguage, VStr s))]%string [] [])) with
   | Ok b => match decodeMsg b with Throw OutOfRange => true | _ => false end
   | _ => false
   end) = true.
Proof. vm_compute. reflexivity. Qed.
Example C30_example : msg_lengths_ok ex_msg = true /\ fst (encodeMsg 1 ex_msg) = Ok (enc 1 ex_msg) /\
  fst (encodeMsg 1 (mkMsg 2 1 1 [("a", (tInteger, VStr "x"))]%string [] [])) = Throw BadVariant.
Proof. split; [reflexivity|]. split; vm_compute; reflexivity. Qed.

Print Assumptions C25_round_trip.
Print Assumptions C25_injective.
Print Assumptions C26_terminates.
Print Assumptions C26_undefined_only_when_cut_off_partial.
Print Assumptions C26_safe_without_collections.
Print Assumptions C26_safe_refuted.
Print Assumptions C27_order.
Print Assumptions C27_mandatory_first.
Print Assumptions C28_successive.
Print Assumptions C28_distinct.
Print Assumptions C29_any_following_partial.
Print Assumptions C29_encoded_partial.
Print Assumptions C29_refuted.
Print Assumptions C30_full_or_raises_partial.
Print Assumptions C30_overlong_refuted.
