(** Responses and the state kept about them (DiscoveryModel.v). *)
From Verif Require Import Base BaseLemmas ListLemmas StringModel StringProofs MapModel MapProofs PpmSpec PpmProofs DiscoveryModel DiscoverySpec RecordSpec DnsProofs.
From Coq Require Import Lia ZifyBool ZifyNat ZifyN.
Ltac Zify.zify_post_hook ::= Z.div_mod_to_equations.
Local Open Scope Z_scope.

(** ** Parsing comes to an end *)
Lemma addr_str_total d s : tame (get_addr_str d s) /\ forall n r, get_addr_str d s = Ok (n, r) -> shorter s r.
Proof.
  unfold get_addr_str. destruct (get_addr_total d max_depth [] s) as [T S]; [split; constructor|exact max_depth_4097|]. destruct (get_addr max_depth d [] s) as [[ns r]| | | |]; try contradiction; (split; [exact I|]); cbn [bind]; intros n r' K; [|discriminate]. injection K as <- <-. eapply S. reflexivity.
Qed.
Lemma bind_tame {A B} (x : outcome A) (f : A -> outcome B) : tame x -> (forall a, x = Ok a -> tame (f a)) -> tame (bind x f).
Proof. destruct x; cbn; auto. Qed.
Lemma u16_tame s : tame (get_u16 s). Proof. destruct s as [|a [|b s]]; exact I. Qed.
Lemma u32_tame s : tame (get_u32 s). Proof. destruct s as [|a [|b [|c [|e s]]]]; exact I. Qed.
Lemma bytes_tame n s : tame (get_bytes n s). Proof. unfold get_bytes. destruct (n <=? _); exact I. Qed.
Ltac tame_tac := repeat (apply bind_tame; [first [apply u16_tame|apply u32_tame|apply bytes_tame|apply addr_str_total]|intros [? ?] _]); try exact I.
Lemma rr_header_total d s : tame (rr_header d s).
Proof. unfold rr_header. tame_tac. Qed.
Lemma questions_total n d : forall s, tame (questions n d s).
Proof. induction n as [|n IH]; intros s; cbn [questions]; [exact I|]. tame_tac. apply IH. Qed.
Lemma txt_total d stop owner : forall fuel s, (length s < fuel)%nat -> tame (snd (txt_loop fuel d stop owner s)).
Proof.
  induction fuel as [|fuel IH]; intros s F; [lia|]. cbn [txt_loop]. destruct (_ <? stop); [|exact I]. destruct s as [|b s]; [exact I|]. cbn [get_u8 bind]. pose proof (Zb_range b). destruct (get_bytes_cases (Zb b) s) as [[-> _]|[-> L]]; [lia|exact I|].
  destruct (txt_entry _) as [k v]. cbn [length] in F. specialize (IH (skipn (Z.to_nat (Zb b)) s)). rewrite skipn_length in IH. destruct (txt_loop fuel d stop owner _) as [ev o]. apply IH. lia.
Qed.
Lemma out_tame {A B} (f : A -> list event * outcome B) x : tame x -> (forall a, tame (snd (f a))) -> tame (snd (out f x)).
Proof. destruct x; cbn; auto. Qed.
Lemma rr_total d s : tame (snd (rr d s)).
Proof.
  unfold rr. apply out_tame; [apply rr_header_total|]. intros [[[owner atype] len] r]. unfold rr_data. destruct (_ =? 12); [apply out_tame; [apply addr_str_total|intros [? ?]; exact I]|]. destruct (_ =? 16); [apply txt_total; lia|].
  destruct (_ =? 33); [apply out_tame; [tame_tac|intros [[? ?] ?]; exact I]|]. destruct (_ =? 1); [apply out_tame; [apply u32_tame|intros [? ?]; exact I]|]. apply out_tame; [apply bytes_tame|intros [? ?]; exact I].
Qed.
Lemma rrs_total n d : forall s, tame (snd (rrs n d s)).
Proof.
  induction n as [|n IH]; intros s; cbn [rrs]; [exact I|]. pose proof (rr_total d s) as T. destruct (rr d s) as [ev o]. cbn in T. destruct o; try contradiction; [|exact I]. specialize (IH a). destruct (rrs n d a). exact IH.
Qed.
Lemma parse_total d : tame (snd (parse d)).
Proof. unfold parse. apply out_tame; [|intros [? ?]; apply rrs_total]. tame_tac. apply bind_tame; [apply questions_total|intros ? _; exact I]. Qed.

(** ** What is parsed is in the datagram *)
Lemma addr_str_sound d p n r : (p <= length d)%nat -> get_addr_str d (skipn p d) = Ok (n, r) -> exists ls e, lenient_name d p ls e /\ n = dotted ls /\ r = skipn e d /\ (p < e <= length d)%nat.
Proof.
  intros P H. unfold get_addr_str in H. destruct (get_addr max_depth d [] (skipn p d)) as [[ns r']| | | |] eqn:E; try discriminate. cbn in H. injection H as <- <-. apply get_addr_sound in E; [|exact P]. destruct E as [e [E1 [E2 E3]]]. exists ns, e. split; [exact E1|]. split; [apply dotted_join|]. auto.
Qed.
Lemma skipn_more {A} (l : list A) p x r : skipn p l = x ++ r -> skipn (p + length x) l = r /\ (p + length x <= length l \/ x = [])%nat.
Proof.
  intros H. split; [rewrite <- ListLemmas.skipn_skipn, H, skipn_app, skipn_all, Nat.sub_diag; reflexivity|]. destruct x as [|a x]; [auto|left]. apply (f_equal (@length A)) in H. rewrite skipn_length, app_length in H. cbn [length] in *. lia.
Qed.
Lemma u16_inv s v r : get_u16 s = Ok (v, r) -> exists a b, s = [a; b] ++ r /\ v = un16 a b.
Proof. destruct s as [|a [|b s]]; try discriminate. intros H. injection H as <- <-. exists a, b. auto. Qed.
Lemma u32_inv s v r : get_u32 s = Ok (v, r) -> exists a b c e, s = [a; b; c; e] ++ r /\ v = un32 a b c e.
Proof. destruct s as [|a [|b [|c [|e s]]]]; try discriminate. intros H. injection H as <- <-. exists a, b, c, e. auto. Qed.
Ltac inv_bind H x y E := match type of H with bind ?e _ = Ok _ => destruct e as [[x y]| | | |] eqn:E; try discriminate H; cbn [bind] in H end.
Lemma header_sound d p owner atype len r : (p <= length d)%nat -> rr_header d (skipn p d) = Ok (owner, atype, len, r) -> exists e, header_at d p owner atype len e /\ r = skipn e d /\ (p < e <= length d)%nat.
Proof.
  intros P H. unfold rr_header in H. inv_bind H n0 s0 E0. apply addr_str_sound in E0; [|exact P]. destruct E0 as [ls [e0 [N [-> [-> L]]]]].
  inv_bind H t s1 E1. apply u16_inv in E1. destruct E1 as [t1 [t2 [E1 ->]]]. inv_bind H c s2 E2. apply u16_inv in E2. destruct E2 as [c1 [c2 [-> ->]]]. inv_bind H ttl s3 E3. apply u32_inv in E3. destruct E3 as [l1 [l2 [l3 [l4 [-> _]]]]]. inv_bind H nn s4 E4. apply u16_inv in E4. destruct E4 as [n1 [n2 [-> ->]]]. injection H as <- <- <- <-.
  cbn [app] in E1. change (t1 :: t2 :: c1 :: c2 :: l1 :: l2 :: l3 :: l4 :: n1 :: n2 :: s4) with ([t1; t2; c1; c2; l1; l2; l3; l4; n1; n2] ++ s4) in E1.
  destruct (skipn_more _ _ _ _ E1) as [M [B|B]]; [|discriminate]. cbn [length] in M, B. exists (e0 + 10)%nat. split; [|split; [congruence|lia]]. exists ls, e0, t1, t2, c1, c2, l1, l2, l3, l4, n1, n2, s4. auto 10.
Qed.
Lemma no_eq k c : find_str (String c "") k = None -> ~ exists a b, k = (a ++ String c "" ++ b)%string.
Proof. intros H [a [b ->]]. induction a as [|x a IH]; rewrite find_char in H; cbn [String.append] in H. - cbn in H. rewrite Ascii.eqb_refl in H. discriminate. - destruct (Ascii.eqb x c); [discriminate|]. destruct (find_str _ _); [discriminate|]. apply IH. reflexivity. Qed.
Lemma find_eq c text n : find_str (String c "") text = Some n -> text = (take n text ++ String c (drop (S n) text))%string /\ find_str (String c "") (take n text) = None.
Proof.
  revert n. induction text as [|x text IH]; intros n H; rewrite find_char in H; [discriminate|]. destruct (Ascii.eqb_spec x c) as [->|N].
  - injection H as <-. split; reflexivity.
  - destruct (find_str _ text) as [m|] eqn:E; [|discriminate]. cbn in H. injection H as <-. destruct (IH m eq_refl) as [I1 I2]. change (drop (S (S m)) (String x text)) with (drop (S m) text). unfold take in *. cbn [substring String.append]. split; [rewrite <- I1; reflexivity|]. rewrite find_char. destruct (Ascii.eqb_spec x c); [congruence|]. rewrite I2. reflexivity.
Qed.
Lemma txt_entry_sound text : let (k, v) := txt_entry text in key_value text k v.
Proof.
  unfold txt_entry. destruct (find_str "=" text) as [n|] eqn:E.
  - destruct (find_eq _ _ _ E) as [E1 E2]. left. split; [exact E1|]. apply no_eq, E2.
  - right. split; [reflexivity|]. split; [reflexivity|]. apply no_eq, E.
Qed.
Lemma txt_sound d p owner len e stop : header_at d p owner 16 len e -> forall fuel q, (e <= q <= length d)%nat -> let (ev, o) := txt_loop fuel d stop owner (skipn q d) in
  Forall (record_at d p) ev /\ forall r, o = Ok r -> exists q', r = skipn q' d /\ (q <= q' <= length d)%nat.
Proof.
  intros H. induction fuel as [|fuel IH]; intros q Q; cbn [txt_loop]; [split; [constructor|discriminate]|]. destruct (_ <? stop); [|split; [constructor|]; intros r K; injection K as <-; exists q; split; [reflexivity|lia]].
  destruct (skipn q d) as [|b s] eqn:S; [split; [constructor|discriminate]|]. cbn [get_u8 bind]. pose proof (Zb_range b). destruct (get_bytes_cases (Zb b) s) as [[-> _]|[-> L]]; [lia|split; [constructor|discriminate]|].
  pose proof (txt_entry_sound (string_of_bytes (firstn (Z.to_nat (Zb b)) s))) as KV. destruct (txt_entry _) as [k v]. pose proof (skipn_S _ _ _ _ S) as S1. assert (LS : (length s = length d - Datatypes.S q)%nat) by (rewrite <- S1, skipn_length; reflexivity).
  assert (NQ : nth_error d q = Some b) by (rewrite nth_skipn, S; reflexivity). assert (QL : (q < length d)%nat) by (apply nth_error_Some; congruence).
  rewrite <- S1, ListLemmas.skipn_skipn. specialize (IH (Datatypes.S q + Z.to_nat (Zb b))%nat ltac:(lia)). destruct (txt_loop fuel d stop owner _) as [ev o]. destruct IH as [I1 I2]. split.
  - constructor; [|exact I1]. eapply (rec_txt d p owner len e q b (Z.to_nat (Zb b))); try eassumption; try lia. rewrite S1. exact KV.
  - intros r K. destruct (I2 r K) as [q' [-> B]]. exists q'. split; [reflexivity|lia].
Qed.
Lemma ip4_sound a b c f : ip_text a b c f (ip4str (un32 a b c f)).
Proof.
  unfold ip4str, ip_text. exists (dec_string (Zb a)), (dec_string (Zb b)), (dec_string (Zb c)), (dec_string (Zb f)).
  pose proof (Zb_range a). pose proof (Zb_range b). pose proof (Zb_range c). pose proof (Zb_range f).
  split; [|repeat split; apply dec_string_number; lia]. change 255 with (Z.ones 8). rewrite !Z.land_ones by lia. rewrite !Z.shiftr_div_pow2 by lia. change (2 ^ 8) with 256. change (2 ^ 16) with 65536. change (2 ^ 24) with 16777216. unfold un32.
  repeat (f_equal; try lia).
Qed.
Lemma rr_sound d p : (p <= length d)%nat -> let (ev, o) := rr d (skipn p d) in Forall (record_at d p) ev /\ forall r, o = Ok r -> exists q, r = skipn q d /\ (p < q <= length d)%nat.
Proof.
  intros P. unfold rr. destruct (rr_header d (skipn p d)) as [[[[owner atype] len] s]| | | |] eqn:E; cbn [out]; try (split; [constructor|discriminate]).
  apply header_sound in E; [|exact P]. destruct E as [e [H [-> B]]]. unfold rr_data.
  destruct (Z.eqb_spec atype 12) as [->|_].
  { destruct (get_addr_str d (skipn e d)) as [[n r]| | | |] eqn:E; cbn [out]; try (split; [constructor|discriminate]). apply addr_str_sound in E; [|lia]. destruct E as [ls [e' [N [-> [-> B']]]]]. split; [|intros r K; injection K as <-; exists e'; split; [reflexivity|lia]]. constructor; [|constructor]. eapply rec_ptr; eassumption. }
  destruct (Z.eqb_spec atype 16) as [->|_].
  { pose proof (txt_sound d p owner len e (position d (skipn e d) mod two16 + len) H (S (length (skipn e d))) e ltac:(lia)) as T. destruct (txt_loop _ _ _ _ _) as [ev o]. destruct T as [T1 T2]. split; [exact T1|]. intros r K. destruct (T2 r K) as [q [-> Q]]. exists q. split; [reflexivity|lia]. }
  destruct (Z.eqb_spec atype 33) as [->|_].
  { destruct (let! (_, s) := get_u16 (skipn e d) in _) as [[[port target] r]| | | |] eqn:E; cbn [out]; try (split; [constructor|discriminate]). inv_bind E v1 s1 E1. apply u16_inv in E1. destruct E1 as [x1 [x2 [E1 ->]]]. inv_bind E v2 s2 E2. apply u16_inv in E2. destruct E2 as [x3 [x4 [-> ->]]]. inv_bind E v3 s3 E3. apply u16_inv in E3. destruct E3 as [p1 [p2 [-> ->]]].
    change ([x1; x2] ++ [x3; x4] ++ [p1; p2] ++ s3) with ([x1; x2; x3; x4; p1; p2] ++ s3) in E1. destruct (skipn_more _ _ _ _ E1) as [M [B'|B']]; [|discriminate]. cbn [length] in M, B'. rewrite <- M in E. inv_bind E v4 s4 E4. apply addr_str_sound in E4; [|lia]. destruct E4 as [ls [e' [N [-> [-> B'']]]]]. injection E as <- <- <-.
    split; [|intros r K; injection K as <-; exists e'; split; [reflexivity|lia]]. constructor; [|constructor]. eapply rec_srv; eassumption. }
  destruct (Z.eqb_spec atype 1) as [->|_].
  { destruct (get_u32 (skipn e d)) as [[ip r]| | | |] eqn:E; cbn [out]; try (split; [constructor|discriminate]). apply u32_inv in E. destruct E as [a [b [c [f [E ->]]]]]. destruct (skipn_more _ _ _ _ E) as [M [B'|B']]; [|discriminate]. cbn [length] in M, B'. split; [|intros r' K; injection K as <-; exists (e + 4)%nat; split; [congruence|lia]]. constructor; [|constructor]. eapply rec_a; [eassumption|eassumption|apply ip4_sound]. }
  unfold get_bytes. destruct (Z.leb_spec len (Z.of_nat (length (skipn e d)))); cbn [out]; (split; [constructor|]); [|discriminate]. intros r K. injection K as <-. rewrite ListLemmas.skipn_skipn. rewrite skipn_length in *. eexists. split; [reflexivity|]. lia.
Qed.
Lemma rrs_sound d n : forall p, (p <= length d)%nat -> Forall (fun e => exists q, record_at d q e) (fst (rrs n d (skipn p d))).
Proof.
  induction n as [|n IH]; intros p P; cbn [rrs]; [constructor|]. pose proof (rr_sound d p P) as S. destruct (rr d (skipn p d)) as [ev o]. destruct S as [S1 S2]. assert (S3 : Forall (fun e => exists q, record_at d q e) ev) by (eapply Forall_impl; [|exact S1]; intros e R; exists p; exact R).
  destruct o as [r| | | |]; try exact S3. destruct (S2 r eq_refl) as [q [-> Q]]. specialize (IH q ltac:(lia)). destruct (rrs n d (skipn q d)) as [ev' o']. apply Forall_app. split; assumption.
Qed.
Lemma suffix_u16 d s v r : (exists p, s = skipn p d /\ (p <= length d)%nat) -> get_u16 s = Ok (v, r) -> exists p, r = skipn p d /\ (p <= length d)%nat.
Proof. intros [p [-> P]] H. apply u16_inv in H. destruct H as [a [b [H _]]]. destruct (skipn_more _ _ _ _ H) as [M [B|B]]; [|discriminate]. cbn [length] in *. exists (p + 2)%nat. auto. Qed.
Lemma questions_sound d n : forall s r, (exists p, s = skipn p d /\ (p <= length d)%nat) -> questions n d s = Ok r -> exists p, r = skipn p d /\ (p <= length d)%nat.
Proof.
  induction n as [|n IH]; intros s r S H; cbn [questions] in H; [injection H as <-; exact S|]. inv_bind H n0 s0 E0. assert (S0 : exists p, s0 = skipn p d /\ (p <= length d)%nat). { destruct S as [p [-> P]]. apply addr_str_sound in E0; [|exact P]. destruct E0 as [ls [e [_ [_ [-> B]]]]]. exists e. split; [reflexivity|lia]. }
  inv_bind H n1 s1 E1. apply (suffix_u16 d) in E1; [|exact S0]. inv_bind H n2 s2 E2. apply (suffix_u16 d) in E2; [|exact E1]. exact (IH _ _ E2 H).
Qed.
Lemma parse_sound d : Forall (fun e => exists p, record_at d p e) (fst (parse d)).
Proof.
  unfold parse. match goal with |- context [out _ ?e] => destruct e as [[total s]| | | |] eqn:E end; cbn [out]; try constructor.
  assert (S : exists p, d = skipn p d /\ (p <= length d)%nat) by (exists 0%nat; split; [reflexivity|lia]).
  do 6 (match type of E with bind (get_u16 ?x) _ = _ => let E1 := fresh in destruct (get_u16 x) as [[? ?]| | | |] eqn:E1; try discriminate E; cbn [bind] in E; apply (suffix_u16 d) in E1; [clear S; rename E1 into S|exact S] end).
  destruct (questions _ d _) as [s0| | | |] eqn:Q; try discriminate. cbn in E. injection E as <- <-. apply (questions_sound d) in Q; [|exact S]. destruct Q as [p [-> P]]. apply rrs_sound, P.
Qed.

(** ** The state is what the latest records say *)
Definition srv_ok (evs : list event) (st : disc) : Prop :=
  sorted_keys (ports st) /\ sorted_keys (targets st) /\ forall it, map_get it (ports st) = option_map fst (last_srv it evs) /\ map_get it (targets st) = option_map snd (last_srv it evs).
Definition txt_ok (evs : list event) (st : disc) : Prop :=
  sorted_keys (txts st) /\ (forall it m, map_get it (txts st) = Some m -> sorted_keys m) /\ forall it k, match map_get it (txts st) with Some m => map_get k m | None => None end = last_txt it k evs.
Definition adr_ok (evs : list event) (st : disc) : Prop :=
  sorted_keys (addrs st) /\ forall t, match map_get t (addrs st) with Some l => l | None => [] end = ips_of t evs.
Definition ptr_ok (service : string -> bool) (evs : list event) (l : list string) : Prop := forall p, In p l <-> exists owner, service owner = true /\ In (EPtr owner p) evs.
Definition Recs (evs : list event) (st : disc) : Prop := srv_ok evs st /\ txt_ok evs st /\ adr_ok evs st.

Lemma store_recs evs st e : Recs evs st -> Recs (evs ++ [e]) (store st e).
Proof.
  intros [[S1 [S2 S3]] [[T1 [T2 T3]] [A1 A2]]]. unfold Recs, srv_ok, txt_ok, adr_ok, last_srv, last_txt, ips_of in *.
  assert (IA : forall t, flat_map (fun e => match e with EA o ip => if String.eqb o t then [ip] else [] | _ => [] end) (evs ++ [e]) = flat_map (fun e => match e with EA o ip => if String.eqb o t then [ip] else [] | _ => [] end) evs ++ match e with EA o ip => if String.eqb o t then [ip] else [] | _ => [] end) by (intros t; rewrite flat_map_app; cbn; rewrite app_nil_r; reflexivity).
  assert (IS : forall it, fold_left (fun acc e => match e with ESrv o p t => if String.eqb o it then Some (p, t) else acc | _ => acc end) (evs ++ [e]) None = match e with ESrv o p t => if String.eqb o it then Some (p, t) else fold_left (fun acc e => match e with ESrv o p t => if String.eqb o it then Some (p, t) else acc | _ => acc end) evs None | _ => fold_left (fun acc e => match e with ESrv o p t => if String.eqb o it then Some (p, t) else acc | _ => acc end) evs None end) by (intros it; rewrite fold_left_app; reflexivity).
  assert (IT : forall it k, fold_left (fun acc e => match e with ETxt o k' v => if String.eqb o it && String.eqb k' k then Some v else acc | _ => acc end) (evs ++ [e]) None = match e with ETxt o k' v => if String.eqb o it && String.eqb k' k then Some v else fold_left (fun acc e => match e with ETxt o k' v => if String.eqb o it && String.eqb k' k then Some v else acc | _ => acc end) evs None | _ => fold_left (fun acc e => match e with ETxt o k' v => if String.eqb o it && String.eqb k' k then Some v else acc | _ => acc end) evs None end) by (intros it k; rewrite fold_left_app; reflexivity).
  destruct e as [o n|o k v|o p t|o ip]; cbn [store ports targets txts addrs].
  - split; [split; [exact S1|split; [exact S2|]]|split; [split; [exact T1|split; [exact T2|]]|split; [exact A1|]]].
    + intros it. rewrite IS. apply S3. + intros it k'. rewrite IT. apply T3. + intros t. rewrite IA, app_nil_r. apply A2.
  - split; [split; [exact S1|split; [exact S2|]]|split; [split; [apply set_sorted, T1|split]|split; [exact A1|]]].
    + intros it. rewrite IS. apply S3.
    + intros it m. rewrite map_get_set by exact T1. destruct (String.eqb_spec it o) as [->|_]; [|apply T2]. intros H. injection H as <-. apply set_sorted. destruct (map_get o (txts st)) as [m|] eqn:G; [exact (T2 _ _ G)|exact I].
    + intros it k'. rewrite IT, map_get_set by exact T1. rewrite (String.eqb_sym o it). destruct (String.eqb_spec it o) as [->|_]; cbn [andb]; [|apply T3]. rewrite <- T3, map_get_set by (destruct (map_get o (txts st)) as [m|] eqn:G; [exact (T2 _ _ G)|exact I]). rewrite (String.eqb_sym k k'). destruct (String.eqb k' k); [reflexivity|]. destruct (map_get o (txts st)); reflexivity.
    + intros t. rewrite IA, app_nil_r. apply A2.
  - split; [split; [apply set_sorted, S1|split; [apply set_sorted, S2|]]|split; [split; [exact T1|split; [exact T2|]]|split; [exact A1|]]].
    + intros it. rewrite IS, !map_get_set by assumption. rewrite (String.eqb_sym o it). destruct (String.eqb it o); [split; reflexivity|apply S3].
    + intros it k'. rewrite IT. apply T3.
    + intros t'. rewrite IA, app_nil_r. apply A2.
  - split; [split; [exact S1|split; [exact S2|]]|split; [split; [exact T1|split; [exact T2|]]|split; [apply set_sorted, A1|]]].
    + intros it. rewrite IS. apply S3.
    + intros it k'. rewrite IT. apply T3.
    + intros t. rewrite IA, map_get_set by exact A1. rewrite (String.eqb_sym o t). destruct (String.eqb_spec t o) as [->|_]; [rewrite <- A2; reflexivity|rewrite app_nil_r; apply A2].
Qed.
Lemma store_all ev : forall evs st, Recs evs st -> Recs (evs ++ ev) (fold_left store ev st).
Proof. induction ev as [|e ev IH]; intros evs st R; cbn [fold_left]; [rewrite app_nil_r; exact R|]. replace (evs ++ e :: ev) with ((evs ++ [e]) ++ ev) by (rewrite <- app_assoc; reflexivity). apply IH, store_recs, R. Qed.
Lemma store_same ev : forall st, ippPtrs (fold_left store ev st) = ippPtrs st /\ ippsPtrs (fold_left store ev st) = ippsPtrs st /\ found (fold_left store ev st) = found st /\ outstanding (fold_left store ev st) = outstanding st /\ clock_calls (fold_left store ev st) = clock_calls st.
Proof. induction ev as [|e ev IH]; intros st; cbn [fold_left]; [auto|]. destruct (IH (store st e)) as [-> [-> [-> [-> ->]]]]. destruct e; cbn; auto. Qed.
(** what querying changes *)
Definition quiet (st st' : disc) : Prop := ippPtrs st' = ippPtrs st /\ ippsPtrs st' = ippsPtrs st /\ txts st' = txts st /\ ports st' = ports st /\ targets st' = targets st /\ addrs st' = addrs st /\ found st' = found st.
Lemma send_quiet clock st qtype names st' acts : send_query clock st qtype names = Ok (st', acts) -> quiet st st' /\ reported acts = [].
Proof.
  unfold send_query. destruct (existsb _ _); [discriminate|]. destruct (filter _ names); intros H; injection H as <- <-; (split; [unfold quiet; cbn; auto 10|reflexivity]).
Qed.
Definition known (st st' : disc) : Prop := txts st' = txts st /\ ports st' = ports st /\ targets st' = targets st /\ addrs st' = addrs st /\ found st' = found st.
Lemma mem_In x l : mem x l = true <-> In x l.
Proof. unfold mem. rewrite existsb_exists. split; [intros [y [H E]]; apply String.eqb_eq in E; congruence|intros H; exists x; split; [exact H|apply String.eqb_refl]]. Qed.
Lemma reported_app a b : reported (a ++ b) = reported a ++ reported b.
Proof. apply flat_map_app. Qed.
Lemma query_ptrs clock secure news : forall st st' acts, update_and_query clock secure st news = Ok (st', acts) ->
  known st st' /\ reported acts = [] /\ ptrs_of (negb secure) st' = ptrs_of (negb secure) st /\ (forall p, In p (ptrs_of secure st') <-> In p (ptrs_of secure st) \/ In p news).
Proof.
  induction news as [|n news IH]; intros st st' acts H; cbn [update_and_query] in H.
  - injection H as <- <-. split; [unfold known; auto 10|]. split; [reflexivity|]. split; [reflexivity|]. intros p. cbn. tauto.
  - destruct (mem n (ptrs_of secure st)) eqn:M.
    + destruct (IH _ _ _ H) as [I1 [I2 [I3 I4]]]. split; [exact I1|]. split; [exact I2|]. split; [exact I3|]. intros p. rewrite I4. cbn [In]. apply mem_In in M. split; [tauto|]. intros [K|[<-|K]]; auto.
    + set (st0 := add_ptr secure st n) in *.
      inv_bind H st1 a1 E1. inv_bind H st2 a2 E2. inv_bind H st3 a3 E3. injection H as <- <-.
      assert (Q1 : quiet st0 st1 /\ reported a1 = []). { destruct (map_has n (txts st0)); [injection E1 as <- <-; split; [unfold quiet; auto 10|reflexivity]|exact (send_quiet _ _ _ _ _ _ E1)]. }
      assert (Q2 : quiet st1 st2 /\ reported a2 = []). { destruct (map_has n (targets st1) && map_has n (ports st1)); [injection E2 as <- <-; split; [unfold quiet; auto 10|reflexivity]|exact (send_quiet _ _ _ _ _ _ E2)]. }
      destruct Q1 as [Q1 R1]. destruct Q2 as [Q2 R2]. destruct (IH _ _ _ E3) as [I1 [I2 [I3 I4]]]. unfold quiet, known in *. destruct Q1 as [Q11 [Q12 [Q13 [Q14 [Q15 [Q16 Q17]]]]]]. destruct Q2 as [Q21 [Q22 [Q23 [Q24 [Q25 [Q26 Q27]]]]]]. destruct I1 as [I11 [I12 [I13 [I14 I15]]]].
      split; [rewrite I11, I12, I13, I14, I15, Q23, Q24, Q25, Q26, Q27, Q13, Q14, Q15, Q16, Q17; unfold st0, add_ptr; cbn; auto 10|]. split; [rewrite !reported_app, R1, R2, I2; reflexivity|].
      destruct secure; cbn [negb ptrs_of] in *; rewrite ?I3; (split; [rewrite ?Q21, ?Q22, ?Q11, ?Q12; reflexivity|]); intros p; rewrite I4, ?Q21, ?Q22, ?Q11, ?Q12; unfold st0, add_ptr; cbn [ippPtrs ippsPtrs]; rewrite in_app_iff; cbn [In]; tauto.
Qed.

(** ** Reporting *)
Lemma ends_excl s : string_ends_with s "_ipps._tcp.local" = true -> is_ipp s = false.
Proof.
  intros H. destruct (is_ipp s) eqn:E; [|reflexivity]. exfalso. unfold is_ipp in E. apply ends_with_spec in H, E. destruct H as [t ->]. destruct E as [u E].
  change "_ipps._tcp.local"%string with ("_" ++ "ipps._tcp.local")%string in E. rewrite <- app_s_assoc in E. apply app_s_inj in E; [destruct E; discriminate|]. apply (f_equal String.length) in E. rewrite !length_app_s in E. cbn in E. rewrite length_app_s. cbn. lia.
Qed.
Lemma is_ipps_spec s : is_ipps s = true <-> ends_with s "_ipps._tcp.local".
Proof. unfold is_ipps, ends_with. rewrite <- ends_with_spec. split; [intros H; apply andb_prop in H; apply H|]. intros H. rewrite H, (ends_excl s H). reflexivity. Qed.
Lemma is_ipp_spec s : is_ipp s = true <-> ends_with s "_ipp._tcp.local".
Proof. apply ends_with_spec. Qed.
(** what is known about a pointer *)
Definition resolved (evs : list event) (ptr : string) (port : Z) (ip rp : string) : Prop :=
  exists target, last_srv ptr evs = Some (port, target) /\ last_txt ptr "rp" evs = Some rp /\ In ip (ips_of target evs).
Lemma resolve_spec evs st it : Recs evs st -> match resolve st it with
  | Some (port, ips, rp) => forall port' ip rp', resolved evs it port' ip rp' <-> port' = port /\ In ip ips /\ rp' = rp
  | None => forall port ip rp, ~ resolved evs it port ip rp end.
Proof.
  intros [[S1 [S2 S3]] [[T1 [T2 T3]] [A1 A2]]]. unfold resolve, resolved. destruct (S3 it) as [-> ->]. specialize (T3 it "rp"%string).
  destruct (last_srv it evs) as [[p t]|]; cbn [option_map fst snd]; [|intros ? ? ? [? [? _]]; discriminate].
  destruct (map_get it (txts st)) as [m|]; [|intros ? ? ? [? [_ [K _]]]; congruence]. rewrite T3. destruct (last_txt it "rp" evs) as [rp|]; [|intros ? ? ? [? [_ [K _]]]; discriminate].
  specialize (A2 t). destruct (map_get t (addrs st)) as [l|].
  - intros port' ip rp'. rewrite A2. split; [intros [target [K1 [K2 K3]]]; injection K1 as <- <-; injection K2 as <-; auto|intros [-> [K ->]]; exists t; auto].
  - intros port ip rp' [target [K1 [_ K3]]]. injection K1 as <- <-. rewrite <- A2 in K3. destruct K3.
Qed.
Lemma NoDup_snoc {A} (l : list A) x : NoDup l -> ~ In x l -> NoDup (l ++ [x]).
Proof. intros N H. apply NoDup_rev in N. rewrite <- (rev_involutive l) in H. rewrite <- in_rev in H. rewrite <- (rev_involutive (l ++ [x])), rev_app_distr. apply NoDup_rev. constructor; [exact H|exact N]. Qed.
Lemma ipps_ips_spec port rp ips : forall fnd pairs fnd' pairs', ipps_ips port rp ips fnd pairs = (fnd', pairs') -> NoDup fnd ->
  NoDup fnd' /\ exists new, fnd' = fnd ++ map (fun ip => make_ipps_addr port ip rp) new /\ pairs' = pairs ++ map (fun ip => (ip, rp)) new /\ incl new ips /\ forall ip, In ip ips -> In (make_ipps_addr port ip rp) fnd'.
Proof.
  induction ips as [|ip ips IH]; intros fnd pairs fnd' pairs' H N; cbn [ipps_ips] in H.
  - injection H as <- <-. split; [exact N|]. exists []. rewrite !app_nil_r. repeat split; [intros x []|intros x []].
  - destruct (mem (make_ipps_addr port ip rp) fnd) eqn:M.
    + destruct (IH _ _ _ _ H N) as [I1 [new [I2 [I3 [I4 I5]]]]]. split; [exact I1|]. exists new. split; [exact I2|]. split; [exact I3|]. split; [intros x X; right; apply I4, X|]. intros x [<-|X]; [|apply I5, X]. rewrite I2. apply in_or_app. left. apply mem_In, M.
    + assert (N' : NoDup (fnd ++ [make_ipps_addr port ip rp])). { apply NoDup_snoc; [exact N|]. intros K. apply mem_In in K. congruence. }
      destruct (IH _ _ _ _ H N') as [I1 [new [I2 [I3 [I4 I5]]]]]. split; [exact I1|]. exists (ip :: new). rewrite <- app_assoc in I2, I3. split; [exact I2|]. split; [exact I3|]. split; [intros x [<-|X]; [left; reflexivity|right; apply I4, X]|]. intros x [<-|X]; [|apply I5, X]. rewrite I2. apply in_or_app. right. left. reflexivity.
Qed.

Lemma ipps_loop_spec evs st its : Recs evs st -> forall fnd pairs fnd' pairs', ipps_loop st its fnd pairs = (fnd', pairs') -> NoDup fnd ->
  NoDup fnd' /\ exists new, fnd' = fnd ++ map (fun x => make_ipps_addr (fst (fst x)) (snd (fst x)) (snd x)) new /\ pairs' = pairs ++ map (fun x => (snd (fst x), snd x)) new /\
  (forall port ip rp, In (port, ip, rp) new -> exists it, In it its /\ resolved evs it port ip rp) /\ forall it port ip rp, In it its -> resolved evs it port ip rp -> In (make_ipps_addr port ip rp) fnd'.
Proof.
  intros R. induction its as [|it its IH]; intros fnd pairs fnd' pairs' H N; cbn [ipps_loop] in H.
  - injection H as <- <-. split; [exact N|]. exists []. cbn [map]. rewrite !app_nil_r. split; [reflexivity|]. split; [reflexivity|]. split; [intros ? ? ? []|intros ? ? ? ? []].
  - pose proof (resolve_spec evs st it R) as RS. destruct (resolve st it) as [[[port ips] rp]|].
    + destruct (ipps_ips port rp ips fnd pairs) as [f1 p1] eqn:E1. destruct (ipps_ips_spec _ _ _ _ _ _ _ E1 N) as [N1 [n1 [-> [-> [L1 C1]]]]]. destruct (IH _ _ _ _ H N1) as [N2 [n2 [-> [-> [L2 C2]]]]]. split; [exact N2|].
      exists (map (fun ip => (port, ip, rp)) n1 ++ n2). rewrite !map_app, !map_map, <- !app_assoc. cbn [fst snd]. split; [reflexivity|]. split; [reflexivity|]. split.
      * intros port' ip rp' K. apply in_app_or in K. destruct K as [K|K]; [|destruct (L2 _ _ _ K) as [x [X1 X2]]; exists x; split; [right; exact X1|exact X2]]. apply in_map_iff in K. destruct K as [ip' [K1 K2]]. injection K1 as <- <- <-. exists it. split; [left; reflexivity|]. apply RS. auto.
      * intros it' port' ip rp' [<-|X] Y; [|rewrite app_assoc; exact (C2 _ _ _ _ X Y)]. apply RS in Y. destruct Y as [-> [Y ->]]. rewrite app_assoc. apply in_or_app. left. apply C1, Y.
    + destruct (IH _ _ _ _ H N) as [N2 [n2 [-> [-> [L2 C2]]]]]. split; [exact N2|]. exists n2. split; [reflexivity|]. split; [reflexivity|]. split.
      * intros port ip rp K. destruct (L2 _ _ _ K) as [x [X1 X2]]. exists x. split; [right; exact X1|exact X2].
      * intros it' port ip rp [<-|X] Y; [destruct (RS _ _ _ Y)|exact (C2 _ _ _ _ X Y)].
Qed.
Lemma pair_mem_In ip rp pairs : pair_mem ip rp pairs = true <-> In (ip, rp) pairs.
Proof. unfold pair_mem. rewrite existsb_exists. split; [intros [[a b] [H E]]; cbn in E; apply andb_prop in E; destruct E as [E1 E2]; apply String.eqb_eq in E1, E2; congruence|intros H; exists (ip, rp); split; [exact H|cbn; rewrite !String.eqb_refl; reflexivity]]. Qed.
Lemma ipp_ips_spec port rp ips pairs : forall fnd, NoDup fnd ->
  NoDup (ipp_ips port rp ips fnd pairs) /\ exists new, ipp_ips port rp ips fnd pairs = fnd ++ map (fun ip => make_ipp_addr port ip rp) new /\ incl new ips /\ (forall ip, In ip new -> ~ In (ip, rp) pairs) /\
  forall ip, In ip ips -> In (make_ipp_addr port ip rp) (ipp_ips port rp ips fnd pairs) \/ In (ip, rp) pairs.
Proof.
  induction ips as [|ip ips IH]; intros fnd N; cbn [ipp_ips].
  - split; [exact N|]. exists []. rewrite app_nil_r. split; [reflexivity|]. split; [intros x []|]. split; [intros x []|intros x []].
  - destruct (mem (make_ipp_addr port ip rp) fnd) eqn:M; [|destruct (pair_mem ip rp pairs) eqn:P]; cbn [negb andb].
    + destruct (IH _ N) as [I1 [new [I2 [I3 [I4 I5]]]]]. split; [exact I1|]. exists new. split; [exact I2|]. split; [intros x X; right; apply I3, X|]. split; [exact I4|]. intros x [<-|X]; [|apply I5, X]. left. rewrite I2. apply in_or_app. left. apply mem_In, M.
    + destruct (IH _ N) as [I1 [new [I2 [I3 [I4 I5]]]]]. split; [exact I1|]. exists new. split; [exact I2|]. split; [intros x X; right; apply I3, X|]. split; [exact I4|]. intros x [<-|X]; [|apply I5, X]. right. apply pair_mem_In, P.
    + assert (N' : NoDup (fnd ++ [make_ipp_addr port ip rp])). { apply NoDup_snoc; [exact N|]. intros K. apply mem_In in K. congruence. }
      destruct (IH _ N') as [I1 [new [I2 [I3 [I4 I5]]]]]. split; [exact I1|]. exists (ip :: new). split; [rewrite I2, <- app_assoc; reflexivity|]. split; [intros x [<-|X]; [left; reflexivity|right; apply I3, X]|].
      split; [intros x [<-|X]; [intros K; apply pair_mem_In in K; congruence|apply I4, X]|]. intros x [<-|X]; [|apply I5, X]. left. rewrite I2. apply in_or_app. left. apply in_or_app. right. left. reflexivity.
Qed.
Lemma ipp_loop_spec evs st its pairs : Recs evs st -> forall fnd, NoDup fnd ->
  NoDup (ipp_loop st its fnd pairs) /\ exists new, ipp_loop st its fnd pairs = fnd ++ map (fun x => make_ipp_addr (fst (fst x)) (snd (fst x)) (snd x)) new /\
  (forall port ip rp, In (port, ip, rp) new -> ~ In (ip, rp) pairs /\ exists it, In it its /\ resolved evs it port ip rp) /\
  forall it port ip rp, In it its -> resolved evs it port ip rp -> In (make_ipp_addr port ip rp) (ipp_loop st its fnd pairs) \/ In (ip, rp) pairs.
Proof.
  intros R. induction its as [|it its IH]; intros fnd N; cbn [ipp_loop].
  - split; [exact N|]. exists []. cbn [map]. rewrite !app_nil_r. split; [reflexivity|]. split; [intros ? ? ? []|intros ? ? ? ? []].
  - pose proof (resolve_spec evs st it R) as RS. destruct (resolve st it) as [[[port ips] rp]|].
    + destruct (ipp_ips_spec port rp ips pairs _ N) as [N1 [n1 [E1 [L1 [P1 C1]]]]]. destruct (IH _ N1) as [N2 [n2 [E2 [L2 C2]]]]. split; [exact N2|].
      exists (map (fun ip => (port, ip, rp)) n1 ++ n2). rewrite !map_app, !map_map. cbn [fst snd]. split; [rewrite E2, E1, <- app_assoc; reflexivity|]. split.
      * intros port' ip rp' K. apply in_app_or in K. destruct K as [K|K]; [|destruct (L2 _ _ _ K) as [Y [x [X1 X2]]]; split; [exact Y|]; exists x; split; [right; exact X1|exact X2]]. apply in_map_iff in K. destruct K as [ip' [K1 K2]]. injection K1 as <- <- <-. split; [exact (P1 _ K2)|]. exists it. split; [left; reflexivity|]. apply RS. auto.
      * intros it' port' ip rp' [<-|X] Y; [|exact (C2 _ _ _ _ X Y)]. apply RS in Y. destruct Y as [-> [Y ->]]. destruct (C1 _ Y) as [K|K]; [left; rewrite E2; apply in_or_app; left; exact K|right; exact K].
    + destruct (IH _ N) as [N2 [n2 [E2 [L2 C2]]]]. split; [exact N2|]. exists n2. split; [exact E2|]. split.
      * intros port ip rp K. destruct (L2 _ _ _ K) as [Y [x [X1 X2]]]. split; [exact Y|]. exists x. split; [right; exact X1|exact X2].
      * intros it' port ip rp [<-|X] Y; [destruct (RS _ _ _ Y)|exact (C2 _ _ _ _ X Y)].
Qed.

(** ** The invariant of a session *)
Definition Inv (evs : list event) (st : disc) : Prop :=
  Recs evs st /\ ptr_ok is_ipp evs (ippPtrs st) /\ ptr_ok is_ipps evs (ippsPtrs st) /\ NoDup (found st).
(** a resolved printer of a service *)
Definition printer (service : string -> bool) (evs : list event) (port : Z) (ip rp : string) : Prop :=
  exists owner ptr, service owner = true /\ In (EPtr owner ptr) evs /\ resolved evs ptr port ip rp.
Lemma update_spec evs st st' acts : Inv evs st -> update st = (st', acts) ->
  Inv evs st' /\ found st' = found st ++ reported acts /\ outstanding st' = outstanding st /\ clock_calls st' = clock_calls st /\ exists s p,
  reported acts = map (fun x => make_ipps_addr (fst (fst x)) (snd (fst x)) (snd x)) s ++ map (fun x => make_ipp_addr (fst (fst x)) (snd (fst x)) (snd x)) p /\
  (forall port ip rp, In (port, ip, rp) s -> printer is_ipps evs port ip rp) /\
  (forall port ip rp, In (port, ip, rp) p -> printer is_ipp evs port ip rp /\ forall port', ~ In (port', ip, rp) s) /\
  (forall port ip rp, printer is_ipps evs port ip rp -> In (make_ipps_addr port ip rp) (found st')) /\
  (forall port ip rp, printer is_ipp evs port ip rp -> In (make_ipp_addr port ip rp) (found st') \/ exists port', In (make_ipps_addr port' ip rp) (found st') /\ printer is_ipps evs port' ip rp).
Proof.
  intros [R [PI [PS N]]] H. unfold update in H. destruct (ipps_loop st (ippsPtrs st) (found st) []) as [f1 pairs] eqn:E1. destruct (ipps_loop_spec evs st _ R _ _ _ _ E1 N) as [N1 [s [-> [-> [L1 C1]]]]]. cbn [app] in H.
  destruct (ipp_loop_spec evs st (ippPtrs st) (map (fun x => (snd (fst x), snd x)) s) R _ N1) as [N2 [p [E2 [L2 C2]]]]. injection H as <- <-. cbn [found outstanding clock_calls].
  rewrite E2 in *. rewrite <- app_assoc in *. assert (RA : reported (map Reported (skipn (length (found st)) (found st ++ map (fun x => make_ipps_addr (fst (fst x)) (snd (fst x)) (snd x)) s ++ map (fun x => make_ipp_addr (fst (fst x)) (snd (fst x)) (snd x)) p))) = map (fun x => make_ipps_addr (fst (fst x)) (snd (fst x)) (snd x)) s ++ map (fun x => make_ipp_addr (fst (fst x)) (snd (fst x)) (snd x)) p).
  { rewrite skipn_app, skipn_all, Nat.sub_diag. cbn [app skipn]. generalize (map (fun x => make_ipps_addr (fst (fst x)) (snd (fst x)) (snd x)) s ++ map (fun x => make_ipp_addr (fst (fst x)) (snd (fst x)) (snd x)) p). intros l. unfold reported. induction l; cbn; congruence. }
  rewrite RA. split; [split; [exact R|split; [exact PI|split; [exact PS|exact N2]]]|]. split; [reflexivity|]. split; [reflexivity|]. split; [reflexivity|]. exists s, p. split; [reflexivity|].
  assert (SS : forall port ip rp, In (port, ip, rp) s -> printer is_ipps evs port ip rp). { intros port ip rp K. destruct (L1 _ _ _ K) as [it [K1 K2]]. apply PS in K1. destruct K1 as [o [O1 O2]]. exists o, it. auto. }
  split; [exact SS|]. split.
  { intros port ip rp K. destruct (L2 _ _ _ K) as [X [it [K1 K2]]]. apply PI in K1. destruct K1 as [o [O1 O2]]. split; [exists o, it; auto|]. intros port' Y. apply X. apply in_map_iff. exists (port', ip, rp). auto. }
  split.
  { intros port ip rp [o [ptr [O1 [O2 O3]]]]. rewrite app_assoc. apply in_or_app. left. apply (C1 ptr); [|exact O3]. apply PS. exists o. auto. }
  intros port ip rp [o [ptr [O1 [O2 O3]]]]. destruct (C2 ptr _ _ _ (proj2 (PI ptr) (ex_intro _ o (conj O1 O2))) O3) as [K|K]; [left; exact K|right].
  apply in_map_iff in K. destruct K as [[[port' ip'] rp'] [K1 K2]]. cbn in K1. injection K1 as -> ->. exists port'. split; [|exact (SS _ _ _ K2)]. apply in_or_app. right. apply in_or_app. left. apply in_map_iff. exists (port', ip, rp). auto.
Qed.
Lemma new_ptrs_In service ev p : In p (new_ptrs service ev) <-> exists owner, service owner = true /\ In (EPtr owner p) ev.
Proof.
  unfold new_ptrs. rewrite in_flat_map. split.
  - intros [e [H1 H2]]. destruct e as [o n| | |]; try destruct H2. destruct (service o) eqn:E; [|destruct H2]. destruct H2 as [<-|[]]. exists o. auto.
  - intros [o [E H]]. exists (EPtr o p). split; [exact H|]. rewrite E. left. reflexivity.
Qed.
Lemma recs_known evs st st' : known st st' -> Recs evs st -> Recs evs st'.
Proof. unfold known, Recs, srv_ok, txt_ok, adr_ok. intros [-> [-> [-> [-> _]]]]. auto. Qed.
Lemma quiet_known st st' : quiet st st' -> known st st'.
Proof. unfold quiet, known. tauto. Qed.
Lemma ptr_ok_snoc service evs l ev l' : ptr_ok service evs l -> (forall p, In p l' <-> In p l \/ In p (new_ptrs service ev)) -> ptr_ok service (evs ++ ev) l'.
Proof.
  intros H K p. rewrite K, (H p), new_ptrs_In. split.
  - intros [[o [A B]]|[o [A B]]]; exists o; (split; [exact A|]); apply in_or_app; auto.
  - intros [o [A B]]. apply in_app_or in B. destruct B as [B|B]; [left|right]; exists o; auto.
Qed.
Lemma receive_inv clock st d st' acts : receive clock st d = Ok (st', acts) -> exists st1 a1 st2 a2 st3 a3 a4,
  update_and_query clock true (fold_left store (fst (parse d)) st) (new_ptrs is_ipps (fst (parse d))) = Ok (st1, a1) /\
  update_and_query clock false st1 (new_ptrs is_ipp (fst (parse d))) = Ok (st2, a2) /\ quiet st2 st3 /\ reported a3 = [] /\
  update st3 = (st', a4) /\ acts = a1 ++ a2 ++ a3 ++ a4.
Proof.
  unfold receive. destruct (parse d) as [ev o]. cbn [fst snd]. intros H.
  assert (H' : (let! (st, a1) := update_and_query clock true (fold_left store ev st) (new_ptrs is_ipps ev) in
      let! (st, a2) := update_and_query clock false st (new_ptrs is_ipp ev) in
      let unresolved := filter (fun t => negb (map_has t (addrs st))) (new_targets [] ev) in
      let! (st, a3) := match unresolved with [] => Ok (st, []) | _ => send_query clock st 1 unresolved end in
      let (st, a4) := update st in
      Ok (st, a1 ++ a2 ++ a3 ++ a4)) = Ok (st', acts)) by (destruct o; (exact H || discriminate H)). clear H. rename H' into H.
  inv_bind H st1 a1 E1. inv_bind H st2 a2 E2. cbv zeta in H. inv_bind H st3 a3 E3. destruct (update st3) as [st4 a4] eqn:E4. injection H as <- <-.
  exists st1, a1, st2, a2, st3, a3, a4. split; [first [exact E1|reflexivity]|]. split; [first [exact E2|reflexivity]|].
  assert (Q : quiet st2 st3 /\ reported a3 = []) by (destruct (filter _ _); [injection E3 as <- <-; split; [unfold quiet; auto 10|reflexivity]|exact (send_quiet _ _ _ _ _ _ E3)]).
  split; [apply Q|]. split; [apply Q|]. split; [exact E4|reflexivity].
Qed.
Lemma receive_spec clock evs st d st' acts : Inv evs st -> receive clock st d = Ok (st', acts) ->
  exists st3 a4, Inv (evs ++ fst (parse d)) st3 /\ found st3 = found st /\ update st3 = (st', a4) /\ reported acts = reported a4.
Proof.
  intros [R [PI [PS N]]] H. apply receive_inv in H. destruct H as [st1 [a1 [st2 [a2 [st3 [a3 [a4 [E1 [E2 [Q [R3 [U ->]]]]]]]]]]]].
  destruct (store_same (fst (parse d)) st) as [S1 [S2 [S3 _]]]. pose proof (store_all (fst (parse d)) _ _ R) as R0.
  destruct (query_ptrs _ _ _ _ _ _ E1) as [K1 [R1 [O1 P1]]]. destruct (query_ptrs _ _ _ _ _ _ E2) as [K2 [R2 [O2 P2]]]. cbn [negb ptrs_of] in *.
  exists st3, a4. split; [|split; [|split; [exact U|rewrite !reported_app, R1, R2, R3; reflexivity]]].
  - pose proof Q as [Q1 [Q2 [_ [_ [_ [_ Q7]]]]]]. split; [|split; [|split]].
    + apply (recs_known _ st2); [apply quiet_known, Q|]. apply (recs_known _ st1); [exact K2|]. apply (recs_known _ _ st1 K1), R0.
    + rewrite Q1. apply (ptr_ok_snoc _ _ (ippPtrs st)); [exact PI|]. intros p. rewrite P2, O1, S1. reflexivity.
    + rewrite Q2, O2. apply (ptr_ok_snoc _ _ (ippsPtrs st)); [exact PS|]. intros p. rewrite P1, S2. reflexivity.
    + destruct K1 as [_ [_ [_ [_ K1]]]]. destruct K2 as [_ [_ [_ [_ K2]]]]. rewrite Q7, K2, K1, S3. exact N.
  - destruct Q as [_ [_ [_ [_ [_ [_ Q7]]]]]]. destruct K1 as [_ [_ [_ [_ K1]]]]. destruct K2 as [_ [_ [_ [_ K2]]]]. rewrite Q7, K2, K1, S3. reflexivity.
Qed.
(** a printer of the service the records so far tell of *)
Definition backed_by (evs : list event) (a : string) : Prop :=
  exists evs' rest port ip rp, evs = evs' ++ rest /\ ((printer is_ipp evs' port ip rp /\ a = make_ipp_addr port ip rp) \/ (printer is_ipps evs' port ip rp /\ a = make_ipps_addr port ip rp)).
Lemma backed_by_more evs ev a : backed_by evs a -> backed_by (evs ++ ev) a.
Proof. intros [evs' [rest [port [ip [rp [-> H]]]]]]. exists evs', (rest ++ ev), port, ip, rp. rewrite app_assoc. auto. Qed.
Definition complete (evs : list event) (fnd : list string) : Prop :=
  (forall port ip rp, printer is_ipps evs port ip rp -> In (make_ipps_addr port ip rp) fnd) /\
  (forall port ip rp, printer is_ipp evs port ip rp -> In (make_ipp_addr port ip rp) fnd \/ exists port', In (make_ipps_addr port' ip rp) fnd /\ printer is_ipps evs port' ip rp).
Lemma receive_all_spec clock ds : forall evs st st' acts, Inv evs st -> receive_all clock st ds = Ok (st', acts) ->
  Inv (evs ++ all_events ds) st' /\ found st' = found st ++ reported acts /\ Forall (backed_by (evs ++ all_events ds)) (reported acts) /\ (complete evs (found st) -> complete (evs ++ all_events ds) (found st')).
Proof.
  induction ds as [|d ds IH]; intros evs st st' acts I H; cbn [receive_all all_events flat_map] in *.
  - injection H as <- <-. cbn. rewrite !app_nil_r. split; [exact I|]. split; [reflexivity|]. split; [constructor|auto].
  - inv_bind H st1 a1 E1. inv_bind H st2 a2 E2. injection H as <- <-. destruct (receive_spec _ _ _ _ _ _ I E1) as [st3 [a4 [I3 [F3 [U RA]]]]]. destruct (update_spec _ _ _ _ I3 U) as [I1 [F1 [_ [_ [s [p [E [B1 [B2 [C1 C2]]]]]]]]]].
    destruct (IH _ _ _ _ I1 E2) as [I2 [F2 [B C]]]. rewrite <- app_assoc in *. fold (all_events ds) in *. split; [exact I2|]. rewrite reported_app, RA. split; [rewrite F2, F1, F3, app_assoc; reflexivity|]. split.
    + apply Forall_app. split; [|exact B]. rewrite E. apply Forall_forall. intros a K. rewrite app_assoc. apply backed_by_more. apply in_app_or in K. destruct K as [K|K]; apply in_map_iff in K; destruct K as [[[port ip] rp] [<- K]]; cbn [fst snd]; exists (evs ++ fst (parse d)), [], port, ip, rp; (split; [rewrite app_nil_r; reflexivity|]).
      * right. split; [exact (B1 _ _ _ K)|reflexivity].
      * left. split; [exact (proj1 (B2 _ _ _ K))|reflexivity].
    + intros _. apply C. split; [exact C1|exact C2].
Qed.
Lemma start_inv clock st a : send_query clock start 12 ["_ipp._tcp.local"; "_ipps._tcp.local"]%string = Ok (st, a) -> Inv [] st /\ found st = [] /\ reported a = [].
Proof.
  intros H. destruct (send_quiet _ _ _ _ _ _ H) as [[Q1 [Q2 [Q3 [Q4 [Q5 [Q6 Q7]]]]]] R]. split; [|split; [exact Q7|exact R]]. unfold Inv, Recs, srv_ok, txt_ok, adr_ok, ptr_ok. rewrite Q1, Q2, Q3, Q4, Q5, Q6, Q7. cbn.
  assert (P : forall (service : string -> bool) (p : string), False <-> exists owner : string, service owner = true /\ False) by (intros; split; [tauto|intros [? [_ []]]]).
  split; [split; [split; [exact I|split; [exact I|intros it; split; reflexivity]]|split; [split; [exact I|split; [intros ? ? ?; discriminate|reflexivity]]|split; [exact I|reflexivity]]]|]. split; [intros; apply (P is_ipp p)|]. split; [intros; apply (P is_ipps p)|constructor].
Qed.
Lemma complete_nil fnd : complete [] fnd.
Proof. split; intros port ip rp [o [ptr [_ [[] _]]]]. Qed.
Lemma discover_spec clock ds st acts : discover clock ds = Ok (st, acts) ->
  NoDup (reported acts) /\ Forall (backed_by (all_events ds)) (reported acts) /\ complete (all_events ds) (reported acts).
Proof.
  intros H. unfold discover in H. inv_bind H st1 a1 E1. inv_bind H st2 a2 E2. injection H as <- <-. destruct (start_inv _ _ _ E1) as [I [F R]]. destruct (receive_all_spec _ _ _ _ _ _ I E2) as [[_ [_ [_ N]]] [F2 [B C]]]. rewrite F in F2. cbn [app] in *.
  rewrite reported_app, R. cbn [app]. rewrite <- F2. split; [exact N|]. split; [rewrite F2; exact B|]. apply C. apply complete_nil.
Qed.
(** the latest records are among the records *)
Lemma last_srv_In it evs p t : last_srv it evs = Some (p, t) -> In (ESrv it p t) evs.
Proof.
  unfold last_srv. induction evs as [|e evs IH] using rev_ind; cbn; [discriminate|]. rewrite fold_left_app. cbn. intros H. apply in_or_app. destruct e; auto. destruct (String.eqb_spec owner it) as [->|_]; auto. injection H as -> ->. right. left. reflexivity.
Qed.
Lemma last_txt_In it k evs v : last_txt it k evs = Some v -> In (ETxt it k v) evs.
Proof.
  unfold last_txt. induction evs as [|e evs IH] using rev_ind; cbn; [discriminate|]. rewrite fold_left_app. cbn. intros H. apply in_or_app. destruct e; auto. destruct (String.eqb_spec owner it) as [->|_]; cbn [andb] in H; auto. destruct (String.eqb_spec key k) as [->|_]; auto. injection H as ->. right. left. reflexivity.
Qed.
Lemma ips_of_In t evs ip : In ip (ips_of t evs) <-> In (EA t ip) evs.
Proof.
  unfold ips_of. rewrite in_flat_map. split; [intros [e [H K]]; destruct e; try destruct K; destruct (String.eqb_spec owner t) as [->|_]; [|destruct K]; destruct K as [<-|[]]; exact H|intros H; exists (EA t ip); split; [exact H|rewrite String.eqb_refl; left; reflexivity]].
Qed.
Lemma events_received ds e : In e (all_events ds) -> received ds e.
Proof. unfold all_events. rewrite in_flat_map. intros [d [H K]]. pose proof (parse_sound d) as P. rewrite Forall_forall in P. destruct (P _ K) as [p Q]. exists d, p. auto. Qed.
Lemma make_addr_address scheme default port ip rp : 0 <= port -> address scheme default port ip rp (make_addr scheme default port ip rp).
Proof.
  intros P. unfold address, make_addr. exists (if port =? default then ""%string else (":" ++ dec_string port)%string). split; [|reflexivity]. destruct (port =? default); [reflexivity|]. exists (dec_string port). split; [|reflexivity]. apply dec_string_number. exact P.
Qed.

(** ** Time *)
Definition timed (clock : nat -> Z) (st : disc) : Prop := Forall (fun q => exists i, (i < clock_calls st)%nat /\ snd q = clock i) (outstanding st).
Definition prompt (clock : nat -> Z) : Prop := forall i j, (i <= j)%nat -> clock j <= clock i + 2.
Lemma asked_times (P : Z * string * Z -> Prop) qtype now names : (forall a, P (qtype, a, now)) -> forall q, Forall P q -> Forall P (fold_left (fun q a => if existsb (same_query qtype a) q then q else q ++ [(qtype, a, now)]) names q).
Proof. intros H. induction names as [|a names IH]; intros q Q; cbn [fold_left]; [exact Q|]. apply IH. destruct (existsb _ q); [exact Q|]. apply Forall_app. split; [exact Q|]. constructor; [apply H|constructor]. Qed.
Lemma send_prompt clock st qtype names : prompt clock -> timed clock st -> exists st' a, send_query clock st qtype names = Ok (st', a) /\ timed clock st'.
Proof.
  intros P T. unfold send_query. destruct (existsb _ _) eqn:E.
  { apply existsb_exists in E. destruct E as [q [Q E]]. unfold timed in T. rewrite Forall_forall in T. destruct (T q Q) as [i [I1 I2]]. unfold expired in E. specialize (P i (clock_calls st)). lia. }
  assert (T' : Forall (fun q => exists i, (i < S (clock_calls st))%nat /\ snd q = clock i) (outstanding st)) by (eapply Forall_impl; [|exact T]; intros q [i [I1 I2]]; exists i; split; [lia|exact I2]).
  destruct (filter _ names); eexists; eexists; (split; [reflexivity|]); unfold timed; cbn [outstanding clock_calls]; [exact T'|].
  apply (asked_times (fun q => exists i, (i < S (clock_calls st))%nat /\ snd q = clock i) qtype (clock (clock_calls st)) (s :: l)); [|exact T']. intros a. exists (clock_calls st). split; [lia|reflexivity].
Qed.
Lemma query_prompt clock secure news : prompt clock -> forall st, timed clock st -> exists st' a, update_and_query clock secure st news = Ok (st', a) /\ timed clock st'.
Proof.
  intros P. induction news as [|n news IH]; intros st T; cbn [update_and_query]; [exists st, []; auto|]. destruct (mem n _); [apply IH, T|]. cbv zeta.
  assert (T0 : timed clock (add_ptr secure st n)) by exact T. generalize dependent (add_ptr secure st n). intros st0 T0.
  destruct (if map_has n (txts st0) then Ok (st0, []) else send_query clock st0 16 [n]) as [[st1 a1]| | | |] eqn:E1;
    [|destruct (map_has n (txts st0)); [discriminate|destruct (send_prompt clock st0 16 [n] P T0) as [? [? [K _]]]; congruence]..].
  assert (T1 : timed clock st1) by (destruct (map_has n (txts st0)); [injection E1 as <- <-; exact T0|destruct (send_prompt clock st0 16 [n] P T0) as [? [? [K K']]]; assert (st1 = x) by congruence; subst; exact K']). cbn [bind].
  destruct (if map_has n (targets st1) && map_has n (ports st1) then Ok (st1, []) else send_query clock st1 33 [n]) as [[st2 a2]| | | |] eqn:E2;
    [|destruct (map_has n (targets st1) && map_has n (ports st1)); [discriminate|destruct (send_prompt clock st1 33 [n] P T1) as [? [? [K _]]]; congruence]..].
  assert (T2 : timed clock st2) by (destruct (map_has n (targets st1) && map_has n (ports st1)); [injection E2 as <- <-; exact T1|destruct (send_prompt clock st1 33 [n] P T1) as [? [? [K K']]]; assert (st2 = x) by congruence; subst; exact K']). cbn [bind].
  destruct (IH st2 T2) as [st3 [a3 [-> T3]]]. cbn [bind]. eexists. eexists. split; [reflexivity|exact T3].
Qed.
Lemma receive_prompt clock st d : prompt clock -> timed clock st -> exists st' a, receive clock st d = Ok (st', a) /\ timed clock st'.
Proof.
  intros P T. unfold receive. pose proof (parse_total d) as PT. destruct (parse d) as [ev o]. cbn [snd] in PT.
  assert (G : exists st' a, (let! (st, a1) := update_and_query clock true (fold_left store ev st) (new_ptrs is_ipps ev) in
      let! (st, a2) := update_and_query clock false st (new_ptrs is_ipp ev) in
      let unresolved := filter (fun t => negb (map_has t (addrs st))) (new_targets [] ev) in
      let! (st, a3) := match unresolved with [] => Ok (st, []) | _ => send_query clock st 1 unresolved end in
      let (st, a4) := update st in
      Ok (st, a1 ++ a2 ++ a3 ++ a4)) = Ok (st', a) /\ timed clock st').
  { assert (T0 : timed clock (fold_left store ev st)) by (unfold timed; destruct (store_same ev st) as [_ [_ [_ [-> ->]]]]; exact T).
    destruct (query_prompt clock true (new_ptrs is_ipps ev) P _ T0) as [st1 [a1 [-> T1]]]. cbn [bind]. destruct (query_prompt clock false (new_ptrs is_ipp ev) P _ T1) as [st2 [a2 [-> T2]]]. cbn [bind]. cbv zeta.
    assert (exists st3 a3, match filter (fun t => negb (map_has t (addrs st2))) (new_targets [] ev) with [] => Ok (st2, []) | _ => send_query clock st2 1 (filter (fun t => negb (map_has t (addrs st2))) (new_targets [] ev)) end = Ok (st3, a3) /\ timed clock st3) as [st3 [a3 [-> T3]]]
      by (destruct (filter _ _); [exists st2, []; auto|apply send_prompt; assumption]). cbn [bind].
    unfold update. destruct (ipps_loop _ _ _ _) as [fnd pairs]. eexists. eexists. split; [reflexivity|exact T3]. }
  destruct o; try contradiction; exact G.
Qed.
Lemma receive_all_prompt clock ds : prompt clock -> forall st, timed clock st -> exists st' a, receive_all clock st ds = Ok (st', a) /\ timed clock st'.
Proof.
  intros P. induction ds as [|d ds IH]; intros st T; cbn [receive_all]; [exists st, []; auto|]. destruct (receive_prompt clock st d P T) as [st1 [a1 [-> T1]]]. cbn [bind]. destruct (IH st1 T1) as [st2 [a2 [-> T2]]]. cbn [bind]. eexists. eexists. split; [reflexivity|exact T2].
Qed.
Lemma discover_prompt clock ds : prompt clock -> exists st a, discover clock ds = Ok (st, a).
Proof.
  intros P. unfold discover. destruct (send_prompt clock start 12 ["_ipp._tcp.local"; "_ipps._tcp.local"]%string P) as [st1 [a1 [-> T1]]]; [constructor|]. cbn [bind]. destruct (receive_all_prompt clock ds P st1 T1) as [st2 [a2 [-> _]]]. cbn [bind]. eexists. eexists. reflexivity.
Qed.

(** ** Addresses read back *)
Definition free (cs : ascii -> bool) (s : string) : Prop := Forall (fun c => cs c = false) (bytes_of_string s).
Lemma app_stop cs a : forall a' c c' r r', free cs a -> free cs a' -> cs c = true -> cs c' = true -> (a ++ String c r)%string = (a' ++ String c' r')%string -> a = a' /\ c = c' /\ r = r'.
Proof.
  unfold free. induction a as [|x a IH]; intros a' c c' r r' F F' C C' E; destruct a' as [|x' a']; cbn [append bytes_of_string] in *.
  - injection E as -> ->. auto.
  - injection E as -> _. inversion F'. congruence.
  - injection E as -> _. inversion F. congruence.
  - injection E as -> E. inversion F; subst. inversion F'; subst. destruct (IH _ _ _ _ _ H2 H4 C C' E) as [-> [-> ->]]. auto.
Qed.
Lemma number_free cs l v : (forall d, 0 <= d <= 9 -> cs (bZ (48 + d)) = false) -> number l v -> Forall (fun c => cs c = false) l.
Proof. intros H. induction 1; [repeat constructor; apply H; lia|]. apply Forall_app. split; [exact IHnumber|]. constructor; [apply H; lia|constructor]. Qed.
Definition stop_char (c : ascii) : bool := Ascii.eqb c ":" || Ascii.eqb c "/".
Lemma digit_not_stop d : 0 <= d <= 9 -> stop_char (bZ (48 + d)) = false.
Proof. intros D. assert (C : d = 0 \/ d = 1 \/ d = 2 \/ d = 3 \/ d = 4 \/ d = 5 \/ d = 6 \/ d = 7 \/ d = 8 \/ d = 9) by lia. repeat (destruct C as [->|C]; [reflexivity|]). subst. reflexivity. Qed.
Lemma bytes_app a b : bytes_of_string (a ++ b)%string = bytes_of_string a ++ bytes_of_string b.
Proof. unfold bytes_of_string. induction a as [|x a IH]; cbn; [reflexivity|]. rewrite IH. reflexivity. Qed.
Lemma ip_text_free a b c f ip : ip_text a b c f ip -> free stop_char ip.
Proof.
  intros [n1 [n2 [n3 [n4 [-> [N1 [N2 [N3 N4]]]]]]]]. unfold free. rewrite !bytes_app. apply (number_free stop_char) in N1, N2, N3, N4; try exact digit_not_stop.
  repeat (apply Forall_app; split); try assumption; repeat constructor.
Qed.
Lemma address_tail default port ip rp colon default' port' ip' rp' colon' :
  (if port =? default then colon = ""%string else exists n, number (bytes_of_string n) port /\ colon = (":" ++ n)%string) ->
  (if port' =? default' then colon' = ""%string else exists n, number (bytes_of_string n) port' /\ colon' = (":" ++ n)%string) ->
  free stop_char ip -> free stop_char ip' -> (ip ++ colon ++ "/" ++ rp)%string = (ip' ++ colon' ++ "/" ++ rp')%string -> ip = ip' /\ rp = rp'.
Proof.
  intros C C' F F' E.
  assert (D : forall n v, number (bytes_of_string n) v -> free stop_char n) by (intros n v K; eapply number_free; [exact digit_not_stop|exact K]).
  destruct (port =? default); [subst colon|destruct C as [n [N ->]]]; (destruct (port' =? default'); [subst colon'|destruct C' as [n' [N' ->]]]); cbn [append] in E.
  - apply (app_stop stop_char) in E; [|exact F|exact F'|reflexivity|reflexivity]; destruct E as [-> [_ ->]]. auto.
  - apply (app_stop stop_char) in E; [|exact F|exact F'|reflexivity|reflexivity]; destruct E as [_ [K _]]. discriminate.
  - apply (app_stop stop_char) in E; [|exact F|exact F'|reflexivity|reflexivity]; destruct E as [_ [K _]]. discriminate.
  - apply (app_stop stop_char) in E; [|exact F|exact F'|reflexivity|reflexivity]; destruct E as [-> [_ K]]. apply (app_stop stop_char) in K; [|exact (D _ _ N)|exact (D _ _ N')|reflexivity|reflexivity]; destruct K as [_ [_ ->]]. auto.
Qed.
Lemma address_unique scheme default port ip rp default' port' ip' rp' a : address scheme default port ip rp a -> address scheme default' port' ip' rp' a -> free stop_char ip -> free stop_char ip' -> ip = ip' /\ rp = rp'.
Proof.
  intros [c [C E]] [c' [C' E']] F F'. apply (address_tail _ _ _ _ _ _ _ _ _ _ C C' F F'). rewrite E' in E. clear -E. induction scheme as [|x s IH]; cbn [append] in E; [injection E as E; cbn [append] in *; congruence|]. injection E as E. apply IH, E.
Qed.
Lemma scheme_disjoint default port ip rp default' port' ip' rp' a : address "ipp" default port ip rp a -> address "ipps" default' port' ip' rp' a -> False.
Proof. intros [c [_ ->]] [c' [_ E]]. cbn in E. discriminate. Qed.

(** ** Ends of records *)
Lemma name_det lim ref d p ls e ls' e' : lim < 192 -> name_at lim ref d p ls e -> name_at lim ref d p ls' e' -> ls = ls' /\ e = e'.
Proof. intros L H K. apply via_of in H, K. destruct H as [v H]. destruct K as [v' K]. destruct (via_det _ _ _ _ _ _ _ L H _ _ _ K) as [-> [-> _]]. auto. Qed.
Lemma header_det d p owner t len e owner' t' len' e' : header_at d p owner t len e -> header_at d p owner' t' len' e' -> owner = owner' /\ t = t' /\ len = len' /\ e = e'.
Proof.
  unfold header_at. intros [ls [e0 [t1 [t2 [c1 [c2 [l1 [l2 [l3 [l4 [n1 [n2 [rest [N [-> [S [-> [-> ->]]]]]]]]]]]]]]]]]] [ls' [e0' [t1' [t2' [c1' [c2' [l1' [l2' [l3' [l4' [n1' [n2' [rest' [N' [-> [S' [-> [-> ->]]]]]]]]]]]]]]]]]].
  destruct (name_det 191 4096 _ _ _ _ _ _ ltac:(lia) N N') as [-> ->]. rewrite S in S'. cbn [app] in S'. inversion S'. auto.
Qed.
Lemma position_skipn d p : (p <= length d)%nat -> position d (skipn p d) = Z.of_nat p.
Proof. intros P. unfold position. rewrite skipn_length. lia. Qed.
Lemma txt_one d q b r : skipn q d = b :: r -> (let! (n, r) := get_u8 (skipn q d) in get_bytes n r) = get_bytes (Zb b) (skipn (S q) d) /\ nth_error d q = Some b.
Proof. intros E. rewrite E. cbn [get_u8 bind]. rewrite (skipn_S _ _ _ _ E). split; [reflexivity|]. rewrite nth_skipn, E. reflexivity. Qed.
Lemma txt_end d owner stop : forall fuel q ev s, (q <= length d)%nat -> Z.of_nat q <= stop -> txt_loop fuel d stop owner (skipn q d) = (ev, Ok s) ->
  exists e, s = skipn e d /\ (e <= length d)%nat /\ stop <= Z.of_nat e < stop + 256 /\ strings_at d q e /\ forall e', strings_at d q e' -> Z.of_nat e' = stop -> e = e'.
Proof.
  induction fuel as [|fuel IH]; intros q ev s Q L H; cbn [txt_loop] in H; [discriminate|]. rewrite position_skipn in H by exact Q. destruct (Z.ltb_spec (Z.of_nat q) stop).
  - destruct (skipn q d) as [|b r] eqn:E; [cbn in H; discriminate|]. cbn [get_u8 bind] in H. destruct (get_bytes_cases (Zb b) r ltac:(pose proof (Zb_range b); lia)) as [[K _]|[K B]]; rewrite K in H; [discriminate|].
    assert (NE : nth_error d q = Some b) by (rewrite nth_skipn, E; reflexivity). pose proof (skipn_S _ _ _ _ E) as ES.
    assert (LR : (length r = length d - S q)%nat) by (rewrite <- ES, skipn_length; reflexivity). assert (Q1 : (q < length d)%nat) by (apply nth_error_Some; congruence).
    set (n := Z.to_nat (Zb b)) in *. assert (EN : skipn n r = skipn (S q + n) d) by (rewrite <- ES, ListLemmas.skipn_skipn; reflexivity). rewrite EN in H. pose proof (Zb_range b).
    destruct (txt_entry _) as [k v]. destruct (txt_loop fuel d stop owner (skipn (S q + n) d)) as [ev' o] eqn:R. injection H as <- ->.
    destruct (Z.leb_spec (Z.of_nat (S q + n)) stop) as [STOP|STOP].
    + destruct (IH (S q + n)%nat _ _ ltac:(lia) STOP R) as [e [-> [B1 [B2 [B3 B4]]]]]. exists e. split; [reflexivity|]. split; [exact B1|]. split; [exact B2|]. split; [apply (strings_more d q b n); [exact NE|unfold n; lia|lia|exact B3]|].
      intros e' K1 K2. apply B4; [|exact K2]. inversion K1 as [x X1 X2|x b' n' x' X1 X2 X3 X4]; subst; [lia|]. assert (b' = b) by congruence. subst b'. assert (n' = n) by (unfold n; lia). subst n'. exact X4.
    + assert (R' : ev' = [] /\ s = skipn (S q + n) d). { destruct fuel; cbn [txt_loop] in R; [discriminate|]. rewrite position_skipn in R by lia. destruct (Z.ltb_spec (Z.of_nat (S q + n)) stop); [lia|]. injection R as <- <-. auto. }
      destruct R' as [-> ->]. exists (S q + n)%nat. split; [reflexivity|]. split; [lia|]. split; [unfold n in *; lia|]. split; [apply (strings_more d q b n); [exact NE|unfold n; lia|lia|constructor]|].
      intros e' K1 K2. inversion K1 as [x X1 X2|x b' n' x' X1 X2 X3 X4]; subst; [lia|]. assert (b' = b) by congruence. subst b'. assert (n' = n) by (unfold n; lia). subst n'. exfalso. clear - X4 STOP. assert (S q + n <= e')%nat; [|lia]. clear -X4. induction X4; lia.
  - injection H as <- <-. exists q. split; [reflexivity|]. split; [exact Q|]. split; [lia|]. split; [constructor|]. intros e' K1 K2. assert (LE : (e' <= q)%nat) by lia. clear - K1 LE. inversion K1 as [|x b n x' X1 X2 X3 X4]; subst; [reflexivity|]. exfalso. assert (S q + n <= e')%nat; [|lia]. clear - X4. induction X4; lia.
Qed.
