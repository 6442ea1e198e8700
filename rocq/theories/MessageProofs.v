(** Whole messages (MessageSpec.v) and the history of the questions asked. *)
From Verif Require Import Base BaseLemmas ListLemmas StringModel StringProofs MapModel MapProofs PpmSpec PpmProofs DiscoveryModel DiscoverySpec RecordSpec DnsProofs DiscoveryProofs MessageSpec.
From Coq Require Import Lia ZifyBool ZifyNat ZifyN.
Ltac Zify.zify_post_hook ::= Z.div_mod_to_equations.
Local Open Scope Z_scope.

(** ** Reading *)
Lemma name_read d p ls e : (length d <= Z.to_nat 4096)%nat -> rfc_name d p ls e -> get_addr_str d (skipn p d) = Ok (dotted ls, skipn e d) /\ (p < e <= length d)%nat.
Proof.
  intros D H. unfold get_addr_str. rewrite (rfc_decoded _ _ _ _ D H). cbn [bind]. rewrite dotted_join. split; [reflexivity|].
  clear D. induction H as [p b N Z|p b n ls e N B L S H IH|p b1 b2 ls e N1 N2 B H IH].
  - assert (p < length d)%nat by (apply nth_error_Some; congruence). lia.
  - lia.
  - assert (S p < length d)%nat by (apply nth_error_Some; congruence). lia.
Qed.
Lemma head_read d p owner type len e : (length d <= Z.to_nat 4096)%nat -> record_head d p owner type len e ->
  rr_header d (skipn p d) = Ok (owner, type, len, skipn e d) /\ (e <= length d)%nat /\ 0 <= len < 65536.
Proof.
  intros D (ls & e0 & t1 & t2 & c1 & c2 & l1 & l2 & l3 & l4 & n1 & n2 & rest & N & -> & S & -> & -> & ->). destruct (name_read _ _ _ _ D N) as [R B]. unfold rr_header. rewrite R. cbn [bind].
  rewrite S. cbn [app get_u16 get_u32 bind]. destruct (skipn_more _ _ _ _ S) as [M [K|K]]; [|discriminate]. cbn [length] in M, K. rewrite M. split; [reflexivity|]. split; [exact K|].
  pose proof (Zb_range n1). pose proof (Zb_range n2). unfold un16. lia.
Qed.
Lemma entry_read text k v : key_value text k v -> txt_entry text = (k, v).
Proof.
  intros H. pose proof (txt_entry_sound text) as S. destruct (txt_entry text) as [k' v']. assert (U : forall a b a' b', (a ++ "=" ++ b)%string = (a' ++ "=" ++ b')%string ->
    ~ (exists x y, a = (x ++ "=" ++ y)%string) -> ~ (exists x y, a' = (x ++ "=" ++ y)%string) -> a = a' /\ b = b').
  { clear. induction a as [|c a IH]; intros b a' b' E N N'; destruct a' as [|c' a']; cbn [append] in E.
    - split; [reflexivity|congruence].
    - exfalso. apply N'. exists ""%string, a'. cbn. congruence.
    - exfalso. apply N. exists ""%string, a. cbn. congruence.
    - assert (c = c') by congruence. subst c'. destruct (IH b a' b') as [-> ->]; [cbn [append]; congruence| | |auto].
      + intros (x & y & ->). apply N. exists (String c x), y. reflexivity.
      + intros (x & y & ->). apply N'. exists (String c x), y. reflexivity. }
  destruct H as [(E & N)|(E & E2 & N)], S as [(F & N')|(F & F2 & N')].
  - rewrite E in F. destruct (U _ _ _ _ F N N') as [-> ->]. reflexivity.
  - exfalso. apply N'. exists k, v. congruence.
  - exfalso. apply N. exists k', v'. congruence.
  - congruence.
Qed.
Lemma strings_read d owner p evs e : text_strings d owner p evs e -> (e <= length d)%nat -> forall fuel, (length d - p < fuel)%nat ->
  txt_loop fuel d (Z.of_nat e) owner (skipn p d) = (evs, Ok (skipn e d)) /\ (p <= e)%nat.
Proof.
  induction 1 as [p|p b n k v evs e N B L K H IH]; intros E fuel F; (destruct fuel as [|fuel]; [lia|]); cbn [txt_loop].
  - rewrite position_skipn by lia. rewrite Z.ltb_irrefl. split; [reflexivity|lia].
  - destruct (IH E fuel) as [R P]; [lia|]. assert (Q : (p < length d)%nat) by lia. rewrite position_skipn by lia. destruct (Z.ltb_spec (Z.of_nat p) (Z.of_nat e)); [|lia].
    destruct (skipn p d) as [|b' r] eqn:SK; [apply (f_equal (@length byte)) in SK; rewrite skipn_length in SK; cbn in SK; lia|].
    assert (b' = b) by (rewrite nth_skipn, SK in N; cbn in N; congruence). subst b'. cbn [get_u8 bind]. pose proof (skipn_S _ _ _ _ SK) as SS. assert (LR : length r = (length d - S p)%nat) by (rewrite <- SS, skipn_length; reflexivity).
    unfold get_bytes. replace (Zb b <=? Z.of_nat (length r)) with true by lia. rewrite B, Nat2Z.id. rewrite <- SS, (entry_read _ _ _ K), ListLemmas.skipn_skipn, R. split; [reflexivity|lia].
Qed.
Lemma octet_read b : dec_string (Zb b) = octet b.
Proof.
  assert (H : forallb (fun n => let b := bZ (Z.of_nat n) in String.eqb (dec_string (Zb b)) (octet b)) (seq 0 256) = true) by (vm_compute; reflexivity).
  rewrite forallb_forall in H. pose proof (Zb_range b). specialize (H (Z.to_nat (Zb b))). cbv zeta in H. rewrite Z2Nat.id, bZ_Zb in H by lia. apply String.eqb_eq, H. apply in_seq. lia.
Qed.
Lemma ip_read a b c f : ip4str (un32 a b c f) = quad a b c f.
Proof.
  unfold ip4str, quad. rewrite <- !octet_read. pose proof (Zb_range a). pose proof (Zb_range b). pose proof (Zb_range c). pose proof (Zb_range f).
  change 255 with (Z.ones 8). rewrite !Z.land_ones, !Z.shiftr_div_pow2 by lia. unfold un32. repeat f_equal; lia.
Qed.
Lemma record_read d p evs e : (length d <= Z.to_nat 4096)%nat -> rfc_record d p evs e -> rr d (skipn p d) = (evs, Ok (skipn e d)).
Proof.
  intros D H. assert (B : forall q, (q <= length d)%nat -> position d (skipn q d) mod two16 = Z.of_nat q) by (intros q Q; rewrite position_skipn by exact Q; apply Z.mod_small; unfold two16; lia).
  destruct H as [owner len e ls e' H N L|owner len e evs e' H T L|owner len e x1 x2 x3 x4 p1 p2 rest ls e' H S N L|owner e a b c f rest H S|owner type len e e' H K L T1 T2 T3 T4];
    destruct (head_read _ _ _ _ _ _ D H) as (R & E & LL); unfold rr; rewrite R; cbn [out]; unfold rr_data; cbv zeta; rewrite (B e E); cbn [Z.eqb Pos.eqb].
  - destruct (name_read _ _ _ _ D N) as [-> _]. reflexivity.
  - assert (E' : (e' <= length d)%nat). { clear - T E. induction T; [exact E|]. apply IHT. lia. }
    destruct (strings_read d owner e evs e' T E' (S (length (skipn e d)))) as [K _]; [rewrite skipn_length; lia|]. rewrite <- L. exact K.
  - rewrite S. cbn [app get_u16 bind]. destruct (skipn_more _ _ _ _ S) as [M _]. cbn [length] in M. rewrite <- M. destruct (name_read _ _ _ _ D N) as [-> _]. reflexivity.
  - rewrite S. cbn [app get_u32 bind out]. destruct (skipn_more _ _ _ _ S) as [M _]. cbn [length] in M. rewrite <- M, ip_read. reflexivity.
  - replace (type =? 12) with false by lia. replace (type =? 16) with false by lia. replace (type =? 33) with false by lia. replace (type =? 1) with false by lia.
    unfold get_bytes. rewrite skipn_length. replace (len <=? Z.of_nat (length d - e)) with true by lia. cbn [bind out]. rewrite ListLemmas.skipn_skipn. do 3 f_equal. lia.
Qed.
Lemma records_read d n p evs e : (length d <= Z.to_nat 4096)%nat -> rfc_records d n p evs e -> rrs n d (skipn p d) = (evs, Ok (skipn e d)).
Proof.
  intros D. induction 1 as [p|n p evs q evs' e H _ IH]; [reflexivity|]. cbn [rrs]. rewrite (record_read _ _ _ _ D H), IH. reflexivity.
Qed.
Lemma questions_read_all d n p e : (length d <= Z.to_nat 4096)%nat -> rfc_questions d n p e -> questions n d (skipn p d) = Ok (skipn e d).
Proof.
  intros D. induction 1 as [p|n p ls e t1 t2 c1 c2 rest e' N S _ IH]; [reflexivity|]. cbn [questions]. destruct (name_read _ _ _ _ D N) as [-> _]. cbn [bind]. rewrite S. cbn [app get_u16 bind].
  destruct (skipn_more _ _ _ _ S) as [M _]. cbn [length] in M. rewrite <- M. exact IH.
Qed.
Lemma message_read d evs : (length d <= Z.to_nat 4096)%nat -> rfc_message d evs -> fst (parse d) = evs /\ exists r, snd (parse d) = Ok r.
Proof.
  intros D (i1 & i2 & f1 & f2 & q1 & q2 & a1 & a2 & u1 & u2 & x1 & x2 & rest & p & e & E & Q & R). unfold parse.
  assert (S : skipn 12 d = rest) by (rewrite E; reflexivity). apply (questions_read_all _ _ _ _ D) in Q. rewrite S in Q. apply (records_read _ _ _ _ _ D) in R.
  replace (get_u16 d) with (Ok (un16 i1 i2, skipn 2 d)) by (rewrite E; reflexivity). cbn [bind]. replace (skipn 2 d) with ([f1; f2; q1; q2; a1; a2; u1; u2; x1; x2] ++ rest) by (rewrite E; reflexivity).
  cbn [app get_u16 bind]. rewrite Q. cbn [bind out].
  pose proof (Zb_range a1). pose proof (Zb_range a2). pose proof (Zb_range u1). pose proof (Zb_range u2). pose proof (Zb_range x1). pose proof (Zb_range x2).
  replace (Z.to_nat (un16 a1 a2 + un16 u1 u2 + un16 x1 x2)) with (Z.to_nat (un16 a1 a2) + Z.to_nat (un16 u1 u2) + Z.to_nat (un16 x1 x2))%nat by (unfold un16; lia).
  rewrite R. split; [reflexivity|eexists; reflexivity].
Qed.

(** ** What is known *)
Definition Knows (evs : list event) (st : disc) : Prop :=
  sorted_keys (txts st) /\ sorted_keys (ports st) /\ sorted_keys (targets st) /\ sorted_keys (addrs st)
  /\ (forall n, map_has n (txts st) = true <-> has_text evs n) /\ (forall n, map_has n (targets st) && map_has n (ports st) = true <-> has_service evs n)
  /\ (forall n, map_has n (ports st) = map_has n (targets st)) /\ (forall n, map_has n (addrs st) = true <-> has_address evs n).
Lemma has_set {A} (m : smap A) k v n : sorted_keys m -> map_has n (map_set k v m) = String.eqb n k || map_has n m.
Proof. intros S. unfold map_has. rewrite map_get_set by exact S. destruct (String.eqb n k); reflexivity. Qed.
Lemma store_knows evs st e : Knows evs st -> Knows (evs ++ [e]) (store st e).
Proof.
  intros (S1 & S2 & S3 & S4 & T & V & P & A). unfold Knows, has_text, has_service, has_address in *. destruct e as [o m|o k v|o port t|o ip]; cbn [store txts ports targets addrs].
  - repeat (split; [assumption|]). split; [|split; [|split]]; [intros n; rewrite T|intros n; rewrite V|exact P|intros n; rewrite A]; clear; split.
    all: try (intros (x & y & H); exists x, y; apply in_or_app; left; exact H). all: try (intros (x & H); exists x; apply in_or_app; left; exact H).
    all: try (intros (x & y & H); exists x, y; apply in_app_or in H; destruct H as [H|[H|[]]]; [exact H|discriminate]). intros (x & H); exists x; apply in_app_or in H; destruct H as [H|[H|[]]]; [exact H|discriminate].
  - split; [apply set_sorted; exact S1|]. repeat (split; [assumption|]). split; [|split; [|split]]; [intros n|intros n; rewrite V|exact P|intros n; rewrite A].
    + rewrite has_set by exact S1. rewrite orb_true_iff, T, String.eqb_eq. split.
      * intros [->|(x & y & H)]; [exists k, v; apply in_or_app; right; left; reflexivity|exists x, y; apply in_or_app; left; exact H].
      * intros (x & y & H). apply in_app_or in H. destruct H as [H|[H|[]]]; [right; exists x, y; exact H|left; congruence].
    + clear. split; intros (x & y & H); exists x, y; [apply in_or_app; left; exact H|apply in_app_or in H; destruct H as [H|[H|[]]]; [exact H|discriminate]].
    + clear. split; intros (x & H); exists x; [apply in_or_app; left; exact H|apply in_app_or in H; destruct H as [H|[H|[]]]; [exact H|discriminate]].
  - split; [exact S1|]. split; [apply set_sorted; exact S2|]. split; [apply set_sorted; exact S3|]. split; [exact S4|]. split; [|split; [|split]]; [intros n; rewrite T|intros n|intros n|intros n; rewrite A].
    + clear. split; intros (x & y & H); exists x, y; [apply in_or_app; left; exact H|apply in_app_or in H; destruct H as [H|[H|[]]]; [exact H|discriminate]].
    + rewrite !has_set by assumption. specialize (V n). rewrite andb_true_iff in *. rewrite !orb_true_iff, String.eqb_eq. split.
      * intros [[->|H1] [E|H2]]; try (subst n); try (exists port, t; apply in_or_app; right; left; reflexivity). destruct (proj1 V (conj H1 H2)) as (x & y & H). exists x, y. apply in_or_app. left. exact H.
      * intros (x & y & H). apply in_app_or in H. destruct H as [H|[H|[]]]; [|assert (n = o) by congruence; auto]. destruct (proj2 V) as [H1 H2]; [exists x, y; exact H|auto].
    + rewrite !has_set by assumption. rewrite P. reflexivity.
    + clear. split; intros (x & H); exists x; [apply in_or_app; left; exact H|apply in_app_or in H; destruct H as [H|[H|[]]]; [exact H|discriminate]].
  - split; [exact S1|]. split; [exact S2|]. split; [exact S3|]. split; [apply set_sorted; exact S4|]. split; [|split; [|split]]; [intros n; rewrite T|intros n; rewrite V|exact P|intros n].
    + clear. split; intros (x & y & H); exists x, y; [apply in_or_app; left; exact H|apply in_app_or in H; destruct H as [H|[H|[]]]; [exact H|discriminate]].
    + clear. split; intros (x & y & H); exists x, y; [apply in_or_app; left; exact H|apply in_app_or in H; destruct H as [H|[H|[]]]; [exact H|discriminate]].
    + rewrite has_set by exact S4. rewrite orb_true_iff, A, String.eqb_eq. split.
      * intros [->|(x & H)]; [exists ip; apply in_or_app; right; left; reflexivity|exists x; apply in_or_app; left; exact H].
      * intros (x & H). apply in_app_or in H. destruct H as [H|[H|[]]]; [right; exists x; exact H|left; congruence].
Qed.
Lemma store_all_knows ev : forall evs st, Knows evs st -> Knows (evs ++ ev) (fold_left store ev st).
Proof. induction ev as [|e ev IH]; intros evs st R; cbn [fold_left]; [rewrite app_nil_r; exact R|]. replace (evs ++ e :: ev) with ((evs ++ [e]) ++ ev) by (rewrite <- app_assoc; reflexivity). apply IH, store_knows, R. Qed.
Lemma knows_known evs st st' : known st st' -> Knows evs st -> Knows evs st'.
Proof. unfold known, Knows. intros [-> [-> [-> [-> _]]]]. auto. Qed.
Lemma store_tid ev : forall st, tid (fold_left store ev st) = tid st.
Proof. induction ev as [|e ev IH]; intros st; cbn [fold_left]; [reflexivity|]. rewrite IH. destruct e; reflexivity. Qed.

(** ** What was asked *)
Fixpoint numbered (i : nat) (qs : list (Z * list string)) : list (list byte) :=
  match qs with [] => [] | q :: r => make_query (Z.of_nat i mod 65536) (fst q) (snd q) :: numbered (S i) r end.
Lemma numbered_app a : forall i b, numbered i (a ++ b) = numbered i a ++ numbered (i + length a) b.
Proof. induction a as [|x a IH]; intros i b; cbn [List.app numbered length]; [rewrite Nat.add_0_r; reflexivity|]. rewrite IH. do 3 f_equal. lia. Qed.
Lemma single_app a b : single (a ++ b) = single a ++ single b.
Proof. apply flat_map_app. Qed.
Lemma sent_app a b : sent (a ++ b) = sent a ++ sent b.
Proof. apply flat_map_app. Qed.
Definition Asked (qs : list (Z * list string)) (st : disc) : Prop :=
  tid st = Z.of_nat (length qs) mod 65536 /\ map fst (outstanding st) = single qs /\ (NoDup (single qs) /\ Forall (fun q => snd q <> []) qs).
Lemma same_asked qs st t n : Asked qs st -> existsb (same_query t n) (outstanding st) = true <-> In (t, n) (single qs).
Proof.
  intros (_ & E & _). rewrite <- E. rewrite existsb_exists, in_map_iff. unfold same_query. split.
  - intros ([[t' n'] z] & H & K). cbn in K. apply andb_prop in K. destruct K as [K1 K2]. apply Z.eqb_eq in K1. apply String.eqb_eq in K2. subst. exists (t, n, z). auto.
  - intros ([q z] & K & H). cbn in K. subst q. exists (t, n, z). split; [exact H|]. cbn. rewrite Z.eqb_refl, String.eqb_refl. reflexivity.
Qed.
Lemma asked_new qtype now names : forall q, NoDup names -> (forall n, In n names -> existsb (same_query qtype n) q = false) ->
  fold_left (fun q a => if existsb (same_query qtype a) q then q else q ++ [(qtype, a, now)]) names q = q ++ map (fun a => (qtype, a, now)) names.
Proof.
  induction names as [|a names IH]; intros q N H; cbn [fold_left map]; [rewrite app_nil_r; reflexivity|]. inversion N as [|? ? N1 N2]; subst. rewrite (H a) by (left; reflexivity).
  rewrite IH; [rewrite <- app_assoc; reflexivity|exact N2|]. intros n Hn. rewrite existsb_app, (H n) by (right; exact Hn). cbn. unfold same_query. cbn [fst snd]. destruct (String.eqb_spec a n) as [E|E]; [subst; contradiction|]. rewrite andb_false_r. reflexivity.
Qed.
Lemma NoDup_app_intro {A} (a b : list A) : NoDup a -> NoDup b -> (forall x, In x a -> In x b -> False) -> NoDup (a ++ b).
Proof.
  intros N M D. induction N as [|x a Hx N IH]; [exact M|]. cbn. constructor; [rewrite in_app_iff; intros [H|H]; [contradiction|apply (D x); [left; reflexivity|exact H]]|]. apply IH. intros y Hy. apply D. right. exact Hy.
Qed.
Lemma send_asked clock qs st t names st' acts : Asked qs st -> NoDup names -> send_query clock st t names = Ok (st', acts) ->
  exists new, Asked (qs ++ new) st' /\ sent acts = numbered (length qs) new /\ (forall q, In q (single new) -> fst q = t /\ In (snd q) names) /\ (forall n, In n names -> In (t, n) (single (qs ++ new))).
Proof.
  intros A N H. unfold send_query in H. destruct (existsb (expired _) _); [discriminate|]. set (ns := filter _ names) in H. assert (Hns : forall n, In n ns <-> In n names /\ existsb (same_query t n) (outstanding st) = false).
  { intros n. unfold ns. rewrite filter_In, negb_true_iff. reflexivity. }
  assert (Nns : NoDup ns) by (apply NoDup_filter; exact N). clearbody ns. pose proof (same_asked qs st t) as SA. destruct A as (A1 & A2 & A3). destruct ns as [|x r].
  - injection H as <- <-. exists []. rewrite app_nil_r. split; [split; [exact A1|split; [exact A2|exact A3]]|]. split; [reflexivity|]. split; [intros q []|]. intros n Hn. apply SA; [split; [exact A1|split; [exact A2|exact A3]]|].
    destruct (existsb (same_query t n) (outstanding st)) eqn:E; [reflexivity|]. destruct (proj2 (Hns n) (conj Hn E)).
  - assert (H' : st' = mkDisc ((tid st + 1) mod two16) (ippPtrs st) (ippsPtrs st) (txts st) (ports st) (targets st) (addrs st)
        (fold_left (fun q a => if existsb (same_query t a) q then q else q ++ [(t, a, clock (clock_calls st))]) (x :: r) (outstanding st)) (found st) (S (clock_calls st)) /\ acts = [Sent (make_query (tid st) t (x :: r))]) by (split; congruence).
    clear H. destruct H' as [-> ->]. exists [(t, x :: r)]. assert (SN : single [(t, x :: r)] = map (pair t) (x :: r)) by (unfold single; cbn [flat_map fst snd]; apply app_nil_r).
    rewrite single_app, SN. split; [|split; [|split]].
    + split; [|split]; cbn [tid outstanding].
      * rewrite app_length. cbn [length]. rewrite A1. unfold two16. lia.
      * rewrite asked_new; [|exact Nns|intros n Hn; apply Hns; exact Hn]. rewrite map_app, A2, single_app, SN, map_map. reflexivity.
      * split; [|apply Forall_app; split; [apply A3|constructor; [discriminate|constructor]]]. rewrite single_app, SN. apply NoDup_app_intro; [apply A3|apply FinFun.Injective_map_NoDup; [intros a b E; congruence|exact Nns]|]. intros q Q K. apply in_map_iff in K. destruct K as (n & <- & Hn).
        apply SA in Q; [|split; [exact A1|split; [exact A2|exact A3]]]. apply Hns in Hn. destruct Hn as [_ Hn]. congruence.
    + cbn [sent flat_map List.app numbered fst snd]. rewrite A1. reflexivity.
    + intros q K. apply in_map_iff in K. destruct K as (n & <- & Hn). cbn. split; [reflexivity|]. apply Hns, Hn.
    + intros n Hn. apply in_or_app. destruct (existsb (same_query t n) (outstanding st)) eqn:E; [left; apply SA; [split; [exact A1|split; [exact A2|exact A3]]|exact E]|right]. apply in_map. apply Hns. auto.
Qed.
(** every pointer was asked about if something was missing *)
Definition Followed (qs : list (Z * list string)) (l : list string) (st : disc) : Prop :=
  forall p, In p l -> (map_has p (txts st) = true \/ In (16, p) (single qs)) /\ (map_has p (targets st) && map_has p (ports st) = true \/ In (33, p) (single qs)).
Lemma single_more a b q : In q (single a) -> In q (single (a ++ b)).
Proof. rewrite single_app, in_app_iff. auto. Qed.
Lemma followed_more qs new l st : Followed qs l st -> Followed (qs ++ new) l st.
Proof. intros F p Hp. destruct (F p Hp) as [[A|A] [B|B]]; split; auto using single_more. Qed.
Lemma asked_quiet qs st st' : Asked qs st -> tid st' = tid st -> outstanding st' = outstanding st -> Asked qs st'.
Proof. unfold Asked. intros H -> ->. exact H. Qed.
Lemma query_asked clock secure news : forall qs st st' acts, Asked qs st -> Followed qs (ptrs_of secure st) st -> update_and_query clock secure st news = Ok (st', acts) ->
  exists new, Asked (qs ++ new) st' /\ sent acts = numbered (length qs) new /\ Followed (qs ++ new) (ptrs_of secure st') st' /\
    (forall q, In q (single new) -> In (snd q) news /\ ((fst q = 16 /\ map_has (snd q) (txts st) = false) \/ (fst q = 33 /\ map_has (snd q) (targets st) && map_has (snd q) (ports st) = false))).
Proof.
  induction news as [|n news IH]; intros qs st st' acts A F H; cbn [update_and_query] in H.
  - injection H as <- <-. exists []. rewrite app_nil_r. split; [exact A|]. split; [reflexivity|]. split; [exact F|]. intros q [].
  - destruct (mem n (ptrs_of secure st)) eqn:M.
    + destruct (IH _ _ _ _ A F H) as (new & I1 & I2 & I3 & I4). exists new. split; [exact I1|]. split; [exact I2|]. split; [exact I3|]. intros q Q. destruct (I4 q Q). split; [right; assumption|assumption].
    + set (st0 := add_ptr secure st n) in *. assert (A0 : Asked qs st0) by exact A. inv_bind H st1 a1 E1. inv_bind H st2 a2 E2. inv_bind H st3 a3 E3. injection H as <- <-.
      assert (S1 : exists new, Asked (qs ++ new) st1 /\ sent a1 = numbered (length qs) new /\ quiet st0 st1 /\ (forall q, In q (single new) -> fst q = 16 /\ snd q = n /\ map_has n (txts st) = false) /\ (map_has n (txts st) = true \/ In (16, n) (single (qs ++ new)))).
      { change (txts st0) with (txts st) in E1. destruct (map_has n (txts st)).
        - injection E1 as <- <-. exists []. rewrite app_nil_r. split; [exact A0|]. split; [reflexivity|]. split; [unfold quiet; auto 10|]. split; [intros q []|left; reflexivity].
        - destruct (send_asked _ _ _ _ _ _ _ A0 (NoDup_cons n (@in_nil _ n) (NoDup_nil _)) E1) as (new & J1 & J2 & J3 & J4). exists new. split; [exact J1|]. split; [exact J2|]. split; [apply (send_quiet _ _ _ _ _ _ E1)|].
          split; [intros q Q; destruct (J3 q Q) as [Q1 [Q2|[]]]; auto|right; apply J4; left; reflexivity]. }
      destruct S1 as (n1 & A1 & T1 & Q1 & N1 & C1).
      assert (K1 : targets st1 = targets st /\ ports st1 = ports st /\ txts st1 = txts st /\ ptrs_of secure st1 = ptrs_of secure st ++ [n]).
      { destruct Q1 as (Q11 & Q12 & Q13 & Q14 & Q15 & _). rewrite Q13, Q14, Q15. repeat (split; [reflexivity|]). destruct secure; cbn [ptrs_of]; rewrite ?Q11, ?Q12; reflexivity. }
      destruct K1 as (K1 & K2 & K3 & K4). rewrite K1, K2 in E2.
      assert (S2 : exists new, Asked ((qs ++ n1) ++ new) st2 /\ sent a2 = numbered (length (qs ++ n1)) new /\ quiet st1 st2 /\ (forall q, In q (single new) -> fst q = 33 /\ snd q = n /\ map_has n (targets st) && map_has n (ports st) = false)
                 /\ (map_has n (targets st) && map_has n (ports st) = true \/ In (33, n) (single ((qs ++ n1) ++ new)))).
      { destruct (map_has n (targets st) && map_has n (ports st)).
        - injection E2 as <- <-. exists []. rewrite app_nil_r. split; [exact A1|]. split; [reflexivity|]. split; [unfold quiet; auto 10|]. split; [intros q []|left; reflexivity].
        - destruct (send_asked _ _ _ _ _ _ _ A1 (NoDup_cons n (@in_nil _ n) (NoDup_nil _)) E2) as (new & J1 & J2 & J3 & J4). exists new. split; [exact J1|]. split; [exact J2|]. split; [apply (send_quiet _ _ _ _ _ _ E2)|].
          split; [intros q Q; destruct (J3 q Q) as [Q1' [Q2|[]]]; auto|right; apply J4; left; reflexivity]. }
      destruct S2 as (n2 & A2 & T2 & Q2 & N2 & C2).
      assert (K5 : targets st2 = targets st /\ ports st2 = ports st /\ txts st2 = txts st /\ ptrs_of secure st2 = ptrs_of secure st ++ [n]).
      { destruct Q2 as (Q21 & Q22 & Q23 & Q24 & Q25 & _). rewrite Q23, Q24, Q25. repeat (split; [assumption|]). destruct secure; cbn [ptrs_of] in *; rewrite ?Q21, ?Q22; exact K4. }
      destruct K5 as (L1 & L2 & L3 & L4).
      assert (F2 : Followed ((qs ++ n1) ++ n2) (ptrs_of secure st2) st2).
      { unfold Followed. rewrite L1, L2, L3, L4. intros p Hp. apply in_app_or in Hp. destruct Hp as [Hp|[<-|[]]].
        - destruct (F p Hp) as [[B|B] [B'|B']]; split; auto using single_more.
        - split; [destruct C1 as [C|C]; auto using single_more|exact C2]. }
      destruct (IH _ _ _ _ A2 F2 E3) as (n3 & I1 & I2 & I3 & I4). exists (n1 ++ n2 ++ n3). replace (qs ++ n1 ++ n2 ++ n3) with (((qs ++ n1) ++ n2) ++ n3) by (rewrite <- !app_assoc; reflexivity).
      split; [exact I1|]. split; [|split; [exact I3|]].
      * rewrite !sent_app, T1, T2, I2, !numbered_app, !app_length, ?Nat.add_assoc. reflexivity.
      * intros q Q. rewrite !single_app, !in_app_iff in Q. destruct Q as [Q|[Q|Q]].
        -- destruct (N1 q Q) as (B1 & B2 & B3). rewrite B2. split; [left; reflexivity|left; auto].
        -- destruct (N2 q Q) as (B1 & B2 & B3). rewrite B2. split; [left; reflexivity|right; auto].
        -- destruct (I4 q Q) as (B1 & B2). rewrite L1, L2, L3 in B2. split; [right; exact B1|exact B2].
Qed.
Lemma targets_spec ev : forall acc, NoDup acc -> NoDup (new_targets acc ev) /\ forall t, In t (new_targets acc ev) <-> In t acc \/ is_target ev t.
Proof.
  induction ev as [|e ev IH]; intros acc N; cbn [new_targets].
  - split; [exact N|]. intros t. split; [auto|]. intros [H|(o & p & [])]. exact H.
  - assert (O : (forall o p t, e <> ESrv o p t) -> NoDup (new_targets acc ev) /\ (forall t, In t (new_targets acc ev) <-> In t acc \/ is_target (e :: ev) t)).
    { intros H. destruct (IH acc N) as [I1 I2]. split; [exact I1|]. intros t. rewrite I2. unfold is_target. split; (intros [K|(o & p & K)]; [left; exact K|right; exists o, p]); [right; exact K|]. destruct K as [K|K]; [contradiction (H _ _ _ K)|exact K]. }
    destruct e as [o n|o k v|o port t|o ip]; try (apply O; discriminate). clear O.
    set (acc' := if mem t acc then acc else acc ++ [t]). assert (M : NoDup acc' /\ forall x, In x acc' <-> In x acc \/ x = t).
    { unfold acc'. destruct (mem t acc) eqn:M; [apply mem_In in M; split; [exact N|]; intros x; split; [auto|]; intros [H|H]; [exact H|subst; exact M]|]. split; [apply NoDup_snoc; [exact N|]; intros K; apply mem_In in K; congruence|].
      intros x. rewrite in_app_iff. cbn. split; [intros [H|[H|[]]]; auto|intros [H|H]; auto]. }
    clearbody acc'. destruct M as [M1 M2]. destruct (IH acc' M1) as [I1 I2]. split; [exact I1|]. intros x. rewrite I2, M2. unfold is_target. split.
    + intros [[H|H]|(o' & p' & H)]; [left; exact H|right; exists o, port; left; congruence|right; exists o', p'; right; exact H].
    + intros [H|(o' & p' & [H|H])]; [left; left; exact H|left; right; congruence|right; exists o', p'; exact H].
Qed.
Lemma receive_steps clock st d st' acts : receive clock st d = Ok (st', acts) -> let ev := fst (parse d) in exists st1 a1 st2 a2 st3 a3 a4,
  update_and_query clock true (fold_left store ev st) (new_ptrs is_ipps ev) = Ok (st1, a1) /\ update_and_query clock false st1 (new_ptrs is_ipp ev) = Ok (st2, a2) /\
  (match filter (fun t => negb (map_has t (addrs st2))) (new_targets [] ev) with [] => Ok (st2, []) | l => send_query clock st2 1 l end = Ok (st3, a3)) /\
  update st3 = (st', a4) /\ acts = a1 ++ a2 ++ a3 ++ a4.
Proof.
  unfold receive. destruct (parse d) as [ev o]. cbn [fst snd]. intros H.
  assert (H' : (let! (st, a1) := update_and_query clock true (fold_left store ev st) (new_ptrs is_ipps ev) in
      let! (st, a2) := update_and_query clock false st (new_ptrs is_ipp ev) in
      let unresolved := filter (fun t => negb (map_has t (addrs st))) (new_targets [] ev) in
      let! (st, a3) := match unresolved with [] => Ok (st, []) | _ => send_query clock st 1 unresolved end in
      let (st, a4) := update st in
      Ok (st, a1 ++ a2 ++ a3 ++ a4)) = Ok (st', acts)) by (destruct o; (exact H || discriminate H)). clear H. rename H' into H.
  inv_bind H st1 a1 E1. inv_bind H st2 a2 E2. cbv zeta in H. inv_bind H st3 a3 E3. destruct (update st3) as [st4 a4] eqn:E4. injection H as <- <-.
  exists st1, a1, st2, a2, st3, a3, a4. split; [first [exact E1|reflexivity]|]. split; [first [exact E2|reflexivity]|]. split; [destruct (filter _ _); exact E3|]. split; [exact E4|reflexivity].
Qed.
Definition History (evs : list event) (qs : list (Z * list string)) (st : disc) : Prop :=
  Knows evs st /\ Asked qs st /\ ptr_ok is_ipp evs (ippPtrs st) /\ ptr_ok is_ipps evs (ippsPtrs st) /\ Followed qs (ippPtrs st) st /\ Followed qs (ippsPtrs st) st
  /\ forall t, is_target evs t -> has_address evs t \/ In (1, t) (single qs).
Lemma followed_known qs l st st' : known st st' -> Followed qs l st -> Followed qs l st'.
Proof. unfold Followed. intros [-> [-> [-> _]]]. auto. Qed.
Lemma followed_knows evs evs' qs l st st' : Knows evs st -> Knows (evs ++ evs') st' -> Followed qs l st -> Followed qs l st'.
Proof.
  intros (_ & _ & _ & _ & T & V & _) (_ & _ & _ & _ & T' & V' & _) F p Hp. destruct (F p Hp) as [A B]. split.
  - destruct A as [A|A]; [left|right; exact A]. apply T'. apply T in A. destruct A as (k & v & A). exists k, v. apply in_or_app. left. exact A.
  - destruct B as [B|B]; [left|right; exact B]. apply V'. apply V in B. destruct B as (k & v & B). exists k, v. apply in_or_app. left. exact B.
Qed.
Lemma new_pointed service ev p : (forall o, service o = true -> ipp_owner o) -> In p (new_ptrs service ev) -> pointed ev p.
Proof. intros S H. apply new_ptrs_In in H. destruct H as (o & H1 & H2). exists o. auto. Qed.
Lemma false_not b (P : Prop) : b = false -> (b = true <-> P) -> ~ P.
Proof. intros E H K. apply H in K. congruence. Qed.
Lemma receive_history clock evs qs st d st' acts : History evs qs st -> receive clock st d = Ok (st', acts) ->
  exists new, History (evs ++ fst (parse d)) (qs ++ new) st' /\ sent acts = numbered (length qs) new /\ Forall (wanted (evs ++ fst (parse d))) (single new).
Proof.
  intros (K & A & P1 & P2 & F1 & F2 & G) H. apply receive_steps in H. cbv zeta in H. destruct H as (st1 & a1 & st2 & a2 & st3 & a3 & a4 & E1 & E2 & E3 & E4 & ->). set (ev := fst (parse d)) in *.
  set (st0 := fold_left store ev st) in *. destruct (store_same ev st) as (S1 & S2 & S3 & S4 & S5). fold st0 in S1, S2, S3, S4, S5.
  assert (K0 : Knows (evs ++ ev) st0) by (apply store_all_knows; exact K). assert (A0 : Asked qs st0) by (apply (asked_quiet _ st); [exact A|apply store_tid|exact S4]).
  assert (F10 : Followed qs (ippPtrs st0) st0) by (rewrite S1; apply (followed_knows evs ev qs _ st); assumption). assert (F20 : Followed qs (ippsPtrs st0) st0) by (rewrite S2; apply (followed_knows evs ev qs _ st); assumption).
  destruct (query_asked clock true _ _ _ _ _ A0 F20 E1) as (n1 & A1 & T1 & F21 & W1). destruct (query_ptrs _ _ _ _ _ _ E1) as (Q1 & _ & L1 & M1). cbn [negb ptrs_of] in L1, M1, F21.
  assert (K1 : Knows (evs ++ ev) st1) by (apply (knows_known _ st0); assumption).
  assert (F11 : Followed (qs ++ n1) (ippPtrs st1) st1) by (rewrite L1; apply followed_more; apply (followed_known _ _ st0); assumption).
  destruct (query_asked clock false _ _ _ _ _ A1 F11 E2) as (n2 & A2 & T2 & F12 & W2). destruct (query_ptrs _ _ _ _ _ _ E2) as (Q2 & _ & L2 & M2). cbn [negb ptrs_of] in L2, M2, F12.
  assert (K2 : Knows (evs ++ ev) st2) by (apply (knows_known _ st1); assumption).
  assert (F22 : Followed ((qs ++ n1) ++ n2) (ippsPtrs st2) st2) by (rewrite L2; apply followed_more; apply (followed_known _ _ st1); assumption).
  destruct (targets_spec ev [] (NoDup_nil _)) as [N3 I3].
  assert (S3' : exists n3, Asked (((qs ++ n1) ++ n2) ++ n3) st3 /\ sent a3 = numbered (length ((qs ++ n1) ++ n2)) n3 /\ quiet st2 st3 /\ (forall q, In q (single n3) -> fst q = 1 /\ is_target ev (snd q) /\ ~ has_address (evs ++ ev) (snd q))
      /\ forall t, is_target ev t -> has_address (evs ++ ev) t \/ In (1, t) (single (((qs ++ n1) ++ n2) ++ n3))).
  { set (l := filter _ _) in E3. assert (Hl : forall t, In t l <-> is_target ev t /\ map_has t (addrs st2) = false). { intros t. unfold l. rewrite filter_In, negb_true_iff, I3. cbn. tauto. }
    assert (Nl : NoDup l) by (apply NoDup_filter; exact N3). clearbody l. destruct K2 as (_ & _ & _ & _ & _ & _ & _ & KA).
    assert (D : forall t, is_target ev t -> has_address (evs ++ ev) t \/ In t l). { intros t Ht. destruct (map_has t (addrs st2)) eqn:E; [left; apply KA; exact E|right; apply Hl; auto]. }
    destruct l as [|x r].
    - injection E3 as <- <-. exists []. rewrite app_nil_r. split; [exact A2|]. split; [reflexivity|]. split; [unfold quiet; auto 10|]. split; [intros q []|]. intros t Ht. destruct (D t Ht) as [B|[]]. left. exact B.
    - destruct (send_asked _ _ _ _ _ _ _ A2 Nl E3) as (n3 & J1 & J2 & J3 & J4). exists n3. split; [exact J1|]. split; [exact J2|]. split; [apply (send_quiet _ _ _ _ _ _ E3)|]. split.
      + intros q Q. destruct (J3 q Q) as [B1 B2]. apply Hl in B2. destruct B2 as [B2 B3]. split; [exact B1|]. split; [exact B2|]. exact (false_not _ _ B3 (KA _)).
      + intros t Ht. destruct (D t Ht) as [B|B]; [left; exact B|right; apply J4; exact B]. }
  destruct S3' as (n3 & A3 & T3 & Q3 & W3 & G3). pose proof (quiet_known _ _ Q3) as Q3'. destruct Q3 as (Q31 & Q32 & _).
  assert (K3 : Knows (evs ++ ev) st3) by (apply (knows_known _ st2); assumption).
  assert (U : known st3 (mkDisc (tid st3) (ippPtrs st3) (ippsPtrs st3) (txts st3) (ports st3) (targets st3) (addrs st3) (outstanding st3) (found st3) (clock_calls st3))) by (unfold known; auto 10).
  unfold update in E4. destruct (ipps_loop st3 (ippsPtrs st3) (found st3) []) as [fnd pairs]. injection E4 as <- <-.
  exists (n1 ++ n2 ++ n3). replace (qs ++ n1 ++ n2 ++ n3) with (((qs ++ n1) ++ n2) ++ n3) by (rewrite <- !app_assoc; reflexivity). split; [|split].
  - split; [exact K3|]. split; [exact A3|]. cbn [ippPtrs ippsPtrs]. split; [|split; [|split; [|split]]].
    + rewrite Q31. apply (ptr_ok_snoc _ _ (ippPtrs st)); [exact P1|]. intros p. rewrite M2, L1, S1. reflexivity.
    + rewrite Q32. apply (ptr_ok_snoc _ _ (ippsPtrs st)); [exact P2|]. intros p. rewrite L2, M1, S2. reflexivity.
    + rewrite Q31. apply followed_more. apply (followed_known _ _ st2 st3 Q3' F12).
    + rewrite Q32. apply followed_more. apply (followed_known _ _ st2 st3 Q3' F22).
    + intros t (o & p & Ht). apply in_app_or in Ht. destruct Ht as [Ht|Ht]; [|apply G3; exists o, p; exact Ht]. destruct (G t) as [(ip & B)|B]; [exists o, p; exact Ht|left; exists ip; apply in_or_app; left; exact B|right]. rewrite <- !app_assoc. apply single_more. exact B.
  - assert (R4 : sent (map Reported (skipn (length (found st3)) (ipp_loop st3 (ippPtrs st3) fnd pairs))) = []) by (generalize (skipn (length (found st3)) (ipp_loop st3 (ippPtrs st3) fnd pairs)); intros l; induction l as [|x l IH]; [reflexivity|exact IH]).
    rewrite !sent_app, T1, T2, T3, R4, app_nil_r, !numbered_app, !app_length, ?Nat.add_assoc. reflexivity.
  - apply Forall_forall. intros q Q. rewrite !single_app, !in_app_iff in Q.
    assert (X : forall p, pointed ev p -> pointed (evs ++ ev) p) by (intros p (o & B1 & B2); exists o; split; [exact B1|apply in_or_app; right; exact B2]).
    assert (Y : forall stx (news : list string), Knows (evs ++ ev) stx -> (forall p, In p news -> pointed ev p) -> In (snd q) news /\ (fst q = 16 /\ map_has (snd q) (txts stx) = false \/ fst q = 33 /\ map_has (snd q) (targets stx) && map_has (snd q) (ports stx) = false) -> wanted (evs ++ ev) q).
    { intros stx news (_ & _ & _ & _ & KT & KV & _) N [B1 [[B2 B3]|[B2 B3]]]; [left|right; left]; (split; [exact B2|]); (split; [apply X, N, B1|]); [exact (false_not _ _ B3 (KT _))|exact (false_not _ _ B3 (KV _))]. }
    destruct Q as [Q|[Q|Q]].
    + apply (Y st0 (new_ptrs is_ipps ev) K0); [intros p; apply new_pointed; intros o Ho; right; apply is_ipps_spec; exact Ho|exact (W1 q Q)].
    + apply (Y st1 (new_ptrs is_ipp ev) K1); [intros p; apply new_pointed; intros o Ho; left; apply is_ipp_spec; exact Ho|exact (W2 q Q)].
    + right. right. destruct (W3 q Q) as (B1 & (o & p & B2) & B3). split; [exact B1|]. split; [exists o, p; apply in_or_app; right; exact B2|exact B3].
Qed.
Lemma receive_all_history clock ds : forall evs qs st st' acts, History evs qs st -> receive_all clock st ds = Ok (st', acts) ->
  exists new, History (evs ++ all_events ds) (qs ++ new) st' /\ sent acts = numbered (length qs) new /\
    Forall (fun q => exists ds1 ds2, ds = ds1 ++ ds2 /\ wanted (evs ++ all_events ds1) q) (single new).
Proof.
  induction ds as [|d ds IH]; intros evs qs st st' acts I H; cbn [receive_all] in H.
  - injection H as <- <-. exists []. cbn. rewrite !app_nil_r. split; [exact I|]. split; [reflexivity|constructor].
  - inv_bind H st1 a1 E1. inv_bind H st2 a2 E2. injection H as <- <-. destruct (receive_history _ _ _ _ _ _ _ I E1) as (n1 & I1 & T1 & W1). destruct (IH _ _ _ _ _ I1 E2) as (n2 & I2 & T2 & W2).
    exists (n1 ++ n2). rewrite app_assoc. cbn [all_events flat_map]. fold (all_events ds). rewrite app_assoc. split; [exact I2|]. split; [rewrite sent_app, T1, T2, numbered_app, app_length; reflexivity|].
    rewrite single_app. apply Forall_app. split.
    + eapply Forall_impl; [|exact W1]. intros q Q. exists [d], ds. split; [reflexivity|]. cbn. rewrite app_nil_r. exact Q.
    + eapply Forall_impl; [|exact W2]. intros q (ds1 & ds2 & -> & Q). exists (d :: ds1), ds2. split; [reflexivity|]. cbn [all_events flat_map]. fold (all_events ds1). rewrite app_assoc. exact Q.
Qed.
