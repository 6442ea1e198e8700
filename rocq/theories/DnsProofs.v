(** Names in datagrams: get_addr and put_name (DiscoveryModel.v) against DiscoverySpec.v. *)
From Verif Require Import Base BaseLemmas ListLemmas StringModel StringProofs MapModel MapProofs DiscoveryModel DiscoverySpec.
From Coq Require Import Lia ZifyBool ZifyNat ZifyN.
Ltac Zify.zify_post_hook ::= Z.div_mod_to_equations.
Local Open Scope Z_scope.

(** ** Termination *)
Definition tame {A} (x : outcome A) : Prop := match x with Ok _ | Throw _ => True | _ => False end.
Definition shorter (s r : list byte) : Prop := exists n, r = skipn n s /\ (0 < n <= length s)%nat.
Lemma get_bytes_cases n s : 0 <= n -> (get_bytes n s = Throw OutOfRange /\ Z.of_nat (length s) < n) \/ (get_bytes n s = Ok (firstn (Z.to_nat n) s, skipn (Z.to_nat n) s) /\ n <= Z.of_nat (length s)).
Proof. intros H. unfold get_bytes. destruct (Z.leb_spec n (Z.of_nat (length s))); auto. Qed.
Lemma Zb_range b : 0 <= Zb b < 256.
Proof. unfold Zb. pose proof (N_ascii_bounded b). lia. Qed.
Lemma land_mod v : Z.land v 4095 = v mod 4096.
Proof. change 4095 with (Z.ones 12). rewrite Z.land_ones by lia. reflexivity. Qed.
Lemma is_ptr b : (Z.land (Zb b) 192 =? 192) = (192 <=? Zb b).
Proof. destruct b as [[] [] [] [] [] [] [] []]; reflexivity. Qed.
Lemma labels_total jump : (forall ref, 0 <= ref < 4096 -> tame (jump ref)) -> forall fuel s, (length s < fuel)%nat ->
  tame (labels jump fuel s) /\ forall ns r, labels jump fuel s = Ok (ns, r) -> shorter s r.
Proof.
  intros J. induction fuel as [|fuel IH]; intros s F; [lia|]. cbn [labels]. destruct s as [|b s]; [split; [exact I|discriminate]|].
  destruct (Z.eqb_spec (Zb b) 0); [split; [exact I|]; intros ns r K; injection K as <- <-; exists 1%nat; cbn; split; [reflexivity|lia]|]. rewrite is_ptr. destruct (192 <=? Zb b) eqn:P.
  - destruct s as [|c s]; [split; [exact I|discriminate]|]. cbn [get_u16 bind]. rewrite land_mod. assert (R : 0 <= un16 b c mod 4096 < 4096) by (apply Z.mod_pos_bound; lia). specialize (J _ R).
    destruct (jump (un16 b c mod 4096)); try contradiction; (split; [exact I|]); [|discriminate]. intros ns r K. injection K as <- <-. exists 2%nat. cbn. split; [reflexivity|lia].
  - pose proof (Zb_range b). destruct (get_bytes_cases (Zb b) s) as [[-> _]|[-> L]]; [lia|split; [exact I|discriminate]|]. cbn [bind length] in *.
    destruct (IH (skipn (Z.to_nat (Zb b)) s)) as [T SH]; [rewrite skipn_length; lia|]. destruct (labels jump fuel _) as [[ns r]| | | |]; try contradiction; cbn [bind]; (split; [exact I|]); [|discriminate].
    intros ns' r' K. injection K as <- <-. destruct (SH ns r eq_refl) as [n0 [-> N]]. rewrite skipn_length in N. exists (S (Z.to_nat (Zb b) + n0)). cbn [skipn length]. split; [rewrite skipn_skipn; f_equal; lia|lia].
Qed.
Definition refs_ok (seen : list Z) : Prop := NoDup seen /\ Forall (fun r => 0 <= r < 4096) seen.
Lemma refs_bound seen : refs_ok seen -> (length seen <= 4096)%nat.
Proof.
  intros [N F]. assert (I : incl seen (map Z.of_nat (seq 0 4096))). { intros r R. rewrite Forall_forall in F. specialize (F r R). apply in_map_iff. exists (Z.to_nat r). split; [lia|]. apply in_seq. lia. }
  pose proof (NoDup_incl_length N I) as L. rewrite map_length, seq_length in L. exact L.
Qed.
Lemma get_addr_total d : forall depth seen s, refs_ok seen -> (4097 <= depth + length seen)%nat ->
  tame (get_addr depth d seen s) /\ forall ns r, get_addr depth d seen s = Ok (ns, r) -> shorter s r.
Proof.
  induction depth as [|depth IH]; intros seen s R D; [pose proof (refs_bound seen R); lia|]. cbn [get_addr]. apply labels_total; [|lia]. intros ref B.
  destruct (existsb (Z.eqb ref) seen) eqn:E; [exact I|]. unfold set_pos. destruct (Z.leb ref _); [|exact I]. cbn [bind].
  assert (R' : refs_ok (ref :: seen)). { destruct R as [N F]. split; [|constructor; assumption]. constructor; [|exact N]. intros K. enough (existsb (Z.eqb ref) seen = true) by congruence. apply existsb_exists. exists ref. split; [exact K|apply Z.eqb_refl]. }
  destruct (IH (ref :: seen) (skipn (Z.to_nat ref) d) R') as [T _]; [cbn; lia|]. destruct (get_addr depth d (ref :: seen) _) as [[ns r]| | | |]; try contradiction; exact I.
Qed.
Lemma max_depth_4097 : (4097 <= max_depth + length (@nil Z))%nat.
Proof. unfold max_depth. cbn [length]. lia. Qed.

(** ** What is decoded *)
Lemma nth_skipn (d : list byte) p : nth_error d p = hd_error (skipn p d).
Proof. revert p. induction d as [|a d IH]; intros [|p]; try reflexivity. apply IH. Qed.
Lemma skipn_S (d : list byte) p b r : skipn p d = b :: r -> skipn (S p) d = r.
Proof. revert p. induction d as [|a d IH]; intros [|p] H; cbn in *; try discriminate; [congruence|]. apply IH, H. Qed.
Lemma labels_sound d jump : (forall ref ns, jump ref = Ok ns -> 0 <= ref < 4096 -> exists e, name_at 191 4096 d (Z.to_nat ref) ns e) ->
  forall fuel p ns r, (p <= length d)%nat -> labels jump fuel (skipn p d) = Ok (ns, r) -> exists e, name_at 191 4096 d p ns e /\ r = skipn e d /\ (p < e <= length d)%nat.
Proof.
  intros J. induction fuel as [|fuel IH]; intros p ns r P H; [discriminate|]. cbn [labels] in H. destruct (skipn p d) as [|b s] eqn:S; [discriminate|].
  assert (N : nth_error d p = Some b) by (rewrite nth_skipn, S; reflexivity). pose proof (skipn_S _ _ _ _ S) as S1. assert (L : (length s = length d - p - 1)%nat) by (rewrite <- S1, skipn_length; lia). assert (P1 : (p < length d)%nat) by (apply nth_error_Some; congruence).
  destruct (Z.eqb_spec (Zb b) 0); [injection H as <- <-; exists (Datatypes.S p); split; [eapply name_end; eassumption|split; [congruence|lia]]|]. rewrite is_ptr in H. destruct (192 <=? Zb b) eqn:Q.
  - destruct s as [|c s]; [discriminate|]. cbn [get_u16 bind] in H. rewrite land_mod in H. destruct (jump _) as [ns'| | | |] eqn:E; try discriminate. cbn [bind] in H. injection H as <- <-. apply J in E; [|apply Z.mod_pos_bound; lia]. destruct E as [e E].
    exists (Datatypes.S (Datatypes.S p)). split; [eapply name_ptr; [exact N|rewrite nth_skipn, S1; reflexivity|lia|exact E]|]. split; [symmetry; eapply skipn_S; exact S1|]. cbn [length] in L. lia.
  - pose proof (Zb_range b). destruct (get_bytes_cases (Zb b) s) as [[K _]|[K L1]]; [lia|rewrite K in H; discriminate|]. rewrite K in H. cbn [bind] in H. rewrite <- S1, skipn_skipn in H. destruct (labels jump fuel _) as [[ns' r']| | | |] eqn:E; try discriminate. cbn [bind] in H. injection H as <- <-.
    replace (Z.to_nat (Zb b) + Datatypes.S p)%nat with (Datatypes.S p + Z.to_nat (Zb b))%nat in E by lia. apply IH in E; [|lia]. destruct E as [e [E1 [E2 E3]]]. exists e. split; [|split; [exact E2|lia]].
    apply (name_label _ _ _ _ b (Z.to_nat (Zb b))); try assumption; lia.
Qed.
Lemma get_addr_sound d : forall depth seen p ns r, (p <= length d)%nat -> get_addr depth d seen (skipn p d) = Ok (ns, r) -> exists e, name_at 191 4096 d p ns e /\ r = skipn e d /\ (p < e <= length d)%nat.
Proof.
  induction depth as [|depth IH]; intros seen p ns r P H; [discriminate|]. cbn [get_addr] in H. eapply labels_sound in H; [exact H| |exact P]. clear p ns r P H. intros ref ns H R.
  destruct (existsb _ _); [discriminate|]. unfold set_pos in H. destruct (Z.leb_spec ref (Z.of_nat (length d))); [|discriminate]. cbn [bind] in H. destruct (get_addr depth d _ _) as [[ns' r]| | | |] eqn:E; try discriminate. cbn in H. injection H as <-. apply IH in E; [|lia]. destruct E as [e [E _]]. exists e. exact E.
Qed.

(** the references followed *)
Inductive name_via (lim ref : Z) (d : list byte) : nat -> list string -> nat -> list Z -> Prop :=
| via_end p b : nth_error d p = Some b -> Zb b = 0 -> name_via lim ref d p [] (S p) []
| via_label p b n ls e v : nth_error d p = Some b -> Zb b = Z.of_nat n -> 0 < Z.of_nat n <= lim -> (S p + n <= length d)%nat -> name_via lim ref d (S p + n) ls e v ->
    name_via lim ref d p (string_of_bytes (firstn n (skipn (S p) d)) :: ls) e v
| via_ptr p b1 b2 ls e v : nth_error d p = Some b1 -> nth_error d (S p) = Some b2 -> 192 <= Zb b1 -> name_via lim ref d (Z.to_nat (un16 b1 b2 mod ref)) ls e v -> name_via lim ref d p ls (S (S p)) (un16 b1 b2 mod ref :: v).
Lemma via_of lim ref d p ls e : name_at lim ref d p ls e -> exists v, name_via lim ref d p ls e v.
Proof. induction 1 as [p b H1 H2|p b n ls e H1 H2 H3 H4 H5 [v IH]|p b1 b2 ls e H1 H2 H3 H4 [v IH]]; [exists []; econstructor; eassumption|exists v; econstructor; eassumption|exists (un16 b1 b2 mod ref :: v); econstructor; eassumption]. Qed.
Lemma via_det lim ref d p ls e v : lim < 192 -> name_via lim ref d p ls e v -> forall ls' e' v', name_via lim ref d p ls' e' v' -> ls = ls' /\ e = e' /\ v = v'.
Proof.
  intros L. induction 1 as [p b H1 H2|p b n ls e v H1 H2 H3 H4 H5 IH|p b1 b2 ls e v H1 H2 H3 H4 IH]; intros ls' e' v' K; inversion K; subst; try (exfalso; match goal with A : nth_error d p = _, B : nth_error d p = _ |- _ => rewrite A in B; injection B as -> end; lia).
  - auto.
  - match goal with A : nth_error d p = _, B : nth_error d p = _ |- _ => rewrite A in B; injection B as -> end. assert (n = n0) by lia. subst n0. edestruct IH as [-> [-> ->]]; [eassumption|]. auto.
  - repeat match goal with A : nth_error d ?q = _, B : nth_error d ?q = _ |- _ => rewrite A in B; injection B as -> end. edestruct IH as [-> [-> ->]]; [eassumption|]. auto.
Qed.
Lemma via_in lim ref d p ls e v : name_via lim ref d p ls e v -> forall r, In r v -> exists ls' e' v1 v2, v = v1 ++ r :: v2 /\ name_via lim ref d (Z.to_nat r) ls' e' v2.
Proof.
  induction 1 as [p b H1 H2|p b n ls e v H1 H2 H3 H4 H5 IH|p b1 b2 ls e v H1 H2 H3 H4 IH]; intros r R; [destruct R|exact (IH r R)|].
  destruct R as [<-|R]; [exists ls, e, [], v; auto|]. destruct (IH r R) as [ls' [e' [v1 [v2 [-> N]]]]]. exists ls', e', (un16 b1 b2 mod ref :: v1), v2. auto.
Qed.
Lemma via_range lim ref d p ls e v : 0 < ref -> name_via lim ref d p ls e v -> Forall (fun r => 0 <= r < ref) v.
Proof. intros R. induction 1; [constructor|assumption|constructor; [apply Z.mod_pos_bound; lia|assumption]]. Qed.
Lemma via_nodup lim ref d p ls e v : lim < 192 -> 0 < ref -> name_via lim ref d p ls e v -> NoDup v.
Proof.
  intros L R. induction 1 as [p b H1 H2|p b n ls e v H1 H2 H3 H4 H5 IH|p b1 b2 ls e v H1 H2 H3 H4 IH]; [constructor|exact IH|]. constructor; [|exact IH]. intros K.
  destruct (via_in _ _ _ _ _ _ _ H4 _ K) as [ls' [e' [v1 [v2 [E N]]]]]. destruct (via_det _ _ _ _ _ _ _ L H4 _ _ _ N) as [_ [_ X]]. rewrite E in X. apply (f_equal (@length Z)) in X. rewrite app_length in X. cbn in X. lia.
Qed.
Lemma via_start lim ref d p ls e v : name_via lim ref d p ls e v -> (p < length d)%nat /\ (e <= length d)%nat /\ Forall (fun r => r < Z.of_nat (length d)) v.
Proof.
  induction 1 as [p b H1 H2|p b n ls e v H1 H2 H3 H4 H5 IH|p b1 b2 ls e v H1 H2 H3 H4 IH].
  - assert (p < length d)%nat by (apply nth_error_Some; congruence). repeat split; [lia|lia|constructor].
  - destruct IH as [I1 [I2 I3]]. repeat split; [lia|lia|exact I3].
  - assert (S p < length d)%nat by (apply nth_error_Some; congruence). destruct IH as [I1 [I2 I3]]. repeat split; [lia|lia|]. constructor; [lia|exact I3].
Qed.
(** with a reference modulus that is a multiple of 4096 and a datagram of at most 4096 bytes *)
Lemma labels_complete d jump p ls e v : name_via 63 16384 d p ls e v -> (length d <= Z.to_nat 4096)%nat ->
  (forall r v2 ls' e', v = r :: v2 -> name_via 63 16384 d (Z.to_nat r) ls' e' v2 -> jump r = Ok ls') ->
  forall fuel, (length d - p < fuel)%nat -> labels jump fuel (skipn p d) = Ok (ls, skipn e d).
Proof.
  intros H D. induction H as [p b H1 H2|p b n ls e v H1 H2 H3 H4 H5 IH|p b1 b2 ls e v H1 H2 H3 H4 IH]; intros J fuel F; (destruct fuel as [|fuel]; [lia|]); cbn [labels]; rewrite nth_skipn in H1; destruct (skipn p d) as [|b' s] eqn:S; try discriminate; injection H1 as ->; pose proof (skipn_S _ _ _ _ S) as S1.
  - replace (Zb b =? 0) with true by lia. rewrite <- S1. reflexivity.
  - replace (Zb b =? 0) with false by lia. rewrite is_ptr. replace (192 <=? Zb b) with false by lia.
    destruct (get_bytes_cases (Zb b) s) as [[_ K]|[-> _]]; [lia|rewrite <- S1, skipn_length in K; lia|]. cbn [bind]. rewrite <- S1, skipn_skipn. replace (Z.to_nat (Zb b)) with n by lia. replace (n + Datatypes.S p)%nat with (Datatypes.S p + n)%nat by lia. rewrite IH; [reflexivity|exact J|lia].
  - replace (Zb b1 =? 0) with false by lia. rewrite is_ptr. replace (192 <=? Zb b1) with true by lia. rewrite nth_skipn, S1 in H2. destruct s as [|c s]; [discriminate|]. injection H2 as ->. cbn [get_u16 bind]. rewrite land_mod.
    destruct (via_start _ _ _ _ _ _ _ H4) as [V _]. pose proof (Z.mod_pos_bound (un16 b1 b2) 16384 ltac:(lia)). assert (E : un16 b1 b2 mod 4096 = un16 b1 b2 mod 16384) by lia. rewrite E, (J _ v ls e eq_refl H4). cbn [bind]. rewrite (skipn_S _ _ _ _ S1). reflexivity.
Qed.
Lemma get_addr_complete d : (length d <= Z.to_nat 4096)%nat -> forall depth seen p ls e v, name_via 63 16384 d p ls e v -> (length v < depth)%nat -> (forall r, In r seen -> ~ In r v) -> get_addr depth d seen (skipn p d) = Ok (ls, skipn e d).
Proof.
  intros D. induction depth as [|depth IH]; intros seen p ls e v H L DI; [lia|]. cbn [get_addr]. apply (labels_complete d _ p ls e v H D); [|rewrite skipn_length; lia]. intros r v2 ls' e' -> N.
  destruct (existsb (Z.eqb r) seen) eqn:E. { apply existsb_exists in E. destruct E as [r' [E1 E2]]. apply Z.eqb_eq in E2. subst r'. exfalso. apply (DI r E1). left. reflexivity. }
  destruct (via_start _ _ _ _ _ _ _ N) as [P [_ _]]. unfold set_pos. pose proof (via_range 63 16384 _ _ _ _ _ eq_refl H) as R. inversion R; subst. replace (r <=? Z.of_nat (length d)) with true by lia. cbn [bind].
  rewrite (IH (r :: seen) (Z.to_nat r) ls' e' v2 N); [reflexivity|cbn in L; lia|]. pose proof (via_nodup 63 16384 _ _ _ _ _ eq_refl eq_refl H) as ND. inversion ND; subst. intros r' [<-|R']; [assumption|]. intros K. apply (DI r' R'). right. exact K.
Qed.
Lemma rfc_decoded d p ls e : (length d <= Z.to_nat 4096)%nat -> rfc_name d p ls e -> get_addr max_depth d [] (skipn p d) = Ok (ls, skipn e d).
Proof.
  intros D H. destruct (via_of _ _ _ _ _ _ H) as [v V]. eapply get_addr_complete; [exact D|exact V| |intros r []].
  assert (R : refs_ok v). { split; [eapply via_nodup; [| |exact V]; reflexivity|]. destruct (via_start _ _ _ _ _ _ _ V) as [_ [_ B]]. pose proof (via_range 63 16384 _ _ _ _ _ eq_refl V) as A. rewrite Forall_forall in *. intros r I. specialize (A r I). specialize (B r I). lia. }
  pose proof (refs_bound v R). unfold max_depth. lia.
Qed.

(** ** Queries *)
Lemma name_at_app lim ref d x p ls e : name_at lim ref d p ls e -> name_at lim ref (d ++ x) p ls e.
Proof.
  induction 1 as [p b H1 H2|p b n ls e H1 H2 H3 H4 H5 IH|p b1 b2 ls e H1 H2 H3 H4 IH].
  - apply name_end with b; [|exact H2]. rewrite nth_error_app1; [exact H1|apply nth_error_Some; congruence].
  - replace (firstn n (skipn (S p) d)) with (firstn n (skipn (S p) (d ++ x))).
    + apply name_label with b; try assumption; [rewrite nth_error_app1; [exact H1|apply nth_error_Some; congruence]|rewrite app_length; lia].
    + rewrite skipn_app, firstn_app, skipn_length. replace (n - (length d - S p))%nat with 0%nat by lia. rewrite app_nil_r. reflexivity.
  - apply name_ptr with b1 b2 e; try assumption; rewrite nth_error_app1; try assumption; apply nth_error_Some; congruence.
Qed.
Lemma dotted_join ls : join_string ls "." = dotted ls.
Proof. induction ls as [|a [|b r] IH]; [reflexivity|reflexivity|]. rewrite join_cons, IH. reflexivity. Qed.
Lemma has_char_dot l : has_char "." l -> exists a b, l = (a ++ "." ++ b)%string.
Proof.
  induction l as [|c l IH]; cbn; [tauto|]. intros [H|H]; [exists ""%string, l; cbn; congruence|]. destruct (IH H) as [a [b ->]]. exists (String c a), b. reflexivity.
Qed.
Lemma split_dotted ls : ls <> [] -> Forall label_ok ls -> split_string (dotted ls) "." = ls.
Proof.
  intros N F. rewrite split_string_pieces, <- dotted_join. apply pieces_unique; [exact N|]. eapply Forall_impl; [|exact F]. intros l [_ K] H. apply K, has_char_dot, H.
Qed.
Lemma dotted_length a r : (String.length a + String.length (dotted r) <= String.length (dotted (a :: r)))%nat.
Proof. destruct r; cbn [dotted]; rewrite ?length_app_s; cbn; lia. Qed.
Lemma dotted_suffix a r sfx : label_ok a -> (exists pre, r = pre ++ sfx) -> (String.length (dotted sfx) < String.length (dotted (a :: r)))%nat.
Proof.
  intros [A _] [pre ->]. pose proof (dotted_length a (pre ++ sfx)). enough (String.length (dotted sfx) <= String.length (dotted (pre ++ sfx)))%nat by lia. clear. induction pre as [|b pre IH]; [reflexivity|]. pose proof (dotted_length b (pre ++ sfx)). cbn [app]. lia.
Qed.
Lemma bytes_length s : length (bytes_of_string s) = String.length s.
Proof. induction s; cbn; [reflexivity|f_equal; assumption]. Qed.
Lemma string_bytes s : string_of_bytes (bytes_of_string s) = s.
Proof. apply string_of_list_ascii_of_string. Qed.
Lemma lor_192 p : 0 <= p < 4096 -> Z.lor 49152 (Z.land 4095 p) = 49152 + p.
Proof.
  intros H. rewrite Z.land_comm, land_mod, Z.mod_small by lia. assert (X : Z.land 49152 p = 0); [|rewrite <- Z.lxor_lor by exact X; symmetry; apply Z.add_nocarry_lxor, X]. apply Z.bits_inj'. intros n N. rewrite Z.land_spec, Z.bits_0.
  destruct (Z.ltb_spec n 12).
  - replace (Z.testbit 49152 n) with false; [reflexivity|]. assert (C : n = 0 \/ n = 1 \/ n = 2 \/ n = 3 \/ n = 4 \/ n = 5 \/ n = 6 \/ n = 7 \/ n = 8 \/ n = 9 \/ n = 10 \/ n = 11) by lia. repeat (destruct C as [->|C]; [reflexivity|]). subst. reflexivity.
  - replace (Z.testbit p n) with false; [apply andb_false_r|]. symmetry. destruct (Z.eq_dec p 0) as [->|P]; [apply Z.bits_0|]. apply Z.bits_above_log2; [lia|]. enough (Z.log2 p < 12) by lia. apply Z.log2_lt_pow2; lia.
Qed.
(** the map holds, for the suffixes of [parts], where they are *)
Definition holds (q : list byte) (m : smap Z) (parts : list string) : Prop :=
  forall sfx p, sfx <> [] -> (exists pre, parts = pre ++ sfx) -> map_get (dotted sfx) m = Some p -> 0 <= p < 4096 /\ exists e, rfc_name q (Z.to_nat p) sfx e.
Lemma put_name_correct parts : Forall label_ok parts -> forall q m, sorted_keys m -> holds q m parts -> let (q', m') := put_name q m parts in (length q' <= Z.to_nat 4096)%nat ->
  exists x, q' = q ++ x /\ rfc_name q' (length q) parts (length q') /\ sorted_keys m' /\
  forall k p, map_get k m' = Some p -> map_get k m = Some p \/ exists sfx e, k = dotted sfx /\ (exists pre, parts = pre ++ sfx) /\ sfx <> [] /\ 0 <= p < 4096 /\ rfc_name q' (Z.to_nat p) sfx e.
Proof.
  induction 1 as [|a r A F IH]; intros q m SK HO; cbn [put_name].
  - intros L. exists [bZ 0]. split; [reflexivity|]. split; [|split; [exact SK|auto]]. rewrite app_length. cbn [length]. rewrite Nat.add_1_r. apply name_end with (bZ 0); [|reflexivity]. rewrite nth_error_app2, Nat.sub_diag by lia. reflexivity.
  - rewrite dotted_join. destruct (map_get (dotted (a :: r)) m) as [p|] eqn:G.
    + intros L. destruct (HO (a :: r) p ltac:(discriminate) (ex_intro _ [] eq_refl) G) as [P [e N]]. rewrite lor_192 by exact P. set (x := be16 (49152 + p)) in *. exists x. split; [reflexivity|]. split; [|split; [exact SK|auto]].
      rewrite app_length. change (length x) with 2%nat. replace (length q + 2)%nat with (S (S (length q))) by lia. apply name_ptr with (bZ ((49152 + p) / 256)) (bZ (49152 + p)) e.
      * rewrite nth_error_app2, Nat.sub_diag by lia. reflexivity.
      * rewrite nth_error_app2 by lia. replace (S (length q) - length q)%nat with 1%nat by lia. reflexivity.
      * rewrite Zb_bZ. lia.
      * replace (un16 (bZ ((49152 + p) / 256)) (bZ (49152 + p)) mod 16384) with p; [apply name_at_app, N|]. unfold un16. rewrite !Zb_bZ. lia.
    + set (q1 := q ++ bZ (Z.of_nat (String.length a)) :: bytes_of_string a). set (m1 := map_insert (dotted (a :: r)) (Z.of_nat (length q) mod two16) m).
      assert (SK1 : sorted_keys m1) by (apply insert_sorted, SK).
      assert (HO1 : holds q1 m1 r).
      { intros sfx p N [pre ->] G1. unfold m1 in G1. rewrite map_get_insert in G1 by exact SK. destruct (String.eqb_spec (dotted sfx) (dotted (a :: pre ++ sfx))) as [K|K]; [exfalso; pose proof (dotted_suffix a (pre ++ sfx) sfx A (ex_intro _ pre eq_refl)); rewrite <- K in *; lia|].
        destruct (HO sfx p N) as [P [e E]]; [exists (a :: pre); reflexivity|exact G1|]. split; [exact P|]. exists e. apply name_at_app, E. }
      specialize (IH q1 m1 SK1 HO1). destruct (put_name q1 m1 r) as [q' m'] eqn:E. intros L. destruct (IH L) as [x [X [NA [SK' MM]]]].
      assert (Q1 : length q1 = (S (length q) + String.length a)%nat) by (unfold q1; rewrite app_length; cbn [length]; rewrite bytes_length; lia).
      assert (LQ : (length q < length q')%nat) by (rewrite X, app_length; lia).
      assert (NQ : rfc_name q' (length q) (a :: r) (length q')).
      { rewrite Q1 in NA. assert (T : a = string_of_bytes (firstn (String.length a) (skipn (S (length q)) q'))).
        { rewrite X. unfold q1. rewrite <- app_assoc. cbn [app]. replace (S (length q)) with (length q + 1)%nat by lia. change (q ++ bZ (Z.of_nat (String.length a)) :: bytes_of_string a ++ x) with (q ++ [bZ (Z.of_nat (String.length a))] ++ (bytes_of_string a ++ x)). rewrite app_assoc, skipn_app, skipn_all2 by (rewrite app_length; cbn; lia). rewrite app_length. cbn [length app]. rewrite Nat.sub_diag. cbn [skipn]. rewrite <- bytes_length, firstn_app, Nat.sub_diag, firstn_all. cbn [firstn]. rewrite app_nil_r, string_bytes. reflexivity. }
        destruct A as [A1 A2]. rewrite T at 1. apply name_label with (bZ (Z.of_nat (String.length a))); [| | | |exact NA].
        - rewrite X. unfold q1. rewrite <- app_assoc, nth_error_app2, Nat.sub_diag by lia. reflexivity.
        - rewrite Zb_bZ. lia.
        - lia.
        - rewrite X, app_length. lia. }
      exists (bZ (Z.of_nat (String.length a)) :: bytes_of_string a ++ x). split; [rewrite X; unfold q1; rewrite <- app_assoc; reflexivity|]. split; [exact NQ|]. split; [exact SK'|].
      intros k p G1. destruct (MM k p G1) as [G2|[sfx [e [-> [[pre ->] [N [P NN]]]]]]]; [|right; exists sfx, e; split; [reflexivity|]; split; [exists (a :: pre); reflexivity|auto]].
      unfold m1 in G2. rewrite map_get_insert in G2 by exact SK. destruct (String.eqb_spec k (dotted (a :: r))) as [->|K]; [|left; destruct (map_get k m); exact G2].
      rewrite G in G2. injection G2 as <-. right. exists (a :: r), (length q'). split; [reflexivity|]. split; [exists []; reflexivity|]. split; [discriminate|]. unfold two16. rewrite Z.mod_small by lia. split; [lia|]. rewrite Nat2Z.id. exact NQ.
Qed.
Definition good (q : list byte) (m : smap Z) : Prop :=
  sorted_keys m /\ forall sfx p, sfx <> [] -> Forall label_ok sfx -> map_get (dotted sfx) m = Some p -> 0 <= p < 4096 /\ exists e, rfc_name q (Z.to_nat p) sfx e.
Lemma put_name_grows parts : forall q m, exists x, fst (put_name q m parts) = q ++ x.
Proof.
  induction parts as [|a r IH]; intros q m; cbn [put_name]; [eexists; reflexivity|]. destruct (map_get _ m); [eexists; reflexivity|]. destruct (IH (q ++ bZ (Z.of_nat (String.length a)) :: bytes_of_string a) (map_insert (join_string (a :: r) ".") (Z.of_nat (length q) mod two16) m)) as [x ->]. rewrite <- app_assoc. eexists. reflexivity.
Qed.
Lemma put_questions_grows qtype names : forall q m, exists x, put_questions qtype q m names = q ++ x.
Proof.
  induction names as [|a r IH]; intros q m; cbn [put_questions]; [exists []; rewrite app_nil_r; reflexivity|]. destruct (put_name q m (split_string a ".")) as [q' m'] eqn:E. destruct (put_name_grows (split_string a ".") q m) as [x X]. rewrite E in X. cbn in X. subst q'.
  destruct (IH ((q ++ x) ++ be16 qtype ++ be16 1) m') as [y ->]. rewrite <- !app_assoc. eexists. reflexivity.
Qed.
Lemma suffix_ok {A} (P : A -> Prop) pre sfx : Forall P (pre ++ sfx) -> Forall P sfx.
Proof. intros H. apply Forall_app in H. apply H. Qed.
Lemma put_questions_correct qtype names : Forall name_ok names -> forall q m, good q m -> let q' := put_questions qtype q m names in (length q' <= Z.to_nat 4096)%nat -> questions_at q' qtype (length q) names (length q').
Proof.
  induction 1 as [|a r [ls [N [F ->]]] _ IH]; intros q m [SK G]; cbn [put_questions]; [intros _; constructor|]. rewrite (split_dotted ls N F).
  pose proof (put_name_correct ls F q m SK) as C. destruct (put_name q m ls) as [q1 m1] eqn:E. cbv zeta. intros L.
  destruct (put_questions_grows qtype r (q1 ++ be16 qtype ++ be16 1) m1) as [y Y]. pose proof Y as LY. apply (f_equal (@length byte)) in LY. rewrite !app_length in LY. cbn [length] in LY. change (length (be16 qtype)) with 2%nat in LY. change (length (be16 1)) with 2%nat in LY.
  destruct C as [x [X [NA [SK1 MM]]]]; [|lia|].
  { intros sfx p N1 [pre P] G1. apply (G sfx p N1); [|exact G1]. rewrite P in F. apply (suffix_ok _ _ _ F). }
  assert (G1 : good (q1 ++ be16 qtype ++ be16 1) m1).
  { split; [exact SK1|]. intros sfx p N1 F1 K. destruct (MM _ _ K) as [K1|[sfx' [e [K1 [[pre P] [N2 [B NA']]]]]]].
    - destruct (G sfx p N1 F1 K1) as [B [e NA']]. split; [exact B|]. exists e. rewrite X, <- app_assoc. apply name_at_app, NA'.
    - assert (F2 : Forall label_ok sfx') by (rewrite P in F; apply (suffix_ok _ _ _ F)). assert (sfx = sfx') as -> by (rewrite <- (split_dotted sfx N1 F1), <- (split_dotted sfx' N2 F2), K1; reflexivity). split; [exact B|]. exists e. apply name_at_app, NA'. }
  specialize (IH _ _ G1 L). rewrite Y in IH |- *. apply one_question with (length q1).
  - rewrite <- app_assoc. apply name_at_app, NA.
  - rewrite <- !app_assoc, skipn_app, skipn_all, Nat.sub_diag. reflexivity.
  - rewrite app_length in IH. exact IH.
Qed.
Lemma make_query_correct tid qtype names : Forall name_ok names -> (length (make_query tid qtype names) <= Z.to_nat 4096)%nat ->
  questions_at (make_query tid qtype names) qtype 12 names (length (make_query tid qtype names)).
Proof.
  intros F L. unfold make_query in *. pose proof (put_questions_correct qtype names F (be16 tid ++ be16 0 ++ be16 (Z.of_nat (length names) mod two16) ++ be16 0 ++ be16 0 ++ be16 0) []) as C. cbv zeta in C. apply C; [|exact L].
  split; [exact I|discriminate].
Qed.
(** the code's own reading of questions *)
Lemma questions_read d qtype p names e : (length d <= Z.to_nat 4096)%nat -> questions_at d qtype p names e -> questions (length names) d (skipn p d) = Ok (skipn e d).
Proof.
  intros D. induction 1 as [p|p ls e rest e' N Q _ IH]; [reflexivity|]. cbn [length questions]. unfold get_addr_str. rewrite (rfc_decoded d p ls e D N). cbn [bind].
  assert (Q1 : skipn e d = (be16 qtype ++ be16 1) ++ skipn (e + 4) d) by (replace (e + 4)%nat with (4 + e)%nat by lia; rewrite <- Q; rewrite <- (firstn_skipn 4 (skipn e d)) at 1; f_equal; rewrite skipn_skipn; f_equal; lia). rewrite Q1. cbn [app get_u16 bind be16]. exact IH.
Qed.
