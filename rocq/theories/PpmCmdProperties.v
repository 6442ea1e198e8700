(** C77: the options of ppm2pwg. *)
From Verif Require Import Base BaseLemmas StringModel StringSpec StringProofs FloatModel ParamsModel HeaderModel HeaderSpec PpmModel ArgModel ArgSpec ArgProperties PpmCmdSpec.
From Coq Require Import Lia ZifyBool ZifyNat.
Local Open Scope Z_scope.

Fixpoint first_known (defs : list switch) (name : string) : option switch :=
  match defs with
  | [] => None
  | d :: defs' => if existsb (String.eqb name) (sw_names d) then Some d else first_known defs' name
  end.
Lemma first_known_known defs name d : first_known defs name = Some d -> known defs name d /\ In d defs.
Proof.
  induction defs as [|e defs IH]; [discriminate|]. cbn [first_known]. destruct (existsb (String.eqb name) (sw_names e)) eqn:E; intros H.
  - injection H as <-. split; [|left; reflexivity]. exists [], defs. split; [reflexivity|]. split; [apply existsb_name; exact E|intros e' []].
  - destruct (IH H) as [[b [a [-> [H1 H2]]]] Hin]. split; [|right; exact Hin]. exists (e :: b), a. split; [reflexivity|]. split; [exact H1|].
    intros e' [<-|He']; [apply existsb_name_false; exact E|exact (H2 e' He')].
Qed.
Definition long_name (d : switch) : string := last (sw_names d) ""%string.
Definition is_flag (d : switch) : bool := match sw_kind d with KBool => true | _ => false end.
Lemma flag_known name long : In (name, long) flag_names -> exists d, known ppm2pwg_switches name d /\ In d ppm2pwg_switches /\ long_name d = long /\ sw_kind d = KBool.
Proof.
  intros H. assert (K : forallb (fun e => match first_known ppm2pwg_switches (fst e) with Some d => String.eqb (long_name d) (snd e) && is_flag d | None => false end) flag_names = true) by (vm_compute; reflexivity).
  rewrite forallb_forall in K. specialize (K _ H). cbn [fst snd] in K. destruct (first_known ppm2pwg_switches name) as [d|] eqn:E; [|discriminate].
  apply andb_prop in K. destruct K as [K1 K2]. apply String.eqb_eq in K1. apply first_known_known in E. exists d. unfold is_flag in K2. destruct (sw_kind d); try discriminate. tauto.
Qed.
Lemma value_known name long : In (name, long) value_names -> exists d, known ppm2pwg_switches name d /\ In d ppm2pwg_switches /\ long_name d = long /\ sw_kind d <> KBool.
Proof.
  intros H. assert (K : forallb (fun e => match first_known ppm2pwg_switches (fst e) with Some d => String.eqb (long_name d) (snd e) && negb (is_flag d) | None => false end) value_names = true) by (vm_compute; reflexivity).
  rewrite forallb_forall in K. specialize (K _ H). cbn [fst snd] in K. destruct (first_known ppm2pwg_switches name) as [d|] eqn:E; [|discriminate].
  apply andb_prop in K. destruct K as [K1 K2]. apply String.eqb_eq in K1. apply first_known_known in E. exists d. split; [tauto|]. split; [tauto|]. split; [exact K1|].
  unfold is_flag in K2. intros F. rewrite F in K2. discriminate.
Qed.
Lemma same_switch d e : In d ppm2pwg_switches -> In e ppm2pwg_switches -> Nat.eqb (sw_id d) (sw_id e) = String.eqb (long_name d) (long_name e) /\ (sw_id d = sw_id e -> sw_kind d = sw_kind e).
Proof.
  intros Hd He. assert (K : forallb (fun d => forallb (fun e => Bool.eqb (Nat.eqb (sw_id d) (sw_id e)) (String.eqb (long_name d) (long_name e))) ppm2pwg_switches) ppm2pwg_switches = true) by (vm_compute; reflexivity).
  rewrite forallb_forall in K. specialize (K _ Hd). rewrite forallb_forall in K. specialize (K _ He). apply Bool.eqb_prop in K. split; [exact K|].
  intros E. clear K. repeat destruct Hd as [<-|Hd]; try destruct Hd; repeat destruct He as [<-|He]; try destruct He; try discriminate E; reflexivity.
Qed.
(** the assignment made for an option *)
Definition suits (d : switch) (v : string) (x : aval) : Prop := match sw_kind d with KBool => x = ABool true | k => value_text k v x end.
Definition corr (e : string * string) (a : nat * aval) : Prop :=
  exists d, In d ppm2pwg_switches /\ fst e = long_name d /\ fst a = sw_id d /\ suits d (snd e) (snd a).
Lemma entry_exists m s : In s (map fst m) -> exists z, entry m s z.
Proof.
  intros H. destruct (enum_get m s) as [z|] eqn:E; [exists z; apply enum_get_entry; exact E|]. exfalso. induction m as [|[k v] m IH]; [destruct H|].
  cbn [enum_get] in E. destruct (String.eqb_spec s k) as [->|N]; [discriminate|]. destruct H as [H|H]; [cbn in H; congruence|exact (IH H E)].
Qed.
Lemma takes_value d v : In d ppm2pwg_switches -> sw_kind d <> KBool -> takes (long_name d) v -> exists x, value_text (sw_kind d) v x.
Proof.
  intros Hd Hk (T1 & T2 & T3 & T4 & T5). repeat destruct Hd as [<-|Hd]; try destruct Hd; cbn in Hk, T1, T2, T3, T4, T5 |- *; try congruence.
  all: try (exists (AStr v); reflexivity).
  all: try (destruct T5 as [z T5]; [repeat (first [left; reflexivity|right])|]; exists (AInt z); exact T5).
  - destruct (entry_exists [("pwg", 2); ("urf", 3)]%string v (T1 eq_refl)) as [z Hz]. exists (AInt z), z. auto.
  - destruct (entry_exists [("flip", 2); ("manual-tumble", 3); ("rotate", 1)]%string v) as [z Hz]; [specialize (T2 eq_refl); cbn; tauto|]. exists (AInt z), z. auto.
  - destruct (entry_exists [("draft", 3); ("high", 5); ("normal", 4)]%string v) as [z Hz]; [specialize (T3 eq_refl); cbn; tauto|]. exists (AInt z), z. auto.
  - destruct (entry_exists media_positions v) as [z Hz]; [|exists (AInt z), z; auto]. replace (map fst media_positions) with (map fst positions) by (vm_compute; reflexivity). apply T4. reflexivity.
Qed.
Lemma reads_switches sw rs : reads sw rs -> Forall (fun e => takes (fst e) (snd e)) rs -> exists l, switches ppm2pwg_switches sw l /\ Forall2 corr rs l.
Proof.
  induction 1 as [|name long args l Hin Hr IH|name long value args l Hin Hr IH]; intros Ht.
  - exists []. split; constructor.
  - inversion Ht; subst. destruct (IH H2) as [l' [Hs Hc]]. destruct (flag_known name long Hin) as [d [Hk [Hd [Hl Hb]]]].
    exists ((sw_id d, ABool true) :: l'). split; [apply switches_flag with (name := name); assumption|]. constructor; [|exact Hc]. exists d. unfold suits. rewrite Hb. cbn [fst snd]. auto.
  - inversion Ht; subst. destruct (IH H2) as [l' [Hs Hc]]. destruct (value_known name long Hin) as [d [Hk [Hd [Hl Hb]]]]. cbn [fst snd] in H1. subst long.
    destruct (takes_value d value Hd Hb H1) as [x Hx]. exists ((sw_id d, x) :: l'). split; [apply switches_value with (name := name); assumption|]. constructor; [|exact Hc].
    exists d. unfold suits. cbn [fst snd]. split; [exact Hd|]. split; [reflexivity|]. split; [reflexivity|]. destruct (sw_kind d); [congruence|..]; exact Hx.
Qed.
Lemma corr_last rs l d : Forall2 corr rs l -> In d ppm2pwg_switches ->
  match asked rs (long_name d) with None => last_assigned l (sw_id d) = None | Some v => exists x, last_assigned l (sw_id d) = Some x /\ suits d v x end.
Proof.
  intros Hc Hd. induction Hc as [|[long v] [id x] rs l [e [He [E1 [E2 Hs]]]] Hc IH]; [reflexivity|]. cbn [fst snd] in E1, E2, Hs. subst long id.
  cbn [asked last_assigned]. destruct (asked rs (long_name d)) as [w|].
  - destruct IH as [y [-> Hy]]. exists y. auto.
  - rewrite IH. destruct (same_switch d e Hd He) as [Eq Ek]. rewrite Eq. destruct (String.eqb (long_name d) (long_name e)) eqn:E; [|reflexivity].
    exists x. split; [reflexivity|]. apply Nat.eqb_eq in Eq. unfold suits in *. rewrite (Ek Eq). exact Hs.
Qed.
Lemma last_app_pos l i a b : (i < 14)%nat -> last_assigned (l ++ [(14%nat, a); (15%nat, b)]) i = last_assigned l i.
Proof.
  intros Hi. induction l as [|[j v] l IH].
  - cbn. destruct (Nat.eqb_spec i 15); [lia|]. destruct (Nat.eqb_spec i 14); [lia|reflexivity].
  - cbn [app last_assigned]. rewrite IH. reflexivity.
Qed.
Lemma last_app_in l a b : last_assigned (l ++ [(14%nat, a); (15%nat, b)]) 14 = Some a.
Proof. induction l as [|[j v] l IH]; [reflexivity|]. cbn [app last_assigned]. rewrite IH. reflexivity. Qed.
Lemma last_app_out l a b : last_assigned (l ++ [(14%nat, a); (15%nat, b)]) 15 = Some b.
Proof. induction l as [|[j v] l IH]; [reflexivity|]. cbn [app last_assigned]. rewrite IH. reflexivity. Qed.

(** one field after another *)
Lemma distinct_NoDup (l : list string) : (fix go l := match l with [] => true | a :: r => negb (existsb (String.eqb a) r) && go r end) l = true -> NoDup l.
Proof.
  induction l as [|a l IH]; intros H; [constructor|]. apply andb_prop in H. destruct H as [H1 H2]. constructor; [|apply IH; exact H2].
  apply existsb_name_false. destruct (existsb (String.eqb a) l); [discriminate|reflexivity].
Qed.
Lemma positions_distinct : NoDup (map fst media_positions).
Proof. apply distinct_NoDup. vm_compute. reflexivity. Qed.
Lemma nth_switch n : (n < 14)%nat -> In (nth n ppm2pwg_switches (mkSwitch 0 KBool [] "")) ppm2pwg_switches.
Proof. intros H. apply nth_In. exact H. Qed.
Definition urf_media (t : string) : Prop := t <> ""%string /\ exists c, In (t, c) urf_media_table.
Lemma urf_media_spec t : isUrfMediaType t = true <-> urf_media t.
Proof.
  unfold isUrfMediaType. split.
  - intros H. destruct (assoc_str t urf_media_types) as [v|] eqn:E; [|discriminate]. clear H. unfold urf_media_types in E. cbn [assoc_str] in E.
    repeat match type of E with (if String.eqb ?a ?b then _ else _) = _ => destruct (String.eqb_spec a b) as [->|]; [split; [discriminate|]; exists v; injection E as <-; unfold urf_media_table; cbn; tauto|] end. discriminate.
  - intros [Hn [c Hc]]. unfold urf_media_table in Hc. cbn [In] in Hc. repeat destruct Hc as [Hc|Hc]; try contradiction; inversion Hc; subst; try reflexivity; congruence.
Qed.
Lemma entry_in m s z : entry m s z -> In (s, z) m.
Proof. intros [b [a [-> _]]]. apply in_or_app. right. left. reflexivity. Qed.
Lemma integer_unique t z z' : integer t z -> integer t z' -> z = z'.
Proof. unfold integer. intros H1 H2. apply C24_values in H1, H2. congruence. Qed.

Lemma int_field rs l n d z : Forall2 corr rs l -> (n < 14)%nat -> let s := nth n ppm2pwg_switches (mkSwitch 0 KBool [] "") in
  sw_kind s = KInt -> sw_id s = n -> numeric rs (long_name s) d z ->
  z = match last_assigned l n with Some v => as_int v | None => d end.
Proof.
  intros Hc Hn s Hk Hi H. pose proof (corr_last rs l s Hc (nth_switch n Hn)) as K. unfold numeric in H. rewrite Hi in K.
  destruct (asked rs (long_name s)) as [t|].
  - destruct K as [x [-> Hx]]. unfold suits in Hx. rewrite Hk in Hx. destruct Hx as [neg [m [Hm [Hr ->]]]]. cbn [as_int].
    apply (integer_unique t); [exact H|]. exists neg, m. auto.
  - rewrite K. exact H.
Qed.
Lemma str_field rs l n : Forall2 corr rs l -> (n < 14)%nat -> let s := nth n ppm2pwg_switches (mkSwitch 0 KBool [] "") in
  sw_kind s = KString -> sw_id s = n -> last_assigned l n = option_map AStr (asked rs (long_name s)).
Proof.
  intros Hc Hn s Hk Hi. pose proof (corr_last rs l s Hc (nth_switch n Hn)) as K. rewrite Hi in K. destruct (asked rs (long_name s)) as [t|]; [|exact K].
  destruct K as [x [-> Hx]]. unfold suits in Hx. rewrite Hk in Hx. cbn in Hx. subst x. reflexivity.
Qed.
Lemma flag_field rs l n : Forall2 corr rs l -> (n < 14)%nat -> let s := nth n ppm2pwg_switches (mkSwitch 0 KBool [] "") in
  sw_kind s = KBool -> sw_id s = n -> match last_assigned l n with Some v => v | None => ABool false end = ABool (present rs (long_name s)).
Proof.
  intros Hc Hn s Hk Hi. pose proof (corr_last rs l s Hc (nth_switch n Hn)) as K. rewrite Hi in K. unfold present. destruct (asked rs (long_name s)) as [t|]; [|rewrite K; reflexivity].
  destruct K as [x [-> Hx]]. unfold suits in Hx. rewrite Hk in Hx. exact Hx.
Qed.
Lemma enum_field {A} rs l n m (table : list (string * A)) (f : Z -> A) d x : Forall2 corr rs l -> (n < 14)%nat -> let s := nth n ppm2pwg_switches (mkSwitch 0 KBool [] "") in
  sw_kind s = KEnum m -> sw_id s = n -> NoDup (map fst table) -> (forall t z, In (t, z) m -> In (t, f z) table) -> choice rs (long_name s) table d x ->
  x = match last_assigned l n with Some v => f (as_int v) | None => d end.
Proof.
  intros Hc Hn s Hk Hi Hnd Hf H. pose proof (corr_last rs l s Hc (nth_switch n Hn)) as K. rewrite Hi in K. unfold choice in H. destruct (asked rs (long_name s)) as [t|]; [|rewrite K; exact H].
  destruct K as [y [-> Hy]]. unfold suits in Hy. rewrite Hk in Hy. destruct Hy as [z [Hz ->]]. cbn [as_int]. apply entry_in, Hf in Hz.
  clear - Hnd H Hz. induction table as [|[k v] table IH]; [destruct H|]. cbn in Hnd. inversion Hnd; subst. destruct H as [H|H], Hz as [Hz|Hz].
  - congruence.
  - injection H as -> ->. destruct H2. apply in_map_iff. exists (t, f z). auto.
  - injection Hz as -> ->. destruct H2. apply in_map_iff. exists (t, x). auto.
  - apply IH; assumption.
Qed.

(** The options decide the parameters as the help text says, the last value of an option
    counts, and the pictures in the input file are written to the output file with these
    parameters.  A media type URF does not know is refused before the output is touched. *)
Theorem C77_options files sw rs i o p pages input : reads sw rs -> Forall (fun e => takes (fst e) (snd e)) rs -> present rs "--help" = false ->
  plain_name i -> asks rs o p pages -> files i = Some input ->
  (p_format p = URF /\ (exists t, asked rs "--media-type" = Some t /\ ~ urf_media t) /\ ppm2pwg_cmd files (sw ++ [i; o]) = Ok (1, None))
  \/ (~ (p_format p = URF /\ exists t, asked rs "--media-type" = Some t /\ ~ urf_media t)
      /\ ppm2pwg_cmd files (sw ++ [i; o]) = let! (code, out) := ppm2pwg p pages input in Ok (code, Some (o, out))).
Proof.
  intros Hr Ht Hh [Hp1 Hp2] Ha Hf. destruct (reads_switches sw rs Hr Ht) as [l [Hs Hc]].
  assert (Hw : well_formed ppm2pwg_switches ppm2pwg_pos (sw ++ [i; o]) (l ++ [(14%nat, AStr i); (15%nat, AStr o)])).
  { exists sw, [i; o], l. split; [reflexivity|]. split; [exact Hs|]. split; [|reflexivity]. split; [cbn; lia|]. split; [intros q []|].
    intros d Hd Hin. assert (K : forallb (fun d => forallb (fun n => existsb (String.eqb n) (map fst flag_names ++ map fst value_names)) (sw_names d)) ppm2pwg_switches = true) by (vm_compute; reflexivity).
    rewrite forallb_forall in K. specialize (K d Hd). rewrite forallb_forall in K. specialize (K i Hin). apply existsb_name in K. apply in_app_or in K. tauto. }
  destruct (C24_accepts _ _ ppm2pwg_init _ _ Hw) as [st [E Hst]]. unfold ppm2pwg_cmd. rewrite E. cbn [bind negb].
  assert (V : forall n, (n < 14)%nat -> a_val st n = match last_assigned l n with Some v => v | None => a_val ppm2pwg_init n end /\ a_set st n = match last_assigned l n with Some _ => true | None => false end).
  { intros n Hn. destruct (Hst n) as [V1 V2]. rewrite last_app_pos in V1, V2 by exact Hn. rewrite V1, V2. split; [reflexivity|]. destruct (last_assigned l n); reflexivity. }
  destruct (Hst 14%nat) as [V14 _]. destruct (Hst 15%nat) as [V15 _]. rewrite last_app_in in V14. rewrite last_app_out in V15.
  destruct (V 0%nat (proj1 (Nat.ltb_lt 0 14) eq_refl)) as [V0 _]. rewrite V0. pose proof (flag_field rs l 0 Hc (proj1 (Nat.ltb_lt 0 14) eq_refl) eq_refl eq_refl) as F0. cbn in F0. change (a_val ppm2pwg_init 0) with (ABool false). rewrite F0, Hh. cbn [as_bool]. rewrite V14, V15. cbn [as_str].
  destruct Ha as (A1 & A2 & A3 & [r [A4 [[x [A5 A5']] [y [A6 A6']]]]] & A7 & A8 & A9 & A10 & A11 & A12 & A13 & A14 & A15 & A16 & A17 & A18 & A19).
  set (op := ppm_opts_of st).
  assert (G1 : opt (o_format op) (if string_ends_with o ".urf" then URF else PWG) = p_format p).
  { cbn [op ppm_opts_of o_format]. unfold if_set. destruct (V 2%nat (proj1 (Nat.ltb_lt 2 14) eq_refl)) as [W1 W2]. rewrite W1, W2.
    rewrite (enum_field rs l 2 [("pwg", 2); ("urf", 3)]%string formats (fun z => if z =? 3 then URF else PWG) (if string_ends_with o ".urf" then URF else PWG) (p_format p) Hc (proj1 (Nat.ltb_lt 2 14) eq_refl) eq_refl eq_refl);
      [|apply distinct_NoDup; vm_compute; reflexivity|intros t z Hz; clear - Hz; cbn in Hz; repeat destruct Hz as [Hz|Hz]; try contradiction; injection Hz as <- <-; cbn; auto|exact A1].
    destruct (last_assigned l 2); reflexivity. }
  assert (G2 : opt (o_pages op) 0 = pages).
  { cbn [op ppm_opts_of o_pages]. unfold if_set. destruct (V 3%nat (proj1 (Nat.ltb_lt 3 14) eq_refl)) as [W1 W2]. rewrite W1, W2.
    rewrite (int_field rs l 3 0 pages Hc (proj1 (Nat.ltb_lt 3 14) eq_refl) eq_refl eq_refl A2). destruct (last_assigned l 3); reflexivity. }
  assert (G3 : opt (o_paperSize op) "iso_a4_210x297mm"%string = p_paperSizeName p).
  { cbn [op ppm_opts_of o_paperSize]. unfold if_set. destruct (V 4%nat (proj1 (Nat.ltb_lt 4 14) eq_refl)) as [W1 W2]. rewrite W1, W2.
    rewrite A3, (str_field rs l 4 Hc (proj1 (Nat.ltb_lt 4 14) eq_refl) eq_refl eq_refl). cbn. destruct (asked rs "--paper-size"); reflexivity. }
  assert (G4 : opt (o_res op) 300 = r).
  { cbn [op ppm_opts_of o_res]. unfold if_set. destruct (V 5%nat (proj1 (Nat.ltb_lt 5 14) eq_refl)) as [W1 W2]. rewrite W1, W2.
    rewrite (int_field rs l 5 300 r Hc (proj1 (Nat.ltb_lt 5 14) eq_refl) eq_refl eq_refl A4). destruct (last_assigned l 5); reflexivity. }
  assert (G5 : opt (o_resX op) r = x).
  { cbn [op ppm_opts_of o_resX]. unfold if_set. destruct (V 6%nat (proj1 (Nat.ltb_lt 6 14) eq_refl)) as [W1 W2]. rewrite W1, W2.
    rewrite (int_field rs l 6 r x Hc (proj1 (Nat.ltb_lt 6 14) eq_refl) eq_refl eq_refl A5). destruct (last_assigned l 6); reflexivity. }
  assert (G6 : opt (o_resY op) r = y).
  { cbn [op ppm_opts_of o_resY]. unfold if_set. destruct (V 7%nat (proj1 (Nat.ltb_lt 7 14) eq_refl)) as [W1 W2]. rewrite W1, W2.
    rewrite (int_field rs l 7 r y Hc (proj1 (Nat.ltb_lt 7 14) eq_refl) eq_refl eq_refl A6). destruct (last_assigned l 7); reflexivity. }
  assert (G7 : o_duplex op = present rs "--duplex").
  { cbn [op ppm_opts_of o_duplex]. destruct (V 8%nat (proj1 (Nat.ltb_lt 8 14) eq_refl)) as [W1 _]. rewrite W1. pose proof (flag_field rs l 8 Hc (proj1 (Nat.ltb_lt 8 14) eq_refl) eq_refl eq_refl) as F. cbn in F. change (a_val ppm2pwg_init 8) with (ABool false). rewrite F. reflexivity. }
  assert (G8 : o_tumble op = present rs "--tumble").
  { cbn [op ppm_opts_of o_tumble]. destruct (V 9%nat (proj1 (Nat.ltb_lt 9 14) eq_refl)) as [W1 _]. rewrite W1. pose proof (flag_field rs l 9 Hc (proj1 (Nat.ltb_lt 9 14) eq_refl) eq_refl eq_refl) as F. cbn in F. change (a_val ppm2pwg_init 9) with (ABool false). rewrite F. reflexivity. }
  assert (G9 : opt (o_backXform op) Normal = p_backXform p).
  { cbn [op ppm_opts_of o_backXform]. unfold if_set. destruct (V 10%nat (proj1 (Nat.ltb_lt 10 14) eq_refl)) as [W1 W2]. rewrite W1, W2.
    rewrite (enum_field rs l 10 [("flip", 2); ("manual-tumble", 3); ("rotate", 1)]%string back_sides (fun z => if z =? 1 then Rotated else if z =? 2 then Flipped else if z =? 3 then ManualTumble else Normal) Normal (p_backXform p) Hc (proj1 (Nat.ltb_lt 10 14) eq_refl) eq_refl eq_refl);
      [|apply distinct_NoDup; vm_compute; reflexivity|intros t z Hz; clear - Hz; cbn in Hz; repeat destruct Hz as [Hz|Hz]; try contradiction; injection Hz as <- <-; cbn; auto|exact A8].
    destruct (last_assigned l 10); reflexivity. }
  assert (G10 : opt (o_quality op) DefaultQuality = p_quality p).
  { cbn [op ppm_opts_of o_quality]. unfold if_set. destruct (V 11%nat (proj1 (Nat.ltb_lt 11 14) eq_refl)) as [W1 W2]. rewrite W1, W2.
    rewrite (enum_field rs l 11 [("draft", 3); ("high", 5); ("normal", 4)]%string qualities (fun z => if z =? 3 then DraftQuality else if z =? 4 then NormalQuality else if z =? 5 then HighQuality else DefaultQuality) DefaultQuality (p_quality p) Hc (proj1 (Nat.ltb_lt 11 14) eq_refl) eq_refl eq_refl);
      [|apply distinct_NoDup; vm_compute; reflexivity|intros t z Hz; clear - Hz; cbn in Hz; repeat destruct Hz as [Hz|Hz]; try contradiction; injection Hz as <- <-; cbn; auto|exact A9].
    destruct (last_assigned l 11); reflexivity. }
  assert (G11 : opt (o_mediaPosition op) 0 = p_mediaPosition p).
  { cbn [op ppm_opts_of o_mediaPosition]. unfold if_set. destruct (V 12%nat (proj1 (Nat.ltb_lt 12 14) eq_refl)) as [W1 W2]. rewrite W1, W2.
    assert (Ep : positions = media_positions) by (vm_compute; reflexivity).
    rewrite (enum_field rs l 12 media_positions positions (fun z => z) 0 (p_mediaPosition p) Hc (proj1 (Nat.ltb_lt 12 14) eq_refl) eq_refl eq_refl);
      [|rewrite Ep; exact positions_distinct|intros t z Hz; rewrite Ep; exact Hz|exact A10].
    destruct (last_assigned l 12); reflexivity. }
  assert (G12 : o_mediaType op = asked rs "--media-type").
  { cbn [op ppm_opts_of o_mediaType]. unfold if_set. destruct (V 13%nat (proj1 (Nat.ltb_lt 13 14) eq_refl)) as [W1 W2]. rewrite W1, W2.
    rewrite (str_field rs l 13 Hc (proj1 (Nat.ltb_lt 13 14) eq_refl) eq_refl eq_refl). change (long_name (nth 13 ppm2pwg_switches (mkSwitch 0 KBool [] ""))) with "--media-type"%string. destruct (asked rs "--media-type"); reflexivity. }
  assert (G13 : o_outFile op = o) by (cbn [op ppm_opts_of o_outFile]; rewrite V15; reflexivity).
  unfold ppm2pwg_params. cbv zeta. rewrite G13, G1, G12.
  change (p_quality default_params) with DefaultQuality. change (p_paperSizeName default_params) with "iso_a4_210x297mm"%string. change (p_hwResW default_params) with 300. change (p_hwResH default_params) with 300.
  change (p_duplexMode default_params) with OneSided. change (p_backXform default_params) with Normal. change (p_mediaPosition default_params) with 0. rewrite G2, G3, G4, G5, G6, G7, G8, G9, G10, G11.
  match goal with |- context [match (if ?b then None else Some ?q) with Some _ => _ | None => _ end] => assert (Eq : q = p); [|set (bad := b)] end.
  { change two32 with (2 ^ 32). change (opt (asked rs "--media-type") ""%string) with (match asked rs "--media-type" with Some t => t | None => ""%string end). rewrite <- A5', <- A6', <- A7, <- A11. change (p_colorMode default_params) with sRGB24. change (p_antiAlias default_params) with false.
    change (p_sizeW default_params) with (fofZ 210). change (p_sizeH default_params) with (fofZ 297). change (p_copies default_params) with 1. change (p_collated default_params) with true. change (p_pageRanges default_params) with (@nil (Z * Z)).
    rewrite <- A12, <- A13, <- A14, <- A15, <- A16, <- A17, <- A18, <- A19. destruct p. reflexivity. }
  rewrite Eq. assert (B : bad = true <-> (p_format p = URF /\ exists t, asked rs "--media-type" = Some t /\ ~ urf_media t)).
  { subst bad. clear. destruct (p_format p); split; try discriminate; try (intros [K _]; discriminate K).
    - destruct (asked rs "--media-type") as [t|]; [|discriminate]. intros H. split; [reflexivity|]. exists t. split; [reflexivity|]. rewrite <- urf_media_spec. destruct (isUrfMediaType t); discriminate.
    - intros [_ [t [-> Hn]]]. rewrite <- urf_media_spec in Hn. destruct (isUrfMediaType t); [destruct (Hn eq_refl)|reflexivity]. }
  destruct bad.
  - left. destruct (proj1 B eq_refl) as [B1 B2]. split; [exact B1|]. split; [exact B2|reflexivity].
  - right. split; [intros K; apply B in K; discriminate|]. rewrite Hf. reflexivity.
Qed.
(** A value the option does not take: exit code 1, and nothing is written (unless the help
    text was asked for before). *)
Lemma loop_bad defs sw l name d value rest : switches defs sw l -> known defs name d -> sw_kind d <> KBool -> (forall x, ~ value_text (sw_kind d) value x) ->
  forall fuel st, (length (sw ++ name :: value :: rest) <= fuel)%nat -> exists msg, switch_loop fuel defs st (sw ++ name :: value :: rest) = Ok (inr (msg, assigns st l)) /\ msg <> ""%string.
Proof.
  intros Hs Hk Hb Hv. induction Hs as [|n e args l Hk' Hb' Hs IH|n v x e args l Hk' Hb' Hc Hs IH]; intros fuel st Hf.
  - destruct fuel as [|fuel]; [cbn in Hf; lia|]. cbn [app switch_loop]. destruct (try_known defs name d st (value :: rest) Hk) as [y E]. rewrite E.
    assert (Hin : In name (sw_names d)) by (destruct Hk as [? [? [_ [Hin _]]]]; exact Hin). rewrite (parse_known d st name (value :: rest) Hin).
    assert (Hn : forall x, convert (sw_kind d) value <> Ok x) by (intros x Hx; apply C24_values in Hx; exact (Hv x Hx)).
    destruct (sw_kind d); [congruence|..]; (destruct (convert _ value) as [x| | | |] eqn:Ec; [destruct (Hn x eq_refl)|..]; (eexists; split; [reflexivity|apply switch_error_nonempty])).
  - cbn [app length] in Hf. destruct fuel as [|fuel]; [lia|]. cbn [app switch_loop]. destruct (try_known defs n e st (args ++ name :: value :: rest) Hk') as [y E].
    rewrite E. destruct Hk' as [? [? [_ [Hin _]]]]. rewrite (parse_known e st n _ Hin), Hb'. apply IH. lia.
  - cbn [app length] in Hf. destruct fuel as [|fuel]; [lia|]. cbn [app switch_loop]. destruct (try_known defs n e st (v :: args ++ name :: value :: rest) Hk') as [y E].
    rewrite E. destruct Hk' as [? [? [_ [Hin _]]]]. rewrite (parse_known e st n _ Hin). apply C24_values in Hc. destruct (sw_kind e) eqn:K; [congruence|..]; rewrite Hc; apply IH; lia.
Qed.
Lemma value_takes d v x : In d ppm2pwg_switches -> sw_kind d <> KBool -> value_text (sw_kind d) v x -> takes (long_name d) v.
Proof.
  intros Hd Hk Hx. unfold takes, integer. repeat destruct Hd as [<-|Hd]; try destruct Hd; cbn [sw_kind] in Hk, Hx; try congruence; cbn [long_name last sw_names].
  all: split; [intros E; try discriminate E|split; [intros E; try discriminate E|split; [intros E; try discriminate E|split; [intros E; try discriminate E|intros E; try (repeat destruct E as [E|E]; try discriminate E; destruct E)]]]].
  all: try (destruct Hx as [neg [n [H1 [H2 ->]]]]; exists (signed neg n), neg, n; auto; fail).
  all: destruct Hx as [z [Hz ->]]; apply entry_in in Hz; apply (in_map fst) in Hz; cbn [fst] in Hz.
  - exact Hz.
  - cbn in Hz |- *. tauto.
  - cbn in Hz |- *. tauto.
  - replace (map fst positions) with (map fst media_positions) by (vm_compute; reflexivity). exact Hz.
Qed.
Theorem C77_bad_value files sw rs name long value rest : reads sw rs -> Forall (fun e => takes (fst e) (snd e)) rs -> In (name, long) value_names -> ~ takes long value ->
  ppm2pwg_cmd files (sw ++ name :: value :: rest) = Ok (if present rs "--help" then 0 else 1, None).
Proof.
  intros Hr Ht Hn Hv. destruct (reads_switches sw rs Hr Ht) as [l [Hs Hc]]. destruct (value_known name long Hn) as [d [Hk [Hd [<- Hb]]]].
  destruct (loop_bad ppm2pwg_switches sw l name d value rest Hs Hk Hb (fun x Hx => Hv (value_takes d value x Hd Hb Hx)) _ ppm2pwg_init (le_n _)) as [msg [E _]].
  unfold ppm2pwg_cmd, get_args. rewrite E. cbn [bind negb]. destruct (assigns_holds l ppm2pwg_init 0%nat) as [V _]. rewrite V. change (a_val ppm2pwg_init 0) with (ABool false).
  pose proof (flag_field rs l 0 Hc (proj1 (Nat.ltb_lt 0 14) eq_refl) eq_refl eq_refl) as F0. cbn in F0. rewrite F0. cbn [as_bool]. destruct (present rs "--help"); reflexivity.
Qed.
(** --help: the help text and nothing else *)
Theorem C77_help files sw rs i o : reads sw rs -> Forall (fun e => takes (fst e) (snd e)) rs -> present rs "--help" = true -> plain_name i -> ppm2pwg_cmd files (sw ++ [i; o]) = Ok (0, None).
Proof.
  intros Hr Ht Hh [Hp1 Hp2]. destruct (reads_switches sw rs Hr Ht) as [l [Hs Hc]].
  assert (Hw : well_formed ppm2pwg_switches ppm2pwg_pos (sw ++ [i; o]) (l ++ [(14%nat, AStr i); (15%nat, AStr o)])).
  { exists sw, [i; o], l. split; [reflexivity|]. split; [exact Hs|]. split; [|reflexivity]. split; [cbn; lia|]. split; [intros q []|].
    intros d Hd Hin. assert (K : forallb (fun d => forallb (fun n => existsb (String.eqb n) (map fst flag_names ++ map fst value_names)) (sw_names d)) ppm2pwg_switches = true) by (vm_compute; reflexivity).
    rewrite forallb_forall in K. specialize (K d Hd). rewrite forallb_forall in K. specialize (K i Hin). apply existsb_name in K. apply in_app_or in K. tauto. }
  destruct (C24_accepts _ _ ppm2pwg_init _ _ Hw) as [st [E Hst]]. unfold ppm2pwg_cmd. rewrite E. cbn [bind negb]. destruct (Hst 0%nat) as [V _]. rewrite V, last_app_pos by lia. change (a_val ppm2pwg_init 0) with (ABool false).
  pose proof (flag_field rs l 0 Hc (proj1 (Nat.ltb_lt 0 14) eq_refl) eq_refl eq_refl) as F0. cbn in F0. rewrite F0, Hh. reflexivity.
Qed.

Definition ex_words : list string := ["-r"; "150"; "-d"; "-rx"; "600"; "-mp"; "tray-2"; "-q"; "draft"; "-q"; "high"]%string.
Definition ex_reads : list (string * string) :=
  [("--resolution", "150"); ("--duplex", ""); ("--resolution-x", "600"); ("--media-pos", "tray-2"); ("--quality", "draft"); ("--quality", "high")]%string.
Definition ex_asked : params :=
  {| p_format := URF; p_colorMode := sRGB24; p_quality := HighQuality; p_antiAlias := false; p_paperSizeName := "iso_a4_210x297mm"; p_hwResW := 600; p_hwResH := 150;
     p_units := Pixels; p_sizeW := fofZ 210; p_sizeH := fofZ 297; p_duplexMode := TwoSidedLongEdge; p_backXform := Normal; p_copies := 1; p_collated := true;
     p_pageRanges := []; p_mediaPosition := 21; p_mediaType := "" |}.
Example C77_example : reads ex_words ex_reads /\ Forall (fun e => takes (fst e) (snd e)) ex_reads /\ present ex_reads "--help" = false /\ plain_name "in.ppm"
  /\ asks ex_reads "out.urf" ex_asked 0.
Proof.
  split.
  { unfold ex_words, ex_reads. apply reads_value; [cbn; tauto|]. apply reads_flag; [cbn; tauto|]. repeat (apply reads_value; [cbn; tauto|]). apply reads_none. }
  split.
  { assert (I150 : exists z, integer "150" z) by (exists 150; apply C24_values; vm_compute; reflexivity).
    assert (I600 : exists z, integer "600" z) by (exists 600; apply C24_values; vm_compute; reflexivity).
    unfold ex_reads. repeat (apply Forall_cons; [cbn [fst snd]|]); [..|apply Forall_nil];
      (split; [|split; [|split; [|split]]]); intros E; try discriminate E; try exact I150; try exact I600;
      try (repeat destruct E as [E|E]; try discriminate E; destruct E; fail); apply existsb_name; vm_compute; reflexivity. }
  split; [reflexivity|]. split; [split; cbn; intuition discriminate|].
  assert (N : forall t z, convert KInt t = Ok (AInt z) -> integer t z) by (intros t z H; apply C24_values; exact H).
  unfold asks, choice, numeric.
  change (asked ex_reads "--format") with (@None string). change (asked ex_reads "--num-pages") with (@None string). change (asked ex_reads "--paper-size") with (@None string).
  change (asked ex_reads "--resolution") with (Some "150"%string). change (asked ex_reads "--resolution-x") with (Some "600"%string). change (asked ex_reads "--resolution-y") with (@None string).
  change (asked ex_reads "--back-xform") with (@None string). change (asked ex_reads "--quality") with (Some "high"%string). change (asked ex_reads "--media-pos") with (Some "tray-2"%string).
  change (asked ex_reads "--media-type") with (@None string). change (present ex_reads "--tumble") with false. change (present ex_reads "--duplex") with true. cbn iota.
  split; [reflexivity|]. split; [reflexivity|]. split; [reflexivity|]. split.
  - exists 150. split; [apply N; vm_compute; reflexivity|]. split; [exists 600; split; [apply N; vm_compute; reflexivity|reflexivity]|exists 150; split; reflexivity].
  - split; [reflexivity|]. split; [reflexivity|]. split; [right; right; left; reflexivity|]. split; [|repeat split; reflexivity].
    apply in_or_app. right. apply in_or_app. left. right. left. reflexivity.
Qed.
Example C77_bad_example : ~ takes "--quality" "best" /\ ~ takes "--resolution" "high".
Proof.
  split; intros (_ & _ & T3 & _ & T5).
  - specialize (T3 eq_refl). cbn in T3. intuition discriminate.
  - destruct T5 as [z Hz]; [right; left; reflexivity|]. unfold integer in Hz. apply C24_values in Hz. vm_compute in Hz. discriminate.
Qed.

Print Assumptions C77_options.
Print Assumptions C77_bad_value.
Print Assumptions C77_help.
