(** Reading a command line by tables of option names: for every set of switches. *)
From Verif Require Import Base BaseLemmas StringModel ArgModel ArgSpec ArgProperties PpmCmdSpec PpmCmdProperties.
From Coq Require Import Lia ZifyBool ZifyNat.
Local Open Scope Z_scope.

(** words read as options: the long names and the values (none for a flag) *)
Inductive reads_as_options (flags values : list (string * string)) : list string -> list (string * string) -> Prop :=
| options_none : reads_as_options flags values [] []
| options_flag name long args l : In (name, long) flags -> reads_as_options flags values args l ->
    reads_as_options flags values (name :: args) ((long, ""%string) :: l)
| options_value name long value args l : In (name, long) values -> reads_as_options flags values args l ->
    reads_as_options flags values (name :: value :: args) ((long, value) :: l).

(** the tables describe the switches *)
Record described (defs : list switch) (flags values : list (string * string)) : Prop := {
  de_flags : forallb (fun e => match first_known defs (fst e) with Some d => String.eqb (long_name d) (snd e) && is_flag d | None => false end) flags = true;
  de_values : forallb (fun e => match first_known defs (fst e) with Some d => String.eqb (long_name d) (snd e) && negb (is_flag d) | None => false end) values = true;
  de_ids : forallb (fun d => forallb (fun e => Bool.eqb (Nat.eqb (sw_id d) (sw_id e)) (String.eqb (long_name d) (long_name e))) defs) defs = true;
  de_distinct : NoDup (map sw_id defs);
  de_names : forallb (fun d => forallb (fun n => existsb (String.eqb n) (map fst flags ++ map fst values)) (sw_names d)) defs = true
}.
(** the value of every option is one that its switch takes *)
Definition fits (defs : list switch) (e : string * string) : Prop :=
  forall d, In d defs -> long_name d = fst e -> sw_kind d <> KBool -> exists x, value_text (sw_kind d) (snd e) x.

Lemma known_flag defs flags values name long : described defs flags values -> In (name, long) flags ->
  exists d, known defs name d /\ In d defs /\ long_name d = long /\ sw_kind d = KBool.
Proof.
  intros D H. pose proof (de_flags _ _ _ D) as K. rewrite forallb_forall in K. specialize (K _ H). cbn [fst snd] in K. destruct (first_known defs name) as [d|] eqn:E; [|discriminate].
  apply andb_prop in K. destruct K as [K1 K2]. apply String.eqb_eq in K1. apply first_known_known in E. exists d. unfold is_flag in K2. destruct (sw_kind d); try discriminate. tauto.
Qed.
Lemma known_value defs flags values name long : described defs flags values -> In (name, long) values ->
  exists d, known defs name d /\ In d defs /\ long_name d = long /\ sw_kind d <> KBool.
Proof.
  intros D H. pose proof (de_values _ _ _ D) as K. rewrite forallb_forall in K. specialize (K _ H). cbn [fst snd] in K. destruct (first_known defs name) as [d|] eqn:E; [|discriminate].
  apply andb_prop in K. destruct K as [K1 K2]. apply String.eqb_eq in K1. apply first_known_known in E. exists d. split; [tauto|]. split; [tauto|]. split; [exact K1|].
  unfold is_flag in K2. intros F. rewrite F in K2. discriminate.
Qed.
Lemma NoDup_map_inj {A B} (f : A -> B) l a b : NoDup (map f l) -> In a l -> In b l -> f a = f b -> a = b.
Proof.
  induction l as [|x l IH]; intros Hn Ha Hb E; [destruct Ha|]. cbn in Hn. inversion Hn; subst. destruct Ha as [<-|Ha], Hb as [<-|Hb]; [reflexivity|..].
  - destruct H1. rewrite E. apply in_map. exact Hb.
  - destruct H1. rewrite <- E. apply in_map. exact Ha.
  - apply IH; assumption.
Qed.
Lemma one_switch defs flags values d e : described defs flags values -> In d defs -> In e defs ->
  Nat.eqb (sw_id d) (sw_id e) = String.eqb (long_name d) (long_name e) /\ (sw_id d = sw_id e -> d = e).
Proof.
  intros D Hd He. split; [|apply (NoDup_map_inj sw_id defs); [apply (de_distinct _ _ _ D)|assumption|assumption]].
  pose proof (de_ids _ _ _ D) as K. rewrite forallb_forall in K. specialize (K _ Hd). rewrite forallb_forall in K. specialize (K _ He). apply Bool.eqb_prop in K. exact K.
Qed.
Definition stands_for (defs : list switch) (e : string * string) (a : nat * aval) : Prop :=
  exists d, In d defs /\ fst e = long_name d /\ fst a = sw_id d /\ suits d (snd e) (snd a).
Lemma options_switches defs flags values sw rs : described defs flags values -> reads_as_options flags values sw rs -> Forall (fits defs) rs ->
  exists l, switches defs sw l /\ Forall2 (stands_for defs) rs l.
Proof.
  intros D. induction 1 as [|name long args l Hin Hr IH|name long value args l Hin Hr IH]; intros Ht.
  - exists []. split; constructor.
  - inversion Ht; subst. destruct (IH H2) as [l' [Hs Hc]]. destruct (known_flag _ _ _ name long D Hin) as [d [Hk [Hd [Hl Hb]]]].
    exists ((sw_id d, ABool true) :: l'). split; [apply switches_flag with (name := name); assumption|]. constructor; [|exact Hc]. exists d. unfold suits. rewrite Hb. cbn [fst snd]. auto.
  - inversion Ht; subst. destruct (IH H2) as [l' [Hs Hc]]. destruct (known_value _ _ _ name long D Hin) as [d [Hk [Hd [Hl Hb]]]].
    destruct (H1 d Hd Hl Hb) as [x Hx]. cbn [snd] in Hx. exists ((sw_id d, x) :: l'). split; [apply switches_value with (name := name); assumption|]. constructor; [|exact Hc].
    exists d. unfold suits. cbn [fst snd]. split; [exact Hd|]. split; [congruence|]. split; [reflexivity|]. destruct (sw_kind d); [congruence|..]; exact Hx.
Qed.
Lemma stands_last defs flags values rs l d : described defs flags values -> Forall2 (stands_for defs) rs l -> In d defs ->
  match asked rs (long_name d) with None => last_assigned l (sw_id d) = None | Some v => exists x, last_assigned l (sw_id d) = Some x /\ suits d v x end.
Proof.
  intros D Hc Hd. induction Hc as [|[long v] [id x] rs l [e [He [E1 [E2 Hs]]]] Hc IH]; [reflexivity|]. cbn [fst snd] in E1, E2, Hs. subst long id.
  cbn [asked last_assigned]. destruct (asked rs (long_name d)) as [w|].
  - destruct IH as [y [-> Hy]]. exists y. auto.
  - rewrite IH. destruct (one_switch _ _ _ d e D Hd He) as [Eq Ek]. rewrite Eq. destruct (String.eqb (long_name d) (long_name e)) eqn:E; [|reflexivity].
    exists x. split; [reflexivity|]. apply Nat.eqb_eq in Eq. rewrite (Ek Eq). exact Hs.
Qed.
(** the variable and the flag of a switch *)
Definition option_read (rs : list (string * string)) (init st : astate) (d : switch) : Prop :=
  match asked rs (long_name d) with
  | None => a_val st (sw_id d) = a_val init (sw_id d) /\ a_set st (sw_id d) = a_set init (sw_id d)
  | Some v => suits d v (a_val st (sw_id d)) /\ a_set st (sw_id d) = true
  end.
Lemma last_assigned_app l l' i : last_assigned (l ++ l') i = match last_assigned l' i with Some v => Some v | None => last_assigned l i end.
Proof.
  induction l as [|[j v] l IH]; cbn [app last_assigned]; [destruct (last_assigned l' i); reflexivity|].
  rewrite IH. destruct (last_assigned l' i); reflexivity.
Qed.
Lemma options_read defs flags values init sw rs i o n1 n2 t1 t2 : described defs flags values ->
  n1 <> n2 -> ~ In n1 (map sw_id defs) -> ~ In n2 (map sw_id defs) ->
  reads_as_options flags values sw rs -> Forall (fits defs) rs -> ~ In i (map fst flags) -> ~ In i (map fst values) ->
  exists st, get_args defs [mkPos n1 t1 false; mkPos n2 t2 false] init (sw ++ [i; o]) = Ok (true, ""%string, st)
    /\ a_val st n1 = AStr i /\ a_val st n2 = AStr o /\ forall d, In d defs -> option_read rs init st d.
Proof.
  intros D Hn H1 H2 Hr Ht Hp1 Hp2. destruct (options_switches _ _ _ sw rs D Hr Ht) as [l [Hs Hc]].
  assert (Hw : well_formed defs [mkPos n1 t1 false; mkPos n2 t2 false] (sw ++ [i; o]) (l ++ [(n1, AStr i); (n2, AStr o)])).
  { exists sw, [i; o], l. split; [reflexivity|]. split; [exact Hs|]. split; [|reflexivity]. split; [cbn; lia|]. split; [intros q []|].
    intros d Hd Hin. pose proof (de_names _ _ _ D) as K. rewrite forallb_forall in K. specialize (K d Hd). rewrite forallb_forall in K. specialize (K i Hin).
    apply existsb_name in K. apply in_app_or in K. tauto. }
  destruct (C24_accepts _ _ init _ _ Hw) as [st [E Hst]]. exists st. split; [exact E|].
  destruct (Hst n1) as [V1 _]. destruct (Hst n2) as [V2 _]. rewrite last_assigned_app in V1, V2. cbn [last_assigned] in V1, V2. rewrite !Nat.eqb_refl in *.
  rewrite (proj2 (Nat.eqb_neq n1 n2) Hn) in V1. split; [exact V1|]. split; [exact V2|]. intros d Hd.
  destruct (Hst (sw_id d)) as [V V']. rewrite last_assigned_app in V, V'. cbn [last_assigned] in V, V'.
  rewrite (proj2 (Nat.eqb_neq (sw_id d) n1)) in V, V' by (intros K; apply H1; rewrite <- K; apply in_map; exact Hd).
  rewrite (proj2 (Nat.eqb_neq (sw_id d) n2)) in V, V' by (intros K; apply H2; rewrite <- K; apply in_map; exact Hd).
  pose proof (stands_last _ _ _ rs l d D Hc Hd) as L. unfold option_read. destruct (asked rs (long_name d)) as [v|].
  - destruct L as [x [L Hx]]. rewrite L in V, V'. rewrite V. auto.
  - rewrite L in V, V'. auto.
Qed.
(** a value no switch takes, after good ones *)
Lemma options_bad defs flags values pos init sw rs name long value rest : described defs flags values ->
  reads_as_options flags values sw rs -> Forall (fits defs) rs -> In (name, long) values -> ~ fits defs (long, value) ->
  exists msg st, get_args defs pos init (sw ++ name :: value :: rest) = Ok (false, msg, st) /\ msg <> ""%string /\ forall d, In d defs -> option_read rs init st d.
Proof.
  intros D Hr Ht Hn Hv. destruct (options_switches _ _ _ sw rs D Hr Ht) as [l [Hs Hc]]. destruct (known_value _ _ _ name long D Hn) as [d [Hk [Hd [Hl Hb]]]].
  assert (N : forall x, ~ value_text (sw_kind d) value x).
  { intros x Hx. apply Hv. intros e He El Hk'. cbn [fst snd] in *. destruct (one_switch _ _ _ d e D Hd He) as [Eq Ee]. rewrite Hl, El, String.eqb_refl in Eq.
    rewrite <- (Ee (proj1 (Nat.eqb_eq _ _) Eq)). exists x. exact Hx. }
  destruct (loop_bad defs sw l name d value rest Hs Hk Hb N _ init (le_n _)) as [msg [E Hm]]. exists msg, (assigns init l). unfold get_args. rewrite E. cbn [bind].
  split; [reflexivity|]. split; [exact Hm|]. intros e He. destruct (assigns_holds l init (sw_id e)) as [V V'].
  pose proof (stands_last _ _ _ rs l e D Hc He) as L. unfold option_read. destruct (asked rs (long_name e)) as [v|].
  - destruct L as [x [L Hx]]. rewrite L in V, V'. rewrite V. auto.
  - rewrite L in V, V'. auto.
Qed.
