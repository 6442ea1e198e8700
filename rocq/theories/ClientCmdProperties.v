(** C92: the command line of ippclient. *)
From Verif Require Import Base BaseLemmas MapModel MapProofs FloatModel StringModel StringSpec StringProofs ParamsModel ParamsSpec ParamsProperties
  IppModel IppEncProofs JsonModel ArgModel ArgSpec ArgProperties PpmCmdSpec PpmCmdProperties OptionProofs SettingModel SettingProperties ConverterModel JobModel JobProofs JobProperties
  PrinterModel PrinterProperties SettingsModel ClientModel ClientSpec ClientProperties ClientCmdSpec.
From Coq Require Import Lia ZifyBool ZifyNat.
Local Open Scope Z_scope.

(** ** The tables describe the switches *)
Definition common : list switch := [oHelp; oVerbose].
Definition cancel_switches : list switch := [oHelp; oVerbose; oId].
Lemma common_described : described common common_flags [].
Proof. constructor; try (vm_compute; reflexivity). cbn. repeat constructor; cbn; lia. Qed.
Lemma cancel_described : described cancel_switches common_flags [("--id", "--id")]%string.
Proof. constructor; try (vm_compute; reflexivity). cbn. repeat constructor; cbn; lia. Qed.
Lemma print_described : described print_switches print_flags print_values.
Proof. constructor; try (vm_compute; reflexivity). cbn. repeat constructor; cbn; lia. Qed.

(** switches are options of the tables *)
Lemma known_unique defs name d e : known defs name d -> known defs name e -> d = e.
Proof.
  assert (K : forall e, known defs name e -> first_known defs name = Some e); [|intros H1 H2; apply K in H1, H2; congruence].
  clear. intros e (b & a & -> & H1 & H2). induction b as [|x b IH]; cbn [first_known List.app].
  - rewrite (proj2 (existsb_name _ _) H1). reflexivity.
  - rewrite (proj2 (existsb_name_false _ _) (H2 x (or_introl eq_refl))). apply IH. intros y Hy. apply H2. right. exact Hy.
Qed.
Lemma switches_options defs flags values sw l : described defs flags values -> switches defs sw l -> exists rs, reads_as_options flags values sw rs /\ Forall (fits defs) rs.
Proof.
  intros D H. assert (T : forall name d, known defs name d -> In (name, long_name d) flags /\ sw_kind d = KBool \/ In (name, long_name d) values /\ sw_kind d <> KBool).
  { intros name d Hk. assert (Hd : In d defs /\ In name (sw_names d)). { destruct Hk as (b & a & -> & Hn & _). split; [apply in_or_app; right; left; reflexivity|exact Hn]. }
    destruct Hd as [Hd Hn]. pose proof (de_names _ _ _ D) as K. rewrite forallb_forall in K. specialize (K d Hd). rewrite forallb_forall in K. specialize (K name Hn).
    apply existsb_name in K. apply in_app_or in K. destruct K as [K|K]; apply in_map_iff in K; destruct K as ([n long] & E & K); cbn [fst] in E; subst n.
    - left. destruct (known_flag _ _ _ name long D K) as (e & Ke & _ & <- & Kb). rewrite (known_unique _ _ _ _ Hk Ke). split; assumption.
    - right. destruct (known_value _ _ _ name long D K) as (e & Ke & _ & <- & Kb). rewrite (known_unique _ _ _ _ Hk Ke). split; assumption. }
  induction H as [|name d args l Hk Hb Hs IH|name value x d args l Hk Hb Hv Hs IH].
  - exists []. split; constructor.
  - destruct IH as (rs & Hr & Hf). destruct (T name d Hk) as [[Hin _]|[_ N]]; [|congruence]. exists ((long_name d, ""%string) :: rs). split; [apply options_flag with (name := name); assumption|]. constructor; [|exact Hf].
    intros e He El Hk'. cbn [fst] in El. assert (Hd : In d defs) by (destruct Hk as (b & a & -> & _); apply in_or_app; right; left; reflexivity).
    destruct (one_switch _ _ _ d e D Hd He) as [Eq Ee]. rewrite El, String.eqb_refl in Eq. apply Nat.eqb_eq in Eq. rewrite (Ee Eq) in Hb. congruence.
  - destruct IH as (rs & Hr & Hf). destruct (T name d Hk) as [[_ N]|[Hin _]]; [congruence|]. exists ((long_name d, value) :: rs). split; [apply options_value with (name := name); assumption|]. constructor; [|exact Hf].
    intros e He El Hk'. cbn [fst snd] in *. assert (Hd : In d defs) by (destruct Hk as (b & a & -> & _); apply in_or_app; right; left; reflexivity).
    destruct (one_switch _ _ _ d e D Hd He) as [Eq Ee]. rewrite El, String.eqb_refl in Eq. apply Nat.eqb_eq in Eq. rewrite <- (Ee Eq). exists x. exact Hv.
Qed.

(** ** The values *)
Lemma client_fits defs name value : In defs [common; cancel_switches; print_switches] -> client_takes name value -> fits defs (name, value).
Proof.
  intros Hdefs (T1 & T2 & T3 & T4) d Hd Hl Hk. cbn [fst snd] in *.
  assert (Hd' : In d (oId :: print_switches)). { destruct Hdefs as [<-|[<-|[<-|[]]]]; cbn in Hd |- *; tauto. }
  clear Hdefs Hd. unfold print_switches, oHelp, oVerbose, oId in Hd'. cbn [In] in Hd'. repeat destruct Hd' as [<-|Hd']; try destruct Hd'; cbn [sw_kind] in Hk |- *; try congruence; cbn in Hl; subst name.
  all: try (exists (AStr value); reflexivity).
  all: try (destruct T3 as [z Hz]; [cbn; tauto|]; exists (AInt z); exact Hz).
  all: try (destruct T4 as [z Hz]; [cbn; tauto|]; exists (AInt z); exact Hz).
  - destruct (entry_exists [("no", 0); ("yes", 1)]%string value) as [z Hz]; [specialize (T1 eq_refl); cbn in T1 |- *; tauto|]. exists (AInt z), z. auto.
  - destruct (entry_exists [("draft", 3); ("high", 5); ("normal", 4)]%string value) as [z Hz]; [specialize (T2 eq_refl); cbn in T2 |- *; tauto|]. exists (AInt z), z. auto.
Qed.
Lemma fits_client defs flags values name long value : described defs flags values -> In defs [common; cancel_switches; print_switches] -> In (name, long) values -> fits defs (long, value) -> client_takes long value.
Proof.
  intros D Hdefs Hin Hf. destruct (known_value _ _ _ name long D Hin) as (d & _ & Hd & Hl & Hb). destruct (Hf d Hd Hl Hb) as [x Hx]. cbn [snd] in Hx. clear Hf Hin D.
  assert (Hd' : In d (oId :: print_switches)). { destruct Hdefs as [<-|[<-|[<-|[]]]]; cbn in Hd |- *; tauto. } clear Hdefs Hd.
  unfold client_takes, integer, natural. unfold print_switches, oHelp, oVerbose, oId in Hd'. cbn [In] in Hd'. repeat destruct Hd' as [<-|Hd']; try destruct Hd'; cbn [sw_kind] in Hb, Hx; try congruence; cbn in Hl; subst long.
  all: repeat (split; [intros E; try discriminate E; try (repeat destruct E as [E|E]; try discriminate E; destruct E; fail)|]); try (intros E; try (repeat destruct E as [E|E]; try discriminate E; destruct E; fail)).
  all: try (destruct Hx as [neg [n [H1 [H2 ->]]]]; eexists; exists neg, n; eauto; fail).
  all: destruct Hx as [z [Hz ->]]; apply entry_in in Hz; apply (in_map fst) in Hz; cbn [fst] in Hz; cbn in Hz |- *; tauto.
Qed.
Lemma flag_takes defs flags values name long : described defs flags values -> In defs [common; cancel_switches; print_switches] -> In (name, long) flags -> client_takes long "".
Proof.
  intros D Hdefs Hin. destruct (known_flag _ _ _ name long D Hin) as (d & _ & Hd & Hl & Hb). clear Hin D.
  assert (Hd' : In d (oId :: print_switches)). { destruct Hdefs as [<-|[<-|[<-|[]]]]; cbn in Hd |- *; tauto. } clear Hdefs Hd.
  unfold client_takes. unfold print_switches, oHelp, oVerbose, oId in Hd'. cbn [In] in Hd'. repeat destruct Hd' as [<-|Hd']; try destruct Hd'; cbn [sw_kind] in Hb; try congruence; cbn in Hl; subst long.
  all: repeat split; intros E; try discriminate E; try (repeat destruct E as [E|E]; try discriminate E; destruct E; fail).
Qed.
Lemma fits_takes defs flags values sw rs : described defs flags values -> In defs [common; cancel_switches; print_switches] -> reads_as_options flags values sw rs ->
  Forall (fits defs) rs <-> Forall (fun e => client_takes (fst e) (snd e)) rs.
Proof.
  intros D Hdefs Hr. split; intros H; [|eapply Forall_impl; [|exact H]; intros [n v] Hv; apply client_fits; assumption].
  induction Hr as [|name long args l Hin Hr IH|name long value args l Hin Hr IH]; inversion H; subst; constructor; try (apply IH; assumption); cbn [fst snd].
  - eapply flag_takes; eassumption.
  - eapply fits_client; eassumption.
Qed.

(** ** Reading a command *)
Lemma options_read_n defs flags values init sw rs pos p : described defs flags values -> NoDup (map pa_id pos) -> (forall i, In i (map pa_id pos) -> ~ In i (map sw_id defs)) ->
  reads_as_options flags values sw rs -> Forall (fits defs) rs -> length p = length pos ->
  match p with [] => True | w :: _ => ~ In w (map fst flags) /\ ~ In w (map fst values) end ->
  exists st, get_args defs pos init (sw ++ p) = Ok (true, ""%string, st)
    /\ (forall k d, (k < length pos)%nat -> a_val st (pa_id (nth k pos d)) = AStr (nth k p ""%string))
    /\ (forall d, In d defs -> option_read rs init st d)
    /\ (forall i, ~ In i (map pa_id pos) -> ~ In i (map sw_id defs) -> a_val st i = a_val init i /\ a_set st i = a_set init i).
Proof.
  intros D Hn Hdis Hr Ht Hl Hp. destruct (options_switches _ _ _ sw rs D Hr Ht) as [l [Hs Hc]].
  assert (Hw : well_formed defs pos (sw ++ p) (l ++ pos_assigned pos p)).
  { exists sw, p, l. split; [reflexivity|]. split; [exact Hs|]. split; [|reflexivity]. split; [lia|]. split; [rewrite Hl, skipn_all; intros q []|].
    destruct p as [|w p]; [exact I|]. destruct Hp as [Hp1 Hp2].
    intros d Hd Hin. pose proof (de_names _ _ _ D) as K. rewrite forallb_forall in K. specialize (K d Hd). rewrite forallb_forall in K. specialize (K w Hin).
    apply existsb_name in K. apply in_app_or in K. tauto. }
  destruct (C24_accepts _ _ init _ _ Hw) as [st [E Hst]]. exists st. split; [exact E|].
  assert (A : forall i, ~ In i (map pa_id pos) -> last_assigned (pos_assigned pos p) i = None).
  { clear -Hl. unfold pos_assigned. revert p Hl. induction pos as [|q pos IH]; intros p Hl i Hi; [reflexivity|]. destruct p as [|w p]; [discriminate|]. cbn [combine map last_assigned fst snd].
    rewrite (IH p) by (cbn in Hl, Hi; try lia; tauto). destruct (Nat.eqb_spec i (pa_id q)) as [Q|Q]; [|reflexivity]. contradiction Hi. left. congruence. }
  assert (B : forall k d, (k < length pos)%nat -> last_assigned (pos_assigned pos p) (pa_id (nth k pos d)) = Some (AStr (nth k p ""%string))).
  { clear -Hl Hn A. unfold pos_assigned. clear A. revert p Hl. induction pos as [|q pos IH]; intros p Hl k d Hk; [cbn in Hk; lia|]. destruct p as [|w p]; [discriminate|]. cbn [combine map last_assigned fst snd].
    cbn [map] in Hn. inversion_clear Hn as [|? ? N1 N2]. destruct k as [|k].
    - cbn [nth]. rewrite Nat.eqb_refl. assert (X : last_assigned (map (fun e => (pa_id (fst e), AStr (snd e))) (combine pos p)) (pa_id q) = None); [|rewrite X; reflexivity].
      clear -N1. revert p. induction pos as [|q' pos IH]; intros p; [reflexivity|]. destruct p as [|w p]; [reflexivity|]. cbn [combine map last_assigned fst snd].
      rewrite IH by (intros K; apply N1; right; exact K). destruct (Nat.eqb_spec (pa_id q) (pa_id q')) as [Q|Q]; [|reflexivity]. contradiction N1. left. congruence.
    - cbn [nth]. rewrite (IH N2 p ltac:(cbn in Hl; lia) k d ltac:(cbn in Hk; lia)). reflexivity. }
  split; [intros k d Hk; destruct (Hst (pa_id (nth k pos d))) as [V _]; rewrite last_assigned_app, (B k d Hk) in V; exact V|]. split.
  - intros d Hd. destruct (Hst (sw_id d)) as [V V']. rewrite last_assigned_app in V, V'. rewrite A in V, V' by (intros K; apply (Hdis _ K); apply in_map; exact Hd).
    pose proof (stands_last _ _ _ rs l d D Hc Hd) as L. unfold option_read. destruct (asked rs (long_name d)) as [v|].
    + destruct L as [x [L Hx]]. rewrite L in V, V'. rewrite V. auto.
    + rewrite L in V, V'. auto.
  - intros i Hi1 Hi2. destruct (Hst i) as [V V']. rewrite last_assigned_app, A in V, V' by exact Hi1.
    assert (L : last_assigned l i = None). { clear -Hc Hi2. induction Hc as [|e [j v] rs l [d (Hd & _ & E & _)] Hc IH]; [reflexivity|]. cbn [last_assigned]. rewrite IH. cbn [fst] in E. subst j.
      destruct (Nat.eqb_spec i (sw_id d)) as [Q|Q]; [|reflexivity]. contradiction Hi2. subst i. apply in_map. exact Hd. }
    rewrite L in V, V'. split; assumption.
Qed.
(** the switches and positional arguments of a command *)
Definition defined_as (name : string) (flags values : list (string * string)) (n : nat) (defs : list switch) (pos : list posarg) : Prop :=
  find_sub client_subs name = Some (defs, pos) /\ described defs flags values /\ In defs [common; cancel_switches; print_switches] /\ length pos = n /\
  NoDup (map pa_id pos) /\ (forall i, In i (map pa_id pos) -> ~ In i (map sw_id defs)) /\ Forall (fun q => pa_optional q = false) pos /\
  In oHelp defs /\ (1 <= n)%nat /\ nth 0 pos pAddr = pAddr.
Lemma commands_defined name flags values n : In (name, (flags, values, n)) commands -> exists defs pos, defined_as name flags values n defs pos.
Proof.
  assert (X : forall i l, existsb (Nat.eqb i) l = false -> ~ In i l). { intros i l H K. assert (existsb (Nat.eqb i) l = true) by (apply existsb_exists; exists i; split; [exact K|apply Nat.eqb_refl]). congruence. }
  assert (C : forall n1 d1, In d1 [common; cancel_switches; print_switches] -> described d1 flags values -> find_sub client_subs n1 = Some (d1, [pAddr]) -> In oHelp d1 ->
     existsb (Nat.eqb 30) (map sw_id d1) = false -> defined_as n1 flags values 1 d1 [pAddr]).
  { intros n1 d1 H1 H2 H3 H4 H5. split; [exact H3|]. split; [exact H2|]. split; [exact H1|]. split; [reflexivity|]. split; [repeat constructor; intros []|].
    split; [intros i [<-|[]]; apply X; exact H5|]. split; [repeat constructor|]. split; [exact H4|]. split; [lia|reflexivity]. }
  assert (C2 : forall n1 d1 q, In d1 [common; cancel_switches; print_switches] -> described d1 flags values -> find_sub client_subs n1 = Some (d1, [pAddr; q]) -> In oHelp d1 ->
     existsb (Nat.eqb 30) (map sw_id d1) = false -> existsb (Nat.eqb (pa_id q)) (map sw_id d1) = false -> pa_id q <> 30%nat -> pa_optional q = false -> defined_as n1 flags values 2 d1 [pAddr; q]).
  { intros n1 d1 q H1 H2 H3 H4 H5 H6 H7 H8. split; [exact H3|]. split; [exact H2|]. split; [exact H1|]. split; [reflexivity|]. split.
    { cbn [map]. constructor; [intros [K|[]]; apply H7; exact K|]. constructor; [intros []|constructor]. }
    split; [intros i [<-|[<-|[]]]; apply X; assumption|]. split; [constructor; [reflexivity|]; constructor; [exact H8|constructor]|]. split; [exact H4|]. split; [lia|reflexivity]. }
  intros H. unfold commands in H. cbn [In] in H. repeat destruct H as [H|H]; try contradiction; injection H as <- <- <- <-.
  - exists common, [pAddr]. apply C; [left; reflexivity|exact common_described|reflexivity|left; reflexivity|reflexivity].
  - exists common, [pAddr]. apply C; [left; reflexivity|exact common_described|reflexivity|left; reflexivity|reflexivity].
  - exists common, [pAddr]. apply C; [left; reflexivity|exact common_described|reflexivity|left; reflexivity|reflexivity].
  - exists common, [pAddr; pAttrs]. apply C2; [left; reflexivity|exact common_described|reflexivity|left; reflexivity|reflexivity|reflexivity|discriminate|reflexivity].
  - exists common, [pAddr]. apply C; [left; reflexivity|exact common_described|reflexivity|left; reflexivity|reflexivity].
  - exists cancel_switches, [pAddr]. apply C; [right; left; reflexivity|exact cancel_described|reflexivity|left; reflexivity|reflexivity].
  - exists print_switches, [pAddr; pFile]. apply C2; [right; right; left; reflexivity|exact print_described|reflexivity|left; reflexivity|reflexivity|reflexivity|discriminate|reflexivity].
Qed.
(** a variable whose options are not among the words keeps its value *)
Definition not_named (defs : list switch) (i : nat) (args : list string) : Prop := forall d n, In d defs -> sw_id d = i -> In n (sw_names d) -> ~ In n args.
Lemma assign_other st i j x : i <> j -> a_val (assign st j x) i = a_val st i.
Proof. intros N. unfold assign. cbn [a_val]. destruct (Nat.eqb_spec i j) as [Q|Q]; [contradiction|]. reflexivity. Qed.
Lemma try_keeps defs st args i : not_named defs i args -> match try_switches defs st args with Went st' args' => a_val st' i = a_val st i /\ (forall n, In n args' -> In n args) | _ => True end.
Proof.
  induction defs as [|d defs IH]; intros H; [exact I|]. cbn [try_switches]. unfold parse_switch. destruct args as [|a rest]; [apply IH; intros e n He; apply H; right; exact He|].
  destruct (existsb (String.eqb a) (sw_names d)) eqn:E; [|apply IH; intros e n He; apply H; right; exact He].
  apply existsb_name in E. assert (N : i <> sw_id d) by (intros Q; apply (H d a); [left; reflexivity|congruence|exact E|left; reflexivity]).
  destruct (sw_kind d); try (destruct rest as [|v rest]; [exact I|]; destruct (convert _ v); try exact I); (split; [apply assign_other; exact N|intros n Hn; cbn; tauto]).
Qed.
Lemma loop_keeps defs i fuel : forall st args, not_named defs i args ->
  match switch_loop fuel defs st args with Ok (inl (st', _)) => a_val st' i = a_val st i | Ok (inr (_, st')) => a_val st' i = a_val st i | _ => True end.
Proof.
  induction fuel as [|fuel IH]; intros st args H; destruct args as [|a args]; cbn [switch_loop]; try reflexivity. pose proof (try_keeps defs st (a :: args) i H) as T.
  destruct (try_switches defs st (a :: args)) as [|st' args'|msg]; try reflexivity. destruct T as [T1 T2]. specialize (IH st' args').
  assert (N : not_named defs i args') by (intros d n Hd Hi Hn K; exact (H d n Hd Hi Hn (T2 n K))). specialize (IH N).
  destruct (switch_loop fuel defs st' args') as [[[s r]|[m s]]| | | |]; congruence || exact I.
Qed.
Lemma pos_keeps pos i : ~ In i (map pa_id pos) -> forall st args, match parse_pos pos st args with inl (st', _) => a_val st' i = a_val st i | inr (_, st') => a_val st' i = a_val st i end.
Proof.
  induction pos as [|q pos IH]; intros H st args; [reflexivity|]. cbn [parse_pos]. destruct args as [|a args].
  - destruct (pa_optional q); [|reflexivity]. apply IH. intros K. apply H. right. exact K.
  - specialize (IH ltac:(intros K; apply H; right; exact K) (assign st (pa_id q) (AStr a)) args). rewrite assign_other in IH by (intros Q; apply H; left; congruence). exact IH.
Qed.
Lemma get_args_keeps defs pos i st args r st' : not_named defs i args -> ~ In i (map pa_id pos) -> get_args defs pos st args = Ok (r, st') -> a_val st' i = a_val st i.
Proof.
  intros H1 H2 E. unfold get_args in E. pose proof (loop_keeps defs i (length args) st args H1) as L. destruct (switch_loop _ _ _ _) as [[[s rest]|[m s]]| | | |]; try discriminate; cbn [bind] in E.
  - destruct (_ <? _)%nat; [congruence|]. pose proof (pos_keeps pos i H2 s rest) as P. destruct (parse_pos pos s rest) as [[s' [|x y]]|[m s']]; congruence.
  - congruence.
Qed.

Notation line := (command_line reads_as_options).
Lemma line_parsed junk args name rs p : line args name rs p -> exists flags values n defs pos st,
  In (name, (flags, values, n)) commands /\ defined_as name flags values n defs pos /\ length p = n /\ sub_get_args client_subs (client_init junk) args = Ok (true, name, ""%string, st)
  /\ (forall k d, (k < length pos)%nat -> a_val st (pa_id (nth k pos d)) = AStr (nth k p ""%string))
  /\ (forall d, In d defs -> option_read rs (client_init junk) st d)
  /\ (forall i, ~ In i (map pa_id pos) -> ~ In i (map sw_id defs) -> a_val st i = a_val (client_init junk) i /\ a_set st i = a_set (client_init junk) i).
Proof.
  intros (flags & values & n & sw & Hc & -> & Hr & Ht & Hl & Hp). destruct (commands_defined _ _ _ _ Hc) as (defs & pos & D). exists flags, values, n, defs, pos.
  pose proof D as (F & De & Hdefs & Hn & Hd & Hdis & _). apply (proj2 (fits_takes _ _ _ _ _ De Hdefs Hr)) in Ht.
  destruct (options_read_n defs flags values (client_init junk) sw rs pos p De Hd Hdis Hr Ht ltac:(congruence) Hp) as (st & E & A & B & C). exists st.
  split; [exact Hc|]. split; [exact D|]. split; [exact Hl|]. split; [|split; [exact A|split; [exact B|exact C]]]. cbn [sub_get_args]. rewrite F, E. reflexivity.
Qed.
Lemma parsed_line junk args name msg st : sub_get_args client_subs (client_init junk) args = Ok (true, name, msg, st) -> exists rs p, line args name rs p.
Proof.
  intros H. destruct args as [|w rest]; [discriminate|]. cbn [sub_get_args] in H. destruct (find_sub client_subs w) as [[defs pos]|] eqn:F; [|discriminate].
  destruct (get_args defs pos (client_init junk) rest) as [[[ok m] s]| | | |] eqn:G; try discriminate. cbn [bind] in H. assert (ok = true /\ w = name) as [-> ->] by (split; congruence). clear H.
  assert (Hc : exists flags values n, In (name, (flags, values, n)) commands).
  { apply find_sub_command in F. destruct F as (b & a & E & _). assert (Hin : In (name, (defs, pos)) client_subs) by (rewrite E; apply in_or_app; right; left; reflexivity). clear E.
    unfold client_subs in Hin. cbn [In] in Hin. unfold commands. repeat destruct Hin as [Hin|Hin]; try contradiction; injection Hin as <- _ _; eexists _, _, _; cbn [In];
      repeat (first [left; reflexivity|right]). }
  destruct Hc as (flags & values & n & Hc). destruct (commands_defined _ _ _ _ Hc) as (defs' & pos' & D). pose proof D as (F' & De & Hdefs & Hn & Hd & Hdis & Ho & _). rewrite F in F'. injection F' as <- <-.
  destruct (proj1 (C24_exactly defs pos (client_init junk) rest) (ex_intro _ m (ex_intro _ s G))) as (l & sw & p & l1 & -> & Hs & (P1 & P2 & P3) & ->).
  destruct (switches_options _ _ _ sw l1 De Hs) as (rs & Hr & Ht). exists rs, p, flags, values, n, sw. split; [exact Hc|]. split; [reflexivity|]. split; [exact Hr|].
  split; [apply (proj1 (fits_takes _ _ _ _ _ De Hdefs Hr)); exact Ht|]. split.
  - rewrite <- Hn. destruct (Nat.lt_ge_cases (length p) (length pos)) as [L|L]; [|lia]. exfalso. destruct (skipn (length p) pos) as [|q r] eqn:S.
    + apply (f_equal (@length posarg)) in S. rewrite skipn_length in S. cbn in S. lia.
    + specialize (P2 q (or_introl eq_refl)). assert (Q : In q pos). { rewrite <- (firstn_skipn (length p) pos). apply in_or_app. right. rewrite S. left. reflexivity. }
      rewrite Forall_forall in Ho. specialize (Ho q Q). congruence.
  - destruct p as [|x p]; [exact I|]. split; intros K; apply in_map_iff in K; destruct K as ([nm long] & E & K); cbn [fst] in E; subst nm.
    + destruct (known_flag _ _ _ x long De K) as (d & (b & a & E & Hx & _) & Hin & _). exact (P3 d Hin Hx).
    + destruct (known_value _ _ _ x long De K) as (d & (b & a & E & Hx & _) & Hin & _). exact (P3 d Hin Hx).
Qed.
Lemma line_help junk rs st defs : In oHelp defs -> (forall d, In d defs -> option_read rs (client_init junk) st d) -> as_bool (a_val st 0) = present rs "--help".
Proof.
  intros Hin H. specialize (H oHelp Hin). unfold option_read, present in *. change (long_name oHelp) with "--help"%string in H. change (sw_id oHelp) with 0%nat in H.
  destruct (asked rs "--help"); destruct H as [H _]; [unfold suits in H; cbn in H; rewrite H; reflexivity|rewrite H; reflexivity].
Qed.

(** ** Which command lines are obeyed *)
(** --help: nothing is sent. *)
Theorem C92_help e junk args name rs p : line args name rs p -> present rs "--help" = true -> client e junk args = ([], Ok 0).
Proof.
  intros H Hh. destruct (line_parsed junk _ _ _ _ H) as (flags & values & n & defs & pos & st & _ & D & _ & E & _ & R & _). unfold client. rewrite ebind_pure, E.
  rewrite (line_help junk rs st defs); [|apply D|exact R]. rewrite Hh. reflexivity.
Qed.
(** Words that are not a command with options and values it takes and all of its further
    words: nothing is sent, and the exit code is 1 unless the help was asked for. *)
Theorem C92_other_words e junk args : (forall name rs p, ~ line args name rs p) ->
  fst (client e junk args) = [] /\ (snd (client e junk args) = Ok 1 \/ (snd (client e junk args) = Ok 0 /\ (In "-h" args \/ In "--help" args)%string)).
Proof.
  intros H. unfold client. rewrite ebind_pure. destruct args as [|w rest]; [cbn; split; [reflexivity|left; reflexivity]|].
  cbn [sub_get_args]. destruct (find_sub client_subs w) as [[defs pos]|] eqn:F; [|cbn; split; [reflexivity|left; reflexivity]].
  destruct (C24_refuses defs pos (client_init junk) rest) as (msg & st & G & _).
  { intros l Hl. destruct (C24_accepts defs pos (client_init junk) rest l Hl) as (st & G & _). destruct (parsed_line junk (w :: rest) w ""%string st) as (rs & p & K); [|exact (H _ _ _ K)].
    cbn [sub_get_args]. rewrite F, G. reflexivity. }
  rewrite G. cbn [bind negb]. assert (Hd : In defs [common; cancel_switches; print_switches] /\ ~ In 0%nat (map pa_id pos)).
  { apply find_sub_command in F. destruct F as (b & a & E & _). assert (Hin : In (w, (defs, pos)) client_subs) by (rewrite E; apply in_or_app; right; left; reflexivity). clear E.
    unfold client_subs in Hin. cbn [In] in Hin. repeat destruct Hin as [Hin|Hin]; try contradiction; injection Hin as _ <- <-; (split; [cbn; tauto|cbn; lia]). }
  destruct Hd as [Hd Hp]. destruct (as_bool (a_val st 0)) eqn:B; (split; [reflexivity|]); [right|left; reflexivity]. split; [reflexivity|].
  destruct (in_dec string_dec "-h"%string rest) as [I1|I1]; [left; right; exact I1|]. destruct (in_dec string_dec "--help"%string rest) as [I2|I2]; [right; right; exact I2|]. exfalso.
  rewrite (get_args_keeps defs pos 0 (client_init junk) rest (false, msg) st) in B; [discriminate| |exact Hp|exact G].
  intros d n Hin Hi Hn K. assert (Hd' : In d (oId :: print_switches)). { destruct Hd as [<-|[<-|[<-|[]]]]; cbn in Hin |- *; tauto. } clear -Hd' Hi Hn K I1 I2.
  unfold print_switches, oHelp, oVerbose, oId in Hd'. cbn [In] in Hd'. repeat destruct Hd' as [<-|Hd']; try destruct Hd'; try discriminate Hi. destruct Hn as [<-|[<-|[]]]; contradiction.
Qed.

(** ** The printer *)
(** The exit code of an operation that was done after [ev]: 0 without an error. *)
Definition exits (ev : list event) (r : list event * outcome (option string)) (x : list event * outcome Z) : Prop :=
  fst x = ev ++ fst r /\ match snd r with Ok None => snd x = Ok 0 | Ok (Some _) => snd x = Ok 1 | Throw ex => snd x = Throw ex | UB => snd x = UB | Hang => snd x = Hang | NoFuel => snd x = NoFuel end.
(** A file is read without sending anything; any other printer is sent one request for its
    attributes, the first of the run.  The attributes are those of the file or the
    response, with the overrides. *)
Theorem C92_open e addr error pa id : snd (open_printer e addr) = Ok (error, pa, id) ->
  (exists path, addr = ("file://" ++ path)%string /\ fst (open_printer e addr) = [] /\ id = 1 /\
     refresh_file (e_world e) (e_parse e) (e_files e path) [] (e_overrides e) = Ok (error, pa)) \/
  ((forall path, addr <> ("file://" ++ path)%string) /\ id = 2 /\ exists m b, mk_msg (e_world e) (mkPrinter addr false []) 0x000B [] [] [] = Ok m /\ fst (encodeMsg 1 m) = Ok b /\
     fst (open_printer e addr) = [Posted addr b] /\
     match w_post (e_world e) addr b with
     | Failed t => error = Some t /\ pa = applyOverrides (e_overrides e) []
     | Response body => (exists r rest, decodeMsg body = Ok (r, rest) /\ error = None /\ pa = applyOverrides (e_overrides e) (m_printerAttrs r))
                        \/ (exists ex, decodeMsg body = Throw ex /\ error = Some (w_what (e_world e) ex) /\ pa = applyOverrides (e_overrides e) [])
     end).
Proof.
  intros H. unfold open_printer in *. pose proof (starts_with_spec addr "file://") as S. destruct (string_starts_with addr "file://").
  - left. destruct (proj1 S eq_refl) as [path ->]. exists path. split; [reflexivity|]. change (drop 7 ("file://" ++ path)) with path in *. rewrite ebind_pure in *.
    destruct (refresh_file _ _ _ _ _) as [[er at_]| | | |]; try discriminate. cbn [pure fst snd] in *. injection H as -> -> <-. auto.
  - right. split; [intros path K; assert (false = true) by (apply S; exists path; exact K); discriminate|].
    unfold refresh in *. destruct (mk_msg (e_world e) (mkPrinter addr false []) opGetPrinterAttrs [] [] []) as [m| | | |] eqn:M; try discriminate. rewrite ebind_pure in *.
    unfold do_request in *. cbn [pr_addr] in *. destruct (fst (encodeMsg 1 m)) as [b| | | |] eqn:B; try discriminate.
    destruct (w_post (e_world e) addr b) as [t|body] eqn:W.
    + unfold ebind in *. cbn [fst snd empty_msg m_printerAttrs] in *. destruct (config_dir _); try discriminate. cbn in H |- *. injection H as <- <- <-. split; [reflexivity|]. exists m, b. rewrite W. split; [exact M|]. split; [exact B|]. auto.
    + destruct (decodeMsg body) as [[r rest]|ex| | |] eqn:Dm; try discriminate; unfold ebind in *; cbn [fst snd empty_msg m_printerAttrs] in *; destruct (config_dir _); try discriminate; cbn in H |- *;
        injection H as <- <- <-; (split; [reflexivity|]); exists m, b; rewrite W; (split; [exact M|]); (split; [exact B|]); (split; [reflexivity|]); [left; exists r, rest; auto|right; exists ex; auto].
Qed.
(** the printer could not be opened *)
Theorem C92_no_printer e junk args name rs addr p ev error pa id : line args name rs (addr :: p) -> present rs "--help" = false ->
  open_printer e addr = (ev, Ok (Some error, pa, id)) -> client e junk args = (ev, Ok 1).
Proof.
  intros H Hh Ho. destruct (line_parsed junk _ _ _ _ H) as (flags & values & n & defs & pos & st & _ & D & _ & E & V & R & _). unfold client. rewrite ebind_pure, E.
  rewrite (line_help junk rs st defs); [|apply D|exact R]. rewrite Hh. cbn [negb]. destruct D as (_ & _ & _ & <- & _ & _ & _ & _ & Hn & Hp).
  specialize (V 0%nat pAddr Hn). rewrite Hp in V. cbn [pa_id pAddr nth] in V. rewrite V. cbn [as_str]. rewrite Ho. cbn [ebind pure fst snd]. rewrite app_nil_r. reflexivity.
Qed.

(** ** The commands other than print *)
Lemma client_command e junk args name rs addr p ev pa id : line args name rs (addr :: p) -> present rs "--help" = false -> open_printer e addr = (ev, Ok (None, pa, id)) ->
  exists st flags values n defs pos, In (name, (flags, values, n)) commands /\ defined_as name flags values n defs pos /\ length (addr :: p) = n
   /\ (forall k d, (k < length pos)%nat -> a_val st (pa_id (nth k pos d)) = AStr (nth k (addr :: p) ""%string))
   /\ (forall d, In d defs -> option_read rs (client_init junk) st d)
   /\ let q := mkPrinter addr false pa in
    client e junk args =
      let r := if String.eqb name "info" then pure (info_command pa)
        else if String.eqb name "identify" then do! error := identify (e_world e) q id in pure (Ok (exit_code error))
        else if String.eqb name "get-attrs" then pure (Ok 0)
        else if String.eqb name "set-attrs" then set_attrs_command e st q id
        else if String.eqb name "get-jobs" then do! r := get_jobs (e_world e) q id in pure (Ok (exit_code (fst r)))
        else if String.eqb name "cancel-job" then cancel_command e st q id
        else if String.eqb name "print" then print_command e st q id
        else pure (Ok 0) in (ev ++ fst r, snd r).
Proof.
  intros H Hh Ho. destruct (line_parsed junk _ _ _ _ H) as (flags & values & n & defs & pos & st & Hc & D & Hl & E & V & R & _). exists st, flags, values, n, defs, pos.
  split; [exact Hc|]. split; [exact D|]. split; [exact Hl|]. split; [exact V|]. split; [exact R|]. cbv zeta. unfold client. rewrite ebind_pure, E.
  rewrite (line_help junk rs st defs); [|apply D|exact R]. rewrite Hh. cbn [negb]. destruct D as (_ & _ & _ & <- & _ & _ & _ & _ & Hn & Hp).
  specialize (V 0%nat pAddr Hn). rewrite Hp in V. cbn [pa_id pAddr nth] in V. rewrite V. cbn [as_str]. rewrite Ho. cbn [ebind fst snd].
  repeat match goal with |- context [String.eqb name ?x] => destruct (String.eqb name x) end; reflexivity.
Qed.
Lemma exits_bind ev (x : list event * outcome (option string)) : let r := (do! error := x in pure (Ok (exit_code error))) in exits ev x (ev ++ fst r, snd r).
Proof. cbv zeta. unfold exits, ebind. destruct x as [l [[er|]| | | |]]; cbn [fst snd exit_code pure]; rewrite ?app_nil_r; split; reflexivity. Qed.
(** Each command performs its operation on the printer at the address given, after the
    printer was opened: *)
Theorem C92_info e junk args rs addr p ev pa id : line args "info" rs (addr :: p) -> present rs "--help" = false -> open_printer e addr = (ev, Ok (None, pa, id)) ->
  client e junk args = (ev, info_command pa).
Proof. intros H Hh Ho. destruct (client_command e junk _ _ _ _ _ _ _ _ H Hh Ho) as (st & flags & values & n & defs & pos & _ & _ & _ & _ & _ & ->). cbn [String.eqb Ascii.eqb Bool.eqb fst snd pure]. rewrite app_nil_r. reflexivity. Qed.
Theorem C92_get_attrs e junk args rs addr p ev pa id : line args "get-attrs" rs (addr :: p) -> present rs "--help" = false -> open_printer e addr = (ev, Ok (None, pa, id)) ->
  client e junk args = (ev, Ok 0).
Proof. intros H Hh Ho. destruct (client_command e junk _ _ _ _ _ _ _ _ H Hh Ho) as (st & flags & values & n & defs & pos & _ & _ & _ & _ & _ & ->). cbn [String.eqb Ascii.eqb Bool.eqb fst snd pure]. rewrite app_nil_r. reflexivity. Qed.
Theorem C92_identify e junk args rs addr p ev pa id : line args "identify" rs (addr :: p) -> present rs "--help" = false -> open_printer e addr = (ev, Ok (None, pa, id)) ->
  exits ev (identify (e_world e) (mkPrinter addr false pa) id) (client e junk args).
Proof. intros H Hh Ho. destruct (client_command e junk _ _ _ _ _ _ _ _ H Hh Ho) as (st & flags & values & n & defs & pos & _ & _ & _ & _ & _ & ->). cbn [String.eqb Ascii.eqb Bool.eqb]. apply exits_bind. Qed.
Theorem C92_get_jobs e junk args rs addr p ev pa id : line args "get-jobs" rs (addr :: p) -> present rs "--help" = false -> open_printer e addr = (ev, Ok (None, pa, id)) ->
  let r := get_jobs (e_world e) (mkPrinter addr false pa) id in exits ev (fst r, let! x := snd r in Ok (fst x)) (client e junk args).
Proof.
  intros H Hh Ho. destruct (client_command e junk _ _ _ _ _ _ _ _ H Hh Ho) as (st & flags & values & n & defs & pos & _ & _ & _ & _ & _ & ->). cbn [String.eqb Ascii.eqb Bool.eqb]. cbv zeta.
  destruct (get_jobs _ _ _) as [l [[[er|] infos]| | | |]]; unfold exits, ebind; cbn [fst snd bind pure exit_code]; rewrite ?app_nil_r; split; reflexivity.
Qed.
(** a job is cancelled by its number; without one nothing is sent *)
Theorem C92_cancel e junk args rs addr p ev pa id : line args "cancel-job" rs (addr :: p) -> present rs "--help" = false -> open_printer e addr = (ev, Ok (None, pa, id)) ->
  match asked rs "--id" with
  | None => client e junk args = (ev, Ok 1)
  | Some t => exists z, integer t z /\ exits ev (cancel_job (e_world e) (mkPrinter addr false pa) id z) (client e junk args)
  end.
Proof.
  intros H Hh Ho. destruct (client_command e junk _ _ _ _ _ _ _ _ H Hh Ho) as (st & flags & values & n & defs & pos & Hc & D & _ & _ & R & ->). cbn [String.eqb Ascii.eqb Bool.eqb].
  assert (F : In oId defs). { destruct D as (F & _). cbn in F. injection F as <- _. cbn. tauto. }
  specialize (R oId F). unfold option_read in R. change (long_name oId) with "--id"%string in R. change (sw_id oId) with 29%nat in R. unfold cancel_command. destruct (asked rs "--id") as [t|].
  - destruct R as [R ->]. unfold suits in R. cbn [sw_kind oId] in R. destruct (a_val st 29) as [|z|] eqn:A; try (destruct R as (neg & m & _ & _ & R); discriminate).
    exists z. split; [exact R|]. cbn [as_int]. apply exits_bind.
  - destruct R as [_ ->]. cbn [client_init a_set pure fst snd]. rewrite app_nil_r. reflexivity.
Qed.
(** attributes are set to the pairs written *)
Theorem C92_set_attrs e junk args rs addr text p ev pa id : line args "set-attrs" rs (addr :: text :: p) -> present rs "--help" = false -> open_printer e addr = (ev, Ok (None, pa, id)) ->
  (exists l, l <> [] /\ text = pairs_text l /\ Forall (fun q => plain (fst q) /\ plain (snd q)) l /\ exits ev (set_attributes (e_world e) (mkPrinter addr false pa) id l) (client e junk args)) \/
  ((forall l, ~ (l <> [] /\ text = pairs_text l /\ Forall (fun q => plain (fst q) /\ plain (snd q)) l)) /\ client e junk args = (ev, Ok 1)).
Proof.
  intros H Hh Ho. destruct (client_command e junk _ _ _ _ _ _ _ _ H Hh Ho) as (st & flags & values & n & defs & pos & Hc & D & _ & V & R & ->). cbn [String.eqb Ascii.eqb Bool.eqb].
  assert (A : a_val st 31 = AStr text). { destruct D as (F & _). cbn in F. injection F as _ <-. apply (V 1%nat pAddr). cbn. lia. }
  unfold set_attrs_command. rewrite A. cbn [as_str]. destruct (key_values _) as [l|] eqn:K.
  - left. exists l. apply C72_pairs in K. destruct K as (K1 & K2 & K3). repeat (split; [assumption|]). apply exits_bind.
  - right. split; [|cbn [pure fst snd]; rewrite app_nil_r; reflexivity]. intros l Hl. apply C72_pairs in Hl. congruence.
Qed.

(** ** Printing *)
Definition print_switch (n : nat) : switch := nth n print_switches oHelp.
Definition print_read (junk : nat -> aval) (rs : list (string * string)) (st : astate) : Prop := forall d, In d print_switches -> option_read rs (client_init junk) st d.
Lemma print_switch_in n : (n < 29)%nat -> In (print_switch n) print_switches.
Proof. intros H. apply nth_In. exact H. Qed.
Lemma read_given junk rs st n : print_read junk rs st -> (n < 29)%nat -> sw_id (print_switch n) = n -> a_set st n = present rs (long_name (print_switch n)).
Proof.
  intros R Hn Hi. specialize (R _ (print_switch_in n Hn)). unfold option_read, present in *. rewrite Hi in R. destruct (asked rs (long_name (print_switch n))); destruct R as [_ R]; exact R.
Qed.
Lemma read_flag junk rs st n : print_read junk rs st -> (n < 29)%nat -> sw_id (print_switch n) = n -> sw_kind (print_switch n) = KBool -> a_set st n = true -> as_bool (a_val st n) = true.
Proof.
  intros R Hn Hi Hk Hs. specialize (R _ (print_switch_in n Hn)). unfold option_read in *. rewrite Hi in R. destruct (asked rs (long_name (print_switch n))); destruct R as [R R'].
  - unfold suits in R. rewrite Hk in R. rewrite R. reflexivity.
  - rewrite R' in Hs. discriminate.
Qed.
Lemma read_off junk rs st n : print_read junk rs st -> (n < 29)%nat -> sw_id (print_switch n) = n -> sw_kind (print_switch n) = KBool -> a_val (client_init junk) n = ABool false ->
  as_bool (a_val st n) = present rs (long_name (print_switch n)).
Proof.
  intros R Hn Hi Hk H0. specialize (R _ (print_switch_in n Hn)). unfold option_read, present in *. rewrite Hi in R. destruct (asked rs (long_name (print_switch n))); destruct R as [R _].
  - unfold suits in R. rewrite Hk in R. rewrite R. reflexivity.
  - rewrite R, H0. reflexivity.
Qed.
Lemma read_value junk rs st n t : print_read junk rs st -> (n < 29)%nat -> sw_id (print_switch n) = n -> sw_kind (print_switch n) <> KBool -> asked rs (long_name (print_switch n)) = Some t ->
  value_text (sw_kind (print_switch n)) t (a_val st n).
Proof.
  intros R Hn Hi Hk Ha. specialize (R _ (print_switch_in n Hn)). unfold option_read in *. rewrite Hi, Ha in R. destruct R as [R _]. unfold suits in R. destruct (sw_kind (print_switch n)); exact R.
Qed.
(** one demand after another *)
Lemma demand_step rs o s r es l g v : (g = false -> exists n, In n o /\ asked rs n = None) -> (g = true -> exists ts, Forall2 (fun n t => asked rs n = Some t) o ts /\ means r ts v) ->
  demands rs es l -> demands rs ((o, s, r) :: es) (ask g s v ++ l).
Proof.
  intros H1 H2 H. destruct g.
  - destruct (H2 eq_refl) as (ts & Hf & Hm). apply demands_value with (ts := ts); assumption.
  - apply demands_not; [apply H1; reflexivity|exact H].
Qed.
Lemma demand_one junk rs st n s r v es l : print_read junk rs st -> (n < 29)%nat -> sw_id (print_switch n) = n -> sw_kind (print_switch n) <> KBool ->
  (forall t, value_text (sw_kind (print_switch n)) t (a_val st n) -> means r [t] v) -> demands rs es l ->
  demands rs (([long_name (print_switch n)], s, r) :: es) (ask (given st n) s v ++ l).
Proof.
  intros R Hn Hi Hk Hm H. unfold given. rewrite (read_given junk rs st n R Hn Hi). apply demand_step; [|  |exact H]; unfold present; intros G.
  - exists (long_name (print_switch n)). split; [left; reflexivity|]. destruct (asked _ _); [discriminate|reflexivity].
  - destruct (asked rs (long_name (print_switch n))) as [t|] eqn:A; [|discriminate]. exists [t]. split; [constructor; [exact A|constructor]|]. apply Hm. apply (read_value junk rs st n t); assumption.
Qed.
Lemma demand_both junk rs st v es l s r : print_read junk rs st ->
  (forall t u, value_text KUInt t (a_val st 9) -> value_text KUInt u (a_val st 10) -> means r [t; u] v) -> demands rs es l ->
  demands rs ((["--resolution-x"; "--resolution-y"]%string, s, r) :: es) (ask (given st 9 && given st 10) s v ++ l).
Proof.
  intros R Hm H. unfold given. rewrite (read_given junk rs st 9 R), (read_given junk rs st 10 R); try lia; try reflexivity.
  change (long_name (print_switch 9)) with "--resolution-x"%string. change (long_name (print_switch 10)) with "--resolution-y"%string. apply demand_step; [|  |exact H]; unfold present; intros G.
  - destruct (asked rs "--resolution-x") eqn:A; [|exists "--resolution-x"%string; split; [left; reflexivity|exact A]]. destruct (asked rs "--resolution-y") eqn:B; [discriminate|].
    exists "--resolution-y"%string. split; [right; left; reflexivity|exact B].
  - destruct (asked rs "--resolution-x") as [t|] eqn:A; [|discriminate]. destruct (asked rs "--resolution-y") as [u|] eqn:B; [|discriminate].
    exists [t; u]. split; [repeat constructor; assumption|]. apply Hm; [apply (read_value junk rs st 9 t R)|apply (read_value junk rs st 10 u R)]; try lia; try reflexivity; try discriminate; assumption.
Qed.
Lemma int_means k t x : (k = KInt \/ k = KUInt) -> value_text k t x -> value_text k t (AInt (as_int x)).
Proof. intros [->| ->] (neg & m & H1 & H2 & ->); exists neg, m; auto. Qed.
Lemma print_demands junk rs st : print_read junk rs st -> demands rs meanings (requests st).
Proof.
  intros R. unfold requests, meanings. assert (Hnum : forall t x, value_text KInt t x -> means Number [t] (VInt (as_int x))).
  { intros t x H. exists (as_int x). split; [apply (int_means KInt); [left; reflexivity|exact H]|reflexivity]. }
  assert (Hstr : forall t x, value_text KString t x -> means Text [t] (VStr (as_str x))). { intros t x H. cbn in H. subst x. reflexivity. }
  unfold text, number. rewrite <- (app_nil_r (ask (given st 25) _ _)).
  repeat match goal with
  | |- demands _ (([?nm], ?s, ?r) :: _) (ask (given st ?n) ?s ?v ++ _) => change nm with (long_name (print_switch n));
       apply (demand_one junk rs st n s r v); [exact R|lia|reflexivity|discriminate| |]; [intros t Ht; cbn [sw_kind print_switch nth print_switches] in Ht; try (apply Hstr; exact Ht); try (apply Hnum; exact Ht)|]
  | |- demands _ _ (ask (given st 9 && given st 10) _ _ ++ _) => apply (demand_both junk); [exact R| |]; [intros t u Ht Hu|]
  end.
  - destruct Ht as (z & Hz & ->). cbn [as_int]. apply entry_in in Hz. cbn [In] in Hz. destruct Hz as [Hz|[Hz|[]]]; injection Hz as <- <-; eexists; (split; [|reflexivity]); cbn; auto.
  - exists (as_int (a_val st 8)). split; [apply (int_means KUInt); [right; reflexivity|exact Ht]|reflexivity].
  - exists (as_int (a_val st 9)), (as_int (a_val st 10)). split; [apply (int_means KUInt); [right; reflexivity|exact Ht]|]. split; [apply (int_means KUInt); [right; reflexivity|exact Hu]|reflexivity].
  - destruct Ht as (z & Hz & ->). cbn [as_int]. apply entry_in in Hz. cbn [In] in Hz. destruct Hz as [Hz|[Hz|[Hz|[]]]]; injection Hz as <- <-; eexists; (split; [|reflexivity]); cbn; auto.
  - constructor.
Qed.
Ltac below := apply Nat.ltb_lt; reflexivity.
Lemma on3 junk rs st : print_read junk rs st -> a_set st 3 = present rs "--one-stage".
Proof. intros R. exact (read_given junk rs st 3 R ltac:(below) eq_refl). Qed.
Lemma on4 junk rs st : print_read junk rs st -> a_set st 4 = present rs "--pages".
Proof. intros R. exact (read_given junk rs st 4 R ltac:(below) eq_refl). Qed.
Lemma on15 junk rs st : print_read junk rs st -> a_set st 15 = present rs "--format".
Proof. intros R. exact (read_given junk rs st 15 R ltac:(below) eq_refl). Qed.
Lemma on16 junk rs st : print_read junk rs st -> a_set st 16 = present rs "--mime-type".
Proof. intros R. exact (read_given junk rs st 16 R ltac:(below) eq_refl). Qed.
Lemma on26 junk rs st : print_read junk rs st -> a_set st 26 = present rs "--antialias".
Proof. intros R. exact (read_given junk rs st 26 R ltac:(below) eq_refl). Qed.
Lemma off2 junk rs st : print_read junk rs st -> as_bool (a_val st 2) = present rs "--force".
Proof. intros R. exact (read_off junk rs st 2 R ltac:(below) eq_refl eq_refl eq_refl). Qed.
Lemma off27 junk rs st : print_read junk rs st -> as_bool (a_val st 27) = present rs "--print-job-id".
Proof. intros R. exact (read_off junk rs st 27 R ltac:(below) eq_refl eq_refl eq_refl). Qed.
Lemma off28 junk rs st : print_read junk rs st -> as_bool (a_val st 28) = present rs "--save".
Proof. intros R. exact (read_off junk rs st 28 R ltac:(below) eq_refl eq_refl eq_refl). Qed.
Lemma says4 junk rs st t : print_read junk rs st -> asked rs "--pages" = Some t -> a_val st 4 = AStr t.
Proof. intros R A. exact (read_value junk rs st 4 t R ltac:(below) eq_refl ltac:(discriminate) A). Qed.
Lemma says15 junk rs st t : print_read junk rs st -> asked rs "--format" = Some t -> a_val st 15 = AStr t.
Proof. intros R A. exact (read_value junk rs st 15 t R ltac:(below) eq_refl ltac:(discriminate) A). Qed.
Lemma says16 junk rs st t : print_read junk rs st -> asked rs "--mime-type" = Some t -> a_val st 16 = AStr t.
Proof. intros R A. exact (read_value junk rs st 16 t R ltac:(below) eq_refl ltac:(discriminate) A). Qed.
(** the type of the input: as given, or as its contents show *)
Definition input_type (e : client_env) (rs : list (string * string)) (file fmt : string) : Prop :=
  match asked rs "--mime-type" with
  | Some t => fmt = t
  | None => file <> "-"%string /\ fmt = getMimeType (match e_files e file with Some b => b | None => [] end) /\ fmt <> ""%string /\ fmt <> "application/octet-stream"%string
  end.
(** a PDF is opened by its absolute path, and its pages are counted *)
Definition document (e : client_env) (fmt file inFile : string) (pages : Z) : Prop :=
  (fmt = "application/pdf"%string /\ e_pages e inFile = Some pages /\ ((exists r, file = ("/" ++ r)%string /\ inFile = file) \/ ((forall r, file <> ("/" ++ r)%string) /\ inFile = (e_cwd e ++ "/" ++ file)%string)))
  \/ (fmt <> "application/pdf"%string /\ inFile = file /\ pages = 0).
Lemma count_pages_document e fmt file inFile pages : count_pages e fmt file = Some (inFile, pages) <-> document e fmt file inFile pages.
Proof.
  unfold count_pages, document, path_append. change mPDF with "application/pdf"%string. pose proof (starts_with_spec file "/") as S. destruct (String.eqb_spec fmt "application/pdf") as [Q|Q].
  - destruct (string_starts_with file "/").
    + destruct (proj1 S eq_refl) as [r Hr]. split.
      * destruct (e_pages e file) as [n|] eqn:E; [|discriminate]. intros H. injection H as <- <-. left. eauto 8.
      * intros [(_ & E & [(r' & _ & ->)|(N & _)])|(N & _)]; [rewrite E; reflexivity|contradiction (N r)|contradiction].
    + assert (N : forall r, file <> ("/" ++ r)%string) by (intros r K; assert (false = true) by (apply S; exists r; exact K); discriminate). split.
      * destruct (e_pages e _) as [n|] eqn:E; [|discriminate]. intros H. injection H as <- <-. left. eauto 8.
      * intros [(_ & E & [(r' & K & _)|(_ & ->)])|(K & _)]; [contradiction (N r')|rewrite E; reflexivity|contradiction].
  - split; [intros H; injection H as <- <-; right; auto|]. intros [(K & _)|(_ & -> & ->)]; [contradiction|reflexivity].
Qed.
Lemma input_format_type junk e rs st file fmt : print_read junk rs st -> a_val st 32 = AStr file -> input_format e st = Some fmt <-> input_type e rs file fmt.
Proof.
  intros R V. unfold input_format, input_type. rewrite V. cbn [as_str]. rewrite (on16 junk rs st R). unfold present.
  destruct (asked rs "--mime-type") as [t|] eqn:A.
  - rewrite (says16 junk rs st t R A). cbn [as_str]. split; [intros H; congruence|intros ->; reflexivity].
  - unfold OctetStream. destruct (String.eqb_spec file "-") as [Q|Q].
    + cbn. split; [discriminate|]. intros [N _]. contradiction.
    + set (m := getMimeType _). destruct (String.eqb_spec m "") as [M|M]; [cbn; split; [discriminate|intros (_ & -> & N & _); contradiction]|].
      destruct (String.eqb_spec m "application/octet-stream") as [M'|M']; [cbn; split; [discriminate|intros (_ & -> & _ & N); contradiction]|]. cbn. split; [intros H; injection H as <-; auto|intros (_ & -> & _); reflexivity].
Qed.
Lemma restore_attrs user parse files j j' : restoreSettings user parse files j = Ok j' ->
  j_printerAttrs j' = j_printerAttrs j.
Proof.
  unfold restoreSettings. destruct (canSaveSettings j); [|intros H; congruence]. intros H. bind_inv H as path P H. destruct (files path) as [text|]; [|congruence].
  unfold restore_text in H. bind_inv H as op O H. bind_inv H as jb J H. injection H as <-. reflexivity.
Qed.
(** the job the options are applied to *)
Definition starts_from (e : client_env) (rs : list (string * string)) (pa : ipp_attrs) (j0 : job) : Prop :=
  exists jc, createJob pa = Ok jc /\ if present rs "--save" then j0 = jc else restoreSettings (w_user (e_world e)) (parse_opt e) (e_files e) jc = Ok j0.
Lemma starts_attrs e rs pa j0 : starts_from e rs pa j0 -> j_printerAttrs j0 = pa.
Proof.
  intros (jc & C & H). unfold createJob in C. bind_inv C as add A C. injection C as <-. destruct (present rs "--save"); [subst j0; reflexivity|]. apply restore_attrs in H. rewrite H. reflexivity.
Qed.
(** before the settings *)
Definition flagged (st : astate) (j : job) : job :=
  let j := if a_set st 3%nat then with_stage j (as_bool (a_val st 3%nat)) else j in
  if a_set st 26%nat then with_params j (set_antialias (j_params j) (as_bool (a_val st 26%nat))) else j.
Lemma flagged_job junk rs st j : print_read junk rs st ->
  j_jobAttrs (flagged st j) = j_jobAttrs j /\ j_opAttrs (flagged st j) = j_opAttrs j /\ j_oneStage (flagged st j) = (present rs "--one-stage" || j_oneStage j)
  /\ p_antiAlias (j_params (flagged st j)) = (present rs "--antialias" || p_antiAlias (j_params j)) /\ same_apart_from_antialias (j_params j) (j_params (flagged st j))
  /\ j_target (flagged st j) = j_target j /\ j_margins (flagged st j) = j_margins j /\ j_printerAttrs (flagged st j) = j_printerAttrs j /\ j_additional (flagged st j) = j_additional j.
Proof.
  intros R. pose proof (read_flag junk rs st 3 R ltac:(below) eq_refl eq_refl) as F3. pose proof (read_flag junk rs st 26 R ltac:(below) eq_refl eq_refl) as F26.
  pose proof (on3 junk rs st R) as G3. pose proof (on26 junk rs st R) as G26.
  unfold flagged. rewrite <- G3, <- G26. destruct (a_set st 3); [rewrite (F3 eq_refl)|]; (destruct (a_set st 26); [rewrite (F26 eq_refl)|]); unfold same_apart_from_antialias; cbn; repeat split; reflexivity.
Qed.
Lemma strongest_after l : forall s x, strongest l s x = value_after (sets l) s x.
Proof. induction l as [|[s' v] l IH]; intros s x; [reflexivity|]. cbn [strongest sets map value_after fst snd]. apply IH. Qed.
Lemma format_request_demanded junk rs st : print_read junk rs st -> format_request st = format_demanded rs.
Proof.
  intros R. unfold format_request, format_demanded, given. rewrite (on15 junk rs st R). unfold present.
  destruct (asked rs "--format") as [t|] eqn:A; [|reflexivity]. unfold text. rewrite (says15 junk rs st t R A). reflexivity.
Qed.
Lemma applied_as_demanded junk rs st pa j0 j : print_read junk rs st -> j_printerAttrs j0 = pa -> wf_job (j_jobAttrs j0) -> apply_options st pa (as_bool (a_val st 2)) (flagged st j0) = Ok (Some j) ->
  (present rs "--force" = false -> Forall (acceptable pa) (requests st ++ format_demanded rs)) /\ job_as_demanded rs (requests st) j0 j.
Proof.
  intros R Hp Hw H. destruct (flagged_job junk rs st j0 R) as (F1 & F2 & F3 & F4 & F5 & F6 & F7 & F8 & F9).
  destruct (C70_accepted st pa _ (flagged st j0) j ltac:(congruence) H ltac:(rewrite F1; exact Hw)) as (rgs & A1 & A2 & A3 & A4 & A5 & A6 & A7 & A8 & A9 & A10 & A11).
  assert (V4 : forall t, asked rs "--pages" = Some t -> as_str (a_val st 4) = t).
  { intros t A. rewrite (says4 junk rs st t R A). reflexivity. }
  assert (V15 : forall t, asked rs "--format" = Some t -> text st 15 = VStr t).
  { intros t A. unfold text. rewrite (says15 junk rs st t R A). reflexivity. }
  pose proof (on4 junk rs st R) as G4. pose proof (on15 junk rs st R) as G15. unfold present in G4, G15.
  split.
  { intros Hf. rewrite <- (format_request_demanded junk rs st R). apply A2. rewrite (off2 junk rs st R). exact Hf. }
  unfold job_as_demanded. split.
  { exists (asked_pages st rgs). split.
    - unfold pages_demanded, asked_pages, given. rewrite G4. destruct (asked rs "--pages") as [t|]; [|reflexivity]. exists rgs. split; [|reflexivity]. rewrite <- (V4 t eq_refl). apply A1. exact G4.
    - intros s Hs. rewrite (A3 s Hs), strongest_after, F1. reflexivity. }
  split; [rewrite A5, F2; unfold given; rewrite G15; destruct (asked rs "--format") as [t|]; [rewrite (V15 t eq_refl)|]; reflexivity|].
  split; [congruence|]. rewrite A6. split; [exact F4|]. split; [exact F5|]. repeat split; congruence.
Qed.
Lemma prepare_flagged e st pa : prepare e st pa =
  (let! j := createJob pa in let! j := (if as_bool (a_val st 28%nat) then Ok j else restoreSettings (w_user (e_world e)) (parse_opt e) (e_files e) j) in
   match input_format e st with None => Ok None | Some fmt => let! r := apply_options st pa (as_bool (a_val st 2%nat)) (flagged st j) in match r with Some j => Ok (Some (j, fmt)) | None => Ok None end end).
Proof. reflexivity. Qed.
Lemma print_line e junk args rs addr file ev pa id : line args "print" rs [addr; file] -> present rs "--help" = false -> open_printer e addr = (ev, Ok (None, pa, id)) ->
  exists st, print_read junk rs st /\ a_val st 32 = AStr file /\
    client e junk args = (ev ++ fst (print_command e st (mkPrinter addr false pa) id), snd (print_command e st (mkPrinter addr false pa) id)).
Proof.
  intros H Hh Ho. destruct (client_command e junk _ _ _ _ _ _ _ _ H Hh Ho) as (st & flags & values & n & defs & pos & Hc & D & _ & V & R & E). cbn [String.eqb Ascii.eqb Bool.eqb] in E.
  exists st. destruct D as (F & _). cbn in F. injection F as <- <-. split; [exact R|]. split; [apply (V 1%nat pAddr); cbn; lia|exact E].
Qed.
(** The client ends with 0 only if the printer was opened and a job was run without an
    error, with the settings, the format and the switches the words ask for - each supported
    by the printer, unless forced - on top of the saved ones. *)
Theorem C92_print e junk args rs addr file ev : line args "print" rs [addr; file] -> present rs "--help" = false -> client e junk args = (ev, Ok 0) ->
  exists ev0 pa id j0 j fmt inFile pages ev1 ev2,
    open_printer e addr = (ev0, Ok (None, pa, id)) /\ starts_from e rs pa j0 /\ input_type e rs file fmt /\ document e fmt file inFile pages /\
    (wf_job (j_jobAttrs j0) -> exists l, demands rs meanings l /\ (present rs "--force" = false -> Forall (acceptable pa) (l ++ format_demanded rs)) /\ job_as_demanded rs l j0 j) /\
    (if present rs "--save" then exists path t, saveSettings (w_user (e_world e)) j = Ok (Some (path, t)) /\ ev1 = [Wrote path] else ev1 = []) /\
    run_job (e_world e) (mkPrinter addr (present rs "--print-job-id") pa) id j inFile fmt pages = (ev2, Ok None) /\ ev = ev0 ++ ev1 ++ ev2.
Proof.
  intros H Hh Hc. destruct (open_printer e addr) as [ev0 o] eqn:Ho. assert (Hr : exists pa id, o = Ok (None, pa, id)).
  { destruct o as [[[[er|] pa] id]| | | |]; [|eauto|..].
    1: rewrite (C92_no_printer e junk _ _ _ _ _ _ _ _ _ H Hh Ho) in Hc; discriminate.
    all: exfalso; destruct (line_parsed junk _ _ _ _ H) as (flags & values & n & defs & pos & st & _ & D & _ & E & V & R & _); unfold client in Hc; rewrite ebind_pure, E in Hc;
      rewrite (line_help junk rs st defs) in Hc by (try apply D; exact R); rewrite Hh in Hc; cbn [negb] in Hc; destruct D as (_ & _ & _ & <- & _ & _ & _ & _ & Hn & Hp);
      specialize (V 0%nat pAddr Hn); rewrite Hp in V; cbn [pa_id pAddr nth] in V; rewrite V in Hc; cbn [as_str] in Hc; rewrite Ho in Hc; discriminate. }
  destruct Hr as (pa & id & ->). destruct (print_line e junk _ _ _ _ _ _ _ H Hh Ho) as (st & R & V & E). rewrite E in Hc. clear E.
  assert (E : ev = ev0 ++ fst (print_command e st (mkPrinter addr false pa) id) /\ snd (print_command e st (mkPrinter addr false pa) id) = Ok 0) by (split; congruence). clear Hc. destruct E as [-> Hz].
  unfold print_command in *. cbn [pr_attrs pr_addr] in *. rewrite ebind_pure in *. destruct (prepare e st pa) as [[[j fmt]|]| | | |] eqn:P; try discriminate.
  rewrite V in *. cbn [as_str] in *. destruct (count_pages e fmt file) as [[inFile pages]|] eqn:C; [|discriminate].
  rewrite prepare_flagged in P. bind_inv P as jc Cj P. bind_inv P as j0 R0 P. destruct (input_format e st) as [f|] eqn:I; [|discriminate]. bind_inv P as r A P. destruct r as [j'|]; [|discriminate].
  assert (j' = j /\ f = fmt) as [-> ->] by (split; congruence). clear P.
  pose proof (off28 junk rs st R) as G28. pose proof (off27 junk rs st R) as G27.
  assert (S : starts_from e rs pa j0). { exists jc. split; [exact Cj|]. rewrite <- G28. destruct (as_bool (a_val st 28)); [congruence|exact R0]. }
  rewrite G28, G27 in *.
  pose proof Hz as Hz'. apply ebind_ok in Hz'. destruct Hz' as (saved & E1 & E2 & E3). rewrite E3. clear E3 Hz.
  destruct saved; [|discriminate]. cbn [negb] in *. apply ebind_ok in E2. destruct E2 as (error & E4 & E5 & E6). rewrite E6. destruct error; [discriminate|]. cbn [pure fst]. rewrite app_nil_r.
  exists ev0, pa, id, j0, j, fmt, inFile, pages. do 2 eexists. split; [reflexivity|]. split; [exact S|]. split; [apply (input_format_type junk e rs st file fmt R V); exact I|].
  split; [apply count_pages_document; exact C|]. split; [intros Hw; exists (requests st); split; [apply (print_demands junk); exact R|apply (applied_as_demanded junk rs st pa j0 j R (starts_attrs _ _ _ _ S) Hw A)]|].
  split; [|split; [|reflexivity]].
  - destruct (present rs "--save"); [|reflexivity]. rewrite ebind_pure in *. destruct (saveSettings _ j) as [[[path t]|]| | | |]; try discriminate. exists path, t. split; reflexivity.
  - destruct (run_job _ _ _ _ _ _ _) as [ev2 o2]. cbn [fst snd] in *. rewrite E4. reflexivity.
Qed.
(** the page ranges, the resolution or a value asked for cannot be used *)
Definition refusable (rs : list (string * string)) (pa : ipp_attrs) : Prop :=
  (exists t, asked rs "--pages" = Some t /\ forall rgs, ~ range_list t rgs)
  \/ present rs "--resolution-x" <> present rs "--resolution-y"
  \/ (present rs "--force" = false /\ forall l, demands rs meanings l -> ~ Forall (acceptable pa) (l ++ format_demanded rs)).
(** PARTIAL: as in C70, only for printers whose attributes are of the types they should have
    and whose qualities are known, and page numbers below 2^64 (an exception ends the client
    otherwise; findings of C70, C75). *)
Theorem C92_refused_partial e junk args rs addr file ev pa id j : line args "print" rs [addr; file] -> present rs "--help" = false -> open_printer e addr = (ev, Ok (None, pa, id)) ->
  starts_from e rs pa j -> wf_job (j_jobAttrs j) -> well_typed pa -> known_qualities pa ->
  (forall a d b n, asked rs "--pages" = Some (a ++ d ++ b)%string -> digits_of d n -> n < 2 ^ 64) ->
  refusable rs pa -> client e junk args = (ev, Ok 1).
Proof.
  intros H Hh Ho S Hw T Q Hn Bad. destruct (print_line e junk _ _ _ _ _ _ _ H Hh Ho) as (st & R & V & ->). pose proof (starts_attrs _ _ _ _ S) as Hp.
  assert (P : prepare e st pa = Ok None).
  { destruct S as (jc & C & S). rewrite prepare_flagged, C. cbn [bind]. rewrite (off28 junk rs st R). replace (if present rs "--save" then Ok jc else _) with (Ok j) by (destruct (present rs "--save"); congruence).
    cbn [bind]. destruct (input_format e st); [|reflexivity]. destruct (flagged_job junk rs st j R) as (F1 & _ & _ & _ & _ & _ & _ & F8 & _).
    destruct (C70_refused_partial st pa (as_bool (a_val st 2)) (flagged st j)) as [[-> _]|(j' & _ & N)]; [congruence|rewrite F1; exact Hw|exact T|exact Q| |reflexivity|exfalso; apply N].
    - unfold given. rewrite (on4 junk rs st R). unfold present. intros Hg a d b n E. destruct (asked rs "--pages") as [t|] eqn:A; [|discriminate]. apply (Hn a d b n). rewrite (says4 junk rs st t R A) in E. cbn in E. rewrite E. reflexivity.
    - destruct Bad as [(t & A & N')|[N'|(Hf & N')]].
      + left. unfold given. rewrite (on4 junk rs st R), (says4 junk rs st t R A). unfold present. rewrite A. split; [reflexivity|exact N'].
      + right. left. unfold given. intros E. apply N'. rewrite <- (read_given junk rs st 9 R ltac:(below) eq_refl : _ = present rs "--resolution-x"), <- (read_given junk rs st 10 R ltac:(below) eq_refl : _ = present rs "--resolution-y"). exact E.
      + right. right. rewrite (off2 junk rs st R). split; [exact Hf|]. rewrite (format_request_demanded junk rs st R). apply N'. apply (print_demands junk). exact R. }
  unfold print_command. cbn [pr_attrs]. rewrite ebind_pure, P. cbn [pure fst snd]. rewrite app_nil_r. reflexivity.
Qed.
(** Without a type for the input nothing is sent either. *)
Theorem C92_unknown_type e junk args rs addr file ev pa id j : line args "print" rs [addr; file] -> present rs "--help" = false -> open_printer e addr = (ev, Ok (None, pa, id)) ->
  starts_from e rs pa j -> (forall fmt, ~ input_type e rs file fmt) -> client e junk args = (ev, Ok 1).
Proof.
  intros H Hh Ho S N. destruct (print_line e junk _ _ _ _ _ _ _ H Hh Ho) as (st & R & V & ->).
  assert (P : prepare e st pa = Ok None).
  { destruct S as (jc & C & S). rewrite prepare_flagged, C. cbn [bind]. rewrite (off28 junk rs st R). replace (if present rs "--save" then Ok jc else _) with (Ok j) by (destruct (present rs "--save"); congruence).
    cbn [bind]. destruct (input_format e st) as [f|] eqn:I; [|reflexivity]. exfalso. exact (N f (proj1 (input_format_type junk e rs st file f R V) I)). }
  unfold print_command. cbn [pr_attrs]. rewrite ebind_pure, P. cbn [pure fst snd]. rewrite app_nil_r. reflexivity.
Qed.

(** ** Examples *)
Lemma named_in (k v : string) l : existsb (fun e => String.eqb k (fst e) && String.eqb v (snd e)) l = true -> In (k, v) l.
Proof. intros H. apply existsb_exists in H. destruct H as ([a b] & H & E). cbn in E. apply andb_prop in E. destruct E as [E1 E2]. apply String.eqb_eq in E1, E2. subst. exact H. Qed.
Definition takes_b (e : string * string) : bool :=
  let (n, v) := e in
  (if String.eqb n "--collated-copies" then existsb (String.eqb v) (map fst collations) else true) && (if String.eqb n "--quality" then existsb (String.eqb v) (map fst ipp_qualities) else true)
  && (if existsb (String.eqb n) ["--copies"; "--finishings"; "--margin"; "--top-margin"; "--bottom-margin"; "--left-margin"; "--right-margin"; "--id"]%string then match convert KInt v with Ok (AInt _) => true | _ => false end else true)
  && (if existsb (String.eqb n) ["--resolution"; "--resolution-x"; "--resolution-y"]%string then match convert KUInt v with Ok (AInt _) => true | _ => false end else true).
Lemma takes_sound e : takes_b e = true -> client_takes (fst e) (snd e).
Proof.
  destruct e as [n v]. unfold takes_b. rewrite !andb_true_iff. intros [[[H1 H2] H3] H4]. cbn [fst snd]. repeat split.
  - intros ->. rewrite String.eqb_refl in H1. apply existsb_name in H1. exact H1.
  - intros ->. rewrite String.eqb_refl in H2. apply existsb_name in H2. exact H2.
  - intros K. apply existsb_name in K. rewrite K in H3. destruct (convert KInt v) as [a| | | |] eqn:E; try discriminate. destruct a; try discriminate. eexists. apply C24_values. exact E.
  - intros K. apply existsb_name in K. rewrite K in H4. destruct (convert KUInt v) as [a| | | |] eqn:E; try discriminate. destruct a; try discriminate. eexists. apply C24_values. exact E.
Qed.
Ltac reads_example := repeat first [apply options_none | apply options_flag; [apply named_in; reflexivity|] | apply options_value; [apply named_in; reflexivity|]].
Ltac line_example fl vl n sw :=
  exists fl, vl, n, sw; split; [cbn; tauto|]; split; [reflexivity|]; split; [reads_example|]; split;
  [apply Forall_forall; intros x Hx; apply takes_sound; revert x Hx; apply forallb_forall; vm_compute; reflexivity|];
  split; [reflexivity|]; split; intros K; apply existsb_name in K; vm_compute in K; discriminate.
Definition cmd_addr : string := "ipp://printer/ipp/print".
Definition print_options : list string := (good_options ++ ["--one-stage"; "-r"; "600"; "-m"; "0"; "-tm"; "300"; "-f"; "-aa"; "--collated-copies"; "no"; "-q"; "high"; "-rx"; "1200"; "-ry"; "600"]%string)%list.
Definition print_pairs : list (string * string) :=
  [ ("--pages", "1-3,5-"); ("--copies", "2"); ("--resolution", "300"); ("--top-margin", "300"); ("--sides", "two-sided-long-edge"); ("--format", "image/urf");
    ("--one-stage", ""); ("--resolution", "600"); ("--margin", "0"); ("--top-margin", "300"); ("--force", ""); ("--antialias", ""); ("--collated-copies", "no"); ("--quality", "high");
    ("--resolution-x", "1200"); ("--resolution-y", "600") ]%string.
(** every kind of option; the job is run *)
Example C92_print_example :
  line (ex_args print_options) "print" print_pairs [cmd_addr; "doc.pdf"]%string /\ present print_pairs "--help" = false /\
  (match client (client_world 4) junk0 (ex_args print_options) with ([Posted _ _; Streamed _ _], Ok 0) => True | _ => False end) /\
  demands print_pairs meanings [ (s_copies, VInt 2); (s_multipleDocumentHandling, VStr "separate-documents-uncollated-copies"); (s_resolution, VRes 600 600 3); (s_resolution, VRes 1200 600 3);
    (s_sides, VStr "two-sided-long-edge"); (s_printQuality, VInt 5); (s_topMargin, VInt 0); (s_bottomMargin, VInt 0); (s_leftMargin, VInt 0); (s_rightMargin, VInt 0); (s_topMargin, VInt 300) ].
Proof.
  split; [line_example print_flags print_values 2%nat print_options|]. split; [reflexivity|]. split; [vm_compute; exact I|].
  destruct (line_parsed junk0 (ex_args print_options) "print" print_pairs [cmd_addr; "doc.pdf"]%string) as (fl & vl & n & defs & pos & st & Hin & D & _ & E & V & R & _).
  { line_example print_flags print_values 2%nat print_options. }
  destruct D as (F & _). cbn in F. injection F as <- <-. pose proof (print_demands junk0 print_pairs st R) as M.
  replace (requests st) with (requests (parsed print_options)) in M; [vm_compute in M; exact M|]. unfold parsed. rewrite E. reflexivity.
Qed.
Lemma demands_text rs es l n s t : demands rs es l -> In ([n], s, Text) es -> asked rs n = Some t -> In (s, VStr t) l.
Proof.
  induction 1 as [|o s' r es l N D IH|o s' r es l ts v A M D IH]; intros K At; [destruct K|..]; (destruct K as [K|K]; [assert (o = [n] /\ s' = s /\ r = Text) as (-> & -> & ->) by (repeat split; congruence)|]).
  - destruct N as (m & [<-|[]] & N). congruence.
  - apply IH; assumption.
  - left. inversion A as [|? t' ? ? A1 A2]; subst. inversion A2; subst. cbn in M. congruence.
  - right. apply IH; assumption.
Qed.
(** half a resolution; a value the printer does not support *)
Definition half_options : list string := ["-rx"; "300"]%string.
Definition colour_options : list string := ["-c"; "color"]%string.
Example C92_refused_example :
  line (ex_args half_options) "print" [("--resolution-x", "300")]%string [cmd_addr; "doc.pdf"]%string /\ refusable [("--resolution-x", "300")]%string (client_printer 4) /\
  line (ex_args colour_options) "print" [("--color-mode", "color")]%string [cmd_addr; "doc.pdf"]%string /\ refusable [("--color-mode", "color")]%string (client_printer 4) /\
  starts_from (client_world 4) [("--color-mode", "color")]%string (client_printer 4) (new_job (client_printer 4) []) /\
  snd (client (client_world 4) junk0 (ex_args half_options)) = Ok 1 /\ snd (client (client_world 4) junk0 (ex_args colour_options)) = Ok 1.
Proof.
  split; [line_example print_flags print_values 2%nat half_options|]. split; [right; left; discriminate|]. split; [line_example print_flags print_values 2%nat colour_options|].
  split.
  { right. right. split; [reflexivity|]. intros l D F. apply Forall_app in F. destruct F as [F _]. unfold meanings in D.
    assert (K : In (s_colorMode, VStr "color") l) by (apply (demands_text _ _ _ "--color-mode" s_colorMode _ D); [cbn; tauto|reflexivity]).
    rewrite Forall_forall in F. specialize (F _ K). destruct F as [F|[F _]]; [|discriminate F]. vm_compute in F. exact F. }
  split; [exists (new_job (client_printer 4) []); split; vm_compute; reflexivity|]. split; vm_compute; reflexivity.
Qed.
Example C92_unknown_type_example :
  line ["print"; cmd_addr; "-"]%string "print" [] [cmd_addr; "-"]%string /\ (forall fmt, ~ input_type (client_world 4) [] "-" fmt) /\ snd (client (client_world 4) junk0 ["print"; cmd_addr; "-"]%string) = Ok 1.
Proof. split; [line_example print_flags print_values 2%nat (@nil string)|]. split; [intros fmt [N _]; apply N; reflexivity|vm_compute; reflexivity]. Qed.
(** the other commands *)
Example C92_commands_example :
  line ["info"; "-v"; cmd_addr]%string "info" [("--verbose", "")]%string [cmd_addr] /\ line ["cancel-job"; "--id"; "17"; cmd_addr]%string "cancel-job" [("--id", "17")]%string [cmd_addr] /\
  line ["cancel-job"; cmd_addr]%string "cancel-job" [] [cmd_addr] /\ line ["set-attrs"; cmd_addr; "printer-location=here"]%string "set-attrs" [] [cmd_addr; "printer-location=here"]%string /\
  line ["get-jobs"; "-h"; cmd_addr]%string "get-jobs" [("--help", "")]%string [cmd_addr] /\
  (match client (client_world 4) junk0 ["cancel-job"; "--id"; "17"; cmd_addr]%string with ([Posted _ _; Posted _ _], Ok 0) => True | _ => False end) /\
  (match client (client_world 4) junk0 ["cancel-job"; cmd_addr]%string with ([Posted _ _], Ok 1) => True | _ => False end) /\
  (match client (client_world 4) junk0 ["get-jobs"; "-h"; cmd_addr]%string with ([], Ok 0) => True | _ => False end) /\
  (match client (client_world 4) junk0 ["get-jobs"; "--id"; "17"; cmd_addr]%string with ([], Ok 1) => True | _ => False end).
Proof.
  split; [line_example common_flags (@nil (string * string)) 1%nat ["-v"]%string|]. split; [line_example common_flags [("--id", "--id")]%string 1%nat ["--id"; "17"]%string|].
  split; [line_example common_flags [("--id", "--id")]%string 1%nat (@nil string)|]. split; [line_example common_flags (@nil (string * string)) 2%nat (@nil string)|].
  split; [line_example common_flags (@nil (string * string)) 1%nat ["-h"]%string|]. vm_compute. repeat split.
Qed.
Print Assumptions C92_help.
Print Assumptions C92_other_words.
Print Assumptions C92_open.
Print Assumptions C92_no_printer.
Print Assumptions C92_info.
Print Assumptions C92_get_attrs.
Print Assumptions C92_identify.
Print Assumptions C92_get_jobs.
Print Assumptions C92_cancel.
Print Assumptions C92_set_attrs.
Print Assumptions C92_print.
Print Assumptions C92_refused_partial.
Print Assumptions C92_unknown_type.
