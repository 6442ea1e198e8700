(** C90: the messages and help texts of the command line parser. *)
From Verif Require Import Base BaseLemmas StringModel StringSpec StringProofs StringProperties ParamsModel ParamsSpec ArgModel ArgSpec ArgProperties HelpModel.
From Coq Require Import Lia.
From Coq Require Import ZifyBool ZifyNat.

(** ** Specification *)
(** how an option and a positional argument are called in messages and help texts *)
Definition value_name (k : kind) : string :=
  match k with KBool => "" | KString => " <string>" | KEnum _ => " <choice>" | KInt | KLong | KUInt | KULong => " <int>" end.
Definition option_title (d : switch) : string := (glue ", " (sw_names d) ++ value_name (sw_kind d))%string.
Definition argument_title (p : posarg) : string := (if pa_optional p then "[" ++ pa_name p ++ "]" else "<" ++ pa_name p ++ ">")%string.
(** the first thing that is wrong with a command line, and what is said about it *)
Inductive complaint (defs : list switch) (pos : list posarg) : list string -> string -> Prop :=
| no_value sw l name d : switches defs sw l -> known defs name d -> sw_kind d <> KBool ->
    complaint defs pos (sw ++ [name]) ("Missing value for " ++ option_title d)
| bad_value sw l name d value rest : switches defs sw l -> known defs name d -> sw_kind d <> KBool -> (forall x, ~ value_text (sw_kind d) value x) -> sw_hint d = ""%string ->
    complaint defs pos (sw ++ name :: value :: rest) ("Bad value for " ++ option_title d ++ " (" ++ value ++ ")")
| bad_value_hint sw l name d value rest : switches defs sw l -> known defs name d -> sw_kind d <> KBool -> (forall x, ~ value_text (sw_kind d) value x) -> sw_hint d <> ""%string ->
    complaint defs pos (sw ++ name :: value :: rest) (sw_hint d ++ " (" ++ value ++ ")")
| too_many sw l a rest : switches defs sw l -> (forall d, In d defs -> ~ In a (sw_names d)) -> (length pos < length (a :: rest))%nat ->
    complaint defs pos (sw ++ a :: rest) ("Unknown argument: " ++ a)
| too_few sw l rest before p after : switches defs sw l -> no_switch defs rest -> pos = before ++ p :: after -> (length rest <= length before)%nat ->
    (forall q, In q (skipn (length rest) before) -> pa_optional q = true) -> pa_optional p = false ->
    complaint defs pos (sw ++ rest) ("Missing positional argument " ++ argument_title p).

(** The help text.  A line for an option: two spaces, the title, a gap of at least four spaces and
    the description, which begins in the column [col]. *)
Definition all_texts (l : list string) : string := fold_right append ""%string l.
Definition blank (gap : string) : Prop := forall n c, String.get n gap = Some c -> c = " "%char.
Definition newline : string := String (ascii_of_nat 10) "".
Definition option_line (col : nat) (d : switch * string) (line : string) : Prop :=
  exists gap, line = ("  " ++ option_title (fst d) ++ gap ++ snd d ++ newline)%string /\ blank gap /\ (4 <= String.length gap)%nat
    /\ (2 + String.length (option_title (fst d)) + String.length gap = col)%nat.
(** The usage of a command: what it takes and then a line for every option, with the
    descriptions below each other and the column as far to the left as the longest title allows. *)
Definition usage (name : string) (defs : list (switch * string)) (pos : list posarg) (text : string) : Prop :=
  exists col lines, Forall2 (option_line col) defs lines /\ (defs <> [] -> exists d, In d defs /\ col = (2 + String.length (option_title (fst d)) + 4)%nat)
    /\ text = (name ++ (if defs then "" else " [options]") ++ all_texts (map (fun p => " " ++ argument_title p) pos) ++ newline ++ all_texts lines)%string.

(** ** Proofs *)
Lemma title_switch d : switch_doc d = option_title d.
Proof. unfold switch_doc, option_title. rewrite C22_join_is_glue. destruct (sw_kind d); reflexivity. Qed.
Lemma title_pos p : pos_doc p = argument_title p.
Proof. unfold pos_doc, argument_title. destruct (pa_optional p); reflexivity. Qed.
Lemma convert_none k v : (forall x, ~ value_text k v x) -> forall x, convert k v <> Ok x.
Proof. intros H x E. apply C24_values in E. exact (H x E). Qed.
(** the loop reads the switches and goes on behind them *)
Lemma loop_on defs sw l : switches defs sw l -> forall rest fuel st, (length (sw ++ rest) <= fuel)%nat ->
  exists fuel', (length rest <= fuel')%nat /\ switch_loop fuel defs st (sw ++ rest) = switch_loop fuel' defs (assigns st l) rest.
Proof.
  induction 1 as [|name d args l Hk Hb Hs IH|name value x d args l Hk Hb Hc Hs IH]; intros rest fuel st Hf.
  - exists fuel. split; [exact Hf|reflexivity].
  - cbn [app length] in Hf. destruct fuel as [|fuel]; [lia|]. cbn [app switch_loop]. destruct (try_known defs name d st (args ++ rest) Hk) as [z E].
    rewrite E. destruct Hk as [? [? [_ [Hin _]]]]. rewrite (parse_known d st name (args ++ rest) Hin), Hb. apply IH. lia.
  - cbn [app length] in Hf. destruct fuel as [|fuel]; [lia|]. cbn [app switch_loop]. destruct (try_known defs name d st (value :: args ++ rest) Hk) as [y E].
    rewrite E. destruct Hk as [? [? [_ [Hin _]]]]. rewrite (parse_known d st name (value :: args ++ rest) Hin).
    apply C24_values in Hc. destruct (sw_kind d) eqn:K; [congruence|..]; rewrite Hc; apply IH; lia.
Qed.
Lemma loop_bad defs name d st rest fuel : known defs name d -> sw_kind d <> KBool -> (length (name :: rest) <= fuel)%nat ->
  match rest with [] => True | v :: _ => forall x, convert (sw_kind d) v <> Ok x end ->
  switch_loop fuel defs st (name :: rest) = Ok (inr (switch_error d rest, st)).
Proof.
  intros Hk Hb Hf Hv. cbn [length] in Hf. destruct fuel as [|fuel]; [lia|]. cbn [switch_loop]. destruct (try_known defs name d st rest Hk) as [y E]. rewrite E.
  destruct Hk as [? [? [_ [Hin _]]]]. rewrite (parse_known d st name rest Hin). destruct (sw_kind d) eqn:K; [congruence|..];
    (destruct rest as [|v rest]; [reflexivity|]; destruct (convert _ v) as [zz| | | |]; [contradiction (Hv zz eq_refl)|reflexivity..]).
Qed.
Lemma missing_pos pos : forall rest st before p after, pos = before ++ p :: after -> (length rest <= length before)%nat -> (forall q, In q (skipn (length rest) before) -> pa_optional q = true) ->
  pa_optional p = false -> exists st', parse_pos pos st rest = inr (("Missing positional argument " ++ argument_title p)%string, st').
Proof.
  induction pos as [|q pos IH]; intros rest st before p after E L O Hp; [destruct before; discriminate|]. destruct before as [|b before].
  - injection E as -> ->. destruct rest as [|a rest]; [|cbn in L; lia]. cbn [parse_pos]. rewrite Hp, title_pos. eexists. reflexivity.
  - injection E as -> ->. destruct rest as [|a rest]; cbn [parse_pos].
    + cbn [length skipn] in O. rewrite (O b (or_introl eq_refl)). apply (IH [] st before p after eq_refl); [cbn; lia| |exact Hp]. intros q Hq. apply O. right. exact Hq.
    + cbn [length skipn] in L, O. apply (IH rest _ before p after eq_refl); [lia|exact O|exact Hp].
Qed.
(** the first missing argument *)
Lemma first_missing l : ~ (forall p, In p l -> pa_optional p = true) -> exists b p a, l = b ++ p :: a /\ (forall q, In q b -> pa_optional q = true) /\ pa_optional p = false.
Proof.
  induction l as [|x l IH]; intros H; [exfalso; apply H; intros p []|]. destruct (pa_optional x) eqn:E.
  - destruct IH as (b & p & a & -> & H1 & H2); [intros K; apply H; intros p [<-|Hp]; [exact E|apply K; exact Hp]|]. exists (x :: b), p, a. split; [reflexivity|]. split; [|exact H2].
    intros q [<-|Hq]; [exact E|apply H1; exact Hq].
  - exists [], x, l. split; [reflexivity|]. split; [intros q []|exact E].
Qed.
Lemma switches_app defs a l : switches defs a l -> forall b m, switches defs b m -> switches defs (a ++ b) (l ++ m).
Proof. induction 1; intros b m Hb; cbn [app]; [exact Hb|apply switches_flag; auto|apply switches_value; auto]. Qed.
Lemma complaint_later defs pos sw1 l1 args msg : switches defs sw1 l1 -> complaint defs pos args msg -> complaint defs pos (sw1 ++ args) msg.
Proof.
  intros H C. destruct C as [sw l name d Hs|sw l name d value rest Hs|sw l name d value rest Hs|sw l a rest Hs|sw l rest before p after Hs]; rewrite app_assoc;
    pose proof (switches_app _ _ _ H _ _ Hs); [eapply no_value|eapply bad_value|eapply bad_value_hint|eapply too_many|eapply too_few]; eassumption.
Qed.
(** a command line is well formed or there is a complaint about it *)
Lemma wrong_somewhere defs pos : forall n args, (length args <= n)%nat ->
  (exists sw l rest, args = sw ++ rest /\ switches defs sw l /\ no_switch defs rest) \/ (exists msg, complaint defs pos args msg).
Proof.
  induction n as [|n IH]; intros args Hn.
  - destruct args; [left; exists [], [], []; split; [reflexivity|]; split; [constructor|exact I]|cbn in Hn; lia].
  - destruct args as [|a args]; [left; exists [], [], []; split; [reflexivity|]; split; [constructor|exact I]|]. cbn [length] in Hn. destruct (find_known defs a) as [[d Hk]|Hu].
    + destruct (match sw_kind d with KBool => true | _ => false end) eqn:B.
      * assert (Kb : sw_kind d = KBool) by (destruct (sw_kind d); (reflexivity || discriminate)). destruct (IH args ltac:(lia)) as [(sw & l & rest & -> & H1 & H2)|(msg & C)].
        -- left. exists (a :: sw), ((sw_id d, ABool true) :: l), rest. split; [reflexivity|]. split; [constructor; assumption|exact H2].
        -- right. exists msg. apply (complaint_later defs pos [a] [(sw_id d, ABool true)] args msg); [apply switches_flag; [exact Hk|exact Kb|constructor]|exact C].
      * assert (Kb : sw_kind d <> KBool) by (intros X; rewrite X in B; discriminate). destruct args as [|v args].
        -- right. eexists. apply (no_value defs pos [] [] a d); [constructor|exact Hk|exact Kb].
        -- cbn [length] in Hn. destruct (convert (sw_kind d) v) as [x| | | |] eqn:E.
           1: { apply C24_values in E. destruct (IH args ltac:(lia)) as [(sw & l & rest & -> & H1 & H2)|(msg & C)].
                - left. exists (a :: v :: sw), ((sw_id d, x) :: l), rest. split; [reflexivity|]. split; [apply switches_value; assumption|exact H2].
                - right. exists msg. apply (complaint_later defs pos [a; v] [(sw_id d, x)] args msg); [apply switches_value; [exact Hk|exact Kb|exact E|constructor]|exact C]. }
           all: right; assert (N : forall x, ~ value_text (sw_kind d) v x) by (intros x X; apply C24_values in X; congruence); destruct (String.eqb_spec (sw_hint d) "") as [Q|Q];
             [eexists; apply (bad_value defs pos [] [] a d v args); try assumption; constructor|eexists; apply (bad_value_hint defs pos [] [] a d v args); try assumption; constructor].
    + left. exists [], [], (a :: args). split; [reflexivity|]. split; [constructor|exact Hu].
Qed.
Lemma complaint_made defs pos st args msg : complaint defs pos args msg -> exists st', get_args defs pos st args = Ok (false, msg, st').
Proof.
  intros C. unfold get_args. inversion C; subst; clear C;
    match goal with Hs : switches defs ?sw ?l |- context [switch_loop ?f defs st (?sw ++ ?r)] => destruct (loop_on defs sw l Hs r f st (le_n _)) as (f' & Hf & ->) end.
  - rewrite (loop_bad defs name d _ [] f'); try assumption; [|exact I]. cbn [bind]. eexists. cbn [switch_error]. rewrite title_switch. reflexivity.
  - rewrite (loop_bad defs name d _ (value :: rest) f'); try assumption; [|apply convert_none; assumption]. cbn [bind]. eexists. cbn [switch_error]. rewrite H3, title_switch. reflexivity.
  - rewrite (loop_bad defs name d _ (value :: rest) f'); try assumption; [|apply convert_none; assumption]. cbn [bind]. eexists. cbn [switch_error]. apply String.eqb_neq in H3. rewrite H3. reflexivity.
  - destruct f' as [|f']; [cbn in Hf; lia|]. cbn [switch_loop]. rewrite try_unknown by assumption. cbn [bind]. replace (length pos <? length (a :: rest))%nat with true by lia. eexists. reflexivity.
  - assert (E : switch_loop f' defs (assigns st l) rest = Ok (inl (assigns st l, rest))) by (apply (loop_switches defs [] [] (switches_none defs) rest); assumption).
    rewrite E. cbn [bind]. rewrite app_length. cbn [length]. replace (length before + S (length after) <? length rest)%nat with false by lia.
    destruct (missing_pos (before ++ p :: after) rest (assigns st l) before p after eq_refl) as [st' E']; try assumption. rewrite E'. eexists. reflexivity.
Qed.

(** ** C90 *)
(** A command line is refused with the message for the first thing that is wrong with it. *)
Theorem C90_message : forall defs pos st args msg, (exists st', get_args defs pos st args = Ok (false, msg, st')) <-> complaint defs pos args msg.
Proof.
  intros defs pos st args msg. split; [|apply complaint_made]. intros [st' E].
  assert (C : (exists m, complaint defs pos args m) \/ exists l, well_formed defs pos args l).
  { destruct (wrong_somewhere defs pos (length args) args (le_n _)) as [(sw & l & rest & -> & Hs & Hn)|C]; [|left; exact C].
    destruct (Nat.ltb_spec (length pos) (length rest)) as [L|L].
    - destruct rest as [|a rest]; [cbn in L; lia|]. left. eexists. eapply too_many; eassumption.
    - destruct (optional_dec (skipn (length rest) pos)) as [O|O].
      + right. eexists. exists sw, rest, l. split; [reflexivity|]. split; [exact Hs|]. split; [split; [exact L|]; split; [exact O|exact Hn]|reflexivity].
      + left. destruct (first_missing _ O) as (b & p & a & Ea & H1 & H2). eexists. apply (too_few defs pos sw l rest (firstn (length rest) pos ++ b) p a); try assumption.
        * rewrite <- app_assoc, <- Ea. symmetry. apply firstn_skipn.
        * rewrite app_length, firstn_length. lia.
        * rewrite skipn_app, firstn_length. replace (length rest - Nat.min (length rest) (length pos))%nat with 0%nat by lia. cbn [skipn].
          rewrite skipn_all2 by (rewrite firstn_length; lia). exact H1. }
  destruct C as [[m C]|[l W]].
  - destruct (complaint_made defs pos st args m C) as [s2 E2]. rewrite E in E2. injection E2 as -> _. exact C.
  - destruct (C24_accepts defs pos st args l W) as [s2 [E2 _]]. rewrite E in E2. discriminate.
Qed.
(** The argument that is called unknown when there are too many is the first of them, not
    one that is too much: bsplit a b c complains about a. *)
Theorem C90_unknown_refuted : exists defs pos st a b c st', get_args defs pos st [a; b; c] = Ok (false, ("Unknown argument: " ++ a)%string, st') /\ exists l, well_formed defs pos [a; b] l.
Proof.
  exists bsplit_switches, bsplit_pos, bsplit_init, "a"%string, "b"%string, "c"%string. eexists. split; [vm_compute; reflexivity|].
  eexists. exists [], ["a"; "b"]%string, []. split; [reflexivity|]. split; [constructor|]. split; [|reflexivity]. split; [cbn; lia|]. split; [intros p []|].
  intros d Hd. repeat destruct Hd as [<-|Hd]; try contradiction; cbn; intros F; repeat destruct F as [F|F]; try discriminate F; exact F.
Qed.

Lemma sapp_assoc (a b c : string) : ((a ++ b) ++ c = a ++ b ++ c)%string.
Proof. induction a as [|x a IH]; cbn; [reflexivity|rewrite IH; reflexivity]. Qed.
Lemma app_nil_s (a : string) : (a ++ "" = a)%string.
Proof. induction a as [|x a IH]; cbn; [reflexivity|rewrite IH; reflexivity]. Qed.
Lemma fold_texts {A} (f : A -> string) l : forall acc, fold_left (fun h x => h ++ f x)%string l acc = (acc ++ all_texts (map f l))%string.
Proof.
  induction l as [|x l IH]; intros acc; cbn [fold_left map all_texts fold_right].
  - symmetry. apply app_nil_s.
  - rewrite IH. apply sapp_assoc.
Qed.
Lemma spaces_length n : String.length (spaces n) = n.
Proof. induction n as [|n IH]; cbn; [reflexivity|rewrite IH; reflexivity]. Qed.
Lemma spaces_blank n : blank (spaces n).
Proof.
  intros k c. revert k. induction n as [|n IH]; intros k; cbn; [destruct k; discriminate|]. destruct k as [|k]; [intros [= <-]; reflexivity|apply IH].
Qed.
Lemma spaces_more n : (spaces n ++ "    ")%string = spaces (n + 4).
Proof. induction n as [|n IH]; cbn; [reflexivity|rewrite IH; reflexivity]. Qed.
Lemma widest (defs : list documented) : forall w, exists v, fold_left (fun w d => Nat.max w (String.length (switch_doc (fst d)))) defs w = v /\ (w <= v)%nat
  /\ (forall d, In d defs -> String.length (option_title (fst d)) <= v)%nat /\ (v = w \/ exists d, In d defs /\ v = String.length (option_title (fst d))).
Proof.
  induction defs as [|x defs IH]; intros w; cbn [fold_left].
  - exists w. split; [reflexivity|]. split; [lia|]. split; [intros d []|left; reflexivity].
  - rewrite title_switch. destruct (IH (Nat.max w (String.length (option_title (fst x))))) as (v & E & L & B & M). exists v. split; [exact E|]. split; [lia|]. split.
    + intros d [<-|Hd]; [lia|apply B; exact Hd].
    + destruct M as [->|[d [Hd ->]]]; [|right; exists d; split; [right; exact Hd|reflexivity]].
      destruct (Nat.max_spec w (String.length (option_title (fst x)))) as [[? ->]|[? ->]]; [right; exists x; split; [left; reflexivity|reflexivity]|left; reflexivity].
Qed.
Lemma body_usage name defs pos : usage name defs pos (name ++ arg_help_body defs pos)%string.
Proof.
  unfold arg_help_body, usage. destruct (widest defs 0) as (w & -> & _ & B & M).
  set (line := fun d : documented => ("  " ++ setw_left w (switch_doc (fst d)) ++ "    " ++ snd d ++ endl)%string). exists (2 + w + 4)%nat, (map line defs). split; [|split].
  - clear M. induction defs as [|d defs IH]; cbn [map]; constructor; [|apply IH; intros e He; apply B; right; exact He].
    pose proof (B d (or_introl eq_refl)) as Hd. unfold line, setw_left. rewrite title_switch. exists (spaces (w - String.length (option_title (fst d)) + 4)). split; [|split; [|split]].
    + rewrite <- spaces_more, !sapp_assoc. reflexivity.
    + apply spaces_blank.
    + rewrite spaces_length. lia.
    + rewrite spaces_length. lia.
  - intros N. destruct M as [->|[d [Hd ->]]]; [|exists d; split; [exact Hd|reflexivity]]. destruct defs as [|d defs]; [contradiction|]. exists d. split; [left; reflexivity|].
    pose proof (B d (or_introl eq_refl)). lia.
  - rewrite (fold_texts (fun p => " " ++ pos_doc p)%string), (fold_texts line). cbn [append].
    rewrite (List.map_ext _ (fun p => " " ++ argument_title p)%string) by (intros p; rewrite title_pos; reflexivity). reflexivity.
Qed.
Theorem C90_help : forall name defs pos, usage ("Usage: " ++ name)%string defs pos (arg_help name defs pos).
Proof. intros name defs pos. unfold arg_help. rewrite <- sapp_assoc. apply body_usage. Qed.

(** ** Sub-commands *)
(** the definition that a name stands for is the last one *)
Definition described (subs : sub_docs) (name : string) (d : list documented * list posarg) : Prop :=
  exists before after, subs = before ++ (name, d) :: after /\ forall e, ~ In (name, e) after.
Lemma find_described subs name d : find_docs subs name = Some d <-> described subs name d.
Proof.
  assert (No : forall l, find_docs l name = None <-> forall e, ~ In (name, e) l).
  { induction l as [|[n x] l IH]; cbn [find_docs]; [split; [intros _ e []|reflexivity]|]. destruct (find_docs l name) as [y|] eqn:E.
    - split; [discriminate|]. intros H. assert (X : Some y = None) by (apply IH; intros e He; apply (H e); right; exact He). discriminate X.
    - destruct (String.eqb_spec n name) as [Q|Q]; [split; [discriminate|intros H; contradiction (H x); left; rewrite Q; reflexivity]|].
      split; [|reflexivity]. intros _ e [X|X]; [injection X as X _; contradiction|exact (proj1 IH eq_refl e X)]. }
  revert d. induction subs as [|[n x] l IH]; intros d; cbn [find_docs].
  - split; [discriminate|]. intros (b & a & E & _). destruct b; discriminate.
  - split.
    + destruct (find_docs l name) as [y|] eqn:E.
      * intros [= ->]. destruct (proj1 (IH d) eq_refl) as (b & a & -> & H). exists ((n, x) :: b), a. split; [reflexivity|exact H].
      * destruct (String.eqb_spec n name) as [Q|Q]; [|discriminate]. intros [= ->]. exists [], l. split; [rewrite Q; reflexivity|apply No; exact E].
    + intros (b & a & E & H). destruct b as [|z b].
      * injection E as -> -> ->. rewrite (proj2 (No a) H), String.eqb_refl. reflexivity.
      * injection E as _ E. rewrite (proj2 (IH d) ltac:(exists b, a; split; [exact E|exact H])). reflexivity.
Qed.
Definition section (name : string) (subs : sub_docs) (sub text : string) : Prop :=
  exists defs pos t, described subs sub (defs, pos) /\ usage (name ++ " " ++ sub)%string defs pos t /\ text = (t ++ newline)%string.
Lemma section_described name subs sub d : find_docs subs sub = Some d -> section name subs sub (sub_section name subs sub).
Proof.
  intros E. unfold sub_section. rewrite E. destruct d as [defs pos]. exists defs, pos, ((name ++ " " ++ sub) ++ arg_help_body defs pos)%string. split; [apply find_described; exact E|]. split; [apply body_usage|].
  rewrite !sapp_assoc. reflexivity.
Qed.
Theorem C90_sub_help : forall name subs sub, exists sections, sub_arg_help name subs sub = ("Usage: " ++ name ++ " <sub-command> [options]" ++ newline ++ newline ++ all_texts sections)%string
  /\ Forall2 (section name subs) (if in_dec string_dec sub (map fst subs) then [sub] else map fst subs) sections.
Proof.
  intros name subs sub. unfold sub_arg_help. assert (K : forall s, In s (map fst subs) <-> find_docs subs s <> None).
  { intros s. clear. induction subs as [|[n x] l IH]; cbn [find_docs map In fst]; [tauto|]. destruct (find_docs l s) as [y|]; [split; [discriminate|intros _; right; apply IH; discriminate]|].
    destruct (String.eqb_spec n s) as [Q|Q]; [split; [discriminate|left; exact Q]|]. rewrite IH. tauto. }
  destruct (in_dec string_dec sub (map fst subs)) as [I|N].
  - apply K in I. destruct (find_docs subs sub) as [d|] eqn:E; [|contradiction]. exists [sub_section name subs sub]. split.
    + cbn [all_texts fold_right]. rewrite !sapp_assoc, app_nil_s. reflexivity.
    + constructor; [|constructor]. eapply section_described. exact E.
  - assert (E : find_docs subs sub = None) by (destruct (find_docs subs sub) eqn:E; [contradiction N; apply K; rewrite E; discriminate|reflexivity]). rewrite E.
    exists (map (sub_section name subs) (map fst subs)). split.
    + rewrite (fold_texts (fun s => sub_section name subs (fst s))), map_map. cbn [append]. rewrite !sapp_assoc. reflexivity.
    + assert (A : forall s, In s (map fst subs) -> find_docs subs s <> None) by (intros s; apply K). clear - A. induction (map fst subs) as [|s l IH]; cbn [map]; constructor.
      * destruct (find_docs subs s) as [d|] eqn:E; [|contradiction (A s (or_introl eq_refl))]. eapply section_described. exact E.
      * apply IH. intros s' Hs. apply A. right. exact Hs.
Qed.
(** and the messages *)
Theorem C90_sub_message : forall subs st args msg, (exists name st', sub_get_args subs st args = Ok (false, name, msg, st')) <->
  (args = [] /\ msg = "No sub-command given"%string)
  \/ (exists name rest, args = name :: rest /\ (forall d, ~ In (name, d) subs) /\ msg = "Invalid sub-command"%string)
  \/ (exists name rest defs pos, args = name :: rest /\ sub_command subs name (defs, pos) /\ complaint defs pos rest msg).
Proof.
  intros subs st args msg. destruct args as [|name rest]; cbn [sub_get_args].
  - split; [intros (n & s & E); injection E as _ <- _; left; split; reflexivity|]. intros [[_ ->]|[(n & r & E & _)|(n & r & d & p & E & _)]]; [|discriminate..]. do 2 eexists. reflexivity.
  - destruct (find_sub subs name) as [[defs pos]|] eqn:F.
    + pose proof (proj1 (find_sub_command subs name (defs, pos)) F) as S. assert (In' : exists d, In (name, d) subs).
      { destruct S as (b & a & -> & _). exists (defs, pos). apply in_or_app. right. left. reflexivity. }
      split.
      * intros (n & s & E). right. right. exists name, rest, defs, pos. split; [reflexivity|]. split; [exact S|]. apply (C90_message defs pos st).
        destruct (get_args defs pos st rest) as [[[ok m] s']| | | |] eqn:G; try discriminate. cbn [bind] in E. injection E as -> _ -> _. exists s'. reflexivity.
      * intros [[E _]|[(n & r & E & N & _)|(n & r & d & p & E & S' & C)]]; [discriminate|injection E as <- <-; destruct In' as [d Hd]; contradiction (N d Hd)|].
        injection E as <- <-. apply find_sub_command in S'. rewrite F in S'. injection S' as <- <-. apply (C90_message defs pos st) in C. destruct C as [s' G]. rewrite G. do 2 eexists. reflexivity.
    + assert (N : forall d, ~ In (name, d) subs).
      { clear - F. induction subs as [|[n x] l IH]; [intros d []|]. cbn [find_sub] in F. destruct (find_sub l name) eqn:E; [discriminate|]. destruct (String.eqb_spec n name) as [Q|Q]; [discriminate|].
        intros d [X|X]; [injection X as X _; contradiction|exact (IH eq_refl d X)]. }
      split.
      * intros (n & s & E). injection E as _ <- _. right. left. exists name, rest. split; [reflexivity|]. split; [exact N|reflexivity].
      * intros [[E _]|[(n & r & E & _ & ->)|(n & r & d & p & E & S' & _)]]; [discriminate| |]; [do 2 eexists; reflexivity|]. injection E as <- <-. apply find_sub_command in S'. congruence.
Qed.

(** ** Examples *)
(** bsplit.cpp:22-27 *)
Definition bsplit_documented : list documented :=
  combine bsplit_switches ["Print this help text"; "Get head number of bytes from the beginning"; "Get tail number of bytes from the end"]%string.
Definition text_lines (l : list string) : string := all_texts (map (fun s => s ++ newline)%string l).
Example C90_help_example : arg_help "bsplit" bsplit_documented bsplit_pos = text_lines
  [ "Usage: bsplit [options] <input file> <output file>";
    "  -h, --help      Print this help text";
    "  --head <int>    Get head number of bytes from the beginning";
    "  --tail <int>    Get tail number of bytes from the end" ]%string.
Proof. reflexivity. Qed.
Example C90_complaints : let c := complaint bsplit_switches bsplit_pos in
  c ["-h"; "--head"]%string "Missing value for --head <int>"%string
  /\ c ["--head"; "7"; "--tail"; "x"; "in"]%string "Bad value for --tail <int> (x)"%string
  /\ c ["--head"; "7"; "in"]%string "Missing positional argument <output file>"%string
  /\ c ["--frobnicate"; "in"; "out"]%string "Unknown argument: --frobnicate"%string.
Proof. repeat split; apply (C90_message _ _ bsplit_init); eexists; vm_compute; reflexivity. Qed.
Definition example_subs : sub_docs :=
  [ ("head", (firstn 1 bsplit_documented, bsplit_pos)); ("list", ([], [mkPos 3 "file" true])); ("head", (firstn 2 bsplit_documented, bsplit_pos)) ]%string.
Example C90_sub_example : sub_arg_help "x" example_subs "list" = text_lines [ "Usage: x <sub-command> [options]"; ""; "x list [file]"; "" ]%string
  /\ sub_arg_help "x" example_subs "head" = text_lines [ "Usage: x <sub-command> [options]"; ""; "x head [options] <input file> <output file>"; "  -h, --help      Print this help text";
       "  --head <int>    Get head number of bytes from the beginning"; "" ]%string
  /\ sub_arg_help "x" [("list", ([], [])); ("b", ([], []))]%string "" = text_lines [ "Usage: x <sub-command> [options]"; ""; "x list"; ""; "x b"; "" ]%string.
Proof. repeat split; reflexivity. Qed.

Print Assumptions C90_message.
Print Assumptions C90_unknown_refuted.
Print Assumptions C90_help.
Print Assumptions C90_sub_help.
Print Assumptions C90_sub_message.
