(** C118: command lines that say the same do the same, whatever the order of the options. *)
From Verif Require Import Base BaseLemmas StringModel ParamsModel PpmModel PdfCmdModel FileModel HelpModel TellModel DiscoveryModel ContactModel.
From Verif Require Import SettingModel JobModel PrinterModel ClientModel SayModel ArgModel ArgSpec ArgProperties.
From Coq Require Import Lia Permutation.
Local Open Scope Z_scope.

(** ** Specification *)
(** two command lines that are in order and give every variable the same value, or none *)
Definition same_meaning (defs : list switch) (pos : list posarg) (args args' : list string) : Prop :=
  exists l l', well_formed defs pos args l /\ well_formed defs pos args' l' /\ forall i, last_assigned l i = last_assigned l' i.
(** one option with its value: the words, the variable and the value *)
Inductive one_option (defs : list switch) : list string -> nat -> aval -> Prop :=
| one_flag name d : known defs name d -> sw_kind d = KBool -> one_option defs [name] (sw_id d) (ABool true)
| one_value name value x d : known defs name d -> sw_kind d <> KBool -> value_text (sw_kind d) value x -> one_option defs [name; value] (sw_id d) x.
Record given := mkGiven { g_words : list string; g_var : nat; g_val : aval }.
Definition words_of (os : list given) : list string := concat (map g_words os).

(** ** Proofs *)
Lemma last_app l l' i : last_assigned (l ++ l') i = match last_assigned l' i with Some v => Some v | None => last_assigned l i end.
Proof. induction l as [|[j v] l IH]; cbn; [destruct (last_assigned l' i); reflexivity|]. rewrite IH. destruct (last_assigned l' i); reflexivity. Qed.
Lemma one_in_front defs pos o i v args l : one_option defs o i v -> well_formed defs pos args l -> well_formed defs pos (o ++ args) ((i, v) :: l).
Proof.
  intros O (sw & p & l1 & -> & S & P & ->). destruct O as [name d K B|name value x d K B T].
  - exists (name :: sw), p, ((sw_id d, ABool true) :: l1). split; [reflexivity|]. split; [constructor; assumption|]. split; [exact P|reflexivity].
  - exists (name :: value :: sw), p, ((sw_id d, x) :: l1). split; [reflexivity|]. split; [constructor; assumption|]. split; [exact P|reflexivity].
Qed.
Lemma all_in_front defs pos os args l : Forall (fun o => one_option defs (g_words o) (g_var o) (g_val o)) os -> well_formed defs pos args l ->
  well_formed defs pos (words_of os ++ args) (map (fun o => (g_var o, g_val o)) os ++ l).
Proof.
  intros F W. induction F as [|o os O _ IH]; [exact W|]. unfold words_of. cbn [map concat app]. rewrite <- app_assoc. exact (one_in_front _ _ _ _ _ _ _ O IH).
Qed.
Lemma last_in l : NoDup (map fst l) -> forall i v, last_assigned l i = Some v <-> In (i, v) l.
Proof.
  induction l as [|[j w] l IH]; intros N i v; cbn [last_assigned In]; [split; [discriminate|contradiction]|]. cbn [map fst] in N. apply NoDup_cons_iff in N. destruct N as [N1 N2]. specialize (IH N2 i).
  destruct (last_assigned l i) as [u|] eqn:E.
  - pose proof (proj1 (IH u) eq_refl) as K. split; [intros H; injection H as <-; right; exact K|]. intros [H|H]; [|f_equal; apply IH in H; congruence].
    injection H as <- <-. exfalso. apply N1. apply (in_map fst) in K. exact K.
  - destruct (Nat.eqb_spec i j) as [<-|D].
    + split; [intros H; injection H as <-; left; reflexivity|]. intros [H|H]; [injection H as <-; reflexivity|]. apply IH in H. discriminate.
    + split; [discriminate|]. intros [H|H]; [injection H as <- <-; congruence|]. apply IH in H. discriminate.
Qed.
(** ** Theorems about command lines *)
(** options of different variables can be given in any order *)
Theorem C118_any_order defs pos os os' args l : Forall (fun o => one_option defs (g_words o) (g_var o) (g_val o)) os -> NoDup (map g_var os) -> Permutation os os' -> well_formed defs pos args l ->
  same_meaning defs pos (words_of os ++ args) (words_of os' ++ args).
Proof.
  intros F N P W. assert (F' : Forall (fun o => one_option defs (g_words o) (g_var o) (g_val o)) os') by (apply Forall_forall; intros o H; apply (proj1 (Forall_forall _ _) F), (Permutation_in _ (Permutation_sym P) H)).
  eexists. eexists. split; [exact (all_in_front _ _ _ _ _ F W)|]. split; [exact (all_in_front _ _ _ _ _ F' W)|]. intros i. rewrite !last_app. destruct (last_assigned l i); [reflexivity|].
  set (pair := fun o => (g_var o, g_val o)). assert (M : forall k, map fst (map pair k) = map g_var k) by (intros k; rewrite map_map; reflexivity).
  assert (N1 : NoDup (map fst (map pair os))) by (rewrite M; exact N). assert (N2 : NoDup (map fst (map pair os'))) by (rewrite M; exact (Permutation_NoDup (Permutation_map g_var P) N)).
  assert (Q : Permutation (map pair os) (map pair os')) by (apply Permutation_map, P).
  destruct (last_assigned (map pair os) i) as [v|] eqn:E; symmetry.
  - apply (last_in _ N2), (Permutation_in _ Q), (last_in _ N1), E.
  - destruct (last_assigned (map pair os') i) as [v|] eqn:E'; [|reflexivity]. apply (last_in _ N2) in E'. apply (Permutation_in _ (Permutation_sym Q)) in E'. apply (last_in _ N1) in E'. congruence.
Qed.
Print Assumptions C118_any_order.
(** another name for the option or another writing of the value changes nothing *)
Theorem C118_synonym defs pos before o o' i v args l : Forall (fun o => one_option defs (g_words o) (g_var o) (g_val o)) before -> one_option defs o i v -> one_option defs o' i v -> well_formed defs pos args l ->
  same_meaning defs pos (words_of before ++ o ++ args) (words_of before ++ o' ++ args).
Proof.
  intros B O O' W. eexists. eexists. split; [exact (all_in_front _ _ _ _ _ B (one_in_front _ _ _ _ _ _ _ O W))|]. split; [exact (all_in_front _ _ _ _ _ B (one_in_front _ _ _ _ _ _ _ O' W))|]. reflexivity.
Qed.
Print Assumptions C118_synonym.
(** an option given again replaces the one before, which could be left out *)
Theorem C118_again defs pos before o i v between o' v' args l : Forall (fun o => one_option defs (g_words o) (g_var o) (g_val o)) before -> one_option defs o i v ->
  Forall (fun o => one_option defs (g_words o) (g_var o) (g_val o)) between -> one_option defs o' i v' -> well_formed defs pos args l ->
  same_meaning defs pos (words_of before ++ o ++ words_of between ++ o' ++ args) (words_of before ++ words_of between ++ o' ++ args).
Proof.
  intros B O M O' W. pose proof (all_in_front _ _ _ _ _ M (one_in_front _ _ _ _ _ _ _ O' W)) as K. eexists. eexists.
  split; [exact (all_in_front _ _ _ _ _ B (one_in_front _ _ _ _ _ _ _ O K))|]. split; [exact (all_in_front _ _ _ _ _ B K)|]. intros j. rewrite !last_app. cbn [last_assigned]. rewrite !last_app. cbn [last_assigned].
  destruct (last_assigned l j); [reflexivity|]. destruct (Nat.eqb_spec j i); [reflexivity|]. destruct (last_assigned (map _ between) j); reflexivity.
Qed.
Print Assumptions C118_again.

(** ** The programs *)
(** The programs read the variables with the numbers below 40 only. *)
Definition tabled (st : astate) : astate := mkA (fun i => nth i (map (a_val st) (seq 0 40)) (AInt 0)) (fun i => nth i (map (a_set st) (seq 0 40)) false).
Lemma tabled_alike st st' : (forall i, a_val st i = a_val st' i /\ a_set st i = a_set st' i) -> tabled st = tabled st'.
Proof. intros H. unfold tabled. rewrite (map_ext (a_val st) (a_val st')) by (intros i; apply H). rewrite (map_ext (a_set st) (a_set st')) by (intros i; apply H). reflexivity. Qed.
Lemma both_accepted defs pos st args args' : same_meaning defs pos args args' ->
  exists s s', get_args defs pos st args = Ok (true, ""%string, s) /\ get_args defs pos st args' = Ok (true, ""%string, s') /\ tabled s = tabled s'.
Proof.
  intros (l & l' & W & W' & E). destruct (C24_accepts defs pos st args l W) as (s & A & H). destruct (C24_accepts defs pos st args' l' W') as (s' & A' & H'). exists s, s'. split; [exact A|]. split; [exact A'|].
  apply tabled_alike. intros i. destruct (H i) as [H1 H2]. destruct (H' i) as [H3 H4]. rewrite H1, H2, H3, H4, E. auto.
Qed.
Ltac by_table s s' T := match goal with |- ?L = _ => let f := eval pattern s in L in match f with ?g s => transitivity (g (tabled s)); [reflexivity|rewrite T; reflexivity] end end.
Theorem C118_bsplit d stdin name args args' : same_meaning bsplit_switches bsplit_pos args args' ->
  bsplit_run d stdin args = bsplit_run d stdin args' /\ forall files, bsplit_tells files name args = bsplit_tells files name args'.
Proof.
  intros H. destruct (both_accepted _ _ bsplit_init _ _ H) as (s & s' & E & E' & T). split; [|intros files].
  - unfold bsplit_run, bsplit. rewrite E, E'. cbn [bind]. by_table s s' T.
  - unfold bsplit_tells. rewrite E, E'. cbn [bind]. by_table s s' T.
Qed.
Print Assumptions C118_bsplit.
Theorem C118_ppm2pwg d stdin name args args' : same_meaning ppm2pwg_switches ppm2pwg_pos args args' ->
  ppm2pwg_run d stdin args = ppm2pwg_run d stdin args' /\ forall files, ppm2pwg_tells files name args = ppm2pwg_tells files name args'.
Proof.
  intros H. destruct (both_accepted _ _ ppm2pwg_init _ _ H) as (s & s' & E & E' & T). split; [|intros files].
  - unfold ppm2pwg_run. rewrite E, E'. cbn [bind]. by_table s s' T.
  - unfold ppm2pwg_tells. rewrite E, E'. cbn [bind]. by_table s s' T.
Qed.
Print Assumptions C118_ppm2pwg.
Theorem C118_pdf2printable pdf_error e name args args' : same_meaning pdf_switches pdf_pos args args' ->
  pdf2printable_cmd e args = pdf2printable_cmd e args' /\ pdf_tells pdf_error e name args = pdf_tells pdf_error e name args'.
Proof.
  intros H. destruct (both_accepted _ _ pdf_init _ _ H) as (s & s' & E & E' & T). split.
  - unfold pdf2printable_cmd. rewrite E, E'. cbn [bind]. by_table s s' T.
  - unfold pdf_tells. rewrite E, E'. cbn [bind]. by_table s s' T.
Qed.
Print Assumptions C118_pdf2printable.
Theorem C118_ippclient pdf_error e junk name command defs pos args args' : sub_command client_subs command (defs, pos) -> same_meaning defs pos args args' ->
  client e junk (command :: args) = client e junk (command :: args') /\ say_client pdf_error e junk name (command :: args) = say_client pdf_error e junk name (command :: args').
Proof.
  intros C H. destruct (both_accepted _ _ (client_init junk) _ _ H) as (s & s' & E & E' & T). apply find_sub_command in C. split.
  - unfold client, sub_get_args. rewrite C, E, E'. cbn [bind]. by_table s s' T.
  - unfold say_client, sub_get_args. rewrite C, E, E'. cbn [bind]. by_table s s' T.
Qed.
Print Assumptions C118_ippclient.

(** ** Examples *)
Ltac not_named := let e := fresh in let He := fresh in let F := fresh in intros e He; repeat destruct He as [<-|He]; try destruct He; cbn; intros F; repeat destruct F as [F|F]; try discriminate F; exact F.
Ltac known_at defs k := exists (firstn k defs), (skipn (S k) defs); split; [reflexivity|split; [cbn; tauto|not_named]].
Definition three : list given := [mkGiven ["-d"] 8 (ABool true); mkGiven ["-r"; "300"] 5 (AInt 300); mkGiven ["--format"; "urf"] 2 (AInt 3)]%string.
Lemma three_options : Forall (fun o => one_option ppm2pwg_switches (g_words o) (g_var o) (g_val o)) three.
Proof.
  repeat constructor; cbn [g_words g_var g_val].
  - refine (one_flag ppm2pwg_switches "-d" (nth 8 ppm2pwg_switches (mkSwitch 0 KBool [] "")) _ _); [|reflexivity]. known_at ppm2pwg_switches 8%nat.
  - refine (one_value ppm2pwg_switches "-r" "300" (AInt 300) (nth 5 ppm2pwg_switches (mkSwitch 0 KBool [] "")) _ _ _); [|discriminate|apply C24_values; vm_compute; reflexivity]. known_at ppm2pwg_switches 5%nat.
  - refine (one_value ppm2pwg_switches "--format" "urf" (AInt 3) (nth 2 ppm2pwg_switches (mkSwitch 0 KBool [] "")) _ _ _); [|discriminate|apply C24_values; vm_compute; reflexivity]. known_at ppm2pwg_switches 2%nat.
Qed.
Lemma two_files : well_formed ppm2pwg_switches ppm2pwg_pos ["in.ppm"; "out"]%string (pos_assigned ppm2pwg_pos ["in.ppm"; "out"]%string).
Proof.
  exists [], ["in.ppm"; "out"]%string, []. split; [reflexivity|]. split; [constructor|]. split; [|reflexivity]. split; [cbn; lia|]. split; [intros p []|]. not_named.
Qed.
Example C118_example : forall d stdin, ppm2pwg_run d stdin ["-d"; "-r"; "300"; "--format"; "urf"; "in.ppm"; "out"]%string = ppm2pwg_run d stdin ["--format"; "urf"; "-r"; "300"; "-d"; "in.ppm"; "out"]%string
  /\ ppm2pwg_run d stdin ["-r"; "600"; "-d"; "-r"; "300"; "in.ppm"; "out"]%string = ppm2pwg_run d stdin ["-d"; "-r"; "300"; "in.ppm"; "out"]%string
  /\ ppm2pwg_run d stdin ["-r"; "300"; "in.ppm"; "out"]%string = ppm2pwg_run d stdin ["--resolution"; " +0300"; "in.ppm"; "out"]%string.
Proof.
  intros d stdin. pose proof three_options as F. inversion F as [|? ? F1 F']; subst. inversion F' as [|? ? F2 F'']; subst. inversion F'' as [|? ? F3 _]; subst. split; [|split].
  - refine (proj1 (C118_ppm2pwg d stdin "" _ _ (C118_any_order _ _ three (rev three) _ _ F _ (Permutation_rev _) two_files))). cbn. repeat constructor; cbn; intuition discriminate.
  - refine (proj1 (C118_ppm2pwg d stdin "" _ _ (C118_again _ _ [] ["-r"; "600"]%string 5 (AInt 600) [mkGiven ["-d"%string] 8 (ABool true)] ["-r"; "300"]%string (AInt 300) _ _ _ _ _ F2 two_files))); [constructor| |constructor; [exact F1|constructor]].
    refine (one_value ppm2pwg_switches "-r" "600" (AInt 600) (nth 5 ppm2pwg_switches (mkSwitch 0 KBool [] "")) _ _ _); [|discriminate|apply C24_values; vm_compute; reflexivity]. known_at ppm2pwg_switches 5%nat.
  - refine (proj1 (C118_ppm2pwg d stdin "" _ _ (C118_synonym _ _ [] ["-r"; "300"]%string ["--resolution"; " +0300"]%string 5 (AInt 300) _ _ _ F2 _ two_files))); [constructor|].
    refine (one_value ppm2pwg_switches "--resolution" " +0300" (AInt 300) (nth 5 ppm2pwg_switches (mkSwitch 0 KBool [] "")) _ _ _); [|discriminate|apply C24_values; vm_compute; reflexivity]. known_at ppm2pwg_switches 5%nat.
Qed.
(** for ippclient the margin of one side and the margin of all sides *)
Definition margins : list given := [mkGiven ["-tm"; "300"] 22 (AInt 300); mkGiven ["-m"; "500"] 21 (AInt 500)]%string.
Example C118_client_example : forall pdf_error e junk name,
  say_client pdf_error e junk name ["print"; "-tm"; "300"; "-m"; "500"; "ipp://p/"; "f.pdf"]%string = say_client pdf_error e junk name ["print"; "-m"; "500"; "-tm"; "300"; "ipp://p/"; "f.pdf"]%string.
Proof.
  intros pdf_error e junk name.
  assert (F : Forall (fun o => one_option print_switches (g_words o) (g_var o) (g_val o)) margins).
  { repeat constructor; cbn [g_words g_var g_val].
    - refine (one_value print_switches "-tm" "300" (AInt 300) (nth 22 print_switches (mkSwitch 0 KBool [] "")) _ _ _); [|discriminate|apply C24_values; vm_compute; reflexivity]. known_at print_switches 22%nat.
    - refine (one_value print_switches "-m" "500" (AInt 500) (nth 21 print_switches (mkSwitch 0 KBool [] "")) _ _ _); [|discriminate|apply C24_values; vm_compute; reflexivity]. known_at print_switches 21%nat. }
  assert (W : well_formed print_switches [pAddr; pFile] ["ipp://p/"; "f.pdf"]%string (pos_assigned [pAddr; pFile] ["ipp://p/"; "f.pdf"]%string)).
  { exists [], ["ipp://p/"; "f.pdf"]%string, []. split; [reflexivity|]. split; [constructor|]. split; [|reflexivity]. split; [cbn; lia|]. split; [intros p []|]. not_named. }
  refine (proj2 (C118_ippclient pdf_error e junk name "print" print_switches [pAddr; pFile] _ _ _ (C118_any_order _ _ margins (rev margins) _ _ F _ (Permutation_rev _) W))).
  - exists (firstn 6 client_subs), []. split; [reflexivity|]. intros d' [].
  - cbn. repeat constructor; cbn; intuition discriminate.
Qed.
