(** The client of SayModel does what the client of ClientModel does. *)
From Verif Require Import Base MapModel StringModel ParamsModel IppModel JsonModel ArgModel HelpModel SettingModel ConverterModel JobModel PrinterModel SettingsModel ClientModel OutputModel SayModel PrinterProperties OutputProperties.
Local Open Scope Z_scope.

(** ** Options *)
Definition erase {A} (x : outcome (A + string)) : outcome (option A) := let! o := x in Ok (match o with inl j => Some j | inr _ => None end).
Lemma erase_bind x y k k' : erase x = y -> (forall j, erase (k j) = k' j) -> erase (sbind x k) = obind y k'.
Proof. intros <- H. unfold erase, sbind, obind. destruct x as [[j|m]| | | |]; try reflexivity. cbn [bind]. apply H. Qed.
Lemma erase_or_fail given doc hint supported supports force set j : erase (say_or_fail given doc hint supported supports force set j) = set_or_fail given supports force set j.
Proof. unfold say_or_fail, set_or_fail. destruct given; [|reflexivity]. destruct supports as [ok| | | |]; try reflexivity. cbn [bind]. destruct (ok || force); [|reflexivity]. destruct (set j); reflexivity. Qed.
Lemma erase_guard {A} (g : outcome A) (k : A -> outcome (job + string)) k' : (forall a, erase (k a) = k') -> erase (let! a := g in k a) = let! _ := g in k'.
Proof. intros H. destruct g; try reflexivity. cbn [bind]. apply H. Qed.
Ltac step := apply erase_bind; [apply erase_or_fail|intros ?].
Lemma erase_margin st force j : erase (say_margin st force j) = margin_option st force j.
Proof. unfold say_margin, margin_option. destruct (a_set st 21); [|reflexivity]. destruct (negb force && _); [reflexivity|]. cbv zeta. do 3 step. apply erase_or_fail. Qed.
Lemma erase_later st force j : erase (say_later st force j) = later_options st force j.
Proof.
  unfold say_later, later_options. apply erase_guard. intros l. cbv zeta. do 4 step. apply erase_guard. intros names. do 7 step. apply erase_bind; [apply erase_margin|intros ?]. do 3 step. apply erase_or_fail.
Qed.
Lemma erase_copies st pa force j : erase (say_copies st pa force j) = copies_option st pa force j.
Proof. unfold say_copies, copies_option. destruct (if force then Ok true else supportsPrinterRaster pa); try reflexivity. cbn [bind]. cbv zeta. apply erase_or_fail. Qed.
Lemma erase_other help st pa force j : erase (say_other help st pa force j) = other_options st pa force j.
Proof.
  unfold say_other, other_options. apply erase_bind; [apply erase_copies|intros ?]. do 2 step. destruct (negb _); [reflexivity|]. apply erase_later.
Qed.
Lemma erase_pages help st j : erase (say_pages help st j) = pages_option st j.
Proof. unfold say_pages, pages_option. destruct (a_set st 4); [|reflexivity]. destruct (parsePageRange _) as [l| | | |]; try reflexivity. cbn [bind]. destruct l; [reflexivity|]. destruct (set_job _ _ _); reflexivity. Qed.
Lemma erase_options help st pa force j : erase (say_options help st pa force j) = apply_options st pa force j.
Proof. unfold say_options, apply_options. apply erase_bind; [apply erase_pages|intros ?]. apply erase_other. Qed.
Lemma erase_prepare help e st pa : erase (say_prepare help e st pa) = prepare e st pa.
Proof.
  unfold say_prepare, prepare. destruct (createJob pa); try reflexivity. cbn [bind]. destruct (if as_bool (a_val st 28) then _ else _); try reflexivity. cbn [bind]. cbv zeta.
  destruct (input_format e st); [|reflexivity]. rewrite <- (erase_options help). destruct (say_options _ _ _ _ _) as [[j|m]| | | |]; reflexivity.
Qed.

(** ** Printing *)
(** the second does what the first does and says something *)
Definition also {A B} (f : B -> A) (x : list event * outcome A) (y : list event * outcome B) : Prop := fst x = fst y /\ snd x = let! b := snd y in Ok (f b).
Lemma also_pure {A B} (f : B -> A) x y : x = (let! b := y in Ok (f b)) -> also f (pure x) (pure y).
Proof. intros ->. split; reflexivity. Qed.
Lemma also_bind {A B C D} (f : B -> A) (g : D -> C) (x : list event * outcome A) y k k' : also f x y -> (forall b, also g (k (f b)) (k' b)) -> also g (ebind x k) (ebind y k').
Proof.
  intros [E1 E2] H. unfold also, ebind. rewrite E1, E2. destruct y as [ev [b| | | |]]; cbn [snd fst bind]; try (split; reflexivity). destruct (H b) as [H1 H2]. rewrite H1, H2. split; reflexivity.
Qed.
Lemma also_same {A C D} (g : D -> C) (x : list event * outcome A) k k' : (forall b, also g (k b) (k' b)) -> also g (ebind x k) (ebind x k').
Proof. intros H. apply (also_bind (fun b => b)); [|exact H]. split; [reflexivity|]. destruct (snd x); reflexivity. Qed.
Lemma also_print w p j f c hdr : also snd (do_print w p j f c hdr) (say_print w p j f c hdr).
Proof.
  unfold also, do_print, say_print. cbn [fst snd]. split; [reflexivity|]. destruct (compression_of j); try reflexivity. cbn [bind]. destruct (w_convert w c f j) as [[e|]| | | |]; try reflexivity. cbn [bind].
  destruct (w_await _ _ _ _ _ _ _); [reflexivity|]. destruct (decodeMsg body) as [[r ?]| | | |]; try reflexivity. cbn [bind]. destruct (_ <? _).
  - destruct (m_jobAttrs r); [reflexivity|]. destruct (pr_printJobId p); [|reflexivity]. destruct (get_int_attr _ _); reflexivity.
  - destruct (get_str_attr _ _ _); reflexivity.
Qed.
Lemma also_print_to_file w j f c : also snd (do_print_to_file w j f c) (say_print_to_file w j f c).
Proof. unfold do_print_to_file, say_print_to_file. apply also_same. intros ext. split; [reflexivity|]. cbn [snd]. destruct (w_convert w c f j) as [[e|]| | | |]; reflexivity. Qed.
Ltac same := apply also_same; intros ?.
Lemma also_job_body w p id j f fmt n : also snd (run_job_body w p id j f fmt n) (say_job_body w p id j f fmt n).
Proof.
  unfold run_job_body, say_job_body. cbv zeta. same. same. destruct b0 as [[e|] j']; [split; reflexivity|]. destruct (getConvertFun fmt (j_target j')) as [c|]; [|split; reflexivity].
  destruct (string_starts_with (pr_addr p) "file://"); [apply (also_bind snd snd); [apply also_print_to_file|intros r; split; reflexivity]|].
  destruct (_ && _).
  - same. same. destruct b1 as [[e|] resp]; [split; reflexivity|]. destruct (_ && _).
    + do 3 same. apply also_print.
    + same. split; reflexivity.
  - do 2 same. apply also_print.
Qed.
Lemma also_job w p id j f fmt n : also snd (run_job w p id j f fmt n) (say_job w p id j f fmt n).
Proof. unfold run_job, say_job. destruct (also_job_body w p id (copy_job j) f fmt n) as [E1 E2]. split; [exact E1|]. cbn [snd]. rewrite E2. destruct (snd (say_job_body w p id (copy_job j) f fmt n)); reflexivity. Qed.

(** ** Commands *)
(** the exit codes are the same, and so are the requests *)
Definition same_run (x : list event * outcome Z) (y : list event * outcome said) : Prop :=
  fst x = fst y /\ (forall s, snd y = Ok s -> snd x = Ok (s_code s)) /\ (forall c, snd x = Ok c -> exists s, snd y = Ok s).
Lemma same_also x y : also s_code x y -> same_run x y.
Proof. intros [E1 E2]. split; [exact E1|]. rewrite E2. split; [intros s ->; reflexivity|]. intros c H. destruct (snd y); try discriminate. eauto. Qed.
Lemma same_ends ev what (x : list event * outcome (option string)) : also s_code (do! error := x in pure (Ok (exit_code error))) (do! error := x in pure (Ok (ends what ev error))).
Proof. same. destruct b; split; reflexivity. Qed.
Lemma bad_pair_none l : bad_pair l = None <-> key_values l <> None.
Proof.
  induction l as [|kv l IH]; cbn [bad_pair key_values]; [split; [discriminate|reflexivity]|]. destruct (key_value kv); [|split; [discriminate|congruence]]. rewrite IH. destruct (key_values l); split; congruence.
Qed.
Lemma same_set_attrs e st p id : also s_code (set_attrs_command e st p id) (say_set_attrs e st p id).
Proof.
  unfold set_attrs_command, say_set_attrs. cbv zeta. set (l := split_string _ _). pose proof (bad_pair_none l) as B. destruct (bad_pair l) as [kv|], (key_values l) as [kvs|].
  - destruct B as [_ B]. exfalso. discriminate B. discriminate.
  - split; reflexivity.
  - apply same_ends.
  - destruct B as [B _]. exfalso. exact (B eq_refl eq_refl).
Qed.
Lemma same_cancel e st p id : also s_code (cancel_command e st p id) (say_cancel e st p id).
Proof. unfold cancel_command, say_cancel. destruct (a_set st 29); [apply same_ends|split; reflexivity]. Qed.
Lemma same_print pdf help e st p id : also s_code (print_command e st p id) (say_print_command pdf help e st p id).
Proof.
  unfold print_command, say_print_command. pose proof (erase_prepare help e st (pr_attrs p)) as E. apply (also_bind (fun o : job * string + string => match o with inl x => Some x | inr _ => None end)); [split; [reflexivity|symmetry; exact E]|].
  intros [[j fmt]|m]; [|split; reflexivity]. destruct (count_pages e fmt _) as [[f n]|]; [|split; reflexivity]. same. destruct b; [|split; reflexivity]. cbn [negb]. apply (also_bind snd); [apply also_job|]. intros [[out err] [m|]]; split; reflexivity.
Qed.
Theorem say_client_same pdf e junk name args : same_run (client e junk args) (say_client pdf e junk name args).
Proof.
  assert (PU : forall c o r, same_run (pure (Ok c)) (pure (Ok (mkSaid o r c)))) by (intros c o r; apply same_also; split; reflexivity).
  assert (B : forall A (x : list event * outcome A) k k', (forall a, same_run (k a) (k' a)) -> same_run (ebind x k) (ebind x k')).
  { intros A x k k' H. unfold ebind. destruct (snd x) as [a| | | |]; try (split; [reflexivity|split; intros ? ?; discriminate]). destruct (H a) as (H1 & H2 & H3). split; [cbn [fst]; rewrite H1; reflexivity|]. split; [exact H2|exact H3]. }
  unfold client, say_client. apply B. intros [[[ok sub] msg] st]. cbv zeta. destruct (as_bool (a_val st 0)); [apply PU|]. destruct ok; [|apply PU]. cbn [negb]. apply B. intros [[error pa] id]. destruct error; [apply PU|].
  destruct (String.eqb sub "info").
  { unfold pure at 1. rewrite ebind_pure. pose proof (C88_info_exit pa) as I. destruct (info_text pa) as [t| | | |] eqn:T; cbn [pure]; (split; [reflexivity|]); cbn [snd pure]; (split; [intros s E; try discriminate|intros c E]).
    1: { injection E as <-. apply I. eauto. }
    1: { eauto. }
    all: exfalso; assert (c = 0) by (unfold info_command in E; repeat (match type of E with (let! _ := ?x in _) = Ok _ => destruct x; try discriminate E; cbn [bind] in E end); congruence); subst c; destruct (proj2 I E) as [t' X]; discriminate X. }
  destruct (String.eqb sub "identify"); [apply same_also, same_ends|]. destruct (String.eqb sub "get-attrs"); [apply PU|]. destruct (String.eqb sub "set-attrs"); [apply same_also, same_set_attrs|].
  destruct (String.eqb sub "get-jobs"); [apply same_also; same; destruct b as [[|] ?]; split; reflexivity|]. destruct (String.eqb sub "cancel-job"); [apply same_also, same_cancel|]. destruct (String.eqb sub "print"); [apply same_also, same_print|]. apply PU.
Qed.
